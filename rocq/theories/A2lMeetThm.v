(** What two forms have in common is described by the same words. *)
From Coq Require Import String Ascii List Arith NArith ZArith Bool Lia SpecFloat.
From Verif Require Import GoBase A2lIR A2lGrammar A2lForms A2lTripSpec.
Import ListNotations.

Scheme den_mut := Minimality for den Sort Prop
  with parts_mut := Minimality for parts Sort Prop.
Combined Scheme den_parts_ind from den_mut, parts_mut.

Lemma howEqb_eq : forall x y, howEqb x y = true -> x = y.
Proof. intros [] []; cbn; try discriminate; try reflexivity. intros H. apply Nat.eqb_eq in H. congruence. Qed.
Lemma optEqb_eq : forall x y, optEqb x y = true -> x = y.
Proof. intros [x|] [y|]; cbn; try discriminate; try reflexivity. intros H. apply String.eqb_eq in H. congruence. Qed.
Lemma numEqb_eq : forall x y, numEqb x y = true -> x = y.
Proof. intros [] []; cbn; try discriminate; try reflexivity; intros H; apply N.eqb_eq in H; congruence. Qed.
Lemma constEqb_eq : forall x y, constEqb x y = true -> x = y.
Proof. intros [] []; cbn; try discriminate; try reflexivity. intros H. apply String.eqb_eq in H. congruence. Qed.
Lemma placeEqb_eq : forall x y, placeEqb x y = true -> x = y.
Proof. intros [] []; cbn; try discriminate; try reflexivity. intros H. apply String.eqb_eq in H. congruence. Qed.
Lemma fixedEqb_eq : forall x y, fixedEqb x y = true -> x = y.
Proof. intros [x c] [y d] H. apply andb_true_iff in H. destruct H as [H1 H2]. apply String.eqb_eq in H1. apply constEqb_eq in H2. cbn in *. congruence. Qed.
Lemma listEqb_eq : forall A (eqb : A -> A -> bool), (forall x y, eqb x y = true -> x = y) -> forall l m, listEqb eqb l m = true -> l = m.
Proof.
  intros A eqb E. induction l as [|x l IH]; intros [|y m]; cbn; try discriminate; [reflexivity|].
  intros H. apply andb_true_iff in H. destruct H as [H1 H2]. apply E in H1. apply IH in H2. congruence.
Qed.
Lemma strings_eq : forall l m, listEqb String.eqb l m = true -> l = m.
Proof. apply listEqb_eq. apply String.eqb_eq. Qed.
Lemma fixeds_eq : forall l m, listEqb fixedEqb l m = true -> l = m.
Proof. apply listEqb_eq. apply fixedEqb_eq. Qed.

Section Meet.
  Variable pf : bytes -> option spec_float.

  Lemma meetType_stands : forall t u r stop w v, meetType t u = Some r -> stands pf stop r w v -> stands pf stop t w v /\ stands pf stop u w v.
  Proof.
    intros t u r stop w v M [N H]. unfold stands. destruct t, u; cbn in M; try discriminate; try (injection M as <-); auto.
    - cbn in H. destruct H as ((s & I & ->) & ->). apply filter_In in I. destruct I as [I F]. apply negb_true_iff in F. repeat split; auto. eauto.
    - destruct (numEqb n n0) eqn:E; [|discriminate]. apply numEqb_eq in E. injection M as <-. subst n0. auto.
    - cbn in H. destruct H as ((s & I & ->) & ->). apply filter_In in I. destruct I as [I F]. apply negb_true_iff in F. repeat split; auto. eauto.
    - cbn in H. destruct H as ((s & I & ->) & ->). apply filter_In in I. destruct I as [I F].
      apply existsb_exists in F. destruct F as (s' & I' & F). apply String.eqb_eq in F. subst s'. repeat split; auto; eauto.
  Qed.

  (** Where a parameter goes *)
  Definition goal (p : param) : how * string * option string := (p_how p, p_field p, p_flag p).
  Lemma meetParam_inv : forall p q r, meetParam p q = Some r -> goal r = goal p /\ goal r = goal q /\ meetType (p_type p) (p_type q) = Some (p_type r).
  Proof.
    intros p q r H. unfold meetParam in H. destruct (howEqb _ _) eqn:E1; [|discriminate]. destruct (String.eqb _ _) eqn:E2; [|discriminate].
    destruct (optEqb _ _) eqn:E3; [|discriminate]. cbn [andb] in H. destruct (meetType _ _); [|discriminate]. injection H as <-.
    apply howEqb_eq in E1. apply String.eqb_eq in E2. apply optEqb_eq in E3. unfold goal. cbn. rewrite <- E1, <- E2, <- E3. auto.
  Qed.
  Lemma meetParams_goals : forall ps qs rs, meetParams ps qs = Some rs -> map goal rs = map goal ps /\ map goal rs = map goal qs.
  Proof.
    induction ps as [|p ps IH]; intros [|q qs] rs H; cbn in H; try discriminate; [injection H as <-; auto|].
    destruct (meetParam p q) as [r|] eqn:E; [|discriminate]. destruct (meetParams ps qs) as [rs'|] eqn:E2; [|discriminate]. injection H as <-.
    destruct (IH _ _ E2) as [A B]. apply meetParam_inv in E. destruct E as (C & D & _). cbn. rewrite <- A, <- C. split; [congruence|congruence].
  Qed.
  Lemma meetParams_words : forall stop rs ts vs, words pf stop rs ts vs -> forall ps qs, meetParams ps qs = Some rs ->
      words pf stop ps ts vs /\ words pf stop qs ts vs.
  Proof.
    intros stop rs ts vs W. induction W as [|r rs t ts v vs S W IH]; intros ps qs H.
    - destruct ps as [|p ps], qs as [|q qs]; cbn in H; try discriminate; [split; constructor|].
      destruct (meetParam p q); [|discriminate]. destruct (meetParams ps qs); discriminate.
    - destruct ps as [|p ps], qs as [|q qs]; cbn in H; try discriminate.
      destruct (meetParam p q) as [r'|] eqn:E; [|discriminate]. destruct (meetParams ps qs) as [rs'|] eqn:E2; [|discriminate]. injection H as -> ->.
      apply meetParam_inv in E. destruct E as (_ & _ & E). destruct (IH _ _ E2). destruct (meetType_stands _ _ _ _ _ _ E S). split; constructor; assumption.
  Qed.
  Lemma stores_goals : forall m ps qs vs o, map goal ps = map goal qs -> stores m ps vs o = stores m qs vs o.
  Proof.
    intros m ps. unfold stores. induction ps as [|p ps IH]; intros [|q qs] vs o H; try discriminate; [reflexivity|].
    cbn [map] in H. assert (G : goal p = goal q) by congruence. assert (G' : map goal ps = map goal qs) by congruence.
    destruct vs as [|v vs]; [reflexivity|]. cbn [combine fold_left]. rewrite (IH qs vs _ G'). f_equal. unfold store. cbn [fst snd].
    injection G as -> -> ->. reflexivity.
  Qed.
  Lemma meetParams_repeats : forall stop m rs n ts o o', repeats pf stop m rs n ts o o' -> forall ps qs, meetParams ps qs = Some rs ->
      repeats pf stop m ps n ts o o' /\ repeats pf stop m qs n ts o o'.
  Proof.
    intros stop m rs n ts o o' R. induction R as [o|n ts ts' vs o o' W R IH]; intros ps qs H; [split; constructor|].
    destruct (IH _ _ H). destruct (meetParams_words _ _ _ _ W _ _ H). destruct (meetParams_goals _ _ _ H) as [G1 G2].
    split; eapply r_cons; eauto; [rewrite <- (stores_goals _ rs ps)|rewrite <- (stores_goals _ rs qs)]; assumption.
  Qed.
  Lemma meetGroup_repeated : forall stop k g h ts o o', repeated pf stop k ts o o' -> meetGroup g h = Some k ->
      repeated pf stop g ts o o' /\ repeated pf stop h ts o o'.
  Proof.
    intros stop k g h ts o o' R H. destruct g as [|ps|c ps], h as [|qs|d qs]; cbn in H; try discriminate.
    - injection H as <-. auto.
    - destruct (meetParams ps qs) as [rs|] eqn:E; [|discriminate]. injection H as <-. destruct R as [n R]. destruct (meetParams_repeats _ _ _ _ _ _ _ R _ _ E). split; eexists; eassumption.
    - destruct (String.eqb c d) eqn:CD; [|discriminate]. apply String.eqb_eq in CD. subst d. destruct (meetParams ps qs) as [rs|] eqn:E; [|discriminate]. injection H as <-.
      destruct R as (n & N1 & N2 & F & R). destruct (meetParams_repeats _ _ _ _ _ _ _ R _ _ E). split; exists n; auto.
  Qed.

  Definition meetItems (its its' : list item) : list item :=
    flat_map (fun x => match x with Item kw f p sub =>
      flat_map (fun y => match y with Item kw' f' p' sub' =>
        if String.eqb kw kw' && String.eqb f f' && placeEqb p p' then
          match meet sub sub' with Some s => [Item kw f p s] | None => [] end
        else [] end) its' end) its.
  Lemma meetItems_in : forall its its' kw f p s, In (Item kw f p s) (meetItems its its') ->
      exists sub sub', In (Item kw f p sub) its /\ In (Item kw f p sub') its' /\ meet sub sub' = Some s.
  Proof.
    intros its its' kw f p s H. apply in_flat_map in H. destruct H as ([kw1 f1 p1 s1] & I1 & H).
    apply in_flat_map in H. destruct H as ([kw2 f2 p2 s2] & I2 & H).
    destruct (String.eqb kw1 kw2) eqn:E1; [|destruct H]. destruct (String.eqb f1 f2) eqn:E2; [|destruct H]. destruct (placeEqb p1 p2) eqn:E3; [|destruct H]. cbn [andb] in H.
    apply String.eqb_eq in E1. apply String.eqb_eq in E2. apply placeEqb_eq in E3. subst kw2 f2 p2.
    destruct (meet s1 s2) as [s'|] eqn:M; [|destruct H]. destruct H as [H|[]]. injection H as -> -> -> ->. eauto.
  Qed.

  Lemma meet_follows : forall f g h t, meet f g = Some h -> follows h t = follows f t /\ follows h t = follows g t.
  Proof.
    intros f g h t H. destruct f, g; cbn [meet] in H; try discriminate.
    - destruct (meetType _ _); [|discriminate]. injection H as <-. auto.
    - destruct (listEqb _ _ _); [|discriminate]. destruct (meetParams _ _); [|discriminate]. injection H as <-. auto.
    - destruct (listEqb fixedEqb _ _); [|discriminate]. destruct (listEqb String.eqb _ _) eqn:E; [|discriminate]. cbn [andb] in H. apply strings_eq in E. subst.
      destruct (meetParams ps _); [|discriminate]. destruct (meetParams gs _); [|discriminate]. injection H as <-. auto.
    - destruct (_ && _); [|discriminate]. destruct (meetParams _ _); [|discriminate]. destruct (meetGroup _ _); [|discriminate]. injection H as <-. auto.
  Qed.

  Lemma meet_den_parts :
    (forall h ts v, den pf h ts v -> forall f g, meet f g = Some h -> den pf f ts v /\ den pf g ts v)
    /\ (forall its stop ts o o', parts pf its stop ts o o' -> forall its1 its2, incl its (meetItems its1 its2) ->
          parts pf its1 stop ts o o' /\ parts pf its2 stop ts o o').
  Proof.
    apply (den_parts_ind pf (fun h ts v => forall f g, meet f g = Some h -> den pf f ts v /\ den pf g ts v)
      (fun its stop ts o o' => forall its1 its2, incl its (meetItems its1 its2) -> parts pf its1 stop ts o o' /\ parts pf its2 stop ts o o')).
    - intros ty t v S f g H. destruct f, g; cbn [meet] in H; try discriminate.
      + destruct (meetType _ _) eqn:E; [|discriminate]. injection H as ->. destruct (meetType_stands _ _ _ _ _ _ E S). split; constructor; assumption.
      + destruct (listEqb _ _ _); [|discriminate]. destruct (meetParams _ _); discriminate.
      + destruct (_ && _); [|discriminate]. destruct (meetParams _ _); [|discriminate]. destruct (meetParams _ _); discriminate.
      + destruct (_ && _); [|discriminate]. destruct (meetParams _ _); [|discriminate]. destruct (meetGroup _ _); discriminate.
    - intros rs cs ts vs W f g H. destruct f, g; cbn [meet] in H; try discriminate.
      + destruct (meetType _ _); discriminate.
      + destruct (listEqb _ _ _) eqn:C; [|discriminate]. apply fixeds_eq in C. destruct (meetParams _ _) eqn:E; [|discriminate]. injection H as -> ->. subst.
        destruct (meetParams_words _ _ _ _ W _ _ E). destruct (meetParams_goals _ _ _ E) as [G1 G2].
        split; [rewrite (stores_goals _ rs ps) by assumption|rewrite (stores_goals _ rs ps0) by assumption]; constructor; assumption.
      + destruct (_ && _); [|discriminate]. destruct (meetParams _ _); [|discriminate]. destruct (meetParams _ _); discriminate.
      + destruct (_ && _); [|discriminate]. destruct (meetParams _ _); [|discriminate]. destruct (meetGroup _ _); discriminate.
    - intros rs ks cs nexts ts ts' vs o W R f g H. destruct f, g; cbn [meet] in H; try discriminate.
      + destruct (meetType _ _); discriminate.
      + destruct (listEqb _ _ _); [|discriminate]. destruct (meetParams _ _); discriminate.
      + destruct (listEqb fixedEqb _ _) eqn:C; [|discriminate]. destruct (listEqb String.eqb _ _) eqn:C2; [|discriminate]. cbn [andb] in H. apply fixeds_eq in C. apply strings_eq in C2. subst.
        destruct (meetParams ps _) as [rs1|] eqn:E; [|discriminate]. destruct (meetParams gs _) as [rs2|] eqn:E2; [|discriminate]. injection H as -> -> -> ->.
        destruct (meetParams_words _ _ _ _ W _ _ E). destruct (meetParams_goals _ _ _ E) as [G1 G2]. destruct R as [n R]. destruct (meetParams_repeats _ _ _ _ _ _ _ R _ _ E2) as [R1 R2].
        split; [rewrite (stores_goals _ rs ps) in R1 by assumption|rewrite (stores_goals _ rs ps0) in R2 by assumption]; eapply d_ahead; eauto; eexists; eassumption.
      + destruct (_ && _); [|discriminate]. destruct (meetParams _ _); [|discriminate]. destruct (meetGroup _ _); discriminate.
    - intros ms rs k its stop cs ts ts' ts'' vs o o' W R PA IH f g H. destruct f, g; cbn [meet] in H; try discriminate.
      + destruct (meetType _ _); discriminate.
      + destruct (listEqb _ _ _); [|discriminate]. destruct (meetParams _ _); discriminate.
      + destruct (_ && _); [|discriminate]. destruct (meetParams _ _); [|discriminate]. destruct (meetParams _ _); discriminate.
      + destruct (listEqb String.eqb _ _) eqn:C1; [|discriminate]. destruct (String.eqb _ _) eqn:C2; [|discriminate]. destruct (listEqb fixedEqb _ _) eqn:C3; [|discriminate]. cbn [andb] in H.
        apply strings_eq in C1. apply String.eqb_eq in C2. apply fixeds_eq in C3. subst.
        destruct (meetParams _ _) as [rs1|] eqn:E; [|discriminate]. destruct (meetGroup _ _) as [k1|] eqn:E2; [|discriminate].
        assert (H' : rs1 = rs /\ k1 = k /\ meetItems its0 its1 = its /\ maps0 = ms /\ stop1 = stop /\ cs1 = cs) by (injection H; intros; auto 10).
        destruct H' as (-> & -> & <- & -> & -> & ->). destruct (IH its0 its1 (incl_refl _)).
        destruct (meetParams_words _ _ _ _ W _ _ E). destruct (meetParams_goals _ _ _ E) as [G1 G2]. destruct (meetGroup_repeated _ _ _ _ _ _ _ R E2) as [R1 R2].
        split; [rewrite (stores_goals _ rs ps) in R1 by assumption|rewrite (stores_goals _ rs ps0) in R2 by assumption]; eapply d_block; eauto.
    - intros its stop o its1 its2 I. split; constructor.
    - intros its stop kw f p sub ts ts' v o o' IN D IHd FO PA IHp its1 its2 I. destruct (meetItems_in _ _ _ _ _ _ (I _ IN)) as (s1 & s2 & I1 & I2 & M).
      destruct (IHd _ _ M). destruct (IHp _ _ I). destruct (meet_follows _ _ _ (hd (b stop) ts') M) as [F1 F2].
      split; eapply p_cons; eauto; congruence.
  Qed.
End Meet.

(** ** Words that describe an object in the common form describe it in both. *)
Lemma meet_den : forall pf f g h ts v, meet f g = Some h -> den pf h ts v -> den pf f ts v /\ den pf g ts v.
Proof. intros pf f g h ts v M D. exact (proj1 (meet_den_parts pf) h ts v D f g M). Qed.
