(** A positive answer of the decision procedure of A2lSym.v is right: what the
    parser returns, if it returns, is what the form says. *)
From Coq Require Import String Ascii List Arith NArith ZArith Bool Lia SpecFloat.
From Verif Require Import GoBase GoBaseFacts A2lIR A2lTokens A2lCheck A2lGrammar A2lSym.
Import ListNotations.

(** ** Decidable equalities *)

Lemma mem_In : forall f l, mem f l = true <-> In f l.
Proof.
  intros f l. unfold mem. rewrite existsb_exists. split.
  - intros (x & I & E). apply String.eqb_eq in E. subst x. exact I.
  - intros I. exists f. split; [exact I|apply String.eqb_refl].
Qed.
Lemma num_eqb_eq : forall m n, num_eqb m n = true -> m = n.
Proof. intros [x|x|] [y|y|] H; cbn in H; try discriminate; try apply N.eqb_eq in H; congruence. Qed.
Lemma aval_eqb_eq : forall x y, aval_eqb x y = true -> x = y.
Proof.
  intros [p| |s|] [q| |t|] H; cbn in H; try discriminate; try reflexivity.
  - apply Nat.eqb_eq in H. congruence.
  - apply String.eqb_eq in H. congruence.
Qed.
Ltac bools := repeat match goal with
  | H : _ && _ = true |- _ => apply andb_true_iff in H; destruct H
  | H : String.eqb _ _ = true |- _ => apply String.eqb_eq in H
  | H : aval_eqb _ _ = true |- _ => apply aval_eqb_eq in H
  | H : Nat.eqb _ _ = true |- _ => apply Nat.eqb_eq in H
  | H : negb _ = true |- _ => apply negb_true_iff in H
  end.
Lemma act_eqb_eq : forall x y, act_eqb x y = true -> x = y.
Proof. intros [f a|f a|f a|f n a|f a k] [g c|g c|g c|g m c|g c l] H; cbn in H; try discriminate; bools; congruence. Qed.
Lemma acts_eqb_eq : forall l m, acts_eqb l m = true -> l = m.
Proof.
  induction l as [|x l IH]; intros [|y m] H; cbn in H; try discriminate; [reflexivity|]. bools.
  f_equal; [apply act_eqb_eq; assumption|apply IH; assumption].
Qed.
Lemma strs_eqb_eq : forall l m, strs_eqb l m = true -> l = m.
Proof.
  induction l as [|x l IH]; intros [|y m] H; cbn in H; try discriminate; [reflexivity|]. bools.
  f_equal; [assumption|apply IH; assumption].
Qed.
Lemma good_eq : forall n l y, good n l y = true -> y_pos y = n /\ y_err y = false /\ y_acts y = l.
Proof. intros n l y H. unfold good in H. bools. auto using acts_eqb_eq. Qed.

Lemma eqb_empty : forall s, String.eqb s "" = false -> b s <> [].
Proof. intros [|c s] H; [discriminate|]. cbn. discriminate. Qed.

(** ** Words *)

Section Words.
  Variable pf : bytes -> option spec_float.

  Definition never (c : tclass) : bool := match c with TExact _ | TIn _ => false | _ => true end.
  Definition tokFits (c : tclass) (t : bytes) (v : val) : Prop :=
    (never c = true -> t <> []) /\
    match c with
    | TExact s => t = b s /\ v = VStr t
    | TWord => reserved t = false /\ v = VStr t
    | TOther stop => t <> b stop /\ v = VStr t
    | TNum n => reserved t = false /\ readNum pf n t = Some v
    | TIn l => (exists s, In s l /\ t = b s) /\ v = VStr t
    | TKw => isKeyword t = true /\ v = VStr t
    | TSub _ => False
    end.
  Definition part := (list bytes * val)%type.
  Definition fits (c : tclass) (e : part) : Prop :=
    match c with
    | TSub f => den pf f (fst e) (snd e)
    | _ => exists t, fst e = [t] /\ tokFits c t (snd e)
    end.

  Lemma fits_single : forall c e, single c = true -> fits c e -> exists t, fst e = [t] /\ tokFits c t (snd e).
  Proof. intros [s| |s|n|l| |f] e S H; try exact H. discriminate. Qed.

  Lemma b_neq : forall s t, String.eqb s t = false -> b s <> b t.
  Proof. intros s t H E. apply b_inj in E. subst t. rewrite String.eqb_refl in H. discriminate. Qed.
  Lemma beqb_false : forall s t, s <> t -> beqb s t = false.
  Proof. intros s t H. destruct (beqb s t) eqn:E; [|reflexivity]. apply beqb_eq in E. contradiction. Qed.

  Lemma classIs_ok : forall c t v s r, tokFits c t v -> classIs c s = Some r -> beqb t (b s) = r.
  Proof.
    intros c t v s r [N H] E. destruct c as [s'| |stop|n|l| |f]; cbn [classIs] in E.
    - destruct H as [-> _]. injection E as <-. destruct (String.eqb s' s) eqn:Q.
      + apply String.eqb_eq in Q. subst s'. apply beqb_eq. reflexivity.
      + apply beqb_false, b_neq, Q.
    - destruct (String.eqb s "") eqn:Q; [apply String.eqb_eq in Q; subst s; injection E as <-; apply beqb_false; exact (N eq_refl)|].
      destruct (reserved (b s)) eqn:R; [|discriminate]. injection E as <-. apply beqb_false. intros ->. destruct H. congruence.
    - destruct (String.eqb s "") eqn:Q; [apply String.eqb_eq in Q; subst s; injection E as <-; apply beqb_false; exact (N eq_refl)|].
      destruct (String.eqb s stop) eqn:R; [|discriminate]. injection E as <-. apply String.eqb_eq in R. subst s.
      apply beqb_false. apply H.
    - destruct (String.eqb s "") eqn:Q; [apply String.eqb_eq in Q; subst s; injection E as <-; apply beqb_false; exact (N eq_refl)|].
      destruct (reserved (b s)) eqn:R; [|discriminate]. injection E as <-. apply beqb_false. intros ->. destruct H. congruence.
    - destruct (mem s l) eqn:M; [discriminate|]. injection E as <-. destruct H as [(s' & I & ->) _]. apply beqb_false.
      intros Q. apply b_inj in Q. subst s'. apply mem_In in I. congruence.
    - destruct (String.eqb s "") eqn:Q; [|discriminate]. apply String.eqb_eq in Q. subst s. injection E as <-. apply beqb_false. exact (N eq_refl).
    - destruct H.
  Qed.

  Lemma classKw_ok : forall c t v r, tokFits c t v -> classKw c = Some r -> isKeyword t = r.
  Proof.
    assert (R : forall t, reserved t = false -> isKeyword t = false).
    { intros t H. unfold reserved in H. apply orb_false_iff in H. apply H. }
    intros c t v r [N H] E. destruct c as [s'| |stop|n|l| |f]; cbn [classKw] in E; try discriminate.
    - injection E as <-. destruct H as [-> _]. reflexivity.
    - injection E as <-. apply R, H.
    - injection E as <-. apply R, H.
    - destruct H as [(s & I & ->) _]. destruct (forallb (fun s => negb _) l) eqn:Q.
      + injection E as <-. rewrite forallb_forall in Q. apply negb_true_iff. apply (Q s I).
      + destruct (forallb (fun s => isKeyword (b s)) l) eqn:Q'; [|discriminate E]. injection E as <-. rewrite forallb_forall in Q'. apply (Q' s I).
    - injection E as <-. apply H.
  Qed.

  Lemma textual_ok : forall c t v, tokFits c t v -> textual c = true -> v = VStr t.
  Proof. intros [s'| |stop|n|l| |f] t v [N H] E; cbn [textual] in E; try discriminate; try apply H. Qed.

  Lemma selfText_ok : forall table l t, forallb (selfText table) l = true -> (exists s, In s l /\ t = b s) -> findText t table = Some t.
  Proof.
    intros table l t H (s & I & ->). rewrite forallb_forall in H. specialize (H s I). unfold selfText in H.
    destruct (findText (b s) table) as [v|]; [|discriminate H]. apply beqb_eq in H. congruence.
  Qed.
End Words.

(** ** Changes of an object *)

Section Acts.
  Variable env : list part.

  Definition av (a : aval) : val :=
    match a with
    | ATok p => snd (nth p env ([], VObj []))
    | ATrue => VBool true
    | ALit s => VStr (b s)
    | AMap => VMap []
    end.
  Definition ap (o : fields) (a : act) : fields :=
    match a with
    | ASet f a => fset f (av a) o
    | AApp f a => fset f (VList (flist f o ++ [av a])) o
    | ACat f a => fset f (VStr (fstr f o ++ b " " ++ text (av a))) o
    | AFill f n a => fset f (VList (repeat (av a) n)) o
    | APut f a k => fset f (VMap (mput (keyOf k (av a)) (av a) (fmap f o))) o
    end.
  Definition interp (l : list act) (o : fields) : fields := fold_left ap l o.

  Lemma interp_app : forall l m o, interp (l ++ m) o = interp m (interp l o).
  Proof. intros. apply fold_left_app. Qed.

  Lemma ap_other : forall f a o, f <> afield a -> fget f (ap o a) = fget f o.
  Proof. intros f [g a|g a|g a|g n a|g a k] o N; cbn in *; apply fget_other; exact N. Qed.

  Lemma lastOn_spec : forall f l o,
      match lastOn f l with
      | Some a => In a l /\ afield a = f /\ exists o', fget f (interp l o) = fget f (ap o' a)
      | None => fget f (interp l o) = fget f o
      end.
  Proof.
    intros f l o. unfold lastOn. induction l as [|a l IH] using rev_ind; [reflexivity|].
    rewrite fold_left_app. cbn [fold_left]. rewrite interp_app. cbn [interp fold_left].
    destruct (String.eqb f (afield a)) eqn:E.
    - apply String.eqb_eq in E. split; [apply in_or_app; right; left; reflexivity|]. split; [auto|]. eexists. reflexivity.
    - rewrite ap_other by (apply String.eqb_neq; exact E).
      destruct (fold_left _ l None) as [a'|]; [|exact IH].
      destruct IH as (I & F & Q). split; [apply in_or_app; left; exact I|]. auto.
  Qed.

  Lemma interp_none : forall f l o, (forall a, In a l -> afield a <> f) -> fget f (interp l o) = fget f o.
  Proof.
    intros f l. induction l as [|a l IH]; intros o H; [reflexivity|]. cbn [interp fold_left].
    change (fget f (interp l (ap o a)) = fget f o). rewrite IH by (intros x X; apply H; right; exact X).
    apply ap_other. intros E. apply (H a (or_introl eq_refl)). auto.
  Qed.

  Lemma isTrue_eq : forall a, isTrue a = true -> a = ASet (afield a) ATrue.
  Proof. intros [f [p| |s|]|f a|f a|f n a|f a k] H; try discriminate. reflexivity. Qed.

  Lemma interp_true : forall f l o, (exists a, In a l /\ afield a = f) \/ fget f o = Some (VBool true) ->
      (forall a, In a l -> afield a = f -> isTrue a = true) -> fget f (interp l o) = Some (VBool true).
  Proof.
    intros f l. induction l as [|a l IH]; intros o H T.
    - destruct H as [(a & [] & _)|H]. exact H.
    - change (fget f (interp l (ap o a)) = Some (VBool true)). destruct (string_dec (afield a) f) as [E|N].
      + apply IH; [|intros; apply T; [right|]; assumption]. right.
        rewrite (isTrue_eq a) by (apply T; [left; reflexivity|exact E]). cbn. rewrite E. apply fget_set.
      + apply IH; [|intros; apply T; [right|]; assumption]. destruct H as [(a' & [->|I] & F)|H]; [contradiction|left; eauto|].
        right. rewrite ap_other by auto. exact H.
  Qed.

  Lemma interp_map : forall f l o, (exists m, fget f o = Some (VMap m)) -> (forall a, In a l -> afield a = f -> isPut a = true) ->
      exists m, fget f (interp l o) = Some (VMap m).
  Proof.
    intros f l. induction l as [|a l IH]; intros o H T; [exact H|].
    change (exists m, fget f (interp l (ap o a)) = Some (VMap m)). apply IH; [|intros; apply T; [right|]; assumption].
    destruct (string_dec (afield a) f) as [E|N].
    - pose proof (T a (or_introl eq_refl) E) as Q. destruct a; try discriminate. cbn in *. subst f0. eexists. apply fget_set.
    - rewrite ap_other by auto. exact H.
  Qed.

  Lemma interp_len : forall f l o, forallb isApp (actsOn f l) = true ->
      List.length (flist f (interp l o)) = List.length (flist f o) + List.length (actsOn f l).
  Proof.
    intros f l. induction l as [|a l IH]; intros o H; [cbn; lia|]. cbn [actsOn filter] in *.
    change (List.length (flist f (interp l (ap o a))) =
      List.length (flist f o) + List.length (if String.eqb f (afield a) then a :: actsOn f l else actsOn f l)).
    change (forallb isApp (if String.eqb f (afield a) then a :: actsOn f l else actsOn f l) = true) in H.
    destruct (String.eqb f (afield a)) eqn:E.
    - cbn [forallb] in H. bools. rewrite IH by assumption. destruct a; try discriminate. cbn [afield] in E. subst f0.
      cbn [ap List.length]. unfold flist at 1. rewrite fget_set. rewrite app_length. cbn. lia.
    - rewrite IH by assumption. unfold flist. rewrite ap_other by (apply String.eqb_neq; exact E). reflexivity.
  Qed.

  (** what is known about an object *)
  Record Inv (T A ms : list string) (o : fields) : Prop := {
    i_true : forall f, mem f T = true -> fget f o = Some (VBool true);
    i_none : forall f, mem f T = false -> mem f A = false -> fget f o = None;
    i_maps : forall f, mem f ms = true -> exists m, fget f o = Some (VMap m) }.

  Lemma mem_app : forall f l m, mem f (l ++ m) = mem f l || mem f m.
  Proof. intros. unfold mem. apply existsb_app. Qed.

  Lemma mem_flags : forall f l, mem f (flagsOf l) = true <-> exists a, In a l /\ afield a = f /\ isTrue a = true.
  Proof.
    intros f l. rewrite mem_In. unfold flagsOf. rewrite in_map_iff. split.
    - intros (a & E & I). apply filter_In in I. exists a. tauto.
    - intros (a & I & E & T). exists a. rewrite filter_In. auto.
  Qed.

  Lemma pres : forall T A ms l o, presOk T A ms l = true -> Inv T A ms o -> Inv (flagsOf l ++ T) A ms (interp l o).
  Proof.
    intros T A ms l o H [I1 I2 I3]. unfold presOk in H. bools. rename H into H1, H0 into H2. rewrite forallb_forall in H1, H2.
    assert (X : forall a, In a l -> isTrue a = true \/ (mem (afield a) T = false /\ mem (afield a) A = true /\ mem (afield a) (flagsOf l) = false)).
    { intros a I. specialize (H1 a I). apply orb_true_iff in H1. destruct H1 as [H1|H1]; [auto|]. bools. auto. }
    constructor.
    - intros f M. rewrite mem_app in M. apply interp_true.
      + apply orb_true_iff in M. destruct M as [M|M]; [left|right; auto]. apply mem_flags in M. destruct M as (a & I & E & _). eauto.
      + intros a I E. destruct (X a I) as [Q|(Q1 & Q2 & Q3)]; [exact Q|]. subst f. rewrite Q3, Q1 in M. discriminate.
    - intros f M N. rewrite mem_app in M. apply orb_false_iff in M. destruct M as [M1 M2].
      rewrite interp_none; [auto|]. intros a I E. destruct (X a I) as [Q|(Q1 & Q2 & Q3)].
      + assert (mem f (flagsOf l) = true) by (apply mem_flags; eauto). congruence.
      + congruence.
    - intros f M. apply interp_map; [auto|]. intros a I E. specialize (H2 a I). rewrite E, M in H2. exact H2.
  Qed.
End Acts.

Lemma flagsOf_false : forall gs i, flagsOf (pacts false i gs) = [].
Proof.
  induction gs as [|p gs IH]; intros i; [reflexivity|]. cbn [pacts markAct]. unfold flagsOf in *. rewrite !filter_app, !map_app, IH.
  unfold putAct. destruct (p_how p); reflexivity.
Qed.

Section Params.
  Variable pf : bytes -> option spec_float.

  Definition envOf (ts : list bytes) (vs : list val) : list part := combine (map (fun t => [t]) ts) vs.

  Lemma words_fits : forall stop ps ts vs, words pf stop ps ts vs -> Forall2 (fits pf) (map (pclass stop) ps) (envOf ts vs).
  Proof.
    intros stop ps ts vs H. induction H as [|p ps t ts v vs S W IH]; [constructor|].
    cbn [map]. unfold envOf. cbn [map combine]. constructor; [|exact IH].
    destruct S as [N S]. unfold pclass. destruct (p_type p); cbn [fits fst snd]; exists t; (split; [reflexivity|]); split; auto.
  Qed.
  Lemma words_concat : forall stop ps ts vs, words pf stop ps ts vs -> concat (map fst (envOf ts vs)) = ts.
  Proof. intros stop ps ts vs H. induction H as [|p ps t ts v vs S W IH]; [reflexivity|]. cbn. f_equal. exact IH. Qed.
  Lemma words_length : forall stop ps ts vs, words pf stop ps ts vs ->
      List.length (envOf ts vs) = List.length ps /\ List.length ts = List.length ps /\ List.length vs = List.length ps.
  Proof.
    intros stop ps ts vs H. induction H as [|p ps t ts v vs S W IH]; [auto|]. cbn. unfold envOf in IH. lia.
  Qed.

  Lemma pacts_interp : forall env m ps vs i o, List.length vs = List.length ps ->
      (forall j v, nth_error vs j = Some v -> av env (ATok (i + j)) = v) -> interp env (pacts m i ps) o = stores m ps vs o.
  Proof.
    intros env m. induction ps as [|p ps IH]; intros [|v vs] i o L H; try discriminate; [reflexivity|].
    cbn [pacts]. rewrite !interp_app. unfold stores. cbn [combine fold_left].
    change (interp env (pacts m (S i) ps) (interp env (markAct m p) (interp env (putAct p i) o))
            = stores m ps vs (store m o (p, v))).
    rewrite (IH vs (S i)); [| cbn in L; lia |].
    - f_equal. pose proof (H 0 v eq_refl) as V. rewrite Nat.add_0_r in V. unfold store. cbn [fst snd].
      assert (P : interp env (putAct p i) o = put (p_how p) (p_field p) v o).
      { unfold putAct, put. destruct (p_how p); cbn [interp fold_left ap]; rewrite ?V; reflexivity. }
      rewrite P. unfold markAct, mark. destruct m; [|reflexivity]. destruct (p_flag p); reflexivity.
    - intros j w J. rewrite <- (H (S j) w J). f_equal. f_equal. lia.
  Qed.

  Lemma av_envOf : forall ts vs j v, List.length ts = List.length vs -> nth_error vs j = Some v -> av (envOf ts vs) (ATok j) = v.
  Proof.
    intros ts vs j v L H. cbn [av]. revert vs j L H. induction ts as [|t ts IH]; intros [|w vs] [|j] L H; try discriminate.
    - injection H as <-. reflexivity.
    - cbn in L. unfold envOf. cbn [map combine nth]. apply (IH vs j); [lia|exact H].
  Qed.

  Lemma words_interp : forall stop m ps ts vs o, words pf stop ps ts vs -> interp (envOf ts vs) (pacts m 0 ps) o = stores m ps vs o.
  Proof.
    intros stop m ps ts vs o H. destruct (words_length _ _ _ _ H) as (_ & L1 & L2).
    apply pacts_interp; [exact L2|]. intros j v J. apply av_envOf; [lia|exact J].
  Qed.
  Lemma cacts_interp : forall env cs o, interp env (cacts cs) o = consts cs o.
  Proof.
    intros env. unfold consts, cacts, interp. induction cs as [|[f c] cs IH]; intros o; [reflexivity|].
    cbn [map fold_left fst snd]. rewrite IH. f_equal. destruct c; reflexivity.
  Qed.
  Lemma macts_interp : forall env ms, interp env (macts ms) [] = newMaps ms.
  Proof.
    intros env ms. unfold newMaps, macts, interp. generalize (@nil (string * val)). induction ms as [|f ms IH]; intros o; [reflexivity|].
    cbn [map fold_left]. apply IH.
  Qed.
  Lemma newMaps_get : forall f ms o, fget f (fold_left (fun o f => fset f (VMap []) o) ms o) = if mem f ms then Some (VMap []) else fget f o.
  Proof.
    intros f. induction ms as [|g ms IH]; intros o; [reflexivity|]. cbn [fold_left]. rewrite IH. cbn [mem existsb].
    change (existsb (String.eqb f) ms) with (mem f ms). destruct (mem f ms); [rewrite orb_true_r; reflexivity|]. rewrite orb_false_r.
    destruct (String.eqb f g) eqn:E.
    - apply String.eqb_eq in E. subst g. apply fget_set.
    - apply fget_other. apply String.eqb_neq. exact E.
  Qed.
  Lemma newMaps_inv : forall ms A, Inv [] (ms ++ A) ms (newMaps ms).
  Proof.
    intros ms A. constructor.
    - discriminate.
    - intros f _ M. rewrite mem_app in M. apply orb_false_iff in M. unfold newMaps. rewrite newMaps_get, (proj1 M). reflexivity.
    - intros f M. unfold newMaps. rewrite newMaps_get, M. eauto.
  Qed.
End Params.
