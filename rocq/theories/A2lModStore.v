(** Storing objects in the fields of a module, in any order. *)
From Coq Require Import String List Arith Bool Lia Permutation.
From Verif Require Import GoBase GoBaseFacts A2lIR A2lTokens A2lParsers A2lSpec FanModel FanProofs A2lModModel A2lModSpec.
Import ListNotations.

Definition store (l : list (action * val)) (o : fields) : fields := fold_left (fun o x => absorb (fst x) o (snd x)) l o.

Lemma fget_fset : forall f g v o, fget f (fset g v o) = if String.eqb f g then Some v else fget f o.
Proof.
  intros f g v. induction o as [|[h w] o IH]; cbn.
  - destruct (String.eqb f g); reflexivity.
  - destruct (String.eqb_spec g h) as [<-|N]; cbn.
    + destruct (String.eqb f g); reflexivity.
    + destruct (String.eqb_spec f h) as [->|N2].
      * destruct (String.eqb_spec h g); [congruence|reflexivity].
      * exact IH.
Qed.
Lemma mget_mput : forall x y v m, mget x (mput y v m) = if beqb x y then Some v else mget x m.
Proof.
  intros x y v. induction m as [|[z w] m IH]; cbn.
  - destruct (beqb x y); reflexivity.
  - destruct (beqb y z) eqn:E; cbn.
    + apply beqb_eq in E. subst z. destruct (beqb x y); reflexivity.
    + destruct (beqb x z) eqn:E2; [|exact IH]. apply beqb_eq in E2. subst z. destruct (beqb x y) eqn:E3; [|reflexivity].
      apply beqb_eq in E3. subst y. rewrite beqb_refl in E. discriminate.
Qed.

(** ** The tables *)
Definition fieldOf (a : action) : string := match a with Keep f => f | Put_ f _ => f end.
Definition actions : list action := map (fun k => snd (snd k)) kinds.

Fixpoint nodups (l : list string) : bool := match l with [] => true | x :: l' => negb (existsb (String.eqb x) l') && nodups l' end.
Lemma nodups_ok : forall l, nodups l = true -> NoDup l.
Proof.
  induction l as [|x l IH]; cbn; intros H; constructor; apply andb_true_iff in H; destruct H as [H1 H2]; auto.
  intros I. apply negb_true_iff in H1. rewrite <- not_true_iff_false in H1. apply H1. apply existsb_exists. exists x. split; [exact I|apply String.eqb_refl].
Qed.
Lemma NoDup_map_inj : forall (A B : Type) (f : A -> B) l x y, NoDup (map f l) -> In x l -> In y l -> f x = f y -> x = y.
Proof.
  intros A B f. induction l as [|z l IH]; intros x y ND I J E; [destruct I|]. cbn in ND. inversion ND as [|? ? N ND']; subst.
  destruct I as [<-|I], J as [<-|J]; auto; exfalso; apply N; [rewrite E|rewrite <- E]; apply in_map; assumption.
Qed.
Lemma actions_fields : NoDup (map fieldOf actions).
Proof. apply nodups_ok. vm_compute. reflexivity. Qed.

(** The struct before any object is stored. *)
Definition fresh (o : fields) : Prop :=
  forall a, In a actions -> match a with Keep f => fget f o = None | Put_ f _ => exists m, fget f o = Some (VMap m) /\ forall x, mget x m = None end.

Lemma absorb_other : forall f a o v, fieldOf a <> f -> fget f (absorb a o v) = fget f o.
Proof.
  intros f [g|g k] o v N; cbn in *.
  - rewrite fget_fset. destruct (String.eqb_spec f g); [congruence|reflexivity].
  - destruct (fget g o) as [[]|]; try reflexivity. rewrite fget_fset. destruct (String.eqb_spec f g); [congruence|reflexivity].
Qed.
Lemma store_other : forall f l o, (forall x, In x l -> fieldOf (fst x) <> f) -> fget f (store l o) = fget f o.
Proof.
  intros f. induction l as [|x l IH]; intros o H; [reflexivity|]. cbn. change (fold_left _ l ?z) with (store l z). rewrite IH by (intros; apply H; right; assumption).
  apply absorb_other. apply H. left. reflexivity.
Qed.

Lemma store_keep : forall f l o, In (Keep f) actions -> (forall x, In x l -> In (fst x) actions) -> distinct l ->
  forall v, fget f (store l o) = Some v <-> In (Keep f, v) l \/ (forall w, ~ In (Keep f, w) l) /\ fget f o = Some v.
Proof.
  intros f l o HA. revert o. induction l as [|[a u] l IH]; intros o HL HD v.
  - cbn. intuition.
  - cbn [store fold_left fst snd]. change (fold_left _ l ?z) with (store l z).
    unfold distinct in HD. cbn [map] in HD. inversion HD as [|? ? NI ND]; subst.
    assert (HL' : forall x, In x l -> In (fst x) actions) by (intros; apply HL; right; assumption).
    rewrite (IH _ HL' ND). destruct (string_dec (fieldOf a) f) as [E|E].
    + assert (a = Keep f) as -> by (eapply NoDup_map_inj; [exact actions_fields|apply (HL (a, u)); left; reflexivity|exact HA|exact E]).
      assert (NL : forall w, ~ In (Keep f, w) l).
      { intros w I. apply NI. change (tag (Keep f, u)) with (tag (Keep f, w)). apply in_map. exact I. }
      cbn [absorb]. rewrite fget_fset, String.eqb_refl. split.
      * intros [I|[_ H]]; [destruct (NL _ I)|injection H as <-; left; left; reflexivity].
      * intros [[H|I]|[N _]]; [injection H as <-; right; auto|destruct (NL _ I)|]. destruct (N u). left. reflexivity.
    + rewrite absorb_other by exact E. split.
      * intros [I|[N H]]; [left; right; exact I|right]. split; [|exact H]. intros w [H'|I]; [injection H' as -> _; apply E; reflexivity|exact (N _ I)].
      * intros [[H|I]|[N H]]; [injection H as -> _; destruct E; reflexivity|left; exact I|right]. split; [|exact H]. intros w I. apply (N w). right. exact I.
Qed.

Lemma store_put : forall f k l o m, In (Put_ f k) actions -> (forall x, In x l -> In (fst x) actions) -> distinct l -> fget f o = Some (VMap m) ->
  exists m', fget f (store l o) = Some (VMap m') /\
    forall x v, mget x m' = Some v <-> In (Put_ f k, v) l /\ keyOf k v = x \/ (forall w, In (Put_ f k, w) l -> keyOf k w <> x) /\ mget x m = Some v.
Proof.
  intros f k l o m HA. revert o m. induction l as [|[a u] l IH]; intros o m HL HD HM.
  - exists m. split; [exact HM|]. cbn. intuition.
  - cbn [store fold_left fst snd]. change (fold_left _ l ?z) with (store l z).
    unfold distinct in HD. cbn [map] in HD. inversion HD as [|? ? NI ND]; subst.
    assert (HL' : forall x, In x l -> In (fst x) actions) by (intros; apply HL; right; assumption).
    destruct (string_dec (fieldOf a) f) as [E|E].
    + assert (a = Put_ f k) as -> by (eapply NoDup_map_inj; [exact actions_fields|apply (HL (a, u)); left; reflexivity|exact HA|exact E]).
      assert (NL : forall w, In (Put_ f k, w) l -> keyOf k w <> keyOf k u).
      { intros w I Q. apply NI. replace (tag (Put_ f k, u)) with (tag (Put_ f k, w)) by (unfold tag; cbn; rewrite Q; reflexivity). apply in_map. exact I. }
      cbn [absorb]. rewrite HM. destruct (IH (fset f (VMap (mput (keyOf k u) u m)) o) (mput (keyOf k u) u m) HL' ND) as (m' & F & Q).
      { rewrite fget_fset, String.eqb_refl. reflexivity. }
      exists m'. split; [exact F|]. intros x v. rewrite Q, mget_mput. destruct (beqb x (keyOf k u)) eqn:B.
      * apply beqb_eq in B. subst x. split.
        -- intros [[I K]|[N H]]; [destruct (NL _ I K)|injection H as <-; left; split; [left; reflexivity|reflexivity]].
        -- intros [[[H|I] K]|[N _]]; [injection H as <-; right; split; [exact NL|reflexivity]|destruct (NL _ I K)|].
           destruct (N u (or_introl eq_refl) eq_refl).
      * assert (keyOf k u <> x) by (intros <-; rewrite beqb_refl in B; discriminate). split.
        -- intros [[I K]|[N Z]]; [left; split; [right; exact I|exact K]|right; split; [|exact Z]]. intros w [Z'|I]; [injection Z' as <-; assumption|auto].
        -- intros [[[Z|I] K]|[N Z]]; [injection Z as <-; contradiction|left; auto|right; split; [|exact Z]]. intros w I. apply N. right. exact I.
    + destruct (IH (absorb a o u) m HL' ND) as (m' & F & Q); [rewrite absorb_other by exact E; exact HM|].
      exists m'. split; [exact F|]. intros x v. rewrite Q. split.
      * intros [[I K]|[N Z]]; [left; split; [right; exact I|exact K]|right; split; [|exact Z]]. intros w [Z'|I]; [injection Z' as -> _; destruct E; reflexivity|auto].
      * intros [[[Z|I] K]|[N Z]]; [injection Z as -> _; destruct E; reflexivity|left; auto|right; split; [|exact Z]]. intros w I. apply N. right. exact I.
Qed.

Lemma store_holds : forall l o, fresh o -> (forall x, In x l -> In (fst x) actions) -> distinct l -> holds (store l o) l.
Proof.
  intros l o FR HL HD t g a IN. assert (HA : In a actions) by (unfold actions; apply (in_map (fun k => snd (snd k)) _ _ IN)).
  pose proof (FR a HA) as Q. destruct a as [f|f k].
  - intros v. rewrite (store_keep f l o HA HL HD v), Q. intuition discriminate.
  - destruct Q as (m & E & N). destruct (store_put f k l o m HA HL HD E) as (m' & F & Q). exists m'. split; [exact F|].
    intros x v. rewrite Q, N. intuition discriminate.
Qed.

Lemma holds_perm : forall o l l', Permutation l l' -> holds o l -> holds o l'.
Proof.
  intros o l l' P H t g a IN. specialize (H t g a IN). pose proof (Permutation_sym P) as P'. destruct a as [f|f k].
  - intros v. rewrite H. split; apply Permutation_in; assumption.
  - destruct H as (m & E & Q). exists m. split; [exact E|]. intros x v. rewrite Q. split; intros [I K]; (split; [|exact K]); eapply Permutation_in; eauto.
Qed.
Lemma distinct_perm : forall l l', Permutation l l' -> distinct l -> distinct l'.
Proof. intros l l' P. unfold distinct. apply Permutation_NoDup. apply Permutation_map. exact P. Qed.

(** ** The collectors *)
Definition actOf (c : string) : option action := option_map (fun p => snd (snd p)) (find (fun p => String.eqb (fst p) c) channels).

Definition gathered (got : string -> list val) : list (action * val) :=
  flat_map (fun p => map (pair (snd (snd p))) (got (fst p))) channels.

Lemma collected_store : forall got o, collected got o = store (gathered got) o.
Proof.
  intros got o. unfold collected, gathered. generalize channels. intros cs. revert o. induction cs as [|p cs IH]; intros o; [reflexivity|].
  cbn. rewrite IH. unfold store. rewrite fold_left_app. f_equal. generalize (got (fst p)). intros l. revert o. induction l as [|v l IHl]; intros o; [reflexivity|].
  cbn. apply IHl.
Qed.

Lemma channels_nodup : NoDup (map fst channels).
Proof. apply nodups_ok. vm_compute. reflexivity. Qed.
Lemma closing_nodup : NoDup closing.
Proof. apply nodups_ok. vm_compute. reflexivity. Qed.

Definition acts (l : list message) : list (action * val) :=
  flat_map (fun m => match actOf (fst m) with Some a => [(a, snd m)] | None => [] end) l.

Lemma gathered_perm : forall l got, (forall c, In c (map fst channels) -> got c = on c l) -> Permutation (gathered got) (acts l).
Proof.
  intros l got H. unfold gathered.
  assert (G : flat_map (fun p : string * (nat * action) => map (pair (snd (snd p))) (got (fst p))) channels
            = flat_map (fun p => map (pair (snd (snd p))) (on (fst p) l)) channels).
  { revert H. generalize channels as cs0. induction cs0 as [|p cs IH]; intros H; [reflexivity|]. cbn. rewrite IH by (intros; apply H; right; assumption).
    rewrite H by (left; reflexivity). reflexivity. }
  rewrite G. clear G H. unfold acts, actOf. pose proof channels_nodup as ND. revert ND. generalize channels. intros cs ND.
  induction l as [|[c v] l IH].
  - cbn. induction cs; [constructor|]. cbn. apply IHcs. inversion ND; assumption.
  - cbn [flat_map fst snd]. eapply Permutation_trans; [|apply Permutation_app_head; exact IH]. clear IH.
    induction cs as [|p cs IH]; [reflexivity|]. inversion ND as [|? ? NI ND']; subst. cbn [flat_map find].
    unfold on at 1. cbn [filter fst]. destruct (String.eqb_spec c (fst p)) as [E|E].
    + subst c. rewrite String.eqb_refl. cbn [option_map app map snd]. constructor.
      apply Permutation_app_head. replace (flat_map (fun p0 => map (pair (snd (snd p0))) (on (fst p0) ((fst p, v) :: l))) cs)
        with (flat_map (fun p0 => map (pair (snd (snd p0))) (on (fst p0) l)) cs); [reflexivity|].
      clear IH ND ND'. revert NI. induction cs as [|q cs IH]; intros NI; [reflexivity|]. cbn [flat_map]. rewrite IH by (intros I; apply NI; right; exact I). f_equal.
      unfold on at 2. cbn [filter fst]. destruct (String.eqb_spec (fst p) (fst q)); [exfalso; apply NI; left; auto|reflexivity].
    + destruct (String.eqb_spec (fst p) c); [congruence|]. fold (on (fst p) l).
      eapply Permutation_trans; [apply Permutation_app_head; apply IH; exact ND'|]. rewrite !app_assoc. apply Permutation_app_tail. apply Permutation_app_comm.
Qed.
Lemma acts_perm : forall l l', Permutation l l' -> Permutation (acts l) (acts l').
Proof.
  intros l l' P. unfold acts. induction P; cbn; auto.
  - apply Permutation_app_head. assumption.
  - rewrite !app_assoc. apply Permutation_app_tail. apply Permutation_app_comm.
  - eapply Permutation_trans; eauto.
Qed.
