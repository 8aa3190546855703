(** Shares whose first edge cuts an object. *)
From Coq Require Import String Ascii List Arith Bool Lia SpecFloat Permutation.
From Verif Require Import GoBase GoBaseFacts A2lIR A2lTokens A2lParsers A2lThm A2lSpec FanModel FanProofs A2lModModel A2lModSpec A2lModStore A2lModSeq A2lModPar A2lModParts A2lCutSpec.
Import ListNotations.

(** ** The last object in a place *)
Lemma action_dec : forall a c : action, {a = c} + {a <> c}.
Proof. decide equality; apply string_dec. Defined.
Lemma names_dec : forall a x v, {names a x v} + {~ names a x v}.
Proof. intros [f|f k] x v; cbn; [left; exact Logic.I|]. apply (list_eq_dec ascii_dec). Qed.

Lemma lastAt_nil : forall a x v, ~ lastAt a x [] v.
Proof. intros a x v (l1 & l2 & E & _). destruct l1; discriminate. Qed.
Lemma lastAt_snoc : forall a x l y v, lastAt a x (l ++ [y]) v <->
  (fst y = a /\ names a x (snd y) /\ snd y = v) \/ (~ (fst y = a /\ names a x (snd y)) /\ lastAt a x l v).
Proof.
  intros a x l [c u] v. cbn [fst snd]. split.
  - intros (l1 & l2 & E & N & L). destruct l2 as [|z l2] using rev_ind.
    + apply app_inj_tail in E. destruct E as [<- E]. injection E as -> ->. left. auto.
    + clear IHl2. rewrite app_comm_cons, app_assoc in E. apply app_inj_tail in E. destruct E as [-> <-]. right. split.
      * intros [-> Q]. exact (L u ltac:(apply in_or_app; right; left; reflexivity) Q).
      * exists l1, l2. split; [reflexivity|]. split; [exact N|]. intros w W. apply L. apply in_or_app. left. exact W.
  - intros [(-> & N & ->)|[NN (l1 & l2 & -> & N & L)]].
    + exists l, []. split; [reflexivity|]. split; [exact N|]. intros w [].
    + exists l1, (l2 ++ [(c, u)]). split; [rewrite <- app_assoc; reflexivity|]. split; [exact N|]. intros w W Q. apply in_app_or in W. destruct W as [W|[W|[]]]; [exact (L w W Q)|].
      injection W as -> ->. apply NN. auto.
Qed.
Lemma lastAt_some : forall a x l w, In (a, w) l -> names a x w -> exists v, lastAt a x l v.
Proof.
  intros a x l w. induction l as [|[c u] l IH] using rev_ind; [intros []|]. intros I N.
  destruct (action_dec c a) as [->|NC]; [destruct (names_dec a x u) as [NU|NU]|].
  - exists u. apply lastAt_snoc. left. auto.
  - destruct IH as [v V]; [apply in_app_or in I; destruct I as [I|[I|[]]]; [exact I|injection I as ->; contradiction]|exact N|].
    exists v. apply lastAt_snoc. right. split; [|exact V]. intros [_ Q]. contradiction.
  - destruct IH as [v V]; [apply in_app_or in I; destruct I as [I|[I|[]]]; [exact I|injection I as ->; contradiction]|exact N|].
    exists v. apply lastAt_snoc. right. split; [|exact V]. intros [Q _]. contradiction.
Qed.
Lemma lastAt_in : forall a x l v, lastAt a x l v -> In (a, v) l /\ names a x v.
Proof. intros a x l v (l1 & l2 & -> & N & _). split; [apply in_or_app; right; left; reflexivity|exact N]. Qed.
Lemma lastAt_fun : forall a x l v w, lastAt a x l v -> lastAt a x l w -> v = w.
Proof.
  intros a x l. induction l as [|y l IH] using rev_ind; intros v w V W; [destruct (lastAt_nil _ _ _ V)|].
  apply lastAt_snoc in V. apply lastAt_snoc in W. destruct V as [(V1 & V2 & V3)|[V1 V2]], W as [(W1 & W2 & W3)|[W1 W2]]; [congruence|destruct W1; auto|destruct V1; auto|auto].
Qed.

(** What the struct holds after objects have been stored. *)
Lemma store_snoc : forall l y o, store (l ++ [y]) o = absorb (fst y) (store l o) (snd y).
Proof. intros l y o. unfold store. rewrite fold_left_app. reflexivity. Qed.
Lemma store_map : forall l o f k, fresh o -> In (Put_ f k) actions -> (forall x, In x l -> In (fst x) actions) -> exists m, fget f (store l o) = Some (VMap m).
Proof.
  intros l o f k FR HA. induction l as [|y l IH] using rev_ind; intros HL.
  - destruct (FR _ HA) as (m & E & _). eauto.
  - destruct IH as [m E]; [intros z Z; apply HL; apply in_or_app; left; exact Z|]. rewrite store_snoc.
    destruct (string_dec (fieldOf (fst y)) f) as [Q|Q]; [|rewrite absorb_other by exact Q; eauto].
    assert (fst y = Put_ f k) as -> by (eapply NoDup_map_inj; [exact actions_fields|apply HL; apply in_or_app; right; left; reflexivity|exact HA|exact Q]).
    cbn [absorb]. rewrite E, fget_fset, String.eqb_refl. eauto.
Qed.
Lemma store_found : forall l o a x v, fresh o -> In a actions -> (forall x, In x l -> In (fst x) actions) -> found (store l o) a x = Some v <-> lastAt a x l v.
Proof.
  intros l o a x v FR HA. induction l as [|y l IH] using rev_ind; intros HL.
  - cbn. split; [|intros H; destruct (lastAt_nil _ _ _ H)]. pose proof (FR a HA) as Q. destruct a as [f|f k]; cbn in *; [congruence|]. destruct Q as (m & -> & Q). rewrite Q. discriminate.
  - assert (HL' : forall z, In z l -> In (fst z) actions) by (intros z Z; apply HL; apply in_or_app; left; exact Z).
    assert (HY : In (fst y) actions) by (apply HL; apply in_or_app; right; left; reflexivity).
    specialize (IH HL'). rewrite store_snoc, lastAt_snoc. destruct (action_dec (fst y) a) as [E|E].
    + rewrite E. destruct a as [f|f k]; cbn [absorb found].
      * rewrite fget_fset, String.eqb_refl. cbn [names]. split; [intros H; injection H as <-; left; auto|].
        intros [(_ & _ & <-)|[N _]]; [reflexivity|]. destruct N. auto.
      * destruct (store_map l o f k FR HA HL') as [m M]. cbn [found] in IH. rewrite M in *. rewrite fget_fset, String.eqb_refl, mget_mput. cbn [names].
        destruct (beqb x (keyOf k (snd y))) eqn:B.
        -- apply beqb_eq in B. split; [intros H; injection H as <-; left; auto|]. intros [(_ & _ & <-)|[N _]]; [reflexivity|]. destruct N. auto.
        -- rewrite IH. assert (NK : keyOf k (snd y) <> x) by (intros <-; rewrite beqb_refl in B; discriminate). split; [intros H; right; split; [intros [_ Q]; contradiction|exact H]|].
           intros [(_ & N & _)|[_ H]]; [contradiction|exact H].
    + assert (NF : fieldOf (fst y) <> fieldOf a) by (intros Q; apply E; eapply NoDup_map_inj; [exact actions_fields|exact HY|exact HA|exact Q]).
      replace (found (absorb (fst y) (store l o) (snd y)) a x) with (found (store l o) a x); [|destruct a as [f|f k]; cbn [found fieldOf] in *; rewrite absorb_other by exact NF; reflexivity].
      rewrite IH. split; [intros H; right; split; [intros [Q _]; contradiction|exact H]|]. intros [(Q & _)|[_ H]]; [contradiction|exact H].
Qed.

(** ** Only the objects of the kind count *)
Definition sameKind (a : action) (x : action * val) : bool := if action_dec (fst x) a then true else false.
Lemma lastAt_filter : forall a x l v, lastAt a x l v <-> lastAt a x (filter (sameKind a) l) v.
Proof.
  intros a x l v. induction l as [|y l IH] using rev_ind; [reflexivity|]. rewrite filter_app, lastAt_snoc. cbn [filter]. unfold sameKind at 2. destruct (action_dec (fst y) a) as [E|E].
  - rewrite lastAt_snoc, IH. reflexivity.
  - rewrite app_nil_r, IH. split; [intros [(Q & _)|[_ H]]; [contradiction|exact H]|]. intros H. right. split; [intros [Q _]; contradiction|exact H].
Qed.

Lemma chan_acts : NoDup (map (fun p => snd (snd p)) channels).
Proof.
  assert (ND : NoDup (map (fun p => fieldOf (snd (snd p))) channels)) by (apply nodups_ok; vm_compute; reflexivity).
  revert ND. generalize channels. intros cs. induction cs as [|p cs IH]; intros ND; [constructor|]. inversion ND as [|? ? N D]; subst. cbn [map]. constructor; [|exact (IH D)].
  intros I. apply N. apply in_map_iff in I. destruct I as (q & E & Q). apply in_map_iff. exists q. rewrite E. auto.
Qed.
Lemma chan_find : forall c n a cs, NoDup (map fst cs) -> In (c, (n, a)) cs -> option_map (fun p : string * (nat * action) => snd (snd p)) (find (fun p => String.eqb (fst p) c) cs) = Some a.
Proof.
  intros c n a. induction cs as [|p cs IH]; intros ND I; [destruct I|]. cbn [map] in ND. inversion ND as [|? ? N D]; subst. cbn [find]. destruct I as [->|I].
  - cbn [fst]. rewrite String.eqb_refl. reflexivity.
  - destruct (String.eqb_spec (fst p) c) as [E|E]; [|auto]. exfalso. apply N. rewrite E. apply (in_map fst _ _ I).
Qed.
Lemma chan_of : forall a c, actOf c = Some a -> exists n, In (c, (n, a)) channels.
Proof.
  intros a c. unfold actOf. destruct (find _ channels) as [[c' [n a']]|] eqn:F; [|discriminate]. intros E. injection E as <-. apply find_some in F. destruct F as [F E]. apply String.eqb_eq in E. cbn in E. subst c'. exists n. exact F.
Qed.
Lemma kind_chan : forall t g a, In (t, (g, a)) kinds -> exists c, actOf c = Some a.
Proof.
  intros t g a I.
  assert (E : forallb (fun k => existsb (fun p => if action_dec (snd (snd p)) (snd (snd k)) then true else false) channels) kinds = true) by (vm_compute; reflexivity).
  pose proof (proj1 (forallb_forall _ _) E _ I) as H. cbn [snd] in H. apply existsb_exists in H. destruct H as ([c [n a']] & J & H). cbn [snd] in H. destruct (action_dec a' a) as [->|]; [|discriminate].
  exists c. unfold actOf. eapply chan_find; [exact channels_nodup|exact J].
Qed.
Lemma gathered_kind : forall got a c, actOf c = Some a -> filter (sameKind a) (gathered got) = map (pair a) (got c).
Proof.
  intros got a c A. destruct (chan_of _ _ A) as [n I]. clear A. unfold gathered. pose proof chan_acts as ND. revert ND I. generalize channels. intros cs. induction cs as [|p cs IH]; intros ND I; [destruct I|].
  cbn [map] in ND. inversion ND as [|? ? N D]; subst. cbn [flat_map]. rewrite filter_app.
  assert (Z : forall l b', b' <> a -> filter (sameKind a) (map (pair b') l) = []).
  { intros l b' NE. induction l as [|u l IHl]; [reflexivity|]. cbn [map filter]. unfold sameKind at 1. cbn [fst]. destruct (action_dec b' a); [contradiction|exact IHl]. }
  destruct I as [->|I].
  - cbn [fst snd]. replace (filter (sameKind a) (flat_map _ cs)) with (@nil (action * val)).
    + rewrite app_nil_r. generalize (got c). intros l. induction l as [|u l IHl]; [reflexivity|]. cbn [map filter]. unfold sameKind at 1. cbn [fst]. destruct (action_dec a a); [|contradiction]. f_equal. exact IHl.
    + symmetry. clear IH ND D. cbn [snd] in N. induction cs as [|q cs IH]; [reflexivity|]. cbn [flat_map]. rewrite filter_app, Z, IH; [reflexivity| |].
      * intros J. apply N. right. exact J.
      * intros E. apply N. left. exact E.
  - rewrite Z, IH by (auto; intros E; apply N; rewrite E; exact (in_map (fun p => snd (snd p)) _ _ I)). reflexivity.
Qed.
Lemma acts_kind : forall l a c, actOf c = Some a -> filter (sameKind a) (acts l) = map (pair a) (on c l).
Proof.
  intros l a c A. induction l as [|[d u] l IH]; [reflexivity|]. unfold acts, on in *. cbn [flat_map filter fst snd]. rewrite filter_app, IH. destruct (String.eqb_spec d c) as [->|N].
  - rewrite A. cbn [filter map app snd]. unfold sameKind at 1. cbn [fst]. destruct (action_dec a a); [reflexivity|contradiction].
  - destruct (actOf d) as [a'|] eqn:D; [|reflexivity]. cbn [filter]. unfold sameKind at 1. cbn [fst]. destruct (action_dec a' a) as [->|]; [|reflexivity].
    exfalso. apply N. destruct (chan_of _ _ D) as [n1 I1]. destruct (chan_of _ _ A) as [n2 I2].
    pose proof (NoDup_map_inj _ _ (fun p => snd (snd p)) channels _ _ chan_acts I1 I2 eq_refl) as E. congruence.
Qed.

(** ** The last message of a kind is the last of one goroutine *)
Lemma put_in : forall (A : Type) (w : list A) i x y l, nth_error w i = Some x -> In l (put i y w) -> l = y \/ In l w.
Proof.
  intros A w. induction w as [|z w IH]; intros [|i] x y l N I; cbn in N; try discriminate; destruct I as [<-|I]; auto; [right; right; exact I|right; left; reflexivity|].
  destruct (IH i x y l N I); [left; assumption|right; right; assumption].
Qed.
Lemma lastAt_cons : forall a x y l v, lastAt a x (y :: l) v <->
  lastAt a x l v \/ ((forall w, In (a, w) l -> ~ names a x w) /\ y = (a, v) /\ names a x v).
Proof.
  intros a x y l v. split.
  - intros (l1 & l2 & E & N & L). destruct l1 as [|z l1]; injection E as -> ->; [right; auto|]. left. exists l1, l2. auto.
  - intros [(l1 & l2 & -> & N & L)|(L & -> & N)]; [exists (y :: l1), l2; auto|exists [], l; auto].
Qed.
Lemma acts_cons : forall m l, acts (m :: l) = (match actOf (fst m) with Some a => [(a, snd m)] | None => [] end) ++ acts l.
Proof. reflexivity. Qed.
Lemma acts_in : forall l x, In x (acts l) <-> exists m, In m l /\ actOf (fst m) = Some (fst x) /\ snd m = snd x.
Proof.
  intros l [a v]. unfold acts. rewrite in_flat_map. split; intros (m & M & H); exists m; (split; [exact M|]); cbn in *.
  - destruct (actOf (fst m)); [|destruct H]. destruct H as [H|[]]. injection H as -> ->. auto.
  - destruct H as [-> <-]. left. reflexivity.
Qed.
Lemma shuffle_last : forall w tr a x v, shuffle w tr -> lastAt a x (acts tr) v -> exists l, In l w /\ lastAt a x (acts l) v.
Proof.
  intros w tr a x v SH. induction SH as [w F|w i m ms l N SH IH]; intros H; [destruct (lastAt_nil _ _ _ H)|].
  assert (IN : forall z, In z (acts ms) -> In z (acts l)).
  { intros z Z. apply acts_in in Z. destruct Z as (m' & M & Q). apply acts_in. exists m'. split; [|exact Q]. eapply Permutation_in; [apply shuffle_perm; exact SH|]. apply in_concat. exists ms.
    split; [|exact M]. clear - N. revert i N. induction w as [|y w IHw]; intros [|i] N; cbn in N; try discriminate; [left; reflexivity|right; exact (IHw i N)]. }
  assert (IM : In (m :: ms) w) by (eapply nth_error_In; exact N).
  rewrite acts_cons in H. destruct (actOf (fst m)) as [c|] eqn:A; cbn [app] in H.
  - apply lastAt_cons in H. destruct H as [H|(L & E & NM)].
    + destruct (IH H) as (l' & I & Q). destruct (put_in _ _ _ _ _ _ N I) as [->|I2]; [|exists l'; auto].
      exists (m :: ms). split; [exact IM|]. rewrite acts_cons, A. cbn [app]. apply lastAt_cons. left. exact Q.
    + exists (m :: ms). split; [exact IM|]. rewrite acts_cons, A. cbn [app]. apply lastAt_cons. right. split; [intros u U; apply L; apply IN; exact U|auto].
  - destruct (IH H) as (l' & I & Q). destruct (put_in _ _ _ _ _ _ N I) as [->|I2]; [|exists l'; auto].
    exists (m :: ms). split; [exact IM|]. rewrite acts_cons, A. cbn [app]. exact Q.
Qed.

(** ** What a goroutine reads that begins inside an object *)
Section Cut.
  Variable toks : list bytes.
  Variable pf : bytes -> option spec_float.
  Hypothesis EN : ended toks.
  Notation nested := (nestedIn toks pf).
  Notation loopsAt := (A2lModPar.loopsAt toks pf).

  Lemma tok_length : forall i t g a, In (t, (g, a)) kinds -> tok toks i = b t -> i < length toks.
  Proof.
    intros i t g a I H. destruct (lt_dec i (length toks)) as [L|L]; [exact L|]. exfalso. apply (proj2 (begins_not_end (b t) (ex_intro _ (t, (g, a)) (conj I eq_refl)))).
    rewrite <- H. unfold tok. apply nth_overflow. lia.
  Qed.
  Lemma nested_bounds : forall i e l, nested i e l -> i <= e /\ forall x, In x l -> i < it_from x /\ it_from x <= it_to x <= e.
  Proof.
    induction 1 as [e|i e l N H [IH1 IH2]|i t g a v j e l I T R H [IH1 IH2]]; [split; [lia|intros x []]| |].
    - split; [lia|]. intros x X. specialize (IH2 x X). lia.
    - pose proof (returns_after toks pf EN _ _ _ _ _ _ I (tok_length _ _ _ _ I T) R). split; [lia|]. intros x [<-|X]; [cbn; lia|]. specialize (IH2 x X). lia.
  Qed.
  Lemma nested_actions : forall i e l, nested i e l -> forall x, In x (stored l) -> In (fst x) actions.
  Proof.
    induction 1 as [e|i e l N H IH|i t g a v j e l I T R H IH]; intros x X; [destruct X|auto|]. cbn in X. destruct X as [<-|X]; [|auto]. cbn. unfold actions. apply (in_map (fun k => snd (snd k)) _ _ I).
  Qed.

  (** The objects of a module do not overlap. *)
  Lemma content_apart : forall i items e, content toks pf i items e -> forall x y, In x items -> In y items -> x = y \/ it_to x < it_from y \/ it_to y < it_from x.
  Proof.
    induction 1 as [i H|i items e W C IH|i t g a v j items e I T R C IH]; intros x y X Y; [destruct X|auto|].
    pose proof (content_bounds toks pf EN _ _ _ C) as [_ B]. destruct X as [<-|X], Y as [<-|Y]; [left; reflexivity| | |auto].
    - right. left. cbn. apply B in Y. lia.
    - right. right. cbn. apply B in X. lia.
  Qed.
  Lemma broken_apart : forall i items e, broken toks pf i items e -> forall x y, In x items -> In y items -> x = y \/ it_to x < it_from y \/ it_to y < it_from x.
  Proof.
    induction 1 as [i t g a v j I T R|i items e W C IH|i t g a v j items e I T R C IH]; intros x y X Y; [destruct X|auto|].
    pose proof (broken_bounds toks pf EN _ _ _ C) as [_ B]. destruct X as [<-|X], Y as [<-|Y]; [left; reflexivity| | |auto].
    - right. left. cbn. apply B in Y. lia.
    - right. right. cbn. apply B in X. lia.
  Qed.

  Lemma skim : forall max e its j, j < e < length toks -> clean toks e -> (forall y, In y its -> j < it_from y) ->
    forall out, loopsAt max j out -> sends out (filter (inRange j max) its) ->
    forall i l, nested i j l -> exists out', loopsAt max i out' /\ sends out' (filter (inRange i max) (l ++ its)).
  Proof.
    intros max e its j0 JE CL AF out LO SE i l NS. remember j0 as j eqn:J. revert JE AF LO SE. induction NS as [j'|i j' l N NS IH|i t g a v j j' l I T R NS IH]; intros JE AF LO SE; subst j'.
    - exists out. auto.
    - destruct (IH eq_refl JE AF LO SE) as (out' & L' & S'). pose proof (nested_bounds _ _ _ NS) as [B1 B2].
      destruct (le_lt_dec max i) as [K|K].
      + exists []. split; [apply loop_stop; exact K|]. rewrite range_none; [split; [constructor|reflexivity]|]. intros x X. apply in_app_or in X. destruct X as [X|X]; [specialize (B2 x X)|specialize (AF x X)]; lia.
      + exists out'. destruct (tok_next toks i ltac:(lia)) as (T1 & T2 & T3). destruct (CL (S i) ltac:(lia)) as [C1 C2]. split.
        * apply loop_word; [exact K|rewrite T1; apply no_row; exact N|congruence|congruence|rewrite T2; exact L'].
        * rewrite (range_shift i (S i)); [exact S'|]. intros x X. apply in_app_or in X. destruct X as [X|X]; [specialize (B2 x X)|specialize (AF x X)]; lia.
    - destruct (IH eq_refl JE AF LO SE) as (out' & L' & S1 & S2). pose proof (nested_bounds _ _ _ NS) as [B1 B2]. pose proof (returns_after toks pf EN _ _ _ _ _ _ I (tok_length _ _ _ _ I T) R) as RA.
      destruct (le_lt_dec max i) as [K|K].
      + exists []. split; [apply loop_stop; exact K|]. rewrite range_none; [split; [constructor|reflexivity]|].
        intros x X. apply in_app_or in X. destruct X as [[<-|X]|X]; [cbn; lia|specialize (B2 x X)|specialize (AF x X)]; lia.
      + destruct (some_row t g a I) as (r & R1 & R2 & R3 & R4). destruct (row_chan r R4) as (Q1 & Q2 & _).
        exists ((r_chan r, v) :: out'). destruct (tok_next toks i ltac:(lia)) as (T1 & T2 & T3). split.
        * eapply loop_more; [exact K|rewrite T1, T; exact R1| |exact L']. rewrite R2, T2. exact R.
        * cbn [filter app]. unfold inRange at 1. cbn [it_from]. rewrite (proj2 (Nat.ltb_lt i (S i))), (proj2 (Nat.leb_le (S i) max)) by lia. cbn [andb].
          rewrite (range_shift i j) by (intros x X; apply in_app_or in X; destruct X as [X|X]; [specialize (B2 x X)|specialize (AF x X)]; lia). split; [constructor; [split; assumption|exact S1]|].
          cbn [acts flat_map fst snd]. rewrite R3. unfold stored. cbn [map it_act it_val app]. f_equal. exact S2.
  Qed.
  Lemma range_app : forall p q max l1 l2, (forall x, In x l2 -> p < it_from x <-> q < it_from x) -> filter (inRange p max) (l1 ++ l2) = filter (inRange p max) l1 ++ filter (inRange q max) l2.
  Proof.
    intros p q max l1 l2 H. rewrite filter_app. f_equal. induction l2 as [|x l2 IH]; [reflexivity|]. cbn [filter]. rewrite IH by (intros; apply H; right; assumption).
    unfold inRange. specialize (H x (or_introl eq_refl)). destruct (Nat.ltb_spec p (it_from x)), (Nat.ltb_spec q (it_from x)); try lia; reflexivity.
  Qed.

  Lemma skim_error : forall max e j, j < e < length toks -> clean toks e -> j <= max ->
    forall out, loopsAt max j out -> In anError out ->
    forall i l, nested i j l -> exists out', loopsAt max i out' /\ In anError out'.
  Proof.
    intros max e j0 JE CL JM out LO ER i l NS. remember j0 as j eqn:J. revert JE JM LO. induction NS as [j'|i j' l N NS IH|i t g a v j j' l I T R NS IH]; intros JE JM LO; subst j'.
    - exists out. auto.
    - destruct (IH eq_refl JE JM LO) as (out' & L' & S'). pose proof (nested_bounds _ _ _ NS) as [B1 B2].
      exists out'. split; [|exact S']. destruct (tok_next toks i ltac:(lia)) as (T1 & T2 & T3). destruct (CL (S i) ltac:(lia)) as [C1 C2].
      apply loop_word; [lia|rewrite T1; apply no_row; exact N|congruence|congruence|rewrite T2; exact L'].
    - destruct (IH eq_refl JE JM LO) as (out' & L' & S'). pose proof (nested_bounds _ _ _ NS) as [B1 B2]. pose proof (returns_after toks pf EN _ _ _ _ _ _ I (tok_length _ _ _ _ I T) R) as RA.
      destruct (some_row t g a I) as (r & R1 & R2 & R3 & R4).
      exists ((r_chan r, v) :: out'). split; [|right; exact S']. destruct (tok_next toks i ltac:(lia)) as (T1 & T2 & T3).
      eapply loop_more; [lia|rewrite T1, T; exact R1| |exact L']. rewrite R2, T2. exact R.
  Qed.

  Definition restOf (items : list item) (p : nat) (rest : list item) : Prop :=
    (exists x, In x items /\ cuts p x /\ nested p (it_to x) rest) \/ (forall x, In x items -> ~ cuts p x) /\ rest = [].

  Lemma cut_worker : forall max i items e p rest, content toks pf i items e -> clean toks e -> max <= e -> i <= p < e -> restOf items p rest ->
    exists out, loopsAt max p out /\ sends out (filter (inRange p max) (rest ++ items)).
  Proof.
    intros max i items e p rest C CL ME PB [(x & X & CU & NS)|[NC ->]]; pose proof (content_bounds toks pf EN _ _ _ C) as [B1 B2].
    - pose proof (content_apart _ _ _ C) as AP. pose proof (B2 x X) as BX. unfold cuts in CU.
      destruct (worker toks pf EN max i items e C CL ME (it_to x) ltac:(lia)) as (out & LO & SE).
      { intros y q Y F Q. exfalso. destruct (AP x y X Y) as [<-|[K|K]]; lia. }
      set (its := filter (fun y => it_to x <? it_from y) items).
      assert (FI : filter (inRange (it_to x) max) its = filter (inRange (it_to x) max) items).
      { subst its. generalize items. intros l. induction l as [|y l IH]; [reflexivity|]. cbn [filter]. unfold inRange at 2. destruct (it_to x <? it_from y) eqn:L; [|exact IH]. cbn [filter andb]. unfold inRange at 1. rewrite L, IH. reflexivity. }
      destruct (skim max e its (it_to x) ltac:(lia) CL) with (out := out) (i := p) (l := rest) as (out' & L' & S'); [|exact LO|rewrite FI; exact SE|exact NS|].
      { intros y Y. apply filter_In in Y. apply Nat.ltb_lt. exact (proj2 Y). }
      exists out'. split; [exact L'|]. rewrite (range_app p (it_to x)) in S' by (intros y Y; apply filter_In in Y; destruct Y as [_ Y]; apply Nat.ltb_lt in Y; lia).
      rewrite FI in S'. rewrite (range_app p (it_to x)); [exact S'|]. intros y Y. destruct (AP x y X Y) as [<-|[K|K]]; [lia|lia|]. specialize (B2 y Y). lia.
    - cbn [app]. apply (worker toks pf EN max i items e C CL ME p PB). intros x q X F Q. exfalso. apply (NC x X). unfold cuts. lia.
  Qed.
  Lemma cut_bad_worker : forall max i items e p rest, broken toks pf i items e -> clean toks e -> e <= max -> i <= p < e -> restOf items p rest ->
    exists out, loopsAt max p out /\ In anError out.
  Proof.
    intros max i items e p rest C CL ME PB [(x & X & CU & NS)|[NC ->]]; pose proof (broken_bounds toks pf EN _ _ _ C) as [B1 B2].
    - pose proof (broken_apart _ _ _ C) as AP. pose proof (B2 x X) as BX. unfold cuts in CU.
      destruct (bad_worker toks pf EN max i items e C CL ME (it_to x) ltac:(lia)) as (out & LO & SE).
      { intros y q Y F Q. exfalso. destruct (AP x y X Y) as [<-|[K|K]]; lia. }
      apply (skim_error max e (it_to x) ltac:(lia) CL ltac:(lia) out LO SE p rest NS).
    - apply (bad_worker toks pf EN max i items e C CL ME p PB). intros x q X F Q. exfalso. apply (NC x X). unfold cuts. lia.
  Qed.
  Lemma cuts_dec : forall p items, (exists x, In x items /\ cuts p x) \/ forall x, In x items -> ~ cuts p x.
  Proof.
    intros p items. induction items as [|y items IH]; [right; intros x []|]. destruct IH as [(x & X & C)|N]; [left; exists x; split; [right; exact X|exact C]|].
    unfold cuts in *. destruct (le_lt_dec (it_from y) p) as [K|K]; [destruct (lt_dec p (it_to y)) as [L|L]|].
    - left. exists y. split; [left; reflexivity|lia].
    - right. intros x [<-|X]; [lia|apply N; exact X].
    - right. intros x [<-|X]; [lia|apply N; exact X].
  Qed.
  Lemma rest_exists : forall np start stop items p, complete toks pf np start stop items -> border np start stop p -> exists rest, restOf items p rest.
  Proof.
    intros np start stop items p CO B. destruct (cuts_dec p items) as [(x & X & C)|N]; [|exists []; right; auto]. destruct (CO p x B X C) as [l L]. exists l. left. eauto.
  Qed.
  Lemma rest_actions : forall items p rest, restOf items p rest -> forall x, In x (stored rest) -> In (fst x) actions.
  Proof. intros items p rest [(x & X & C & N)|[_ ->]]; [eapply nested_actions; exact N|intros x []]. Qed.
End Cut.
