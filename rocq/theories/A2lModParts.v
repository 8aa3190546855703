(** How parseModuleMultithreaded divides the tokens of a module. *)
From Coq Require Import String Ascii List Arith Bool Lia SpecFloat Permutation.
From Verif Require Import GoBase GoBaseFacts A2lIR A2lTokens A2lParsers A2lSpec FanModel FanProofs A2lModModel A2lModSpec A2lModStore A2lModSeq A2lModPar.
Import ListNotations.

(** ** One share each *)
Section Shares.
  Context {A : Type} (P : nat -> A -> bool) (Q : A -> bool).
  Lemma share_none : forall x ks, (forall k, In k ks -> P k x = false) -> flat_map (fun k => if P k x then [x] else []) ks = [].
  Proof. intros x. induction ks as [|k ks IH]; intros H; [reflexivity|]. cbn. rewrite (H k (or_introl eq_refl)). apply IH. intros j J. apply H. right. exact J. Qed.
  Lemma share_one : forall x k0 ks, NoDup ks -> In k0 ks -> P k0 x = true -> (forall k, In k ks -> P k x = true -> k = k0) ->
    flat_map (fun k => if P k x then [x] else []) ks = [x].
  Proof.
    intros x k0. induction ks as [|k ks IH]; intros ND I H U; [destruct I|]. inversion ND as [|? ? N ND']; subst. cbn. destruct I as [->|I].
    - rewrite H, share_none; [reflexivity|]. intros j J. destruct (P j x) eqn:E; [|reflexivity]. specialize (U j (or_intror J) E). congruence.
    - destruct (P k x) eqn:E; [specialize (U k (or_introl eq_refl) E); congruence|]. apply IH; auto. intros j J. apply U. right. exact J.
  Qed.
  Lemma flat_app : forall (B : Type) (f g : nat -> list B) ks, Permutation (flat_map (fun k => f k ++ g k) ks) (flat_map f ks ++ flat_map g ks).
  Proof.
    intros B f g. induction ks as [|k ks IH]; cbn; [constructor|]. rewrite <- !app_assoc. apply Permutation_app_head.
    eapply Permutation_trans; [apply Permutation_app_head; exact IH|]. rewrite !app_assoc. apply Permutation_app_tail. apply Permutation_app_comm.
  Qed.
  Lemma shares : forall ks l, NoDup ks ->
    (forall x, In x l -> if Q x then exists k0, In k0 ks /\ P k0 x = true /\ forall k, In k ks -> P k x = true -> k = k0 else forall k, In k ks -> P k x = false) ->
    Permutation (flat_map (fun k => filter (P k) l) ks) (filter Q l).
  Proof.
    intros ks l ND. induction l as [|x l IH]; intros H.
    - replace (flat_map (fun k => filter (P k) []) ks) with (@nil A) by (clear; induction ks as [|k ks IH]; [reflexivity|exact IH]). constructor.
    - eapply Permutation_trans with (flat_map (fun k => (if P k x then [x] else []) ++ filter (P k) l) ks).
      { erewrite flat_map_ext; [apply Permutation_refl|]. intros k. cbn. destruct (P k x); reflexivity. }
      eapply Permutation_trans; [apply flat_app|]. specialize (H x (or_introl eq_refl)) as HX.
      specialize (IH (fun y Y => H y (or_intror Y))). cbn [filter]. destruct (Q x).
      + destruct HX as (k0 & I & E & U). rewrite (share_one x k0 ks ND I E U). cbn. constructor. exact IH.
      + rewrite (share_none x ks HX). exact IH.
  Qed.
End Shares.

(** ** The shares of the goroutines *)
Section Parts.
  Variables np start stop : nat.
  Hypothesis NP : 0 < np.
  Hypothesis LT : start < stop.
  Notation q := ((stop - start) / np).
  Notation lo := (minIndex np start stop).
  Notation hi := (maxIndex np start stop).

  Lemma q_le : q * np <= stop - start.
  Proof. rewrite Nat.mul_comm. apply Nat.mul_div_le. lia. Qed.
  Lemma q_part : forall k, k <= np -> q * k <= stop - start.
  Proof. intros k K. pose proof q_le. pose proof (Nat.mul_le_mono_l k np q K). lia. Qed.
  Lemma lo_lt : forall k, k < np -> start <= lo k < stop.
  Proof.
    intros k K. unfold minIndex. destruct (Nat.eq_dec q 0) as [Z|Z]; [rewrite Z; lia|].
    pose proof q_le. pose proof (Nat.mul_le_mono_l (S k) np q K). lia.
  Qed.
  Lemma hi_le : forall k, k < np -> hi k <= stop.
  Proof. intros k K. unfold maxIndex, minIndex. destruct (Nat.eqb_spec (S k) np); [lia|]. pose proof (q_part (S k) ltac:(lia)). lia. Qed.
  Lemma lo_border : forall k, k < np -> lo k = start \/ border np start stop (lo k).
  Proof. intros [|k] K; [left; unfold minIndex; lia|]. right. exists (S k). split; [lia|reflexivity]. Qed.

  Definition isBorder (p : nat) : bool := existsb (fun k => p =? start + q * k) (seq 1 (np - 1)).
  Lemma isBorder_spec : forall p, isBorder p = true <-> border np start stop p.
  Proof.
    intros p. unfold isBorder. rewrite existsb_exists. split.
    - intros (k & I & E). apply in_seq in I. apply Nat.eqb_eq in E. exists k. split; [lia|exact E].
    - intros (k & K & E). exists k. split; [apply in_seq; lia|apply Nat.eqb_eq; exact E].
  Qed.

  Lemma share_exists : forall f, start < f <= stop -> exists k, k < np /\ start + q * k < f /\ (S k = np \/ f <= start + q * S k).
  Proof.
    intros f F. assert (H : forall n, n < np -> exists k, k <= n /\ start + q * k < f /\ (k = n \/ f <= start + q * S k)).
    { induction n as [|n IH]; intros N; [exists 0; lia|]. destruct (IH ltac:(lia)) as (k & K1 & K2 & [->|K3]).
      - destruct (le_lt_dec f (start + q * S n)) as [L|L]; [exists n; lia|exists (S n); lia].
      - exists k. lia. }
    destruct (H (np - 1) ltac:(lia)) as (k & K1 & K2 & K3). exists k. split; [lia|]. split; [exact K2|]. destruct K3; [left; lia|right; assumption].
  Qed.

  Lemma parts : forall items, (forall x, In x items -> start < it_from x < stop) ->
    Permutation (flat_map (fun k => filter (inRange (lo k) (hi k)) items) (seq 0 np)) (filter (fun x => negb (isBorder (it_from x))) items).
  Proof.
    intros items B. apply shares; [apply seq_NoDup|]. intros x X. specialize (B x X). set (f := it_from x) in *.
    assert (P : forall k, inRange (lo k) (hi k) x = true <-> lo k < f <= hi k).
    { intros k. unfold inRange. fold f. rewrite andb_true_iff, Nat.ltb_lt, Nat.leb_le. reflexivity. }
    destruct (isBorder f) eqn:E; cbn [negb].
    - apply isBorder_spec in E. destruct E as (k0 & K0 & E). intros k I. apply in_seq in I. apply not_true_iff_false. rewrite P. unfold minIndex, maxIndex, minIndex. intros [H1 H2].
      assert (KL : k < k0) by (apply Nat.lt_nge; intros C; pose proof (Nat.mul_le_mono_l k0 k q C); lia).
      destruct (Nat.eqb_spec (S k) np); [lia|]. pose proof (Nat.mul_le_mono_l (S k) k0 q KL). lia.
    - assert (NB : ~ border np start stop f) by (intros C; apply isBorder_spec in C; congruence).
      destruct (share_exists f) as (k & K1 & K2 & K3); [lia|].
      assert (PK : lo k < f <= hi k).
      { unfold minIndex, maxIndex, minIndex. split; [exact K2|]. destruct (Nat.eqb_spec (S k) np) as [EQ|NE]; [lia|]. destruct K3 as [K3|K3]; [contradiction|].
        assert (f <> start + q * S k) by (intros C; apply NB; exists (S k); split; [lia|exact C]). lia. }
      exists k. split; [apply in_seq; lia|]. split; [apply P; exact PK|]. intros j J H. apply P in H. apply in_seq in J.
      unfold minIndex, maxIndex, minIndex in *. destruct (lt_eq_lt_dec j k) as [[C|C]|C]; [exfalso|exact C|exfalso].
      + destruct (Nat.eqb_spec (S j) np); [lia|]. pose proof (Nat.mul_le_mono_l (S j) k q C). lia.
      + destruct (Nat.eqb_spec (S k) np); [lia|]. pose proof (Nat.mul_le_mono_l (S k) j q C). lia.
  Qed.
End Parts.

(** ** The result *)
Section Result.
  Variable toks : list bytes.
  Variable pf : bytes -> option spec_float.
  Hypothesis EN : ended toks.

  Lemma content_end : forall i items e, content toks pf i items e -> tok toks e = b "/end MODULE".
  Proof. induction 1; assumption. Qed.

  Lemma firstEnd_at : forall l k e, (forall p, p < e -> nth p l [] <> b "/end MODULE") -> nth e l [] = b "/end MODULE" -> firstEnd l k = k + e.
  Proof.
    induction l as [|t l IH]; intros k e H E; [destruct e; discriminate|]. cbn [firstEnd]. destruct e as [|e].
    - cbn in E. rewrite E, beqb_refl. lia.
    - rewrite (proj2 (beqb_neq _ _)) by (apply (H 0); lia). rewrite (IH (S k) e); [lia| |exact E]. intros p P. apply (H (S p)). lia.
  Qed.

  Lemma header_words : forall i, word (tok toks (i + 1)) -> word (tok toks (i + 2)) -> header toks i = (headOf (tok toks (i + 1)) (tok toks (i + 2)), false, i + 2).
  Proof.
    intros i [W1 _] [W2 _]. replace (i + 1) with (S i) in * by lia. replace (i + 2) with (S (S i)) in * by lia.
    assert (L : S (S i) < length toks) by (apply Nat.lt_nge; intros C; apply W2; unfold tok; apply nth_overflow; exact C).
    destruct (tok_next toks i ltac:(lia)) as (_ & N1 & C1). destruct (tok_next toks (S i) L) as (_ & N2 & C2).
    unfold header. rewrite C1, N1, C2, N2, (proj2 (beqb_neq _ _) W1), (proj2 (beqb_neq _ _) W2). reflexivity.
  Qed.

  Lemma acts_concat : forall outs, acts (concat outs) = flat_map acts outs.
  Proof. induction outs as [|o outs IH]; [reflexivity|]. cbn [concat flat_map]. rewrite <- IH. unfold acts. apply flat_map_app. Qed.
  Lemma stored_flat : forall (f : nat -> list item) ks, stored (flat_map f ks) = flat_map (fun k => stored (f k)) ks.
  Proof. intros f. induction ks as [|k ks IH]; [reflexivity|]. cbn [flat_map]. rewrite <- IH. unfold stored. apply map_app. Qed.

  Lemma caps : forall np c, 0 < np -> In c closing -> 0 < capOf np c.
  Proof.
    intros np c NP I. unfold capOf. destruct (String.eqb c errChan) eqn:E; [exact NP|].
    assert (H : forallb (fun c => String.eqb c errChan || match find (fun p => String.eqb (fst p) c) channels with Some (_, (n, _)) => 0 <? n | None => false end) closing = true) by (vm_compute; reflexivity).
    pose proof (proj1 (forallb_forall _ _) H c I) as Q. cbn beta in Q. rewrite E in Q. cbn [orb] in Q. destruct (find _ channels) as [[? [n ?]]|]; [|discriminate]. apply Nat.ltb_lt. exact Q.
  Qed.

  Lemma closing_channels : forall c, In c (map fst channels) -> In c closing.
  Proof.
    intros c I. assert (H : forallb (fun c => existsb (String.eqb c) closing) (map fst channels) = true) by (vm_compute; reflexivity).
    pose proof (proj1 (forallb_forall _ _) H c I) as Q. cbn beta in Q. apply existsb_exists in Q. destruct Q as (d & J & E). apply String.eqb_eq in E. subst. exact J.
  Qed.

  Lemma firstEnd_lt : forall l k, firstEnd l k = 0 \/ firstEnd l k < k + length l.
  Proof. induction l as [|t l IH]; intros k; [left; reflexivity|]. cbn [firstEnd length]. destruct (beqb t _); [right; lia|]. destruct (IH (S k)); [left; assumption|right; lia]. Qed.
  Lemma outs_proper : forall np start stop outs, 0 < np -> firstEnd toks 0 = stop -> start < stop ->
    Forall2 (fun k out => loops toks pf (maxIndex np start stop k) (minIndex np start stop k) out) (seq 0 np) outs ->
    forall l m, In l outs -> In m l -> In (fst m) closing.
  Proof.
    intros np start stop outs NP FE LT F2. assert (SL : stop < length toks) by (destruct (firstEnd_lt toks 0); lia).
    assert (KS : forall k, In k (seq 0 np) -> k < np) by (intros k I; apply in_seq in I; lia). revert KS F2. generalize (seq 0 np). intros ks KS F2.
    induction F2 as [|k out ks outs L F2 IH]; intros l m I J; [destruct I|]. destruct I as [<-|I]; [|eapply IH; eauto; intros; apply KS; right; assumption].
    pose proof (lo_lt np start stop NP LT k (KS k (or_introl eq_refl))) as LL.
    destruct (loops_total toks pf EN (maxIndex np start stop k) (minIndex np start stop k) ltac:(lia)) as (out' & L' & P).
    rewrite (loops_fun toks pf _ _ _ _ L (loopsAt_loops toks pf _ _ _ L')) in J. exact (proj1 (Forall_forall _ _) P m J).
  Qed.
  Lemma outs_exist : forall np start stop, 0 < np -> firstEnd toks 0 = stop -> start < stop ->
    exists outs, Forall2 (fun k out => loops toks pf (maxIndex np start stop k) (minIndex np start stop k) out) (seq 0 np) outs.
  Proof.
    intros np start stop NP FE LT. assert (SL : stop < length toks) by (destruct (firstEnd_lt toks 0); lia).
    assert (KS : forall k, In k (seq 0 np) -> k < np) by (intros k I; apply in_seq in I; lia). revert KS. generalize (seq 0 np). intros ks KS.
    induction ks as [|k ks IH]; [exists []; constructor|]. destruct IH as [outs IH]; [intros; apply KS; right; assumption|].
    pose proof (lo_lt np start stop NP LT k (KS k (or_introl eq_refl))) as LL.
    destruct (loops_total toks pf EN (maxIndex np start stop k) (minIndex np start stop k) ltac:(lia)) as (out' & L' & P).
    exists (out' :: outs). constructor; [apply loopsAt_loops; exact L'|exact IH].
  Qed.

  Lemma result : forall np i items stop v e j, 0 < np -> isModule toks pf i items stop -> clean toks stop -> tidy toks np (i + 2) stop items ->
    parallel toks pf np i v e j ->
    exists l, v = VObj (store l (headOf (tok toks (i + 1)) (tok toks (i + 2)))) /\ e = false /\ j = stop
      /\ Permutation l (stored (filter (fun x => negb (isBorder np (i + 2) stop (it_from x))) items)).
  Proof.
    intros np i items stop v e j NP (W1 & W2 & C) CL TD PAR. pose proof (header_words i W1 W2) as HW.
    pose proof (content_bounds toks pf EN _ _ _ C) as [B1 B2].
    assert (FE : firstEnd toks 0 = stop) by (apply (firstEnd_at toks 0 stop); [intros p P; apply (CL p P)|exact (content_end _ _ _ C)]).
    destruct PAR as [o e start H1 H2|o e start stop' outs s H1 H2 H3 F2 ST FI].
    - exfalso. rewrite HW in H1. injection H1 as <- <- <-. lia.
    - rewrite HW in H1. injection H1 as <- <- <-. rewrite FE in H2. subst stop'. clear H3.
      assert (SD : Forall2 (fun k out => sends out (filter (inRange (minIndex np (i + 2) stop k) (maxIndex np (i + 2) stop k)) items)) (seq 0 np) outs).
      { assert (KS : forall k, In k (seq 0 np) -> k < np) by (intros k I; apply in_seq in I; lia). revert KS F2. generalize (seq 0 np). intros ks KS F2. clear ST FI.
        induction F2 as [|k out ks outs L F2 IH]; [constructor|]. constructor; [|apply IH; intros; apply KS; right; assumption].
        assert (K : k < np) by (apply KS; left; reflexivity).
        destruct (worker toks pf EN (maxIndex np (i + 2) stop k) _ _ _ C CL (hi_le np (i + 2) stop NP ltac:(lia) k K) (minIndex np (i + 2) stop k) (lo_lt np (i + 2) stop NP ltac:(lia) k K)) as (out' & L' & S').
        - intros x p X X1 X2. destruct (lo_border np (i + 2) stop NP ltac:(lia) k K) as [Z|Z]; [specialize (B2 x X); lia|]. eapply TD; eauto.
        - rewrite (loops_fun toks pf _ _ _ _ L (loopsAt_loops toks pf _ _ _ L')). exact S'. }
      assert (OB : forall l m, In l outs -> In m l -> object m).
      { clear - SD. induction SD as [|k out ks outs [S1 S2] SD IH]; intros l m I J; [destruct I|]. destruct I as [<-|I]; [|eauto]. exact (proj1 (Forall_forall _ _) S1 m J). }
      assert (IV : inv closing outs s).
      { eapply inv_steps; [|exact ST]. apply inv_init; [exact closing_nodup|]. intros l m I J. exact (proj1 (OB l m I J)). }
      destruct (fan_final _ _ _ _ IV FI) as (tr & SH & GT); [discriminate|]. pose proof (shuffle_perm _ _ _ SH) as PM.
      assert (ER : f_got s errChan = []).
      { rewrite GT by (left; reflexivity). unfold on. assert (NE : forall m, In m tr -> fst m <> errChan).
        { intros m M. apply (Permutation_in _ (Permutation_sym PM)) in M. apply in_concat in M. destruct M as (l & I & J). exact (proj2 (OB l m I J)). }
        clear - NE. induction tr as [|m tr IH]; [reflexivity|]. cbn [filter]. destruct (String.eqb_spec (fst m) errChan) as [E|E]; [destruct (NE m (or_introl eq_refl) E)|].
        apply IH. intros x X. apply NE. right. exact X. }
      rewrite ER, collected_store. exists (gathered (f_got s)). split; [reflexivity|]. split; [reflexivity|]. split; [reflexivity|].
      eapply Permutation_trans; [apply gathered_perm; intros c I; apply GT; apply closing_channels; exact I|].
      eapply Permutation_trans; [apply acts_perm; apply Permutation_sym; exact PM|]. rewrite acts_concat.
      replace (flat_map acts outs) with (stored (flat_map (fun k => filter (inRange (minIndex np (i + 2) stop k) (maxIndex np (i + 2) stop k)) items) (seq 0 np))).
      + apply Permutation_map. apply parts; [exact NP|lia|]. intros x X. specialize (B2 x X). lia.
      + rewrite stored_flat. clear - SD. induction SD as [|k out ks outs [S1 S2] SD IH]; [reflexivity|]. cbn [flat_map]. rewrite S2, IH. reflexivity.
  Qed.

  Lemma failure : forall np i items p stop v e j, 0 < np -> word (tok toks (i + 1)) -> word (tok toks (i + 2)) -> broken toks pf (i + 2) items p ->
    clean toks stop -> tok toks stop = b "/end MODULE" -> p < stop -> ~ border np (i + 2) stop p -> tidy toks np (i + 2) stop items ->
    parallel toks pf np i v e j -> e = true.
  Proof.
    intros np i items p stop v e j NP W1 W2 C CL TE LP NB TD PAR. pose proof (header_words i W1 W2) as HW.
    pose proof (broken_bounds toks pf EN _ _ _ C) as [B1 B2].
    assert (FE : firstEnd toks 0 = stop) by (apply (firstEnd_at toks 0 stop); [intros q Q; apply (CL q Q)|exact TE]).
    destruct PAR as [o e start H1 H2|o e start stop' outs s H1 H2 H3 F2 ST FI]; [reflexivity|].
    rewrite HW in H1. injection H1 as <- <- <-. rewrite FE in H2. subst stop'.
    destruct (share_exists np (i + 2) stop NP ltac:(lia) p ltac:(lia)) as (k & K1 & K2 & K3).
    assert (KH : p <= maxIndex np (i + 2) stop k).
    { unfold maxIndex, minIndex. destruct (Nat.eqb_spec (S k) np) as [EQ|NE]; [lia|]. destruct K3 as [K3|K3]; [contradiction|].
      assert (p <> i + 2 + (stop - (i + 2)) / np * S k) by (intros Z; apply NB; exists (S k); split; [lia|exact Z]). lia. }
    assert (EI : exists out, In out outs /\ In anError out).
    { assert (IK : In k (seq 0 np)) by (apply in_seq; lia). revert IK F2. generalize (seq 0 np). intros ks IK F2. clear ST FI.
      induction F2 as [|k' out ks outs L F2 IH]; [destruct IK|]. destruct IK as [->|IK]; [|destruct (IH IK) as (o & O1 & O2); exists o; split; [right; exact O1|exact O2]].
      exists out. split; [left; reflexivity|].
      destruct (bad_worker toks pf EN (maxIndex np (i + 2) stop k) _ _ _ C (fun q Q => CL q ltac:(lia)) KH (minIndex np (i + 2) stop k)) as (out' & L' & S').
      - unfold minIndex. lia.
      - intros x q X X1 X2. destruct (lo_border np (i + 2) stop NP ltac:(lia) k K1) as [Z|Z]; [specialize (B2 x X); lia|]. eapply TD; eauto.
      - rewrite (loops_fun toks pf _ _ _ _ L (loopsAt_loops toks pf _ _ _ L')). exact S'. }
    assert (PR : forall l m, In l outs -> In m l -> In (fst m) closing) by exact (outs_proper np (i + 2) stop outs NP FE ltac:(lia) F2).
    assert (IV : inv closing outs s).
    { eapply inv_steps; [|exact ST]. apply inv_init; [exact closing_nodup|exact PR]. }
    destruct (fan_final _ _ _ _ IV FI) as (tr & SH & GT); [discriminate|]. pose proof (shuffle_perm _ _ _ SH) as PM.
    rewrite GT by (left; reflexivity). destruct EI as (out & I1 & I2).
    assert (IT : In anError tr) by (eapply Permutation_in; [exact PM|]; apply in_concat; eauto).
    assert (IE : In (VStr []) (on errChan tr)).
    { unfold on. apply (in_map snd _ anError). apply filter_In. split; [exact IT|reflexivity]. }
    destruct (on errChan tr); [destruct IE|reflexivity].
  Qed.
End Result.
