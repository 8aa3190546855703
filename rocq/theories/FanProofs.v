(** Every run of the machine of FanModel.v ends, and what the collectors have
    then received. *)
From Coq Require Import String List Arith Lia Permutation Wellfounded.
From Verif Require Import FanModel.
Import ListNotations.

Section Fan.
  Variable V : Type.
  Variable cap : string -> nat.
  Notation msg := (string * V)%type.

  (** A sequence of all values that the workers send, each worker's in its order. *)
  Inductive shuffle : list (list msg) -> list msg -> Prop :=
  | ShNil : forall w, Forall (eq []) w -> shuffle w []
  | ShCons : forall w i m ms l, nth_error w i = Some (m :: ms) -> shuffle (put i ms w) l -> shuffle w (m :: l).

  (** the values sent on channel [c] *)
  Definition on (c : string) (l : list msg) : list V :=
    map snd (filter (fun m => String.eqb (fst m) c) l).

  Lemma on_app : forall c l1 l2, on c (l1 ++ l2) = on c l1 ++ on c l2.
  Proof. intros. unfold on. rewrite filter_app, map_app. reflexivity. Qed.

  (** ** Termination *)
  Fixpoint total (w : list (list msg)) : nat := match w with [] => 0 | l :: w' => length l + total w' end.
  Fixpoint held (buf : string -> list V) (cs : list string) : nat := match cs with [] => 0 | c :: cs' => length (buf c) + held buf cs' end.

  Lemma total_put : forall w i m ms, nth_error w i = Some (m :: ms) -> total w = S (total (put i ms w)).
  Proof.
    induction w as [|l w IH]; intros [|i] m ms H; cbn in H; try discriminate.
    - injection H as ->. cbn. reflexivity.
    - cbn. unfold put in IH. rewrite (IH _ _ _ H). cbn. lia.
  Qed.

  Lemma held_out : forall buf c l cs, ~ In c cs -> held (upd buf c l) cs = held buf cs.
  Proof.
    intros buf c l. induction cs as [|d cs IH]; intros N; [reflexivity|]. cbn in *. rewrite IH by tauto.
    unfold upd. destruct (String.eqb_spec d c); [subst; tauto|reflexivity].
  Qed.
  Lemma held_in : forall buf c l cs, NoDup cs -> In c cs -> held (upd buf c l) cs + length (buf c) = held buf cs + length l.
  Proof.
    intros buf c l. induction cs as [|d cs IH]; intros N I; [destruct I|]. inversion N; subst. cbn.
    destruct I as [->|I].
    - rewrite held_out by assumption. unfold upd at 1. rewrite String.eqb_refl. lia.
    - specialize (IH H2 I). unfold upd at 1. destruct (String.eqb_spec d c); [subst; contradiction|]. lia.
  Qed.

  Lemma without_in : forall c d l, In d (without c l) <-> In d l /\ d <> c.
  Proof.
    intros c d l. unfold without. rewrite filter_In. destruct (String.eqb_spec d c); cbn; intuition congruence.
  Qed.
  Lemma filter_le : forall (A : Type) (p : A -> bool) l, length (filter p l) <= length l.
  Proof. intros A p. induction l as [|e l IH]; cbn; [lia|destruct (p e); cbn; lia]. Qed.
  Lemma without_length : forall c l, In c l -> length (without c l) < length l.
  Proof.
    intros c. induction l as [|d l IH]; intros I; [destruct I|]. cbn. destruct (String.eqb_spec d c); cbn.
    - pose proof (filter_le _ (fun d => negb (String.eqb d c)) l). lia.
    - destruct I as [->|I]; [contradiction|]. specialize (IH I). unfold without in *. lia.
  Qed.
  Lemma without_nodup : forall c l, NoDup l -> NoDup (without c l).
  Proof. intros. apply NoDup_filter. assumption. Qed.

  (** Where a run can be: [chans] are the channels, [w0] what there was to send. *)
  Record inv (chans : list string) (w0 : list (list msg)) (s : fan V) : Prop := {
    i_sent : exists tr, (forall l, shuffle (f_work s) l -> shuffle w0 (tr ++ l)) /\ (forall c, f_got s c ++ f_buf s c = on c tr);
    i_msgs : forall l m, In l (f_work s) -> In m l -> In (fst m) chans;
    i_coll : NoDup (f_coll s) /\ incl (f_coll s) chans;
    i_open : incl (f_open s) chans /\ (f_open s = chans \/ Forall (eq []) (f_work s));
    i_gone : forall c, In c chans -> ~ In c (f_coll s) -> f_buf s c = [] /\ ~ In c (f_open s) }.

  Lemma inv_init : forall chans w0, NoDup chans -> (forall l m, In l w0 -> In m l -> In (fst m) chans) -> inv chans w0 (finit w0 chans).
  Proof.
    intros chans w0 N I. constructor; cbn.
    - exists []. split; [auto|reflexivity].
    - exact I.
    - split; [exact N|apply incl_refl].
    - split; [apply incl_refl|left; reflexivity].
    - intros c J K. contradiction.
  Qed.

  Lemma put_in : forall {A} i (x : A) l y, In y (put i x l) -> y = x \/ In y l.
  Proof.
    intros A i x l y H. unfold put in H. apply in_app_or in H. destruct H as [H|[->|H]]; [|auto|].
    - right. clear - H. revert i H. induction l; intros [|i] H; cbn in *; try contradiction. destruct H; auto. right. eauto.
    - right. clear - H. revert H. generalize (S i). intros n. revert n. induction l; intros [|n] H; cbn in *; try contradiction; auto. right. eauto.
  Qed.

  Lemma done_no_msg : forall (w : list (list msg)) i m ms, Forall (eq []) w -> nth_error w i = Some (m :: ms) -> False.
  Proof. intros w i m ms F H. apply nth_error_In in H. pose proof (proj1 (Forall_forall _ _) F _ H). discriminate. Qed.

  Lemma inv_step : forall chans w0 s s', inv chans w0 s -> fstep cap s s' -> inv chans w0 s'.
  Proof.
    intros chans w0 s s' [IS IM IC IO IG] ST. destruct ST as [w i c v ms buf op got coll N L|w c v vs buf op got coll I B|w c op buf got coll F|w c buf op got coll I NO B]; cbn in *.
    - destruct IS as (tr & T1 & T2). constructor; cbn.
      + exists (tr ++ [(c, v)]). split.
        * intros l S. rewrite <- app_assoc. apply T1. cbn. econstructor; eauto.
        * intros d. rewrite on_app. unfold upd. rewrite <- T2. unfold on at 1. cbn. destruct (String.eqb_spec d c) as [->|ne].
          -- rewrite String.eqb_refl. cbn. rewrite app_assoc. reflexivity.
          -- destruct (String.eqb_spec c d); [congruence|]. cbn. rewrite app_nil_r. reflexivity.
      + intros l m J K. apply put_in in J. destruct J as [->|J]; [|eauto]. apply (IM _ m (nth_error_In _ _ N)). right. exact K.
      + exact IC.
      + destruct IO as [IO1 [->|F]]; [auto|]. destruct (done_no_msg _ _ _ _ F N).
      + intros d J K. destruct (IG d J K) as [G1 G2]. split; [|exact G2]. unfold upd. destruct (String.eqb_spec d c) as [->|]; [|exact G1].
        exfalso. destruct IO as [_ [->|F]]; [contradiction|]. destruct (done_no_msg _ _ _ _ F N).
    - destruct IS as (tr & T1 & T2). constructor; cbn; auto.
      + exists tr. split; [exact T1|]. intros d. rewrite <- T2. unfold upd. destruct (String.eqb_spec d c) as [->|]; [|reflexivity].
        rewrite B, <- app_assoc. reflexivity.
      + intros d J K. destruct (IG d J K) as [G1 G2]. split; [|exact G2]. unfold upd. destruct (String.eqb_spec d c) as [->|]; [contradiction|exact G1].
    - constructor; cbn; auto.
      + split; [|right; exact F]. intros d J. apply (proj1 IO). right. exact J.
      + intros d J K. destruct (IG d J K) as [G1 G2]. split; [exact G1|]. intros J'. apply G2. right. exact J'.
    - constructor; cbn; auto.
      + destruct IC as [C1 C2]. split; [apply without_nodup; exact C1|]. intros d J. apply without_in in J. apply C2. tauto.
      + intros d J K. destruct (in_dec string_dec d coll) as [D|D]; [|auto].
        assert (d = c) as -> by (destruct (string_dec d c); [assumption|exfalso; apply K; apply without_in; auto]). auto.
  Qed.

  Lemma inv_steps : forall chans w0 s s', inv chans w0 s -> fsteps cap s s' -> inv chans w0 s'.
  Proof. intros chans w0 s s' I R. induction R; [assumption|]. apply IHR. eapply inv_step; eauto. Qed.

  (** No state but a final one is stuck. *)
  Lemma progress : forall chans w0 s, inv chans w0 s -> (forall c, In c chans -> 0 < cap c) -> ffinal s \/ exists s', fstep cap s s'.
  Proof.
    intros chans w0 [w buf op got coll] [IS IM IC IO IG] CP. cbn in *. unfold ffinal. cbn.
    assert (W : Forall (eq []) w \/ exists i m ms, nth_error w i = Some (m :: ms)).
    { clear. induction w as [|[|m ms] w IH]; [left; constructor| |right; exists 0, m, ms; reflexivity].
      destruct IH as [IH|(i & m & ms & H)]; [left; constructor; auto|right; exists (S i), m, ms; exact H]. }
    destruct W as [F|(i & [c v] & ms & N)].
    - destruct op as [|c op]; [|right; eexists; apply FClose; exact F].
      destruct coll as [|c coll]; [left; reflexivity|]. right. destruct (buf c) as [|v vs] eqn:B.
      + eexists. apply (FDone V cap w c); [left; reflexivity|intros []|exact B].
      + eexists. eapply FRecv; [left; reflexivity|exact B].
    - right. assert (In c chans) as J by (apply (IM _ (c, v) (nth_error_In _ _ N)); left; reflexivity).
      destruct (lt_dec (length (buf c)) (cap c)) as [L|L]; [eexists; eapply FSend; eauto|].
      destruct (buf c) as [|u us] eqn:B; [specialize (CP c J); cbn in L; lia|].
      destruct (in_dec string_dec c coll) as [D|D]; [eexists; eapply FRecv; eauto|].
      destruct (IG c J D) as [G _]. congruence.
  Qed.

  Definition measure (chans : list string) (s : fan V) : nat :=
    2 * total (f_work s) + held (f_buf s) chans + length (f_open s) + length (f_coll s).

  Lemma step_measure : forall chans w0 s s', NoDup chans -> inv chans w0 s -> fstep cap s s' -> measure chans s' < measure chans s.
  Proof.
    intros chans w0 s s' ND [IS IM IC IO IG] ST. unfold measure.
    destruct ST as [w i c v ms buf op got coll N L|w c v vs buf op got coll I B|w c op buf got coll F|w c buf op got coll I NO B]; cbn in *.
    - rewrite (total_put _ _ _ _ N). assert (In c chans) as J by (apply (IM _ (c, v) (nth_error_In _ _ N)); left; reflexivity).
      pose proof (held_in buf c (buf c ++ [v]) chans ND J) as H. rewrite app_length in H. cbn in H. lia.
    - pose proof (held_in buf c vs chans ND (proj2 IC c I)) as H. rewrite B in H. cbn in H. lia.
    - lia.
    - pose proof (without_length c coll I). lia.
  Qed.

  Theorem fan_ends : forall chans w0 s, NoDup chans -> inv chans w0 s -> Acc (fun b a => fstep cap a b) s.
  Proof.
    intros chans w0 s ND. remember (measure chans s) as n eqn:E. revert s E. induction n as [n IH] using lt_wf_ind.
    intros s -> I. constructor. intros s' ST. eapply IH; [eapply step_measure; eauto|reflexivity|eapply inv_step; eauto].
  Qed.

  Theorem fan_final : forall chans w0 s, inv chans w0 s -> ffinal s -> (chans <> []) ->
    exists tr, shuffle w0 tr /\ forall c, In c chans -> f_got s c = on c tr.
  Proof.
    intros chans w0 [w buf op got coll] [IS IM IC IO IG] F NE. unfold ffinal in F. cbn in *. subst coll.
    destruct IS as (tr & T1 & T2). exists tr.
    assert (W : Forall (eq []) w).
    { destruct IO as [IO1 [->|W]]; [|exact W]. destruct chans as [|c chans]; [contradiction|]. destruct (IG c (or_introl eq_refl) (fun x => x)) as [_ G].
      exfalso. apply G. left. reflexivity. }
    split.
    - rewrite <- (app_nil_r tr). apply T1. constructor. exact W.
    - intros c J. rewrite <- T2. destruct (IG c J (fun x => x)) as [-> _]. rewrite app_nil_r. reflexivity.
  Qed.

  (** A run to the end exists from everywhere. *)
  Lemma fan_reaches : forall chans w0 s, NoDup chans -> (forall c, In c chans -> 0 < cap c) -> inv chans w0 s -> exists s', fsteps cap s s' /\ ffinal s'.
  Proof.
    intros chans w0 s ND CP I. pose proof (fan_ends chans w0 s ND I) as A. induction A as [s _ IH].
    destruct (progress _ _ _ I CP) as [F|(s' & ST)]; [exists s; split; [constructor|exact F]|].
    destruct (IH s' ST (inv_step _ _ _ _ I ST)) as (s2 & R & F). exists s2. split; [econstructor; eauto|exact F].
  Qed.

  (** Every order can be what the collectors see. *)
  Lemma fsteps_trans : forall s1 s2 s3 : fan V, fsteps cap s1 s2 -> fsteps cap s2 s3 -> fsteps cap s1 s3.
  Proof. intros s1 s2 s3 R. revert s3. induction R; intros; [assumption|]. econstructor; eauto. Qed.

  Lemma fan_closes : forall (w : list (list msg)) op coll (buf got : string -> list V), Forall (eq []) w -> (forall c, buf c = []) ->
    exists s', fsteps cap (Fan w buf op got coll) s' /\ ffinal s' /\ f_got s' = got.
  Proof.
    intros w op coll buf got F B.
    assert (C : fsteps cap (Fan w buf op got coll) (Fan w buf [] got coll)).
    { induction op as [|c op IH]; [constructor|]. econstructor; [apply FClose; exact F|exact IH]. }
    assert (D : forall n coll, length coll <= n -> exists s', fsteps cap (Fan w buf [] got coll) s' /\ ffinal s' /\ f_got s' = got).
    { clear C coll op. induction n as [|n IH]; intros [|c coll] L; cbn in L; try lia; try (eexists; split; [constructor|split; reflexivity]).
      destruct (IH (without c (c :: coll))) as (s' & R & Q).
      - pose proof (without_length c (c :: coll) (or_introl eq_refl)). cbn [length] in *. lia.
      - exists s'. split; [|exact Q]. econstructor; [apply (FDone V cap w c); [left; reflexivity|intros []|apply B]|exact R]. }
    destruct (D _ coll (le_n _)) as (s' & R & Q). exists s'. split; [eapply fsteps_trans; eauto|exact Q].
  Qed.

  Theorem fan_any : forall chans w tr, (forall c, In c chans -> 0 < cap c) -> shuffle w tr ->
    (forall m, In m tr -> In (fst m) chans) ->
    exists s', fsteps cap (finit w chans) s' /\ ffinal s' /\ forall c, f_got s' c = on c tr.
  Proof.
    intros chans w tr CP H I.
    assert (G : forall buf got, (forall c, buf c = []) ->
      exists s', fsteps cap (Fan w buf chans got chans) s' /\ ffinal s' /\ forall c, f_got s' c = got c ++ on c tr).
    { induction H as [w F|w i m ms l N _ IH]; intros buf got B.
      - destruct (fan_closes w chans chans buf got F B) as (s' & R & Q & E). exists s'. split; [exact R|]. split; [exact Q|].
        intros c. rewrite E. unfold on. cbn. rewrite app_nil_r. reflexivity.
      - destruct m as [c v]. assert (J : In c chans) by (apply (I (c, v)); left; reflexivity).
        destruct (IH (fun m M => I m (or_intror M)) (upd (upd buf c (buf c ++ [v])) c []) (upd got c (got c ++ [v]))) as (s' & R & Q & E).
        { intros d. unfold upd. destruct (String.eqb d c); [reflexivity|apply B]. }
        exists s'. split; [|split; [exact Q|]].
        + econstructor; [apply (FSend V cap w i c v ms); [exact N|rewrite B; apply CP; exact J]|].
          econstructor; [apply (FRecv V cap _ c v []); [exact J|unfold upd; rewrite String.eqb_refl, B; reflexivity]|exact R].
        + intros d. rewrite E. unfold upd, on. cbn [filter fst]. destruct (String.eqb_spec d c) as [->|ne].
          * rewrite String.eqb_refl. cbn. rewrite <- app_assoc. reflexivity.
          * destruct (String.eqb_spec c d); [congruence|]. reflexivity. }
    destruct (G (fun _ => []) (fun _ => []) (fun _ => eq_refl)) as (s' & R & Q & E). exists s'. auto.
  Qed.

  Lemma Forall_nil_concat : forall (w : list (list msg)), Forall (eq []) w -> concat w = [].
  Proof. induction 1; [reflexivity|]. cbn. subst x. exact IHForall. Qed.
  Lemma put_concat : forall (w : list (list msg)) i m ms, nth_error w i = Some (m :: ms) -> Permutation (concat w) (m :: concat (put i ms w)).
  Proof.
    induction w as [|l w IH]; intros [|i] m ms H; cbn in H; try discriminate.
    - injection H as ->. cbn. reflexivity.
    - cbn. unfold put in IH. eapply Permutation_trans; [apply Permutation_app_head; exact (IH _ _ _ H)|]. cbn. symmetry. apply Permutation_middle.
  Qed.
  Lemma shuffle_perm : forall w l, shuffle w l -> Permutation (concat w) l.
  Proof.
    induction 1 as [w F|w i m ms l N _ IH]; [rewrite (Forall_nil_concat _ F); reflexivity|].
    eapply Permutation_trans; [eapply put_concat; exact N|]. constructor. exact IH.
  Qed.
End Fan.
Arguments shuffle {V}. Arguments on {V}. Arguments inv {V}.
