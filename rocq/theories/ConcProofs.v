From Coq Require Import List Arith Lia Bool.
From Verif Require Import ConcModel.
Import ListNotations.
Set Implicit Arguments.

Section CollectProofs.
  Variable M A : Type.
  Variable absorb : A -> M -> A * bool.
  Variable cap : nat.

  Notation cstep := (cstep absorb cap).
  Notation csteps := (csteps absorb cap).
  Notation fold_stop := (fold_stop absorb).

  Lemma set_nth_length : forall (ws : list (wstate M)) i w,
      i < length ws -> length (set_nth ws i w) = length ws.
  Proof.
    intros ws i w Hi. unfold set_nth. rewrite app_length. cbn [length].
    rewrite firstn_length, skipn_length. lia.
  Qed.

  Lemma nth_error_lt : forall (X : Type) (l : list X) i x, nth_error l i = Some x -> i < length l.
  Proof. intros X l i x H. apply nth_error_Some. congruence. Qed.

  Lemma nth_split_eq : forall (X : Type) (l : list X) i x,
      nth_error l i = Some x -> l = firstn i l ++ x :: skipn (S i) l.
  Proof.
    intros X l. induction l as [|y l IH]; intros i x H; destruct i; cbn in H; try discriminate.
    - inversion H; subst. reflexivity.
    - cbn [firstn skipn app]. f_equal. apply IH in H. exact H.
  Qed.

  (** messages of a worker that main has not consumed yet *)
  Definition rest (w : wstate M) : list M := w_buf w ++ w_todo w.

  (** messages ahead of main: the channels from [cur] on *)
  Definition ahead (s : cstate M A) : list M := concat (map rest (skipn (c_cur s) (c_ws s))).

  Definition inv (total : A * bool) (s : cstate M A) : Prop :=
    (if c_done s then fst total = c_acc s else fold_stop (c_acc s) (ahead s) = total)
    /\ Forall (fun w => w_closed w = true -> w_todo w = []) (c_ws s)
    /\ c_cur s <= length (c_ws s).

  Lemma ahead_set_same : forall ws i w0 w cur acc dn,
      nth_error ws i = Some w0 -> rest w = rest w0 ->
      ahead (C (set_nth ws i w) cur acc dn) = ahead (C ws cur acc dn).
  Proof.
    intros ws i w0 w cur acc dn H Hr. unfold ahead. cbn [c_cur c_ws].
    assert (Hm : map rest (set_nth ws i w) = map rest ws).
    { rewrite (nth_split_eq _ _ H) at 2. unfold set_nth.
      rewrite !map_app. cbn [map]. rewrite Hr. reflexivity. }
    rewrite <- !skipn_map, Hm. reflexivity.
  Qed.

  Lemma Forall_set_nth : forall (P : wstate M -> Prop) ws i w,
      Forall P ws -> P w -> Forall P (set_nth ws i w).
  Proof.
    intros P ws i w HF Hw. unfold set_nth. apply Forall_app. split.
    - rewrite Forall_forall in *. intros x Hx. apply HF.
      rewrite <- (firstn_skipn i ws). apply in_or_app. left. exact Hx.
    - constructor; [exact Hw|].
      rewrite Forall_forall in *. intros x Hx. apply HF. 
      rewrite <- (firstn_skipn (S i) ws). apply in_or_app. right. exact Hx.
  Qed.

  Lemma skipn_cons_nth : forall (X : Type) (l : list X) i x,
      nth_error l i = Some x -> skipn i l = x :: skipn (S i) l.
  Proof.
    intros X l. induction l as [|y l IH]; intros i x H; destruct i; cbn in H; try discriminate.
    - inversion H; reflexivity.
    - cbn [skipn]. apply IH in H. exact H.
  Qed.

  Lemma skipn_set_nth_self : forall (ws : list (wstate M)) i w,
      i < length ws -> skipn i (set_nth ws i w) = w :: skipn (S i) ws.
  Proof.
    intros ws i w Hi. unfold set_nth.
    rewrite skipn_app. rewrite firstn_length, Nat.min_l by lia.
    rewrite skipn_all2 by (rewrite firstn_length; lia).
    rewrite Nat.sub_diag. reflexivity.
  Qed.

  Lemma inv_step : forall total s s', inv total s -> cstep s s' -> inv total s'.
  Proof.
    intros total s s' [Hf [Hc Hcur]] Hs.
    inversion Hs; subst; cbn [c_done c_acc c_ws c_cur] in *; unfold inv;
      cbn [c_done c_acc c_ws c_cur].
    - (* send *)
      split; [|split].
      + destruct dn; [exact Hf|].
        rewrite ahead_set_same with (w0 := W (m :: ms) buf false);
          [exact Hf|assumption|].
        unfold rest; cbn. rewrite <- app_assoc. reflexivity.
      + apply Forall_set_nth; [exact Hc|]. cbn. discriminate.
      + rewrite set_nth_length; [lia|eapply nth_error_lt; eassumption].
    - split; [|split].
      + destruct dn; [exact Hf|].
        rewrite ahead_set_same with (w0 := W [] buf false); [exact Hf|assumption|reflexivity].
      + apply Forall_set_nth; [exact Hc|]. reflexivity.
      + rewrite set_nth_length; [lia|eapply nth_error_lt; eassumption].
    - pose proof (nth_error_lt _ _ H) as Hlt.
      assert (Ha : ahead (C ws cur acc false)
                   = m :: ahead (C (set_nth ws cur (W todo buf closed)) cur
                             (fst (absorb acc m)) (snd (absorb acc m)))).
      { unfold ahead; cbn [c_cur c_ws]. rewrite skipn_set_nth_self by exact Hlt.
        rewrite (skipn_cons_nth _ _ H). cbn [map concat]. reflexivity. }
      rewrite Ha in Hf. cbn [ConcModel.fold_stop] in Hf.
      destruct (absorb acc m) as [acc' stop] eqn:Eab. cbn [fst snd] in *.
      split; [|split].
      + destruct stop; [rewrite <- Hf; reflexivity|exact Hf].
      + apply Forall_set_nth; [exact Hc|]. cbn.
        rewrite Forall_forall in Hc. apply nth_error_In in H. exact (Hc _ H).
      + rewrite set_nth_length; lia.
    - pose proof (nth_error_lt _ _ H) as Hlt.
      split; [|split]; [|exact Hc|lia].
      rewrite <- Hf. f_equal. unfold ahead; cbn [c_cur c_ws].
      rewrite (skipn_cons_nth _ _ H). cbn [map concat].
      rewrite Forall_forall in Hc. apply nth_error_In in H.
      specialize (Hc _ H eq_refl). cbn in Hc. subst todo. reflexivity.
    - split; [|split]; [|exact Hc|exact Hcur].
      unfold ahead in Hf; cbn [c_cur c_ws] in Hf.
      apply nth_error_None in H. rewrite skipn_all2 in Hf by lia.
      cbn in Hf. rewrite <- Hf. reflexivity.
  Qed.

  Lemma inv_steps : forall total s s', inv total s -> csteps s s' -> inv total s'.
  Proof.
    intros total s s' Hi Hs. induction Hs; [exact Hi|].
    apply IHHs. eapply inv_step; eassumption.
  Qed.

  Lemma inv_init : forall msgs a0, inv (fold_stop a0 (concat msgs)) (cinit msgs a0).
  Proof.
    intros msgs a0. unfold inv, cinit; cbn [c_done c_acc c_ws c_cur]. split; [|split].
    - f_equal. unfold ahead; cbn [c_cur c_ws skipn]. f_equal.
      rewrite map_map. rewrite <- (map_id msgs) at 2. apply map_ext. reflexivity.
    - apply Forall_forall. intros w Hw. apply in_map_iff in Hw.
      destruct Hw as [ms [<- _]]. cbn. discriminate.
    - lia.
  Qed.

  (** Safety: whatever the schedule, main leaves with the sequential result. *)
  Theorem crun_det : forall msgs a0 a, crun absorb cap msgs a0 a ->
      a = fst (fold_stop a0 (concat msgs)).
  Proof.
    intros msgs a0 a [ws [cur Hs]].
    pose proof (inv_steps (inv_init msgs a0) Hs) as [Hf _].
    cbn [c_done c_acc] in Hf. symmetry; exact Hf.
  Qed.

  (** Progress: no reachable state before main leaves is stuck. *)
  Theorem cstep_progress : forall total s, 0 < cap -> inv total s -> c_done s = false ->
      exists s', cstep s s'.
  Proof.
    intros total [ws cur acc dn] Hcap [_ [Hc Hcur]] Hd; cbn in *. subst dn.
    destruct (nth_error ws cur) as [[todo buf closed]|] eqn:E.
    - destruct buf as [|m buf].
      + destruct closed.
        * eexists. eapply CNext; eassumption.
        * destruct todo as [|m ms].
          -- eexists. eapply CClose; eassumption.
          -- eexists. eapply CSend; [eassumption|cbn; lia].
      + eexists. eapply CRecv; eassumption.
    - eexists. eapply CEnd; eassumption.
  Qed.

  (** Termination: a measure that every step decreases. *)
  Definition wmeasure (w : wstate M) : nat :=
    2 * length (w_todo w) + length (w_buf w) + (if w_closed w then 0 else 1).
  Definition measure (s : cstate M A) : nat :=
    list_sum (map wmeasure (c_ws s)) + (length (c_ws s) - c_cur s)
    + (if c_done s then 0 else 1).

  Lemma list_sum_set_nth : forall ws i w0 w, nth_error ws i = Some w0 ->
      list_sum (map wmeasure (set_nth ws i w)) + wmeasure w0
      = list_sum (map wmeasure ws) + wmeasure w.
  Proof.
    intros ws i w0 w H. rewrite (nth_split_eq _ _ H) at 2. unfold set_nth.
    rewrite !map_app, !list_sum_app. cbn [map list_sum fold_right]. 
    change (fold_right Nat.add 0) with list_sum. lia.
  Qed.

  Theorem cstep_decreases : forall s s', cstep s s' -> measure s' < measure s.
  Proof.
    intros s s' Hs. inversion Hs; subst; unfold measure; cbn [c_ws c_cur c_done].
    - pose proof (@list_sum_set_nth _ _ _ (W ms (buf ++ [m]) false) H) as E.
      rewrite set_nth_length by (eapply nth_error_lt; eassumption).
      unfold wmeasure in E at 2 4. cbn [w_todo w_buf w_closed length] in E.
      rewrite app_length in E. cbn [length] in E. lia.
    - pose proof (@list_sum_set_nth _ _ _ (W [] buf true) H) as E.
      rewrite set_nth_length by (eapply nth_error_lt; eassumption).
      unfold wmeasure in E at 2 4. cbn [w_todo w_buf w_closed length] in E. lia.
    - pose proof (@list_sum_set_nth _ _ _ (W todo buf closed) H) as E.
      rewrite set_nth_length by (eapply nth_error_lt; eassumption).
      unfold wmeasure in E at 2 4. cbn [w_todo w_buf w_closed length] in E.
      destruct (snd (absorb acc m)); lia.
    - pose proof (nth_error_lt _ _ H). lia.
    - lia.
  Qed.

  Lemma csteps_trans : forall s1 s2 s3, csteps s1 s2 -> csteps s2 s3 -> csteps s1 s3.
  Proof. intros s1 s2 s3 H1 H2. induction H1; [exact H2|]. econstructor; eauto. Qed.

  (** From every reachable state main can still leave (and by
      [cstep_decreases] it must, under any schedule that keeps running). *)
  Theorem inv_completes : forall n total s, measure s <= n -> 0 < cap -> inv total s ->
      exists s', csteps s s' /\ c_done s' = true.
  Proof.
    induction n as [|n IH]; intros total s Hm Hcap Hi.
    - destruct (c_done s) eqn:E; [exists s; split; [constructor|exact E]|].
      destruct (cstep_progress Hcap Hi E) as [s' Hs'].
      apply cstep_decreases in Hs'. lia.
    - destruct (c_done s) eqn:E; [exists s; split; [constructor|exact E]|].
      destruct (cstep_progress Hcap Hi E) as [s' Hs'].
      destruct (IH total s') as [s'' [H1 H2]].
      + apply cstep_decreases in Hs'. lia.
      + exact Hcap.
      + eapply inv_step; eassumption.
      + exists s''. split; [econstructor; eassumption|exact H2].
  Qed.

  Theorem crun_exists : forall msgs a0, 0 < cap ->
      crun absorb cap msgs a0 (fst (fold_stop a0 (concat msgs))).
  Proof.
    intros msgs a0 Hcap.
    destruct (inv_completes (le_n _) Hcap (inv_init msgs a0)) as [[ws cur a dn] [Hs Hd]].
    cbn in Hd. subst dn.
    assert (Hr : crun absorb cap msgs a0 a) by (exists ws, cur; exact Hs).
    rewrite <- (crun_det Hr). exact Hr.
  Qed.

  Theorem crun_iff : forall msgs a0 a, 0 < cap ->
      (crun absorb cap msgs a0 a <-> a = fst (fold_stop a0 (concat msgs))).
  Proof.
    intros msgs a0 a Hcap. split; [apply crun_det|].
    intros ->. apply crun_exists, Hcap.
  Qed.
End CollectProofs.
