(** The concurrent phase of [ihex32.parseHex] (offset goroutines, checksum
    goroutines, main): every schedule ends, and always with the same result. *)
From Coq Require Import String Ascii List Arith NArith Bool Lia.
From Verif Require Import GoBase GoStrings GoBaseFacts ConcModel IhexModel IhexOffsets.
Import ListNotations.
Set Implicit Arguments.

(** ** A sequential reference: the goroutines one after another *)
Fixpoint walk (fuel : nat) (recs : list record) (w : offw) : list record :=
  match fuel with
  | O => recs
  | S fuel' => if ow_done w then recs
               else walk fuel' (fst (offset_step recs w)) (snd (offset_step recs w))
  end.
Definition starts_of (np : nat) (len : nat) : list nat :=
  map (chunk_start len np) (seq 0 np).
Definition offsF (np : nat) (R : list record) : list record :=
  fold_left (fun recs s => walk (S (S (length R))) recs (OW s zeroOffset false false))
            (starts_of np (length R)) R.

Definition csum_ok (r : record) : bool :=
  match validateChecksum r with Ok true => true | _ => false end.

Lemma csum_ok_true : forall r, csum_ok r = true <-> validateChecksum r = Ok true.
Proof.
  intros r. unfold csum_ok. destruct (validateChecksum r) as [[]|e|]; split; congruence.
Qed.

(** ** Measures *)
Definition wmeas (len : nat) (w : offw) : nat := if ow_done w then 0 else S (len - ow_idx w).
Definition cmeas (c : csw) : nat :=
  match c with CsRun j e => 2 + (e - j) | CsSend => 1 | CsDone => 0 end.
Definition mmeas (m : p2main) : nat := match m with MWaitCs => 2 | MWaitOff => 1 | MRet _ => 0 end.
Fixpoint sum (l : list nat) : nat := match l with [] => 0 | x :: l' => x + sum l' end.
Definition p2meas (s : p2) : nat :=
  sum (map (wmeas (length (p_recs s))) (p_off s)) + sum (map cmeas (p_cs s)) + mmeas (p_main s).

Lemma sum_app : forall l1 l2, sum (l1 ++ l2) = sum l1 + sum l2.
Proof. induction l1 as [|x l1 IH]; intros l2; cbn [app sum]; [reflexivity|]. rewrite IH. lia. Qed.

Lemma split_nth : forall A (l : list A) i x, nth_error l i = Some x ->
    l = firstn i l ++ x :: skipn (S i) l.
Proof.
  intros A l. induction l as [|y l IH]; intros [|i] x H; cbn in *; try discriminate.
  - inversion H; reflexivity.
  - f_equal. apply IH, H.
Qed.

Lemma sum_upd : forall A (f : A -> nat) l i x y, nth_error l i = Some x ->
    sum (map f (upd l i y)) + f x = sum (map f l) + f y.
Proof.
  intros A f l i x y H. rewrite (split_nth _ _ H) at 2. unfold upd.
  rewrite !map_app, !sum_app. cbn [map sum]. lia.
Qed.

Lemma offset_step_len : forall recs w, length (fst (offset_step recs w)) = length recs.
Proof.
  intros recs w. unfold offset_step. destruct (nth_error recs (ow_idx w)) as [r|] eqn:E; [|reflexivity].
  apply nth_lt in E.
  repeat (match goal with |- context [if ?c then _ else _] => destruct c end); cbn [fst];
    rewrite ?set_rec_upd, ?upd_length; auto.
Qed.

Lemma offset_step_meas : forall recs w, ow_done w = false ->
    wmeas (length recs) (snd (offset_step recs w)) < wmeas (length recs) w.
Proof.
  intros recs w Hd. unfold wmeas at 2. rewrite Hd.
  unfold offset_step. destruct (nth_error recs (ow_idx w)) as [r|] eqn:E.
  - apply nth_lt in E.
    repeat (match goal with |- context [if ?c then _ else _] => destruct c end);
      unfold wmeas; cbn [snd ow_done ow_idx]; lia.
  - unfold wmeas; cbn [snd ow_done]. lia.
Qed.

Lemma p2step_decreases : forall np s s', p2step np s s' -> p_main s' <> MRet P2Panic ->
    p2meas s' < p2meas s.
Proof.
  intros np s s' H Hp. destruct H; unfold p2meas; cbn [p_recs p_off p_cs p_chan p_main] in *.
  - rewrite offset_step_len. rename H into Hn.
    pose proof (sum_upd (wmeas (length recs)) _ _ (snd (offset_step recs w)) Hn).
    pose proof (offset_step_meas recs w H0). lia.
  - pose proof (sum_upd cmeas _ _ (CsRun (S j) e) H). cbn [cmeas] in *. lia.
  - pose proof (sum_upd cmeas _ _ CsSend H). cbn [cmeas] in *. lia.
  - congruence.
  - pose proof (sum_upd cmeas _ _ CsDone H). cbn [cmeas] in *. lia.
  - pose proof (sum_upd cmeas _ _ CsDone H). cbn [cmeas] in *. lia.
  - destruct (existsb negb ch); cbn [mmeas]; lia.
  - cbn [mmeas]; lia.
Qed.

(** ** Invariant *)

Lemma chunk_cover : forall len np n x, n <= np -> x < (if n =? np then len else chunk_start len np n) -> 0 < np ->
    0 < n -> exists i, i < n /\ chunk_start len np i <= x < chunk_end len np i.
Proof.
  intros len np n. induction n as [|n IH]; intros x Hn Hx Hnp H0; [lia|].
  destruct (le_lt_dec (chunk_start len np n) x) as [Hle|Hlt].
  - exists n. split; [lia|]. split; [exact Hle|].
    destruct (S n =? np) eqn:E.
    + apply Nat.eqb_eq in E. unfold chunk_end.
      assert ((n + 1 =? np) = true) as -> by (apply Nat.eqb_eq; lia). exact Hx.
    + apply Nat.eqb_neq in E. rewrite chunk_end_next by lia. exact Hx.
  - destruct n as [|n].
    + rewrite chunk_start_0 in Hlt. lia.
    + destruct (IH x) as (i & Hi & Hb); try lia.
      * assert ((S n =? np) = false) as -> by (apply Nat.eqb_neq; lia). exact Hlt.
      * exists i. split; [lia|exact Hb].
Qed.

Definition is_done (c : csw) : bool := match c with CsDone => true | _ => false end.
Definition live (l : list csw) : nat := sum (map (fun c => if is_done c then 0 else 1) l).

Section P2.
  Variable np : nat.
  Variable R : list record.
  Hypothesis Hnp : 0 < np.
  Hypothesis Hfresh : fresh R.
  Hypothesis Hnopanic : Forall (fun r => validateChecksum r <> Panic) R.

  Let starts := starts_of np (length R).

  Definition goodat (x : nat) : Prop := forall r, nth_error R x = Some r -> csum_ok r = true.
  Definition bad : Prop := exists r, In r R /\ csum_ok r = false.

  Definition cs_ok (i : nat) (c : csw) (ch : list bool) : Prop :=
    match c with
    | CsRun j e => chunk_start (length R) np i <= j /\ e = chunk_end (length R) np i
                   /\ forall x, chunk_start (length R) np i <= x < j -> goodat x
    | CsSend => bad
    | CsDone => ch <> [] \/ forall x, chunk_start (length R) np i <= x < chunk_end (length R) np i -> goodat x
    end.

  Record p2inv (s : p2) : Prop := {
    pi_off : oinv R starts (p_recs s) (p_off s);
    pi_len : length (p_cs s) = np;
    pi_cs : forall i c, nth_error (p_cs s) i = Some c -> cs_ok i c (p_chan s);
    pi_ch : Forall (fun v => v = false) (p_chan s) /\ (p_chan s <> [] -> bad);
    pi_room : length (p_chan s) + live (p_cs s) <= np;
    pi_main : match p_main s with
              | MWaitCs => True
              | MWaitOff => forallb csum_ok R = true
              | MRet P2Bad => forallb csum_ok R = false
              | MRet (P2Good recs') => forallb csum_ok R = true /\ offsets_final R starts recs'
              | MRet P2Panic => False
              end
  }.

  Lemma bad_forallb : bad -> forallb csum_ok R = false.
  Proof.
    intros (r & Hi & Hb). destruct (forallb csum_ok R) eqn:E; [|reflexivity].
    rewrite forallb_forall in E. rewrite (E _ Hi) in Hb. discriminate.
  Qed.

  Lemma all_good : (forall x, goodat x) -> forallb csum_ok R = true.
  Proof.
    intros H. apply forallb_forall. intros r Hi. apply In_nth_error in Hi. destruct Hi as [x Hx].
    exact (H x r Hx).
  Qed.

  Lemma live_init : forall n f, live (map f (seq 0 n)) <= n.
  Proof.
    intros n f. unfold live. rewrite map_map.
    assert (H : forall l, sum (map (fun x => if is_done (f x) then 0 else 1) l) <= length l).
    { induction l as [|x l IH]; cbn [map sum length]; [lia|]. destruct (is_done (f x)); lia. }
    specialize (H (seq 0 n)). rewrite seq_length in H. exact H.
  Qed.

  Lemma p2inv_init : p2inv (p2init np R).
  Proof.
    unfold p2init. constructor; cbn [p_recs p_off p_cs p_chan p_main].
    - replace (map _ (seq 0 np)) with (map (fun s => OW s zeroOffset false false) starts).
      + apply oinv_init, Hfresh.
      + unfold starts, starts_of. rewrite map_map. reflexivity.
    - rewrite map_length, seq_length. reflexivity.
    - intros i c H. rewrite nth_error_map in H.
      destruct (nth_error (seq 0 np) i) as [k|] eqn:E; [|discriminate]. cbn in H. inversion H; subst.
      assert (k = i).
      { pose proof (nth_lt _ _ E) as Hl. rewrite seq_length in Hl.
        apply nth_error_nth with (d := 0) in E. rewrite seq_nth in E by exact Hl. lia. }
      subst k. cbn [cs_ok]. split; [lia|]. split; [reflexivity|]. intros; lia.
    - split; [constructor|]. congruence.
    - cbn [length]. apply live_init.
    - exact I.
  Qed.

  Lemma cs_ok_mono : forall i c ch v, cs_ok i c ch -> cs_ok i c (ch ++ [v]).
  Proof.
    intros i [j e| |] ch v H; cbn in *; try exact H.
    left. destruct ch; discriminate.
  Qed.

  (** The checksum of a record does not depend on the offsets written meanwhile. *)
  Lemma shape_csum : forall recs j r, same_shape R recs -> nth_error recs j = Some r ->
      exists r0, nth_error R j = Some r0 /\ validateChecksum r = validateChecksum r0.
  Proof.
    intros recs j r Hsh H. destruct (shape_some _ Hsh H) as (r0 & E & _ & [->|[o ->]]); eauto.
  Qed.

  Lemma live_upd : forall cs i c c', nth_error cs i = Some c ->
      live (upd cs i c') + (if is_done c then 0 else 1) = live cs + (if is_done c' then 0 else 1).
  Proof. intros. unfold live. apply (sum_upd (fun c => if is_done c then 0 else 1)). assumption. Qed.

  Lemma p2inv_step : forall s s', p2inv s -> p2step np s s' -> p2inv s'.
  Proof.
    intros s s' HI Hst.
    assert (Hsh : same_shape R (p_recs s)) by exact (oi_shape (pi_off HI)).
    destruct Hst; destruct HI as [Hoff Hlen Hcs Hch Hroom Hmain];
      cbn [p_recs p_off p_cs p_chan p_main] in *.
    - constructor; cbn [p_recs p_off p_cs p_chan p_main]; try assumption.
      eapply oinv_step; [exact Hoff|]. constructor; assumption.
    - pose proof (nth_lt _ _ H) as Hl. pose proof (live_upd _ _ (CsRun (S j) e) H) as Hlv.
      constructor; cbn [p_recs p_off p_cs p_chan p_main]; try assumption.
      + rewrite upd_length; assumption.
      + intros i' c Hc. rewrite upd_nth in Hc by exact Hl.
        destruct (i' =? i) eqn:E; [|apply Hcs, Hc]. apply Nat.eqb_eq in E; subst. inversion Hc; subst.
        destruct (Hcs _ _ H) as (H3 & H4 & H5). cbn [cs_ok]. split; [lia|]. split; [exact H4|].
        intros x Hx. destruct (Nat.eq_dec x j) as [->|]; [|apply H5; lia].
        intros r0 Hr0. destruct (shape_csum _ Hsh H1) as (r1 & E1 & E2).
        rewrite Hr0 in E1. inversion E1; subst. apply csum_ok_true. congruence.
      + cbn [is_done] in Hlv. lia.
    - pose proof (nth_lt _ _ H) as Hl. pose proof (live_upd _ _ CsSend H) as Hlv.
      constructor; cbn [p_recs p_off p_cs p_chan p_main]; try assumption.
      + rewrite upd_length; assumption.
      + intros i' c Hc. rewrite upd_nth in Hc by exact Hl.
        destruct (i' =? i) eqn:E; [|apply Hcs, Hc]. apply Nat.eqb_eq in E; subst. inversion Hc; subst.
        cbn [cs_ok]. destruct (shape_csum _ Hsh H1) as (r1 & E1 & E2).
        exists r1. split; [eapply nth_error_In; exact E1|].
        destruct (csum_ok r1) eqn:E; [|reflexivity]. apply csum_ok_true in E. congruence.
      + cbn [is_done] in Hlv. lia.
    - exfalso. destruct (shape_csum _ Hsh H1) as (r1 & E1 & E2).
      rewrite Forall_forall in Hnopanic. apply nth_error_In in E1. apply Hnopanic in E1. congruence.
    - pose proof (nth_lt _ _ H) as Hl. pose proof (live_upd _ _ CsDone H) as Hlv.
      constructor; cbn [p_recs p_off p_cs p_chan p_main]; try assumption.
      + rewrite upd_length; assumption.
      + intros i' c Hc. rewrite upd_nth in Hc by exact Hl.
        destruct (i' =? i) eqn:E; [|apply Hcs, Hc]. apply Nat.eqb_eq in E; subst. inversion Hc; subst.
        destruct (Hcs _ _ H) as (H3 & H4 & H5). cbn [cs_ok]. right. intros x Hx. apply H5. lia.
      + cbn [is_done] in Hlv. lia.
    - pose proof (nth_lt _ _ H) as Hl. pose proof (live_upd _ _ CsDone H) as Hlv.
      constructor; cbn [p_recs p_off p_cs p_chan p_main]; try assumption.
      + rewrite upd_length; assumption.
      + intros i' c Hc. rewrite upd_nth in Hc by exact Hl.
        destruct (i' =? i) eqn:E; [|apply cs_ok_mono, Hcs, Hc].
        apply Nat.eqb_eq in E; subst. inversion Hc; subst. cbn [cs_ok]. left. destruct ch; discriminate.
      + destruct Hch as [Hf Hb]. split; [apply Forall_app; split; [exact Hf|constructor; [reflexivity|constructor]]|].
        intros _. exact (Hcs _ _ H).
      + cbn [is_done] in Hlv. rewrite app_length. cbn [length]. lia.
    - constructor; cbn [p_recs p_off p_cs p_chan p_main]; try assumption.
      destruct Hch as [Hf Hb]. destruct (existsb negb ch) eqn:Ex.
      + apply bad_forallb, Hb. intros ->. discriminate.
      + assert (ch = []) as ->.
        { destruct ch as [|v ch]; [reflexivity|]. inversion Hf; subst. discriminate. }
        apply all_good. intros x r Hr.
        destruct (@chunk_cover (length R) np np x) as (i & Hi & Hb'); try lia.
        { rewrite Nat.eqb_refl. exact (nth_lt _ _ Hr). }
        assert (exists c, nth_error cs i = Some c) as (c & Hc).
        { destruct (nth_error cs i) eqn:E; [eauto|]. apply nth_error_None in E. lia. }
        rewrite Forall_forall in H. pose proof (H _ (nth_error_In _ _ Hc)). subst c.
        destruct (Hcs _ _ Hc) as [K|K]; [congruence|]. exact (K x Hb' r Hr).
    - constructor; cbn [p_recs p_off p_cs p_chan p_main]; try assumption.
      split; [exact Hmain|]. eapply oinv_final; eassumption.
  Qed.

  Lemma p2inv_steps : forall s s', p2steps np s s' -> p2inv s -> p2inv s'.
  Proof. intros s s' H. induction H; intros HI; [exact HI|]. apply IHp2steps. eapply p2inv_step; eassumption. Qed.

  Lemma forall_dec : forall A (P : A -> bool) (l : list A),
      Forall (fun x => P x = true) l \/ exists i x, nth_error l i = Some x /\ P x = false.
  Proof.
    intros A P l. induction l as [|y l IH]; [left; constructor|].
    destruct (P y) eqn:E.
    - destruct IH as [IH|(i & x & Hx & Hp)]; [left; constructor; assumption|].
      right. exists (S i), x. auto.
    - right. exists 0, y. auto.
  Qed.

  (** Nothing blocks: unless everything has finished, a step is possible. *)
  Lemma p2_progress : forall s, p2inv s ->
      (exists r, p_main s = MRet r) /\ Forall (fun w => ow_done w = true) (p_off s)
        /\ Forall (fun c => c = CsDone) (p_cs s)
      \/ exists s', p2step np s s'.
  Proof.
    intros [recs off cs ch mn] HI.
    destruct (forall_dec ow_done off) as [Hod|(i & w & Hw & Hd)].
    2:{ right. eexists. eapply SOff; eassumption. }
    destruct (forall_dec is_done cs) as [Hcd|(i & c & Hc & Hd)].
    - assert (Hcd' : Forall (fun c => c = CsDone) cs).
      { eapply Forall_impl; [|exact Hcd]. intros [| |] Hx; try discriminate. reflexivity. }
      destruct mn as [| |r].
      + right. eexists. apply SMainCs, Hcd'.
      + right. eexists. apply SMainOff, Hod.
      + left. cbn [p_main p_off p_cs]. eauto.
    - right. destruct c as [j e| |]; [| |discriminate].
      + destruct (le_lt_dec e j) as [Hle|Hlt].
        * eexists. eapply SCsEnd; eassumption.
        * destruct (pi_cs HI _ Hc) as (H3 & H4 & H5). cbn [p_cs p_chan] in *.
          assert (Hi : i < np) by (rewrite <- (pi_len HI); exact (nth_lt _ _ Hc)).
          pose proof (chunk_bounds (length R) Hi) as Hb.
          pose proof (oi_shape (pi_off HI)) as Hsh. cbn [p_recs] in Hsh.
          assert (exists r, nth_error recs j = Some r) as (r & Hr).
          { destruct (nth_error recs j) eqn:E; [eauto|]. apply nth_error_None in E.
            destruct Hsh. lia. }
          assert (Hdec : validateChecksum r = Ok true \/ validateChecksum r <> Ok true).
          { destruct (validateChecksum r) as [[]| |]; auto; right; congruence. }
          destruct Hdec as [E|E].
          -- eexists. eapply SCsOk; eassumption.
          -- eexists. eapply SCsBad; try eassumption.
             destruct (shape_csum _ Hsh Hr) as (r1 & E1 & E2). rewrite E2.
             rewrite Forall_forall in Hnopanic. apply nth_error_In in E1. apply Hnopanic, E1.
      + eexists. eapply SCsSend; [exact Hc|].
        pose proof (pi_room HI) as Hr. cbn [p_cs p_chan] in Hr.
        pose proof (live_upd _ _ CsDone Hc) as Hlv. cbn [is_done] in Hlv. lia.
  Qed.

  Lemma p2inv_no_panic : forall s, p2inv s -> p_main s <> MRet P2Panic.
  Proof. intros s HI E. pose proof (pi_main HI) as H. rewrite E in H. exact H. Qed.

  Lemma p2steps_trans : forall s1 s2 s3, p2steps np s1 s2 -> p2steps np s2 s3 -> p2steps np s1 s3.
  Proof. intros s1 s2 s3 H. induction H; intros H'; [exact H'|]. eapply P2Trans; eauto. Qed.

  (** Every partial run can be completed. *)
  Lemma p2_completes : forall n s, p2meas s <= n -> p2inv s ->
      exists s' r, p2steps np s s' /\ p2inv s' /\ p_main s' = MRet r
        /\ Forall (fun w => ow_done w = true) (p_off s') /\ Forall (fun c => c = CsDone) (p_cs s').
  Proof.
    induction n as [|n IH]; intros s Hm HI.
    - destruct (p2_progress HI) as [((r & Hr) & H1 & H2)|[s' Hs']].
      + exists s, r. split; [constructor|]. split; [exact HI|]. auto.
      + pose proof (p2inv_step HI Hs') as HI'.
        pose proof (p2step_decreases Hs' (p2inv_no_panic HI')). lia.
    - destruct (p2_progress HI) as [((r & Hr) & H1 & H2)|[s' Hs']].
      + exists s, r. split; [constructor|]. split; [exact HI|]. auto.
      + pose proof (p2inv_step HI Hs') as HI'.
        pose proof (p2step_decreases Hs' (p2inv_no_panic HI')).
        destruct (IH s') as (s2 & r & Hss & HI2 & Hr & H1 & H2); [lia|exact HI'|].
        exists s2, r. split; [eapply P2Trans; eassumption|]. split; [exact HI2|]. auto.
  Qed.

  (** *** The sequential reference is one of the runs *)
  Lemma osteps_trans : forall s1 s2 s3, osteps s1 s2 -> osteps s2 s3 -> osteps s1 s3.
  Proof. intros s1 s2 s3 H. induction H; intros H'; [exact H'|]. eapply OTrans; eauto. Qed.

  Lemma upd_mid : forall A (pre : list A) x y post,
      upd (pre ++ x :: post) (length pre) y = pre ++ y :: post.
  Proof.
    intros A pre x y post. unfold upd.
    rewrite firstn_app, Nat.sub_diag, firstn_all. cbn [firstn]. rewrite app_nil_r. f_equal. f_equal.
    rewrite skipn_app. rewrite skipn_all2 by lia.
    replace (S (length pre) - length pre) with 1 by lia. reflexivity.
  Qed.

  Lemma nth_mid : forall A (pre : list A) x post, nth_error (pre ++ x :: post) (length pre) = Some x.
  Proof. intros. rewrite nth_error_app2 by lia. rewrite Nat.sub_diag. reflexivity. Qed.

  Lemma walk_osteps : forall fuel recs w pre post, wmeas (length recs) w < fuel ->
      exists w', ow_done w' = true
        /\ osteps (recs, pre ++ w :: post) (walk fuel recs w, pre ++ w' :: post).
  Proof.
    induction fuel as [|fuel IH]; intros recs w pre post Hm; [lia|].
    cbn [walk]. destruct (ow_done w) eqn:Hd.
    - exists w. split; [exact Hd|constructor].
    - pose proof (offset_step_meas recs w Hd) as Hlt.
      destruct (IH (fst (offset_step recs w)) (snd (offset_step recs w)) pre post) as (w' & Hd' & Hs).
      { rewrite offset_step_len. lia. }
      exists w'. split; [exact Hd'|].
      eapply OTrans; [|exact Hs].
      rewrite <- (upd_mid pre w (snd (offset_step recs w)) post).
      apply OStep; [apply nth_mid|exact Hd].
  Qed.

  Lemma walk_length : forall fuel recs w, length (walk fuel recs w) = length recs.
  Proof.
    induction fuel as [|fuel IH]; intros recs w; [reflexivity|].
    cbn [walk]. destruct (ow_done w); [reflexivity|]. rewrite IH. apply offset_step_len.
  Qed.

  Lemma seq_osteps : forall sts recs pre, length recs = length R -> Forall (fun w => ow_done w = true) pre ->
      exists ws', Forall (fun w => ow_done w = true) ws' /\
        osteps (recs, pre ++ map (fun s => OW s zeroOffset false false) sts)
               (fold_left (fun recs s => walk (S (S (length R))) recs (OW s zeroOffset false false)) sts recs, ws').
  Proof.
    induction sts as [|s sts IH]; intros recs pre Hl Hpre.
    - exists pre. split; [exact Hpre|]. cbn [map fold_left]. rewrite app_nil_r. constructor.
    - cbn [map fold_left].
      destruct (@walk_osteps (S (S (length R))) recs (OW s zeroOffset false false) pre
                  (map (fun s => OW s zeroOffset false false) sts)) as (w' & Hd & Hs).
      { unfold wmeas; cbn [ow_done ow_idx]. lia. }
      destruct (IH (walk (S (S (length R))) recs (OW s zeroOffset false false)) (pre ++ [w'])) as (ws' & Hws & Hs').
      { rewrite walk_length. exact Hl. }
      { apply Forall_app. split; [exact Hpre|constructor; [exact Hd|constructor]]. }
      exists ws'. split; [exact Hws|]. eapply osteps_trans; [exact Hs|].
      rewrite <- app_assoc in Hs'. exact Hs'.
  Qed.

  Lemma offsF_final : offsets_final R starts (offsF np R).
  Proof.
    destruct (@seq_osteps starts R [] eq_refl (Forall_nil _)) as (ws' & Hws & Hs). cbn [app] in Hs.
    pose proof (oinv_steps Hs (oinv_init starts Hfresh)) as HI. cbn [fst snd] in HI.
    eapply oinv_final; eassumption.
  Qed.

  (** ** Result of the phase *)
  Theorem p2run_result : forall r, p2run np R r <->
      r = if forallb csum_ok R then P2Good (offsF np R) else P2Bad.
  Proof.
    intros r. split.
    - intros (recs' & off & cs & ch & Hs).
      pose proof (p2inv_steps Hs p2inv_init) as HI. pose proof (pi_main HI) as Hm. cbn [p_main] in Hm.
      destruct r as [|rr|].
      + rewrite Hm. reflexivity.
      + destruct Hm as [-> Hf]. f_equal. exact (offsets_final_unique Hf offsF_final).
      + contradiction.
    - intros ->.
      destruct (p2_completes (le_n _) p2inv_init) as (s' & r & Hs & HI & Hr & _).
      assert (Er : r = if forallb csum_ok R then P2Good (offsF np R) else P2Bad).
      { pose proof (pi_main HI) as Hm. rewrite Hr in Hm. destruct r as [|rr|].
        - rewrite Hm. reflexivity.
        - destruct Hm as [-> Hf]. f_equal. exact (offsets_final_unique Hf offsF_final).
        - contradiction. }
      rewrite <- Er. destruct s' as [recs' off cs ch mn]. cbn [p_main] in Hr. subst mn.
      exists recs', off, cs, ch. exact Hs.
  Qed.

  (** No schedule gets stuck and none goes on for ever. *)
  Theorem p2_terminates : forall s, p2steps np (p2init np R) s ->
      p_main s <> MRet P2Panic
      /\ (forall s', p2step np s s' -> p2meas s' < p2meas s)
      /\ ((exists r, p_main s = MRet r) /\ Forall (fun w => ow_done w = true) (p_off s)
            /\ Forall (fun c => c = CsDone) (p_cs s)
          \/ exists s', p2step np s s').
  Proof.
    intros s Hs. pose proof (p2inv_steps Hs p2inv_init) as HI. split; [|split].
    - apply p2inv_no_panic, HI.
    - intros s' Hs'. eapply p2step_decreases; [exact Hs'|].
      apply p2inv_no_panic. eapply p2inv_step; eassumption.
    - apply p2_progress, HI.
  Qed.
End P2.
