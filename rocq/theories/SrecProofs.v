(** [srec19.parseHex]: no panic; every schedule gives the result of a
    sequential function. *)
From Coq Require Import String Ascii List Arith NArith Bool Lia.
From Verif Require Import GoBase GoStrings GoBaseFacts ConcModel ConcProofs HexSpec IhexModel IhexOffsets IhexPhase2
  IhexProofs IhexThm SrecModel.
Import ListNotations.

(** ** Parsing one line *)

Definition sParse (line : bytes) : option srecord :=
  match line with
  | c0 :: t :: c1 :: c2 :: a1 :: a2 :: a3 :: a4 :: a5 :: a6 :: a7 :: a8 :: rest =>
      if Ascii.eqb c0 s_beginLineToken && Ascii.eqb t "3"%char
      then Some (SRec [c1; c2] [a1; a2; a3; a4; a5; a6; a7; a8] (b "3") (dl rest) (last2 line))
      else None
  | _ => None
  end.

Lemma s_parseRecord_ok : forall line, 11 <= List.length line ->
    s_parseRecord line = match sParse line with Some r => Ok r | None => Err ELine end.
Proof.
  intros line Hl. unfold s_parseRecord.
  rewrite slice_ok by lia. cbn [obind].
  destruct line as [|c0 [|t line]]; try (cbn in Hl; lia).
  cbn [skipn firstn Nat.sub]. unfold index. cbn [nth_error obind].
  assert (Et : beqb [t] (b "3") = Ascii.eqb t "3"%char).
  { destruct (Ascii.eqb t "3"%char) eqn:E.
    - apply Ascii.eqb_eq in E. subst. reflexivity.
    - apply beqb_neq. intros F. vm_compute in F. inversion F; subst. discriminate. }
  rewrite Et.
  destruct (12 <=? List.length (c0 :: t :: line)) eqn:L.
  - apply Nat.leb_le in L. rewrite andb_true_r.
    destruct line as [|c1 [|c2 [|a1 [|a2 [|a3 [|a4 [|a5 [|a6 [|a7 [|a8 rest]]]]]]]]]]; try (cbn in L; lia).
    unfold sParse. destruct (Ascii.eqb c0 s_beginLineToken && Ascii.eqb t "3"%char) eqn:E; [|reflexivity].
    apply andb_true_iff in E. destruct E as [_ E]. apply Ascii.eqb_eq in E. subst t.
    set (whole := c0 :: _) in *.
    rewrite !slice_ok by lia. cbn [obind].
    rewrite (@data_loop_ok (List.length whole) (S (List.length whole)) whole 12) by lia. cbn [obind].
    replace (List.length whole - (List.length whole - 2)) with 2 by lia.
    unfold last2. rewrite (firstn_all2 (n := 2) (skipn (List.length whole - 2) whole)) by (rewrite skipn_length; lia). reflexivity.
  - apply Nat.leb_gt in L. rewrite andb_false_r.
    destruct line as [|c1 [|c2 [|a1 [|a2 [|a3 [|a4 [|a5 [|a6 [|a7 [|a8 rest]]]]]]]]]]; try reflexivity.
    cbn in L. lia.
Qed.

Fixpoint sRecs (ls : list bytes) : list srecord :=
  match ls with
  | [] => []
  | l :: ls' =>
      if 11 <=? List.length l then
        match sParse l with
        | Some r => r :: sRecs ls'
        | None => []
        end
      else sRecs ls'
  end.

Lemma s_parseRecordRoutine_ok : forall ls, s_parseRecordRoutine ls = Ok (sRecs ls).
Proof.
  induction ls as [|l ls IH]; [reflexivity|]. cbn [s_parseRecordRoutine sRecs].
  destruct (11 <=? List.length l) eqn:E; [|exact IH].
  apply Nat.leb_le in E. rewrite s_parseRecord_ok by exact E.
  destruct (sParse l) as [r|]; [|reflexivity]. rewrite IH. reflexivity.
Qed.

Definition swf (r : srecord) : Prop := List.length (s_addressField r) = 8 /\ s_recordType r = s_dataRecordToken.

Lemma sParse_wf : forall l r, sParse l = Some r -> swf r.
Proof.
  intros l r H.
  destruct l as [|c0 [|t [|c1 [|c2 [|a1 [|a2 [|a3 [|a4 [|a5 [|a6 [|a7 [|a8 rest]]]]]]]]]]]]; try discriminate.
  cbn [sParse] in H. destruct (Ascii.eqb c0 s_beginLineToken && Ascii.eqb t "3"%char); [|discriminate].
  inversion H; subst. split; reflexivity.
Qed.

Lemma sRecs_wf : forall ls r, In r (sRecs ls) -> swf r.
Proof.
  induction ls as [|l ls IH]; intros r H; cbn [sRecs] in H; [contradiction|].
  destruct (11 <=? List.length l); [|apply IH, H].
  destruct (sParse l) as [x|] eqn:E; [|contradiction].
  destruct H as [<-|H]; [eapply sParse_wf, E|apply IH, H].
Qed.

Lemma swf_validate : forall r, swf r -> s_validateChecksum r <> Panic.
Proof.
  intros r [H _]. unfold s_validateChecksum.
  rewrite !slice_ok by lia. cbn [obind]. destruct (sum_pairs _ _); discriminate.
Qed.

Lemma s_calc_loop_ok : forall ds i af, List.length af = 8 -> exists d, s_calc_loop i ds af = Ok d.
Proof.
  induction ds as [|s ds IH]; intros i af Ha; cbn [s_calc_loop]; [eauto|].
  destruct (hexToByte s) as [v|]; [|eauto].
  destruct (hex_decode af) as [bs|] eqn:Eb; [|eauto].
  apply hex_decode_length in Eb. destruct bs as [|x [|y [|z [|w bs]]]]; cbn [List.length] in Eb; try lia.
  cbn [be32 obind]. destruct (IH (i + 1)%N af Ha) as [d ->]. cbn [obind]. eauto.
Qed.

Definition s_entries (r : srecord) : list (N * N) :=
  match s_calcDataEntries r with Ok d => fst d | _ => [] end.

Lemma s_calcData_msgs_ok : forall recs ds, Forall swf recs ->
    exists ms, s_calcData_msgs recs ds = Ok ms /\ concat ms = ds ++ flat_map s_entries recs.
Proof.
  induction recs as [|r recs IH]; intros ds Hwf; cbn [s_calcData_msgs flat_map].
  - exists [ds]. split; reflexivity.
  - inversion Hwf as [|x l [Ha Ht] Hl]; subst. unfold s_entries at 1. rewrite Ht, beqb_refl.
    unfold s_calcDataEntries. destruct (s_calc_loop_ok (s_data r) 0 _ Ha) as [d Hd]. rewrite Hd.
    cbn [obind]. destruct (snd d).
    + destruct (IH (ds ++ fst d) Hl) as (ms & -> & Hc). cbn [obind].
      exists ([] :: ms). split; [reflexivity|]. cbn [concat app]. rewrite Hc, app_assoc. reflexivity.
    + destruct (IH (ds ++ fst d) Hl) as (ms & -> & Hc).
      exists ms. split; [reflexivity|]. rewrite Hc, app_assoc. reflexivity.
Qed.

(** ** The checksum phase *)

Definition s_csum_ok (r : srecord) : bool :=
  match s_validateChecksum r with Ok true => true | _ => false end.
Lemma s_csum_ok_true : forall r, s_csum_ok r = true <-> s_validateChecksum r = Ok true.
Proof. intros r. unfold s_csum_ok. destruct (s_validateChecksum r) as [[]|e|]; split; congruence. Qed.

Definition q2meas (s : q2) : nat :=
  sum (map cmeas (q_cs s)) + match q_main s with None => 1 | Some _ => 0 end.

Section Q2.
  Variable np : nat.
  Variable R : list srecord.
  Hypothesis Hnp : 0 < np.
  Hypothesis Hnopanic : Forall (fun r => s_validateChecksum r <> Panic) R.

  Definition sgoodat (x : nat) : Prop := forall r, nth_error R x = Some r -> s_csum_ok r = true.
  Definition sbad : Prop := exists r, In r R /\ s_csum_ok r = false.

  Definition scs_ok (i : nat) (c : csw) (ch : list bool) : Prop :=
    match c with
    | CsRun j e => chunk_start (List.length R) np i <= j /\ e = chunk_end (List.length R) np i
                   /\ forall x, chunk_start (List.length R) np i <= x < j -> sgoodat x
    | CsSend => sbad
    | CsDone => ch <> [] \/ forall x, chunk_start (List.length R) np i <= x < chunk_end (List.length R) np i -> sgoodat x
    end.

  Record q2inv (s : q2) : Prop := {
    qi_len : List.length (q_cs s) = np;
    qi_cs : forall i c, nth_error (q_cs s) i = Some c -> scs_ok i c (q_chan s);
    qi_ch : Forall (fun v => v = false) (q_chan s) /\ (q_chan s <> [] -> sbad);
    qi_room : List.length (q_chan s) + live (q_cs s) <= np;
    qi_main : match q_main s with
              | None => True
              | Some QBad => forallb s_csum_ok R = false
              | Some QGood => forallb s_csum_ok R = true
              | Some QPanic => False
              end
  }.

  Lemma q2inv_init : q2inv (q2init np R).
  Proof.
    unfold q2init. constructor; cbn [q_cs q_chan q_main].
    - rewrite map_length, seq_length. reflexivity.
    - intros i c H. rewrite nth_error_map in H.
      destruct (nth_error (seq 0 np) i) as [k|] eqn:E; [|discriminate]. cbn in H. inversion H; subst.
      assert (k = i).
      { pose proof (nth_lt _ _ E) as Hl. rewrite seq_length in Hl.
        apply nth_error_nth with (d := 0) in E. rewrite seq_nth in E by exact Hl. lia. }
      subst k. cbn [scs_ok]. split; [lia|]. split; [reflexivity|]. intros; lia.
    - split; [constructor|]. congruence.
    - cbn [List.length]. apply (live_init Hnp).
    - exact I.
  Qed.

  Lemma scs_ok_mono : forall i c ch v, scs_ok i c ch -> scs_ok i c (ch ++ [v]).
  Proof.
    intros i [j e| |] ch v H; cbn in *; try exact H.
    left. destruct ch; discriminate.
  Qed.

  Lemma q2inv_step : forall s s', q2inv s -> q2step np R s s' -> q2inv s'.
  Proof.
    intros s s' HI Hst.
    destruct Hst; destruct HI as [Hlen Hcs Hch Hroom Hmain]; cbn [q_cs q_chan q_main] in *.
    - pose proof (nth_lt _ _ H) as Hl. pose proof (live_upd _ _ (CsRun (S j) e) H) as Hlv.
      constructor; cbn [q_cs q_chan q_main]; try assumption.
      + rewrite upd_length; assumption.
      + intros i' c Hc. rewrite upd_nth in Hc by exact Hl.
        destruct (i' =? i) eqn:E; [|apply Hcs, Hc]. apply Nat.eqb_eq in E; subst. inversion Hc; subst.
        destruct (Hcs _ _ H) as (H3 & H4 & H5). cbn [scs_ok]. split; [lia|]. split; [exact H4|].
        intros x Hx. destruct (Nat.eq_dec x j) as [->|]; [|apply H5; lia].
        intros r0 Hr0. apply s_csum_ok_true. congruence.
      + cbn [is_done] in Hlv. lia.
    - pose proof (nth_lt _ _ H) as Hl. pose proof (live_upd _ _ CsSend H) as Hlv.
      constructor; cbn [q_cs q_chan q_main]; try assumption.
      + rewrite upd_length; assumption.
      + intros i' c Hc. rewrite upd_nth in Hc by exact Hl.
        destruct (i' =? i) eqn:E; [|apply Hcs, Hc]. apply Nat.eqb_eq in E; subst. inversion Hc; subst.
        cbn [scs_ok]. exists r. split; [eapply nth_error_In; eassumption|].
        destruct (s_csum_ok r) eqn:E; [|reflexivity]. apply s_csum_ok_true in E. congruence.
      + cbn [is_done] in Hlv. lia.
    - exfalso. rewrite Forall_forall in Hnopanic. apply nth_error_In in H1. apply Hnopanic in H1. congruence.
    - pose proof (nth_lt _ _ H) as Hl. pose proof (live_upd _ _ CsDone H) as Hlv.
      constructor; cbn [q_cs q_chan q_main]; try assumption.
      + rewrite upd_length; assumption.
      + intros i' c Hc. rewrite upd_nth in Hc by exact Hl.
        destruct (i' =? i) eqn:E; [|apply Hcs, Hc]. apply Nat.eqb_eq in E; subst. inversion Hc; subst.
        destruct (Hcs _ _ H) as (H3 & H4 & H5). cbn [scs_ok]. right. intros x Hx. apply H5. lia.
      + cbn [is_done] in Hlv. lia.
    - pose proof (nth_lt _ _ H) as Hl. pose proof (live_upd _ _ CsDone H) as Hlv.
      constructor; cbn [q_cs q_chan q_main]; try assumption.
      + rewrite upd_length; assumption.
      + intros i' c Hc. rewrite upd_nth in Hc by exact Hl.
        destruct (i' =? i) eqn:E; [|apply scs_ok_mono, Hcs, Hc].
        apply Nat.eqb_eq in E; subst. inversion Hc; subst. cbn [scs_ok]. left. destruct ch; discriminate.
      + destruct Hch as [Hf Hb]. split; [apply Forall_app; split; [exact Hf|constructor; [reflexivity|constructor]]|].
        intros _. exact (Hcs _ _ H).
      + cbn [is_done] in Hlv. rewrite app_length. cbn [List.length]. lia.
    - constructor; cbn [q_cs q_chan q_main]; try assumption.
      destruct Hch as [Hf Hb]. destruct (existsb negb ch) eqn:Ex.
      + destruct Hb as (r & Hi & Hr); [intros ->; discriminate|].
        destruct (forallb s_csum_ok R) eqn:E; [|reflexivity].
        rewrite forallb_forall in E. rewrite (E _ Hi) in Hr. discriminate.
      + assert (ch = []) as ->.
        { destruct ch as [|v ch]; [reflexivity|]. inversion Hf; subst. discriminate. }
        apply forallb_forall. intros r Hi. apply In_nth_error in Hi. destruct Hi as [x Hr].
        destruct (@chunk_cover (List.length R) np np x) as (i & Hi & Hb'); try lia.
        { rewrite Nat.eqb_refl. exact (nth_lt _ _ Hr). }
        assert (exists c, nth_error cs i = Some c) as (c & Hc).
        { destruct (nth_error cs i) eqn:E; [eauto|]. apply nth_error_None in E. lia. }
        rewrite Forall_forall in H. pose proof (H _ (nth_error_In _ _ Hc)). subst c.
        destruct (Hcs _ _ Hc) as [K|K]; [congruence|]. exact (K x Hb' r Hr).
  Qed.

  Lemma q2inv_steps : forall s s', q2steps np R s s' -> q2inv s -> q2inv s'.
  Proof. intros s s' H. induction H; intros HI; [exact HI|]. apply IHq2steps. eapply q2inv_step; eassumption. Qed.

  Definition q2done (s : q2) : Prop := (exists r, q_main s = Some r) /\ Forall (fun c => c = CsDone) (q_cs s).

  Lemma q2_progress : forall s, q2inv s -> q2done s \/ exists s', q2step np R s s'.
  Proof.
    intros [cs ch mn] HI.
    destruct (forall_dec is_done cs) as [Hcd|(i & c & Hc & Hd)].
    - assert (Hcd' : Forall (fun c => c = CsDone) cs).
      { eapply Forall_impl; [|exact Hcd]. intros [| |] Hx; try discriminate. reflexivity. }
      destruct mn as [r|].
      + left. split; [cbn; eauto|exact Hcd'].
      + right. eexists. apply QMain, Hcd'.
    - right. destruct c as [j e| |]; [| |discriminate].
      + destruct (le_lt_dec e j) as [Hle|Hlt].
        * eexists. eapply QCsEnd; eassumption.
        * destruct (qi_cs _ HI _ _ Hc) as (H3 & H4 & H5). cbn [q_cs q_chan] in *.
          assert (Hi : i < np) by (rewrite <- (qi_len _ HI); exact (nth_lt _ _ Hc)).
          pose proof (chunk_bounds (List.length R) Hi) as Hb.
          assert (exists r, nth_error R j = Some r) as (r & Hr).
          { destruct (nth_error R j) eqn:E; [eauto|]. apply nth_error_None in E. lia. }
          assert (Hdec : s_validateChecksum r = Ok true \/ s_validateChecksum r <> Ok true).
          { destruct (s_validateChecksum r) as [[]| |]; auto; right; congruence. }
          destruct Hdec as [E|E].
          -- eexists. eapply QCsOk; eassumption.
          -- eexists. eapply QCsBad; try eassumption.
             rewrite Forall_forall in Hnopanic. apply nth_error_In in Hr. apply Hnopanic, Hr.
      + eexists. eapply QCsSend; [exact Hc|].
        pose proof (qi_room _ HI) as Hr. cbn [q_cs q_chan] in Hr.
        pose proof (live_upd _ _ CsDone Hc) as Hlv. cbn [is_done] in Hlv. lia.
  Qed.

  Lemma q2step_decreases : forall s s', q2inv s -> q2step np R s s' -> q2meas s' < q2meas s.
  Proof.
    intros s s' HI H. pose proof (q2inv_step _ _ HI H) as HI'.
    destruct H; unfold q2meas; cbn [q_cs q_chan q_main] in *.
    - pose proof (sum_upd cmeas _ _ (CsRun (S j) e) H). cbn [cmeas] in *. lia.
    - pose proof (sum_upd cmeas _ _ CsSend H). cbn [cmeas] in *. lia.
    - destruct (qi_main _ HI').
    - pose proof (sum_upd cmeas _ _ CsDone H). cbn [cmeas] in *. lia.
    - pose proof (sum_upd cmeas _ _ CsDone H). cbn [cmeas] in *. lia.
    - lia.
  Qed.

  Lemma q2steps_trans : forall s1 s2 s3, q2steps np R s1 s2 -> q2steps np R s2 s3 -> q2steps np R s1 s3.
  Proof. intros s1 s2 s3 H. induction H; intros H'; [exact H'|]. eapply Q2Trans; eauto. Qed.

  Lemma q2_finishes : forall n s, q2meas s <= n -> q2inv s ->
      exists s', q2steps np R s s' /\ q2inv s' /\ q2done s'.
  Proof.
    induction n as [|n IH]; intros s Hm HI; destruct (q2_progress _ HI) as [Hd|[s' Hs']].
    - exists s. split; [constructor|auto].
    - pose proof (q2step_decreases _ _ HI Hs'). lia.
    - exists s. split; [constructor|auto].
    - pose proof (q2step_decreases _ _ HI Hs'). destruct (IH s') as (s'' & H1 & H2 & H3); [lia|eapply q2inv_step; eassumption|].
      exists s''. split; [econstructor; eassumption|auto].
  Qed.

  Theorem q2run_result : forall r, q2run np R r <-> r = if forallb s_csum_ok R then QGood else QBad.
  Proof.
    assert (D : forall s r, q2inv s -> q_main s = Some r -> r = if forallb s_csum_ok R then QGood else QBad).
    { intros s r HI E. pose proof (qi_main _ HI) as Hm. rewrite E in Hm.
      destruct r; [rewrite Hm; reflexivity|rewrite Hm; reflexivity|contradiction]. }
    intros r. split.
    - intros (cs & ch & Hs). apply q2inv_steps in Hs; [|apply q2inv_init]. apply (D _ _ Hs). reflexivity.
    - intros ->. destruct (q2_finishes _ _ (le_n _) q2inv_init) as ([cs ch mn] & Hs & HI & (r & Hr) & _).
      cbn [q_main] in Hr. subst mn. exists cs, ch. rewrite <- (D _ r HI); [exact Hs|reflexivity].
  Qed.

  Theorem q2_completes : completes (q2step np R) q2done (q2init np R).
  Proof.
    assert (HR : forall s, reach (q2step np R) (q2init np R) s -> q2inv s).
    { intros s Hs. assert (G : q2steps np R (q2init np R) s) by (induction Hs; [constructor|econstructor; eassumption]).
      apply q2inv_steps in G; [exact G|apply q2inv_init]. }
    split.
    - intros s Hs. apply q2_progress, HR, Hs.
    - apply (acc_measure _ _ q2inv q2meas); [|apply q2inv_init].
      intros s s' HI Hs. split; [eapply q2inv_step; eassumption|apply q2step_decreases; assumption].
  Qed.
End Q2.

(** ** The sequential reference *)

Definition sRecsF (np : nat) (lines : list bytes) : list srecord := flat_map sRecs (chunks np lines).
Definition sHexF (np : nat) (lines : list bytes) : hres :=
  let recs := sRecsF np lines in
  if forallb s_csum_ok recs then store_all [] (flat_map s_entries recs) else ([], Some EChecksum).
Definition sFileF (np : nat) (text : bytes) : hres := sHexF np (splitLines text).

Lemma s_parse_msgs_ok : forall np lines,
    s_parse_msgs np lines = Ok (map (fun c => [sRecs c]) (chunks np lines)).
Proof.
  intros np lines. unfold s_parse_msgs. apply mapO_ok. intros c _.
  rewrite s_parseRecordRoutine_ok. reflexivity.
Qed.

Lemma s_fold_recs : forall ms acc, fold_stop s_absorb_recs acc ms = (acc ++ concat ms, false).
Proof.
  induction ms as [|m ms IH]; intros acc; cbn [fold_stop concat].
  - rewrite app_nil_r. reflexivity.
  - unfold s_absorb_recs at 1. rewrite IH, app_assoc. reflexivity.
Qed.

Lemma s_recs_collected : forall np lines recs, lines <> [] ->
    crun s_absorb_recs (List.length lines) (map (fun c => [sRecs c]) (chunks np lines)) [] recs
    <-> recs = sRecsF np lines.
Proof.
  intros np lines recs Hl. rewrite crun_iff by (destruct lines; cbn; [congruence|lia]).
  rewrite s_fold_recs. cbn [fst app]. rewrite concat_single. reflexivity.
Qed.

Lemma sRecsF_wf : forall np lines, Forall swf (sRecsF np lines).
Proof.
  intros np lines. apply Forall_forall. intros r Hr. apply in_flat_map in Hr.
  destruct Hr as (c & _ & Hr). eapply sRecs_wf; exact Hr.
Qed.

Lemma sRecsF_nopanic : forall np lines, Forall (fun r => s_validateChecksum r <> Panic) (sRecsF np lines).
Proof. intros. eapply Forall_impl; [|apply sRecsF_wf]. intros r H. apply swf_validate, H. Qed.

Lemma s_data_msgs_ok : forall np recs, 0 < np -> Forall swf recs ->
    exists dms, s_data_msgs np recs = Ok dms /\ concat (concat dms) = flat_map s_entries recs.
Proof.
  intros np recs Hnp Hwf. unfold s_data_msgs.
  assert (H : forall cs, (forall c, In c cs -> Forall swf c) ->
            exists dms, mapO s_calcDataRoutine cs = Ok dms /\ concat (concat dms) = flat_map s_entries (concat cs)).
  { induction cs as [|c cs IH]; intros Hc.
    - exists []. split; reflexivity.
    - cbn [mapO]. unfold s_calcDataRoutine at 1.
      destruct (s_calcData_msgs_ok c [] (Hc c (or_introl eq_refl))) as (ms & -> & Em). cbn [obind].
      destruct IH as (dms & -> & Ed); [intros c' Hc'; apply Hc; right; exact Hc'|]. cbn [obind].
      exists (ms :: dms). split; [reflexivity|]. cbn [concat].
      rewrite concat_app, Em, Ed. cbn [app]. rewrite flat_map_app. reflexivity. }
  destruct (H (chunks np recs)) as (dms & E1 & E2).
  - intros c Hc. rewrite Forall_forall in *. intros x Hx. apply Hwf. eapply In_chunk; eassumption.
  - rewrite concat_chunks in E2 by exact Hnp. eauto.
Qed.

Theorem s_parseHex_exec_iff : forall np lines res, 0 < np -> lines <> [] ->
    s_parseHex_exec np lines res <-> res = Ok (sHexF np lines).
Proof.
  intros np lines res Hnp Hl.
  pose proof (q2run_result np (sRecsF np lines) Hnp (sRecsF_nopanic np lines)) as HP.
  pose proof (s_parse_msgs_ok np lines) as Hpm.
  destruct (s_data_msgs_ok np _ Hnp (sRecsF_wf np lines)) as (dms & Ed & Ec).
  split.
  - intros H. inversion H as [E|ms recs E C P|ms recs E C P|ms recs E C P D|ms recs dm r E C P D F]; subst;
      rewrite Hpm in E; inversion E; subst; apply (proj1 (s_recs_collected _ _ _ Hl)) in C; subst;
      apply HP in P; unfold sHexF; destruct (forallb s_csum_ok (sRecsF np lines)); try discriminate.
    + reflexivity.
    + congruence.
    + rewrite Ed in D. inversion D; subst.
      apply crun_iff in F; [|lia]. rewrite fold_data, Ec in F. subst. reflexivity.
  - intros ->. unfold sHexF. destruct (forallb s_csum_ok (sRecsF np lines)) eqn:E.
    + eapply YData; [exact Hpm| | |exact Ed|].
      * apply s_recs_collected; [exact Hl|reflexivity].
      * apply HP. reflexivity.
      * apply crun_iff; [lia|]. rewrite fold_data, Ec. reflexivity.
    + eapply YBad; [exact Hpm| |].
      * apply s_recs_collected; [exact Hl|reflexivity].
      * apply HP. reflexivity.
Qed.

Theorem s_parseFile_exec_iff : forall np text res, 0 < np ->
    s_parseFile_exec np text res <-> res = Ok (sFileF np text).
Proof.
  intros np text res Hnp. apply s_parseHex_exec_iff; [exact Hnp|apply splitLines_nonempty].
Qed.

Lemma s_always_iff : forall np text P, (0 < np)%nat ->
    (always (s_parseFile_exec np text) P <-> P (Ok (sFileF np text))).
Proof.
  intros np text P Hnp. split.
  - intros [_ H]. apply H. apply s_parseFile_exec_iff; [exact Hnp|reflexivity].
  - intros H. split.
    + eexists. apply s_parseFile_exec_iff; [exact Hnp|reflexivity].
    + intros r Hr. apply s_parseFile_exec_iff in Hr; [|exact Hnp]. subst. exact H.
Qed.

Lemma s_run_is : forall np text res, (0 <? np)%nat = true -> sFileF np text = res ->
    always (s_parseFile_exec np text) (fun r => r = Ok res).
Proof. intros np text res Hnp E. apply Nat.ltb_lt in Hnp. apply s_always_iff; [exact Hnp|]. rewrite E. reflexivity. Qed.

Lemma srec_completes : forall np text, (0 < np)%nat ->
    (exists m e, always (s_parseFile_exec np text) (fun r => r = Ok (m, e)))
    /\ exists ms, s_parse_msgs np (splitLines text) = Ok ms
       /\ completes (cstep s_absorb_recs (List.length (splitLines text))) (fun s => c_done s = true) (cinit ms [])
       /\ forall recs, crun s_absorb_recs (List.length (splitLines text)) ms [] recs ->
            completes (q2step np recs) q2done (q2init np recs)
            /\ exists dms, s_data_msgs np recs = Ok dms
                 /\ completes (cstep absorb_data 1) (fun s => c_done s = true) (cinit dms ([], None)).
Proof.
  intros np text Hnp. split.
  - destruct (sFileF np text) as [m e] eqn:E. exists m, e. apply s_always_iff; [exact Hnp|]. rewrite E. reflexivity.
  - set (lines := splitLines text). assert (Hl : lines <> []) by apply splitLines_nonempty.
    eexists. split; [apply s_parse_msgs_ok|]. split.
    + apply collector_completes. destruct lines; [congruence|cbn; lia].
    + intros recs Hr. apply s_recs_collected in Hr; [|exact Hl]. subst recs. split.
      * apply q2_completes; [exact Hnp|apply sRecsF_nopanic].
      * destruct (s_data_msgs_ok np _ Hnp (sRecsF_wf np lines)) as (dms & Hd & _).
        exists dms. split; [exact Hd|]. apply collector_completes. lia.
Qed.
