(** C96: no goroutine of the hex readers stays behind. *)
From Coq Require Import String Ascii List Arith Lia Bool NArith.
From Verif Require Import GoBase GoStrings GoBaseFacts ConcModel ConcProofs HexSpec IhexSpec IhexModel IhexOffsets IhexPhase2 IhexProofs IhexMain IhexThm SrecModel SrecProofs LockModel LockSpec LockThm LockProps LeakSpec LeakThm LeakHex.
From Verif Require TokModel.
Import ListNotations.

(** For all texts without an extended linear address line of 14 characters, and for
    all texts that are read without a colliding address, all goroutines end. *)
Theorem C96_ihex_guarded : forall np text, (0 < np)%nat ->
    Forall (fun l => ~ shortEla l) (splitLines text) \/ (forall m a v w, ~ parseFile_exec np text (Ok (m, Some (ECollision a v w)))) ->
    ihexEnds np text.
Proof.
  intros np text Hnp G. unfold ihexEnds. set (lines := splitLines text) in *. assert (Hl : lines <> []) by apply splitLines_nonempty.
  exists (map (fun c => [parseRecs c]) (chunks np lines)). split; [apply parse_msgs_ok|]. split.
  - apply ends_nostop; [destruct lines; [congruence|cbn; lia]|]. rewrite fold_recs. reflexivity.
  - intros recs Hr. split; [apply (C83_completes np text _ recs Hnp (parse_msgs_ok _ _)); exact Hr|]. intros recs' P.
    pose proof Hr as Hr0. apply recs_collected in Hr0; [|exact Hl]. subst recs.
    pose proof (@recsF_fresh np lines) as Hf. pose proof (@recsF_nopanic np lines) as Hp. pose proof P as P0. apply (p2run_result Hnp Hf Hp) in P0.
    destruct (forallb csum_ok (recsF np lines)) eqn:CS; [|discriminate]. injection P0 as ->.
    pose proof (offsF_final Hnp Hf) as FIN.
    assert (Hw : Forall wf_rec (offsF np (recsF np lines))).
    { eapply final_wf; [exact Hf| |exact FIN]. eapply Forall_impl; [|apply recsF_wf]. intros r [H _]. exact H. }
    destruct (data_msgs_ok Hnp Hw) as (dms & Ed & Ec). exists dms. split; [exact Ed|]. destruct G as [G|G].
    + apply ends_one. eapply data_msgs_one; [exact Hw| |exact Ed]. eapply final_decodes; [exact Hf| |exact FIN].
      rewrite forallb_forall in CS. apply Forall_forall. intros r IR. apply in_flat_map in IR as IR'. destruct IR' as (c & IC & IR'). destruct (recs_line _ _ IR') as (l & IL & PL).
      apply (line_decodes l); [exact PL|apply CS; exact IR|]. rewrite Forall_forall in G. apply G. eapply In_chunk; eassumption.
    + apply ends_nostop; [lia|]. match goal with |- snd ?x = _ => destruct x as [res st] eqn:F end. destruct st; [|reflexivity]. exfalso.
      pose proof (fold_data (concat dms) []) as FD. rewrite Ec in FD.
      assert (FR : res = store_all [] (flat_map entries (offsF np (recsF np lines)))) by (rewrite <- FD; transitivity (fst (res, true)); [reflexivity|rewrite <- F; reflexivity]).
      assert (EX : parseFile_exec np text (Ok res)).
      { unfold parseFile_exec. eapply XData; [apply parse_msgs_ok|exact Hr|exact P|exact Ed|]. apply crun_iff; [lia|]. exact (eq_sym (f_equal fst F)). }
      assert (SE : snd res <> None).
      { clear - F. assert (Q : forall l a r, fold_stop absorb_data a l = (r, true) -> snd r <> None).
        { clear. induction l as [|d l IH]; intros a r F; [discriminate|]. cbn [fold_stop] in F. destruct (absorb_data a d) as [a' st] eqn:E. destruct st; [|exact (IH _ _ F)]. injection F as <-. unfold absorb_data in E. injection E as <- E. destruct (snd (store_all (fst a) d)); [discriminate|discriminate]. }
        exact (Q _ _ _ F). }
      assert (COL : exists a v w, snd res = Some (ECollision a v w)).
      { clear FD. subst res. clear - SE. revert SE. generalize (@nil (N * N)) as m0. induction (flat_map entries (offsF np (recsF np lines))) as [|[a v] l IH]; intros m0 SE; cbn in *; [congruence|]. destruct (lookup a m0) as [v0|]; [cbn; eauto|exact (IH _ SE)]. }
      destruct COL as (a & v & w & COL). destruct res as [m e]. cbn in COL. subst e. exact (G m a v w EX).
Qed.
Print Assumptions C96_ihex_guarded.

(** All goroutines of the S-record reader end, for every text. *)
Theorem C96_srec : forall np text, (0 < np)%nat -> srecEnds np text.
Proof.
  intros np text Hnp. unfold srecEnds. set (lines := splitLines text). assert (Hl : lines <> []) by apply splitLines_nonempty.
  exists (map (fun c => [sRecs c]) (chunks np lines)). split; [apply s_parse_msgs_ok|]. split.
  - apply ends_nostop; [destruct lines; [congruence|cbn; lia]|]. rewrite s_fold_recs. reflexivity.
  - intros recs Hr. apply s_recs_collected in Hr; [|exact Hl]. subst recs. split; [apply q2_completes; [exact Hnp|apply sRecsF_nopanic]|]. intros P.
    apply (q2run_result np _ Hnp (sRecsF_nopanic np lines)) in P. destruct (forallb s_csum_ok (sRecsF np lines)) eqn:CS; [|discriminate].
    pose proof (sRecsF_wf np lines) as Hw. destruct (s_data_msgs_ok np _ Hnp Hw) as (dms & Ed & _). exists dms. split; [exact Ed|].
    apply ends_one. eapply s_data_msgs_one; [exact Hw| |exact Ed]. rewrite forallb_forall in CS. rewrite Forall_forall in *. intros r IR. apply s_rec_decodes; [apply Hw; exact IR|apply CS; exact IR].
Qed.
Print Assumptions C96_srec.

(** All goroutines of the tokenizer end: each sends one list, and main reads all. *)
Theorem C96_tokenizer : forall np text ls, TokModel.all_ok (TokModel.chunkResults np text) = Some ls ->
    completes (cstep TokModel.tok_absorb 1) (fun s => c_done s = true /\ Forall finished (c_ws s)) (cinit (map (fun l => [l]) ls) []).
Proof. intros np text ls _. apply ends_one. apply Forall_forall. intros ms I. apply in_map_iff in I. destruct I as (l & <- & _). reflexivity. Qed.
Print Assumptions C96_tokenizer.

(** ** A goroutine that waits forever

    Two records for the address 0 and, for the second goroutine, a line of 14
    characters whose offset contains an X, followed by two data records: the goroutine
    has to send three messages, main returns with the collision before it receives any,
    and the channel has room for one. *)
Definition leakText : bytes := join [ascii_of_N 10] (map b [":0100000041BE"; ":0100000042BD"; ":0200000400XFA"; ":0100000043BC"; ":0100010044BA"]%string).
Theorem C96_leak_refuted : exists np text ms recs recs' dms j,
    (0 < np)%nat /\ parse_msgs np (splitLines text) = Ok ms
    /\ crun absorb_recs (length (splitLines text)) ms [] recs /\ p2run np recs (P2Good recs') /\ data_msgs np recs' = Ok dms
    /\ (exists m a v w, always (parseFile_exec np text) (fun r => r = Ok (m, Some (ECollision a v w))))
    /\ (j < length dms)%nat
    /\ forall s w, reach (cstep absorb_data 1) (cinit dms ([], None)) s -> nth_error (c_ws s) j = Some w -> ~ finished w.
Proof.
  set (L := splitLines leakText). set (R := recsF 2 L). set (R' := offsF 2 R).
  exists 2%nat, leakText, (map (fun c => [parseRecs c]) (chunks 2 L)), R, R', [[[(0, 65); (0, 66)]%N]; [[]; []; []]], 1%nat.
  split; [lia|]. split; [apply parse_msgs_ok|]. split; [apply recs_collected; [apply splitLines_nonempty|reflexivity]|].
  split; [apply p2run_result; [lia|apply recsF_fresh|apply recsF_nopanic|vm_compute; reflexivity]|]. split; [vm_compute; reflexivity|].
  split; [exists [(0, 65)]%N, 0%N, 65%N, 66%N; apply run_is; vm_compute; reflexivity|]. split; [cbn; lia|].
  apply (never_finished _ _ absorb_data 1 _ _ 0 [[(0, 65); (0, 66)]%N] 1 [[]; []; []]); [|reflexivity|left; cbn; lia].
  exists [[(0, 65); (0, 66)]%N], [], ([(0, 65)]%N, Some (ECollision 0 65 66)). split; [reflexivity|]. split; [reflexivity|]. split; [discriminate|].
  apply (RSnoc _ _ [] ([], None) [(0, 65); (0, 66)]%N); [constructor|vm_compute; reflexivity].
Qed.
Print Assumptions C96_leak_refuted.

(** ** Examples *)
Example C96_ihex_example : ihexEnds 3 (join [ascii_of_N 10] (map b [":020000040001F9"; ":0100000041BE"; ":0100000042BD"]%string))
  /\ always (parseFile_exec 3 (join [ascii_of_N 10] (map b [":020000040001F9"; ":0100000041BE"; ":0100000042BD"]%string))) (fun r => r = Ok ([(65536, 65)]%N, Some (ECollision 65536 65 66))).
Proof.
  split.
  - apply C96_ihex_guarded; [lia|]. left. repeat constructor; intros [H1 H2]; vm_compute in H1, H2; discriminate.
  - apply run_is; vm_compute; reflexivity.
Qed.

Example C96_srec_example : srecEnds 2 (b "S3060000000041B8" ++ [ascii_of_N 10] ++ b "S3060000000042B7")
  /\ always (s_parseFile_exec 2 (b "S3060000000041B8" ++ [ascii_of_N 10] ++ b "S3060000000042B7")) (fun r => r = Ok ([(0, 65)]%N, Some (ECollision 0 65 66))).
Proof. split; [apply C96_srec; lia|apply s_run_is; vm_compute; reflexivity]. Qed.

Example C96_tokenizer_example : exists ls, TokModel.all_ok (TokModel.chunkResults 2 (b "a b" ++ [ascii_of_N 10] ++ b "c")) = Some ls /\ length ls = 2%nat.
Proof. eexists. split; vm_compute; reflexivity. Qed.
