(** The mutexes of the records do what they are for (C83). *)
From Coq Require Import String Ascii List Arith NArith Bool Lia.
From Verif Require Import GoBase GoStrings GoBaseFacts ConcModel HexSpec IhexSpec IhexModel IhexOffsets IhexPhase2 IhexProofs IhexEnc IhexMain IhexThm
  LockModel LockSpec LockThm.
Import ListNotations.

(** No schedule of [addOffsets], whatever the records and the number of goroutines,
    leads to two goroutines accessing the same offset, one of them writing. *)
Theorem C83_no_race : forall np recs s, reach (l2step np) (l2init np recs) s -> ~ race s.
Proof. exact no_race. Qed.
Print Assumptions C83_no_race.

(** Every Unlock is of a mutex that is locked. *)
Theorem C83_unlock : forall np recs s, reach (l2step np) (l2init np recs) s -> ~ bad_unlock s.
Proof. exact no_bad_unlock. Qed.
Print Assumptions C83_unlock.

(** When main goes on to read the records, all goroutines that write to them have
    ended, and what main reads is what they left. *)
Theorem C83_quiet : forall np recs s recs', reach (l2step np) (l2init np recs) s ->
    l_main s = MRet (P2Good recs') -> Forall (fun w => w = LDone) (l_off s) /\ l_recs s = recs'.
Proof. intros np recs s recs' H. apply (quiet_reach np recs s H). Qed.
Print Assumptions C83_quiet.

(** Nothing deadlocks: for the records of any text, every schedule comes to the end
    of all goroutines, with all mutexes unlocked. *)
Theorem C83_completes : forall np text ms recs, (0 < np)%nat ->
    parse_msgs np (splitLines text) = Ok ms ->
    crun absorb_recs (List.length (splitLines text)) ms [] recs ->
    completes (l2step np) l2done (l2init np recs).
Proof.
  intros np text ms recs Hnp E C. rewrite parse_msgs_ok in E. inversion E; subst.
  apply recs_collected in C; [|apply splitLines_nonempty]. subst.
  apply lock_completes; [exact Hnp|apply recsF_fresh|apply recsF_nopanic].
Qed.
Print Assumptions C83_completes.

(** The results of the detailed machine are those of the machine that takes an
    iteration as one step; so what is proved of [parseFile_exec] holds of it. *)
Theorem C83_atomic : forall np text r, (0 < np)%nat -> (parseFile_fine np text r <-> parseFile_exec np text r).
Proof. intros np text r Hnp. apply fine_iff; [exact Hnp|apply splitLines_nonempty]. Qed.
Print Assumptions C83_atomic.

(** For instance: every valid file is read as it was meant (C01), by the detailed
    machine. *)
Theorem C83_transfer : forall np text (P : outcome herr hres -> Prop), (0 < np)%nat ->
    (always (parseFile_fine np text) P <-> always (parseFile_exec np text) P).
Proof.
  intros np text P Hnp. unfold always. split; intros [[r H] A].
  - split; [exists r; apply C83_atomic; assumption|]. intros r' H'. apply A, C83_atomic; assumption.
  - split; [exists r; apply C83_atomic; assumption|]. intros r' H'. apply A. apply C83_atomic in H'; assumption.
Qed.
Print Assumptions C83_transfer.

(** Two goroutines, a record that sets the upper half and two data records: the
    first goroutine waits for the mutex of record 1 while the second holds it. *)
Definition lock_text : bytes := b ":020000040001F9
:0100000041BE
:0100010042BC".

Example C83_example :
  (exists recs s, parse_msgs 2 (splitLines lock_text) = Ok (map (fun c => [parseRecs c]) (chunks 2 (splitLines lock_text)))
     /\ crun absorb_recs (List.length (splitLines lock_text)) (map (fun c => [parseRecs c]) (chunks 2 (splitLines lock_text))) [] recs
     /\ reach (l2step 2) (l2init 2 recs) s
     /\ (exists w w', l_off s = [LTop w; LIn w' PNe2] /\ ow_idx w = 1%nat /\ ow_idx w' = 1%nat /\ ow_offs w = b "0001")
     /\ l_held s = [false; true; false])
  /\ (forall r, parseFile_fine 2 lock_text r <-> r = Ok ([(65537, 66); (65536, 65)]%N, None)).
Proof.
  split.
  - exists (recsF 2 (splitLines lock_text)). eexists. split; [apply parse_msgs_ok|].
    split; [apply recs_collected; [apply splitLines_nonempty|reflexivity]|].
    split.
    {     eapply reach_step; [eapply KLock with (k := 0%nat); [reflexivity|vm_compute; lia|reflexivity]|].
    eapply reach_step; [eapply KIn with (k := 0%nat) (g := []); [reflexivity|discriminate|discriminate|reflexivity|reflexivity]|].
    eapply reach_step; [eapply KIn with (k := 0%nat) (g := []); [reflexivity|discriminate|discriminate|reflexivity|reflexivity]|].
    eapply reach_step; [eapply KUnlock with (k := 0%nat); reflexivity|].
    eapply reach_step; [eapply KLock with (k := 1%nat); [reflexivity|vm_compute; lia|reflexivity]|].
    eapply reach_step; [eapply KIn with (k := 1%nat) (g := []); [reflexivity|discriminate|discriminate|reflexivity|reflexivity]|].
    apply reach_refl. }
    split; [do 2 eexists; split; [reflexivity|split; [reflexivity|split; reflexivity]]|reflexivity].
  - intros r. rewrite C83_atomic by lia. rewrite (parseFile_exec_iff (np := 2)) by lia.
    replace (parseFileF 2 lock_text) with ([(65537, 66); (65536, 65)]%N, @None herr) by (vm_compute; reflexivity). reflexivity.
Qed.
Print Assumptions C83_example.
