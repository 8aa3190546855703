(** C66: ReadCalibration from the bytes of both files. *)
From Coq Require Import String Ascii List Arith NArith Bool Lia SpecFloat.
From Verif Require Import GoBase HexSpec IhexSpec IhexModel IhexThm SrecModel SrecSpec SrecThm CalibModel CalibProofs CalibSpec CalibThm CalibProps
  A2lIR A2lParsers A2lSpec A2lModSpec A2lFileModel A2lFileSpec A2lFileProps A2lFileLost CalibFileModel.
From Verif Require TokModel IhexProps.
Import ListNotations.

Lemma a2lOut_total : forall gr pf cpus file, 0 < cpus -> (exists r, a2lOut gr pf cpus file r) /\ forall r, a2lOut gr pf cpus file r -> r <> Panic.
Proof.
  intros gr pf cpus file CP. destruct (C65_total gr pf cpus file CP) as [[f F] T]. split; [do 2 eexists; split; [exact F|reflexivity]|].
  intros r (f' & F' & ->). destruct (T f' F') as (a & e & ->). destruct e; discriminate.
Qed.

(** The call returns, whatever the files contain and however the goroutines are
    scheduled: every run ends, and none with a panic. *)
Theorem C66_total : forall gr pf cpus log a2lFile hexPath hexFile, 0 < cpus ->
    (exists r, calibration gr pf cpus log a2lFile hexPath hexFile r)
    /\ (forall r, calibration gr pf cpus log a2lFile hexPath hexFile r -> exists cd err, r = RReturned cd err)
    /\ completes (rstep (a2lOut gr pf cpus a2lFile) (hexOut cpus hexPath hexFile))
         (fun s => match rc_main s with MRet _ _ | MCrash => True | _ => False end) (rinit _ _ _).
Proof.
  intros gr pf cpus log a2lFile hexPath hexFile CP. destruct (a2lOut_total gr pf cpus a2lFile CP) as [[ra RA] NA]. destruct (C23_hex_side unit cpus hexPath hexFile CP) as [[rh RH] NH].
  split; [|split; [|apply C23_completes; eauto]].
  - destruct log; [|eexists; reflexivity]. unfold calibration, readCalibrationFiles. pose proof (NA _ RA) as PA. pose proof (NH _ RH) as PH. destruct ra as [a|e|]; [| |congruence].
    + destruct rh as [m|e|]; [| |congruence]; eexists; apply C22_results.
      * left. eauto.
      * right. right. left. exists e, (Ok a). repeat split; eauto.
    + eexists. apply C22_results. right. left. exists e, rh. repeat split; eauto.
  - intros r R. destruct log; [|rewrite R; eauto]. unfold calibration, readCalibrationFiles in R. apply C22_results in R.
    destruct R as [(a & m & _ & _ & ->)|[(e & o & _ & _ & _ & ->)|[(e & o & _ & _ & _ & ->)|([K|K] & _)]]]; eauto; [destruct (NA _ K eq_refl)|destruct (NH _ K eq_refl)].
Qed.
Print Assumptions C66_total.

(** Without an error, the result is what the two parsers returned, both without
    an error; with an error, there is no data. *)
Theorem C66_results : forall gr pf cpus a2lFile hexPath hexFile cd err, 0 < cpus ->
    calibration gr pf cpus true a2lFile hexPath hexFile (RReturned cd err) ->
    match err with
    | None => exists a m, cd = CD (Some a) (Some m) /\ parseFromFile gr pf cpus a2lFile (Returned a false) /\ @hexOut unit cpus hexPath hexFile (Ok m)
    | Some _ => cd = CD None None /\ ((exists a, parseFromFile gr pf cpus a2lFile (Returned a true)) \/ exists e, @hexOut unit cpus hexPath hexFile (Err e))
    end.
Proof.
  intros gr pf cpus a2lFile hexPath hexFile cd err CP R. unfold calibration, readCalibrationFiles in R. apply C22_results in R.
  assert (AO : forall r, a2lOut gr pf cpus a2lFile r -> match r with Ok a => parseFromFile gr pf cpus a2lFile (Returned a false) | Err _ => exists a, parseFromFile gr pf cpus a2lFile (Returned a true) | Panic => True end).
  { intros r (f & F & ->). destruct f as [a [|]|]; eauto. }
  destruct R as [(a & m & RA & RH & E)|[(e & o & RA & RH & _ & E)|[(e & o & RH & RA & _ & E)|(_ & E)]]]; [| | |discriminate]; injection E as -> ->.
  - exists a, m. split; [reflexivity|]. split; [exact (AO _ RA)|exact RH].
  - split; [reflexivity|]. left. exact (AO _ RA).
  - split; [reflexivity|]. right. eauto.
Qed.
Print Assumptions C66_results.

(** From the bytes of the two files to the data handed to the user. *)
Lemma a2l_always : forall gr pf cpus content t a j, 0 < cpus -> fileTokens gr cpus content (Some t) -> TokModel.tk_multithreading t = true ->
    returns (TokModel.tk_list t) pf parseA2l 0 (VObj a) false j ->
    (forall i, tok (TokModel.tk_list t) i = b "/begin MODULE" -> divisible (TokModel.tk_list t) pf (cpus * 2) i /\ inside (TokModel.tk_list t) pf (cpus * 2) i) ->
    always (a2lOut gr pf cpus (Some content)) (fun r => exists a', r = Ok a' /\ likeFile sameModule a a').
Proof.
  intros gr pf cpus content t a j CP T MT R DV. split; [apply a2lOut_total; exact CP|].
  intros r (f & F & ->). destruct (C65_guarded gr pf cpus content t a j f CP T MT R DV F) as (a' & -> & L). eauto.
Qed.

Theorem C66_intel_hex_guarded : forall gr pf cpus content t a j path lt items, 0 < cpus -> fileTokens gr cpus content (Some t) -> TokModel.tk_multithreading t = true ->
    returns (TokModel.tk_list t) pf parseA2l 0 (VObj a) false j ->
    (forall i, tok (TokModel.tk_list t) i = b "/begin MODULE" -> divisible (TokModel.tk_list t) pf (cpus * 2) i /\ inside (TokModel.tk_list t) pf (cpus * 2) i) ->
    hexKindOf path = KIhex -> Forall item_ok items -> zero_upper_last (items_recs items) -> NoDup (map fst (image (items_recs items))) ->
    always (calibration gr pf cpus true (Some content) path (Some (ifile lt items)))
      (fun r => exists a' m, r = RReturned (CD (Some a') (Some m)) None /\ likeFile sameModule a a' /\ map_is m (image (items_recs items))).
Proof.
  intros gr pf cpus content t a j path lt items CP T MT R DV K I Z N. unfold calibration.
  apply C22_intel_hex_file; [exact CP|exact K|eapply a2l_always; eauto|exact I|exact Z|exact N].
Qed.
Print Assumptions C66_intel_hex_guarded.

Theorem C66_s19_guarded : forall gr pf cpus content t a j path lt items tail, 0 < cpus -> fileTokens gr cpus content (Some t) -> TokModel.tk_multithreading t = true ->
    returns (TokModel.tk_list t) pf parseA2l 0 (VObj a) false j ->
    (forall i, tok (TokModel.tk_list t) i = b "/begin MODULE" -> divisible (TokModel.tk_list t) pf (cpus * 2) i /\ inside (TokModel.tk_list t) pf (cpus * 2) i) ->
    hexKindOf path = KSrec -> Forall sitem_ok items -> Forall not_s3 tail -> NoDup (map fst (s3image (sitems_recs items))) ->
    always (calibration gr pf cpus true (Some content) path (Some (sfile lt items tail)))
      (fun r => exists a' m, r = RReturned (CD (Some a') (Some m)) None /\ likeFile sameModule a a' /\ map_is m (s3image (sitems_recs items))).
Proof.
  intros gr pf cpus content t a j path lt items tail CP T MT R DV K I Z N. unfold calibration.
  apply C22_s19_file; [exact CP|exact K|eapply a2l_always; eauto|exact I|exact Z|exact N].
Qed.
Print Assumptions C66_s19_guarded.

(** The data depend on the number of CPUs, without an error: on one CPU a group of
    the A2L file is missing. *)
Theorem C66_cpus_refuted : exists content, forall gr pf path lt items,
    hexKindOf path = KIhex -> Forall item_ok items -> zero_upper_last (items_recs items) -> NoDup (map fst (image (items_recs items))) ->
    always (calibration gr pf 1 true (Some content) path (Some (ifile lt items)))
      (fun r => exists a m, r = RReturned (CD (Some a) (Some m)) None /\ group a (b "G1") <> None /\ group a (b "G2") = None) /\
    always (calibration gr pf 2 true (Some content) path (Some (ifile lt items)))
      (fun r => exists a m, r = RReturned (CD (Some a) (Some m)) None /\ group a (b "G1") <> None /\ group a (b "G2") <> None).
Proof.
  destruct C65_refuted as (content & C). exists content. intros gr pf path lt items K I Z N. destruct (C gr pf) as (_ & _ & C1 & C2).
  assert (G : forall cpus (PA : fields -> Prop), 0 < cpus -> (forall r, parseFromFile gr pf cpus (Some content) r -> exists a, r = Returned a false /\ PA a) ->
    always (calibration gr pf cpus true (Some content) path (Some (ifile lt items))) (fun r => exists a m, r = RReturned (CD (Some a) (Some m)) None /\ PA a)).
  { intros cpus PA CP H. destruct (C22_intel_hex_file unit fields cpus (a2lOut gr pf cpus (Some content)) PA path lt items CP K) as [E A]; auto.
    - split; [apply a2lOut_total; exact CP|]. intros r (f & F & ->). destruct (H f F) as (a & -> & P). eauto.
    - split; [exact E|]. intros r R. destruct (A r R) as (a & m & -> & P & _). eauto. }
  split; [apply (G 1 (fun a => group a (b "G1") <> None /\ group a (b "G2") = None)); [lia|exact C1]|apply (G 2 (fun a => group a (b "G1") <> None /\ group a (b "G2") <> None)); [lia|exact C2]].
Qed.
Print Assumptions C66_cpus_refuted.

(** The hypotheses on the hex file can be met; for those on the A2L file see
    C65_guarded_example. *)
Example C66_example : hexKindOf (b "motor.hex") = KIhex /\ Forall item_ok IhexProps.ex_items /\ zero_upper_last (items_recs IhexProps.ex_items)
  /\ NoDup (map fst (image (items_recs IhexProps.ex_items))) /\ length (image (items_recs IhexProps.ex_items)) = 7.
Proof.
  destruct IhexProps.C01_example as (I & U & N & E & _). split; [reflexivity|]. split; [exact I|]. split; [exact (nonzero_upper_last _ U)|]. split; [exact N|]. rewrite E. reflexivity.
Qed.
