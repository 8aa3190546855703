(** C104, through ReadCalibration: the A2L file as it was, the hex file with one data
    record more or less. *)
From Coq Require Import String Ascii List Arith NArith Bool Lia SpecFloat.
From Verif Require Import GoBase GoBaseFacts ConcModel HexSpec HexSpecFacts HexParts IhexSpec IhexModel IhexProofs IhexMain IhexThm IhexProps SrecModel SrecProofs SrecSpec SrecThm SrecProps SameMemSpec SameMemProps JoinProps PatchProps AddRecProps.
From Verif Require Import MemModel A2lIR A2lGrammar A2lForms A2lModSpec A2lFileSpec A2lTextProps A2lTripSpec LookModel ValuesModel TreeModel CalibModel CalibProps CalibFileModel CalibFileProps A2lTripThm A2lTripProps TreeThm TreeConv FilesSpec FilesThm FilesProps TreeLayoutEx FilesEx.
Import ListNotations.

(** Two hex files of the same format; the second one has one data record more, with the
    bytes [bs] at the address [base]. *)
Inductive oneMore (path : bytes) : bytes -> bytes -> N -> list N -> Prop :=
| more_intel t before up a bs after u : hexKindOf path = KIhex -> Forall item_ok (before ++ after) -> item_ok (IRec up (IData a bs)) ->
    (forall w, In (IEla w) (items_recs (before ++ after)) -> w <> 0%N) -> upperAfter (items_recs before) u ->
    oneMore path (ifile t (before ++ after)) (ifile t (before ++ IRec up (IData a bs) :: after)) (65536 * u + a) bs
| more_s19 t before up a bs after tail : hexKindOf path = KSrec -> Forall sitem_ok (before ++ after) -> sitem_ok (SItem up (SD a bs)) -> Forall not_s3 tail ->
    oneMore path (sfile t (before ++ after) tail) (sfile t (before ++ SItem up (SD a bs) :: after) tail) a bs.

Lemma hex_more : forall path text text' base bs np np' m, 0 < np -> 0 < np' -> oneMore path text text' base bs -> @hexOut unit np path (Some text) (Ok m) ->
    always (@hexOut unit np' path (Some text')) (fun r =>
      ((forall x, covers base (List.length bs) x -> lookup x m = None) -> exists m', r = Ok m' /\ together base bs m m') /\
      ((exists x, covers base (List.length bs) x /\ lookup x m <> None) -> exists x v w, r = Err (CEHex (ECollision x v w)) /\ covers base (List.length bs) x /\ lookup x m <> None)).
Proof.
  intros path text text' base bs np np' m N N' O R. unfold hexOut in *. destruct O as [t before up a bs after u K OK OK' NZ U|t before up a bs after tail K OK OK' TL]; rewrite K in *.
  - destruct R as (o & R & E). destruct o as [[m0 [e|]]|e|]; try discriminate E. injection E as <-.
    destruct (C104_intel_more_guarded np np' t before up a bs after u m N N' OK OK' NZ U R) as [[o E] G]. split; [eauto|].
    intros r (o' & R' & ->). destruct (G o' R') as [G1 G2]. split; [intros F; destruct (G1 F) as (m' & -> & T); eauto|intros F; destruct (G2 F) as (m' & x & v & w & -> & T); eauto].
  - destruct R as (o & R & E). destruct o as [[m0 [e|]]|e|]; try discriminate E. injection E as <-.
    destruct (C104_srec_more np np' t before up a bs after tail m N N' OK OK' TL R) as [[o E] G]. split; [eauto|].
    intros r (o' & R' & ->). destruct (G o' R') as [G1 G2]. split; [intros F; destruct (G1 F) as (m' & -> & T); eauto|intros F; destruct (G2 F) as (m' & x & v & w & -> & T); eauto].
Qed.
Lemma hex_less : forall path text text' base bs np np' m, 0 < np -> 0 < np' -> oneMore path text text' base bs -> @hexOut unit np path (Some text') (Ok m) ->
    always (@hexOut unit np' path (Some text)) (fun r => exists m', r = Ok m' /\ together base bs m' m).
Proof.
  intros path text text' base bs np np' m N N' O R. unfold hexOut in *. destruct O as [t before up a bs after u K OK OK' NZ U|t before up a bs after tail K OK OK' TL]; rewrite K in *.
  - assert (OK2 : Forall item_ok (before ++ IRec up (IData a bs) :: after)) by (apply Forall_app in OK; destruct OK; apply Forall_app; auto).
    destruct R as (o & R & E). destruct o as [[m0 [e|]]|e|]; try discriminate E. injection E as <-.
    destruct (C104_intel_less_guarded np np' t before up a bs after u m N N' OK2 NZ U R) as [[o E] G]. split; [eauto|]. intros r (o' & R' & ->). destruct (G o' R') as (m' & -> & P). eauto.
  - assert (OK2 : Forall sitem_ok (before ++ SItem up (SD a bs) :: after)) by (apply Forall_app in OK; destruct OK; apply Forall_app; auto).
    destruct R as (o & R & E). destruct o as [[m0 [e|]]|e|]; try discriminate E. injection E as <-.
    destruct (C104_srec_less np np' t before up a bs after tail m N N' OK2 TL R) as [[o E] G]. split; [eauto|]. intros r (o' & R' & ->). destruct (G o' R') as (m' & -> & P). eauto.
Qed.

(** Two calls with one A2L file, when the second hex file is read as [Q] says. *)
Lemma two_calls : forall gr pf cpus cpus' ts path text text' a m (Q : gomap -> Prop), 0 < cpus -> 0 < cpus' -> a2lText gr pf cpus ts -> a2lText gr pf cpus' ts ->
    calibration gr pf cpus true (Some (write ts)) path (Some text) (RReturned (CD (Some a) (Some m)) None) ->
    (@hexOut unit cpus path (Some text) (Ok m) -> always (@hexOut unit cpus' path (Some text')) (fun r => exists m', r = Ok m' /\ Q m')) ->
    always (calibration gr pf cpus' true (Some (write ts)) path (Some text'))
      (fun r => exists a' m', r = RReturned (CD (Some a') (Some m')) None /\ Q m' /\ forall n hex, alike (calibOf a n hex) (calibOf a' n hex)).
Proof.
  intros gr pf cpus cpus' ts path text text' a m Q N N' A A' R HQ. unfold calibration, readCalibrationFiles in *.
  destruct (a2l_read gr pf cpus ts N A) as (d & D & _ & G). destruct (a2l_read gr pf cpus' ts N' A') as (d' & D' & [ra E'] & G').
  assert (d' = d) as -> by (eapply C69_unique; eauto).
  apply C22_results in R. destruct R as [(a0 & m0 & RA & RH & E)|[(e & o & _ & _ & _ & E)|[(e & o & _ & _ & _ & E)|(_ & E)]]]; [|discriminate..]. injection E as -> ->.
  destruct (G _ RA) as (a1 & E1 & S1). injection E1 as <-. destruct (HQ RH) as [[rh EH] GH]. split.
  - destruct (G' _ E') as (a' & -> & _), (GH _ EH) as (m' & -> & _). eexists. apply C22_results. left. eauto.
  - intros r R. apply C22_results in R. destruct R as [(a' & m' & RA' & RH' & ->)|[(e & o & RA' & _)|[(e & o & RH' & _)|([RA'|RH'] & _)]]].
    + destruct (G' _ RA') as (a2 & E2 & S2). injection E2 as <-. destruct (GH _ RH') as (m2 & E3 & P). injection E3 as <-. exists a', m'. split; [reflexivity|]. split; [exact P|]. intros n hex.
      apply alike_trans with (calibOf d n hex); [apply alike_sym, same_alike, S1|apply same_alike, S2].
    + destruct (G' _ RA') as (? & ? & _); discriminate.
    + destruct (GH _ RH') as (? & ? & _); discriminate.
    + destruct (G' _ RA') as (? & ? & _); discriminate.
    + destruct (GH _ RH') as (? & ? & _); discriminate.
Qed.

(** At free addresses the second call returns the same description and the memory with
    the new bytes; otherwise it returns no data and the error that names an address. *)
Theorem C104_calibration_more_guarded : forall gr pf cpus cpus' ts path text text' base bs a m, 0 < cpus -> 0 < cpus' ->
    a2lText gr pf cpus ts -> a2lText gr pf cpus' ts -> oneMore path text text' base bs ->
    calibration gr pf cpus true (Some (write ts)) path (Some text) (RReturned (CD (Some a) (Some m)) None) ->
    ((forall x, covers base (List.length bs) x -> lookup x m = None) ->
       always (calibration gr pf cpus' true (Some (write ts)) path (Some text'))
         (fun r => exists a' m', r = RReturned (CD (Some a') (Some m')) None /\ together base bs m m' /\ forall n hex, alike (calibOf a n hex) (calibOf a' n hex))) /\
    ((exists x, covers base (List.length bs) x /\ lookup x m <> None) ->
       always (calibration gr pf cpus' true (Some (write ts)) path (Some text'))
         (fun r => exists x v w, r = RReturned (CD None None) (Some (CEHex (ECollision x v w))) /\ covers base (List.length bs) x /\ lookup x m <> None)).
Proof.
  intros gr pf cpus cpus' ts path text text' base bs a m N N' A A' O R. split; intros F.
  - apply (two_calls gr pf cpus cpus' ts path text text' a m (together base bs m) N N' A A' R). intros RH. destruct (hex_more _ _ _ _ _ _ cpus' _ N N' O RH) as [E G]. split; [exact E|]. intros r HR. exact (proj1 (G r HR) F).
  - assert (RH : @hexOut unit cpus path (Some text) (Ok m)) by (destruct (C66_results gr pf cpus _ _ _ _ _ N R) as (a0 & m0 & E & _ & RH); injection E as <- <-; exact RH).
    destruct (hex_more _ _ _ _ _ _ cpus' _ N N' O RH) as [[rh EH] GH]. unfold calibration, readCalibrationFiles in *.
    destruct (a2l_read gr pf cpus' ts N' A') as (d' & D' & [ra E'] & G'). split.
    + destruct (G' _ E') as (a' & -> & _), (proj2 (GH _ EH) F) as (x & v & w & -> & _). eexists. apply C22_results. right. right. left. do 2 eexists. split; [exact EH|]. split; [exact E'|]. split; [discriminate|reflexivity].
    + intros r R'. apply C22_results in R'. destruct R' as [(a' & m' & RA' & RH' & ->)|[(e & o & RA' & _)|[(e & o & RH' & _ & _ & ->)|([RA'|RH'] & _)]]].
      * destruct (proj2 (GH _ RH') F) as (? & ? & ? & ? & _); discriminate.
      * destruct (G' _ RA') as (? & ? & _); discriminate.
      * destruct (proj2 (GH _ RH') F) as (x & v & w & E & K). injection E as ->. eauto.
      * destruct (G' _ RA') as (? & ? & _); discriminate.
      * destruct (proj2 (GH _ RH') F) as (? & ? & ? & ? & _); discriminate.
Qed.
Print Assumptions C104_calibration_more_guarded.

Theorem C104_calibration_less_guarded : forall gr pf cpus cpus' ts path text text' base bs a m, 0 < cpus -> 0 < cpus' ->
    a2lText gr pf cpus ts -> a2lText gr pf cpus' ts -> oneMore path text text' base bs ->
    calibration gr pf cpus true (Some (write ts)) path (Some text') (RReturned (CD (Some a) (Some m)) None) ->
    always (calibration gr pf cpus' true (Some (write ts)) path (Some text))
      (fun r => exists a' m', r = RReturned (CD (Some a') (Some m')) None /\ together base bs m' m /\ forall n hex, alike (calibOf a n hex) (calibOf a' n hex)).
Proof.
  intros gr pf cpus cpus' ts path text text' base bs a m N N' A A' O R.
  apply (two_calls gr pf cpus cpus' ts path text' text a m (fun m' => together base bs m' m) N N' A A' R). intros RH. exact (hex_less _ _ _ _ _ _ cpus' _ N N' O RH).
Qed.
Print Assumptions C104_calibration_less_guarded.

(** The A2L file of C80 and a hex file to which two bytes at 65552, or at 65553 where one
    address is in use, are added. *)
Example C104_calibration_example : let before := [IRec true (IEla 1)] in let after := [IRec false (IData 18 [7]); IRec true iend]%N in
    let text := ifile Unix (before ++ after) in
    let text1 := ifile Unix (before ++ IRec true (IData 16 [1; 2]%N) :: after) in let text2 := ifile Unix (before ++ IRec true (IData 17 [1; 2]%N) :: after) in
    oneMore (b "motor.hex") text text1 65552 [1; 2]%N /\ oneMore (b "motor.hex") text text2 65553 [1; 2]%N /\
    forall gr cpus, tableOk gr -> 0 < cpus -> a2lText gr smallFloat cpus fileQ /\
      exists a m, calibration gr smallFloat cpus true (Some (write fileQ)) (b "motor.hex") (Some text) (RReturned (CD (Some a) (Some m)) None) /\
        (forall x, covers 65552 2 x -> lookup x m = None) /\ exists x, covers 65553 2 x /\ lookup x m <> None.
Proof.
  cbv zeta. assert (V : forall r, ivalidb r = true -> forall up, item_ok (IRec up r)) by (intros r H up; apply ivalidb_ok, H).
  set (before := [IRec true (IEla 1)]). set (after := [IRec false (IData 18 [7]); IRec true iend]%N).
  assert (NZ : forall w, In (IEla w) (items_recs (before ++ after)) -> w <> 0%N).
  { intros u I; cbn in I; repeat (destruct I as [I|I]; [first [discriminate I|injection I as <-; discriminate]|]); destruct I. }
  assert (OK : Forall item_ok (before ++ after)) by (apply items_okb_ok; vm_compute; reflexivity).
  split; [apply (more_intel (b "motor.hex") Unix before true 16 [1; 2]%N after 1); [reflexivity|exact OK|apply V; vm_compute; reflexivity|exact NZ|apply (upper_last [] 1 []); intros w []]|].
  split; [apply (more_intel (b "motor.hex") Unix before true 17 [1; 2]%N after 1); [reflexivity|exact OK|apply V; vm_compute; reflexivity|exact NZ|apply (upper_last [] 1 []); intros w []]|].
  intros gr cpus G N. destruct C80_example as (TX & _). split; [exact (TX gr cpus G)|].
  assert (H : hexText (b "motor.hex") (ifile Unix (before ++ after)) (image (items_recs (before ++ after)))).
  { constructor; [reflexivity|exact OK|apply nonzero_upper_last; exact NZ|apply nodupb_ok; vm_compute; reflexivity]. }
  destruct (files_read gr smallFloat cpus fileQ _ _ _ N (TX gr cpus G) H) as (d & _ & [r R] & F). destruct (F r R) as (a & m & -> & _ & M). exists a, m. split; [exact R|]. split.
  - intros x C. destruct (lookup x m) as [v|] eqn:L; [|reflexivity]. apply M in L. cbn in L. destruct L as [L|[]]. injection L as <- <-. unfold covers in C. cbn in C. lia.
  - exists 65554%N. split; [unfold covers; cbn; lia|]. assert (L : lookup 65554 m = Some 7%N) by (apply M; cbn; auto). congruence.
Qed.
