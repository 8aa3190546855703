(** C103, through ReadCalibration: the A2L file as it was, the hex file with other
    bytes in one record. *)
From Coq Require Import String Ascii List Arith NArith Bool Lia SpecFloat.
From Verif Require Import GoBase GoBaseFacts ConcModel HexSpec HexSpecFacts HexParts IhexSpec IhexModel IhexProofs IhexMain IhexThm IhexProps SrecModel SrecProofs SrecSpec SrecThm SrecProps SameMemSpec SameMemProps JoinProps PatchProps.
From Verif Require Import MemModel A2lIR A2lGrammar A2lForms A2lModSpec A2lFileSpec A2lTextProps A2lTripSpec LookModel ValuesModel TreeModel CalibModel CalibProps CalibFileModel CalibFileProps A2lTripThm A2lTripProps TreeThm TreeConv FilesSpec FilesThm FilesProps TreeLayoutEx FilesEx.
Import ListNotations.

(** Two hex files of the same format that differ in the bytes of one record: [bs] at
    the address [base] in the first, as many bytes [bs'] in the second. *)
Inductive otherBytes (path : bytes) : bytes -> bytes -> N -> list N -> list N -> Prop :=
| other_intel t before up up' a bs bs' after u : hexKindOf path = KIhex -> List.length bs' = List.length bs ->
    Forall item_ok (before ++ IRec up (IData a bs) :: after) -> item_ok (IRec up' (IData a bs')) ->
    (forall w, In (IEla w) (items_recs (before ++ after)) -> w <> 0%N) -> upperAfter (items_recs before) u ->
    otherBytes path (ifile t (before ++ IRec up (IData a bs) :: after)) (ifile t (before ++ IRec up' (IData a bs') :: after)) (65536 * u + a) bs bs'
| other_s19 t before up up' a bs bs' after tail : hexKindOf path = KSrec -> List.length bs' = List.length bs ->
    Forall sitem_ok (before ++ SItem up (SD a bs) :: after) -> sitem_ok (SItem up' (SD a bs')) -> Forall not_s3 tail ->
    otherBytes path (sfile t (before ++ SItem up (SD a bs) :: after) tail) (sfile t (before ++ SItem up' (SD a bs') :: after) tail) a bs bs'.

Lemma hex_other : forall path text text' base bs bs' np np' m, 0 < np -> 0 < np' -> otherBytes path text text' base bs bs' ->
    @hexOut unit np path (Some text) (Ok m) -> always (@hexOut unit np' path (Some text')) (fun r => exists m', r = Ok m' /\ patched base bs bs' m m').
Proof.
  intros path text text' base bs bs' np np' m N N' O R. unfold hexOut in *. destruct O as [t before up up' a bs bs' after u K L OK OK' NZ U|t before up up' a bs bs' after tail K L OK OK' TL]; rewrite K in *.
  - destruct R as (o & R & E). destruct o as [[m0 [e|]]|e|]; try discriminate E. injection E as <-.
    destruct (C103_intel_same_length_guarded np np' t before up up' a bs bs' after u m N N' L OK OK' NZ U R) as [[o E] G]. split; [eauto|].
    intros r (o' & R' & ->). destruct (G o' R') as (m' & -> & P). eauto.
  - destruct R as (o & R & E). destruct o as [[m0 [e|]]|e|]; try discriminate E. injection E as <-.
    destruct (C103_srec_same_length np np' t before up up' a bs bs' after tail m N N' L OK OK' TL R) as [[o E] G]. split; [eauto|].
    intros r (o' & R' & ->). destruct (G o' R') as (m' & -> & P). eauto.
Qed.

(** Whatever the schedules and the numbers of CPUs: the second call returns the same
    description, and the memory of the first with the new bytes. *)
Theorem C103_calibration_guarded : forall gr pf cpus cpus' ts path text text' base bs bs' a m, 0 < cpus -> 0 < cpus' ->
    a2lText gr pf cpus ts -> a2lText gr pf cpus' ts -> otherBytes path text text' base bs bs' ->
    calibration gr pf cpus true (Some (write ts)) path (Some text) (RReturned (CD (Some a) (Some m)) None) ->
    always (calibration gr pf cpus' true (Some (write ts)) path (Some text'))
      (fun r => exists a' m', r = RReturned (CD (Some a') (Some m')) None /\ patched base bs bs' m m' /\ forall n hex, alike (calibOf a n hex) (calibOf a' n hex)).
Proof.
  intros gr pf cpus cpus' ts path text text' base bs bs' a m N N' A A' O R. unfold calibration, readCalibrationFiles in *.
  destruct (a2l_read gr pf cpus ts N A) as (d & D & _ & G). destruct (a2l_read gr pf cpus' ts N' A') as (d' & D' & [ra E'] & G').
  assert (d' = d) as -> by (eapply C69_unique; eauto).
  apply C22_results in R. destruct R as [(a0 & m0 & RA & RH & E)|[(e & o & _ & _ & _ & E)|[(e & o & _ & _ & _ & E)|(_ & E)]]]; [|discriminate..]. injection E as -> ->.
  destruct (G _ RA) as (a1 & E1 & S1). injection E1 as <-. destruct (hex_other _ _ _ _ _ _ _ cpus' _ N N' O RH) as [[rh EH] GH]. split.
  - destruct (G' _ E') as (a' & -> & _), (GH _ EH) as (m' & -> & _). eexists. apply C22_results. left. eauto.
  - intros r R. apply C22_results in R. destruct R as [(a' & m' & RA' & RH' & ->)|[(e & o & RA' & _)|[(e & o & RH' & _)|([RA'|RH'] & _)]]].
    + destruct (G' _ RA') as (a2 & E2 & S2). injection E2 as <-. destruct (GH _ RH') as (m2 & E3 & P). injection E3 as <-. exists a', m'. split; [reflexivity|]. split; [exact P|]. intros n hex.
      apply alike_trans with (calibOf d n hex); [apply alike_sym, same_alike, S1|apply same_alike, S2].
    + destruct (G' _ RA') as (? & ? & _); discriminate.
    + destruct (GH _ RH') as (? & ? & _); discriminate.
    + destruct (G' _ RA') as (? & ? & _); discriminate.
    + destruct (GH _ RH') as (? & ? & _); discriminate.
Qed.
Print Assumptions C103_calibration_guarded.

(** The A2L file of C80 and two hex files: the bytes 1 and 2 at 65552 become 9 and 8.
    Every second call returns them, and the byte 7 behind them as before. *)
Example C103_calibration_example : let before := [IRec true (IEla 1)] in let after := [IRec false (IData 18 [7]); IRec true iend]%N in
    let text := ifile Unix (before ++ IRec true (IData 16 [1; 2]%N) :: after) in let text' := ifile Unix (before ++ IRec false (IData 16 [9; 8]%N) :: after) in
    otherBytes (b "motor.hex") text text' 65552 [1; 2]%N [9; 8]%N /\
    forall gr cpus cpus', tableOk gr -> 0 < cpus -> 0 < cpus' ->
      (exists a m, calibration gr smallFloat cpus true (Some (write fileQ)) (b "motor.hex") (Some text) (RReturned (CD (Some a) (Some m)) None)) /\
      always (calibration gr smallFloat cpus' true (Some (write fileQ)) (b "motor.hex") (Some text'))
        (fun r => exists a' m', r = RReturned (CD (Some a') (Some m')) None /\ lookup 65552 m' = Some 9%N /\ lookup 65553 m' = Some 8%N /\ lookup 65554 m' = Some 7%N).
Proof.
  cbv zeta. assert (V : forall r, ivalidb r = true -> forall up, item_ok (IRec up r)) by (intros r H up; apply ivalidb_ok, H).
  set (before := [IRec true (IEla 1)]). set (after := [IRec false (IData 18 [7]); IRec true iend]%N).
  assert (NZ : forall w, In (IEla w) (items_recs (before ++ after)) -> w <> 0%N).
  { intros u I; cbn in I; repeat (destruct I as [I|I]; [first [discriminate I|injection I as <-; discriminate]|]); destruct I. }
  assert (OK : Forall item_ok (before ++ IRec true (IData 16 [1; 2]%N) :: after)) by (apply items_okb_ok; vm_compute; reflexivity).
  assert (O : otherBytes (b "motor.hex") (ifile Unix (before ++ IRec true (IData 16 [1; 2]%N) :: after)) (ifile Unix (before ++ IRec false (IData 16 [9; 8]%N) :: after)) 65552 [1; 2]%N [9; 8]%N).
  { apply (other_intel (b "motor.hex") Unix before true false 16 [1; 2]%N [9; 8]%N after 1); [reflexivity|reflexivity|exact OK|apply V; vm_compute; reflexivity|exact NZ|apply (upper_last [] 1 []); intros w []]. }
  split; [exact O|]. intros gr cpus cpus' G N N'. destruct C80_example as (TX & _).
  assert (H : hexText (b "motor.hex") (ifile Unix (before ++ IRec true (IData 16 [1; 2]%N) :: after)) (image (items_recs (before ++ IRec true (IData 16 [1; 2]%N) :: after)))).
  { constructor; [reflexivity|exact OK| |apply nodupb_ok; vm_compute; reflexivity]. apply nonzero_upper_last. intros w I. apply (NZ w). cbn in I |- *. intuition discriminate. }
  destruct (files_read gr smallFloat cpus fileQ _ _ _ N (TX gr cpus G) H) as (d & _ & [r R] & F). destruct (F r R) as (a & m & -> & _ & M). split; [eauto|].
  destruct (C103_calibration_guarded gr smallFloat cpus cpus' fileQ _ _ _ _ _ _ a m N N' (TX gr cpus G) (TX gr cpus' G) O R) as [E K]. split; [exact E|].
  intros r' R'. destruct (K r' R') as (a' & m' & -> & (P1 & _ & P3) & _). exists a', m'. split; [reflexivity|]. split; [exact (P1 0 9%N eq_refl)|]. split; [exact (P1 1 8%N eq_refl)|].
  rewrite P3; [apply M; cbn; auto|unfold covers; cbn; lia|unfold covers; cbn; lia].
Qed.
