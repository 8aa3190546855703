(** Two files for C80: a module with a characteristic at 0x80000000, and a hex file
    with the byte 1 there. *)
From Coq Require Import String Ascii List Arith NArith ZArith Bool SpecFloat Lia.
From Verif Require Import GoBase HexSpec IhexSpec IhexModel MemModel MemSpec CalibModel CalibFileModel A2lIR A2lGrammar A2lForms A2lTextProps A2lFileSpec A2lTripSpec A2lTripThm A2lTripProps
  ValuesModel ValuesSpec TreeModel TreeSpec TreeThm TreeLook TreeConv TreeLayoutSpec TreeLayout TreeLayoutEx FilesSpec FilesThm FilesProps.
From Verif Require IhexProps IhexThm.
Import ListNotations.

Definition commonQ : list bytes := map b [quote "a comment"; "BYTE_ORDER"; "MSB_FIRST"; "ALIGNMENT_LONG"; "8"; "/end MOD_COMMON"]%string.
Definition charQ : list bytes := map b ["C"; quote "a value"; "VALUE"; "0x80000000"; "R"; "0"; "K"; "0"; "10"; "/end CHARACTERISTIC"]%string.
Definition moduleQ : list bytes := map b ["M"; quote "a module"]%string ++
  (b "/begin MOD_COMMON" :: commonQ) ++ (b "/begin RECORD_LAYOUT" :: layoutWords) ++ (b "/begin CHARACTERISTIC" :: charQ) ++ [b "/end MODULE"].
Definition moduleN : list bytes := map b ["N"; quote "another"; "/end MODULE"]%string.
Definition projectQ : list bytes := map b ["P"; quote "a project"]%string ++ (b "/begin MODULE" :: moduleQ) ++ (b "/begin MODULE" :: moduleN) ++ [b "/end PROJECT"].
Definition fileQ : list bytes := map b ["ASAP2_VERSION"; "1"; "71"]%string ++ (b "/begin PROJECT" :: projectQ).

Definition eCommonQ : entry := Entry "/begin MOD_COMMON" commonQ (valOf modCommonForm commonQ).
Definition eCharQ : entry := Entry "/begin CHARACTERISTIC" charQ (valOf characteristicRead charQ).
Definition entriesQ : list entry := [eCommonQ; eLayout; eCharQ].

Local Ltac found := first [apply item_found; vm_compute; reflexivity | cbn [itemsOf moduleRead projectRead fileItems In]; tauto].
Local Ltac run := apply (den_run 10); vm_compute; reflexivity.

Lemma module_q : moduleHas smallFloat moduleQ entriesQ.
Proof.
  exists (b "M"), (b (quote "a module")), ((b "/begin MOD_COMMON" :: commonQ) ++ (b "/begin RECORD_LAYOUT" :: layoutWords) ++ (b "/begin CHARACTERISTIC" :: charQ)).
  split; [reflexivity|].
  refine (en_cons _ _ _ "/begin MOD_COMMON" "ModCommon" Single modCommonForm commonQ _ (valOf modCommonForm commonQ) _ _ _ _ _); [found|run|reflexivity|].
  refine (en_cons _ _ _ "/begin RECORD_LAYOUT" "RecordLayouts" (Under "Name") recordLayoutRead layoutWords _ (valOf recordLayoutRead layoutWords) _ _ _ _ _); [found|run|reflexivity|].
  refine (en_cons _ _ _ "/begin CHARACTERISTIC" "Characteristics" (Under "Name") characteristicRead charQ [] (valOf characteristicRead charQ) [] _ _ _ _); [found|run|reflexivity|].
  constructor.
Qed.
Lemma file_q : fileModule smallFloat fileQ 0 moduleQ.
Proof.
  set (em := Entry "/begin MODULE" moduleQ (valOf moduleRead moduleQ)). set (en := Entry "/begin MODULE" moduleN (valOf moduleRead moduleN)).
  set (ep := Entry "/begin PROJECT" projectQ (valOf projectRead projectQ)).
  set (ev := Entry "ASAP2_VERSION" [b "1"; b "71"] (valOf asap2VersionForm [b "1"; b "71"])).
  exists [ev; ep], ep, [em; en], em. split; [|split; [lastkw [ev] (@nil entry)|split; [|split; reflexivity]]].
  - refine (en_cons _ _ _ "ASAP2_VERSION" "Asap2Version" Single asap2VersionForm [b "1"; b "71"] _ _ _ _ _ _ _); [found|run|reflexivity|].
    refine (en_cons _ _ _ "/begin PROJECT" "Project" Single projectRead projectQ [] _ [] _ _ _ _); [found|run|reflexivity|]. constructor.
  - exists (b "P"), (b (quote "a project")), ((b "/begin MODULE" :: moduleQ) ++ (b "/begin MODULE" :: moduleN)). split; [reflexivity|].
    refine (en_cons _ _ _ "/begin MODULE" "Modules" Several moduleRead moduleQ _ _ _ _ _ _ _); [found|run|reflexivity|].
    refine (en_cons _ _ _ "/begin MODULE" "Modules" Several moduleRead moduleN [] _ [] _ _ _ _); [found|run|reflexivity|]. constructor.
Qed.

Example C80_example : (forall gr cpus, tableOk gr -> a2lText gr smallFloat cpus fileQ) /\ hexText (b "motor.hex") (ifile Dos IhexProps.ex_items) (image (items_recs IhexProps.ex_items)) /\
  fileModule smallFloat fileQ 0 moduleQ /\ moduleHas smallFloat moduleQ entriesQ.
Proof.
  split; [|split; [|split; [exact file_q|exact module_q]]].
  - intros gr cpus G. constructor; [exact G| | |].
    + eexists. described.
    + apply Forall_forall. intros t I. apply writableb_ok. revert t I. apply forallb_forall. vm_compute. reflexivity.
    + left. vm_compute. reflexivity.
  - destruct IhexProps.C01_example as (I & U & N & _ & _). constructor; [reflexivity|exact I|exact (IhexThm.nonzero_upper_last _ U)|exact N].
Qed.

(** The whole way: on every machine and schedule, the characteristic C of the file
    has one axis point, the byte 1 of the hex file. *)
Example C80_value_example : forall gr cpus, tableOk gr -> 0 < cpus ->
  always (calibration gr smallFloat cpus true (Some (write fileQ)) (b "motor.hex") (Some (ifile Dos IhexProps.ex_items)))
    (fun r => exists a m v, r = RReturned (CD (Some a) (Some m)) None /\
       valuesAlong getBytes_repaired (calibOf a 0 m) (NewCharacteristicValues (objOf (e_val eCharQ)) None) ["NoAxisPtsX"%string] = Some v /\ vint (valueField "NoAxisPtsX") v = 1%Z).
Proof.
  intros gr cpus G CP. destruct C80_example as (TX & H & FM & HM). destruct (C80_value_guarded gr smallFloat cpus fileQ _ _ _ CP (TX gr cpus G) H) as [E R].
  split; [exact E|]. intros r HR. destruct (R r HR) as (a & m & -> & _ & F). exists a, m.
  destruct (F 0 moduleQ entriesQ FM HM cEntries (b "C") eCharQ (objOf (e_val eCharQ)) (b "R") (b "80000000") [128; 0; 0; 0]%N eLayout lEntries "NoAxisPtsX"%string UBYTE false 1%Z 2%N None) as (v & V1 & V2).
  - left. exists eCommonQ. split; [lastkw (@nil entry) [eLayout; eCharQ]|].
    exists (b (quote "a comment")), (map b ["BYTE_ORDER"; "MSB_FIRST"; "ALIGNMENT_LONG"; "8"]%string). split; [reflexivity|].
    refine (en_cons _ _ _ "BYTE_ORDER" "ByteOrder" Single byteOrderForm [b "MSB_FIRST"] _ _ _ _ _ _ _); [found|run|reflexivity|].
    refine (en_cons _ _ _ "ALIGNMENT_LONG" "AlignmentLong" Single alignmentLongForm [b "8"] [] _ [] _ _ _ _); [found|run|reflexivity|]. constructor.
  - apply C79_border_example.
  - last_ (firstn 2 entriesQ) (@nil entry).
  - vm_compute. reflexivity.
  - do 4 eexists. reflexivity.
  - exact (HAcons false false 8 0 _ _ eq_refl eq_refl (HAcons false false 0 0 _ _ eq_refl eq_refl (HAcons false false 0 0 _ _ eq_refl eq_refl (HAcons false false 0 0 _ _ eq_refl eq_refl HAnil)))).
  - reflexivity.
  - last_ (firstn 1 entriesQ) [eCharQ].
  - exact some_layout.
  - cbn. tauto.
  - apply C79_example.
  - left. reflexivity.
  - reflexivity.
  - vm_compute. split; [discriminate|reflexivity].
  - reflexivity.
  - refine (in_layout _ _ UBYTE _ _ 2%N (eq_refl (alignmentWord UBYTE)) _). exists (b "2"). split; [|reflexivity]. eexists. split; [lastkw (firstn 2 lEntries) (@nil entry)|reflexivity].
  - discriminate.
  - exists 1073741824%N. reflexivity.
  - vm_compute. discriminate.
  - intros i w NE. destruct i as [|i]; [|destruct i; discriminate]. injection NE as <-. vm_compute. tauto.
  - exists v. auto.
Qed.
