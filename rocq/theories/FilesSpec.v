(** Both files together: what ReadCalibration must return for an A2L file written
    from given words and a hex file of a given image. *)
From Coq Require Import String Ascii List Arith NArith ZArith Bool SpecFloat.
From Verif Require Import GoBase HexSpec IhexSpec SrecSpec MemModel CalibModel A2lIR A2lGrammar A2lForms A2lModSpec A2lFileSpec A2lTextProps A2lTripSpec LookModel ValuesModel TreeModel.
Import ListNotations.

(** The words of the A2L file: several modules, or one that can be shared out to
    the goroutines of [cpus] CPUs. *)
Record a2lText (gr : N -> bool) (pf : bytes -> option spec_float) (cpus : nat) (ts : list bytes) : Prop := A2lText {
  at_table : tableOk gr;
  at_words : exists a, describes pf projectRead ts a;
  at_writable : Forall writable ts;
  at_modules : (1 < moduleCount ts mod 2 ^ 32)%N \/
    ts <> [] /\ (moduleCount ts mod 2 ^ 32 <= 1)%N /\
    forall i, tok (ts ++ [[]]) i = b "/begin MODULE" -> divisible (ts ++ [[]]) pf (cpus * 2) i /\ inside (ts ++ [[]]) pf (cpus * 2) i
}.

(** A hex file of either format with the image [img]; no address occurs twice. *)
Inductive hexText (path : bytes) : bytes -> list (N * N) -> Prop :=
| intel_hex lt items : hexKindOf path = KIhex -> Forall item_ok items -> zero_upper_last (items_recs items) ->
    NoDup (map fst (image (items_recs items))) -> hexText path (ifile lt items) (image (items_recs items))
| motorola_s19 lt items tail : hexKindOf path = KSrec -> Forall sitem_ok items -> Forall not_s3 tail ->
    NoDup (map fst (s3image (sitems_recs items))) -> hexText path (sfile lt items tail) (s3image (sitems_recs items)).

(** The bytes [bs] stand at the address [a]. *)
Definition standsAt (img : list (N * N)) (a : N) (bs : list N) : Prop :=
  forall i v, nth_error bs i = Some v -> In ((a + N.of_nat i)%N, v) img.

(** No function of the package tells two calibrations apart. *)
Record alike (cd cd' : calib) : Prop := Alike {
  al_objects : forall k, objectsByIdent cd k = objectsByIdent cd' k;
  al_constant : forall k, systemConstantOf cd k = systemConstantOf cd' k;
  al_constantValue : forall k, constantValueOf cd k = constantValueOf cd' k;
  al_phy : forall dec cm, decToPhy dec cm cd = decToPhy dec cm cd';
  al_verbal : forall dec cv, verbalOf dec cv cd = verbalOf dec cv cd';
  al_range : forall dec cvr, rangeTextOf dec cvr cd = rangeTextOf dec cvr cd';
  al_layout : forall c, getRecordLayout cd c = getRecordLayout cd' c;
  al_values : forall cv r, getValuesFromHex cd cv r <-> getValuesFromHex cd' cv r;
  al_along : forall cv order, valuesAlong getBytes_repaired cd cv order = valuesAlong getBytes_repaired cd' cv order
}.
