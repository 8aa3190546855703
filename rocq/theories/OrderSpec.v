(** Two A2L files with the same objects in another order. *)
From Coq Require Import String Ascii List Arith Bool SpecFloat Permutation.
From Verif Require Import GoBase A2lIR TreeSpec.
Import ListNotations.

(** The kinds of objects that are kept under their names, and those of which a module
    has one. *)
Definition namedKinds : list string :=
  ["/begin AXIS_PTS"; "/begin CHARACTERISTIC"; "/begin COMPU_METHOD"; "/begin COMPU_TAB"; "/begin COMPU_VTAB"; "/begin COMPU_VTAB_RANGE";
   "/begin FUNCTION"; "/begin GROUP"; "/begin MEASUREMENT"; "/begin RECORD_LAYOUT"; "/begin UNIT"]%string.
Definition singleKinds : list string := ["/begin MOD_PAR"; "/begin MOD_COMMON"]%string.

(** Not two of the entries have the property. *)
Definition atMostOne (P : entry -> Prop) (l : list entry) : Prop :=
  forall l1 l2 l3 e e', l = l1 ++ e :: l2 ++ e' :: l3 -> P e -> P e' -> False.

(** No two objects of one kind have the same name. *)
Definition unambiguous (l : list entry) : Prop :=
  (forall kw k, In kw namedKinds -> atMostOne (isNamed kw k) l) /\ (forall kw, In kw singleKinds -> atMostOne (isKw kw) l).
