(** What the values of a characteristic are called, and the names of the data types
    in an A2L file (ASAP2). *)
From Coq Require Import String Ascii List Bool.
From Verif Require Import GoBase A2lLayoutSpec MemModel.
Import ListNotations.
Local Open Scope string_scope.

(** The components of a record layout that are one integer each. *)
Definition integers : list string :=
  "NoRescaleX" :: flat_map perAxis ["DistOp"; "NoAxisPts"; "Offset"; "ShiftOp"].
(** The components that hold addresses of the control unit. *)
Definition addresses : list string := "RipAddrW" :: flat_map perAxis ["RipAddr"; "SrcAddr"].

Definition lowerFirst (s : string) : string :=
  match s with
  | String a r => String (ascii_of_nat (nat_of_ascii a + 32)) r
  | EmptyString => EmptyString
  end.
(** The member of CharacteristicValues for such a component *)
Definition valueField (c : string) : string := lowerFirst c ++ "Value".
(** ... and for the points of an axis *)
Definition axisField (ax : string) : string := "Axis" ++ ax ++ "Values".

Definition typeName (d : datatype) : string :=
  match d with
  | UBYTE => "UBYTE" | SBYTE => "SBYTE" | UWORD => "UWORD" | SWORD => "SWORD" | ULONG => "ULONG" | SLONG => "SLONG"
  | AUint64 => "A_UINT64" | AInt64 => "A_INT64"
  | Float16Ieee => "FLOAT16_IEEE" | Float32Ieee => "FLOAT32_IEEE" | Float64Ieee => "FLOAT64_IEEE"
  | DUndef => ""
  end.
