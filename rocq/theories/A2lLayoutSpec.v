(** What the components of a record layout are (ASAP2: the keywords of
    RECORD_LAYOUT with a position), and what is known about one of them. *)
From Coq Require Import String List ZArith Bool.
From Verif Require Import GoBase A2lIR.
Import ListNotations.

Definition axes : list string := ["X"; "Y"; "Z"; "4"; "5"]%string.
Definition perAxis (kind : string) : list string := map (String.append kind) axes.

(** The fields of the struct RecordLayout for the 41 components. *)
Definition components : list string :=
  ["AxisRescaleX"; "FncValues"; "Identification"; "NoRescaleX"; "Reserved"; "RipAddrW"]%string ++
  flat_map perAxis ["AxisPts"; "DistOp"; "NoAxisPts"; "Offset"; "RipAddr"; "ShiftOp"; "SrcAddr"]%string.

(** Six of the struct types do not export their members. *)
Definition hidden (c : string) : bool := existsb (String.eqb c) ("RipAddrX"%string :: perAxis "SrcAddr").

(** A member of a component; what was not assigned has its zero value. *)
Definition member (rl : fields) (c m : string) : option val :=
  match fget c rl with Some (VObj o) => fget m o | _ => None end.
Definition flag (rl : fields) (c m : string) : Prop := member rl c m = Some (VBool true).
Definition number (rl : fields) (c m : string) : Z := match member rl c m with Some (VInt z) => z | _ => 0%Z end.
Definition text (rl : fields) (c m : string) : bytes := match member rl c m with Some (VStr s) => s | _ => [] end.

(** component [c] was given with position [p] *)
Definition placed (rl : fields) (c : string) (p : Z) : Prop :=
  if hidden c then flag rl c "positionSet" /\ number rl c "position" = p
  else flag rl c "PositionSet" /\ number rl c "Position" = p.

(** component [c] was given with data type [d] *)
Definition typed (rl : fields) (c : string) (d : bytes) : Prop :=
  if hidden c then flag rl c "datatypeSet" /\ text rl c "datatype" = d
  else flag rl c "DatatypeSet" /\ text rl c "Datatype" = d.
