(** Positions and data types of the components of a record layout
    (a2l/record_layout.go 502-1210).

    A RecordLayout is the value that [parseRecordLayout] of A2lParsers.v builds:
    a list of assigned fields, whose values are structs again.  The tables below
    are printed by tools/gen_layout.py. *)
From Coq Require Import String List ZArith Bool.
From Verif Require Import GoBase A2lIR.
Import ListNotations.

(** A member of a field of the record layout: rl.F.M *)
Definition place := (string * string)%type.
Definition part (f : string) (rl : fields) : fields := match fget f rl with Some (VObj o) => o | _ => [] end.
Definition pbool (p : place) (rl : fields) : bool := fbool (snd p) (part (fst p) rl).
Definition pint (p : place) (rl : fields) : Z := fint (snd p) (part (fst p) rl).
Definition pstr (p : place) (rl : fields) : bytes := fstr (snd p) (part (fst p) rl).

(** map[uint16]string *)
Definition posmap := list (Z * string).
Fixpoint pget (k : Z) (m : posmap) : option string :=
  match m with
  | [] => None
  | (k', n) :: m' => if (k =? k')%Z then Some n else pget k m'
  end.

(** One block of GetRecordLayoutRelativePositions (506-916):
    if rl.F.G { field, exists := order[rl.F.P]; if exists { return order, err }; order[rl.F.P] = N } *)
Record block := Block { b_guard : place; b_look : place; b_put : place; b_name : string }.

Definition blocks : list block := [
  Block ("AxisPts4", "PositionSet") ("AxisPts4", "Position") ("AxisPts4", "Position") "AxisPts4";
  Block ("AxisPts5", "PositionSet") ("AxisPts5", "Position") ("AxisPts5", "Position") "AxisPts5";
  Block ("AxisPtsX", "PositionSet") ("AxisPtsX", "Position") ("AxisPtsX", "Position") "AxisPtsX";
  Block ("AxisPtsY", "PositionSet") ("AxisPtsY", "Position") ("AxisPtsY", "Position") "AxisPtsY";
  Block ("AxisPtsZ", "PositionSet") ("AxisPtsZ", "Position") ("AxisPtsZ", "Position") "AxisPtsZ";
  Block ("AxisRescaleX", "PositionSet") ("AxisRescaleX", "Position") ("AxisRescaleX", "Position") "AxisRescaleX";
  Block ("DistOp4", "PositionSet") ("DistOp4", "Position") ("DistOp4", "Position") "DistOp4";
  Block ("DistOp5", "PositionSet") ("DistOp5", "Position") ("DistOp5", "Position") "DistOp5";
  Block ("DistOpX", "PositionSet") ("DistOpX", "Position") ("DistOpX", "Position") "DistOpX";
  Block ("DistOpY", "PositionSet") ("DistOpY", "Position") ("DistOpY", "Position") "DistOpY";
  Block ("DistOpZ", "PositionSet") ("DistOpZ", "Position") ("DistOpZ", "Position") "DistOpZ";
  Block ("FncValues", "PositionSet") ("FncValues", "Position") ("FncValues", "Position") "FncValues";
  Block ("Identification", "PositionSet") ("Identification", "Position") ("Identification", "Position") "Identification";
  Block ("NoAxisPts4", "PositionSet") ("NoAxisPts4", "Position") ("NoAxisPts4", "Position") "NoAxisPts4";
  Block ("NoAxisPts5", "PositionSet") ("NoAxisPts5", "Position") ("NoAxisPts5", "Position") "NoAxisPts5";
  Block ("NoAxisPtsX", "PositionSet") ("NoAxisPtsX", "Position") ("NoAxisPtsX", "Position") "NoAxisPtsX";
  Block ("NoAxisPtsY", "PositionSet") ("NoAxisPtsY", "Position") ("NoAxisPtsY", "Position") "NoAxisPtsY";
  Block ("NoAxisPtsZ", "PositionSet") ("NoAxisPtsZ", "Position") ("NoAxisPtsZ", "Position") "NoAxisPtsZ";
  Block ("NoRescaleX", "PositionSet") ("NoRescaleX", "Position") ("NoRescaleX", "Position") "NoRescaleX";
  Block ("Offset4", "PositionSet") ("Offset4", "Position") ("Offset4", "Position") "Offset4";
  Block ("Offset5", "PositionSet") ("Offset5", "Position") ("Offset5", "Position") "Offset5";
  Block ("OffsetX", "PositionSet") ("OffsetX", "Position") ("OffsetX", "Position") "OffsetX";
  Block ("OffsetY", "PositionSet") ("OffsetY", "Position") ("OffsetY", "Position") "OffsetY";
  Block ("OffsetZ", "PositionSet") ("OffsetZ", "Position") ("OffsetZ", "Position") "OffsetZ";
  Block ("Reserved", "PositionSet") ("Reserved", "Position") ("Reserved", "Position") "Reserved";
  Block ("RipAddr4", "PositionSet") ("RipAddr4", "Position") ("RipAddr4", "Position") "RipAddr4";
  Block ("RipAddr5", "PositionSet") ("RipAddr5", "Position") ("RipAddr5", "Position") "RipAddr5";
  Block ("RipAddrX", "positionSet") ("RipAddrX", "position") ("RipAddrX", "position") "RipAddrX";
  Block ("RipAddrY", "PositionSet") ("RipAddrY", "Position") ("RipAddrY", "Position") "RipAddrY";
  Block ("RipAddrZ", "PositionSet") ("RipAddrZ", "Position") ("RipAddrZ", "Position") "RipAddrZ";
  Block ("RipAddrW", "PositionSet") ("RipAddrW", "Position") ("RipAddrW", "Position") "RipAddrW";
  Block ("ShiftOp4", "PositionSet") ("ShiftOp4", "Position") ("ShiftOp4", "Position") "ShiftOp4";
  Block ("ShiftOp5", "PositionSet") ("ShiftOp5", "Position") ("ShiftOp5", "Position") "ShiftOp5";
  Block ("ShiftOpX", "PositionSet") ("ShiftOpX", "Position") ("ShiftOpX", "Position") "ShiftOpX";
  Block ("ShiftOpY", "PositionSet") ("ShiftOpY", "Position") ("ShiftOpY", "Position") "ShiftOpY";
  Block ("ShiftOpZ", "PositionSet") ("ShiftOpZ", "Position") ("ShiftOpZ", "Position") "ShiftOpZ";
  Block ("SrcAddr4", "positionSet") ("SrcAddr4", "position") ("SrcAddr4", "position") "SrcAddr4";
  Block ("SrcAddr5", "positionSet") ("SrcAddr5", "position") ("SrcAddr5", "position") "SrcAddr5";
  Block ("SrcAddrX", "positionSet") ("SrcAddrX", "position") ("SrcAddrX", "position") "SrcAddrX";
  Block ("SrcAddrY", "positionSet") ("SrcAddrY", "position") ("SrcAddrY", "position") "SrcAddrY";
  Block ("SrcAddrZ", "positionSet") ("SrcAddrZ", "position") ("SrcAddrZ", "position") "SrcAddrZ"]%string.

(** The blocks in order.  The result is the map and whether there is an error
    (918; the blocks return the map built so far with their error). *)
Fixpoint runBlocks (rl : fields) (bs : list block) (order : posmap) : posmap * bool :=
  match bs with
  | [] => (order, false)
  | k :: bs' =>
      if pbool (b_guard k) rl then
        match pget (pint (b_look k) rl) order with
        | Some _ => (order, true)
        | None => runBlocks rl bs' ((pint (b_put k) rl, b_name k) :: order)
        end
      else runBlocks rl bs' order
  end.
Definition GetRecordLayoutRelativePositions (rl : fields) : posmap * bool := runBlocks rl blocks [].

(** One case of GetDatatypeByFieldName (923-1210):
    case N: if !rl.F.G { return undefinedDatatype, err }; return rl.F.D, nil *)
Record dcase := DCase { d_case : string; d_guard : place; d_type : place }.

Definition cases : list dcase := [
  DCase "AxisPtsX" ("AxisPtsX", "DatatypeSet") ("AxisPtsX", "Datatype");
  DCase "AxisPtsY" ("AxisPtsY", "DatatypeSet") ("AxisPtsY", "Datatype");
  DCase "AxisPtsZ" ("AxisPtsZ", "DatatypeSet") ("AxisPtsZ", "Datatype");
  DCase "AxisPts4" ("AxisPts4", "DatatypeSet") ("AxisPts4", "Datatype");
  DCase "AxisPts5" ("AxisPts5", "DatatypeSet") ("AxisPts5", "Datatype");
  DCase "AxisRescaleX" ("AxisRescaleX", "DatatypeSet") ("AxisRescaleX", "Datatype");
  DCase "DistOpX" ("DistOpX", "DatatypeSet") ("DistOpX", "Datatype");
  DCase "DistOpY" ("DistOpY", "DatatypeSet") ("DistOpY", "Datatype");
  DCase "DistOpZ" ("DistOpZ", "DatatypeSet") ("DistOpZ", "Datatype");
  DCase "DistOp4" ("DistOp4", "DatatypeSet") ("DistOp4", "Datatype");
  DCase "DistOp5" ("DistOp5", "DatatypeSet") ("DistOp5", "Datatype");
  DCase "FncValues" ("FncValues", "DatatypeSet") ("FncValues", "Datatype");
  DCase "Identification" ("Identification", "DatatypeSet") ("Identification", "Datatype");
  DCase "NoAxisPtsX" ("NoAxisPtsX", "DatatypeSet") ("NoAxisPtsX", "Datatype");
  DCase "NoAxisPtsY" ("NoAxisPtsY", "DatatypeSet") ("NoAxisPtsY", "Datatype");
  DCase "NoAxisPtsZ" ("NoAxisPtsZ", "DatatypeSet") ("NoAxisPtsZ", "Datatype");
  DCase "NoAxisPts4" ("NoAxisPts4", "DatatypeSet") ("NoAxisPts4", "Datatype");
  DCase "NoAxisPts5" ("NoAxisPts5", "DatatypeSet") ("NoAxisPts5", "Datatype");
  DCase "NoRescaleX" ("NoRescaleX", "DatatypeSet") ("NoRescaleX", "Datatype");
  DCase "OffsetX" ("OffsetX", "DatatypeSet") ("OffsetX", "Datatype");
  DCase "OffsetY" ("OffsetY", "DatatypeSet") ("OffsetY", "Datatype");
  DCase "OffsetZ" ("OffsetZ", "DatatypeSet") ("OffsetZ", "Datatype");
  DCase "Offset4" ("Offset4", "DatatypeSet") ("Offset4", "Datatype");
  DCase "Offset5" ("Offset5", "DatatypeSet") ("Offset5", "Datatype");
  DCase "RipAddrW" ("RipAddrW", "DatatypeSet") ("RipAddrW", "Datatype");
  DCase "RipAddrX" ("RipAddrX", "datatypeSet") ("RipAddrX", "datatype");
  DCase "RipAddrY" ("RipAddrY", "DatatypeSet") ("RipAddrY", "Datatype");
  DCase "RipAddrZ" ("RipAddrZ", "DatatypeSet") ("RipAddrZ", "Datatype");
  DCase "RipAddr4" ("RipAddr4", "DatatypeSet") ("RipAddr4", "Datatype");
  DCase "RipAddr5" ("RipAddr5", "DatatypeSet") ("RipAddr5", "Datatype");
  DCase "SrcAddrX" ("SrcAddrX", "datatypeSet") ("SrcAddrX", "datatype");
  DCase "SrcAddrY" ("SrcAddrY", "datatypeSet") ("SrcAddrY", "datatype");
  DCase "SrcAddrZ" ("SrcAddrZ", "datatypeSet") ("SrcAddrZ", "datatype");
  DCase "SrcAddr4" ("SrcAddr4", "datatypeSet") ("SrcAddr4", "datatype");
  DCase "SrcAddr5" ("SrcAddr5", "datatypeSet") ("SrcAddr5", "datatype");
  DCase "ShiftOpX" ("ShiftOpX", "DatatypeSet") ("ShiftOpX", "Datatype");
  DCase "ShiftOpY" ("ShiftOpY", "DatatypeSet") ("ShiftOpY", "Datatype");
  DCase "ShiftOpZ" ("ShiftOpZ", "DatatypeSet") ("ShiftOpZ", "Datatype");
  DCase "ShiftOp4" ("ShiftOp4", "DatatypeSet") ("ShiftOp4", "Datatype");
  DCase "ShiftOp5" ("ShiftOp5", "DatatypeSet") ("ShiftOp5", "Datatype")]%string.

(** [None]: an error (with undefinedDatatype) *)
Fixpoint runCases (rl : fields) (name : string) (cs : list dcase) : option bytes :=
  match cs with
  | [] => None
  | c :: cs' => if String.eqb name (d_case c) then if pbool (d_guard c) rl then Some (pstr (d_type c) rl) else None
                else runCases rl name cs'
  end.
Definition GetDatatypeByFieldName (rl : fields) (name : string) : option bytes := runCases rl name cases.
