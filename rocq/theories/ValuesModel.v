(** Reading the values of a characteristic: calib_data.go 178-192
    (getRecordLayout), 503-707 (getValuesFromHex), 718-769 (getFncValues),
    fnc_values.go 31-67 (getFncValues2D), characteristic_values.go 9-47.

    The tree of the A2L file is the value built by the parsers of A2lParsers.v;
    alignments, data types and the byte order are taken from it here.  Log output
    is left out.  No function of the repository calls getValuesFromHex,
    getFncValues1D or getFncValues2D. *)
From Coq Require Import String Ascii List Arith NArith ZArith Bool Permutation Floats.SpecFloat.
From Verif Require Import GoBase FloatModel MemModel A2lIR A2lLayoutModel.
Import ListNotations.

(** ** From the tree to the types of MemModel.v *)

Fixpoint named {A} (s : bytes) (l : list (string * A)) (d : A) : A :=
  match l with
  | [] => d
  | (n, x) :: l' => if beqb s (b n) then x else named s l' d
  end.
(** a2l/enums.go 36-62 with the texts of a2l/tokens.go *)
Definition datatypeOf (s : bytes) : datatype :=
  named s [("UBYTE", UBYTE); ("SBYTE", SBYTE); ("UWORD", UWORD); ("SWORD", SWORD); ("ULONG", ULONG); ("SLONG", SLONG);
           ("A_UINT64", AUint64); ("A_INT64", AInt64); ("FLOAT16_IEEE", Float16Ieee); ("FLOAT32_IEEE", Float32Ieee);
           ("FLOAT64_IEEE", Float64Ieee)]%string DUndef.
(** a2l/enums.go 200-207 *)
Definition datasizeOf (s : bytes) : datasize := named s [("BYTE", BYTE); ("WORD", WORD); ("LONG", LONG)]%string SUndef.
(** a2l/enums.go 273-283 *)
Definition orderOf (s : bytes) : byteOrderEnum :=
  named s [("LITTLE_ENDIAN", LittleEndian); ("BIG_ENDIAN", BigEndian); ("MSB_LAST", MsbLast); ("MSB_FIRST", MsbFirst);
           ("MSB_FIRST_MSW_LAST", MsbFirstMswLast); ("MSB_LAST_MSW_FIRST", MsbLastMswFirst)]%string BUndef.

(** x.F.AlignmentBorder and x.F.AlignmentBorderSet of a record layout or of
    MOD_COMMON *)
Definition alignmentOf (o : fields) (f : string) : alignment :=
  Align (Z.to_N (pint (f, "AlignmentBorder"%string) o)) (pbool (f, "AlignmentBorderSet"%string) o).
Definition alignmentsOf (o : fields) : alignments :=
  Aligns (alignmentOf o "AlignmentByte") (alignmentOf o "AlignmentWord") (alignmentOf o "AlignmentLong")
    (alignmentOf o "AlignmentInt64") (alignmentOf o "AlignmentFloat16Ieee") (alignmentOf o "AlignmentFloat32Ieee")
    (alignmentOf o "AlignmentFloat64Ieee").
(** rl.F.Datatype and rl.F.DatatypeSet *)
Definition componentOf (rl : fields) (f : string) : component :=
  Comp (datatypeOf (pstr (f, "Datatype"%string) rl)) (pbool (f, "DatatypeSet"%string) rl).

(** calib_data.go 27-37: A2l.Project.Modules, ModuleIndex, the hex map *)
Record calib := Calib { cd_modules : list val; cd_index : nat; cd_hex : gomap }.

(** cd.A2l.Project.Modules[cd.ModuleIndex]; [None] when the index is out of range *)
Definition theModule (cd : calib) : option fields :=
  option_map (fun v => match v with VObj m => m | _ => [] end) (nth_error (cd_modules cd) (cd_index cd)).
Definition contextOf (cd : calib) (m : fields) : memctx :=
  Ctx (cd_hex cd) (alignmentsOf (part "ModCommon" m))
    (orderOf (pstr ("ByteOrder", "ByteOrder")%string (part "ModCommon" m)))
    (pbool ("ByteOrder", "ByteOrderSet")%string (part "ModCommon" m)).

Fixpoint mget (k : bytes) (m : list (bytes * val)) : option val :=
  match m with
  | [] => None
  | (k', v) :: m' => if beqb k k' then Some v else mget k m'
  end.

(** ** calib_data.go 178-192 *)
Definition getRecordLayout (cd : calib) (c : fields) : outcome unit fields :=
  if negb (fbool "DepositSet" c) then Err tt
  else match theModule cd with
       | None => Panic
       | Some m => match mget (fstr "Deposit" c) (fmap "RecordLayouts" m) with
                   | None => Err tt
                   | Some (VObj rl) => Ok rl
                   | Some _ => Ok []
                   end
       end.

(** ** characteristic_values.go 9-40: the values read, by the name of the field *)
Inductive cval := CInt (z : Z) | CFloats (l : list f64) | CAny (x : option (list N)).
Definition values := list (string * cval).
Fixpoint vget (f : string) (v : values) : option cval :=
  match v with
  | [] => None
  | (g, x) :: v' => if String.eqb f g then Some x else vget f v'
  end.
Fixpoint vset (f : string) (x : cval) (v : values) : values :=
  match v with
  | [] => [(f, x)]
  | (g, y) :: v' => if String.eqb f g then (f, x) :: v' else (g, y) :: vset f x v'
  end.
(** a field that was not assigned is zero *)
Definition vint (f : string) (v : values) : Z := match vget f v with Some (CInt z) => z | _ => 0%Z end.

(** The fields characteristic and recordLayout; [None] is a nil pointer.  The
    field RelativePositions of a record layout is a map[uint16]string; it is
    present in the value of the record layout as the list of its entries. *)
Record charvals := CharVals { cv_char : fields; cv_layout : option fields; cv_values : values }.

(** 42-47 *)
Definition NewCharacteristicValues (c : fields) (rl : option fields) : charvals := CharVals c rl [].

Definition relativePositions (rl : fields) : list string :=
  flat_map (fun v => match v with VObj o => [string_of_list_ascii (fstr "value" o)] | _ => [] end)
           (flist "RelativePositions" rl).

(** ** The switch over the name of the component

    One case of calib_data.go 527-704:
    [AAxis t f n c]: cv.t, err = getAxisPoints?, which uses rl.f, cv.n and rl.c;
    [AInt t c]: cv.t, err = get?, which uses rl.c; [AIdent], [AReserved], [AFnc];
    [ALog]: only an error message.  The table is printed by tools/gen_values.py. *)
Inductive action :=
  | AAxis (t f n c : string)
  | AInt (t c : string)
  | AIdent (t c : string)
  | AReserved (c : string)
  | AFnc (t : string)
  | ALog.

Definition switch : list (string * action) := [
  ("AxisPtsX", AAxis "AxisXValues" "FixNoAxisPtsX" "noAxisPtsXValue" "AxisPtsX");
  ("AxisPtsY", AAxis "AxisYValues" "FixNoAxisPtsY" "noAxisPtsYValue" "AxisPtsY");
  ("AxisPtsZ", AAxis "AxisZValues" "FixNoAxisPtsZ" "noAxisPtsZValue" "AxisPtsZ");
  ("AxisPts4", AAxis "Axis4Values" "FixNoAxisPts4" "noAxisPts4Value" "AxisPts4");
  ("AxisPts5", AAxis "Axis5Values" "FixNoAxisPts5" "noAxisPts5Value" "AxisPts5");
  ("AxisRescaleX", ALog);
  ("DistOpX", AInt "distOpXValue" "DistOpX");
  ("DistOpY", AInt "distOpYValue" "DistOpY");
  ("DistOpZ", AInt "distOpZValue" "DistOpZ");
  ("DistOp4", AInt "distOp4Value" "DistOp4");
  ("DistOp5", AInt "distOp5Value" "DistOp5");
  ("FncValues", AFnc "fncValues");
  ("Identification", AIdent "identificationValue" "Identification");
  ("NoAxisPtsX", AInt "noAxisPtsXValue" "NoAxisPtsX");
  ("NoAxisPtsY", AInt "noAxisPtsYValue" "NoAxisPtsY");
  ("NoAxisPtsZ", AInt "noAxisPtsZValue" "NoAxisPtsZ");
  ("NoAxisPts4", AInt "noAxisPts4Value" "NoAxisPts4");
  ("NoAxisPts5", AInt "noAxisPts5Value" "NoAxisPts5");
  ("NoRescaleX", AInt "noRescaleXValue" "NoRescaleX");
  ("OffsetX", AInt "offsetXValue" "OffsetX");
  ("OffsetY", AInt "offsetYValue" "OffsetY");
  ("OffsetZ", AInt "offsetZValue" "OffsetZ");
  ("Offset4", AInt "offset4Value" "Offset4");
  ("Offset5", AInt "offset5Value" "Offset5");
  ("Reserved", AReserved "Reserved");
  ("ShiftOpX", AInt "shiftOpXValue" "ShiftOpX");
  ("ShiftOpY", AInt "shiftOpYValue" "ShiftOpY");
  ("ShiftOpZ", AInt "shiftOpZValue" "ShiftOpZ");
  ("ShiftOp4", AInt "shiftOp4Value" "ShiftOp4");
  ("ShiftOp5", AInt "shiftOp5Value" "ShiftOp5")]%string.

Fixpoint caseOf (field : string) (cs : list (string * action)) : action :=
  match cs with
  | [] => ALog (* default, 699-703 *)
  | (n, a) :: cs' => if String.eqb field n then a else caseOf field cs'
  end.

Section Read.
  (** the function that fetches bytes: getBytes in the program *)
  Variable gb : memctx -> N -> N -> outcome merr (list N).
  Variable cx : memctx.
  Variable rl : fields.
  Notation al := (alignmentsOf rl).

  (** int64(rl.f.NumberOfAxisPoints) when rl.f.NumberOfAxisPointsSet *)
  Definition fixOf (f : string) : option N :=
    if pbool (f, "NumberOfAxisPointsSet"%string) rl then Some (Z.to_N (pint (f, "NumberOfAxisPoints"%string) rl)) else None.

  (** 718-769.  The result is always nil; *curPos is not changed.  The change of
      rl.FncValues.Addresstype in 728-730 is not seen elsewhere. *)
  Definition getFncValues (curPos : N) : outcome merr unit :=
    let addresstype := if pbool ("FncValues", "AddresstypeSet")%string rl then pstr ("FncValues", "Addresstype")%string rl
                       else b "DIRECT" in
    let byte := match getValue gb cx al curPos UBYTE with
                | Ok bs => match convertByteSliceToDatatype cx bs UBYTE with
                           | Ok _ => Ok tt
                           | Err e => Err e
                           | Panic => Panic
                           end
                | Err e => Err e
                | Panic => Panic
                end in
    if beqb addresstype (b "DIRECT") then byte
    else if beqb addresstype (b "PBYTE") then byte
    else if beqb addresstype (b "PWORD") then Ok tt
    else if beqb addresstype (b "PLONG") then Ok tt
    else if beqb addresstype (b "PLONGLONG") then Ok tt
    else Err MType.

  (** One round of the loop of getValuesFromHex; [None] is a panic.  The value of
      a component that could not be read is assigned 0 or nil. *)
  Definition readField (field : string) (v : values) (curPos : N) : option (values * N) :=
    match caseOf field switch with
    | AAxis t f n c =>
        match getAxisPoints gb cx al (fixOf f) (vint n v) (c_type (componentOf rl c)) curPos with
        | (Ok l, p) => Some (vset t (CFloats l) v, p)
        | (Err _, p) => Some (vset t (CFloats []) v, p)
        | (Panic, _) => None
        end
    | AInt t c =>
        match getInt gb cx al (componentOf rl c) curPos with
        | (Ok z, p) => Some (vset t (CInt z) v, p)
        | (Err _, p) => Some (vset t (CInt 0) v, p)
        | (Panic, _) => None
        end
    | AIdent t c =>
        match getIdentification gb cx al (componentOf rl c) curPos with
        | (Ok bs, p) => Some (vset t (CAny (Some bs)) v, p)
        | (Err _, p) => Some (vset t (CAny None) v, p)
        | (Panic, _) => None
        end
    | AReserved c =>
        match getReserved (datasizeOf (pstr (c, "DataSize"%string) rl)) (pbool (c, "DataSizeSet"%string) rl) curPos with
        | (Panic, _) => None
        | (_, p) => Some (v, p)
        end
    | AFnc t =>
        match getFncValues curPos with
        | Panic => None
        | _ => Some (vset t (CAny None) v, curPos)
        end
    | ALog => Some (v, curPos)
    end.

  Fixpoint readFields (fs : list string) (v : values) (curPos : N) : option (values * N) :=
    match fs with
    | [] => Some (v, curPos)
    | f :: fs' => match readField f v curPos with
                  | Some (v', p) => readFields fs' v' p
                  | None => None
                  end
    end.

  (** fnc_values.go 36-48: the number of values; [dim] is
      cv.characteristic.MatrixDim.DimX.  Then the loop 53-65 (that of
      axis_pts.go), with the data type of AXIS_PTS_X. *)
  Definition getFncValues2D (dim : Z) (curPos : N) : outcome merr (list f64) * N :=
    match fixOf "FixNoAxisPtsX" with
    | Some n => axisLoop gb cx al (N.to_nat n) (c_type (componentOf rl "AxisPtsX")) [] curPos
    | None => if (dim <=? 0)%Z then (Err MCount, curPos)
              else axisLoop gb cx al 0 (c_type (componentOf rl "AxisPtsX")) [] curPos
    end.
End Read.

(** ** calib_data.go 503-707

    [order] is the list of the fields of the map over which the loop runs, in the
    order of the iteration; Go does not fix this order.  In the program the map is
    cv.recordLayout.RelativePositions; a nil cv.recordLayout panics.  The positions
    computed in 510-514 are stored in a copy of the record layout and not used. *)
Section Values.
  Variable gb : memctx -> N -> N -> outcome merr (list N).

  Definition valuesAlong (cd : calib) (cv : charvals) (order : list string) : option values :=
    match getRecordLayout cd (cv_char cv), theModule cd with
    | Ok rl, Some m =>
        let cx := contextOf cd m in
        match convertStringToUint32Address cx (fstr "Address" (cv_char cv)) with
        | Ok a => option_map fst (readFields gb cx rl order (cv_values cv) a)
        | Err _ => option_map fst (readFields gb cx rl order (cv_values cv) 0)
        | Panic => None
        end
    | _, _ => None (* nil pointer in GetRecordLayoutRelativePositions (510), or an index out of range *)
    end.
End Values.

(** [getValuesFromHex cd cv r]: a run can end with the values [r]; [None] is a panic. *)
Definition getValuesFromHex (cd : calib) (cv : charvals) (r : option values) : Prop :=
  match cv_layout cv with
  | None => r = None
  | Some l => exists order, Permutation order (relativePositions l) /\ r = valuesAlong getBytes cd cv order
  end.
