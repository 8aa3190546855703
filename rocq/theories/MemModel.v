(** Model of the access to the memory image: calib_data.go 198-500, 709-716,
    record_manager.go 103-234, and the component readers in axis_pts.go,
    distOp.go, no_axis_pts.go, no_rescale_x.go, offsetOp.go, shiftOp.go,
    identification.go, reserved.go, fnc_values.go.

    [cd.A2l.Project.Modules[cd.ModuleIndex]] is the module whose MOD_COMMON is
    given in the context; the index is assumed to be in range. *)
From Coq Require Import String Ascii List Arith NArith ZArith Bool Floats.SpecFloat.
From Verif Require Import GoBase GoStrings FloatModel.
Import ListNotations.
Open Scope outcome_scope.

Inductive merr := MLen | MAddr | MShort | MOrder | MType | MText | MUnset | MCount.

(** a2l/enums.go 36-62; [DUndef] is any other string. *)
Inductive datatype :=
| UBYTE | SBYTE | UWORD | SWORD | ULONG | SLONG | AUint64 | AInt64 | Float16Ieee | Float32Ieee | Float64Ieee | DUndef.
(** a2l/enums.go 200-207 *)
Inductive datasize := BYTE | WORD | LONG | SUndef.
(** a2l/enums.go 273-283 *)
Inductive byteOrderEnum :=
| LittleEndian | BigEndian | MsbLast | MsbFirst | MsbFirstMswLast | MsbLastMswFirst | BUndef.

(** a2l/enums.go 138-166 *)
Definition GetDatatypeLength (d : datatype) : N :=
  match d with
  | UBYTE => 8 | SBYTE => 8
  | UWORD => 32 | SWORD => 32
  | ULONG => 32 | SLONG => 32
  | AUint64 => 64 | AInt64 => 64
  | Float16Ieee => 16 | Float32Ieee => 32 | Float64Ieee => 64
  | DUndef => 0
  end.

(** a2l/enums.go 209-221 *)
Definition GetDataSizeLength (d : datasize) : N :=
  match d with BYTE => 8 | WORD => 32 | LONG => 64 | SUndef => 0 end.

(** a2l/alignment_byte.go 12-17 and the six other alignment types; the border is
    a uint16. *)
Record alignment := Align { AlignmentBorder : N; AlignmentBorderSet : bool }.
(** The alignments of a record layout or of MOD_COMMON. *)
Record alignments := Aligns {
  AlignmentByte : alignment; AlignmentWord : alignment; AlignmentLong : alignment; AlignmentInt64 : alignment;
  AlignmentFloat16Ieee : alignment; AlignmentFloat32Ieee : alignment; AlignmentFloat64Ieee : alignment
}.

(** MOD_COMMON (a2l/mod_common.go 9-22: alignments and byte order) and the hex map *)
Record memctx := Ctx {
  cx_hex : gomap;
  cx_common : alignments;
  cx_order : byteOrderEnum;
  cx_orderSet : bool
}.

(** [address % border], [address + modulo] in uint32; division by zero panics *)
Definition alignTo (address border : N) : outcome merr N :=
  if (border =? 0)%N then Panic
  else let modulo := (address mod border)%N in
       if (modulo =? 0)%N then Ok address else Ok (u32 (address + modulo)).

(** calib_data.go 198-478: one case *)
Definition alignCase (address : N) (rl mc : alignment) (dflt : N) : outcome merr N :=
  if AlignmentBorderSet rl then alignTo address (AlignmentBorder rl)
  else if AlignmentBorderSet mc then alignTo address (AlignmentBorder mc)
  else alignTo address dflt.

Definition getNextAlignedAddress (cx : memctx) (address : N) (dte : datatype) (rl : alignments) : outcome merr N :=
  let mc := cx_common cx in
  match dte with
  | UBYTE => alignCase address (AlignmentByte rl) (AlignmentByte mc) 1
  | SBYTE => alignCase address (AlignmentByte rl) (AlignmentByte mc) 1
  | UWORD => alignCase address (AlignmentWord rl) (AlignmentWord mc) 2
  | SWORD => alignCase address (AlignmentWord rl) (AlignmentWord mc) 2
  | ULONG => alignCase address (AlignmentLong rl) (AlignmentLong mc) 4
  | SLONG => alignCase address (AlignmentLong rl) (AlignmentLong mc) 4
  | AUint64 => alignCase address (AlignmentInt64 rl) (AlignmentInt64 mc) 8
  | AInt64 => alignCase address (AlignmentInt64 rl) (AlignmentInt64 mc) 8
  | Float16Ieee => alignCase address (AlignmentFloat16Ieee rl) (AlignmentFloat16Ieee mc) 2
  | Float32Ieee => alignCase address (AlignmentFloat32Ieee rl) (AlignmentFloat32Ieee mc) 4
  | Float64Ieee => alignCase address (AlignmentFloat64Ieee rl) (AlignmentFloat64Ieee mc) 8
  | DUndef => Ok address
  end.

(** calib_data.go 490-498, [acc] is the slice [bytes] *)
Fixpoint getBytes_loop (hex : gomap) (address : N) (todo : nat) (i : N) (acc : list N) : outcome merr (list N) :=
  match todo with
  | O => Ok acc
  | S todo' =>
      match lookup (u32 (address + u32 i)) hex with
      | None => Err MAddr
      | Some v => getBytes_loop hex address todo' (i + 1) (acc ++ [v])
      end
  end.

(** calib_data.go 482-500; [make([]byte, nBytes, 0)] panics unless [nBytes] is 0. *)
Definition getBytes (cx : memctx) (address length : N) : outcome merr (list N) :=
  let nBytes := (length / 8)%N in
  if (0 <? nBytes)%N then Panic
  else if negb (length mod 8 =? 0)%N then Err MLen
  else getBytes_loop (cx_hex cx) address (N.to_nat nBytes) 0 [].

(** NOT in the repository: [getBytes] with the capacity of the slice repaired
    ([make([]byte, 0, nBytes)]); used to state what the code around it does. *)
Definition getBytes_repaired (cx : memctx) (address length : N) : outcome merr (list N) :=
  let nBytes := (length / 8)%N in
  if negb (length mod 8 =? 0)%N then Err MLen
  else getBytes_loop (cx_hex cx) address (N.to_nat nBytes) 0 [].

(** encoding/binary: [BigEndian.UintN], [LittleEndian.UintN] on [k] bytes; panic
    on shorter slices. *)
Definition be_val (l : list N) : N := fold_left (fun a v => a * 256 + v)%N l 0%N.
Definition beUint (k : nat) (bs : list N) : outcome merr N :=
  if List.length bs <? k then Panic else Ok (be_val (firstn k bs)).
Definition leUint (k : nat) (bs : list N) : outcome merr N :=
  if List.length bs <? k then Panic else Ok (be_val (rev (firstn k bs))).

(** int8, int32, int64 of the unsigned value of the same width *)
Definition signed (bits : Z) (v : N) : Z :=
  let z := Z.of_N v in if (z <? 2 ^ (bits - 1))%Z then z else (z - 2 ^ bits)%Z.

(** record_manager.go 157-190 and 193-227: the switch, with [U k] the reader of
    k-byte integers in the byte order.  [float16.Frombits] is a uint16 type, so
    [float64(val)] in 181 and 218 converts the bit pattern as an integer. *)
Definition convertSwitch (U : nat -> list N -> outcome merr N) (bs : list N) (dte : datatype) : outcome merr f64 :=
  match dte with
  | UBYTE => match bs with v :: _ => Ok (f_of_Z (Z.of_N v)) | [] => Panic end
  | SBYTE => match bs with v :: _ => Ok (f_of_Z (signed 8 v)) | [] => Panic end
  | UWORD => v <- U 4 bs ;; Ok (f_of_Z (Z.of_N v))
  | SWORD => v <- U 4 bs ;; Ok (f_of_Z (signed 32 v))
  | ULONG => v <- U 8 bs ;; Ok (f_of_Z (Z.of_N v))
  | SLONG => v <- U 8 bs ;; Ok (f_of_Z (signed 64 v))
  | AUint64 => v <- U 8 bs ;; Ok (f_of_Z (Z.of_N v))
  | AInt64 => v <- U 8 bs ;; Ok (f_of_Z (signed 64 v))
  | Float16Ieee => v <- U 2 bs ;; Ok (f_of_Z (Z.of_N v))
  | Float32Ieee => v <- U 4 bs ;; Ok (widen (float_of_bits 23 8 (Z.of_N v)))
  | Float64Ieee => v <- U 8 bs ;; Ok (float_of_bits 52 11 (Z.of_N v))
  | DUndef => Err MType
  end%nat.

(** record_manager.go 138-234 *)
Definition convertByteSliceToDatatype (cx : memctx) (bs : list N) (dte : datatype) : outcome merr f64 :=
  if (List.length bs =? 0) || (N.of_nat (List.length bs) * 8 <? GetDatatypeLength dte)%N then Err MShort
  else
    match cx_order cx with
    | MsbFirstMswLast | MsbLastMswFirst => Err MOrder
    | o =>
        if negb (cx_orderSet cx) then convertSwitch (fun k => beUint k) bs dte
        else match o with
             | BigEndian | MsbFirst => convertSwitch (fun k => beUint k) bs dte
             | LittleEndian | MsbLast => convertSwitch (fun k => leUint k) bs dte
             | _ => Err MOrder
             end
    end.

(** record_manager.go 103-132 *)
Definition convertStringToUint32Address (cx : memctx) (str : bytes) : outcome merr N :=
  match hex_decode (replace_all str (b "0x") []) with
  | None => Err MText
  | Some bs =>
      match cx_order cx with
      | MsbFirstMswLast | MsbLastMswFirst => Err MOrder
      | o =>
          if negb (cx_orderSet cx) then beUint 4 bs
          else match o with
               | BigEndian | MsbFirst => beUint 4 bs
               | _ => leUint 4 bs
               end
      end
  end.

(** ** Reading the components of a record layout

    The functions are parameterised by [gb], the function used to fetch bytes;
    the program is the instance [gb := getBytes].  They return the value and
    the new position [*curPos]. *)
Section Read.
  Variable gb : memctx -> N -> N -> outcome merr (list N).
  Variable cx : memctx.
  Variable rl : alignments.

  (** calib_data.go 709-716 *)
  Definition getValue (curPos : N) (dte : datatype) : outcome merr (list N) :=
    a <- getNextAlignedAddress cx curPos dte rl ;;
    gb cx a (GetDatatypeLength dte).

  (** A component of a record layout with a data type (DIST_OP_X, NO_AXIS_PTS_X,
      ...): [Datatype], [DatatypeSet]. *)
  Record component := Comp { c_type : datatype; c_set : bool }.

  (** distOp.go 11-29 and the copies of it for the five axes, no_axis_pts.go,
      no_rescale_x.go, offsetOp.go, shiftOp.go *)
  Definition getInt (c : component) (curPos : N) : outcome merr Z * N :=
    if negb (c_set c) then (Err MUnset, curPos)
    else
      match getValue curPos (c_type c) with
      | Ok bs =>
          match convertByteSliceToDatatype cx bs (c_type c) with
          | Ok v => (Ok (int64_of v), u32 (curPos + GetDatatypeLength (c_type c)))
          | Err e => (Err e, curPos)
          | Panic => (Panic, curPos)
          end
      | Err e => (Err e, curPos)
      | Panic => (Panic, curPos)
      end.

  (** identification.go 12-25 *)
  Definition getIdentification (c : component) (curPos : N) : outcome merr (list N) * N :=
    if negb (c_set c) then (Err MUnset, curPos)
    else
      match getValue curPos (c_type c) with
      | Ok bs => (Ok bs, u32 (curPos + GetDatatypeLength (c_type c)))
      | Err e => (Err e, curPos)
      | Panic => (Panic, curPos)
      end.

  (** reserved.go 12-21 *)
  Definition getReserved (size : datasize) (set : bool) (curPos : N) : outcome merr unit * N :=
    if negb set then (Err MUnset, curPos) else (Ok tt, u32 (curPos + GetDataSizeLength size)).

  (** axis_pts.go 37-49 (and the copies for the other axes): the loop *)
  Fixpoint axisLoop (n : nat) (dte : datatype) (val : list f64) (curPos : N) : outcome merr (list f64) * N :=
    match n with
    | O => (Ok val, curPos)
    | S n' =>
        match getValue curPos dte with
        | Ok bs =>
            match convertByteSliceToDatatype cx bs dte with
            | Ok v => axisLoop n' dte (val ++ [v]) (u32 (curPos + GetDatatypeLength dte))
            | Err e => (Err e, curPos)
            | Panic => (Panic, curPos)
            end
        | Err e => (Err e, curPos)
        | Panic => (Panic, curPos)
        end
    end.

  (** axis_pts.go 15-52: [fix] is FIX_NO_AXIS_PTS_X when set, [no] the value of
      NO_AXIS_PTS_X. *)
  Definition getAxisPoints (fix_ : option N) (no : Z) (dte : datatype) (curPos : N) : outcome merr (list f64) * N :=
    match fix_ with
    | Some n => axisLoop (N.to_nat n) dte [] curPos
    | None =>
        if (no <=? 0)%Z then (Err MCount, curPos)
        else axisLoop (Z.to_nat no) dte [] curPos
    end.

  (** fnc_values.go 11-29 *)
  Definition getFncValues1D (dte : datatype) (curPos : N) : outcome merr f64 * N :=
    match getValue curPos dte with
    | Ok bs =>
        match convertByteSliceToDatatype cx bs dte with
        | Ok v => (Ok v, u32 (curPos + GetDatatypeLength dte))
        | Err e => (Err e, curPos)
        | Panic => (Panic, curPos)
        end
    | Err e => (Err e, curPos)
    | Panic => (Panic, curPos)
    end.
End Read.
