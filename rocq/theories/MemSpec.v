(** Specification of memory access: ASAP2 sizes, alignments, encodings. *)
From Coq Require Import String Ascii List Arith NArith ZArith Bool Floats.SpecFloat.
From Verif Require Import GoBase HexSpec FloatSpec MemModel.
Import ListNotations.

(** ** Consecutive bytes *)

(** [bs] are the bytes of the map at [a], [a+1], ... (addresses modulo 2^32) *)
Fixpoint bytes_at (hex : gomap) (a : N) (bs : list N) : Prop :=
  match bs with
  | [] => True
  | v :: bs' => lookup (a mod 2 ^ 32) hex = Some v /\ bytes_at hex (a + 1) bs'
  end.

(** ** Alignment *)

Definition aligned_up (a border r : N) : Prop :=
  (a <= r)%N /\ (border | r)%N /\ forall r', (a <= r')%N -> (border | r')%N -> (r <= r')%N.

(** Which alignment governs a data type, and the ASAP2 default border *)
Definition governing (d : datatype) : option ((alignments -> alignment) * N) :=
  match d with
  | UBYTE | SBYTE => Some (AlignmentByte, 1)
  | UWORD | SWORD => Some (AlignmentWord, 2)
  | ULONG | SLONG => Some (AlignmentLong, 4)
  | AUint64 | AInt64 => Some (AlignmentInt64, 8)
  | Float16Ieee => Some (AlignmentFloat16Ieee, 2)
  | Float32Ieee => Some (AlignmentFloat32Ieee, 4)
  | Float64Ieee => Some (AlignmentFloat64Ieee, 8)
  | DUndef => None
  end%N.

(** The border in force: that of the record layout if it has one, else that of
    MOD_COMMON if it has one, else the default. *)
Inductive in_force (rl common : alignments) (d : datatype) : N -> Prop :=
| from_layout : forall get dflt, governing d = Some (get, dflt) ->
    AlignmentBorderSet (get rl) = true -> in_force rl common d (AlignmentBorder (get rl))
| from_common : forall get dflt, governing d = Some (get, dflt) ->
    AlignmentBorderSet (get rl) = false -> AlignmentBorderSet (get common) = true ->
    in_force rl common d (AlignmentBorder (get common))
| from_default : forall get dflt, governing d = Some (get, dflt) ->
    AlignmentBorderSet (get rl) = false -> AlignmentBorderSet (get common) = false ->
    in_force rl common d dflt.

(** ** Encodings *)

(** ASAP2 size in bytes *)
Definition size_bytes (d : datatype) : nat :=
  match d with
  | UBYTE | SBYTE => 1
  | UWORD | SWORD | Float16Ieee => 2
  | ULONG | SLONG | Float32Ieee => 4
  | AUint64 | AInt64 | Float64Ieee => 8
  | DUndef => 0
  end.

(** the [k] bytes of [v], most significant first if [big] *)
Fixpoint le_bytes (k : nat) (v : N) : list N :=
  match k with O => [] | S k' => (v mod 256)%N :: le_bytes k' (v / 256) end.
Definition encode (big : bool) (k : nat) (v : N) : list N :=
  if big then rev (le_bytes k v) else le_bytes k v.

(** two's complement of [z] in [k] bytes *)
Definition twos (k : nat) (z : Z) : N := Z.to_N (z mod 2 ^ (8 * Z.of_nat k)).

Definition in_range (sgnd : bool) (k : nat) (z : Z) : Prop :=
  if sgnd then (- 2 ^ (8 * Z.of_nat k - 1) <= z < 2 ^ (8 * Z.of_nat k - 1))%Z
  else (0 <= z < 2 ^ (8 * Z.of_nat k))%Z.

(** [Some true] signed, [Some false] unsigned integer type *)
Definition int_type (d : datatype) : option bool :=
  match d with
  | UBYTE | UWORD | ULONG | AUint64 => Some false
  | SBYTE | SWORD | SLONG | AInt64 => Some true
  | _ => None
  end.

(** The byte order of the module: given by BYTE_ORDER, big endian without it. *)
Inductive ordered (cx : memctx) : bool -> Prop :=
| order_none : cx_orderSet cx = false -> cx_order cx = BUndef -> ordered cx true
| order_big : cx_orderSet cx = true -> cx_order cx = BigEndian \/ cx_order cx = MsbFirst -> ordered cx true
| order_little : cx_orderSet cx = true -> cx_order cx = LittleEndian \/ cx_order cx = MsbLast -> ordered cx false.

(** ** IEEE 754 interchange formats

    Sign [s], biased exponent [ex] of [ew] bits, fraction [m] of [mw] bits. *)
Definition ieee_bits (mw ew : N) (s : bool) (ex m : N) : N :=
  ((if s then 2 ^ (mw + ew) else 0) + ex * 2 ^ mw + m)%N.

(** The number denoted when [ex] is not all ones, in units of 2^-1074:
    (-1)^s * m * 2^(1-bias-mw) for [ex = 0], (-1)^s * (2^mw + m) * 2^(ex-bias-mw) otherwise *)
Definition ieee_value (mw ew : N) (s : bool) (ex m : N) : Z :=
  let bias := (2 ^ (Z.of_N ew - 1) - 1)%Z in
  ((if s then -1 else 1) *
   (if (ex =? 0)%N then Z.of_N m * 2 ^ (1 - bias - Z.of_N mw + 1074)
    else (2 ^ Z.of_N mw + Z.of_N m) * 2 ^ (Z.of_N ex - bias - Z.of_N mw + 1074)))%Z.

(** ** Address texts *)

(** the number denoted by the digits *)
Definition number (bs : list N) : N := fold_left (fun a v => 256 * a + v)%N bs 0%N.
