(** What the words of an A2L file say about a record layout: where its components
    are, of what type they are, how they are aligned, and in which order their
    bytes stand. *)
From Coq Require Import String Ascii List Arith NArith ZArith Bool SpecFloat.
From Verif Require Import GoBase A2lIR A2lGrammar A2lForms A2lLayoutSpec TreeSpec MemModel.
Import ListNotations.

(** [name ... /end RECORD_LAYOUT] *)
Definition layoutHas (pf : bytes -> option spec_float) (ts : list bytes) (l : list entry) : Prop :=
  exists name c, ts = name :: c ++ [b "/end RECORD_LAYOUT"] /\ entries pf (itemsOf recordLayoutRead) "/end RECORD_LAYOUT" c l.
(** ["a comment" ... /end MOD_COMMON] *)
Definition commonHas (pf : bytes -> option spec_float) (ts : list bytes) (l : list entry) : Prop :=
  exists comment c, ts = comment :: c ++ [b "/end MOD_COMMON"] /\ entries pf (itemsOf modCommonForm) "/end MOD_COMMON" c l.

(** The keyword of each of the 41 components. *)
Definition axisWords (kw c : string) : list (string * string) := map (fun x => (kw ++ "_" ++ x, c ++ x)%string) axes.
Definition componentWords : list (string * string) :=
  [("AXIS_RESCALE_X", "AxisRescaleX"); ("FNC_VALUES", "FncValues"); ("IDENTIFICATION", "Identification");
   ("NO_RESCALE_X", "NoRescaleX"); ("RESERVED", "Reserved"); ("RIP_ADDR_W", "RipAddrW")]%string ++
  flat_map (fun kc => axisWords (fst kc) (snd kc))
    [("AXIS_PTS", "AxisPts"); ("DIST_OP", "DistOp"); ("NO_AXIS_PTS", "NoAxisPts"); ("OFFSET", "Offset"); ("RIP_ADDR", "RipAddr");
     ("SHIFT_OP", "ShiftOp"); ("SRC_ADDR", "SrcAddr")]%string.

(** [KEYWORD position type ...]; the last one counts *)
Definition writtenAt (l : list entry) (c : string) (p : Z) : Prop :=
  exists kw e, In (kw, c) componentWords /\ lastSuch (isKw kw) l e /\ ParseUint 16 (hd [] (e_words e)) = Some p.
Definition writtenType (l : list entry) (c : string) (d : bytes) : Prop :=
  exists kw e t r, In (kw, c) componentWords /\ lastSuch (isKw kw) l e /\ e_words e = t :: d :: r.

(** The keyword of the alignment of a data type, and the border if there is none. *)
Definition alignmentWord (d : datatype) : option (string * N) :=
  match d with
  | UBYTE | SBYTE => Some ("ALIGNMENT_BYTE", 1)
  | UWORD | SWORD => Some ("ALIGNMENT_WORD", 2)
  | ULONG | SLONG => Some ("ALIGNMENT_LONG", 4)
  | AUint64 | AInt64 => Some ("ALIGNMENT_INT64", 8)
  | Float16Ieee => Some ("ALIGNMENT_FLOAT16_IEEE", 2)
  | Float32Ieee => Some ("ALIGNMENT_FLOAT32_IEEE", 4)
  | Float64Ieee => Some ("ALIGNMENT_FLOAT64_IEEE", 8)
  | DUndef => None
  end%string%N.
Definition says (kw : string) (l : list entry) (n : N) : Prop :=
  exists t, lastWords kw l (Some [t]) /\ ParseUint 16 t = Some (Z.of_N n).
(** [lr]: the entries of the record layout, [lc]: those of MOD_COMMON. *)
Inductive border (lr lc : list entry) (d : datatype) : N -> Prop :=
| in_layout kw n0 n : alignmentWord d = Some (kw, n0) -> says kw lr n -> border lr lc d n
| in_common kw n0 n : alignmentWord d = Some (kw, n0) -> lastWords kw lr None -> says kw lc n -> border lr lc d n
| in_none kw n0 : alignmentWord d = Some (kw, n0) -> lastWords kw lr None -> lastWords kw lc None -> border lr lc d n0.

(** The entries of the last MOD_COMMON of a module; none if there is none. *)
Definition commonOf (pf : bytes -> option spec_float) (lm lc : list entry) : Prop :=
  (exists e, lastSuch (isKw "/begin MOD_COMMON") lm e /\ commonHas pf (e_words e) lc) \/
  lastWords "/begin MOD_COMMON" lm None /\ lc = [].

(** MSB_FIRST is the order with the highest byte first; BIG_ENDIAN and
    LITTLE_ENDIAN are taken by their names. *)
Definition firstIsHigh (o : string) : option bool :=
  if existsb (String.eqb o) ["BIG_ENDIAN"; "MSB_FIRST"]%string then Some true
  else if existsb (String.eqb o) ["LITTLE_ENDIAN"; "MSB_LAST"]%string then Some false
  else None.
(** Without BYTE_ORDER: highest byte first. *)
Definition byteOrder (lc : list entry) (big : bool) : Prop :=
  (exists o, lastWords "BYTE_ORDER" lc (Some [b o]) /\ firstIsHigh o = Some big) \/ lastWords "BYTE_ORDER" lc None /\ big = true.

(** [name "a long name" type address layout ...] *)
Definition characteristicHas (ts : list bytes) (address layout : bytes) : Prop :=
  exists name long kind r, ts = name :: long :: kind :: address :: layout :: r.
