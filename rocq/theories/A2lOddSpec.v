(** Exactly what the objects are read as that do not follow the rules in
    A2lExactSpec.v ([special]). *)
From Coq Require Import String Ascii List Arith NArith ZArith Bool SpecFloat.
From Verif Require Import GoBase A2lIR A2lTokens A2lGrammar A2lForms A2lExactSpec.
Import ListNotations.
Local Open Scope string_scope.
Local Open Scope list_scope.

(** what remains to be read of a table: parameters, or rows *)
Inductive phase := Params (ps : list param) | Rows (r : nat).

(** the number of rows for the number in the file *)
Definition limit (n : Z) : nat := if (n =? 0)%Z then Z.to_nat 65536 else Z.to_nat n.

Section Odd.
  Variable toks : list bytes.
  Variable pf : bytes -> option spec_float.
  Notation tok := (tok toks).
  Notation fits := (fits pf).
  Notation reads := (reads toks pf).

  Section Rounds.
    Context {A : Type}.
    Variable own : string -> nat -> val -> nat -> Prop.
    Variable its : list item.
    Variable stop : string.
    (** [word a i o a' j o']: in state [a], the words behind token [i] up to token
        [j] are read together, and turn [o] into [o'] *)
    Variable word : A -> nat -> fields -> A -> nat -> fields -> Prop.

    (** words, and keywords with their objects, in any order *)
    Inductive rounds : A -> nat -> fields -> A -> nat -> fields -> Prop :=
      | ro_end : forall a i o, rounds a i o a i o
      | ro_word : forall a i o a1 i1 o1 a2 i2 o2, plain its stop (tok (S i)) -> word a i o a1 i1 o1 -> rounds a1 i1 o1 a2 i2 o2 -> rounds a i o a2 i2 o2
      | ro_item : forall a i o kw f p sub v k a2 i2 o2, In (Item kw f p sub) its -> tok (S i) = b kw -> reads own sub (S i) v k ->
          rounds a k (place_in p f v o) a2 i2 o2 -> rounds a i o a2 i2 o2.

    (** up to the end keyword *)
    Definition object (cs : list (string * const)) (a : A) (i : nat) (v : val) (j : nat) : Prop :=
      exists a' i' o, rounds a i [] a' i' o /\ tok (S i') = b stop /\ v = VObj (consts cs o) /\ j = S i'.
  End Rounds.

  Definition isWord (t : bytes) : Prop := t <> [] /\ isKeyword t = false.

  (** the words of a row: only the first one is looked at *)
  Definition cell (ty : ptype) (t : bytes) (v : val) : Prop :=
    match ty with
    | Number n => readNum pf n t = Some v
    | _ => v = VStr t
    end.
  Inductive cells : list param -> nat -> list val -> Prop :=
    | ce_nil : forall i, cells [] i []
    | ce_cons : forall p ps i v vs, cell (p_type p) (tok i) v -> cells ps (S i) vs -> cells (p :: ps) i (v :: vs).
  Definition aRow (cols : list param) (i : nat) (vs : list val) : Prop :=
    isWord (tok (S i)) /\ i + length cols < length toks /\ cells cols (S i) vs.

  (** *** COMPU_TAB, COMPU_VTAB, COMPU_VTAB_RANGE: parameters, the last of them the
      number of rows, then the rows; the last row sets the flags *)
  Inductive table (cols : list param) : phase -> nat -> fields -> phase -> nat -> fields -> Prop :=
    | ta_param : forall p q ps i o v, fits (p_type p) (tok (S i)) v -> table cols (Params (p :: q :: ps)) i o (Params (q :: ps)) (S i) (store true o (p, v))
    | ta_count : forall p i o n, fits (p_type p) (tok (S i)) (VInt n) -> table cols (Params [p]) i o (Rows (limit n)) (S i) (store true o (p, VInt n))
    | ta_row : forall r i o vs, aRow cols i vs -> table cols (Rows (S r)) i o (Rows r) (i + length cols) (stores (r =? 0)%nat cols vs o)
    | ta_surplus : forall i o, isWord (tok (S i)) -> table cols (Rows 0) i o (Rows 0) (S i) o.

  (** *** VAR_FORBIDDEN_COMB: any number of rows *)
  Inductive pairs (cols : list param) : unit -> nat -> fields -> unit -> nat -> fields -> Prop :=
    | pa_row : forall i o vs, aRow cols i vs -> tok (i + length cols) <> [] -> pairs cols tt i o tt (i + length cols) (stores false cols vs o).

  (** *** MEMORY_LAYOUT: parameters, then words that are skipped *)
  Inductive inTurn : list param -> nat -> fields -> list param -> nat -> fields -> Prop :=
    | tu_param : forall p ps i o v, fits (p_type p) (tok (S i)) v -> inTurn (p :: ps) i o ps (S i) (store true o (p, v))
    | tu_surplus : forall i o, isWord (tok (S i)) -> inTurn [] i o [] (S i) o.

  (** *** OVERWRITE: two keywords are stored themselves, the words behind them are
      taken for parameters *)
  Definition stored : list (string * string) := [("CONVERSION", "conversion"); ("INPUT_QUANTITY", "inputQuantity")].
  Inductive overwrites : list param -> nat -> fields -> list param -> nat -> fields -> Prop :=
    | ow_turn : forall ps i o ps' j o', inTurn ps i o ps' j o' -> overwrites ps i o ps' j o'
    | ow_keyword : forall ps i o kw f, In (kw, f) stored -> tok (S i) = b kw -> overwrites ps i o ps (S i) (fset f (VStr (b kw)) o).

  (** *** VARIANT_CODING: the first word is taken for the keyword VAR_SEPARATOR *)
  Inductive separates (own : string -> nat -> val -> nat -> Prop) : bool -> nat -> fields -> bool -> nat -> fields -> Prop :=
    | se_first : forall i o v k, isWord (tok (S i)) -> reads own varSeparatorForm (S i) v k ->
        separates own false i o true k (fset "varSeparatorSet" (VBool true) (fset "varSeparator" v o))
    | se_surplus : forall i o, isWord (tok (S i)) -> separates own true i o true (S i) o.

  (** *** FRAME: every word is stored as the name *)
  Inductive names : unit -> nat -> fields -> unit -> nat -> fields -> Prop :=
    | na_word : forall i o, isWord (tok (S i)) -> names tt i o tt (S i) (fset "name" (VStr (tok (S i))) o).

  (** *** BIT_OPERATION: an object after an unexpected keyword makes up for it *)
  Inductive bits (own : string -> nat -> val -> nat -> Prop) (its : list item) (stop : string) : bool -> nat -> fields -> bool -> nat -> fields -> Prop :=
    | bi_end : forall e i o, bits own its stop e i o e i o
    | bi_word : forall e i o e' j o', isWord (tok (S i)) -> plain its stop (tok (S i)) -> bits own its stop e (S i) o e' j o' -> bits own its stop e i o e' j o'
    | bi_keyword : forall e i o e' j o', isKeyword (tok (S i)) = true -> plain its stop (tok (S i)) -> bits own its stop true (S i) o e' j o' ->
        bits own its stop e i o e' j o'
    | bi_item : forall e i o kw f p sub v k e' j o', In (Item kw f p sub) its -> tok (S i) = b kw -> reads own sub (S i) v k ->
        bits own its stop false k (place_in p f v o) e' j o' -> bits own its stop e i o e' j o'.

  (** No special objects inside; the special object inside VARIANT_CODING. *)
  Definition noOwn (stop : string) (i : nat) (v : val) (j : nat) : Prop := False.
  Definition forbidden (i : nat) (v : val) (j : nat) : Prop :=
    match varForbiddenCombForm with
    | Block _ _ (Free cols) its stop cs => object noOwn its stop (pairs cols) cs tt i v j
    | _ => False
    end.
  Definition someOwn (stop : string) (i : nat) (v : val) (j : nat) : Prop := stop = "/end VAR_FORBIDDEN_COMB" /\ forbidden i v j.

  Definition tableObject (f : form) (i : nat) (v : val) (j : nat) : Prop :=
    match f with
    | Block _ ps (Counted _ cols) its stop cs => object noOwn its stop (table cols) cs (Params ps) i v j
    | _ => False
    end.
  Definition plainObject (f : form) (i : nat) (v : val) (j : nat) : Prop :=
    match f with Block _ ps _ its stop cs => object noOwn its stop inTurn cs ps i v j | _ => False end.
  Definition overwriteObject (f : form) (i : nat) (v : val) (j : nat) : Prop :=
    match f with Block _ ps _ its stop cs => object noOwn its stop overwrites cs ps i v j | _ => False end.
  Definition variantObject (f : form) (i : nat) (v : val) (j : nat) : Prop :=
    match f with Block _ _ _ its stop cs => object someOwn its stop (separates someOwn) cs false i v j | _ => False end.
  Definition frameObject (f : form) (i : nat) (v : val) (j : nat) : Prop :=
    match f with
    | Block _ _ _ its stop _ => exists i' o, rounds noOwn its stop names tt i [] tt i' o /\ (tok (S i') = b stop \/ tok (S i') = [])
                                  /\ v = VObj o /\ j = Nat.min (S i') (length toks - 1)
    | _ => False
    end.
  Definition bitObject (f : form) (i : nat) (v : val) (j : nat) : Prop :=
    match f with
    | Block _ _ _ its stop _ => exists i' o, bits noOwn its stop false i [] false i' o /\ tok (S i') = b stop /\ v = VObj o /\ j = S i'
    | _ => False
    end.

  (** [odd stop i v j]: the special object with this end keyword whose first keyword
      is token [i] is read as [v]; its last token is token [j]. *)
  Inductive odd : string -> nat -> val -> nat -> Prop :=
    | od_tab : forall i v j, tableObject compuTabForm i v j -> odd "/end COMPU_TAB" i v j
    | od_vtab : forall i v j, tableObject compuVtabForm i v j -> odd "/end COMPU_VTAB" i v j
    | od_range : forall i v j, tableObject compuVtabRangeForm i v j -> odd "/end COMPU_VTAB_RANGE" i v j
    | od_comb : forall i v j, forbidden i v j -> odd "/end VAR_FORBIDDEN_COMB" i v j
    | od_layout : forall i v j, plainObject memoryLayoutForm i v j -> odd "/end MEMORY_LAYOUT" i v j
    | od_overwrite : forall i v j, overwriteObject overwriteRead i v j -> odd "/end OVERWRITE" i v j
    | od_variant : forall i v j, variantObject variantCodingRead i v j -> odd "/end VARIANT_CODING" i v j
    | od_frame : forall i v j, frameObject frameRead i v j -> odd "/end FRAME" i v j
    | od_bit : forall i v j, bitObject bitOperationForm i v j -> odd "/end BIT_OPERATION" i v j.
End Odd.
