(** What any token list contains that is read without an error: the objects that
    stand in a module, a project or a file, in their order, with their positions;
    and what is to be found under a name.  TreeSpec.v says the same of words that
    follow the grammar. *)
From Coq Require Import String Ascii List Arith NArith ZArith Bool SpecFloat.
From Verif Require Import GoBase A2lIR A2lTokens A2lGrammar A2lForms A2lExactSpec A2lExactProps A2lOddSpec LookModel.
Import ListNotations.

(** An object: its keyword, the position of the keyword, and what it is read as. *)
Record member := Member { m_kw : string; m_at : nat; m_val : val }.

Definition partsOf (f : form) : list item := match f with Block _ _ _ its _ _ => its | _ => [] end.
Definition stopOf (f : form) : string := match f with Block _ _ _ _ stop _ => stop | _ => "" end.

Section Contents.
  Variable toks : list bytes.
  Variable pf : bytes -> option spec_float.

  (** Between token [i] and token [j] (inclusive) stand the objects [l] and any other
      words that are no keywords. *)
  Inductive contents (its : list item) : nat -> nat -> list member -> Prop :=
  | co_end : forall i, contents its i i []
  | co_word : forall i j l, tok toks (S i) <> [] -> isKeyword (tok toks (S i)) = false -> contents its (S i) j l -> contents its i j l
  | co_item : forall kw f p sub i v k j l, In (Item kw f p sub) its -> tok toks (S i) = b kw -> reads toks pf (odd toks pf) sub (S i) v k ->
      contents its k j l -> contents its i j (Member kw (S i) v :: l).

  (** The object of form [f] whose keyword is token [i] contains [l]. *)
  Definition holdsAt (f : form) (i : nat) (l : list member) : Prop :=
    exists j, contents (partsOf f) i j l /\ tok toks (S j) = b (stopOf f).

  (** From token [i] to the end of the file. *)
  Inductive fileHolds : nat -> list member -> Prop :=
  | fh_end : forall i, tok toks i = [] -> fileHolds i []
  | fh_word : forall i l, tok toks i <> [] -> isKeyword (tok toks i) = false -> fileHolds (S i) l -> fileHolds i l
  | fh_item : forall i kw f sub v k l, In (kw, (f, sub)) topItems -> tok toks i = b kw -> reads toks pf (odd toks pf) sub i v k ->
      fileHolds (S k) l -> fileHolds i (Member kw i v :: l).
End Contents.

(** [x] is the last one with property [P]. *)
Definition lastOf {A} (P : A -> Prop) (l : list A) (x : A) : Prop :=
  exists l1 l2, l = l1 ++ x :: l2 /\ P x /\ Forall (fun y => ~ P y) l2.

(** The kinds of objects that are looked up, with the field that holds the name. *)
Definition lookedUp : list (string * (string * (val -> object val))) :=
  [("/begin AXIS_PTS", ("name", @AxisPts val)); ("/begin CHARACTERISTIC", ("Name", @Characteristic val));
   ("/begin COMPU_METHOD", ("Name", @CompuMethodO val)); ("/begin COMPU_TAB", ("Name", @CompuTabO val));
   ("/begin COMPU_VTAB", ("Name", @CompuVTabO val)); ("/begin COMPU_VTAB_RANGE", ("Name", @CompuVTabRangeO val));
   ("/begin FUNCTION", ("name", @Function_ val)); ("/begin GROUP", ("groupName", @Group_ val));
   ("/begin MEASUREMENT", ("name", @Measurement val)); ("/begin RECORD_LAYOUT", ("Name", @RecordLayout val));
   ("/begin UNIT", ("name", @Unit_ val))]%string.
Definition called (kw key : string) (k : bytes) (m : member) : Prop := m_kw m = kw /\ keyOf key (m_val m) = k.
Definition ofKind (kw : string) (m : member) : Prop := m_kw m = kw.

(** a2l/system_constant.go 9-14 *)
Definition constant (v : val) : systemConstant :=
  match v with VObj o => SysConst (fstr "Name" o) (fstr "Value" o) (fbool "ValueSet" o) | _ => SysConst [] [] false end.

(** What a module with the objects [l] has under the name [k]: of each kind the last
    object with this name, and the last system constant of the last MOD_PAR. *)
Inductive listed (toks : list bytes) (pf : bytes -> option spec_float) (l : list member) (k : bytes) : object val -> Prop :=
| li_object : forall kw key mk m, In (kw, (key, mk)) lookedUp -> lastOf (called kw key k) l m -> listed toks pf l k (mk (m_val m))
| li_constant : forall p l' c, lastOf (ofKind "/begin MOD_PAR") l p -> holdsAt toks pf modParRead (m_at p) l' ->
    lastOf (called "SYSTEM_CONSTANT" "Name" k) l' c -> listed toks pf l k (SystemConstantO (constant (m_val c))).

(** The [n]th module of the last project of the file begins at token [i]. *)
Definition moduleAt (toks : list bytes) (pf : bytes -> option spec_float) (n i : nat) : Prop :=
  exists lf p lp q, fileHolds toks pf 0 lf /\ lastOf (ofKind "/begin PROJECT") lf p /\ holdsAt toks pf projectExact (m_at p) lp /\
    nth_error (filter (fun x => String.eqb (m_kw x) "/begin MODULE") lp) n = Some q /\ m_at q = i.
