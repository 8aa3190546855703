(** A notation for the syntax of ASAP2 objects and its meaning: which tokens
    describe which object.

    A form is written down per object kind in A2lForms.v; it says nothing about
    how tokens are read. *)
From Coq Require Import String Ascii List Arith ZArith Bool SpecFloat.
From Verif Require Import GoBase A2lIR A2lTokens A2lSpec.
Import ListNotations.

(** ** Syntax *)

(** What may stand for one parameter. *)
Inductive ptype :=
  | Text                              (* any word that is not a keyword *)
  | Any                               (* any word but the end keyword of the object *)
  | Number (n : num)
  | Choice (texts : list string).     (* one of these words *)

(** Where it is stored: in the field, at the end of the list in the field,
    behind a blank at the end of the text in the field, [n] times in the field,
    or nowhere. *)
Inductive how := One | Append | Concat | Copies (n : nat) | Nowhere.

(** A parameter; [p_flag] is the field that records its presence. *)
Record param := Param { p_how : how; p_field : string; p_flag : option string; p_type : ptype }.

(** How the object of a keyword is stored: in the field, at the end of the list
    in the field, or in the map in the field under its own field [key]. *)
Inductive place := Single | Several | Under (key : string).

(** Parameters that are repeated, after the other parameters: any number of
    times, or as often as the field [count] says; in the second case the flags
    are set with the last repetition. *)
Inductive group := NoGroup | Free (ps : list param) | Counted (count : string) (ps : list param).

Inductive const := CTrue | CText (s : string).

Inductive form :=
  | Value (t : ptype)                                      (* KEYWORD x, the object is the parameter *)
  | Fixed (ps : list param) (cs : list (string * const))   (* KEYWORD x1 ... xn; cs are fixed fields *)
  (* KEYWORD x1 ... xn and repetitions; ends before one of the words [nexts], or any keyword if there are none *)
  | Ahead (ps gs : list param) (cs : list (string * const)) (nexts : list string)
  | Block (maps : list string) (ps : list param) (g : group) (its : list item) (stop : string) (cs : list (string * const))
with item := Item (kw : string) (f : string) (p : place) (sub : form).

Definition P (f g : string) (t : ptype) : param := Param One f (Some g) t.

(** ** Meaning *)

(** Words that introduce or end something in ASAP2: those the parser knows as
    keywords, and four that it does not. *)
Definition unlisted : list string := ["FIX_AXIS_PAR"; "READ_ONLY"; "READ_WRITE"; "RESERVED"]%string.
Definition reserved (t : bytes) : bool := isKeyword t || existsb (fun k => beqb t (b k)) unlisted.

Section Meaning.
  Variable pf : bytes -> option spec_float.

  (** the word [t] stands for the value [v] *)
  Definition stands (stop : string) (ty : ptype) (t : bytes) (v : val) : Prop :=
    t <> [] /\
    match ty with
    | Text => reserved t = false /\ v = VStr t
    | Any => t <> b stop /\ v = VStr t
    | Number n => reserved t = false /\ readNum pf n t = Some v
    | Choice texts => (exists s, In s texts /\ t = b s) /\ v = VStr t
    end.

  Definition text (v : val) : bytes := match v with VStr s => s | _ => [] end.
  Definition put (h : how) (f : string) (v : val) (o : fields) : fields :=
    match h with
    | One => fset f v o
    | Append => fset f (VList (flist f o ++ [v])) o
    | Concat => fset f (VStr (fstr f o ++ b " " ++ text v)) o
    | Copies n => fset f (VList (repeat v n)) o
    | Nowhere => o
    end.
  Definition mark (g : option string) (o : fields) : fields :=
    match g with Some g => fset g (VBool true) o | None => o end.
  (** [m]: set the flags *)
  Definition store (m : bool) (o : fields) (pv : param * val) : fields :=
    let o' := put (p_how (fst pv)) (p_field (fst pv)) (snd pv) o in if m then mark (p_flag (fst pv)) o' else o'.
  Definition stores (m : bool) (ps : list param) (vs : list val) (o : fields) : fields := fold_left (store m) (combine ps vs) o.
  Definition cval (c : const) : val := match c with CTrue => VBool true | CText s => VStr (b s) end.
  Definition consts (cs : list (string * const)) (o : fields) : fields :=
    fold_left (fun o fc => fset (fst fc) (cval (snd fc)) o) cs o.
  Definition keyOf (k : string) (v : val) : bytes := match v with VObj o => fstr k o | _ => [] end.
  Definition place_in (p : place) (f : string) (v : val) (o : fields) : fields :=
    match p with
    | Single => fset f v o
    | Several => fset f (VList (flist f o ++ [v])) o
    | Under k => fset f (VMap (mput (keyOf k v) v (fmap f o))) o
    end.
  Definition newMaps (ms : list string) : fields := fold_left (fun o f => fset f (VMap []) o) ms [].

  (** words for parameters, one word each *)
  Inductive words (stop : string) : list param -> list bytes -> list val -> Prop :=
    | w_nil : words stop [] [] []
    | w_cons : forall p ps t ts v vs, stands stop (p_type p) t v -> words stop ps ts vs -> words stop (p :: ps) (t :: ts) (v :: vs).

  (** [n] repetitions; the last one sets the flags if [m] *)
  Inductive repeats (stop : string) (m : bool) (ps : list param) : nat -> list bytes -> fields -> fields -> Prop :=
    | r_nil : forall o, repeats stop m ps 0 [] o o
    | r_cons : forall n ts ts' vs o o', words stop ps ts vs ->
        repeats stop m ps n ts' (stores (m && (n =? 0)) ps vs o) o' -> repeats stop m ps (S n) (ts ++ ts') o o'.

  Definition repeated (stop : string) (g : group) (ts : list bytes) (o o' : fields) : Prop :=
    match g with
    | NoGroup => ts = [] /\ o' = o
    | Free ps => exists n, repeats stop false ps n ts o o'
    | Counted c ps => exists n, 0 < n /\ n < 2 ^ 16 /\ fint c o = Z.of_nat n /\ repeats stop true ps n ts o o'
    end.

  (** may [t] follow an object of form [f]? *)
  Definition follows (f : form) (t : bytes) : bool :=
    match f with
    | Ahead _ _ _ [] => isKeyword t
    | Ahead _ _ _ nexts => existsb (fun s => beqb t (b s)) nexts
    | _ => true
    end.

  (** [den f ts v]: the words [ts], after the first keyword, describe [v] *)
  Inductive den : form -> list bytes -> val -> Prop :=
    | d_value : forall ty t v, stands "" ty t v -> den (Value ty) [t] v
    | d_fixed : forall ps cs ts vs, words "" ps ts vs -> den (Fixed ps cs) ts (VObj (consts cs (stores true ps vs [])))
    | d_ahead : forall ps gs cs nexts ts ts' vs o,
        words "" ps ts vs -> repeated "" (Free gs) ts' (stores true ps vs []) o ->
        den (Ahead ps gs cs nexts) (ts ++ ts') (VObj (consts cs o))
    | d_block : forall ms ps g its stop cs ts ts' ts'' vs o o',
        words stop ps ts vs ->
        repeated stop g ts' (stores true ps vs (newMaps ms)) o ->
        parts its stop ts'' o o' ->
        den (Block ms ps g its stop cs) (ts ++ ts' ++ ts'' ++ [b stop]) (VObj (consts cs o'))
  (** a sequence of keywords with their objects, in any order *)
  with parts : list item -> string -> list bytes -> fields -> fields -> Prop :=
    | p_nil : forall its stop o, parts its stop [] o o
    | p_cons : forall its stop kw f p sub ts ts' v o o',
        In (Item kw f p sub) its -> den sub ts v ->
        follows sub (hd (b stop) ts') = true ->
        parts its stop ts' (place_in p f v o) o' ->
        parts its stop (b kw :: ts ++ ts') o o'.

  (** Parser [g], called with the cursor on a word before [ts], returns [v]
      without an error and leaves the cursor on the last word of [ts] (before
      them if there are none); wherever the words stand, and whatever follows
      (that [f] allows). *)
  Definition reads (f : form) (g : fn) (ts : list bytes) (v : val) : Prop :=
    forall (before : list bytes) (first : bytes) (after : list bytes), first <> [] -> ended after -> follows f (hd [] after) = true ->
      returns (before ++ first :: ts ++ after) pf g (length before) v false (length before + length ts).
End Meaning.
