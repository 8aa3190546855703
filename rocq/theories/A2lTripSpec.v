(** Writing A2L files, and what they describe. *)
From Coq Require Import String Ascii List Arith NArith Bool.
From Verif Require Import GoBase HexSpec A2lIR A2lGrammar A2lForms.
From Verif Require TokSpec.
Import ListNotations.

(** ** Tokens and text *)

(** A token that stands in the text as it is: a visible word, a begin or end with
    its keyword, a text in quotation marks with single blanks.  No backslashes. *)
Inductive writable : bytes -> Prop :=
| wr_word : forall w, TokSpec.word w -> TokSpec.plain w -> ~ In TokSpec.BS w -> writable w
| wr_pair : forall x w, x = b "/begin" \/ x = b "/end" -> TokSpec.word w -> ~ In TokSpec.BS w -> writable (x ++ b " " ++ w)
| wr_text : forall ws s, Forall TokSpec.word ws -> TokSpec.unwords ws = TokSpec.QM :: s ++ [TokSpec.QM] ->
    ~ In TokSpec.QM s -> ~ In TokSpec.BS s -> writable (TokSpec.QM :: s ++ [TokSpec.QM]).

(** One token on each line. *)
Definition write (ts : list bytes) : bytes := join [LF] ts.

(** ** The file *)

(** A file is a sequence of versions and projects; [project] is the form of a project. *)
Definition fileItems (project : form) : list item :=
  [Item "ASAP2_VERSION" "Asap2Version" Single asap2VersionForm;
   Item "A2ML_VERSION" "A2mlVersion" Single a2mlVersionForm;
   Item "/begin PROJECT" "Project" Single project]%string.
Definition describes (pf : bytes -> option SpecFloat.spec_float) (project : form) (ts : list bytes) (a : fields) : Prop :=
  parts pf (fileItems project) "" ts [] a.

(** Number of modules *)
Definition moduleCount (ts : list bytes) : N := N.of_nat (count_occ (list_eq_dec ascii_dec) ts (b "/begin MODULE")).

(** ** What two forms have in common

    [meet f g]: the parameters that both accept and store in the same way, the keywords that
    both have, with what they have in common. *)
Definition howEqb (x y : how) : bool :=
  match x, y with
  | One, One | Append, Append | Concat, Concat | Nowhere, Nowhere => true
  | Copies n, Copies m => Nat.eqb n m
  | _, _ => false
  end.
Definition optEqb (x y : option string) : bool :=
  match x, y with Some s, Some t => String.eqb s t | None, None => true | _, _ => false end.
Definition numEqb (x y : num) : bool :=
  match x, y with NUint n, NUint m | NInt n, NInt m => (n =? m)%N | NFloat, NFloat => true | _, _ => false end.
Definition constEqb (x y : const) : bool :=
  match x, y with CTrue, CTrue => true | CText s, CText t => String.eqb s t | _, _ => false end.
Definition placeEqb (x y : place) : bool :=
  match x, y with Single, Single | Several, Several => true | Under s, Under t => String.eqb s t | _, _ => false end.
Fixpoint listEqb {A} (eqb : A -> A -> bool) (l m : list A) : bool :=
  match l, m with
  | [], [] => true
  | x :: l', y :: m' => eqb x y && listEqb eqb l' m'
  | _, _ => false
  end.
Definition fixedEqb (x y : string * const) : bool := String.eqb (fst x) (fst y) && constEqb (snd x) (snd y).

Definition free (s : string) : bool := negb (reserved (b s)).
Definition meetType (t u : ptype) : option ptype :=
  match t, u with
  | Text, Text => Some Text
  | Any, Any => Some Any
  | Number n, Number m => if numEqb n m then Some (Number n) else None
  | Choice l, Choice m => Some (Choice (filter (fun s => existsb (String.eqb s) m) l))
  | Choice l, Text | Text, Choice l => Some (Choice (filter free l))
  | _, _ => None
  end.
Definition meetParam (p q : param) : option param :=
  if howEqb (p_how p) (p_how q) && String.eqb (p_field p) (p_field q) && optEqb (p_flag p) (p_flag q)
  then option_map (Param (p_how p) (p_field p) (p_flag p)) (meetType (p_type p) (p_type q)) else None.
Fixpoint meetParams (ps qs : list param) : option (list param) :=
  match ps, qs with
  | [], [] => Some []
  | p :: ps', q :: qs' =>
      match meetParam p q, meetParams ps' qs' with Some r, Some rs => Some (r :: rs) | _, _ => None end
  | _, _ => None
  end.
Definition meetGroup (g h : group) : option group :=
  match g, h with
  | NoGroup, NoGroup => Some NoGroup
  | Free ps, Free qs => option_map Free (meetParams ps qs)
  | Counted c ps, Counted d qs => if String.eqb c d then option_map (Counted c) (meetParams ps qs) else None
  | _, _ => None
  end.
Fixpoint meet (f g : form) {struct f} : option form :=
  match f, g with
  | Value t, Value u => option_map Value (meetType t u)
  | Fixed ps cs, Fixed qs ds =>
      if listEqb fixedEqb cs ds then option_map (fun rs => Fixed rs cs) (meetParams ps qs) else None
  | Ahead ps ps' cs ns, Ahead qs qs' ds ms =>
      if listEqb fixedEqb cs ds && listEqb String.eqb ns ms then
        match meetParams ps qs, meetParams ps' qs' with Some rs, Some rs' => Some (Ahead rs rs' cs ns) | _, _ => None end
      else None
  | Block maps ps g its stop cs, Block maps' qs h its' stop' ds =>
      if listEqb String.eqb maps maps' && String.eqb stop stop' && listEqb fixedEqb cs ds then
        match meetParams ps qs, meetGroup g h with
        | Some rs, Some k =>
            Some (Block maps rs k
              (flat_map (fun x => match x with Item kw f p sub =>
                 flat_map (fun y => match y with Item kw' f' p' sub' =>
                   if String.eqb kw kw' && String.eqb f f' && placeEqb p p' then
                     match meet sub sub' with Some s => [Item kw f p s] | None => [] end
                   else [] end) its' end) its) stop cs)
        | _, _ => None
        end
      else None
  | _, _ => None
  end.

(** A project with only what the parsers read as ASAP2 requires. *)
Definition plainProject : form := match meet projectForm projectRead with Some f => f | None => Value (Choice []) end.
