(** Exactly which tokens are read as which object.

    A2lGrammar.v says what a well-written object is, A2lAcceptSpec.v which words
    may occur in an object that is accepted.  [reads] says both, for any token
    list: parameters and keywords with their objects may be mixed in any order,
    and the object is determined by the tokens. *)
From Coq Require Import String Ascii List Arith NArith ZArith Bool SpecFloat.
From Verif Require Import GoBase A2lIR A2lTokens A2lGrammar.
Import ListNotations.
Local Open Scope string_scope.

(** Objects that do not follow the common rules: FRAME ends at the end of the
    file, BIT_OPERATION goes on after an error, OVERWRITE stores keywords,
    VARIANT_CODING takes any word for VAR_SEPARATOR, the others count their
    parameters or read several words at once. *)
Definition special : list string :=
  ["/end FRAME"; "/end BIT_OPERATION"; "/end OVERWRITE"; "/end MEMORY_LAYOUT"; "/end VAR_FORBIDDEN_COMB";
   "/end COMPU_TAB"; "/end COMPU_VTAB"; "/end COMPU_VTAB_RANGE"; "/end VARIANT_CODING"].

(** Objects in which every further word replaces the last parameter. *)
Definition sticky : list string := ["/end MEASUREMENT"; "/end TYPEDEF_MEASUREMENT"; "/end UNIT"].

Definition oneOf (s : string) (l : list string) : bool := existsb (String.eqb s) l.

(** What the words after the parameters [ps] are stored as: the repeated
    parameter, the last one again, or nothing. *)
Definition further (ps : list param) (g : group) (stop : string) : option param :=
  match g with
  | Free [p] => Some p
  | _ => if oneOf stop sticky then last (map Some ps) None else None
  end.

Section Exact.
  Variable toks : list bytes.
  Variable pf : bytes -> option spec_float.
  (** how the special objects are read *)
  Variable own : string -> nat -> val -> nat -> Prop.

  Definition tok (k : nat) : bytes := nth k toks [].

  (** the word [t] is read as the value [v] *)
  Definition fits (ty : ptype) (t : bytes) (v : val) : Prop :=
    t <> [] /\
    match ty with
    | Text => isKeyword t = false /\ v = VStr t
    | Any => v = VStr t
    | Number n => isKeyword t = false /\ readNum pf n t = Some v
    | Choice texts => isKeyword t = false /\ (exists s, In s texts /\ t = b s) /\ v = VStr t
    end.

  (** the tokens from [i] on are words for the parameters *)
  Inductive row : list param -> nat -> list val -> Prop :=
    | row_nil : forall i, row [] i []
    | row_cons : forall p ps i v vs, fits (p_type p) (tok i) v -> row ps (S i) vs -> row (p :: ps) i (v :: vs).

  (** neither the end of the object nor the beginning of one in it *)
  Definition plain (its : list item) (stop : string) (t : bytes) : Prop :=
    t <> b stop /\ forall kw f p sub, In (Item kw f p sub) its -> t <> b kw.

  (** [reads f i v j]: an object of form [f] whose keyword is token [i] is read
      as [v]; its last token is token [j]. *)
  Inductive reads : form -> nat -> val -> nat -> Prop :=
    | re_value : forall ty i v, fits ty (tok (S i)) v -> reads (Value ty) i v (S i)
    | re_fixed : forall ps cs i vs, row ps (S i) vs -> reads (Fixed ps cs) i (VObj (consts cs (stores true ps vs []))) (i + List.length ps)
    | re_ahead : forall ps gs cs nexts i j o,
        mixed [] "" ps (further ps (Free gs) "") i j [] o -> follows (Ahead ps gs cs nexts) (tok (S j)) = true ->
        reads (Ahead ps gs cs nexts) i (VObj (consts cs o)) j
    | re_block : forall ms ps g its stop cs i j o,
        ~ In stop special -> mixed its stop ps (further ps g stop) i j (newMaps ms) o -> tok (S j) = b stop ->
        reads (Block ms ps g its stop cs) i (VObj (consts cs o)) (S j)
    | re_own : forall ms ps g its stop cs i v j, In stop special -> own stop i v j -> reads (Block ms ps g its stop cs) i v j
  (** [mixed its stop ps r i j o o']: the tokens behind [i], up to [j], are words
      for the parameters [ps], further words (stored as [r]), and objects of
      [its]; they turn [o] into [o']. *)
  with mixed : list item -> string -> list param -> option param -> nat -> nat -> fields -> fields -> Prop :=
    | mi_end : forall its stop ps r i o, mixed its stop ps r i i o o
    | mi_param : forall its stop p ps r i j v o o',
        plain its stop (tok (S i)) -> fits (p_type p) (tok (S i)) v ->
        mixed its stop ps r (S i) j (store true o (p, v)) o' -> mixed its stop (p :: ps) r i j o o'
    | mi_further : forall its stop p i j v o o',
        plain its stop (tok (S i)) -> fits (p_type p) (tok (S i)) v ->
        mixed its stop [] (Some p) (S i) j (store true o (p, v)) o' -> mixed its stop [] (Some p) i j o o'
    | mi_surplus : forall its stop i j o o',
        plain its stop (tok (S i)) -> tok (S i) <> [] -> isKeyword (tok (S i)) = false ->
        mixed its stop [] None (S i) j o o' -> mixed its stop [] None i j o o'
    | mi_item : forall its stop ps r kw f p sub i v k j o o',
        In (Item kw f p sub) its -> tok (S i) = b kw -> reads sub (S i) v k ->
        mixed its stop ps r k j (place_in p f v o) o' -> mixed its stop ps r i j o o'.
End Exact.
