(** What the parsers accept. *)
From Coq Require Import String Ascii List Arith NArith ZArith Bool SpecFloat.
From Verif Require Import GoBase A2lIR A2lTokens A2lGrammar.
Import ListNotations.
Local Open Scope string_scope.

(** Objects whose words may be keywords: IF_DATA and A2ML contain text in other
    languages; BIT_OPERATION goes on after an unexpected keyword. *)
Definition foreign : list string := ["/end A2ML"; "/end IF_DATA"; "/end BIT_OPERATION"].
(** Objects with texts or numbers that are not looked at before they are stored
    or given to strconv.ParseFloat: these may be keywords, or be missing. *)
Definition unchecked : list string := ["/end COMPU_VTAB"; "/end COMPU_VTAB_RANGE"; "/end VAR_FORBIDDEN_COMB"; "/end COMPU_TAB"].
(** Keywords that are taken for parameters. *)
Definition taken : list (string * string) := [("/end OVERWRITE", "CONVERSION"); ("/end OVERWRITE", "INPUT_QUANTITY"); ("/end RECORD_LAYOUT", "NO_RESCALE_X")].

(** [t] may stand for itself in an object that ends with [stop] *)
Definition wordIn (stop : string) (t : bytes) : Prop :=
  t <> [] /\ isKeyword t = false
  \/ In stop foreign /\ t <> [] /\ t <> b stop
  \/ In stop unchecked
  \/ exists k, In (stop, k) taken /\ t = b k.

(** the last word: the end keyword; a FRAME may also be cut off by the end of the file *)
Definition endOf (stop : string) (t : bytes) : Prop := t = b stop \/ stop = "/end FRAME" /\ t = [].

Section Accepted.
  Variable pf : bytes -> option spec_float.

  Definition fits (ty : ptype) (t : bytes) : Prop :=
    t <> [] /\
    match ty with
    | Text => isKeyword t = false
    | Any => True
    | Number n => exists v, readNum pf n t = Some v
    | Choice l => exists s, In s l /\ t = b s
    end.

  (** [accepted f ts]: the words [ts] after the first keyword are an object of
      form [f], when the number and the order of the parameters do not count in objects with an end keyword *)
  Inductive accepted : form -> list bytes -> Prop :=
    | ac_value : forall ty t, fits ty t -> accepted (Value ty) [t]
    | ac_fixed : forall ps cs ts, Forall2 (fun p t => fits (p_type p) t) ps ts -> accepted (Fixed ps cs) ts
    | ac_ahead : forall ps gs cs nexts ts, Forall (fun t => t <> [] /\ isKeyword t = false) ts -> accepted (Ahead ps gs cs nexts) ts
    | ac_block : forall ms ps g its stop cs ts t, inside its stop ts -> endOf stop t -> accepted (Block ms ps g its stop cs) (ts ++ [t])
  (** words, and keywords with their objects, in any order *)
  with inside : list item -> string -> list bytes -> Prop :=
    | in_nil : forall its stop, inside its stop []
    | in_word : forall its stop t ts, wordIn stop t -> inside its stop ts -> inside its stop (t :: ts)
    | in_item : forall its stop kw f p sub ts ts', In (Item kw f p sub) its -> accepted sub ts -> inside its stop ts' ->
        inside its stop (b kw :: ts ++ ts').
End Accepted.
