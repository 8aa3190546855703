(** Modules in which no token that begins an object of a module or ends a module
    is taken for a word. *)
From Coq Require Import String List Arith SpecFloat.
From Verif Require Import GoBase A2lIR A2lParsers A2lSpec A2lModSpec A2lNestSpec.
Import ListNotations.

(** The objects whose parser skips tokens, or takes keywords for words. *)
Definition unread : list (string * fn) :=
  [("IF_DATA", parseIfData); ("A2ML", parseA2ML); ("COMPU_VTAB", parseCompuVtab); ("COMPU_VTAB_RANGE", parseCompuVtabRange);
   ("BIT_OPERATION", parseBitOperation); ("VAR_FORBIDDEN_COMB", parseVarForbiddenComb)]%string.

(** The tokens that begin an object of a module or end a module. *)
Definition loud (t : bytes) : Prop := begins t \/ t = b "/end MODULE".

(** An object of [unread] that begins at [i] has no such token in it. *)
Definition quietAt (toks : list bytes) (pf : bytes -> option spec_float) (i : nat) : Prop :=
  forall x g v j, In (x, g) unread -> tok toks i = beginOf x -> returns toks pf g i v false j ->
    forall q, i < q <= j -> ~ loud (tok toks q).
(** So for all objects of [unread] between [start] and [stop]. *)
Definition quiet (toks : list bytes) (pf : bytes -> option spec_float) (start stop : nat) : Prop :=
  forall i, start < i < stop -> quietAt toks pf i.
