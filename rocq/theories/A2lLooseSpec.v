(** Modules with tokens between their objects that the sequential parser refuses,
    and objects that their parser refuses. *)
From Coq Require Import String List Arith Bool SpecFloat.
From Verif Require Import GoBase A2lIR A2lTokens A2lParsers A2lSpec A2lModModel A2lModSpec A2lCutSpec.
Import ListNotations.

Section Loose.
  Variable toks : list bytes.
  Variable pf : bytes -> option spec_float.

  (** A module as [isModule], but with any tokens between the objects that do not
      begin an object. *)
  Definition loosely (i : nat) (items : list item) (stop : nat) : Prop :=
    word (tok toks (i + 1)) /\ word (tok toks (i + 2)) /\ (exists e, stop = S e /\ nestedIn toks pf (i + 2) e items) /\ tok toks stop = b "/end MODULE".

  (** After such objects and tokens follows, at index [p], an object that its parser refuses. *)
  Definition refused (i : nat) (items : list item) (p : nat) : Prop :=
    exists e t g a v j, p = S e /\ nestedIn toks pf (i + 2) e items /\ In (t, (g, a)) kinds /\ tok toks p = b t /\ returns toks pf g p v true j.

  (** The tokens after index [i] are objects, with words between them, up to a token
      at index [p] that is empty or an unexpected keyword. *)
  Definition unexpected (t : bytes) : Prop := t = [] \/ isKeyword t = true /\ ~ begins t /\ t <> b "/end MODULE".
  Inductive stray : nat -> list item -> nat -> Prop :=
  | StrayHere : forall i, unexpected (tok toks (S i)) -> stray i [] (S i)
  | StrayWord : forall i items p, word (tok toks (S i)) -> stray (S i) items p -> stray i items p
  | StrayObj : forall i t g a v j items p,
      In (t, (g, a)) kinds -> tok toks (S i) = b t -> returns toks pf g (S i) v false j -> stray j items p ->
      stray i (Item (S i) j a v :: items) p.
End Loose.
