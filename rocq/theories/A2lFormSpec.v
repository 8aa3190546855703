(** When two objects differ for a reader of their fields. *)
From Coq Require Import String List ZArith Bool SpecFloat.
From Verif Require Import GoBase A2lIR A2lSpec A2lGrammar.
Import ListNotations.

(** A way into an object: fields and places in lists. *)
Inductive step := Fld (f : string) | Nth (n : nat).

(** What is found there: a text, a number, a boolean; zero values and missing ones are the same. *)
Inductive leaf := LText (s : bytes) | LInt (z : Z) | LTrue.
Fixpoint look (way : list step) (v : val) : option leaf :=
  match way, v with
  | [], VStr [] => None
  | [], VStr s => Some (LText s)
  | [], VInt 0 => None
  | [], VInt z => Some (LInt z)
  | [], VBool true => Some LTrue
  | Fld f :: way', VObj o => match fget f o with Some w => look way' w | None => None end
  | Nth n :: way', VList l => match nth_error l n with Some w => look way' w | None => None end
  | _, _ => None
  end.
Definition differ (v w : val) : Prop := exists way, look way v <> look way w.

(** Parser [g] misreads words [ts] that describe [v]: it reports an error, stops
    elsewhere, or returns an object with other contents. *)
Definition misreads (pf : bytes -> option spec_float) (f : form) (g : fn) (ts : list bytes) (v : val) : Prop :=
  exists (before : list bytes) (first : bytes) (after : list bytes),
    first <> [] /\ ended after /\ follows f (hd [] after) = true /\
    exists v' e j, returns (before ++ first :: ts ++ after) pf g (length before) v' e j
                   /\ (e = true \/ j <> length before + length ts \/ differ v v').
