(** Nesting of the objects of an A2L file: what is said. *)
From Coq Require Import String Ascii List Arith Bool.
From Verif Require Import GoBase A2lIR A2lTokens A2lSpec.
Import ListNotations.

Definition beginOf (x : string) : bytes := b ("/begin " ++ x).
Definition endOf (x : string) : bytes := b ("/end " ++ x).

Fixpoint startsWith (p t : bytes) : bool :=
  match p, t with
  | [], _ => true
  | c :: p', d :: t' => if Ascii.eqb c d then startsWith p' t' else false
  | _ :: _, [] => false
  end.

(** The token is a begin or an end keyword. *)
Definition bracket (t : bytes) : bool :=
  isKeyword t && (startsWith (b "/begin ") t || startsWith (b "/end ") t).

(** Every object that is begun is ended, the one begun last first, and no other
    object is ended; the contents of the objects [op] are not looked at. *)
Inductive nested (op : list string) : list bytes -> Prop :=
  | NNil : nested op []
  | NWord : forall t l, bracket t = false -> nested op l -> nested op (t :: l)
  | NObj : forall x l l', bracket (beginOf x) = true -> bracket (endOf x) = true -> nested op l -> nested op l' -> nested op (beginOf x :: l ++ endOf x :: l')
  | NOpaque : forall x l l', In x op -> nested op l' -> nested op (beginOf x :: l ++ endOf x :: l').

(** The tokens from the one at [i] up to, not including, the one at [j]. *)
Definition section (toks : list bytes) (i j : nat) : list bytes := firstn (j - i) (skipn i toks).

(** The last token and only the last token is empty. *)
Definition closed (toks : list bytes) : Prop := exists l, toks = l ++ [[]] /\ ~ In [] l.

(** strconv.ParseFloat does not take a keyword or nothing for a number. *)
Definition rejects {A} (pf : bytes -> option A) : Prop :=
  forall t, isKeyword t = true \/ t = [] -> pf t = None.
