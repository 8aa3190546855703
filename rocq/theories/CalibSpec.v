(** Specification of file name extensions, independent of the code. *)
From Coq Require Import String Ascii List Arith NArith Bool.
From Verif Require Import GoBase.
Import ListNotations.

Definition occurs (x s : bytes) : Prop := exists p q, s = p ++ x ++ q.

(** Letter case ignored. *)
Definition lowered (s s' : bytes) : Prop :=
  Forall2 (fun c c' => let n := N_of_ascii c in
             N_of_ascii c' = if ((65 <=? n) && (n <=? 90))%N then (n + 32)%N else n) s s'.

(** [x] is the extension of the file name: what follows the last dot of the
    last path element. *)
Definition has_ext (path x : bytes) : Prop :=
  exists stem, path = stem ++ "."%char :: x /\ ~ In "."%char x /\ ~ In "/"%char x.
