(** Lines that differ only in their byte count (and the checksum that goes
    with it). *)
From Coq Require Import String Ascii List Arith NArith Bool.
From Verif Require Import GoBase HexSpec.
Import ListNotations.

(** Both lines have the same start [h] and the same middle (at least [n]
    characters); the two characters of the count between these, and the two of
    the checksum at the end, may differ.  Both checksums are right. *)
Definition recounted (h : bytes) (n : bytes -> nat) (good : bytes -> Prop) (l l' : bytes) : Prop :=
  l = l' \/
  exists c c' mid k k', l = h ++ c ++ mid ++ k /\ l' = h ++ c' ++ mid ++ k'
    /\ List.length c = 2%nat /\ List.length c' = 2%nat /\ List.length k = 2%nat /\ List.length k' = 2%nat
    /\ (n mid <= List.length mid)%nat /\ good l /\ good l'.

(** Intel HEX: address and type; extended linear address records also the
    upper half. *)
Definition imiddle (mid : bytes) : nat := if beqb (firstn 2 (skipn 4 mid)) (b "04") then 10 else 6.
(** S3: the address *)
Definition smiddle (mid : bytes) : nat := 8.
