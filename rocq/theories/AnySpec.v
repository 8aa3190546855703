(** What stands in a hex file with any content, independent of the readers. *)
From Coq Require Import String Ascii List Arith NArith Bool.
From Verif Require Import GoBase HexSpec IhexSpec SrecSpec.
Import ListNotations.

Definition contains (s x : bytes) : Prop := exists p q, s = p ++ x ++ q.

(** The lines of a text: they end with CR LF if that occurs at all, otherwise
    with LF. *)
Definition lines_of (text : bytes) (lines : list bytes) : Prop :=
  lines <> [] /\
  (   (contains text [CR; LF] /\ text = join [CR; LF] lines /\ Forall (fun l => ~ contains l [CR; LF]) lines)
   \/ (~ contains text [CR; LF] /\ text = join [LF] lines /\ Forall (fun l => ~ In LF l) lines)).

(** ** Intel HEX *)

(** A line without the character that belongs to no byte: the third last if the
    number of digits is odd. *)
Definition without_third_last (l : bytes) : bytes :=
  firstn (List.length l - 3) l ++ skipn (List.length l - 2) l.
Definition whole (l : bytes) : bytes := if Nat.odd (List.length l) then l else without_third_last l.

(** The bytes on a line; each with digits of one letter case. *)
Definition says (l : bytes) (bs : list N) : Prop := exists tx, whole l = ":"%char :: tx /\ hex_text tx bs.
Definition adds_up (l : bytes) : Prop := exists bs, says l bs /\ (nsum bs mod 256 = 0)%N.

(** The record of these bytes: count, address, type, data, checksum.  The count
    is not used. *)
Definition irec_of (bs : list N) : irec :=
  match bs with
  | _ :: x :: y :: t :: rest =>
      if (t =? 0)%N then IData (256 * x + y) (removelast rest)
      else if (t =? 4)%N then IEla (256 * nth 0 rest 0%N + nth 1 rest 0%N)
      else IOther t (256 * x + y) (removelast rest)
  | _ => IOther 1 0 []
  end.

(** Long lines that are read. *)
Definition long (l : bytes) : bool := 11 <=? List.length l.
Definition read_lines (np : nat) (lines : list bytes) : list bytes := filter long (kept fine_lineb np lines).

(** ** S-records *)

Definition s_whole (l : bytes) : bytes := if Nat.even (List.length l) then l else without_third_last l.
Definition s_says (l : bytes) (bs : list N) : Prop :=
  exists tx, s_whole l = "S"%char :: "3"%char :: tx /\ hex_text tx bs.
Definition s_adds_up (l : bytes) : Prop := exists bs, s_says l bs /\ (nsum bs mod 256 = 255)%N.

(** Bytes from an address on, modulo 2^32. *)
Fixpoint round32 (a : N) (bs : list N) : list (N * N) :=
  match bs with
  | [] => []
  | v :: bs' => ((a mod 4294967296)%N, v) :: round32 (a + 1) bs'
  end.
(** What the bytes count, address, data, checksum put where. *)
Definition s3_puts (bs : list N) : list (N * N) :=
  match bs with
  | _ :: x :: y :: z :: w :: rest => round32 (16777216 * x + 65536 * y + 256 * z + w) (removelast rest)
  | _ => []
  end.
Definition s_read_lines (np : nat) (lines : list bytes) : list bytes := filter long (kept s3_lineb np lines).

(** Two lines that differ at most in the character that belongs to no byte. *)
Definition same_but_stray (p_ok : bytes -> Prop) (l l' : bytes) : Prop :=
  l = l' \/ exists p c c' k, l = p ++ c :: k /\ l' = p ++ c' :: k /\ List.length k = 2%nat /\ p_ok p.
(** What stands before it: colon, count, address, type and whole bytes; after
    type 04 the upper half. *)
Definition before_stray (p : bytes) : Prop :=
  Nat.odd (List.length p) = true /\ (9 <= List.length p)%nat /\ (line_type p = b "04" -> (13 <= List.length p)%nat).
(** S, a digit, count, address and whole bytes. *)
Definition s_before_stray (p : bytes) : Prop := Nat.even (List.length p) = true /\ (12 <= List.length p)%nat.
