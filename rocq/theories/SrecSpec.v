(** Specification of S-record files with 32 bit addresses (S3), independent of
    the reader. *)
From Coq Require Import String Ascii List Arith NArith Bool.
From Verif Require Import GoBase HexSpec.
Import ListNotations.

(** A data record: address and bytes. *)
Record s3rec := SD { s3_addr : N; s3_bytes : list N }.

Definition abytes (a : N) : list N :=
  [a / 16777216; a / 65536 mod 256; a / 256 mod 256; a mod 256]%N.

(** byte count (address, data and checksum), address, data *)
Definition s3_body (r : s3rec) : list N :=
  N.of_nat (List.length (s3_bytes r) + 5) :: abytes (s3_addr r) ++ s3_bytes r.
(** one's complement checksum: all bytes add up to 255 modulo 256 *)
Definition s3_check (l : list N) : N := (255 - nsum l mod 256)%N.
Definition s3_all (r : s3rec) : list N := s3_body r ++ [s3_check (s3_body r)].

Definition s3line_of (up : bool) (l : list N) : bytes := "S"%char :: "3"%char :: hexs up l.
Definition s3line (up : bool) (r : s3rec) : bytes := s3line_of up (s3_all r).

Definition s3valid (r : s3rec) : Prop :=
  Forall (fun v => v < 256)%N (s3_bytes r) /\ (List.length (s3_bytes r) <= 250)%nat
  /\ (s3_addr r + N.of_nat (List.length (s3_bytes r)) <= 4294967296)%N /\ (s3_addr r < 4294967296)%N.

(** The memory image a list of records describes. *)
Definition s3image (rs : list s3rec) : list (N * N) := flat_map (fun r => placed (s3_addr r) (s3_bytes r)) rs.

(** A file: records and short lines; then lines that are no S3 records (such as
    the terminating S7 record). *)
Inductive sitem := SItem (up : bool) (r : s3rec) | SBlank (l : bytes).
Definition sitem_line (x : sitem) : bytes := match x with SItem up r => s3line up r | SBlank l => l end.
Definition sitem_ok (x : sitem) : Prop :=
  match x with SItem _ r => s3valid r | SBlank l => (List.length l < 11)%nat /\ no_eol l end.
Fixpoint sitems_recs (l : list sitem) : list s3rec :=
  match l with
  | [] => []
  | SItem _ r :: l' => r :: sitems_recs l'
  | SBlank _ :: l' => sitems_recs l'
  end.
Definition not_s3 (l : bytes) : Prop := no_eol l /\ firstn 2 l <> b "S3".
Definition sfile (t : term) (items : list sitem) (tail : list bytes) : bytes :=
  join (term_bytes t) (map sitem_line items ++ tail).

(** The usual last record: S7, start address. *)
Definition s7line (a : N) : bytes :=
  let body := 5%N :: abytes a in "S"%char :: "7"%char :: hexs true (body ++ [s3_check body]).

(** ** Arbitrary lines *)

(** An S3 line of whole bytes with count, address and checksum. *)
Definition s3_shape (l : bytes) : Prop :=
  firstn 2 l = b "S3" /\ (14 <= List.length l)%nat /\ Nat.Even (List.length l).

(** A short line, or an S3 line with count and address (test). *)
Definition s3_lineb (l : bytes) : bool :=
  (List.length l <? 11) || beqb (firstn 2 l) (b "S3") && (12 <=? List.length l).

(** All pairs are bytes and they add up to 255 modulo 256. *)
Definition s3_good (l : bytes) : Prop :=
  exists tx bs, l = "S"%char :: "3"%char :: tx /\ hex_text tx bs /\ (nsum bs mod 256 = 255)%N.

(** The line of bytes [l] with byte [k] replaced by [v]. *)
Definition s3corrupted (up up' : bool) (l : list N) (k : nat) (v : N) : bytes :=
  "S"%char :: "3"%char :: hexs up (firstn k l) ++ hex2 up' v ++ hexs up (skipn (S k) l).

(** [l] is an S3 line with address [addr]; [v] is its data byte number [i]. *)
Definition s3_byte (l : bytes) (addr : N) (i : nat) (v : N) : Prop :=
  exists n1 n2 af x y z w pre d post,
    l = "S"%char :: "3"%char :: n1 :: n2 :: af ++ pre ++ d ++ post
    /\ hex_text_any af [x; y; z; w] /\ addr = (16777216 * x + 65536 * y + 256 * z + w)%N
    /\ List.length pre = (2 * i)%nat /\ hex_text_any d [v] /\ (2 <= List.length post)%nat.
