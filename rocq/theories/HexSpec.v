(** Specification vocabulary shared by both hex formats: how bytes are written
    as hexadecimal text, how files are joined from lines, what it means that
    every run of a program ends in a certain way.  Nothing here mentions the
    models of the readers. *)
From Coq Require Import String Ascii List Arith NArith Bool.
From Verif Require Import GoBase.
Import ListNotations.

(** The hexadecimal digit for [n < 16], upper or lower case. *)
Definition digit (up : bool) (n : N) : ascii :=
  ascii_of_N (if (n <? 10)%N then 48 + n else if up then 55 + n else 87 + n).

(** A byte as two digits. *)
Definition hex2 (up : bool) (n : N) : bytes := [digit up (n / 16); digit up (n mod 16)].

(** A sequence of bytes as text. *)
Definition hexs (up : bool) (l : list N) : bytes := flat_map (hex2 up) l.

Fixpoint nsum (l : list N) : N := match l with [] => 0 | x :: l' => x + nsum l' end%N.

(** A byte of data under its address; consecutive bytes. *)
Fixpoint placed (a : N) (bs : list N) : list (N * N) :=
  match bs with
  | [] => []
  | v :: bs' => (a, v) :: placed (a + 1) bs'
  end.

(** Line terminators. *)
Definition CR : ascii := ascii_of_N 13.
Definition LF : ascii := ascii_of_N 10.
Inductive term := Dos | Unix.
Definition term_bytes (t : term) : bytes := match t with Dos => [CR; LF] | Unix => [LF] end.

(** A text made of lines separated by a terminator ([lines] may end with the
    empty line: then the last record is terminated, too). *)
Fixpoint join (t : bytes) (lines : list bytes) : bytes :=
  match lines with
  | [] => []
  | [l] => l
  | l :: ls => l ++ t ++ join t ls
  end.

Definition no_eol (l : bytes) : Prop := ~ In CR l /\ ~ In LF l.

(** The runs of a program, as the set of results that occur: there is a result
    and every result is as described. *)
Definition always {A} (runs : A -> Prop) (P : A -> Prop) : Prop :=
  (exists r, runs r) /\ forall r, runs r -> P r.

(** A map has exactly the listed bytes. *)
Definition map_is (m : gomap) (image : list (N * N)) : Prop :=
  forall a v, lookup a m = Some v <-> In (a, v) image.

(** Text made of pairs of digits, each pair in one letter case (this is what
    both readers accept), and its bytes. *)
Inductive hex_text : bytes -> list N -> Prop :=
| HTnil : hex_text [] []
| HTcons : forall up v tx bs, (v < 256)%N -> hex_text tx bs -> hex_text (hex2 up v ++ tx) (v :: bs).

(** The same with letter cases mixed freely. *)
Inductive hex_text_any : bytes -> list N -> Prop :=
| HAnil : hex_text_any [] []
| HAcons : forall up1 up2 x y tx bs, (x < 16)%N -> (y < 16)%N -> hex_text_any tx bs ->
    hex_text_any (digit up1 x :: digit up2 y :: tx) ((16 * x + y)%N :: bs).

(** ** Concurrent programs *)

Inductive reach {S} (step : S -> S -> Prop) : S -> S -> Prop :=
| reach_refl : forall s, reach step s s
| reach_step : forall s1 s2 s3, step s1 s2 -> reach step s2 s3 -> reach step s1 s3.

(** Under every schedule the program goes on until it is done, and no schedule
    goes on for ever. *)
Definition completes {S} (step : S -> S -> Prop) (done : S -> Prop) (s0 : S) : Prop :=
  (forall s, reach step s0 s -> done s \/ exists s', step s s')
  /\ Acc (fun s' s => step s s') s0.

(** ** Files read in parts *)

(** Everything before the first line that is not acceptable. *)
Fixpoint until_bad (ok : bytes -> bool) (l : list bytes) : list bytes :=
  match l with
  | [] => []
  | x :: l' => if ok x then x :: until_bad ok l' else []
  end.

(** [np] parts of equal size; the last one has the remainder too. *)
Definition part (np : nat) (l : list bytes) (g : nat) : list bytes :=
  let rest := skipn (g * (List.length l / np)) l in
  if g + 1 =? np then rest else firstn (List.length l / np) rest.

(** The lines of each part before its first unacceptable line. *)
Definition kept (ok : bytes -> bool) (np : nat) (l : list bytes) : list bytes :=
  flat_map (fun g => until_bad ok (part np l g)) (seq 0 np).

(** What is left of a file without its first part; nothing if there is only
    one part. *)
Definition after_part (np : nat) (l : list bytes) : list bytes :=
  if (1 <? np) && (np <=? List.length l) then skipn (List.length l / np) l else [].
