(** Common vocabulary for the models of the Go packages: results with error and
    panic, byte strings, Go slicing, hexadecimal digits, work partitioning by
    number of processors, fixed width unsigned arithmetic, key/value maps.

    Nothing in this file is specific to one Go function unless a citation says
    so. *)

From Coq Require Import String Ascii List Arith NArith Bool Lia.
Import ListNotations.

Set Implicit Arguments.

(** ** Results of Go calls *)

(** A Go call either returns normally, returns a non-nil error, or panics
    (index out of range, nil dereference, integer division by zero, makeslice
    out of range).  A panic in any goroutine terminates the whole program. *)
Inductive outcome (E A : Type) : Type :=
| Ok (a : A)
| Err (e : E)
| Panic.
Arguments Ok {E A} a.
Arguments Err {E A} e.
Arguments Panic {E A}.

Definition obind {E A B} (x : outcome E A) (f : A -> outcome E B) : outcome E B :=
  match x with
  | Ok a => f a
  | Err e => Err e
  | Panic => Panic
  end.

Declare Scope outcome_scope.
Delimit Scope outcome_scope with outcome.
Notation "x <- a ;; b" := (obind a (fun x => b))
  (at level 61, a at next level, right associativity) : outcome_scope.

(** ** Byte strings: a Go [string] is a sequence of bytes. *)

Definition bytes := list ascii.

(** [b "text"] is the Go string literal ["text"]. *)
Definition b (s : string) : bytes := list_ascii_of_string s.

Definition ascii_eqb (x y : ascii) : bool := Ascii.eqb x y.

(** Go [==] on strings. *)
Fixpoint beqb (x y : bytes) : bool :=
  match x, y with
  | [], [] => true
  | c :: x', d :: y' => Ascii.eqb c d && beqb x' y'
  | _, _ => false
  end.

(** Go [s[lo:hi]]: panics unless [0 <= lo <= hi <= len(s)]. *)
Definition slice {E A} (s : list A) (lo hi : nat) : outcome E (list A) :=
  if (lo <=? hi)%nat && (hi <=? List.length s)%nat
  then Ok (firstn (hi - lo) (skipn lo s))
  else Panic.

(** Go [s[i]]: panics unless [0 <= i < len(s)]. *)
Definition index {E A} (s : list A) (i : nat) : outcome E A :=
  match nth_error s i with
  | Some x => Ok x
  | None => Panic
  end.

(** ** Hexadecimal digits *)

Definition digit_val (c : ascii) : option N :=
  let n := N_of_ascii c in
  if (48 <=? n)%N && (n <=? 57)%N then Some (n - 48)%N else None.

(** digits 0-9 A-F *)
Definition hex_upper (c : ascii) : option N :=
  let n := N_of_ascii c in
  if (48 <=? n)%N && (n <=? 57)%N then Some (n - 48)%N
  else if (65 <=? n)%N && (n <=? 70)%N then Some (n - 55)%N
  else None.

(** digits 0-9 a-f *)
Definition hex_lower (c : ascii) : option N :=
  let n := N_of_ascii c in
  if (48 <=? n)%N && (n <=? 57)%N then Some (n - 48)%N
  else if (97 <=? n)%N && (n <=? 102)%N then Some (n - 87)%N
  else None.

(** digits 0-9 a-f A-F: what [encoding/hex] accepts *)
Definition hex_any (c : ascii) : option N :=
  match hex_upper c with
  | Some v => Some v
  | None => hex_lower c
  end.

(** [encoding/hex.DecodeString]: two digits per byte, either case; an odd
    length or a non-digit is an error.  The bytes decoded before the error are
    dropped here: all callers in the repository discard them. *)
Fixpoint hex_decode (s : bytes) : option (list N) :=
  match s with
  | [] => Some []
  | c :: d :: rest =>
      match hex_any c, hex_any d, hex_decode rest with
      | Some x, Some y, Some r => Some ((16 * x + y)%N :: r)
      | _, _, _ => None
      end
  | _ :: [] => None
  end.

(** ** Fixed width unsigned arithmetic *)

Definition u8 (n : N) : N := (n mod 256)%N.
Definition u16 (n : N) : N := (n mod 65536)%N.
Definition u32 (n : N) : N := (n mod 4294967296)%N.

(** ** Work partitioning

    The recurring Go code
<<
	for i := 0; i < numProc; i++ {
		start := (len(l) / numProc) * i
		end := start + (len(l) / numProc)
		if i+1 == numProc { end = len(l) }
		... l[start:end] ...
>>
    e.g. ihex32/hex.go 113-124, 145-154, 174-185; srec19/hex.go 113-124;
    a2l/token_generator.go 54-65. *)
Definition chunk_start (len np i : nat) : nat := (len / np) * i.
Definition chunk_end (len np i : nat) : nat :=
  if (i + 1 =? np)%nat then len else chunk_start len np i + len / np.

Definition chunk {A} (np : nat) (l : list A) (i : nat) : list A :=
  firstn (chunk_end (List.length l) np i - chunk_start (List.length l) np i)
         (skipn (chunk_start (List.length l) np i) l).

Definition chunks {A} (np : nat) (l : list A) : list (list A) :=
  map (chunk np l) (seq 0 np).

(** ** Go maps with integer keys

    Only insertion and lookup are used; an association list whose newest entry
    comes first represents the map. *)
Definition gomap := list (N * N).

Fixpoint lookup (a : N) (m : gomap) : option N :=
  match m with
  | [] => None
  | (k, v) :: m' => if (k =? a)%N then Some v else lookup a m'
  end.

Definition insert (a v : N) (m : gomap) : gomap := (a, v) :: m.
