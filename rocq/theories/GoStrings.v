(** The parts of Go's [strings] package that the readers use. *)
From Coq Require Import String Ascii List Arith NArith Bool.
From Verif Require Import GoBase.
Import ListNotations.

(** [strings.HasPrefix(s, p)] *)
Fixpoint prefixb (p s : bytes) : bool :=
  match p, s with
  | [], _ => true
  | c :: p', d :: s' => Ascii.eqb c d && prefixb p' s'
  | _ :: _, [] => false
  end.

(** [strings.Split(s, sep)] for a non-empty [sep]: the pieces between the
    leftmost non-overlapping occurrences; a text without occurrence is one
    piece.  [skip] counts the remaining bytes of the separator just found,
    [cur] is the current piece reversed. *)
Fixpoint split_aux (sep : bytes) (skip : nat) (cur s : bytes) : list bytes :=
  match s with
  | [] => [rev cur]
  | c :: s' =>
      match skip with
      | S k => split_aux sep k cur s'
      | O => if prefixb sep s
             then rev cur :: split_aux sep (List.length sep - 1) [] s'
             else split_aux sep 0 (c :: cur) s'
      end
  end.
Definition split (sep s : bytes) : list bytes := split_aux sep 0 [] s.

(** [strings.Contains(s, p)] *)
Fixpoint containsb (p s : bytes) : bool :=
  prefixb p s || match s with [] => false | _ :: s' => containsb p s' end.

(** [strings.ReplaceAll(s, old, new)] for a non-empty [old]. *)
Fixpoint replace_aux (old new : bytes) (skip : nat) (s : bytes) : bytes :=
  match s with
  | [] => []
  | c :: s' =>
      match skip with
      | S k => replace_aux old new k s'
      | O => if prefixb old s
             then new ++ replace_aux old new (List.length old - 1) s'
             else c :: replace_aux old new 0 s'
      end
  end.
Definition replace_all (s old new : bytes) : bytes := replace_aux old new 0 s.

(** [strings.ToLower] on ASCII bytes.  Bytes above 127 are left alone; Go maps
    the Unicode letters they may encode, which never yields or removes the
    ASCII sequences tested for by the callers except through the two code
    points U+212A (Kelvin sign, lower case k) and U+0130. *)
Definition lower_ascii (c : ascii) : ascii :=
  let n := N_of_ascii c in
  if (65 <=? n)%N && (n <=? 90)%N then ascii_of_N (n + 32) else c.
Definition to_lower (s : bytes) : bytes := map lower_ascii s.
