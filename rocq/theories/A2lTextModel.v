(** Model of cleanBytesString (a2l/a2l.go 143-154) and of what it uses of the Go
    packages unicode/utf8, regexp and strings.

    [unicode.IsGraphic] is a table for the runes from 128 on; it is the parameter
    [gr].  Below 128 the graphic runes are 32 to 126. *)
From Coq Require Import String Ascii List Arith NArith Bool.
From Verif Require Import GoBase TokModel.
Import ListNotations.

(** ** UTF-8 *)

Definition runeError : N := 0xFFFD.

(** the byte [c] is between [lo] and [hi] *)
Definition within (lo hi : N) (c : ascii) : bool := (lo <=? N_of_ascii c)%N && (N_of_ascii c <=? hi)%N.

(** The low six bits of a continuation byte. *)
Definition low6 (c : ascii) : N := (N_of_ascii c mod 64)%N.

(** The range of the second byte for the first byte [c], and the number of bytes
    (utf8.first, utf8.acceptRanges); [None] for a byte that begins no encoding. *)
Definition lead (c : ascii) : option (nat * (N * N)) :=
  if within 0xC2 0xDF c then Some (2, (0x80, 0xBF)%N)
  else if within 0xE0 0xE0 c then Some (3, (0xA0, 0xBF)%N)
  else if within 0xE1 0xEC c then Some (3, (0x80, 0xBF)%N)
  else if within 0xED 0xED c then Some (3, (0x80, 0x9F)%N)
  else if within 0xEE 0xEF c then Some (3, (0x80, 0xBF)%N)
  else if within 0xF0 0xF0 c then Some (4, (0x90, 0xBF)%N)
  else if within 0xF1 0xF3 c then Some (4, (0x80, 0xBF)%N)
  else if within 0xF4 0xF4 c then Some (4, (0x80, 0x8F)%N)
  else None.

(** utf8.DecodeRune: the rune and its number of bytes. *)
Definition decodeRune (s : bytes) : N * nat :=
  match s with
  | [] => (runeError, 0)
  | c :: s' =>
      if (N_of_ascii c <? 128)%N then (N_of_ascii c, 1)
      else
        match lead c with
        | None => (runeError, 1)
        | Some (n, (lo, hi)) =>
            match n, s' with
            | 2, c2 :: _ =>
                if within lo hi c2 then ((N_of_ascii c mod 32) * 64 + low6 c2, 2%nat)%N else (runeError, 1)
            | 3, c2 :: c3 :: _ =>
                if within lo hi c2 && within 0x80 0xBF c3
                then (((N_of_ascii c mod 16) * 64 + low6 c2) * 64 + low6 c3, 3%nat)%N else (runeError, 1)
            | 4, c2 :: c3 :: c4 :: _ =>
                if within lo hi c2 && within 0x80 0xBF c3 && within 0x80 0xBF c4
                then ((((N_of_ascii c mod 8) * 64 + low6 c2) * 64 + low6 c3) * 64 + low6 c4, 4%nat)%N else (runeError, 1)
            | _, _ => (runeError, 1)
            end
        end
  end.

(** utf8.RuneStart *)
Definition runeStart (c : ascii) : bool := negb (within 0x80 0xBF c).

(** utf8.DecodeLastRune on the reversed text [r]: the loop looks back over at most
    three bytes (the last one is not looked at) for one that can begin an encoding. *)
Fixpoint back (todo k : nat) (r : bytes) : nat :=
  match todo, r with
  | S todo', c :: r' => if runeStart c then k else back todo' (S k) r'
  | _, _ => k
  end.
Definition decodeLastRune (r : bytes) : N * nat :=
  match r with
  | [] => (runeError, 0)
  | c :: r' =>
      if (N_of_ascii c <? 128)%N then (N_of_ascii c, 1)
      else
        let k := back 3 2 r' in
        let tail := rev (firstn k r) in
        if snd (decodeRune tail) =? List.length tail then decodeRune tail else (runeError, 1)
  end.

(** ** The regular expression \\. (line 145-146)

    It matches a backslash and one rune that is not a line feed (an invalid byte
    counts as one rune); the template $1 names a group that does not exist and
    stands for nothing.  [skip]: bytes of the match that are still to come. *)
Fixpoint unescape_aux (skip : nat) (s : bytes) : bytes :=
  match s with
  | [] => []
  | c :: s' =>
      match skip with
      | S k => unescape_aux k s'
      | O => if Ascii.eqb c backslash
             then match s' with
                  | [] => [c]
                  | d :: _ => if byte_is 10 d then c :: unescape_aux 0 s' else unescape_aux (snd (decodeRune s')) s'
                  end
             else c :: unescape_aux 0 s'
      end
  end.
Definition unescape (s : bytes) : bytes := unescape_aux 0 s.

Section Trim.
  Variable gr : N -> bool.
  (** unicode.IsGraphic *)
  Definition isGraphic (r : N) : bool := if (r <? 128)%N then (32 <=? r)%N && (r <=? 126)%N else gr r.

  (** strings.TrimLeftFunc with the function of line 150-152; [fuel]: at least the
      length of the text. *)
  Fixpoint trimLeft (fuel : nat) (s : bytes) : bytes :=
    match fuel with
    | O => s
    | S f => match s with
             | [] => []
             | _ => let '(r, n) := decodeRune s in if isGraphic r then s else trimLeft f (skipn n s)
             end
    end.

  (** strings.TrimRightFunc on the reversed text.  lastIndexFunc finds the index
      of the last graphic rune, line "i += wid" adds its width again by decoding
      forwards; for an invalid last byte both widths are 1. *)
  Fixpoint trimRight (fuel : nat) (r : bytes) : bytes :=
    match fuel with
    | O => r
    | S f => match r with
             | [] => []
             | _ => let '(x, n) := decodeLastRune r in if isGraphic x then r else trimRight f (skipn n r)
             end
    end.

  Definition trim (s : bytes) : bytes :=
    let l := trimLeft (List.length s) s in rev (trimRight (List.length l) (rev l)).

  (** a2l.go 143-154 *)
  Definition cleanBytesString (s : bytes) : bytes := trim (unescape s).
End Trim.
