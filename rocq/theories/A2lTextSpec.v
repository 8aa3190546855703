(** Words for what cleaning a text may remove. *)
From Coq Require Import String Ascii List NArith.
From Verif Require Import GoBase.
Import ListNotations.

(** UTF-8 (RFC 3629): the bytes of a character. *)
Definition utf8 (r : N) : bytes :=
  map ascii_of_N
    (if r <? 0x80 then [r]
     else if r <? 0x800 then [0xC0 + r / 64; 0x80 + r mod 64]
     else if r <? 0x10000 then [0xE0 + r / 4096; 0x80 + r / 64 mod 64; 0x80 + r mod 64]
     else [0xF0 + r / 262144; 0x80 + r / 4096 mod 64; 0x80 + r / 64 mod 64; 0x80 + r mod 64])%N.

(** The characters of Unicode that UTF-8 can encode. *)
Definition character (r : N) : Prop := (r < 0xD800 \/ 0xE000 <= r < 0x110000)%N.

(** The character [r] prints ([gr] says so for the characters beyond ASCII). *)
Definition prints (gr : N -> bool) (r : N) : Prop := (32 <= r <= 126 \/ 128 <= r /\ gr r = true)%N.

(** A text of characters that do not print. *)
Definition unprintable (gr : N -> bool) (s : bytes) : Prop :=
  exists rs, s = concat (map utf8 rs) /\ Forall (fun r => character r /\ ~ prints gr r) rs.

Definition esc : ascii := ascii_of_N 92.
Definition newline : ascii := ascii_of_N 10.

(** [unescaped s t]: [t] is [s] without its escape sequences: a backslash and the
    character (or byte, if it belongs to none) after it, unless that is a line feed. *)
Inductive unescaped : bytes -> bytes -> Prop :=
| UnNil : unescaped [] []
| UnChar : forall c s t, c <> esc -> unescaped s t -> unescaped (c :: s) (c :: t)
| UnEscape : forall r s t, character r -> utf8 r <> [newline] -> unescaped s t -> unescaped (esc :: utf8 r ++ s) t
| UnByte : forall c s t, (forall r q, character r -> c :: s <> utf8 r ++ q) -> unescaped s t -> unescaped (esc :: c :: s) t
| UnLine : forall s t, unescaped s t -> unescaped (esc :: newline :: s) (esc :: newline :: t)
| UnLast : unescaped [esc] [esc].
