(** An A2L file in any layout. *)
From Coq Require Import String Ascii List Arith NArith Bool.
From Verif Require Import GoBase A2lTextSpec TokSpec TokWords.
Import ListNotations.

(** Every line of the text consists of complete words, pairs, quoted texts and comments,
    separated by white space; [ts] are the tokens. *)
Definition linesSay (text : bytes) (ts : list bytes) : Prop :=
  exists lines gss, text_of lines text /\ Forall2 (fun l gs => exists ws, separated l ws /\ line_items ws gs) lines gss /\
    ts = map unwords (concat gss).

(** Around the text there may be characters that do not print: a byte order mark, line
    feeds.  It begins and ends with a printing character. *)
Definition writtenAs (gr : N -> bool) (content : bytes) (ts : list bytes) : Prop :=
  exists p q c s d, content = p ++ (c :: s ++ [d]) ++ q /\ unprintable gr p /\ unprintable gr q /\
    (32 <= N_of_ascii c <= 126)%N /\ (32 <= N_of_ascii d <= 126)%N /\ linesSay (c :: s ++ [d]) ts.
