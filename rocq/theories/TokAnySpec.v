(** The tokens of any text (C85): what each word is taken for, and the tokens of a
    sequence of words and line ends. *)
From Coq Require Import String Ascii List Arith.
From Verif Require Import GoBase TokSpec.
Import ListNotations.

(** ** Words *)

(** What precedes the first quotation mark of a word. *)
Definition before (w x : bytes) : Prop := ~ In QM x /\ (w = x \/ exists y, w = x ++ QM :: y).
(** [p] occurs there. *)
Definition opens (p : string) (w : bytes) : Prop := exists x, before w x /\ has p x.

Definition comment_word (w : bytes) : Prop := opens "/*" w /\ (In QM w \/ ~ has "//" w).
Definition line_word (w : bytes) : Prop := opens "//" w /\ (~ In QM w \/ ~ opens "/*" w).
Definition text_word (w : bytes) : Prop := In QM w /\ ~ opens "/*" w /\ ~ opens "//" w.
(** No quotation mark, and no comment begins. *)
Definition simple (w : bytes) : Prop := ~ In QM w /\ ~ has "/*" w /\ ~ has "//" w.
Definition slashed (w : bytes) : Prop := simple w /\ In "/"%char w /\ ~ has "*/" w.
Definition pair_word (w : bytes) : Prop := slashed w /\ (has "/begin" w \/ has "/end" w).
Definition stray_word (w : bytes) : Prop := slashed w /\ ~ has "/begin" w /\ ~ has "/end" w.
Definition ordinary (w : bytes) : Prop := simple w /\ (~ In "/"%char w \/ has "*/" w).

(** ** Lines of words *)
Inductive sym := W (w : bytes) | Eol.
Definition stream (lines : list (list bytes)) : list sym := flat_map (fun ws => map W ws ++ [Eol]) lines.
Fixpoint words_in (s : list sym) : list bytes :=
  match s with [] => [] | W w :: s' => w :: words_in s' | Eol :: s' => words_in s' end.

(** The quotation marks of the words up to the k-th are paired. *)
Definition paired (ws : list bytes) (k : nat) : Prop := Nat.Even (quotes (concat (firstn k ws))).
(** [g] goes up to a word. *)
Definition up_to_word (g : list sym) : Prop := exists g' z, g = g' ++ [W z].

(** [says s ts]: the words and line ends [s] are read as the tokens [ts]. *)
Inductive says : list sym -> list bytes -> Prop :=
  | s_end : says [] []
  | s_eol s ts : says s ts -> says (Eol :: s) ts
  | s_word w s ts : ordinary w -> says s ts -> says (W w :: s) (w :: ts)
  (* a text: up to the first word with which its quotation marks are paired *)
  | s_text1 w s ts : text_word w -> Nat.Even (quotes w) -> says s ts -> says (W w :: s) (w :: ts)
  | s_text w g s ts : text_word w -> up_to_word g ->
      (forall k, 0 < k <= List.length (w :: words_in g) -> (paired (w :: words_in g) k <-> k = List.length (w :: words_in g))) ->
      says s ts -> says (W w :: g ++ s) (unwords (w :: words_in g) :: ts)
  | s_text_open w s : text_word w ->
      (forall k, 0 < k <= List.length (w :: words_in s) -> ~ paired (w :: words_in s) k) -> says (W w :: s) []
  (* a comment: up to the first word with its end *)
  | s_comment1 w s ts : comment_word w -> has "*/" w -> says s ts -> says (W w :: s) ts
  | s_comment w g z s ts : comment_word w -> ~ has "*/" w -> Forall (fun x => ~ has "*/" x) (words_in g) -> has "*/" z ->
      says s ts -> says (W w :: g ++ W z :: s) ts
  | s_comment_open w s : comment_word w -> Forall (fun x => ~ has "*/" x) (w :: words_in s) -> says (W w :: s) []
  (* a comment up to the end of the line *)
  | s_line w ws s ts : line_word w -> says s ts -> says (W w :: map W ws ++ Eol :: s) ts
  (* two words, of which the second can be anything, in the same line or a later one *)
  | s_pair w g v s ts : pair_word w -> words_in g = [] -> says s ts -> says (W w :: g ++ W v :: s) ((w ++ b " " ++ v) :: ts)
  | s_pair_open w s : pair_word w -> words_in s = [] -> says (W w :: s) []
  (* any other word with a slash ends the tokens *)
  | s_stray w s : stray_word w -> says (W w :: s) [].
