(** Specification of the A2L tokens.

    Two descriptions of the tokens of a list of lines of words: [lex], an
    automaton that reads word after word, valid for every input; and [items], a
    grammar of well-formed lines. *)
From Coq Require Import String Ascii List Arith NArith Bool.
From Verif Require Import GoBase GoStrings HexSpec.
Import ListNotations.

Definition QM : ascii := ascii_of_N 34.
Definition has (p : string) (w : bytes) : Prop := exists x y, w = x ++ b p ++ y.
Definition quotes (w : bytes) : nat := count_occ ascii_dec w QM.

(** words joined by single blanks *)
Fixpoint unwords (ws : list bytes) : bytes :=
  match ws with
  | [] => []
  | [w] => w
  | w :: ws' => w ++ b " " ++ unwords ws'
  end.

(** ** Grammar

    [items ws gs]: the words [ws] are a sequence of complete constructs; [gs]
    are the groups of words that make up one token each (comments make up none). *)

(** A word without quotation mark and slash. *)
Definition plain (w : bytes) : Prop := ~ In QM w /\ ~ In "/"%char w.

(** A quoted text: the quotation mark comes first, the number of quotation
    marks is odd in every proper prefix and even in the whole. *)
Definition quoted (ws : list bytes) : Prop :=
  (exists r rest, ws = (QM :: r) :: rest)
  /\ Nat.Even (quotes (unwords ws))
  /\ forall k, 0 < k < List.length ws -> Nat.Odd (quotes (unwords (firstn k ws))).

(** A comment in one word, or in several: the first starts with the opening and
    has neither closing nor line comment, the last is the first with the
    closing. *)
Definition opener (w : bytes) : Prop := (exists r, w = b "/*" ++ r) /\ ~ has "//" w.
Definition comment (ws : list bytes) : Prop :=
  (exists w, ws = [w] /\ opener w /\ has "*/" w)
  \/ (exists w mid z, ws = w :: mid ++ [z] /\ opener w /\ ~ has "*/" w
        /\ Forall (fun x => ~ has "*/" x) mid /\ has "*/" z).
(** A comment up to the end of the line. *)
Definition line_comment (ws : list bytes) : Prop :=
  exists w rest, ws = w :: rest /\ (exists r, w = b "//" ++ r) /\ (~ In QM w \/ ~ has "/*" w).

Inductive item : list bytes -> list (list bytes) -> Prop :=
  | it_plain w : plain w -> item [w] [[w]]
  | it_pair w v : w = b "/begin" \/ w = b "/end" -> item [w; v] [[w; v]]
  | it_quoted ws : quoted ws -> item ws [ws]
  | it_comment ws : comment ws -> item ws [].

Inductive items : list bytes -> list (list bytes) -> Prop :=
  | its_nil : items [] []
  | its_cons ws1 g1 ws2 g2 : item ws1 g1 -> items ws2 g2 -> items (ws1 ++ ws2) (g1 ++ g2).

(** A line is self-contained: complete constructs, possibly a comment up to its end. *)
Inductive line_items : list bytes -> list (list bytes) -> Prop :=
  | li_items ws gs : items ws gs -> line_items ws gs
  | li_comment ws gs c : items ws gs -> line_comment c -> line_items (ws ++ c) gs.

(** Several lines: blocks of complete constructs, in which a construct may go on
    in the next line, and lines that end in a comment. *)
Inductive doc : list (list bytes) -> list (list bytes) -> Prop :=
  | doc_nil : doc [] []
  | doc_block ls gs rest gr : items (concat ls) gs -> doc rest gr -> doc (ls ++ rest) (gs ++ gr)
  | doc_comment ls ws c gs rest gr : items (concat ls ++ ws) gs -> line_comment c -> doc rest gr ->
      doc (ls ++ (ws ++ c) :: rest) (gs ++ gr).

(** ** Texts *)

Definition BS : ascii := ascii_of_N 92.
(** The text consists of these lines; without escapes. *)
Definition text_of (lines : list bytes) (text : bytes) : Prop :=
  text = join [LF] lines /\ lines <> [] /\ Forall (fun l => ~ In LF l /\ ~ In BS l) lines.

(** A visible ASCII character, a word of such characters. *)
Definition visible (c : ascii) : Prop := (33 <= N_of_ascii c <= 126)%N.
Definition word (w : bytes) : Prop := w <> [] /\ Forall visible w.
Definition blank_char (c : ascii) : Prop := (9 <= N_of_ascii c <= 13 \/ N_of_ascii c = 32)%N.

(** The line [l] consists of the words [ws] and blanks around them. *)
Inductive laid_out : bytes -> list bytes -> Prop :=
  | lo_nil : laid_out [] []
  | lo_blank c l ws : blank_char c -> laid_out l ws -> laid_out (c :: l) ws
  | lo_last w : word w -> laid_out w [w]
  | lo_word w c l ws : word w -> blank_char c -> laid_out l ws -> laid_out (w ++ c :: l) (w :: ws).

(** ** Automaton *)

Inductive mode :=
  | Normal                    (* between constructs *)
  | Comment                   (* waiting for the closing of a comment *)
  | Quote (text : bytes)      (* in a quoted text *)
  | Pair (first : bytes)      (* after /begin or /end *)
  | Rest                      (* in a comment up to the end of the line *)
  | Dead.                     (* after a stray slash *)

Inductive kind := KPlain | KQuote | KComment | KLine | KPair | KStray.

Definition hasb (p : string) (w : bytes) : bool := containsb (b p) w.

(** what precedes the first quotation mark *)
Fixpoint before_quote (w : bytes) : bytes :=
  match w with
  | [] => []
  | c :: w' => if Ascii.eqb c QM then [] else c :: before_quote w'
  end.

(** Does the opening [p] (two characters, the last not a quotation mark) start
    before the first quotation mark? *)
Definition kind_of (w : bytes) : kind :=
  if 0 <? quotes w then
    if hasb "/*" (before_quote w) then KComment
    else if hasb "//" (before_quote w) then KLine
    else KQuote
  else if hasb "//" w then KLine
  else if hasb "/*" w then KComment
  else if hasb "/" w && negb (hasb "*/" w) then
    if hasb "/begin" w || hasb "/end" w then KPair else KStray
  else KPlain.

Definition wstep (m : mode) (w : bytes) : mode * list bytes :=
  match m with
  | Normal =>
      match kind_of w with
      | KPlain => (Normal, [w])
      | KQuote => if Nat.even (quotes w) then (Normal, [w]) else (Quote w, [])
      | KComment => (if hasb "*/" w then Normal else Comment, [])
      | KLine => (Rest, [])
      | KPair => (Pair w, [])
      | KStray => (Dead, [])
      end
  | Comment => (if hasb "*/" w then Normal else Comment, [])
  | Quote t => let t' := t ++ b " " ++ w in if Nat.even (quotes t') then (Normal, [t']) else (Quote t', [])
  | Pair v => (Normal, [v ++ b " " ++ w])
  | Rest => (Rest, [])
  | Dead => (Dead, [])
  end.

Definition eol (m : mode) : mode := match m with Rest => Normal | m => m end.

Fixpoint lex_words (m : mode) (ws : list bytes) : mode * list bytes :=
  match ws with
  | [] => (m, [])
  | w :: ws' => let '(m1, t1) := wstep m w in let '(m2, t2) := lex_words m1 ws' in (m2, t1 ++ t2)
  end.

Fixpoint lex_lines (m : mode) (ls : list (list bytes)) : mode * list bytes :=
  match ls with
  | [] => (m, [])
  | l :: ls' => let '(m1, t1) := lex_words m l in let '(m2, t2) := lex_lines (eol m1) ls' in (m2, t1 ++ t2)
  end.

(** the tokens; what an unfinished construct has collected is dropped *)
Definition lex (ls : list (list bytes)) : list bytes := snd (lex_lines Normal ls).
