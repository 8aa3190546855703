(** Model of a2l/token_generator.go 43-349: from the text of an A2L file to the
    list of tokens.

    Log output is dropped, error texts are replaced by constructors.  The
    package variables [tokenList], [moduleCount], [useMultithreading] become
    results.  [numProc] (a2l/a2l.go 25, [runtime.NumCPU() * 2]) is a parameter. *)
From Coq Require Import String Ascii List Arith NArith Bool.
From Verif Require Import GoBase GoStrings ConcModel.
Import ListNotations.

(** ** strings.Fields, strings.TrimSpace, strings.Index, strings.Count *)

Definition byte_is (n : N) (c : ascii) : bool := (N_of_ascii c =? n)%N.

(** The width in bytes of the white space rune at the start of the text, 0 if
    there is none.  [unicode.IsSpace]: tab, LF, VT, FF, CR, blank, U+0085,
    U+00A0, U+1680, U+2000-200A, U+2028, U+2029, U+202F, U+205F, U+3000.  Their
    UTF-8 encodings start with a byte that is never a continuation byte, so
    they are decoded as such wherever they occur. *)
Definition space_width (s : bytes) : nat :=
  match s with
  | [] => 0
  | c1 :: r1 =>
      if ((9 <=? N_of_ascii c1)%N && (N_of_ascii c1 <=? 13)%N) || byte_is 32 c1 then 1
      else match r1 with
      | [] => 0
      | c2 :: r2 =>
          if byte_is 0xC2 c1 && (byte_is 0x85 c2 || byte_is 0xA0 c2) then 2
          else match r2 with
          | [] => 0
          | c3 :: _ =>
              if (byte_is 0xE1 c1 && byte_is 0x9A c2 && byte_is 0x80 c3)
                 || (byte_is 0xE2 c1 && byte_is 0x80 c2
                     && (((0x80 <=? N_of_ascii c3)%N && (N_of_ascii c3 <=? 0x8A)%N)
                         || byte_is 0xA8 c3 || byte_is 0xA9 c3 || byte_is 0xAF c3))
                 || (byte_is 0xE2 c1 && byte_is 0x81 c2 && byte_is 0x9F c3)
                 || (byte_is 0xE3 c1 && byte_is 0x80 c2 && byte_is 0x80 c3)
              then 3 else 0
          end
      end
  end.

(** [strings.Fields]: the maximal runs of bytes that are not white space.
    [skip]: remaining bytes of the white space rune just found; [cur]: the
    current word reversed. *)
Definition emit (cur : bytes) (l : list bytes) : list bytes :=
  match cur with [] => l | _ => rev cur :: l end.
Fixpoint fields_aux (skip : nat) (cur s : bytes) : list bytes :=
  match s with
  | [] => emit cur []
  | c :: s' =>
      match skip with
      | S k => fields_aux k cur s'
      | O => match space_width s with
             | O => fields_aux 0 (c :: cur) s'
             | S k => emit cur (fields_aux k [] s')
             end
      end
  end.
Definition fields (s : bytes) : list bytes := fields_aux 0 [] s.

(** [strings.TrimSpace(s) == ""]: white space only *)
Fixpoint blank_aux (skip : nat) (s : bytes) : bool :=
  match s with
  | [] => true
  | c :: s' =>
      match skip with
      | S k => blank_aux k s'
      | O => match space_width s with O => false | S k => blank_aux k s' end
      end
  end.
Definition blank (s : bytes) : bool := blank_aux 0 s.

(** [strings.Index(s, p)], [None] for -1 *)
Fixpoint find_index (p s : bytes) : option nat :=
  if prefixb p s then Some 0
  else match s with
       | [] => None
       | _ :: s' => match find_index p s' with Some i => Some (S i) | None => None end
       end.

(** [strings.Count(s, c)] for a single byte [c] *)
Definition count_byte (c : ascii) (s : bytes) : nat := List.length (filter (Ascii.eqb c) s).

(** a2l/tokens.go: the tokens used here *)
Definition emptyToken : bytes := [].
Definition quote : ascii := ascii_of_N 34.
Definition backslash : ascii := ascii_of_N 92.
Definition quotationMarkToken : bytes := [quote].
Definition beginLineCommentToken : bytes := b "//".
Definition beginMultilineCommentToken : bytes := b "/*".
Definition endMultilineCommentToken : bytes := b "*/".
Definition slashToken : bytes := b "/".
Definition spaceToken : bytes := b " ".
Definition beginModuleToken : bytes := b "/begin MODULE".

(** ** The cursor functions

    [str] is the list of lines, each a list of words; the cursor is the pair
    (currentOuterIndex, currentInnerIndex).  The only write to [str]
    (token_generator.go 303) happens together with an error, after which
    [buildTokenList] returns, so [str] is constant. *)
Inductive terr := TEof | TNoComment | TNoQuote | TUnexpected | TNoPair | TBounds | TFuel.

Definition cursor := (nat * nat)%type.

Section Str.
Variable str : list (list bytes).

(** [str[outer][inner]] *)
Definition word_at (cu : cursor) : outcome terr bytes :=
  obind (index str (fst cu)) (fun l => index l (snd cu)).

(** token_generator.go 295-320.  [fuel] bounds the recursion of line 314. *)
Fixpoint moveNext (fuel : nat) (cu : cursor) : outcome terr (bytes * cursor) :=
  let '(o, i) := cu in
  match nth_error str o with
  | None => Panic
  | Some line =>
      if (i + 1 <? List.length line) && (0 <? List.length line) then
        obind (index line (i + 1)) (fun w => Ok (w, (o, i + 1)))
      else
        obind (if (List.length line =? i + 1) && (List.length str =? o + 1)
               then obind (index line i) (fun w => Ok (negb (beqb w emptyToken)))
               else Ok false)
          (fun second =>
             if second then Err TEof
             else if (List.length line =? i + 1) && (o + 1 <? List.length str) then
               match nth_error str (o + 1) with
               | None => Panic
               | Some line' =>
                   match line' with
                   | w :: _ => Ok (w, (o + 1, 0))
                   | [] => match fuel with
                           | O => Err TFuel
                           | S f => moveNext f (o + 1, 0)
                           end
                   end
               end
             else Err TUnexpected)
  end.

Definition moveToNextRawValue (cu : cursor) : outcome terr (bytes * cursor) := moveNext (List.length str) cu.

(** token_generator.go 213-227 *)
Definition skipLineComment (cu : cursor) : outcome terr (bytes * cursor) :=
  obind (word_at cu) (fun w =>
    if containsb beginLineCommentToken w then
      if fst cu + 1 <? List.length str
      then obind (word_at (fst cu + 1, 0)) (fun w' => Ok (w', (fst cu + 1, 0)))
      else Err TEof
    else Err TNoComment).

(** token_generator.go 236-251: the loop *)
Fixpoint skipLoop (fuel : nat) (cu : cursor) : outcome terr (bytes * cursor) :=
  match fuel with
  | O => Err TFuel
  | S f =>
      obind (moveToNextRawValue cu) (fun r =>
        if containsb endMultilineCommentToken (fst r) then moveToNextRawValue (snd r)
        else if beqb (fst r) emptyToken then Err TEof
        else skipLoop f (snd r))
  end.

(** an upper bound of the number of words ahead *)
Definition words : nat := List.length (concat str).

(** token_generator.go 231-259 *)
Definition skipMultilineComment (cu : cursor) : outcome terr (bytes * cursor) :=
  obind (word_at cu) (fun w =>
    if containsb beginMultilineCommentToken w && negb (containsb endMultilineCommentToken w)
    then skipLoop (S words) cu
    else if containsb beginMultilineCommentToken w && containsb endMultilineCommentToken w
    then moveToNextRawValue cu
    else Err TEof).

(** token_generator.go 272-283: the loop *)
Fixpoint quoteLoop (fuel : nat) (cu : cursor) (text : bytes) : outcome terr (bytes * cursor) :=
  match fuel with
  | O => Err TFuel
  | S f =>
      obind (moveToNextRawValue cu) (fun r =>
        let text' := text ++ spaceToken ++ fst r in
        if Nat.even (count_byte quote text') then Ok (text', snd r)
        else quoteLoop f (snd r) text')
  end.

(** token_generator.go 261-289 *)
Definition getTextInQuotationMarks (cu : cursor) : outcome terr (bytes * cursor) :=
  obind (word_at cu) (fun w =>
    if count_byte quote w =? 0 then Err TNoQuote
    else if negb (Nat.even (count_byte quote w)) then quoteLoop (S words) cu w
    else Ok (w, cu)).

(** token_generator.go 333-349 *)
Definition getTwoWordedToken (cu : cursor) : outcome terr (bytes * cursor) :=
  obind (word_at cu) (fun w =>
    if containsb (b "/begin") w || containsb (b "/end") w then
      obind (moveToNextRawValue cu) (fun r => Ok (w ++ spaceToken ++ fst r, snd r))
    else Err TNoPair).

Definition beforeb (p q : option nat) : bool :=
  match p, q with Some x, Some y => x <? y | _, _ => false end.

(** token_generator.go 158-209: from the label [start] on; one unit of [fuel]
    per [goto start] *)
Fixpoint validToken (fuel : nat) (t : bytes) (cu : cursor) : outcome terr (bytes * cursor) :=
  match fuel with
  | O => Err TFuel
  | S f =>
      if beqb t emptyToken then Err TEof
      else if containsb quotationMarkToken t then
        let qtp := find_index quotationMarkToken t in
        let lcp := find_index beginLineCommentToken t in
        let mlcp := find_index beginMultilineCommentToken t in
        if beforeb mlcp qtp then obind (skipMultilineComment cu) (fun r => validToken f (fst r) (snd r))
        else if beforeb lcp qtp then obind (skipLineComment cu) (fun r => validToken f (fst r) (snd r))
        else getTextInQuotationMarks cu
      else if containsb beginLineCommentToken t then
        obind (skipLineComment cu) (fun r => validToken f (fst r) (snd r))
      else if containsb beginMultilineCommentToken t then
        obind (skipMultilineComment cu) (fun r => validToken f (fst r) (snd r))
      else if containsb slashToken t && negb (containsb endMultilineCommentToken t) then getTwoWordedToken cu
      else Ok (t, cu)
  end.

(** token_generator.go 136-157 *)
Definition buildNextValidToken (cu : cursor) (firstRun : bool) : outcome terr (bytes * cursor) :=
  if negb firstRun then
    obind (moveToNextRawValue cu) (fun r => validToken (S words) (fst r) (snd r))
  else
    match nth_error str (fst cu) with
    | Some line => match nth_error line (snd cu) with
                   | Some t => validToken (S words) t cu
                   | None => Err TBounds
                   end
    | None => Err TBounds
    end.

(** token_generator.go 108-133.  Every error ends the list silently. *)
Fixpoint tokenLoop (fuel : nat) (cu : cursor) (firstRun : bool) (tl : list bytes) : outcome terr (list bytes) :=
  match fuel with
  | O => Err TFuel
  | S f =>
      match buildNextValidToken cu firstRun with
      | Panic => Panic
      | Err TFuel => Err TFuel
      | Err _ => Ok tl
      | Ok (t, cu') =>
          if negb (beqb t emptyToken) then
            if containsb (b "*/") t && negb (containsb (b "*/") t)
            then tokenLoop f cu' false []
            else tokenLoop f cu' false (tl ++ [t])
          else Ok tl
      end
  end.
End Str.

(** token_generator.go 100-134 *)
Definition buildTokenList (str : list (list bytes)) : outcome terr (list bytes) :=
  tokenLoop str (S (words str)) (0, 0) true [].

(** token_generator.go 88-98 without the channel operations *)
Definition tokenBuilder (lines : list bytes) : outcome terr (list bytes) :=
  buildTokenList (map fields (filter (fun l => negb (blank l)) lines)).

(** token_generator.go 47-53 *)
Definition textLines (str : bytes) : list bytes :=
  split (b (String (ascii_of_N 10) EmptyString)) (replace_all str [backslash; quote] (b "'")).

(** The result of buildTokenGeneratorFromString: the token list, and whether
    the parser may run in parallel. *)
Record tokens := Tokens { tk_list : list bytes; tk_multithreading : bool }.

Definition result (chunkTokens : list (list bytes)) (collected : list bytes) : tokens :=
  Tokens (collected ++ [emptyToken])
         (negb (1 <? u32 (N.of_nat (List.length (filter (beqb beginModuleToken) (concat chunkTokens)))))%N).

(** token_generator.go 43-86: the goroutines send one list each on their own
    channel (capacity 1), which are received in order; the module count is
    complete when all channels are closed.  [None]: a goroutine panics (or the
    fuel of the model was too small). *)
Fixpoint all_ok {E A} (l : list (outcome E A)) : option (list A) :=
  match l with
  | [] => Some []
  | Ok a :: l' => match all_ok l' with Some r => Some (a :: r) | None => None end
  | _ :: _ => None
  end.

Definition chunkResults (np : nat) (text : bytes) : list (outcome terr (list bytes)) :=
  map tokenBuilder (chunks np (textLines text)).

Definition tok_absorb (acc m : list bytes) : list bytes * bool := (acc ++ m, false).

Definition tok_exec (np : nat) (text : bytes) (r : option tokens) : Prop :=
  match all_ok (chunkResults np text) with
  | None => r = None
  | Some ls => exists out, crun tok_absorb 1 (map (fun l => [l]) ls) [] out /\ r = Some (result ls out)
  end.

