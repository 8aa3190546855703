(** Numbers as texts, and the float64 for a number: the specification.  Nothing here
    refers to the code. *)
From Coq Require Import String Ascii List Arith NArith ZArith Bool SpecFloat.
From Verif Require Import GoBase FloatSpec.
Import ListNotations.
Local Open Scope Z_scope.

(** ** The float64 for the number p/q, with a sign *)

(** The sign of a number, also of a zero *)
Definition signOk (s : bool) (f : spec_float) : Prop :=
  match f with
  | S754_zero s' | S754_infinity s' | S754_finite s' _ _ => s' = s
  | S754_nan => False
  end.

Definition evenMantissa (f : spec_float) : Prop :=
  match f with S754_finite _ m _ => Z.even (Zpos m) = true | _ => True end.

(** [rounded neg p q f]: [f] is a float64 with the given sign, none is closer to p/q (or
    -p/q), and if another one is as close, then the mantissa of [f] is even.  The
    differences are multiplied by [q] and by 2^1074. *)
Definition rounded (neg : bool) (p q : Z) (f : spec_float) : Prop :=
  canon f /\ signOk neg f /\
  exists v, fval f = Some v /\
    forall g w, is_float64 g -> fval g = Some w ->
      Z.abs (v * q - (if neg then -1 else 1) * p * unit1) <= Z.abs (w * q - (if neg then -1 else 1) * p * unit1) /\
      (w <> v -> Z.abs (v * q - (if neg then -1 else 1) * p * unit1) = Z.abs (w * q - (if neg then -1 else 1) * p * unit1) -> evenMantissa f).

(** From here on numbers are too large: the middle of the largest float64 and 2^1024. *)
Definition limit : Z := (2 ^ 54 - 1) * 2 ^ 970.

(** ** Numbers as texts *)

(** The letter [c] is the digit [d]: 0 to 9, with [hex] also a to f and A to F. *)
Definition isDigit (hex : bool) (c : ascii) (d : Z) : Prop :=
  let n := Z.of_N (N_of_ascii c) in
  (0 <= d <= 9 /\ n = 48 + d) \/ (hex = true /\ 10 <= d <= 15 /\ (n = 87 + d \/ n = 55 + d)).

Definition areDigits (hex : bool) : bytes -> list Z -> Prop := Forall2 (isDigit hex).

(** The number with the digits [l]. *)
Definition inBase (base : Z) (l : list Z) : Z := fold_left (fun a d => base * a + d) l 0.

(** A sign: plus, minus, or nothing. *)
Inductive isSign : bytes -> bool -> Prop :=
  | SignNone : isSign [] false
  | SignPlus : isSign (b "+") false
  | SignMinus : isSign (b "-") true.

(** Digits with or without a point: digits before and after it. *)
Inductive isMantissa (hex : bool) : bytes -> list Z -> list Z -> Prop :=
  | MantWhole : forall ds l, areDigits hex ds l -> l <> [] -> isMantissa hex ds l []
  | MantPoint : forall ds l ds' l', areDigits hex ds l -> areDigits hex ds' l' -> l ++ l' <> [] ->
                isMantissa hex (ds ++ b "." ++ ds') l l'.

(** An exponent: one of two letters, a sign, decimal digits. *)
Inductive isExponent (lo up : ascii) : bytes -> Z -> Prop :=
  | Expo : forall c sg neg ds l, c = lo \/ c = up -> isSign sg neg -> areDigits false ds l -> l <> [] ->
           isExponent lo up (c :: sg ++ ds) ((if neg then -1 else 1) * inBase 10 l).

(** The fraction of integers for m * base^x *)
Definition numer (base m x : Z) : Z := m * base ^ Z.max 0 x.
Definition denom (base x : Z) : Z := base ^ Z.max 0 (- x).

(** [isNumber t neg p q e]: the text [t] is the number p/q, or -p/q, with exponent [e].
    Decimal: sign, digits, exponent of ten or none.  Hexadecimal: sign, 0x or 0X,
    digits, exponent of two. *)
Inductive isNumber : bytes -> bool -> Z -> Z -> Z -> Prop :=
  | NumPlain : forall sg neg mt l l', isSign sg neg -> isMantissa false mt l l' ->
      isNumber (sg ++ mt) neg (numer 10 (inBase 10 (l ++ l')) (- Z.of_nat (length l'))) (denom 10 (- Z.of_nat (length l'))) 0
  | NumExpo : forall sg neg mt l l' ex e, isSign sg neg -> isMantissa false mt l l' -> isExponent "e" "E" ex e ->
      isNumber (sg ++ mt ++ ex) neg (numer 10 (inBase 10 (l ++ l')) (e - Z.of_nat (length l'))) (denom 10 (e - Z.of_nat (length l'))) e
  | NumHex : forall sg neg x mt l l' ex e, isSign sg neg -> x = "x"%char \/ x = "X"%char -> isMantissa true mt l l' -> isExponent "p" "P" ex e ->
      isNumber (sg ++ "0"%char :: x :: mt ++ ex) neg (numer 2 (inBase 16 (l ++ l')) (e - 4 * Z.of_nat (length l'))) (denom 2 (e - 4 * Z.of_nat (length l'))) e.

(** Underscores between the digits are left out. *)
Definition plain (t : bytes) : bytes := filter (fun c => negb (c =? "_")%char) t.

(** A text that begins like a hexadecimal number. *)
Definition hexText (t : bytes) : Prop :=
  exists sg neg x r, isSign sg neg /\ (x = "x"%char \/ x = "X"%char) /\ t = sg ++ "0"%char :: x :: r.
(** Underscores stand only between two digits, or between 0x and a digit. *)
Definition separated (t : bytes) : Prop :=
  forall hex s r, (hex = true <-> hexText t) -> t = s ++ "_"%char :: r ->
    (exists s' c, s = s' ++ [c] /\ ((exists d, isDigit hex c d) \/ hex = true /\ exists sg neg, isSign sg neg /\ s' = sg ++ b "0")) /\
    (exists c r' d, r = c :: r' /\ isDigit hex c d).

(** The words for what is not a number: in small or capital letters. *)
Definition inLetters (t w : bytes) : Prop :=
  Forall2 (fun c d => c = d \/ (65 <= N_of_ascii c <= 90 /\ N_of_ascii d = N_of_ascii c + 32)%N) t w.
Inductive isWord : bytes -> spec_float -> Prop :=
  | WordInf : forall sg neg t, isSign sg neg -> inLetters t (b "inf") \/ inLetters t (b "infinity") -> isWord (sg ++ t) (S754_infinity neg)
  | WordNaN : forall t, inLetters t (b "nan") -> isWord t S754_nan.

(** Exponents from 100000 on are left open in texts of more than 2000 characters. *)
Definition usual (t : bytes) (e : Z) : Prop := Z.abs e < 100000 \/ (length t <= 2000)%nat.

(** [means t f]: [f] is the float64 for the number in the text [t], which is below the
    limit, or one of the words. *)
Inductive means (t : bytes) (f : spec_float) : Prop :=
  | MeansNumber : forall neg p q e, isNumber (plain t) neg p q e -> separated t -> (usual (plain t) e -> p < limit * q /\ rounded neg p q f) -> means t f
  | MeansWord : isWord t f -> means t f.
