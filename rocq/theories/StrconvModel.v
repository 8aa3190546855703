(** The functions of Go's package strconv that the parsers of package a2l call, as
    far as they are needed beside [ParseUint] and [ParseInt] of A2lIR.v: what these
    two return together with an error, and ParseFloat(s, 64).

    ParseFloat is a parameter of the models and theorems; [ParseFloat] below is what
    it stands for, and [failedFloat] what is returned together with its error. *)
From Coq Require Import String Ascii List Arith NArith ZArith Bool SpecFloat.
From Verif Require Import GoBase.
Import ListNotations.

(** ** Integers: strconv/atoi.go

    [ParseUint(s, 10, bits)] with an error returns 0 if it meets a byte that is not a
    digit (or if there is none), and the largest value if the value gets too large
    before that. *)
Fixpoint failedUint (bits : N) (acc : N) (s : bytes) : N :=
  match s with
  | [] => 0
  | c :: s' => match digit_val c with
               | Some d => if (10 * acc + d <? 2 ^ bits)%N then failedUint bits (10 * acc + d) s' else (2 ^ bits - 1)%N
               | None => 0
               end
  end%N.

(** Whether reading stops because of the value *)
Fixpoint tooLarge (bits : N) (acc : N) (s : bytes) : bool :=
  match s with
  | [] => false
  | c :: s' => match digit_val c with
               | Some d => if (10 * acc + d <? 2 ^ bits)%N then tooLarge bits (10 * acc + d) s' else true
               | None => false
               end
  end.

Fixpoint allDigits (s : bytes) : bool :=
  match s with [] => true | c :: s' => match digit_val c with Some _ => allDigits s' | None => false end end.

(** [ParseInt(s, 10, bits)] calls ParseUint without the sign.  If the value is too large
    there, or if all is read and it is too large here, the nearest value is returned. *)
Definition failedInt (bits : N) (s : bytes) : Z :=
  let '(neg, r) := match s with
                   | "+"%char :: r => (false, r)
                   | "-"%char :: r => (true, r)
                   | _ => (false, s)
                   end in
  let h := (2 ^ (Z.of_N bits - 1))%Z in
  if tooLarge bits 0 r || (allDigits r && negb (match r with [] => true | _ => false end))
  then if neg then (- h)%Z else (h - 1)%Z
  else 0%Z.

(** ** Floats: strconv/atof.go *)

(** the value of a digit, in decimal or hexadecimal texts *)
Definition floatDigit (hex : bool) (c : ascii) : option N := if hex then hex_any c else digit_val c.

(** readFloat: the digits with at most one point.  [seen]: a digit was read; [m]: the
    digits as a number; [nf]: how many of them come after the point.  Go keeps the first
    19 (16) digits and the information whether the others are zero. *)
Fixpoint mantissa (hex dot seen : bool) (m : N) (nf : nat) (s : bytes) : bool * N * nat * bytes :=
  match s with
  | [] => (seen, m, nf, s)
  | c :: s' =>
      if (c =? "_")%char then mantissa hex dot seen m nf s'
      else if (c =? ".")%char then if dot then (seen, m, nf, s) else mantissa hex true seen m nf s'
      else match floatDigit hex c with
           | Some d => mantissa hex dot true ((if hex then 16 else 10) * m + d)%N (if dot then S nf else nf) s'
           | None => (seen, m, nf, s)
           end
  end.

(** the digits of an exponent; beyond 10000 they are skipped *)
Fixpoint exponent (e : N) (s : bytes) : N * bytes :=
  match s with
  | [] => (e, s)
  | c :: s' =>
      if (c =? "_")%char then exponent e s'
      else match digit_val c with
           | Some d => exponent (if (e <? 10000)%N then (10 * e + d)%N else e) s'
           | None => (e, s)
           end
  end.

(** underscoreOK, after the sign and the base prefix: [digit] says whether the byte before
    is a digit (or the prefix), [us] whether it is an underscore *)
Fixpoint underscores (hex digit us : bool) (s : bytes) : bool :=
  match s with
  | [] => negb us
  | c :: s' =>
      if (c =? "_")%char then digit && underscores hex false true s'
      else match floatDigit hex c with
           | Some _ => underscores hex true false s'
           | None => negb us && underscores hex false false s'
           end
  end.

Definition signOf (s : bytes) : bool * bytes :=
  match s with
  | "+"%char :: r => (false, r)
  | "-"%char :: r => (true, r)
  | _ => (false, s)
  end.

Definition isByte (lo up : ascii) (c : ascii) : bool := (c =? lo)%char || (c =? up)%char.

(** readFloat: sign, hexadecimal or not, digits, and the exponent of 10 or 2; None for
    a text that is not a number from its begin to its end.  (With a prefix 0b or 0o the
    digits end at the letter.) *)
Definition readFloat (s : bytes) : option (bool * bool * N * Z) :=
  let '(neg, r) := signOf s in
  let '(hex, body) := match r with
                      | z :: x :: y :: r' => if (z =? "0")%char && isByte "x" "X" x then (true, y :: r') else (false, r)
                      | _ => (false, r)
                      end in
  let '(seen, m, nf, rest) := mantissa hex false false 0 0 body in
  let scale := if hex then 4%Z else 1%Z in
  let whole e := if underscores hex hex false body then Some (neg, hex, m, (e - scale * Z.of_nat nf)%Z) else None in
  if negb seen then None
  else match rest with
       | [] => if hex then None else whole 0%Z
       | c :: rest' =>
           if (if hex then isByte "p" "P" c else isByte "e" "E" c)
           then let '(eneg, ds) := signOf rest' in
                match ds with
                | d :: _ => match digit_val d with
                            | Some _ => let '(e, more) := exponent 0 ds in
                                        match more with
                                        | [] => whole (if eneg then (- Z.of_N e)%Z else Z.of_N e)
                                        | _ => None
                                        end
                            | None => None
                            end
                | [] => None
                end
           else None
       end.

(** The float64 next to m * 10^e or m * 2^e: the quotient of two integers, rounded
    once. *)
Definition nearest (neg hex : bool) (m : N) (e : Z) : spec_float :=
  match m with
  | N0 => S754_zero neg
  | Npos p =>
      let base := if hex then 2%Z else 10%Z in
      SFdiv 53 1024 (S754_finite neg (Z.to_pos (Zpos p * base ^ Z.max 0 e)) 0) (S754_finite false (Z.to_pos (base ^ Z.max 0 (- e))) 0)
  end.

(** special: inf, infinity (with a sign or not), nan (without), in any case *)
Definition sameText (s t : bytes) : bool :=
  beqb (map (fun c => let n := N_of_ascii c in if (65 <=? n)%N && (n <=? 90)%N then ascii_of_N (n + 32) else c) s) t.

Definition special (s : bytes) : option spec_float :=
  let '(neg, r) := signOf s in
  if sameText r (b "inf") || sameText r (b "infinity") then Some (S754_infinity neg)
  else if sameText s (b "nan") then Some S754_nan
  else None.

(** strconv.ParseFloat(s, 64); None: an error *)
Definition ParseFloat (s : bytes) : option spec_float :=
  match special s with
  | Some f => Some f
  | None => match readFloat s with
            | Some (neg, hex, m, e) => match nearest neg hex m e with S754_infinity _ => None | f => Some f end
            | None => None
            end
  end.

(** What it returns with an error: an infinity if the number is too large, else 0 *)
Definition failedFloat (s : bytes) : spec_float :=
  match readFloat s with
  | Some (neg, _, _, _) => S754_infinity neg
  | None => S754_zero false
  end.
