(** Go's float64, float32 as the specification floats of the standard library
    (IEEE 754 binary formats, round to nearest even, one NaN).  Fused
    multiply-add, which Go permits on some processors, is not modelled. *)
From Coq Require Import ZArith Bool Floats.SpecFloat.
Local Open Scope Z_scope.

Definition f64 := spec_float.
Definition fadd : f64 -> f64 -> f64 := SFadd 53 1024.
Definition fsub : f64 -> f64 -> f64 := SFsub 53 1024.
Definition fmul : f64 -> f64 -> f64 := SFmul 53 1024.
Definition fdiv : f64 -> f64 -> f64 := SFdiv 53 1024.
Definition fsqrt : f64 -> f64 := SFsqrt 53 1024.
(** [==], [<=], [<] on float64 *)
Definition feqb : f64 -> f64 -> bool := SFeqb.
Definition fleb : f64 -> f64 -> bool := SFleb.
Definition fltb : f64 -> f64 -> bool := SFltb.
(** float64 of an integer *)
Definition f_of_Z (z : Z) : f64 := binary_normalize 53 1024 z 0 false.
(** [math.Ldexp]: f * 2^k *)
Definition fldexp (f : f64) (k : Z) : f64 :=
  match f with S754_finite s m e => binary_normalize 53 1024 (cond_Zopp s (Zpos m)) (e + k) s | _ => f end.
(** [math.Pow(x, 2)] as Go 1.18 computes it (math/pow.go; it is not in assembly on
    amd64 and arm64): [math.Frexp] gives x = x1 * 2^xe with 1/2 <= x1 < 1, x1 is
    squared, then [math.Ldexp].  This is [x*x] unless the result is below 2^-1022,
    where it is rounded twice. *)
Definition fsquare (x : f64) : f64 :=
  match x with
  | S754_zero _ => S754_zero false
  | S754_infinity _ => S754_infinity false
  | S754_nan => S754_nan
  | S754_finite _ m e =>
      let d := Zpos (digits2_pos m) in
      let x1 := S754_finite false (Z.to_pos (Zpos m * 2 ^ (53 - d))) (-53) in
      fldexp (fmul x1 x1) (2 * (e + d))
  end.

(** Decoding a bit pattern with [mw] mantissa bits and [ew] exponent bits:
    [math.Float32frombits] (23, 8), [math.Float64frombits] (52, 11). *)
Definition float_of_bits (mw ew : Z) (n : Z) : spec_float :=
  let m := n mod 2 ^ mw in
  let ex := (n / 2 ^ mw) mod 2 ^ ew in
  let s := Z.odd (n / 2 ^ (mw + ew)) in
  let lo := 3 - 2 ^ (ew - 1) - (mw + 1) in
  if ex =? 0 then
    match m with Zpos p => S754_finite s p lo | _ => S754_zero s end
  else if ex =? 2 ^ ew - 1 then
    if m =? 0 then S754_infinity s else S754_nan
  else
    match m + 2 ^ mw with Zpos p => S754_finite s p (ex - 1 + lo) | _ => S754_nan end.

(** float64 of a float32 *)
Definition widen (f : spec_float) : f64 :=
  match f with
  | S754_finite s m e => binary_round 53 1024 s m e
  | f => f
  end.

(** int64 of a float64: truncation; the result for values outside the range is
    left open by Go and taken as on amd64. *)
Definition int64_of (f : f64) : Z :=
  match f with
  | S754_finite s m e =>
      let t := cond_Zopp s (if 0 <=? e then Zpos m * 2 ^ e else Zpos m / 2 ^ (- e)) in
      if (- 9223372036854775808 <=? t) && (t <=? 9223372036854775807) then t else - 9223372036854775808
  | S754_zero _ => 0
  | _ => - 9223372036854775808
  end.
