(** The number denoted by a float64, in units of 2^-1074 (every finite float64
    is an integer multiple of 2^-1074). *)
From Coq Require Import ZArith Bool Floats.SpecFloat.
Local Open Scope Z_scope.

Definition unit1 : Z := 2 ^ 1074.

Definition fval (f : spec_float) : option Z :=
  match f with
  | S754_zero _ => Some 0
  | S754_finite s m e => Some ((if s then -1 else 1) * Zpos m * 2 ^ (e + 1074))
  | _ => None
  end.

(** the float64 numbers: mantissa below 2^53, exponent at least -1074 *)
Definition is_float64 (f : spec_float) : Prop :=
  match f with
  | S754_finite _ m e => Zpos m < 2 ^ 53 /\ -1074 <= e /\ e <= 971
  | _ => True
  end.

(** [f] is the number [x] rounded to nearest: no float64 is closer to [x]. *)
Definition nearest (x : Z) (f : spec_float) : Prop :=
  is_float64 f /\
  exists v, fval f = Some v /\
    forall g w, is_float64 g -> fval g = Some w -> Z.abs (v - x) <= Z.abs (w - x).

(** [f] is exactly the number [x]. *)
Definition exactly (x : Z) (f : spec_float) : Prop := is_float64 f /\ fval f = Some x.

(** the canonical representation, which every Go float64 has: of the
    representations [m * 2^e] of a number the one with the smallest exponent *)
Definition canon (f : spec_float) : Prop := valid_binary 53 1024 f = true.

(** numeric equality as in IEEE 754: NaN is equal to nothing, the two zeros are equal *)
Definition same_number (x y : spec_float) : Prop :=
  (exists v, fval x = Some v /\ fval y = Some v)
  \/ (exists s, x = S754_infinity s /\ y = S754_infinity s).

(** [f] is [x] rounded to nearest: no float64 is nearer to [x], given in units of 2^-(1074+K) *)
Definition nearestK (K x : Z) (f : spec_float) : Prop :=
  exists v, fval f = Some v /\
    forall g w, is_float64 g -> fval g = Some w -> Z.abs (v * 2 ^ K - x) <= Z.abs (w * 2 ^ K - x).


(** [f] is the integer [z]. *)
Definition isint (f : spec_float) (z : Z) : Prop := canon f /\ fval f = Some (z * unit1).

