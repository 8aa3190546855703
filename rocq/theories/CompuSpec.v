(** Specification of table lookups and of the RAT_FUNC conversion. *)
From Coq Require Import String Ascii List Arith NArith ZArith Bool Floats.SpecFloat.
From Verif Require Import GoBase FloatModel FloatSpec CompuModel.
Import ListNotations.

(** The first entry whose key is the number [dec] has the value [o]. *)
Definition first_entry {A} (dec : f64) (l : list (f64 * A)) (o : A) : Prop :=
  exists pre v post, l = pre ++ (v, o) :: post /\ same_number dec v
    /\ Forall (fun p => ~ same_number dec (fst p)) pre.
Definition no_entry {A} (dec : f64) (l : list (f64 * A)) : Prop := Forall (fun p => ~ same_number dec (fst p)) l.

Definition nonempty {A} (l : list A) : bool := match l with [] => false | _ => true end.

(** The tables as parsed from a list of pairs and an optional default. *)
Definition tab_of (l : list (f64 * f64)) (d : option f64) : compuTab :=
  CompuTab (map fst l) (nonempty l) (map snd l) (nonempty l)
           (match d with Some x => x | None => S754_zero false end) (match d with Some _ => true | None => false end).
Definition vtab_of (l : list (f64 * bytes)) (d : option bytes) : compuVTab :=
  CompuVTab (map fst l) (nonempty l) (map snd l) (nonempty l)
            (match d with Some x => x | None => [] end) (match d with Some _ => true | None => false end).
Record triple := Triple { t_lo : f64; t_hi : f64; t_text : bytes }.
Definition range_of (l : list triple) (d : option bytes) : compuVTabRange :=
  CompuVTabRange (N.of_nat (length l)) true (map t_lo l) (map t_hi l) (map t_text l)
                 (match d with Some x => x | None => [] end) (match d with Some _ => true | None => false end).

(** the half open range of a triple contains the number [dec] *)
Definition contains (t : triple) (dec : f64) : Prop :=
  exists lo hi v, fval (t_lo t) = Some lo /\ fval (t_hi t) = Some hi /\ fval dec = Some v /\ (lo <= v < hi)%Z.

Definition coeffs6 (a b_ c d e f : f64) : coeffs :=
  Coeffs (Co a true) (Co b_ true) (Co c true) (Co d true) (Co e true) (Co f true).
Definition noCoeffs : coeffs :=
  Coeffs (Co (S754_zero false) false) (Co (S754_zero false) false) (Co (S754_zero false) false)
         (Co (S754_zero false) false) (Co (S754_zero false) false) (Co (S754_zero false) false).
Definition noLinear : coeffsLinear := CoeffsLinear (Co (S754_zero false) false) (Co (S754_zero false) false).

Definition ratMethod (a b_ c d e f : f64) : compuMethod := CompuMethod RatFunc (coeffs6 a b_ c d e f) noLinear [].
Definition linMethod (a b_ : f64) : compuMethod :=
  CompuMethod Linear noCoeffs (CoeffsLinear (Co a true) (Co b_ true)) [].
Definition tabMethod (t : conversionType) (name : bytes) : compuMethod := CompuMethod t noCoeffs noLinear name.
