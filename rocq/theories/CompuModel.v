(** Model of compu_methods.go: conversion of decimal to physical values.

    [cd.A2l.Project.Modules[cd.ModuleIndex]] is the module whose tables are given
    in the context; the index is assumed to be in range.  Log output is not
    modelled, errors are represented by their kind.  Products and sums are
    rounded one by one: on amd64 the Go compiler does not fuse them (it may on
    other architectures). *)
From Coq Require Import String Ascii List Arith NArith ZArith Bool Floats.SpecFloat.
From Verif Require Import GoBase FloatModel.
Import ListNotations.

Inductive cmerr := CForm | CCoeffs | CZeroDiv | CNoTable | CNoDefault | CNoOutput | CVerb | CUndef.

(** A Go result [(value, error)], or a panic. *)
Inductive cres (A : Type) : Type := Ret (v : A) (e : option cmerr) | CPanic.
Arguments Ret {A}.
Arguments CPanic {A}.

(** a2l/enums.go, conversionTypeEnum *)
Inductive conversionType := Identical | Form | Linear | RatFunc | TabIntp | TabNointp | TabVerb | ConvUndef.

(** a2l/coeffs.go 10-23, a2l/coeffs_linear.go 10-15; a value with its Set flag *)
Record coeff := Co { co_val : f64; co_set : bool }.
Record coeffs := Coeffs { cA : coeff; cB : coeff; cC : coeff; cD : coeff; cE : coeff; cF : coeff }.
Record coeffsLinear := CoeffsLinear { lA : coeff; lB : coeff }.

(** a2l/compu_method.go 10-27: the fields used *)
Record compuMethod := CompuMethod {
  cm_type : conversionType;
  cm_coeffs : coeffs;
  cm_linear : coeffsLinear;
  cm_tabRef : bytes
}.

(** a2l/compu_tab.go 12-27 *)
Record compuTab := CompuTab {
  ct_in : list f64; ct_inSet : bool;
  ct_out : list f64; ct_outSet : bool;
  ct_default : f64; ct_defaultSet : bool      (* DefaultValueNumeric.DisplayValue *)
}.
(** the zero value of the type *)
Definition noTab : compuTab := CompuTab [] false [] false (S754_zero false) false.

(** a2l/compu_vtab.go 12-26 *)
Record compuVTab := CompuVTab {
  cv_in : list f64; cv_inSet : bool;
  cv_out : list bytes; cv_outSet : bool;
  cv_default : bytes; cv_defaultSet : bool    (* DefaultValue.DisplayString *)
}.

(** a2l/compu_vtab_range.go 12-27 *)
Record compuVTabRange := CompuVTabRange {
  cr_number : N; cr_numberSet : bool;         (* uint16 *)
  cr_min : list f64; cr_max : list f64; cr_out : list bytes;
  cr_default : bytes; cr_defaultSet : bool
}.

(** Maps from names, at most one entry per name. *)
Definition smap (A : Type) := list (bytes * A).
Fixpoint sfind {A} (k : bytes) (m : smap A) : option A :=
  match m with
  | [] => None
  | (k', v) :: m' => if beqb k k' then Some v else sfind k m'
  end.

Record compuCtx := CompuCtx {
  mod_tabs : smap compuTab;
  mod_vtabs : smap compuVTab;
  mod_ranges : smap compuVTabRange
}.

(** compu_methods.go 60-87.  The condition of line 71 names [InValMin] twice. *)
Fixpoint rangeLoop (dec : f64) (t : compuVTabRange) (todo : nat) (i : nat) : cres bytes :=
  match todo with
  | O => if cr_defaultSet t then Ret (cr_default t) None else Ret [] (Some CNoDefault)
  | S todo' =>
      match nth_error (cr_min t) i with
      | None => CPanic
      | Some lo =>
          if fleb lo dec && fltb dec lo
          then match nth_error (cr_out t) i with Some s => Ret s None | None => CPanic end
          else rangeLoop dec t todo' (i + 1)
      end
  end.

Definition calcTabVerbRange (dec : f64) (name : bytes) (cx : compuCtx) : cres bytes :=
  match sfind name (mod_ranges cx) with
  | None => Ret [] (Some CNoTable)
  | Some t =>
      if cr_numberSet t then rangeLoop dec t (N.to_nat (cr_number t)) 0
      else Ret [] (Some CNoOutput)
  end.

(** compu_methods.go 98-102 and 175-179: the search [for i := range tab.InVal];
    [None] if no input equals [dec] *)
Fixpoint searchLoop {A} (dec : f64) (ins : list f64) (outs : list A) (i : nat) : option (cres A) :=
  match ins with
  | [] => None
  | v :: ins' =>
      if feqb dec v
      then Some (match nth_error outs i with Some s => Ret s None | None => CPanic end)
      else searchLoop dec ins' outs (i + 1)
  end.

(** compu_methods.go 89-114 *)
Definition calcTabVerb (dec : f64) (name : bytes) (cx : compuCtx) : cres bytes :=
  match sfind name (mod_vtabs cx) with
  | None => Ret [] (Some CNoTable)
  | Some t =>
      if cv_inSet t && cv_outSet t then
        match searchLoop dec (cv_in t) (cv_out t) 0 with
        | Some r => r
        | None => if cv_defaultSet t then Ret (cv_default t) None else Ret [] (Some CNoDefault)
        end
      else Ret [] (Some CNoOutput)
  end.

(** compu_methods.go 124-162 *)
Definition calcRatFunc (dec : f64) (cm : compuMethod) : cres f64 :=
  let A := co_val (cA (cm_coeffs cm)) in let B := co_val (cB (cm_coeffs cm)) in
  let C := co_val (cC (cm_coeffs cm)) in let D := co_val (cD (cm_coeffs cm)) in
  let E := co_val (cE (cm_coeffs cm)) in let F := co_val (cF (cm_coeffs cm)) in
  let zero := S754_zero false in
  let firstDivisor := fmul (f_of_Z 2) (fsub A (fmul D dec)) in
  if feqb firstDivisor zero then Ret zero (Some CZeroDiv)
  else
    let root := fsqrt (fsub (fsquare (fsub (fmul E dec) B))
                            (fmul (fmul (f_of_Z 4) (fsub (fmul D dec) A)) (fsub (fmul F dec) C))) in
    let secondPositive := fadd (fmul (f_of_Z 2) (fsub A (fmul D dec))) (fdiv root firstDivisor) in
    let secondNegative := fsub (fmul (f_of_Z 2) (fsub A (fmul D dec))) (fdiv root firstDivisor) in
    let plusVal := fdiv (fsub (fmul E dec) B) secondPositive in
    let minusVal := fdiv (fsub (fmul E dec) B) secondNegative in
    if negb (feqb secondPositive zero) && negb (feqb secondNegative zero) then
      let testVal := fdiv (fadd (fadd (fmul (fmul A plusVal) plusVal) (fmul B plusVal)) C)
                          (fadd (fadd (fmul (fmul D plusVal) plusVal) (fmul E plusVal)) F) in
      if feqb testVal dec then Ret plusVal None else Ret minusVal None
    else if negb (feqb secondPositive zero) then Ret plusVal None
    else if negb (feqb secondNegative zero) then Ret minusVal None
    else Ret zero (Some CZeroDiv).

(** compu_methods.go 164-193.  The test for a missing table (167) is nested in
    [if err != nil] and never taken; [tab] is then the zero value. *)
Definition calcTabNoIntp (dec : f64) (cm : compuMethod) (cx : compuCtx) : cres f64 :=
  let t := match sfind (cm_tabRef cm) (mod_tabs cx) with Some t => t | None => noTab end in
  if ct_inSet t && ct_outSet t then
    match searchLoop dec (ct_in t) (ct_out t) 0 with
    | Some r => r
    | None => if ct_defaultSet t then Ret (ct_default t) None else Ret dec (Some CNoDefault)
    end
  else if ct_defaultSet t then Ret (ct_default t) None
  else Ret dec (Some CNoOutput).

(** compu_methods.go 11-58 *)
Definition convDecToPhy (dec : f64) (cm : compuMethod) (cx : compuCtx) : cres f64 :=
  let zero := S754_zero false in
  match cm_type cm with
  | Identical => Ret dec None
  | Form => Ret zero (Some CForm)
  | Linear =>
      if negb (co_set (lA (cm_linear cm)) && co_set (lB (cm_linear cm))) then Ret zero (Some CCoeffs)
      else Ret (fadd (fmul (co_val (lA (cm_linear cm))) dec) (co_val (lB (cm_linear cm)))) None
  | RatFunc =>
      let c := cm_coeffs cm in
      if negb (co_set (cA c) && co_set (cB c) && co_set (cC c) && co_set (cD c) && co_set (cE c) && co_set (cF c))
      then Ret zero (Some CCoeffs)
      else match calcRatFunc dec cm with
           | Ret phy None => Ret phy None
           | Ret _ (Some e) => Ret dec (Some e)
           | CPanic => CPanic
           end
  | TabIntp => Ret zero None
  | TabNointp =>
      match calcTabNoIntp dec cm cx with
      | Ret phy None => Ret phy None
      | Ret _ (Some e) => Ret dec (Some e)
      | CPanic => CPanic
      end
  | TabVerb => Ret zero (Some CVerb)
  | ConvUndef => Ret zero (Some CUndef)
  end.
