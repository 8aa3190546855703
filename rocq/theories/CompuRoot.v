(** The quadratic formula of calcRatFunc where every step is exact. *)
From Coq Require Import ZArith Bool Lia List Floats.SpecFloat Zpower.
From Verif Require Import FloatModel FloatSpec FloatProofs FloatArith CompuModel CompuSpec CompuProps.
Import ListNotations.
Local Open Scope Z_scope.

(** ** Square roots *)

Lemma sqrtrem_square : forall k, 0 <= k -> Z.sqrtrem (k * k) = (k, 0).
Proof.
  intros k H. pose proof (Z.sqrtrem_spec (k * k) ltac:(nia)) as S. destruct (Z.sqrtrem (k * k)) as [q r]. destruct S as [S1 S2].
  assert (q = k) by nia. subst q. f_equal. lia.
Qed.

Lemma isint_sqrt : forall x n, isint x (n * n) -> 0 <= n -> n * n < 2 ^ 53 -> isint (fsqrt x) n.
Proof.
  intros x n [C V] N0 NB. destruct (Z.eq_dec n 0) as [->|NZ].
  { destruct (isint_0 x (conj C V)) as [s ->]. apply isint_zero. }
  destruct x as [s|s| |s m e]; cbn [fval] in V; try discriminate.
  { injection V as V. unfold unit1 in V. assert (0 < 2 ^ 1074) by (apply Z.pow_pos_nonneg; lia). nia. }
  injection V as V. pose proof (canon_e _ _ _ C) as E1. apply canon_iff in C. destruct C as [C1 C2]. rewrite fexp_val in C1.
  assert (s = false) as ->.
  { destruct s; [|reflexivity]. unfold unit1 in V. assert (0 < 2 ^ 1074) by (apply Z.pow_pos_nonneg; lia). assert (0 < 2 ^ (e + 1074)) by (apply Z.pow_pos_nonneg; lia). nia. }
  rewrite Z.mul_1_l in V. pose proof (dg_bounds m) as B. pose proof (dg_pos m) as D1.
  assert (EN : e <= 0).
  { destruct (Z.le_gt_cases e 0) as [|P]; [assumption|exfalso]. assert (dg m = 53) by lia.
    assert (2 ^ 52 * 2 ^ 1074 * 2 <= Zpos m * 2 ^ (e + 1074)).
    { rewrite H in B. assert (2 ^ 1075 <= 2 ^ (e + 1074)) by (apply Z.pow_le_mono_r; lia). change (2 ^ 1075) with (2 ^ 1074 * 2) in H0. assert (0 < 2 ^ 1074) by (apply Z.pow_pos_nonneg; lia).
      change (53 - 1) with 52 in B. nia. }
    unfold unit1 in V. rewrite V in H0. assert (0 < 2 ^ 1074) by (apply Z.pow_pos_nonneg; lia). change (2 ^ 53) with (2 ^ 52 * 2) in NB. nia. }
  assert (M : Zpos m = n * n * 2 ^ (- e)).
  { apply Z.mul_cancel_r with (p := 2 ^ (e + 1074)); [apply Z.pow_nonzero; lia|]. rewrite V. unfold unit1. transitivity (n * n * (2 ^ (- e) * 2 ^ (e + 1074))); [|ring]. rewrite <- Z.pow_add_r by lia. do 2 f_equal. lia. }
  set (dn := dg (Z.to_pos n)). pose proof (dg_bounds (Z.to_pos n)) as BN. pose proof (dg_pos (Z.to_pos n)) as DN. fold dn in BN, DN. rewrite Z2Pos.id in BN by lia.
  assert (DU : dg m + e <= 2 * dn).
  { assert (dg m <= 2 * dn - e); [|lia]. apply dg_le; [lia|]. rewrite M. replace (2 * dn - e) with (dn + dn + - e) by lia. rewrite !Z.pow_add_r by lia.
    assert (0 < 2 ^ (- e)) by (apply Z.pow_pos_nonneg; lia). apply Z.mul_lt_mono_pos_r; [assumption|]. nia. }
  unfold fsqrt, SFsqrt, SFsqrt_core_binary. cbn [Zdigits2]. fold (dg m). rewrite fexp_val.
  set (e' := Z.min _ _).
  assert (E2 : e' <= Z.div2 e) by (unfold e'; lia). rewrite Z.div2_div in E2. pose proof (Z.div_mod e 2 ltac:(lia)). pose proof (Z.mod_pos_bound e 2 ltac:(lia)).
  assert (E3 : e' <= Z.max (dn - 53) (-1074)).
  { unfold e'. rewrite (Z.div2_div (dg m + e + 1)). assert ((dg m + e + 1) / 2 <= dn) by (apply Z.lt_succ_r; apply Z.div_lt_upper_bound; lia). lia. }
  assert (E4 : -1074 <= e'). { unfold e'. rewrite (Z.div2_div e). lia. }
  set (m' := match e - 2 * e' with 0 => Zpos m | Zpos _ => Z.shiftl (Zpos m) (e - 2 * e') | Zneg _ => 0 end).
  assert (M' : m' = (n * 2 ^ (- e')) * (n * 2 ^ (- e'))).
  { assert (m' = Zpos m * 2 ^ (e - 2 * e')).
    { unfold m'. destruct (e - 2 * e') as [|p|p] eqn:EE; [lia| |lia]. apply Z.shiftl_mul_pow2. lia. }
    rewrite H1, M. transitivity (n * n * (2 ^ (- e) * 2 ^ (e - 2 * e'))); [ring|]. rewrite <- Z.pow_add_r by lia. replace (- e + (e - 2 * e')) with (- e' + - e') by lia. rewrite Z.pow_add_r by lia. ring. }
  rewrite M', sqrtrem_square by (pose proof (pow_nonneg (- e')); nia).
  cbn [Zeq_bool Z.compare].
  assert (P : 0 < 2 ^ (- e')) by (apply Z.pow_pos_nonneg; lia).
  destruct (n * 2 ^ (- e')) as [|q|q] eqn:EQ; [nia| |nia].
  assert (DQ : dg q = dn - e').
  { apply dg_unique; [lia|]. rewrite <- EQ. replace (dn - e' - 1) with (dn - 1 + - e') by lia. replace (dn - e') with (dn + - e') by lia. rewrite !Z.pow_add_r by lia. nia. }
  destruct (round_aux_gen false q e' 0) as [RC RN]; [rewrite fexp_val, DQ; lia| |lia|lia|].
  { rewrite DQ. assert (dn <= 53); [|lia]. apply dg_le; [lia|]. rewrite Z2Pos.id by lia. nia. }
  split; [exact RC|]. refine (nearestK_rep 0 (n * unit1) _ _ ltac:(lia) _ _ RN); [apply rep_int; nia|].
  cbn [sgn]. rewrite Z.mul_1_l, <- EQ, Z.add_0_r. unfold unit1. rewrite Z.pow_0_r, Z.mul_1_r. transitivity (n * (2 ^ (- e') * 2 ^ (e' + 1074))); [ring|]. rewrite <- Z.pow_add_r by lia. do 2 f_equal. lia.
Qed.

(** ** C34: what is computed, where every step is exact *)

Ltac small := match goal with B : forall z, In z _ -> _ |- _ => apply B; repeat (first [left; reflexivity|right]) end.

(** The formula of the source, over the integers: with w = 2 (a - d y),
    n = e y - b, and the square root r of the discriminant a multiple s of w,
    the two candidates are n / (w + s) and n / (w - s). *)
Record exactRoots (a b_ c d e f y w n r s p q t : Z) : Prop := {
  xr_w : w = 2 * (a - d * y);
  xr_n : n = e * y - b_;
  xr_r : r * r = n * n - 4 * (d * y - a) * (f * y - c);
  xr_pos : 0 <= r;
  xr_s : r = s * w;
  xr_p : n = p * (w + s);
  xr_q : n = q * (w - s);
  xr_nz : w <> 0 /\ w + s <> 0 /\ w - s <> 0;
  xr_M : d * p * p + e * p + f <> 0;
  xr_t : a * p * p + b_ * p + c = t * (d * p * p + e * p + f);
  xr_small : Forall (fun z => Z.abs z < 2 ^ 53)
    [a; b_; c; d; e; f; y; d * y; a - d * y; w; e * y; n; n * n; d * y - a; 4 * (d * y - a); f * y; f * y - c;
     4 * (d * y - a) * (f * y - c); r * r; r; s; w + s; w - s; p; q;
     a * p; a * p * p; b_ * p; a * p * p + b_ * p; a * p * p + b_ * p + c;
     d * p; d * p * p; e * p; d * p * p + e * p; d * p * p + e * p + f; t] }.

(** The first candidate is returned where it solves the equation, the second
    one otherwise, whether it solves the equation or not. *)
Theorem C34_root_guarded : forall a b_ c d e f y w n r s p q t, exactRoots a b_ c d e f y w n r s p q t ->
    exists v, calcRatFunc (f_of_Z y)
        (ratMethod (f_of_Z a) (f_of_Z b_) (f_of_Z c) (f_of_Z d) (f_of_Z e) (f_of_Z f)) = Ret v None
      /\ isint v (if t =? y then p else q).
Proof.
  intros a b_ c d e f y w n r s p q t [W N R R0 S P Q (N1 & N2 & N3) M T B].
  rewrite Forall_forall in B.
  unfold calcRatFunc. cbn [cm_coeffs ratMethod coeffs6 cA cB cC cD cE cF co_val].
  pose proof (f_of_Z_isint a ltac:(small)) as Ia. pose proof (f_of_Z_isint b_ ltac:(small)) as Ib.
  pose proof (f_of_Z_isint c ltac:(small)) as Ic. pose proof (f_of_Z_isint d ltac:(small)) as Id.
  pose proof (f_of_Z_isint e ltac:(small)) as Ie. pose proof (f_of_Z_isint f ltac:(small)) as If.
  pose proof (f_of_Z_isint y ltac:(small)) as Iy.
  pose proof (f_of_Z_isint 2 ltac:(lia)) as I2. pose proof (f_of_Z_isint 4 ltac:(lia)) as I4.
  generalize dependent (f_of_Z a). intros fa Ia. generalize dependent (f_of_Z b_). intros fb Ib.
  generalize dependent (f_of_Z c). intros fc Ic. generalize dependent (f_of_Z d). intros fd Id.
  generalize dependent (f_of_Z e). intros fe Ie. generalize dependent (f_of_Z f). intros ff If.
  generalize dependent (f_of_Z y). intros fy Iy.
  generalize dependent (f_of_Z 2). intros f2 I2. generalize dependent (f_of_Z 4). intros f4 I4.
  assert (Jw : isint (fmul f2 (fsub fa (fmul fd fy))) w).
  { rewrite W. apply isint_mul; [exact I2| |rewrite <- W; small]. apply isint_sub; [exact Ia| |small]. apply isint_mul; [exact Id|exact Iy|small]. }
  assert (Jn : isint (fsub (fmul fe fy) fb) n).
  { rewrite N. apply isint_sub; [|exact Ib|rewrite <- N; small]. apply isint_mul; [exact Ie|exact Iy|small]. }
  assert (Jr : isint (fsqrt (fsub (fsquare (fsub (fmul fe fy) fb)) (fmul (fmul f4 (fsub (fmul fd fy) fa)) (fsub (fmul ff fy) fc)))) r).
  { apply isint_sqrt; [|exact R0|assert (Z.abs (r * r) < 2 ^ 53) by small; lia]. rewrite R. apply isint_sub; [| |rewrite <- R; small].
    - apply isint_square; [exact Jn|small].
    - apply isint_mul; [| |small].
      + apply isint_mul; [exact I4| |small]. apply isint_sub; [|exact Ia|small]. apply isint_mul; [exact Id|exact Iy|small].
      + apply isint_sub; [|exact Ic|small]. apply isint_mul; [exact If|exact Iy|small]. }
  set (fw := fmul f2 (fsub fa (fmul fd fy))) in *. set (fn := fsub (fmul fe fy) fb) in *. set (fr := fsqrt _) in *.
  assert (Js : isint (fdiv fr fw) s) by (apply (isint_div _ _ s w); [rewrite <- S; exact Jr|exact Jw|exact N1|small]).
  assert (Jp : isint (fadd fw (fdiv fr fw)) (w + s)) by (apply isint_add; [exact Jw|exact Js|small]).
  assert (Jm : isint (fsub fw (fdiv fr fw)) (w - s)) by (apply isint_sub; [exact Jw|exact Js|small]).
  rewrite (isint_eqb _ _ _ _ Jw (isint_zero false)), (isint_eqb _ _ _ _ Jp (isint_zero false)), (isint_eqb _ _ _ _ Jm (isint_zero false)).
  apply Z.eqb_neq in N1 as E1. apply Z.eqb_neq in N2 as E2. apply Z.eqb_neq in N3 as E3. rewrite E1, E2, E3. cbn [negb andb].
  assert (Vp : isint (fdiv fn (fadd fw (fdiv fr fw))) p) by (apply (isint_div _ _ p (w + s)); [rewrite <- P; exact Jn|exact Jp|exact N2|small]).
  assert (Vq : isint (fdiv fn (fsub fw (fdiv fr fw))) q) by (apply (isint_div _ _ q (w - s)); [rewrite <- Q; exact Jn|exact Jm|exact N3|small]).
  set (vp := fdiv fn (fadd fw (fdiv fr fw))) in *. set (vq := fdiv fn (fsub fw (fdiv fr fw))) in *.
  assert (Vn : isint (fadd (fadd (fmul (fmul fa vp) vp) (fmul fb vp)) fc) (a * p * p + b_ * p + c)).
  { apply isint_add; [|exact Ic|small]. apply isint_add; [| |small]; (apply isint_mul; [|exact Vp|small]); [|exact Ib]. apply isint_mul; [exact Ia|exact Vp|small]. }
  assert (Vd : isint (fadd (fadd (fmul (fmul fd vp) vp) (fmul fe vp)) ff) (d * p * p + e * p + f)).
  { apply isint_add; [|exact If|small]. apply isint_add; [| |small]; (apply isint_mul; [|exact Vp|small]); [|exact Ie]. apply isint_mul; [exact Id|exact Vp|small]. }
  rewrite T in Vn. pose proof (isint_div _ _ _ _ Vn Vd M ltac:(small)) as Vt. rewrite (isint_eqb _ _ _ _ Vt Iy).
  destruct (t =? y); eexists; (split; [reflexivity|assumption]).
Qed.
Print Assumptions C34_root_guarded.

(** x^2 + 6 x + 8 = 0 is solved by -2; x^2 - 12 x + 35 = 0, which 5 and 7 solve, gives 12;
    and an example with all six coefficients. *)
Example C34_root_example : exactRoots 1 6 8 0 0 1 0 2 (-6) 2 1 (-2) (-6) 0 /\ exactRoots 1 (-12) 35 0 0 1 0 2 12 2 1 4 12 3
  /\ exactRoots (-6) 4 (-40) 1 5 (-6) (-4) (-4) (-24) 8 (-2) 4 12 (-4).
Proof. repeat split; try lia; try reflexivity; repeat constructor. Qed.
