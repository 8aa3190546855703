From Coq Require Import ZArith Bool Lia Floats.SpecFloat Zpower.
From Verif Require Import FloatModel FloatSpec.
Local Open Scope Z_scope.

Definition dg (m : positive) : Z := Zpos (digits2_pos m).

Lemma dg_bounds : forall m, 2 ^ (dg m - 1) <= Zpos m < 2 ^ dg m.
Proof.
  unfold dg. induction m as [m IH|m IH|].
  - cbn [digits2_pos]. rewrite Pos2Z.inj_succ.
    replace (Z.succ (Zpos (digits2_pos m)) - 1) with (Z.succ (Zpos (digits2_pos m) - 1)) by lia.
    rewrite !Z.pow_succ_r by lia. lia.
  - cbn [digits2_pos]. rewrite Pos2Z.inj_succ.
    replace (Z.succ (Zpos (digits2_pos m)) - 1) with (Z.succ (Zpos (digits2_pos m) - 1)) by lia.
    rewrite !Z.pow_succ_r by lia. lia.
  - cbn. lia.
Qed.

Lemma dg_pos : forall m, 1 <= dg m.
Proof. intros m. unfold dg. lia. Qed.

Lemma pow_lt_inv : forall a c, 0 <= c -> 2 ^ a < 2 ^ c -> a < c.
Proof.
  intros a c Hc H. destruct (Z.lt_ge_cases a c) as [L|L]; [exact L|].
  assert (2 ^ c <= 2 ^ a) by (apply Z.pow_le_mono_r; lia). lia.
Qed.

Lemma dg_unique : forall m d, 0 <= d -> 2 ^ (d - 1) <= Zpos m < 2 ^ d -> dg m = d.
Proof.
  intros m d Hd H. pose proof (dg_bounds m) as B. pose proof (dg_pos m).
  assert (dg m - 1 < d) by (apply pow_lt_inv; lia).
  assert (d - 1 < dg m) by (apply pow_lt_inv; lia).
  lia.
Qed.

Lemma dg_le : forall m d, 0 <= d -> Zpos m < 2 ^ d -> dg m <= d.
Proof.
  intros m d Hd H. pose proof (dg_bounds m) as B.
  assert (dg m - 1 < d) by (apply pow_lt_inv; lia). lia.
Qed.

Lemma shift_pos_val : forall d m, Zpos (shift_pos d m) = Zpos m * 2 ^ Zpos d.
Proof. intros d m. rewrite shift_pos_correct. rewrite <- Zpower_pos_nat || idtac. rewrite Z.pow_pos_fold || idtac. lia. Qed.

Lemma dg_shift : forall d m, dg (shift_pos d m) = dg m + Zpos d.
Proof.
  intros d m. pose proof (dg_bounds m) as B. pose proof (dg_pos m).
  apply dg_unique; [lia|]. rewrite shift_pos_val.
  replace (dg m + Zpos d - 1) with ((dg m - 1) + Zpos d) by lia.
  rewrite !Z.pow_add_r by lia. assert (0 < 2 ^ Zpos d) by (apply Z.pow_pos_nonneg; lia). nia.
Qed.

(** The state of the shifted mantissa: quotient, and the two bits describing the
    remainder. *)
Definition shr_inv (m0 n : Z) (x : shr_record) : Prop :=
  0 <= shr_m x /\
  let t := m0 - shr_m x * 2 ^ n in
  0 <= t < 2 ^ n /\
  match shr_r x, shr_s x with
  | false, false => t = 0
  | false, true => 0 < 2 * t < 2 ^ n
  | true, false => 2 * t = 2 ^ n
  | true, true => 2 ^ n < 2 * t
  end.

Lemma shr_1_inv : forall m0 n x, 0 <= n -> shr_inv m0 n x -> shr_inv m0 (n + 1) (shr_1 x).
Proof.
  intros m0 n [m r s] Hn [Hm [Ht Hl]]. cbn [shr_m shr_r shr_s] in *.
  assert (E : 2 ^ (n + 1) = 2 * 2 ^ n) by (rewrite Z.pow_add_r by lia; lia).
  unfold shr_inv. rewrite E. clear E.
  assert (P : 0 < 2 ^ n) by (apply Z.pow_pos_nonneg; lia).
  remember (2 ^ n) as p.
  destruct m as [|[q|q|]|q]; [| | | |lia];
    destruct r, s; cbn [shr_1 orb shr_m shr_r shr_s];
    (split; [lia|]); (split; [lia|]); try lia.
Qed.

Lemma iter_shr_inv : forall k m0 n x, 0 <= n -> shr_inv m0 n x ->
    shr_inv m0 (n + Zpos k) (iter_pos shr_1 k x).
Proof.
  induction k as [k IH|k IH|]; intros m0 n x Hn H; cbn [iter_pos].
  - replace (n + Zpos (xI k)) with ((n + 1 + Zpos k) + Zpos k) by lia.
    apply IH; [lia|]. apply IH; [lia|]. apply shr_1_inv; assumption.
  - replace (n + Zpos (xO k)) with ((n + Zpos k) + Zpos k) by lia.
    apply IH; [lia|]. apply IH; [lia|]. exact H.
  - apply shr_1_inv; assumption.
Qed.

Lemma shr_inv_0 : forall m, 0 <= m -> shr_inv m 0 (shr_record_of_loc m loc_Exact).
Proof. intros m H. unfold shr_inv. cbn. lia. Qed.

Definition rnd (x : shr_record) : Z := round_nearest_even (shr_m x) (loc_of_shr_record x).

Lemma rnd_near : forall m0 n x, shr_inv m0 n x ->
    2 * Z.abs (rnd x * 2 ^ n - m0) <= 2 ^ n /\ (rnd x = shr_m x \/ rnd x = shr_m x + 1).
Proof.
  intros m0 n [m r s] [Hm [Ht Hl]]. unfold rnd. cbn [shr_m shr_r shr_s] in *.
  remember (2 ^ n) as p.
  destruct r, s; cbn [loc_of_shr_record round_nearest_even] in *.
  - split; [|right; reflexivity]. lia.
  - destruct (Z.even m); (split; [|auto]); lia.
  - split; [|left; reflexivity]. lia.
  - split; [|left; reflexivity]. lia.
Qed.

(** A mantissa that already has its exponent is not changed. *)
Lemma shr_fexp_id : forall m e, fexp 53 1024 (dg m + e) = e ->
    shr_fexp 53 1024 (Zpos m) e loc_Exact = (shr_record_of_loc (Zpos m) loc_Exact, e).
Proof.
  intros m e H. unfold shr_fexp. cbn [Zdigits2]. fold (dg m). rewrite H.
  replace (e - e) with 0 by lia. reflexivity.
Qed.

Lemma fexp_val : forall e, fexp 53 1024 e = Z.max (e - 53) (-1074).
Proof. intros e. reflexivity. Qed.

Lemma round_aux_id : forall s m e, fexp 53 1024 (dg m + e) = e -> e <= 971 ->
    binary_round_aux 53 1024 s (Zpos m) e loc_Exact = S754_finite s m e.
Proof.
  intros s m e H He. unfold binary_round_aux. rewrite (shr_fexp_id m e H).
  cbn [shr_record_of_loc shr_m loc_of_shr_record round_nearest_even].
  rewrite (shr_fexp_id m e H). cbn [shr_record_of_loc shr_m].
  assert ((e <=? 1024 - 53) = true) as -> by (apply Z.leb_le; lia). reflexivity.
Qed.

Lemma pow_nonneg : forall a, 0 <= 2 ^ a.
Proof. intros a. apply Z.pow_nonneg. lia. Qed.

(** Rounding a mantissa with more than 53 digits. *)
Lemma round_aux_near : forall s m e u, -1074 <= e -> u = dg m + e - 53 -> e < u -> dg m + e <= 1023 ->
    exists mz ez, binary_round_aux 53 1024 s (Zpos m) e loc_Exact = S754_finite s mz ez /\
      u <= ez <= 971 /\ Zpos mz < 2 ^ 53 /\
      2 * Z.abs (Zpos mz * 2 ^ (ez - e) - Zpos m) <= 2 ^ (u - e) /\
      (2 ^ (u - e) | Zpos mz * 2 ^ (ez - e)).
Proof.
  intros s m e u He Hu Hlt Hov. unfold binary_round_aux, shr_fexp at 1.
  cbn [Zdigits2]. fold (dg m). rewrite fexp_val.
  replace (Z.max (dg m + e - 53) (-1074)) with u by lia.
  destruct (u - e) as [|k|] eqn:Ek; [lia| |lia]. cbn [shr].
  pose proof (iter_shr_inv k (Zpos m) 0 _ ltac:(lia) (shr_inv_0 (Zpos m) ltac:(lia))) as I.
  rewrite Z.add_0_l in I.
  set (x := iter_pos shr_1 k (shr_record_of_loc (Zpos m) loc_Exact)) in *.
  destruct (rnd_near _ _ _ I) as [Hn Hc]. fold (rnd x).
  set (r := rnd x) in *.
  destruct I as [Hm [Ht _]]. pose proof (dg_bounds m) as B.
  assert (P : 0 < 2 ^ Zpos k) by (apply Z.pow_pos_nonneg; lia).
  assert (Hq : 2 ^ 52 <= shr_m x < 2 ^ 53).
  { replace (dg m) with (53 + Zpos k) in B by lia.
    replace (53 + Zpos k - 1) with (52 + Zpos k) in B by lia.
    rewrite !Z.pow_add_r in B by lia. remember (2 ^ Zpos k) as p. split.
    - apply Z.lt_succ_r. apply Z.mul_lt_mono_pos_r with (p := p); lia.
    - apply Z.mul_lt_mono_pos_r with (p := p); lia. }
  clearbody r.
  replace (e + Zpos k) with u by lia.
  destruct r as [|q|q]; [lia| |lia].
  destruct (Z.eq_dec (Zpos q) (2 ^ 53)) as [Eq|Nq].
  - assert (q = 9007199254740992%positive) by lia. subst q.
    unfold shr_fexp. rewrite fexp_val.
    change (Zdigits2 9007199254740992) with 54.
    replace (Z.max (54 + u - 53) (-1074) - u) with 1 by lia.
    cbn [shr iter_pos]. cbn [shr_record_of_loc shr_1 shr_m].
    assert ((u + 1 <=? 1024 - 53) = true) as -> by (apply Z.leb_le; lia).
    eexists _, _. split; [reflexivity|]. split; [lia|]. split; [lia|].
    replace (u + 1 - e) with (Zpos k + 1) by lia. rewrite Z.pow_add_r by lia.
    replace (4503599627370496 * (2 ^ Zpos k * 2 ^ 1)) with (9007199254740992 * 2 ^ Zpos k) by lia.
    split; [exact Hn|]. exists 9007199254740992. reflexivity.
  - assert (Hd : dg q = 53) by (apply dg_unique; lia).
    rewrite shr_fexp_id by (rewrite fexp_val; lia).
    cbn [shr_record_of_loc shr_m].
    assert ((u <=? 1024 - 53) = true) as -> by (apply Z.leb_le; lia).
    eexists _, _. split; [reflexivity|]. split; [lia|]. split; [lia|].
    replace (u - e) with (Zpos k) by lia. split; [exact Hn|]. exists (Zpos q). reflexivity.
Qed.

(** ** Rounding of [m * 2^e] *)

Definition sgn (s : bool) : Z := if s then -1 else 1.

Lemma binary_round_exact : forall s m e, Zpos m < 2 ^ 53 -> -1074 <= e -> dg m + e <= 1024 ->
    exactly (sgn s * Zpos m * 2 ^ (e + 1074)) (binary_round 53 1024 s m e).
Proof.
  intros s m e Hm He Hov. pose proof (dg_le m 53 ltac:(lia) Hm) as Hd.
  unfold binary_round. fold (dg m). rewrite fexp_val. unfold shl_align.
  set (u := Z.max (dg m + e - 53) (-1074)).
  assert (Hu : u <= e) by lia.
  destruct (u - e) as [|k|k] eqn:Ek; [|lia|].
  - rewrite round_aux_id by (rewrite ?fexp_val; lia).
    split; [cbn; lia|reflexivity].
  - assert (D : dg (shift_pos k m) = dg m + Zpos k) by apply dg_shift.
    rewrite round_aux_id by (rewrite ?fexp_val, ?D; lia).
    pose proof (dg_bounds (shift_pos k m)) as B. rewrite D in B.
    split.
    + cbn [is_float64]. split; [|lia]. eapply Z.lt_le_trans; [apply B|]. apply Z.pow_le_mono_r; lia.
    + cbn [fval]. f_equal. fold (sgn s). rewrite shift_pos_val.
      replace (e + 1074) with (Zpos k + (u + 1074)) by lia. rewrite (Z.pow_add_r 2 (Zpos k)) by lia. ring.
Qed.

Lemma mult_nearest : forall p x v w, 0 < p -> (p | v) -> (p | w) -> 2 * Z.abs (v - x) <= p ->
    Z.abs (v - x) <= Z.abs (w - x).
Proof.
  intros p x v w Hp [a ->] [c ->] H.
  destruct (Z.eq_dec a c) as [->|N]; [lia|].
  assert (p <= Z.abs (a * p - c * p)); [|lia].
  replace (a * p - c * p) with ((a - c) * p) by lia. rewrite Z.abs_mul, (Z.abs_eq p) by lia. nia.
Qed.

Lemma pow_divide : forall a c, 0 <= a <= c -> (2 ^ a | 2 ^ c).
Proof.
  intros a c H. exists (2 ^ (c - a)). rewrite <- Z.pow_add_r by lia. f_equal. lia.
Qed.

Lemma binary_round_nearest : forall s m e, -1074 <= e -> dg m + e <= 1023 ->
    nearest (sgn s * Zpos m * 2 ^ (e + 1074)) (binary_round 53 1024 s m e).
Proof.
  intros s m e He Hov.
  destruct (Z.le_gt_cases (dg m) 53) as [Hd|Hd].
  { destruct (binary_round_exact s m e) as [H1 H2]; [|lia|lia|].
    - pose proof (dg_bounds m). eapply Z.lt_le_trans; [apply H|]. apply Z.pow_le_mono_r; lia.
    - split; [exact H1|]. eexists. split; [exact H2|]. intros. rewrite Z.sub_diag. cbn. lia. }
  unfold binary_round. fold (dg m). rewrite fexp_val. unfold shl_align.
  set (u := Z.max (dg m + e - 53) (-1074)).
  assert (Hu : u = dg m + e - 53) by lia.
  assert (Hz : exists k, u - e = Zpos k) by (exists (Z.to_pos (u - e)); lia).
  destruct Hz as [k Ek]. rewrite Ek.
  destruct (round_aux_near s m e u He Hu ltac:(lia) ltac:(lia)) as (mz & ez & -> & Hez & Hmz & Hn & Hdv).
  split; [cbn [is_float64]; lia|].
  eexists. split; [reflexivity|].
  intros g w Hg Hw. fold (sgn s).
  set (P := 2 ^ (e + 1074)). assert (HP : 0 < P) by (apply Z.pow_pos_nonneg; lia).
  assert (EP : 2 ^ (ez + 1074) = 2 ^ (ez - e) * P)
    by (unfold P; rewrite <- Z.pow_add_r by lia; f_equal; lia).
  rewrite EP.
  set (v := Zpos mz * 2 ^ (ez - e)) in *.
  replace (sgn s * Zpos mz * (2 ^ (ez - e) * P)) with (sgn s * v * P) by (unfold v; lia).
  set (p := 2 ^ (u - e)) in *. assert (Hp : 0 < p) by (apply Z.pow_pos_nonneg; lia).
  pose proof (dg_bounds m) as B.
  (* bound of the error in full units *)
  assert (Herr : 2 * Z.abs (sgn s * v * P - sgn s * Zpos m * P) <= p * P).
  { replace (sgn s * v * P - sgn s * Zpos m * P) with (sgn s * (v - Zpos m) * P) by lia.
    rewrite !Z.abs_mul, (Z.abs_eq P) by lia.
    assert (Z.abs (sgn s) = 1) as -> by (destruct s; reflexivity). nia. }
  assert (Dv : (p * P | sgn s * v * P)).
  { destruct Hdv as [a ->]. exists (sgn s * a). lia. }
  (* a multiple of p*P lies between any smaller float and the number *)
  set (T := 2 ^ (dg m - 1) * P).
  assert (DT : (p * P | T)).
  { unfold T, p. apply Z.mul_divide_mono_r. apply pow_divide. lia. }
  assert (HT : T <= Zpos m * P) by (unfold T; nia).
  assert (HT0 : 0 < T) by (unfold T; assert (0 < 2 ^ (dg m - 1)) by (apply Z.pow_pos_nonneg; lia); nia).
  assert (HpP : 0 < p * P) by nia.
  destruct (Z.lt_ge_cases (sgn s * w) T) as [L|L].
  - (* below the binade *)
    transitivity (Z.abs (sgn s * T - sgn s * Zpos m * P)).
    + apply mult_nearest with (p := p * P); auto. destruct DT as [a ->]. exists (sgn s * a). lia.
    + destruct s; cbn [sgn] in *; lia.
  - apply mult_nearest with (p := p * P); auto.
    (* in the binade or above: a multiple *)
    destruct g as [s0|s0| |s0 mg eg]; cbn [fval] in Hw; try discriminate.
    + injection Hw as <-. exists 0. lia.
    + injection Hw as <-. fold (sgn s0) in *. destruct Hg as [Hg1 [Hg2 Hg3]].
      assert (E : p * P = 2 ^ (u + 1074)).
      { unfold p, P. rewrite <- Z.pow_add_r by lia. f_equal. lia. }
      rewrite E. apply Z.divide_mul_r. apply pow_divide. split; [lia|].
      enough (u <= eg) by lia.
      assert (T = 2 ^ (u + 52 + 1074)) as ET.
      { unfold T, P. rewrite <- Z.pow_add_r by lia. f_equal. lia. }
      assert (Hb : T <= Zpos mg * 2 ^ (eg + 1074)).
      { pose proof (pow_nonneg (eg + 1074)). destruct s, s0; cbn [sgn] in L; lia. }
      rewrite ET in Hb.
      assert (2 ^ (u + 52 + 1074) < 2 ^ (53 + (eg + 1074))).
      { rewrite (Z.pow_add_r 2 53) by lia.
        assert (0 < 2 ^ (eg + 1074)) by (apply Z.pow_pos_nonneg; lia). nia. }
      assert (u + 52 + 1074 < 53 + (eg + 1074)) by (apply pow_lt_inv; lia). lia.
Qed.

(** ** Conversion of integers *)

Lemma f_of_Z_exact : forall z, Z.abs z < 2 ^ 53 -> exactly (z * unit1) (f_of_Z z).
Proof.
  intros z H. unfold f_of_Z, binary_normalize, unit1. destruct z as [|m|m].
  - split; [exact I|reflexivity].
  - pose proof (dg_le m 53 ltac:(lia) ltac:(lia)).
    pose proof (binary_round_exact false m 0 ltac:(lia) ltac:(lia) ltac:(lia)) as E.
    cbn [sgn] in E. replace (1 * Zpos m) with (Zpos m) in E by lia. exact E.
  - pose proof (dg_le m 53 ltac:(lia) ltac:(lia)).
    pose proof (binary_round_exact true m 0 ltac:(lia) ltac:(lia) ltac:(lia)) as E.
    cbn [sgn] in E. replace (-1 * Zpos m) with (Zneg m) in E by lia. exact E.
Qed.

Lemma f_of_Z_nearest : forall z, Z.abs z < 2 ^ 1000 -> nearest (z * unit1) (f_of_Z z).
Proof.
  intros z H. unfold f_of_Z, binary_normalize, unit1. destruct z as [|m|m].
  - split; [exact I|]. exists 0. split; [reflexivity|]. intros. lia.
  - pose proof (dg_le m 1000 ltac:(lia) H).
    pose proof (binary_round_nearest false m 0 ltac:(lia) ltac:(lia)) as E.
    cbn [sgn] in E. replace (1 * Zpos m) with (Zpos m) in E by lia. exact E.
  - pose proof (dg_le m 1000 ltac:(lia) H).
    pose proof (binary_round_nearest true m 0 ltac:(lia) ltac:(lia)) as E.
    cbn [sgn] in E. replace (-1 * Zpos m) with (Zneg m) in E by lia. exact E.
Qed.
