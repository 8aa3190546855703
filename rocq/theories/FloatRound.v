(** The quotient of two integers, rounded to float64: the nearest number, in a tie the
    one with the even mantissa, and an infinity exactly from the middle of the largest
    float64 and 2^1024 on. *)
From Coq Require Import ZArith Bool Lia Floats.SpecFloat Zpower.
From Verif Require Import FloatSpec FloatProofs FloatArith FloatTextSpec.
Local Open Scope Z_scope.

(** The state of the shifted mantissa, for a number of [m0] parts with [p] parts to one *)
Definition parts (m0 p : Z) (x : shr_record) : Prop :=
  0 <= shr_m x /\
  let t := m0 - shr_m x * p in
  0 <= t < p /\
  match shr_r x, shr_s x with
  | false, false => t = 0
  | false, true => 0 < 2 * t < p
  | true, false => 2 * t = p
  | true, true => p < 2 * t
  end.

Lemma shr_1_parts : forall m0 p x, 0 < p -> parts m0 p x -> parts m0 (2 * p) (shr_1 x).
Proof.
  intros m0 p [m r s] Hn [Hm [Ht Hl]]. cbn [shr_m shr_r shr_s] in *. unfold parts.
  destruct m as [|[q|q|]|q]; [| | | |lia];
    destruct r, s; cbn [shr_1 orb shr_m shr_r shr_s];
    (split; [lia|]); (split; [lia|]); try lia.
Qed.

Lemma iter_parts : forall k m0 p x, 0 < p -> parts m0 p x -> parts m0 (2 ^ Zpos k * p) (iter_pos shr_1 k x).
Proof.
  assert (A : forall k, 0 < 2 ^ Zpos k) by (intros; apply Z.pow_pos_nonneg; lia).
  induction k as [k IH|k IH|]; intros m0 p x Hp H; cbn [iter_pos]; try pose proof (A k).
  - replace (2 ^ Zpos k~1 * p) with (2 ^ Zpos k * (2 ^ Zpos k * (2 * p))).
    + apply IH; [nia|]. apply IH; [lia|]. apply shr_1_parts; assumption.
    + replace (Zpos k~1) with (1 + (Zpos k + Zpos k)) by lia. rewrite !Z.pow_add_r by lia. lia.
  - replace (2 ^ Zpos k~0 * p) with (2 ^ Zpos k * (2 ^ Zpos k * p)).
    + apply IH; [nia|]. apply IH; [lia|]. exact H.
    + replace (Zpos k~0) with (Zpos k + Zpos k) by lia. rewrite !Z.pow_add_r by lia. lia.
  - apply shr_1_parts; assumption.
Qed.

Lemma parts_0 : forall q d r, 0 <= q -> 0 < d -> 0 <= r < d -> parts (q * d + r) d (shr_record_of_loc q (new_location d r)).
Proof.
  intros q d r Hq Hd Hr. unfold parts.
  assert (E : forall l, shr_m (shr_record_of_loc q l) = q) by (intros [|[]]; reflexivity). rewrite E.
  split; [exact Hq|]. replace (q * d + r - q * d) with r by lia. split; [exact Hr|].
  unfold new_location, new_location_even, new_location_odd.
  destruct (Z.even d) eqn:Ev; destruct (Zeq_bool r 0) eqn:Z0; cbv beta; try rewrite Z0; cbn [shr_record_of_loc shr_r shr_s].
  - apply Zeq_bool_eq in Z0. exact Z0.
  - apply Zeq_bool_neq in Z0. destruct (Z.compare_spec (2 * r) d) as [C|C|C]; cbn [shr_record_of_loc shr_r shr_s]; lia.
  - apply Zeq_bool_eq in Z0. exact Z0.
  - apply Zeq_bool_neq in Z0. assert (O : Z.odd d = true) by (rewrite <- Z.negb_even, Ev; reflexivity). apply Z.odd_spec in O. destruct O as [h O].
    destruct (Z.compare_spec (2 * r + 1) d) as [C|C|C]; cbn [shr_record_of_loc shr_r shr_s]; lia.
Qed.

Lemma rnd_parts : forall m0 p x, parts m0 p x ->
    2 * Z.abs (rnd x * p - m0) <= p /\ (2 * Z.abs (rnd x * p - m0) = p -> Z.even (rnd x) = true) /\ (rnd x = shr_m x \/ rnd x = shr_m x + 1).
Proof.
  intros m0 p [m r s] [Hm [Ht Hl]]. unfold rnd. cbn [shr_m shr_r shr_s] in *.
  destruct r, s; cbn [loc_of_shr_record round_nearest_even] in *.
  - split; [|split; [|right; reflexivity]]; lia.
  - destruct (Z.even m) eqn:Ev; (split; [lia|]); (split; [intros _|auto]); [exact Ev|].
    rewrite Z.add_1_r, Z.even_succ, <- Z.negb_even, Ev. reflexivity.
  - split; [|split; [|left; reflexivity]]; lia.
  - split; [|split; [|left; reflexivity]]; lia.
Qed.

(** The number of bits, also for zero *)
Lemma digits_0 : forall q, 0 <= q -> 0 <= Zdigits2 q /\ q < 2 ^ Zdigits2 q /\ (0 < q -> 2 ^ (Zdigits2 q - 1) <= q).
Proof.
  intros [|m|m] H; [cbn; lia| |lia]. cbn [Zdigits2]. fold (dg m). pose proof (dg_bounds m). pose proof (dg_pos m). lia.
Qed.

(** What is made of the rounded mantissa *)
Definition made (s : bool) (z u : Z) (f : spec_float) : Prop :=
  if z * 2 ^ (u + 1074) <? 2 ^ (1024 + 1074)
  then canon f /\ fval f = Some (sgn s * z * 2 ^ (u + 1074)) /\ signOk s f /\ (Z.even z = true -> evenMantissa f)
  else f = S754_infinity s.

Lemma made_ok : forall s z u, -1074 <= u -> 0 <= z <= 2 ^ 53 -> (-1074 < u -> 2 ^ 52 <= z) ->
    made s z u (let '(mrs'', e'') := shr_fexp 53 1024 z u loc_Exact in
      match shr_m mrs'' with
      | 0 => S754_zero s
      | Z.pos m0 => if e'' <=? 1024 - 53 then S754_finite s m0 e'' else S754_infinity s
      | Z.neg _ => S754_nan
      end).
Proof.
  intros s z u Hu Hz Hlow. unfold made.
  assert (Pu : 0 < 2 ^ (u + 1074)) by (apply Z.pow_pos_nonneg; lia).
  destruct z as [|q|q]; [| |lia].
  - assert (u = -1074) by lia. subst u. unfold shr_fexp. rewrite fexp_val. cbn [Zdigits2].
    replace (Z.max (0 + -1074 - 53) (-1074) - -1074) with 0 by lia. cbn [shr shr_record_of_loc shr_m].
    assert ((0 * 2 ^ (-1074 + 1074) <? 2 ^ (1024 + 1074)) = true) as ->.
    { apply Z.ltb_lt. rewrite Z.mul_0_l. apply Z.pow_pos_nonneg; lia. }
    split; [reflexivity|]. split; [cbn [fval]; f_equal; lia|]. split; reflexivity.
  - destruct (Z.eq_dec (Zpos q) (2 ^ 53)) as [Eq|Nq].
    + assert (q = 9007199254740992%positive) by lia. subst q.
      unfold shr_fexp. rewrite fexp_val. change (Zdigits2 9007199254740992) with 54.
      replace (Z.max (54 + u - 53) (-1074) - u) with 1 by lia.
      cbn [shr iter_pos]. cbn [shr_record_of_loc shr_1 shr_m].
      replace (9007199254740992 * 2 ^ (u + 1074) <? 2 ^ (1024 + 1074)) with (u + 1 <=? 1024 - 53).
      2:{ change 9007199254740992 with (2 ^ 53). rewrite <- Z.pow_add_r by lia. apply eq_true_iff_eq. rewrite Z.leb_le, Z.ltb_lt.
          split; intros H; [apply Z.pow_lt_mono_r; lia|apply pow_lt_inv in H; lia]. }
      destruct (u + 1 <=? 1024 - 53) eqn:L; [|reflexivity]. apply Z.leb_le in L.
      split; [|split; [|split; reflexivity]].
      * apply canon_iff. rewrite fexp_val. change (dg 4503599627370496) with 53. lia.
      * cbn [fval]. f_equal. fold (sgn s). replace (u + 1 + 1074) with (1 + (u + 1074)) by lia.
        rewrite (Z.pow_add_r 2 1) by lia. lia.
    + assert (Hd : dg q <= 53) by (apply dg_le; lia).
      assert (Hu2 : fexp 53 1024 (dg q + u) = u).
      { rewrite fexp_val. destruct (Z.eq_dec u (-1074)) as [->|Nu2]; [lia|].
        assert (dg q = 53) by (apply dg_unique; lia). lia. }
      rewrite shr_fexp_id by exact Hu2. cbn [shr_record_of_loc shr_m].
      replace (Zpos q * 2 ^ (u + 1074) <? 2 ^ (1024 + 1074)) with (u <=? 1024 - 53).
      2:{ apply eq_true_iff_eq. rewrite Z.leb_le, Z.ltb_lt. split; intros H.
          - apply Z.lt_le_trans with (2 ^ 53 * 2 ^ (u + 1074)); [apply Z.mul_lt_mono_pos_r; lia|].
            rewrite <- Z.pow_add_r by lia. apply Z.pow_le_mono_r; lia.
          - destruct (Z.eq_dec u (-1074)) as [->|Nu2]; [lia|].
            assert (2 ^ (52 + (u + 1074)) < 2 ^ (1024 + 1074)).
            { rewrite Z.pow_add_r by lia. eapply Z.le_lt_trans; [|exact H]. apply Z.mul_le_mono_nonneg_r; [lia|apply Hlow; lia]. }
            assert (52 + (u + 1074) < 1024 + 1074) by (apply pow_lt_inv; lia). lia. }
      destruct (u <=? 1024 - 53) eqn:L; [|reflexivity]. apply Z.leb_le in L.
      split; [apply canon_iff; lia|]. split; [reflexivity|]. split; [reflexivity|]. intros H. exact H.
Qed.

Lemma round_div : forall s q e d r, 0 <= q -> 0 < d -> 0 <= r < d -> e <= fexp 53 1024 (Zdigits2 q + e) ->
    let u := fexp 53 1024 (Zdigits2 q + e) in let P := d * 2 ^ (u - e) in
    exists y z, made s z u (binary_round_aux 53 1024 s q e (new_location d r)) /\
      0 <= y < 2 ^ 53 /\ (-1074 < u -> 2 ^ 52 <= y) /\ y * P <= q * d + r < (y + 1) * P /\ (z = y \/ z = y + 1) /\
      2 * Z.abs (z * P - (q * d + r)) <= P /\ (2 * Z.abs (z * P - (q * d + r)) = P -> Z.even z = true).
Proof.
  intros s q e d r Hq Hd Hr He u P. destruct (digits_0 q Hq) as (D0 & D1 & D2).
  assert (Hu : u = Z.max (Zdigits2 q + e - 53) (-1074)) by apply fexp_val. fold u in He.
  assert (PP : 0 < 2 ^ (u - e)) by (apply Z.pow_pos_nonneg; lia).
  set (x := fst (shr (shr_record_of_loc q (new_location d r)) e (u - e))).
  assert (I : parts (q * d + r) P x).
  { unfold x, P. pose proof (parts_0 q d r Hq Hd Hr) as I0. destruct (u - e) as [|k|k] eqn:Ek; [| |lia]; cbn [shr fst].
    - rewrite Z.pow_0_r, Z.mul_1_r. exact I0.
    - rewrite (Z.mul_comm d). apply iter_parts; assumption. }
  assert (Es : shr (shr_record_of_loc q (new_location d r)) e (u - e) = (x, u)).
  { unfold x. destruct (u - e) as [|k|k] eqn:Ek; [| |lia]; cbn [shr fst]; f_equal; lia. }
  destruct (rnd_parts _ _ _ I) as (R1 & R2 & R3). destruct I as (I1 & I2 & _). cbv zeta in I2.
  assert (HP : 0 < P) by (unfold P; nia).
  assert (Hy : shr_m x < 2 ^ 53).
  { destruct (Z.lt_ge_cases (shr_m x) (2 ^ 53)) as [|G]; [assumption|exfalso].
    assert (q < 2 ^ 53 * 2 ^ (u - e)).
    { rewrite <- Z.pow_add_r by lia. eapply Z.lt_le_trans; [exact D1|]. apply Z.pow_le_mono_r; lia. }
    assert (shr_m x * 2 ^ (u - e) <= q).
    { apply Z.lt_succ_r. apply Z.mul_lt_mono_pos_r with (p := d); [exact Hd|].
      apply Z.le_lt_trans with (q * d + r); [unfold P in I2; nia|nia]. }
    nia. }
  assert (Hlow : -1074 < u -> 2 ^ 52 <= shr_m x).
  { intros L. assert (Zdigits2 q = 53 + (u - e)) by lia. assert (0 < q) by (destruct q; cbn in *; lia).
    specialize (D2 ltac:(lia)). replace (Zdigits2 q - 1) with (52 + (u - e)) in D2 by lia. rewrite Z.pow_add_r in D2 by lia.
    apply Z.lt_succ_r. apply Z.mul_lt_mono_pos_r with (p := P); [exact HP|].
    apply Z.le_lt_trans with (q * d + r); [unfold P; nia|nia]. }
  exists (shr_m x), (rnd x). split; [|split; [lia|split; [exact Hlow|split; [lia|split; [exact R3|split; [exact R1|exact R2]]]]]].
  unfold binary_round_aux, shr_fexp at 1. fold u. rewrite Es. fold (rnd x).
  apply made_ok; [lia|lia|intros L; specialize (Hlow L); lia].
Qed.

(** Multiples of a unit: the one within half a unit is the nearest *)
Lemma unit_nearest : forall p x z w, 0 < p -> 2 * Z.abs (z * p - x) <= p ->
    Z.abs (z * p - x) <= Z.abs (w * p - x) /\ (w <> z -> Z.abs (z * p - x) = Z.abs (w * p - x) -> 2 * Z.abs (z * p - x) = p).
Proof.
  intros p x z w Hp H. destruct (Z.eq_dec w z) as [->|N]; [split; [lia|intros X; congruence]|].
  assert (A : p <= Z.abs (w * p - z * p)).
  { replace (w * p - z * p) with ((w - z) * p) by ring. rewrite Z.abs_mul, (Z.abs_eq p) by lia. nia. }
  split; lia.
Qed.

Lemma sgn_abs : forall s z, Z.abs (sgn s * z) = Z.abs z.
Proof. intros [|] z; cbn [sgn]; lia. Qed.

Lemma sgn_sgn : forall s, sgn s * sgn s = 1.
Proof. intros [|]; reflexivity. Qed.

(** The nearest number, once the mantissa is the nearest *)
Lemma nearest_made : forall s y z u N d f, 0 < d -> -1074 <= u -> canon f -> fval f = Some (sgn s * z * 2 ^ (u + 1074)) ->
    (Z.even z = true -> evenMantissa f) -> 0 <= y ->
    (-1074 < u -> 2 ^ 52 <= y) -> y * (d * 2 ^ (u + 1074)) <= N -> (z = y \/ z = y + 1) ->
    2 * Z.abs (z * (d * 2 ^ (u + 1074)) - N) <= d * 2 ^ (u + 1074) ->
    (2 * Z.abs (z * (d * 2 ^ (u + 1074)) - N) = d * 2 ^ (u + 1074) -> Z.even z = true) ->
    forall g w, is_float64 g -> fval g = Some w ->
      Z.abs (sgn s * z * 2 ^ (u + 1074) * d - sgn s * N) <= Z.abs (w * d - sgn s * N) /\
      (w <> sgn s * z * 2 ^ (u + 1074) -> Z.abs (sgn s * z * 2 ^ (u + 1074) * d - sgn s * N) = Z.abs (w * d - sgn s * N) -> evenMantissa f).
Proof.
  intros s y z u N d f Hd Hu Cf Vf Hev Hy Hlow HN Hz Hn Ht g w Hg Hw.
  assert (HU : 0 < 2 ^ (u + 1074)) by (apply Z.pow_pos_nonneg; lia).
  set (U := 2 ^ (u + 1074)) in *. set (p := d * U) in *. assert (Hp : 0 < p) by (unfold p; nia).
  replace (sgn s * z * U * d - sgn s * N) with (sgn s * (z * p - N)) by (unfold p; ring). rewrite sgn_abs.
  assert (E : w * d - sgn s * N = sgn s * (sgn s * w * d - N)).
  { transitivity ((sgn s * sgn s) * w * d - sgn s * N); [rewrite sgn_sgn; ring|ring]. }
  rewrite E, sgn_abs. clear E.
  assert (M : (exists k, sgn s * w = k * U) \/ (sgn s * w < 2 ^ 52 * U /\ -1074 < u)).
  { destruct (Z.eq_dec u (-1074)) as [Eu|Nu].
    - left. exists (sgn s * w). unfold U. rewrite Eu. replace (-1074 + 1074) with 0 by lia. lia.
    - destruct (Z.lt_ge_cases (sgn s * w) (2 ^ 52 * U)) as [L|L]; [right; split; [exact L|lia]|left].
      destruct g as [s0|s0| |s0 mg eg]; cbn [fval] in Hw; try discriminate; injection Hw as <-.
      + exists 0. lia.
      + fold (sgn s0) in *. destruct Hg as [Hg1 [Hg2 Hg3]].
        assert (Hb : 2 ^ 52 * U <= Zpos mg * 2 ^ (eg + 1074)).
        { pose proof (pow_nonneg (eg + 1074)). destruct s, s0; cbn [sgn] in L; nia. }
        assert (2 ^ (52 + (u + 1074)) < 2 ^ (53 + (eg + 1074))).
        { rewrite (Z.pow_add_r 2 52), (Z.pow_add_r 2 53) by lia. fold U. eapply Z.le_lt_trans; [exact Hb|].
          apply Z.mul_lt_mono_pos_r; [apply Z.pow_pos_nonneg; lia|exact Hg1]. }
        assert (52 + (u + 1074) < 53 + (eg + 1074)) by (apply pow_lt_inv; lia).
        exists (sgn s * (sgn s0 * Zpos mg * 2 ^ (eg - u))).
        replace (eg + 1074) with ((eg - u) + (u + 1074)) by lia. rewrite Z.pow_add_r by lia. fold U. ring. }
  assert (W : forall k, sgn s * w = k * U -> (w <> sgn s * z * U <-> k <> z)).
  { intros k Ek. assert (w = sgn s * k * U).
    { rewrite <- Z.mul_assoc, <- Ek, Z.mul_assoc, sgn_sgn. lia. }
    subst w. split; intros H F; apply H; [subst; reflexivity|].
    assert (sgn s * k * U = sgn s * z * U -> k = z); [|auto]. intros G. apply Z.mul_cancel_r in G; [|lia].
    apply Z.mul_cancel_l in G; [exact G|destruct s; cbn; lia]. }
  destruct M as [(k & Ek)|(L & Lu)].
  - rewrite Ek. replace (k * U * d) with (k * p) by (unfold p; ring).
    destruct (unit_nearest p N z k Hp Hn) as [A B]. split; [exact A|]. intros D X. apply Hev, Ht, B; [|exact X].
    apply (W k Ek), D.
  - specialize (Hlow Lu). destruct (unit_nearest p N z (2 ^ 52) Hp Hn) as [A _].
    assert (2 ^ 52 * p <= N) by nia.
    assert (sgn s * w * d < 2 ^ 52 * p) by (unfold p; nia). split; lia.
Qed.

(** The same numbers in other units *)
Lemma scaled : forall y z P Q M p N, 0 < Q -> P * Q = p -> M * Q = N -> y * P <= M < (y + 1) * P -> 2 * Z.abs (z * P - M) <= P ->
    (2 * Z.abs (z * P - M) = P -> Z.even z = true) ->
    y * p <= N < (y + 1) * p /\ 2 * Z.abs (z * p - N) <= p /\ (2 * Z.abs (z * p - N) = p -> Z.even z = true).
Proof.
  intros y z P Q M p N HQ <- <- Y N1 N2.
  replace (z * (P * Q) - M * Q) with ((z * P - M) * Q) by ring. rewrite Z.abs_mul, (Z.abs_eq Q), !Z.mul_assoc by lia.
  split; [split; [apply Z.mul_le_mono_nonneg_r; lia|apply Z.mul_lt_mono_pos_r; lia]|].
  split; [apply Z.mul_le_mono_nonneg_r; lia|]. intros X. apply N2. apply Z.mul_cancel_r in X; lia.
Qed.

(** Numbers below the limit are not rounded up to 2^1024. *)
Lemma below : forall y z B A d N, 0 < d -> 0 < A -> 0 <= y < 2 ^ 53 -> (z = y \/ z = y + 1) -> y * (d * B) <= N ->
    2 * Z.abs (z * (d * B) - N) <= d * B -> B <= A \/ B = 2 * A \/ 4 * A <= B /\ 2 ^ 52 <= y ->
    N < (2 ^ 54 - 1) * A * d -> z * B < 2 ^ 54 * A.
Proof.
  intros y z B A d N Hd HA Hy Hz HN H1 HB HL.
  destruct HB as [HB|[->|[HB Y]]].
  - assert (z <= 2 ^ 53) by lia. destruct (Z.lt_ge_cases B 0); [nia|]. assert (z * B <= 2 ^ 53 * A) by (apply Z.mul_le_mono_nonneg; lia). lia.
  - assert (N < (2 ^ 54 - 1) * (A * d)) by lia. replace (d * (2 * A)) with (2 * (A * d)) in * by ring.
    set (C := A * d) in *. assert (0 < C) by (unfold C; nia). clearbody C. assert (z < 2 ^ 53) by nia. nia.
  - exfalso. assert (2 ^ 52 * (d * (4 * A)) <= y * (d * B)).
    { apply Z.mul_le_mono_nonneg; [lia|lia|nia|apply Z.mul_le_mono_nonneg_l; lia]. }
    assert (0 < d * A) by nia. lia.
Qed.

(** Numbers from the limit on are. *)
Lemma above : forall y z B A d N, 0 < d -> 0 < A -> 0 <= y < 2 ^ 53 -> (z = y \/ z = y + 1) -> N < (y + 1) * (d * B) ->
    2 * Z.abs (z * (d * B) - N) <= d * B -> (2 * Z.abs (z * (d * B) - N) = d * B -> Z.even z = true) ->
    0 < B -> B <= A \/ B = 2 * A \/ 4 * A <= B /\ 2 ^ 52 <= y ->
    (2 ^ 54 - 1) * A * d <= N -> 2 ^ 54 * A <= z * B.
Proof.
  intros y z B A d N Hd HA Hy Hz HN H1 H2 HB0 HB HL.
  assert (HdA : 0 < d * A) by nia.
  destruct HB as [HB|[->|[HB Y]]].
  - exfalso. assert ((y + 1) * (d * B) <= 2 ^ 53 * (d * A)).
    { apply Z.mul_le_mono_nonneg; [lia|lia|nia|apply Z.mul_le_mono_nonneg_l; lia]. }
    lia.
  - destruct (Z.lt_ge_cases z (2 ^ 53)) as [L|L]; [exfalso|assert (2 ^ 53 * (2 * A) <= z * (2 * A)) by (apply Z.mul_le_mono_nonneg_r; lia); lia].
    assert ((2 ^ 54 - 1) * (d * A) <= N) by lia. replace (d * (2 * A)) with (2 * (d * A)) in * by ring.
    set (C := d * A) in *. clearbody C. assert (Ze : z = 2 ^ 53 - 1) by nia.
    assert (Z.even z = true) by (apply H2; nia). subst z. discriminate.
  - assert (2 ^ 52 * (4 * A) <= z * B) by (apply Z.mul_le_mono_nonneg; lia). lia.
Qed.

(** ** The quotient *)
Lemma quotient_digits : forall m d e q r, e <= 0 -> dg m - dg d - e >= 1 -> Zpos m * 2 ^ (- e) = Zpos d * q + r -> 0 <= r < Zpos d -> 0 <= q ->
    dg m - dg d - e <= Zdigits2 q.
Proof.
  intros m d e q r He Hge DM Hr Hq. destruct (digits_0 q Hq) as (D0 & D1 & _).
  pose proof (dg_bounds m) as Bm. pose proof (dg_bounds d) as Bd. pose proof (dg_pos m) as Pm. pose proof (dg_pos d) as Pd.
  destruct (Z.le_gt_cases (dg m - dg d - e) (Zdigits2 q)) as [|G]; [assumption|exfalso].
  assert (Hlt : q < 2 ^ (dg m - dg d - e - 1)).
  { eapply Z.lt_le_trans; [exact D1|]. apply Z.pow_le_mono_r; lia. }
  assert (X : 2 ^ (dg m - 1 + - e) < 2 ^ (dg m - dg d - e - 1 + dg d)).
  { rewrite (Z.pow_add_r 2 (dg m - 1)), (Z.pow_add_r 2 (dg m - dg d - e - 1)) by lia.
    set (A := 2 ^ (dg m - dg d - e - 1)) in *. set (B := 2 ^ (- e)) in *.
    assert (0 < B) by (apply Z.pow_pos_nonneg; lia).
    apply Z.le_lt_trans with (Zpos m * B); [apply Z.mul_le_mono_nonneg_r; lia|].
    apply Z.lt_le_trans with (A * Zpos d); [|apply Z.mul_le_mono_nonneg_l; lia].
    rewrite DM. apply Z.lt_le_trans with (Zpos d * q + Zpos d); [lia|]. replace (Zpos d * q + Zpos d) with ((q + 1) * Zpos d) by ring.
    apply Z.mul_le_mono_nonneg_r; lia. }
  apply pow_lt_inv in X; lia.
Qed.

Lemma quotient_rounded : forall s m d,
    let f := SFdiv 53 1024 (S754_finite s m 0) (S754_finite false d 0) in
    (Zpos m < limit * Zpos d -> rounded s (Zpos m) (Zpos d) f) /\ (limit * Zpos d <= Zpos m -> f = S754_infinity s).
Proof.
  intros s m d f. subst f. unfold SFdiv, SFdiv_core_binary. cbn [Zdigits2]. fold (dg m). fold (dg d).
  rewrite xorb_false_r. rewrite !Z.add_0_r, Z.sub_0_r. replace (0 - Z.min (fexp 53 1024 (dg m - dg d)) 0) with (- Z.min (fexp 53 1024 (dg m - dg d)) 0) by lia.
  set (e := Z.min (fexp 53 1024 (dg m - dg d)) 0).
  assert (He : e = Z.min (Z.max (dg m - dg d - 53) (-1074)) 0) by (unfold e; rewrite fexp_val; reflexivity). clearbody e.
  set (M := Zpos m * 2 ^ (- e)).
  assert (EM : match - e with 0 => Zpos m | Zpos _ => Z.shiftl (Zpos m) (- e) | Zneg _ => 0 end = M).
  { unfold M. destruct (- e) as [|k|k] eqn:Ek; [lia| |lia]. rewrite Z.shiftl_mul_pow2 by lia. reflexivity. }
  rewrite EM. clear EM. pose proof (Z_div_mod M (Zpos d) ltac:(lia)) as DM. destruct (Z.div_eucl M (Zpos d)) as [q r]. destruct DM as [DM Hr].
  pose proof (dg_pos m) as Pm. pose proof (dg_pos d) as Pd.
  assert (HE : 0 < 2 ^ (- e)) by (apply Z.pow_pos_nonneg; lia).
  assert (HM : 0 < M) by (unfold M; apply Z.mul_pos_pos; lia).
  assert (Hq : 0 <= q).
  { destruct (Z.lt_ge_cases q 0) as [G|G]; [|lia]. assert (Zpos d * q <= Zpos d * (-1)) by (apply Z.mul_le_mono_nonneg_l; lia). lia. }
  assert (Hfe : e <= fexp 53 1024 (Zdigits2 q + e)).
  { rewrite fexp_val. destruct (Z.le_gt_cases (-1074) (e)) as [A|A]; [|lia]. destruct (Z.eq_dec e (-1074)) as [B|B]; [lia|].
    pose proof (quotient_digits m d e q r ltac:(lia) ltac:(lia) DM Hr Hq). lia. }
  assert (He0 : -1074 <= e) by lia. assert (He1 : e <= 0) by lia.
  destruct (round_div s q e (Zpos d) r Hq ltac:(lia) ltac:(lia) Hfe) as (y & z & Md & Y1 & Y2 & Y3 & Zy & N1 & N2).
  replace (q * Zpos d + r) with M in Y3, N1, N2 by lia.
  set (u := fexp 53 1024 (Zdigits2 q + e)) in *. assert (Hu : u = Z.max (Zdigits2 q + e - 53) (-1074)) by apply fexp_val. clearbody u.
  set (f := binary_round_aux 53 1024 s q e (new_location (Zpos d) r)) in *. clearbody f.
  assert (Hu0 : -1074 <= u) by lia. clear Hu DM Hr Hq He HE HM Pm Pd.
  (* everything in units of 2^-1074 / d *)
  destruct (scaled y z (Zpos d * 2 ^ (u - e)) (2 ^ (e + 1074)) M (Zpos d * 2 ^ (u + 1074)) (Zpos m * unit1)) as (Y3' & N1' & N2'); try assumption.
  { apply Z.pow_pos_nonneg; lia. }
  { rewrite <- Z.mul_assoc, <- Z.pow_add_r by lia. f_equal. f_equal. lia. }
  { unfold M, unit1. rewrite <- Z.mul_assoc, <- Z.pow_add_r by lia. f_equal. f_equal. lia. }
  clear Y3 N1 N2. clear M. set (N := Zpos m * unit1) in *.
  assert (U0 : 0 < 2 ^ (u + 1074)) by (apply Z.pow_pos_nonneg; lia).
  assert (A0 : 0 < 2 ^ (970 + 1074)) by (apply Z.pow_pos_nonneg; lia).
  assert (H1024 : 2 ^ (1024 + 1074) = 2 ^ 54 * 2 ^ (970 + 1074)) by (rewrite <- Z.pow_add_r by lia; f_equal; lia).
  assert (HL : limit * unit1 = (2 ^ 54 - 1) * 2 ^ (970 + 1074)).
  { unfold limit, unit1. rewrite <- Z.mul_assoc, <- Z.pow_add_r by lia. reflexivity. }
  assert (Hun : 0 < unit1) by apply unit1_pos.
  assert (HB : 2 ^ (u + 1074) <= 2 ^ (970 + 1074) \/ 2 ^ (u + 1074) = 2 * 2 ^ (970 + 1074) \/ 4 * 2 ^ (970 + 1074) <= 2 ^ (u + 1074) /\ 2 ^ 52 <= y).
  { destruct (Z.le_gt_cases u 970) as [G|G]; [left; apply Z.pow_le_mono_r; lia|right].
    destruct (Z.eq_dec u 971) as [->|NE]; [left; rewrite <- Z.pow_succ_r by lia; f_equal; lia|right].
    split; [|apply Y2; lia]. change 4 with (2 ^ 2). rewrite <- Z.pow_add_r by lia. apply Z.pow_le_mono_r; lia. }
  assert (X1 : Zpos m < limit * Zpos d -> z * 2 ^ (u + 1074) < 2 ^ (1024 + 1074)).
  { intros X. rewrite H1024. apply (below y z (2 ^ (u + 1074)) (2 ^ (970 + 1074)) (Zpos d) N); try assumption; try reflexivity; [apply Y3'|].
    rewrite <- HL. unfold N. replace (limit * unit1 * Zpos d) with (limit * Zpos d * unit1) by ring. apply Z.mul_lt_mono_pos_r; assumption. }
  assert (X2 : limit * Zpos d <= Zpos m -> 2 ^ (1024 + 1074) <= z * 2 ^ (u + 1074)).
  { intros X. rewrite H1024. apply (above y z (2 ^ (u + 1074)) (2 ^ (970 + 1074)) (Zpos d) N); try assumption; try reflexivity; [apply Y3'|].
    rewrite <- HL. unfold N. replace (limit * unit1 * Zpos d) with (limit * Zpos d * unit1) by ring. apply Z.mul_le_mono_nonneg_r; [|assumption].
    apply Z.lt_le_incl. exact Hun. }
  unfold made in Md. destruct (z * 2 ^ (u + 1074) <? 2 ^ (1024 + 1074)) eqn:L.
  - apply Z.ltb_lt in L. destruct Md as (C & V & Sg & Ev). split; [|intros X; specialize (X2 X); exfalso; apply (Z.lt_irrefl (2 ^ (1024 + 1074))); eapply Z.le_lt_trans; eassumption].
    intros _. split; [exact C|]. split; [exact Sg|]. exists (sgn s * z * 2 ^ (u + 1074)). split; [exact V|].
    fold (sgn s). replace (sgn s * Zpos m * unit1) with (sgn s * N) by (unfold N; ring).
    apply (nearest_made s y z u N (Zpos d) f); try assumption; try reflexivity; [apply Y1|apply Y3'].
  - apply Z.ltb_ge in L. split; [|intros _; exact Md]. intros X. specialize (X1 X). exfalso. apply (Z.lt_irrefl (2 ^ (1024 + 1074))); eapply Z.le_lt_trans; eassumption.
Qed.
