(** The square root in calcRatFunc (compu_methods.go, math.Sqrt) is correctly rounded. *)
From Coq Require Import ZArith Lia Bool Floats.SpecFloat.
From Verif Require Import FloatModel FloatSpec FloatProofs FloatArith FloatTextSpec FloatRound.
Local Open Scope Z_scope.

(** [r] is the square root of [x], rounded to nearest: the midpoint between [r] and any
    larger float64 is not below it, the midpoint between [r] and any smaller one not above. *)
Definition rootOf (X : Z) (r : spec_float) : Prop :=
  canon r /\ exists R, fval r = Some R /\ 0 <= R /\
    forall g G, is_float64 g -> fval g = Some G -> 0 <= G ->
      (R < G -> 4 * (X * unit1) <= (R + G) * (R + G)) /\ (G < R -> (R + G) * (R + G) <= 4 * (X * unit1)).

(** The step on integers. *)
Lemma middle : forall M q r c z k, M = q * q + r -> 0 <= q -> 0 <= r <= 2 * q -> 0 <= z ->
    (c = 0 /\ r = 0 \/ c = 1 /\ 0 < r <= q \/ c = 3 /\ q < r) -> 0 < k -> (k = 1 \/ exists h, k = 2 * h) -> 2 * Z.abs (z * (4 * k) - (q * 4 + c)) <= 4 * k ->
    4 * M <= ((2 * z + 1) * k) * ((2 * z + 1) * k) /\ (0 < z -> ((2 * z - 1) * k) * ((2 * z - 1) * k) <= 4 * M).
Proof.
  intros M q r c z k EM Q R Z0 C K KE N.
  assert (SQ : forall a e, 0 <= a <= e -> a * a <= e * e) by (intros; nia).
  destruct KE as [->|[h ->]].
  - assert (ZQ : (r <= q /\ z = q) \/ (q < r /\ z = q + 1)) by lia.
    destruct ZQ as [[? ->]|[? ->]]; split; try intros; nia.
  - set (a := z * h) in *. replace (z * (4 * (2 * h))) with (8 * a) in N by (unfold a; ring).
    replace ((2 * z + 1) * (2 * h)) with (2 * (2 * a + h)) by (unfold a; ring). replace ((2 * z - 1) * (2 * h)) with (2 * (2 * a - h)) by (unfold a; ring).
    assert (A0 : 0 <= a) by (unfold a; nia). split.
    + destruct (Z.eq_dec c 0) as [->|NC].
      * assert (r = 0) by lia. assert (q <= 2 * a + h) by lia. pose proof (SQ q (2 * a + h)). nia.
      * assert (q + 1 <= 2 * a + h) by lia. pose proof (SQ (q + 1) (2 * a + h)). nia.
    + intros ZP. assert (h <= a) by (unfold a; nia). assert (2 * a - h <= q) by lia. pose proof (SQ (2 * a - h) q). nia.
Qed.

Lemma ends : forall T K y z G, 0 < K -> 0 <= y -> (z = y \/ z = y + 1) -> 4 * T <= ((2 * z + 1) * K) * ((2 * z + 1) * K) -> (0 < z -> ((2 * z - 1) * K) * ((2 * z - 1) * K) <= 4 * T) ->
    (y * K) * (y * K) <= T -> 0 <= G -> (exists w, G = w * K) \/ G <= y * K ->
    (z * K < G -> 4 * T <= (z * K + G) * (z * K + G)) /\ (G < z * K -> (z * K + G) * (z * K + G) <= 4 * T).
Proof.
  intros T K y z G K0 Y0 Zy UP LO YT G0 [[w ->]|GY].
  - split; intros L; apply Z.mul_lt_mono_pos_r in L; try exact K0.
    + eapply Z.le_trans; [exact UP|]. assert ((2 * z + 1) * K <= z * K + w * K) by (rewrite <- Z.mul_add_distr_r; apply Z.mul_le_mono_nonneg_r; lia).
      assert (0 <= (2 * z + 1) * K) by (apply Z.mul_nonneg_nonneg; lia). apply Z.mul_le_mono_nonneg; assumption.
    + assert (0 <= w) by (destruct (Z.lt_ge_cases w 0); [exfalso; nia|assumption]). eapply Z.le_trans; [|apply LO; lia].
      assert (z * K + w * K <= (2 * z - 1) * K) by (rewrite <- Z.mul_add_distr_r; apply Z.mul_le_mono_nonneg_r; lia).
      assert (0 <= z * K + w * K) by (rewrite <- Z.mul_add_distr_r; apply Z.mul_nonneg_nonneg; lia). apply Z.mul_le_mono_nonneg; assumption.
  - assert (YZ : y * K <= z * K) by (apply Z.mul_le_mono_nonneg_r; lia). assert (YK : 0 <= y * K) by (apply Z.mul_nonneg_nonneg; lia). split; intros L; [lia|].
    destruct Zy as [->| ->].
    + apply Z.le_trans with ((2 * (y * K)) * (2 * (y * K))); [apply Z.mul_le_mono_nonneg; lia|]. lia.
    + eapply Z.le_trans; [|apply LO; lia]. apply Z.mul_le_mono_nonneg; lia.
Qed.

Lemma sqrt_rounded : forall m e, canon (S754_finite false m e) -> rootOf (Zpos m * 2 ^ (e + 1074)) (fsqrt (S754_finite false m e)).
Proof.
  intros m e C. pose proof (canon_e _ _ _ C) as E1. apply canon_iff in C. destruct C as [C1 C2]. rewrite fexp_val in C1.
  pose proof (dg_bounds m) as B. pose proof (dg_pos m) as D1.
  unfold fsqrt, SFsqrt, SFsqrt_core_binary. cbn [Zdigits2]. fold (dg m). rewrite fexp_val.
  set (e' := Z.min _ _).
  pose proof (Z.div_mod e 2 ltac:(lia)) as DM. pose proof (Z.mod_pos_bound e 2 ltac:(lia)) as DB.
  pose proof (Z.div_mod (dg m + e + 1) 2 ltac:(lia)) as DM2. pose proof (Z.mod_pos_bound (dg m + e + 1) 2 ltac:(lia)) as DB2.
  assert (EE : e' = Z.min (Z.max ((dg m + e + 1) / 2 - 53) (-1074)) (e / 2)) by (unfold e'; rewrite !Z.div2_div; reflexivity). clearbody e'.
  set (M := match e - 2 * e' with 0 => Zpos m | Zpos _ => Z.shiftl (Zpos m) (e - 2 * e') | Zneg _ => 0 end).
  assert (EM : M = Zpos m * 2 ^ (e - 2 * e')).
  { unfold M. destruct (e - 2 * e') as [|p|p] eqn:X; [lia| |lia]. apply Z.shiftl_mul_pow2. lia. }
  clearbody M. assert (PS : 0 < 2 ^ (e - 2 * e')) by (apply Z.pow_pos_nonneg; lia). assert (MP : 0 < M) by nia.
  pose proof (Z.sqrtrem_spec M ltac:(lia)) as SR. destruct (Z.sqrtrem M) as [q r]. destruct SR as [SR1 SR2].
  assert (Q0 : 0 <= q) by (destruct (Z.lt_ge_cases q 0); [nia|lia]). assert (Q1 : 0 < q) by nia.
  destruct (digits_0 q Q0) as (D0 & D2 & D3). specialize (D3 Q1).
  (* the digits of the root *)
  assert (DQ : (dg m + e + 1) / 2 <= Zdigits2 q + e').
  { assert (X : 2 ^ (dg m + e - 2 * e' - 1) < 2 ^ (2 * Zdigits2 q)).
    { apply Z.le_lt_trans with M.
      - rewrite EM. replace (dg m + e - 2 * e' - 1) with ((dg m - 1) + (e - 2 * e')) by lia. rewrite Z.pow_add_r by lia. apply Z.mul_le_mono_nonneg_r; lia.
      - replace (2 * Zdigits2 q) with (Zdigits2 q + Zdigits2 q) by lia. rewrite Z.pow_add_r by lia. nia. }
    apply pow_lt_inv in X; lia. }
  assert (DP : 0 <= Zdigits2 q - 1).
  { destruct (Z.lt_ge_cases (Zdigits2 q) 1) as [X|X]; [|lia]. assert (Y : Zdigits2 q = 0) by lia. rewrite Y in D2. cbn in D2. lia. }
  assert (DU : Zdigits2 q + e' <= 520).
  { assert (X : 2 ^ (2 * (Zdigits2 q - 1)) < 2 ^ (dg m + e - 2 * e')).
    { apply Z.le_lt_trans with M.
      - replace (2 * (Zdigits2 q - 1)) with (Zdigits2 q - 1 + (Zdigits2 q - 1)) by lia. rewrite Z.pow_add_r by exact DP. pose proof (Z.pow_nonneg 2 (Zdigits2 q - 1) ltac:(lia)).
        apply Z.le_trans with (q * q); [apply Z.mul_le_mono_nonneg; assumption|lia].
      - rewrite EM. replace (dg m + e - 2 * e') with (dg m + (e - 2 * e')) by lia. rewrite Z.pow_add_r by lia. apply Z.mul_lt_mono_pos_r; lia. }
    apply pow_lt_inv in X; lia. }
  assert (E5 : 0 <= e' + 1074) by lia.
  assert (EX : Zpos m * 2 ^ (e + 1074) * unit1 = M * (2 ^ (e' + 1074) * 2 ^ (e' + 1074))).
  { rewrite EM. unfold unit1. rewrite <- Z.pow_add_r by exact E5. transitivity (Zpos m * (2 ^ (e + 1074) * 2 ^ 1074)); [ring|]. rewrite <- Z.pow_add_r by lia.
    transitivity (Zpos m * (2 ^ (e - 2 * e') * 2 ^ (e' + 1074 + (e' + 1074)))); [|ring]. rewrite <- Z.pow_add_r by lia. do 2 f_equal. lia. }
  assert (FE : e' <= Z.max (Zdigits2 q + e' - 53) (-1074)) by lia.
  assert (UM : Z.max (Zdigits2 q + e' - 53) (-1074) <= 467 /\ -1074 <= Z.max (Zdigits2 q + e' - 53) (-1074)) by lia.
  clear C1 C2 B D1 DM DB DM2 DB2 EE PS EM E1 DQ D2 D3 D0 DU DP.
  set (c := if Zeq_bool r 0 then 0 else if r <=? q then 1 else 3).
  set (l := if Zeq_bool r 0 then loc_Exact else loc_Inexact (if r <=? q then Lt else Gt)).
  assert (EL : l = new_location 4 c).
  { unfold l, c. destruct (Zeq_bool r 0); [reflexivity|]. destruct (r <=? q); reflexivity. }
  rewrite EL. clear EL l.
  assert (HC : c = 0 /\ r = 0 \/ c = 1 /\ 0 < r <= q \/ c = 3 /\ q < r).
  { unfold c. destruct (Zeq_bool r 0) eqn:ZR; [apply Zeq_bool_eq in ZR; lia|]. apply Zeq_bool_neq in ZR. destruct (r <=? q) eqn:L; [apply Z.leb_le in L|apply Z.leb_gt in L]; lia. }
  clearbody c.
  destruct (round_div false q e' 4 c Q0 ltac:(lia) ltac:(lia)) as (y & z & Md & Y1 & Y2 & Y3 & Zy & N1 & _).
  { rewrite fexp_val. exact FE. }
  set (f := binary_round_aux _ _ _ _ _ _) in *. clearbody f.
  assert (Hu : fexp 53 1024 (Zdigits2 q + e') = Z.max (Zdigits2 q + e' - 53) (-1074)) by apply fexp_val.
  set (u := fexp 53 1024 (Zdigits2 q + e')) in *. clearbody u.
  rewrite <- Hu in FE, UM. clear Hu. rename FE into UE. destruct UM as [UM1 UM2].
  set (k := 2 ^ (u - e')) in *. assert (KP : 0 < k) by (apply Z.pow_pos_nonneg; lia).
  assert (KE : k = 1 \/ exists h, k = 2 * h).
  { destruct (Z.eq_dec u e') as [->|NE]; [left; unfold k; rewrite Z.sub_diag; reflexivity|right]. exists (2 ^ (u - e' - 1)). unfold k. rewrite <- Z.pow_succ_r by lia. f_equal. lia. }
  assert (ZY : 0 <= z) by lia.
  destruct (middle M q r c z k) as [UP LO]; try assumption; try lia.
  set (P := 2 ^ (e' + 1074)) in *. assert (PP : 0 < P) by (apply Z.pow_pos_nonneg; lia).
  assert (UB : 2 ^ (u + 1074) = k * P).
  { unfold k, P. rewrite <- Z.pow_add_r by lia. f_equal. lia. }
  assert (YQ : y * k <= q) by lia.
  (* no overflow *)
  assert (FIN : z * 2 ^ (u + 1074) < 2 ^ (1024 + 1074)).
  { apply Z.le_lt_trans with (2 ^ 53 * 2 ^ (u + 1074)); [apply Z.mul_le_mono_nonneg_r; [apply Z.pow_nonneg|]; lia|].
    rewrite <- Z.pow_add_r by lia. apply Z.pow_lt_mono_r; lia. }
  unfold made in Md. apply Z.ltb_lt in FIN. rewrite FIN in Md. destruct Md as (CF & VF & _). split; [exact CF|]. unfold sgn in VF. rewrite Z.mul_1_l, UB in VF.
  exists (z * (k * P)). split; [exact VF|]. clear VF CF f FIN N1 Y3 HC KE.
  assert (KB : 0 < k * P) by (apply Z.mul_pos_pos; assumption). split; [apply Z.mul_nonneg_nonneg; [exact ZY|apply Z.lt_le_incl, KB]|]. intros g G FG VG G0. rewrite EX.
  apply (ends (M * (P * P)) (k * P) y z G); try assumption; [apply Y1| | | |].
  - replace (((2 * z + 1) * (k * P)) * ((2 * z + 1) * (k * P))) with (((2 * z + 1) * k) * ((2 * z + 1) * k) * (P * P)) by ring. rewrite Z.mul_assoc. apply Z.mul_le_mono_nonneg_r; [apply Z.square_nonneg|exact UP].
  - intros ZP. replace (((2 * z - 1) * (k * P)) * ((2 * z - 1) * (k * P))) with (((2 * z - 1) * k) * ((2 * z - 1) * k) * (P * P)) by ring. rewrite (Z.mul_assoc 4). apply Z.mul_le_mono_nonneg_r; [apply Z.square_nonneg|exact (LO ZP)].
  - replace ((y * (k * P)) * (y * (k * P))) with ((y * k) * (y * k) * (P * P)) by ring. apply Z.mul_le_mono_nonneg_r; [apply Z.square_nonneg|]. assert (0 <= y * k) by (apply Z.mul_nonneg_nonneg; [apply Y1|apply Z.lt_le_incl, KP]).
    apply Z.le_trans with (q * q); [apply Z.mul_le_mono_nonneg; assumption|]. rewrite SR1. clear - SR2. lia.
  - clear UP LO EX. destruct g as [s|s| |s mg eg]; cbn [fval] in VG; try discriminate; injection VG as <-.
    + left. exists 0. reflexivity.
    + cbn [is_float64] in FG. destruct FG as (F1 & F2 & F3). assert (PG : 0 < 2 ^ (eg + 1074)) by (apply Z.pow_pos_nonneg; [reflexivity|clear - F2; lia]).
      destruct s; [exfalso; clear - G0 PG; nia|]. rewrite Z.mul_1_l in *. rewrite <- UB.
      destruct (Z.le_gt_cases u eg) as [LE|GT].
      * left. exists (Zpos mg * 2 ^ (eg - u)). rewrite <- Z.mul_assoc, <- Z.pow_add_r by (clear - LE UM2; lia). do 2 f_equal. clear. lia.
      * right. specialize (Y2 ltac:(clear - GT F2; lia)). apply Z.le_trans with (2 ^ 53 * 2 ^ (eg + 1074)); [apply Z.mul_le_mono_nonneg_r; [apply Z.lt_le_incl, PG|apply Z.lt_le_incl, F1]|].
        apply Z.le_trans with (2 ^ 52 * 2 ^ (u + 1074)).
        -- rewrite <- !Z.pow_add_r by (clear - F2 UM2; lia). apply Z.pow_le_mono_r; [reflexivity|clear - GT; lia].
        -- apply Z.mul_le_mono_nonneg_r; [apply Z.pow_nonneg; discriminate|exact Y2].
Qed.

(** math.Sqrt for every float64 that is a number and not below zero *)
Theorem C34_square_root : forall x X, canon x -> fval x = Some X -> 0 <= X -> rootOf X (fsqrt x).
Proof.
  intros x X C V P. destruct x as [s|s| |s m e]; cbn [fval] in V; try discriminate; injection V as <-.
  - split; [reflexivity|]. exists 0. split; [reflexivity|]. split; [lia|]. intros g G _ _ G0. split; intros L; [nia|lia].
  - pose proof (canon_e _ _ _ C) as E1. assert (0 < 2 ^ (e + 1074)) by (apply Z.pow_pos_nonneg; lia). destruct s; [nia|].
    rewrite Z.mul_1_l. apply sqrt_rounded. exact C.
Qed.
Print Assumptions C34_square_root.

(** the square root of two *)
Example C34_square_root_example : canon (f_of_Z 2) /\ fsqrt (f_of_Z 2) = S754_finite false 6369051672525773 (-52) /\ rootOf (2 * unit1) (S754_finite false 6369051672525773 (-52)).
Proof.
  assert (C : canon (f_of_Z 2)) by reflexivity. assert (R : fsqrt (f_of_Z 2) = S754_finite false 6369051672525773 (-52)) by (vm_compute; reflexivity). split; [exact C|]. split; [exact R|]. rewrite <- R. apply C34_square_root; [exact C|reflexivity|]. unfold unit1.
  assert (0 < 2 ^ 1074) by (apply Z.pow_pos_nonneg; lia). lia.
Qed.
