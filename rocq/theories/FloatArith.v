(** Addition, multiplication and division of float64 are correctly rounded, and
    exact where the exact result is a float64; comparisons compare numbers. *)
From Coq Require Import ZArith Bool Lia Floats.SpecFloat Zpower.
From Verif Require Import FloatModel FloatSpec FloatProofs.
Local Open Scope Z_scope.

Lemma canon_iff : forall s m e, canon (S754_finite s m e) <-> fexp 53 1024 (dg m + e) = e /\ e <= 971.
Proof.
  intros s m e. unfold canon, valid_binary, bounded, canonical_mantissa. fold (dg m).
  rewrite andb_true_iff, Zle_is_le_bool. split; intros [H1 H2]; (split; [|exact H2]).
  - apply Zeq_bool_eq. exact H1.
  - rewrite H1. apply Zeq_is_eq_bool. reflexivity.
Qed.

Lemma canon_float64 : forall f, canon f -> is_float64 f.
Proof.
  intros [s|s| |s m e] H; try exact I. apply canon_iff in H. rewrite fexp_val in H.
  cbn [is_float64]. pose proof (dg_bounds m) as B. split; [|lia].
  eapply Z.lt_le_trans; [apply B|]. apply Z.pow_le_mono_r; lia.
Qed.

Lemma round_aux_gen : forall s m e K, e <= fexp 53 1024 (dg m + e) -> dg m + e <= 1023 -> 0 <= K -> -1074 - K <= e ->
    let f := binary_round_aux 53 1024 s (Zpos m) e loc_Exact in
    canon f /\ nearestK K (sgn s * Zpos m * 2 ^ (e + 1074 + K)) f.
Proof.
  intros s m e K He Hov HK HeK. rewrite fexp_val in He.
  pose proof (dg_bounds m) as B. pose proof (dg_pos m) as D1.
  set (u := Z.max (dg m + e - 53) (-1074)) in *.
  destruct (Z.eq_dec u e) as [Eu|Nu].
  { cbv zeta. rewrite round_aux_id; [|rewrite fexp_val; exact Eu|lia]. split.
    - apply canon_iff. rewrite fexp_val. split; [exact Eu|lia].
    - eexists. split; [reflexivity|]. intros g w _ _. fold (sgn s).
      replace (e + 1074 + K) with ((e + 1074) + K) by lia. rewrite (Z.pow_add_r 2 (e + 1074) K) by lia.
      rewrite Z.mul_assoc, Z.sub_diag. cbn. lia. }
  cbv zeta. remember (binary_round_aux 53 1024 s (Zpos m) e loc_Exact) as f0 eqn:Ef.
  unfold binary_round_aux, shr_fexp at 1 in Ef.
  cbn [Zdigits2] in Ef. fold (dg m) in Ef. rewrite fexp_val in Ef. fold u in Ef.
  assert (Hk : exists k, u - e = Zpos k) by (exists (Z.to_pos (u - e)); lia).
  destruct Hk as [k Ek]. rewrite Ek in Ef. cbn [shr] in Ef.
  pose proof (iter_shr_inv k (Zpos m) 0 _ ltac:(lia) (shr_inv_0 (Zpos m) ltac:(lia))) as I.
  rewrite Z.add_0_l in I.
  set (x := iter_pos shr_1 k (shr_record_of_loc (Zpos m) loc_Exact)) in *.
  destruct (rnd_near _ _ _ I) as [Hn Hc]. fold (rnd x) in Ef.
  set (r := rnd x) in *.
  destruct I as [Hm [Ht _]].
  assert (P : 0 < 2 ^ Zpos k) by (apply Z.pow_pos_nonneg; lia).
  assert (Hq : shr_m x < 2 ^ 53).
  { apply Z.mul_lt_mono_pos_r with (p := 2 ^ Zpos k); [exact P|].
    rewrite <- Z.pow_add_r by lia. apply Z.le_lt_trans with (Zpos m); [lia|].
    eapply Z.lt_le_trans; [apply B|]. apply Z.pow_le_mono_r; lia. }
  assert (Hlow : -1074 < u -> 2 ^ 52 <= shr_m x).
  { intros Hu. assert (Hd : dg m = 53 + Zpos k) by lia. rewrite Hd in B.
    replace (53 + Zpos k - 1) with (52 + Zpos k) in B by lia. rewrite (Z.pow_add_r 2 52) in B by lia.
    apply Z.lt_succ_r. apply Z.mul_lt_mono_pos_r with (p := 2 ^ Zpos k); lia. }
  clearbody r.
  replace (e + Zpos k) with u in Ef by lia.
  (* the resulting number *)
  assert (R : exists f, (let '(mrs'', e'') := shr_fexp 53 1024 r u loc_Exact in
      match shr_m mrs'' with
      | 0 => S754_zero s
      | Z.pos m0 => if e'' <=? 1024 - 53 then S754_finite s m0 e'' else S754_infinity s
      | Z.neg _ => S754_nan
      end) = f /\ canon f /\ fval f = Some (sgn s * r * 2 ^ (u + 1074))).
  { destruct r as [|q|q]; [| |lia].
    - eexists. split; [unfold shr_fexp; rewrite fexp_val; cbn [Zdigits2]|].
      + replace (Z.max (0 + u - 53) (-1074) - u) with (Z.max (-53) (-1074 - u)) by lia.
        destruct (Z.max (-53) (-1074 - u)) eqn:Em; [reflexivity|lia|reflexivity].
      + split; [reflexivity|]. cbn [fval]. rewrite Z.mul_0_r, Z.mul_0_l. reflexivity.
    - destruct (Z.eq_dec (Zpos q) (2 ^ 53)) as [Eq|Nq].
      + assert (q = 9007199254740992%positive) by lia. subst q.
        unfold shr_fexp. rewrite fexp_val. change (Zdigits2 9007199254740992) with 54.
        replace (Z.max (54 + u - 53) (-1074) - u) with 1 by lia.
        cbn [shr iter_pos]. cbn [shr_record_of_loc shr_1 shr_m].
        assert ((u + 1 <=? 1024 - 53) = true) as -> by (apply Z.leb_le; lia).
        eexists. split; [reflexivity|]. split.
        * apply canon_iff. rewrite fexp_val. change (dg 4503599627370496) with 53. lia.
        * cbn [fval]. f_equal. fold (sgn s). replace (u + 1 + 1074) with (1 + (u + 1074)) by lia.
          rewrite (Z.pow_add_r 2 1) by lia. lia.
      + assert (Hd : dg q <= 53) by (apply dg_le; lia).
        assert (Hu2 : fexp 53 1024 (dg q + u) = u).
        { rewrite fexp_val. destruct (Z.eq_dec u (-1074)) as [->|Nu2]; [lia|].
          assert (2 ^ 52 <= shr_m x) by (apply Hlow; lia).
          assert (dg q = 53) by (apply dg_unique; lia). lia. }
        rewrite shr_fexp_id by exact Hu2. cbn [shr_record_of_loc shr_m].
        assert ((u <=? 1024 - 53) = true) as -> by (apply Z.leb_le; lia).
        eexists. split; [reflexivity|]. split; [apply canon_iff; lia|]. reflexivity. }
  destruct R as (f & Rf & Cf & Vf). rewrite Rf in Ef. subst f0. split; [exact Cf|].
  eexists. split; [exact Vf|]. intros g w Hg Hw.
  set (Q := 2 ^ (e + 1074 + K)). assert (HQ : 0 < Q) by (apply Z.pow_pos_nonneg; lia).
  assert (EQ : 2 ^ (u + 1074) * 2 ^ K = 2 ^ Zpos k * Q).
  { unfold Q. rewrite <- !Z.pow_add_r by lia. f_equal. lia. }
  replace (sgn s * r * 2 ^ (u + 1074) * 2 ^ K) with (sgn s * r * (2 ^ Zpos k * Q)) by (rewrite <- EQ; ring).
  set (p := 2 ^ Zpos k) in *.
  assert (HpQ : 0 < p * Q) by nia.
  assert (Herr : 2 * Z.abs (sgn s * r * (p * Q) - sgn s * Zpos m * Q) <= p * Q).
  { replace (sgn s * r * (p * Q) - sgn s * Zpos m * Q) with (sgn s * (r * p - Zpos m) * Q) by ring.
    rewrite !Z.abs_mul, (Z.abs_eq Q) by lia.
    assert (Z.abs (sgn s) = 1) as -> by (destruct s; reflexivity). nia. }
  assert (Dv : (p * Q | sgn s * r * (p * Q))) by (exists (sgn s * r); reflexivity).
  assert (EpQ : p * Q = 2 ^ (u + 1074 + K)).
  { unfold p, Q. rewrite <- Z.pow_add_r by lia. f_equal. lia. }
  assert (HK2 : 0 < 2 ^ K) by (apply Z.pow_pos_nonneg; lia).
  (* w is a multiple of 2^(u+1074), or below the binade *)
  assert (Mult : forall s0 mg eg, u <= eg -> (p * Q | sgn s0 * Zpos mg * 2 ^ (eg + 1074) * 2 ^ K)).
  { intros s0 mg eg Hu. rewrite EpQ, <- Z.mul_assoc, <- Z.pow_add_r by lia.
    apply Z.divide_mul_r. apply pow_divide. lia. }
  destruct (Z.eq_dec u (-1074)) as [Elow|Nlow].
  - apply mult_nearest with (p := p * Q); auto.
    destruct g as [s0|s0| |s0 mg eg]; cbn [fval] in Hw; try discriminate; injection Hw as <-.
    + exists 0. lia.
    + fold (sgn s0). apply Mult. destruct Hg. lia.
  - set (T := 2 ^ (dg m - 1) * Q).
    assert (DT : (p * Q | T)).
    { unfold T, p. apply Z.mul_divide_mono_r. apply pow_divide. lia. }
    assert (HT : T <= Zpos m * Q) by (unfold T; nia).
    assert (HT0 : 0 < T) by (unfold T; assert (0 < 2 ^ (dg m - 1)) by (apply Z.pow_pos_nonneg; lia); nia).
    destruct (Z.lt_ge_cases (sgn s * (w * 2 ^ K)) T) as [L|L].
    + transitivity (Z.abs (sgn s * T - sgn s * Zpos m * Q)).
      * apply mult_nearest with (p := p * Q); auto. destruct DT as [a ->]. exists (sgn s * a). ring.
      * destruct s; cbn [sgn] in *; lia.
    + apply mult_nearest with (p := p * Q); auto.
      destruct g as [s0|s0| |s0 mg eg]; cbn [fval] in Hw; try discriminate; injection Hw as <-.
      * exists 0. lia.
      * fold (sgn s0) in *. destruct Hg as [Hg1 [Hg2 Hg3]]. apply Mult.
        assert (ET : T = 2 ^ (u + 52 + 1074 + K)).
        { unfold T, Q. rewrite <- Z.pow_add_r by lia. f_equal. lia. }
        assert (Hb : T <= Zpos mg * 2 ^ (eg + 1074) * 2 ^ K).
        { pose proof (pow_nonneg (eg + 1074)). destruct s, s0; cbn [sgn] in L; nia. }
        rewrite ET in Hb.
        assert (2 ^ (u + 52 + 1074 + K) < 2 ^ (53 + (eg + 1074) + K)).
        { rewrite !(Z.pow_add_r 2 _ K), (Z.pow_add_r 2 53) by lia.
          rewrite (Z.pow_add_r 2 _ K) in Hb by lia.
          assert (0 < 2 ^ (eg + 1074)) by (apply Z.pow_pos_nonneg; lia). nia. }
        assert (u + 52 + 1074 + K < 53 + (eg + 1074) + K) by (apply pow_lt_inv; lia). lia.
Qed.

(** ** Representable numbers *)

Definition rep (z : Z) : Prop := exists g, is_float64 g /\ fval g = Some z.
Definition small (z : Z) : Prop := Z.abs z < 2 ^ (1023 + 1074).

Lemma nearestK_rep : forall K z x f, 0 <= K -> rep z -> x = z * 2 ^ K -> nearestK K x f -> fval f = Some z.
Proof.
  intros K z x f HK (g & G1 & G2) -> (v & V & H).
  specialize (H g z G1 G2). rewrite Z.sub_diag in H. cbn [Z.abs] in H.
  assert (E : v * 2 ^ K = z * 2 ^ K) by lia.
  apply Z.mul_cancel_r in E; [subst v; exact V|apply Z.pow_nonzero; lia].
Qed.

Lemma rep_int : forall z, Z.abs z < 2 ^ 53 -> rep (z * unit1).
Proof. intros z H. destruct (f_of_Z_exact z H) as [H1 H2]. eexists. eauto. Qed.

Lemma small_int : forall z, Z.abs z < 2 ^ 53 -> small (z * unit1).
Proof.
  intros z H. unfold small, unit1. rewrite Z.abs_mul, (Z.abs_eq (2 ^ 1074)) by apply pow_nonneg.
  rewrite (Z.pow_add_r 2 1023) by lia. apply Z.mul_lt_mono_pos_r; [apply Z.pow_pos_nonneg; lia|].
  eapply Z.lt_trans; [exact H|]. apply Z.pow_lt_mono_r; lia.
Qed.

(** bound of the exponent of a small number *)
Lemma small_digits : forall m e K, 0 <= K -> -1074 - K <= e ->
    Zpos m * 2 ^ (e + 1074 + K) < 2 ^ (1023 + 1074 + K) -> dg m + e <= 1023.
Proof.
  intros m e K HK He H. pose proof (dg_bounds m) as B. pose proof (dg_pos m).
  assert (2 ^ (dg m - 1 + (e + 1074 + K)) < 2 ^ (1023 + 1074 + K)).
  { rewrite Z.pow_add_r by lia. eapply Z.le_lt_trans; [|exact H]. apply Z.mul_le_mono_nonneg_r; [apply pow_nonneg|lia]. }
  assert (dg m - 1 + (e + 1074 + K) < 1023 + 1074 + K) by (apply pow_lt_inv; lia). lia.
Qed.

Lemma canon_e : forall s m e, canon (S754_finite s m e) -> -1074 <= e.
Proof. intros s m e H. apply canon_iff in H. rewrite fexp_val in H. lia. Qed.

(** *** Multiplication *)

Lemma dg_mul_lower : forall m n, dg m + dg n - 1 <= dg (m * n).
Proof.
  intros m n. pose proof (dg_bounds m). pose proof (dg_bounds n). pose proof (dg_bounds (m * n)) as B.
  pose proof (dg_pos m). pose proof (dg_pos n). pose proof (dg_pos (m * n)).
  assert (2 ^ (dg m - 1 + (dg n - 1)) < 2 ^ dg (m * n)).
  { rewrite Z.pow_add_r by lia. eapply Z.le_lt_trans; [|apply B]. rewrite Pos2Z.inj_mul.
    apply Z.mul_le_mono_nonneg; try apply pow_nonneg; lia. }
  assert (dg m - 1 + (dg n - 1) < dg (m * n)) by (apply pow_lt_inv; lia). lia.
Qed.

Lemma dg_mul_upper : forall m n, dg (m * n) <= dg m + dg n.
Proof.
  intros m n. pose proof (dg_bounds m). pose proof (dg_bounds n). pose proof (dg_pos m). pose proof (dg_pos n).
  apply dg_le; [lia|]. rewrite Z.pow_add_r by lia. rewrite Pos2Z.inj_mul. nia.
Qed.

Lemma sgn_xor : forall a c, sgn (xorb a c) = sgn a * sgn c.
Proof. intros [|] [|]; reflexivity. Qed.

Lemma fmul_nearest : forall x y X Y, canon x -> canon y -> fval x = Some X -> fval y = Some Y ->
    Z.abs (X * Y) < 2 ^ (1023 + 1074 + 1074) ->
    canon (fmul x y) /\ nearestK 1074 (X * Y) (fmul x y).
Proof.
  intros x y X Y Cx Cy Vx Vy Hs.
  assert (Zero : forall s, X * Y = 0 -> canon (S754_zero s) /\ nearestK 1074 (X * Y) (S754_zero s)).
  { intros s E. split; [reflexivity|]. exists 0. split; [reflexivity|]. intros g w _ _. rewrite E. cbn [Z.mul Z.sub Z.abs]. lia. }
  destruct x as [sx|sx| |sx mx ex], y as [sy|sy| |sy my ey]; cbn [fval] in Vx, Vy; try discriminate;
    injection Vx as <-; injection Vy as <-; cbn [fmul SFmul]; try (apply Zero; lia).
  unfold fmul, SFmul. fold (sgn sx) in *. fold (sgn sy) in *.
  pose proof (canon_e _ _ _ Cx) as Ex. pose proof (canon_e _ _ _ Cy) as Ey.
  apply canon_iff in Cx. apply canon_iff in Cy. rewrite fexp_val in Cx, Cy.
  assert (E : sgn sx * Zpos mx * 2 ^ (ex + 1074) * (sgn sy * Zpos my * 2 ^ (ey + 1074)) =
      sgn (xorb sx sy) * Zpos (mx * my) * 2 ^ (ex + ey + 1074 + 1074)).
  { rewrite sgn_xor, Pos2Z.inj_mul.
    replace (ex + ey + 1074 + 1074) with ((ex + 1074) + (ey + 1074)) by lia. rewrite (Z.pow_add_r 2 (ex + 1074)) by lia. ring. }
  rewrite E in *.
  apply (round_aux_gen (xorb sx sy) (mx * my) (ex + ey) 1074); try lia.
  - rewrite fexp_val. pose proof (dg_mul_lower mx my); pose proof (dg_pos mx); pose proof (dg_pos my). lia.
  - apply (small_digits _ _ 1074); try lia.
    rewrite !Z.abs_mul in Hs. rewrite (Z.abs_eq (2 ^ _)) in Hs by apply pow_nonneg.
    assert (Z.abs (sgn (xorb sx sy)) = 1) as A by (destruct sx, sy; reflexivity). rewrite A in Hs. lia.
Qed.

Lemma fmul_exact : forall x y X Y Z0, canon x -> canon y -> fval x = Some X -> fval y = Some Y ->
    X * Y = Z0 * 2 ^ 1074 -> rep Z0 -> small Z0 -> canon (fmul x y) /\ fval (fmul x y) = Some Z0.
Proof.
  intros x y X Y Z0 Cx Cy Vx Vy E R S.
  destruct (fmul_nearest x y X Y Cx Cy Vx Vy) as [C N].
  - rewrite E, Z.abs_mul, (Z.abs_eq (2 ^ 1074)) by apply pow_nonneg.
    rewrite (Z.pow_add_r 2 (1023 + 1074)) by lia. apply Z.mul_lt_mono_pos_r; [apply Z.pow_pos_nonneg; lia|exact S].
  - split; [exact C|]. eapply nearestK_rep; eauto. lia.
Qed.

(** *** Addition and subtraction *)

Lemma shl_align_val : forall m e e', e' <= e -> Zpos (fst (shl_align m e e')) = Zpos m * 2 ^ (e - e').
Proof.
  intros m e e' H. unfold shl_align. destruct (e' - e) as [|k|k] eqn:E; [|lia|].
  - replace (e - e') with 0 by lia. cbn [fst]. lia.
  - cbn [fst]. rewrite shift_pos_val. f_equal. f_equal. lia.
Qed.

Lemma normalize_nearest : forall z e K, 0 <= K -> -1074 - K <= e -> Z.abs (z * 2 ^ (e + 1074 + K)) < 2 ^ (1023 + 1074 + K) ->
    canon (binary_normalize 53 1024 z e false) /\ nearestK K (z * 2 ^ (e + 1074 + K)) (binary_normalize 53 1024 z e false).
Proof.
  assert (R : forall s m e K, 0 <= K -> -1074 - K <= e -> Zpos m * 2 ^ (e + 1074 + K) < 2 ^ (1023 + 1074 + K) ->
    canon (binary_round 53 1024 s m e) /\ nearestK K (sgn s * Zpos m * 2 ^ (e + 1074 + K)) (binary_round 53 1024 s m e)).
  { intros s m e K HK He Hs. pose proof (small_digits m e K HK He Hs) as Hd.
    unfold binary_round. fold (dg m). unfold shl_align.
    destruct (fexp 53 1024 (dg m + e) - e) as [|k|k] eqn:Ek.
    - apply (round_aux_gen s m e K); lia.
    - apply (round_aux_gen s m e K); lia.
    - set (u := fexp 53 1024 (dg m + e)) in *.
      assert (D : dg (shift_pos k m) + u = dg m + e) by (rewrite dg_shift; lia).
      assert (Hu : -1074 <= u) by (unfold u; rewrite fexp_val; lia).
      destruct (round_aux_gen s (shift_pos k m) u K) as [C N].
      + rewrite D. fold u. lia.
      + lia.
      + lia.
      + lia.
      + split; [exact C|].
        replace (sgn s * Zpos m * 2 ^ (e + 1074 + K)) with (sgn s * Zpos (shift_pos k m) * 2 ^ (u + 1074 + K)); [exact N|].
        rewrite shift_pos_val. replace (e + 1074 + K) with (Zpos k + (u + 1074 + K)) by lia.
        rewrite (Z.pow_add_r 2 (Zpos k)) by lia. ring. }
  intros z e K HK He Hs. unfold binary_normalize. destruct z as [|m|m].
  - split; [reflexivity|]. exists 0. split; [reflexivity|]. intros. lia.
  - rewrite Z.abs_eq in Hs by (apply Z.mul_nonneg_nonneg; [lia|apply pow_nonneg]).
    destruct (R false m e K HK He Hs) as [C N]. split; [exact C|]. cbn [sgn] in N.
    replace (1 * Zpos m) with (Zpos m) in N by lia. exact N.
  - rewrite Z.abs_mul, (Z.abs_eq (2 ^ _)) in Hs by apply pow_nonneg. cbn [Z.abs] in Hs.
    destruct (R true m e K HK He Hs) as [C N]. split; [exact C|]. cbn [sgn] in N.
    replace (-1 * Zpos m) with (Zneg m) in N by lia. exact N.
Qed.

Lemma nearest_self : forall f v, fval f = Some v -> nearestK 0 v f.
Proof.
  intros f v H. exists v. split; [exact H|]. intros g w _ _. rewrite Z.mul_1_r, Z.sub_diag. cbn. lia.
Qed.

Lemma cond_sgn : forall s z, cond_Zopp s z = sgn s * z.
Proof. intros [|] z; cbn [cond_Zopp sgn]; lia. Qed.

Lemma fadd_nearest : forall x y X Y, canon x -> canon y -> fval x = Some X -> fval y = Some Y ->
    small (X + Y) -> canon (fadd x y) /\ nearestK 0 (X + Y) (fadd x y).
Proof.
  intros x y X Y Cx Cy Vx Vy Hs.
  destruct x as [sx|sx| |sx mx ex], y as [sy|sy| |sy my ey]; try discriminate.
  - injection Vx as <-; injection Vy as <-. unfold fadd, SFadd.
    destruct (Bool.eqb sx sy); (split; [reflexivity|]); apply nearest_self; reflexivity.
  - injection Vx as <-. unfold fadd, SFadd. split; [exact Cy|]. apply nearest_self. exact Vy.
  - injection Vy as <-. unfold fadd, SFadd. split; [exact Cx|]. apply nearest_self. rewrite Z.add_0_r. exact Vx.
  - unfold fadd, SFadd. pose proof (canon_e _ _ _ Cx) as Ex. pose proof (canon_e _ _ _ Cy) as Ey.
    cbn [fval] in Vx, Vy. injection Vx as <-; injection Vy as <-. fold (sgn sx) in *. fold (sgn sy) in *.
    set (ez := Z.min ex ey).
    rewrite !cond_sgn, !shl_align_val by lia.
    assert (E : sgn sx * Zpos mx * 2 ^ (ex + 1074) + sgn sy * Zpos my * 2 ^ (ey + 1074) =
       (sgn sx * (Zpos mx * 2 ^ (ex - ez)) + sgn sy * (Zpos my * 2 ^ (ey - ez))) * 2 ^ (ez + 1074 + 0)).
    { replace (ex + 1074) with ((ex - ez) + (ez + 1074 + 0)) by lia.
      replace (ey + 1074) with ((ey - ez) + (ez + 1074 + 0)) by lia.
      rewrite (Z.pow_add_r 2 (ex - ez)), (Z.pow_add_r 2 (ey - ez)) by lia. ring. }
    rewrite E in *. apply normalize_nearest; try lia. unfold small in Hs. rewrite Z.add_0_r with (n := 1023 + 1074). exact Hs.
Qed.

Lemma fadd_exact : forall x y X Y, canon x -> canon y -> fval x = Some X -> fval y = Some Y ->
    rep (X + Y) -> small (X + Y) -> canon (fadd x y) /\ fval (fadd x y) = Some (X + Y).
Proof.
  intros x y X Y Cx Cy Vx Vy R S. destruct (fadd_nearest x y X Y Cx Cy Vx Vy S) as [C N].
  split; [exact C|]. apply (nearestK_rep 0 (X + Y) (X + Y)); [lia|exact R|rewrite Z.pow_0_r; lia|exact N].
Qed.

Lemma fsub_nearest : forall x y X Y, canon x -> canon y -> fval x = Some X -> fval y = Some Y ->
    small (X - Y) -> canon (fsub x y) /\ nearestK 0 (X - Y) (fsub x y).
Proof.
  intros x y X Y Cx Cy Vx Vy Hs.
  destruct x as [sx|sx| |sx mx ex], y as [sy|sy| |sy my ey]; try discriminate.
  - injection Vx as <-; injection Vy as <-. unfold fsub, SFsub.
    destruct (Bool.eqb sx (negb sy)); (split; [reflexivity|]); apply nearest_self; reflexivity.
  - injection Vx as <-. unfold fsub, SFsub. split; [exact Cy|]. apply nearest_self.
    cbn [fval] in *. injection Vy as <-. f_equal. destruct sy; cbn [negb]; lia.
  - injection Vy as <-. unfold fsub, SFsub. split; [exact Cx|]. apply nearest_self. rewrite Z.sub_0_r. exact Vx.
  - unfold fsub, SFsub. pose proof (canon_e _ _ _ Cx) as Ex. pose proof (canon_e _ _ _ Cy) as Ey.
    cbn [fval] in Vx, Vy. injection Vx as <-; injection Vy as <-. fold (sgn sx) in *. fold (sgn sy) in *.
    set (ez := Z.min ex ey).
    rewrite !cond_sgn, !shl_align_val by lia.
    assert (E : sgn sx * Zpos mx * 2 ^ (ex + 1074) - sgn sy * Zpos my * 2 ^ (ey + 1074) =
       (sgn sx * (Zpos mx * 2 ^ (ex - ez)) - sgn sy * (Zpos my * 2 ^ (ey - ez))) * 2 ^ (ez + 1074 + 0)).
    { replace (ex + 1074) with ((ex - ez) + (ez + 1074 + 0)) by lia.
      replace (ey + 1074) with ((ey - ez) + (ez + 1074 + 0)) by lia.
      rewrite (Z.pow_add_r 2 (ex - ez)), (Z.pow_add_r 2 (ey - ez)) by lia. ring. }
    rewrite E in *. apply normalize_nearest; try lia. unfold small in Hs. rewrite Z.add_0_r with (n := 1023 + 1074). exact Hs.
Qed.

Lemma fsub_exact : forall x y X Y, canon x -> canon y -> fval x = Some X -> fval y = Some Y ->
    rep (X - Y) -> small (X - Y) -> canon (fsub x y) /\ fval (fsub x y) = Some (X - Y).
Proof.
  intros x y X Y Cx Cy Vx Vy R S. destruct (fsub_nearest x y X Y Cx Cy Vx Vy S) as [C N].
  split; [exact C|]. apply (nearestK_rep 0 (X - Y) (X - Y)); [lia|exact R|rewrite Z.pow_0_r; lia|exact N].
Qed.

(** ** Comparison *)

Lemma canon_order : forall m1 e1 m2 e2, canon (S754_finite false m1 e1) -> canon (S754_finite false m2 e2) ->
    e1 < e2 -> Zpos m1 * 2 ^ (e1 + 1074) < Zpos m2 * 2 ^ (e2 + 1074).
Proof.
  intros m1 e1 m2 e2 C1 C2 H. pose proof (canon_e _ _ _ C1) as E1. pose proof (canon_float64 _ C1) as [F1 _].
  apply canon_iff in C2. rewrite fexp_val in C2. pose proof (dg_bounds m2) as B.
  assert (D : dg m2 = 53) by lia. rewrite D in B.
  apply Z.lt_le_trans with (2 ^ 53 * 2 ^ (e1 + 1074)).
  - apply Z.mul_lt_mono_pos_r; [apply Z.pow_pos_nonneg; lia|exact F1].
  - apply Z.le_trans with (2 ^ 52 * 2 ^ (e2 + 1074)).
    + rewrite <- !Z.pow_add_r by lia. apply Z.pow_le_mono_r; lia.
    + apply Z.mul_le_mono_nonneg_r; [apply pow_nonneg|]. apply B.
Qed.

Lemma canon_sign : forall s s' m e, canon (S754_finite s m e) -> canon (S754_finite s' m e).
Proof. intros s s' m e H. exact H. Qed.

Lemma fcompare_val : forall x y X Y, canon x -> canon y -> fval x = Some X -> fval y = Some Y ->
    SFcompare x y = Some (X ?= Y).
Proof.
  intros x y X Y Cx Cy Vx Vy.
  assert (P : forall m e, -1074 <= e -> 0 < Zpos m * 2 ^ (e + 1074)).
  { intros m e H. apply Z.mul_pos_pos; [lia|apply Z.pow_pos_nonneg; lia]. }
  destruct x as [sx|sx| |sx mx ex], y as [sy|sy| |sy my ey]; try discriminate; cbn [fval] in Vx, Vy;
    injection Vx as <-; injection Vy as <-; cbn [SFcompare].
  - reflexivity.
  - pose proof (P my ey (canon_e _ _ _ Cy)). f_equal. symmetry. destruct sy; [apply Z.compare_gt_iff|apply Z.compare_lt_iff]; lia.
  - pose proof (P mx ex (canon_e _ _ _ Cx)). f_equal. symmetry. destruct sx; [apply Z.compare_lt_iff|apply Z.compare_gt_iff]; lia.
  - pose proof (P mx ex (canon_e _ _ _ Cx)) as Px. pose proof (P my ey (canon_e _ _ _ Cy)) as Py.
    pose proof (canon_e _ _ _ Cx) as Ex.
    pose proof (canon_order mx ex my ey (canon_sign _ false _ _ Cx) (canon_sign _ false _ _ Cy)) as O1.
    pose proof (canon_order my ey mx ex (canon_sign _ false _ _ Cy) (canon_sign _ false _ _ Cx)) as O2.
    f_equal. destruct sx, sy.
    + destruct (Z.compare_spec ex ey) as [E|E|E].
      * subst ey. change (Pos.compare_cont Eq mx my) with (Pos.compare mx my).
        replace (Pos.compare mx my) with (Zpos mx ?= Zpos my) by reflexivity.
        rewrite !(Z.mul_comm _ (2 ^ (ex + 1074))).
        rewrite <- Zmult_compare_compat_l by (apply Z.lt_gt, Z.pow_pos_nonneg; lia).
        change (-1 * Zpos mx) with (- Zpos mx). change (-1 * Zpos my) with (- Zpos my).
        rewrite (Z.compare_opp (Zpos mx) (Zpos my)). symmetry. apply Z.compare_antisym.
      * symmetry. apply Z.compare_gt_iff. specialize (O1 E). lia.
      * symmetry. apply Z.compare_lt_iff. specialize (O2 E). lia.
    + symmetry. apply Z.compare_lt_iff. lia.
    + symmetry. apply Z.compare_gt_iff. lia.
    + destruct (Z.compare_spec ex ey) as [E|E|E].
      * subst ey. change (Pos.compare_cont Eq mx my) with (Pos.compare mx my).
        replace (Pos.compare mx my) with (Zpos mx ?= Zpos my) by reflexivity.
        rewrite !(Z.mul_comm _ (2 ^ (ex + 1074))).
        rewrite <- Zmult_compare_compat_l by (apply Z.lt_gt, Z.pow_pos_nonneg; lia).
        rewrite !Z.mul_1_l. reflexivity.
      * symmetry. apply Z.compare_lt_iff. specialize (O1 E). lia.
      * symmetry. apply Z.compare_gt_iff. specialize (O2 E). lia.
Qed.

Lemma feqb_iff : forall x y X Y, canon x -> canon y -> fval x = Some X -> fval y = Some Y ->
    (feqb x y = true <-> X = Y).
Proof.
  intros x y X Y Cx Cy Vx Vy. unfold feqb, SFeqb. rewrite (fcompare_val x y X Y) by assumption.
  rewrite <- Z.compare_eq_iff. destruct (X ?= Y); split; congruence.
Qed.

Lemma fltb_iff : forall x y X Y, canon x -> canon y -> fval x = Some X -> fval y = Some Y ->
    (fltb x y = true <-> X < Y).
Proof.
  intros x y X Y Cx Cy Vx Vy. unfold fltb, SFltb. rewrite (fcompare_val x y X Y) by assumption.
  rewrite <- Z.compare_lt_iff. destruct (X ?= Y); split; congruence.
Qed.

Lemma fleb_iff : forall x y X Y, canon x -> canon y -> fval x = Some X -> fval y = Some Y ->
    (fleb x y = true <-> X <= Y).
Proof.
  intros x y X Y Cx Cy Vx Vy. unfold fleb, SFleb. rewrite (fcompare_val x y X Y) by assumption.
  rewrite <- Z.compare_le_iff. destruct (X ?= Y); split; congruence.
Qed.

(** equality of arbitrary float64, infinities and NaN included *)
Lemma feqb_num : forall x y, canon x -> canon y -> (feqb x y = true <-> same_number x y).
Proof.
  intros x y Cx Cy.
  destruct (fval x) as [X|] eqn:Vx, (fval y) as [Y|] eqn:Vy.
  - rewrite (feqb_iff x y X Y Cx Cy Vx Vy). unfold same_number. rewrite Vx, Vy. split; [intros ->; left; eauto|].
    intros [(v & E1 & E2)|(s & -> & ->)]; [congruence|discriminate].
  - unfold same_number. rewrite Vx, Vy. destruct y as [sy|sy| |sy my ey]; try discriminate;
      destruct x as [sx|sx| |sx mx ex]; try discriminate; unfold feqb, SFeqb; cbn [SFcompare];
      split; intros H; try discriminate;
      try (destruct H as [(v & E1 & E2)|(s & ? & ?)]; discriminate);
      try (destruct sy; discriminate).
  - unfold same_number. rewrite Vx, Vy. destruct y as [sy|sy| |sy my ey]; try discriminate;
      destruct x as [sx|sx| |sx mx ex]; try discriminate; unfold feqb, SFeqb; cbn [SFcompare];
      split; intros H; try discriminate;
      try (destruct H as [(v & E1 & E2)|(s & ? & ?)]; discriminate);
      try (destruct sx; discriminate).
  - unfold same_number. rewrite Vx, Vy. destruct y as [sy|sy| |sy my ey]; try discriminate;
      destruct x as [sx|sx| |sx mx ex]; try discriminate; unfold feqb, SFeqb; cbn [SFcompare];
      split; intros H; try discriminate;
      try (destruct H as [(v & E1 & E2)|(s & ? & ?)]; congruence).
    + destruct sx, sy; try discriminate; right; eauto.
    + destruct H as [(v & E1 & E2)|(s & E1 & E2)]; [discriminate|]. injection E1 as ->. injection E2 as ->. destruct s; reflexivity.
Qed.

(** *** Exact division *)

Lemma rep_canon : forall z, rep z -> small z -> exists g, canon g /\ fval g = Some z.
Proof.
  intros z R S. destruct (normalize_nearest z (-1074) 0) as [C N]; try lia.
  - replace (-1074 + 1074 + 0) with 0 by lia. rewrite Z.pow_0_r, Z.mul_1_r, Z.add_0_r. exact S.
  - eexists. split; [exact C|]. eapply nearestK_rep with (K := 0); [lia|exact R| |exact N].
    replace (-1074 + 1074 + 0) with 0 by lia. reflexivity.
Qed.

Lemma new_location_0 : forall n, new_location n 0 = loc_Exact.
Proof. intros n. unfold new_location. destruct (Z.even n); reflexivity. Qed.

Lemma dg_eq_val : forall m1 e1 m2 e2, -4000 <= e1 -> -4000 <= e2 -> Zpos m1 * 2 ^ (e1 + 4000) = Zpos m2 * 2 ^ (e2 + 4000) -> dg m1 + e1 = dg m2 + e2.
Proof.
  assert (H : forall m1 e1 m2 e2, -4000 <= e1 -> -4000 <= e2 -> Zpos m1 * 2 ^ (e1 + 4000) = Zpos m2 * 2 ^ (e2 + 4000) -> dg m1 + e1 <= dg m2 + e2).
  { intros m1 e1 m2 e2 H1 H2 E. pose proof (dg_bounds m1) as B1. pose proof (dg_bounds m2) as B2.
    pose proof (dg_pos m1). pose proof (dg_pos m2).
    assert (2 ^ (dg m1 - 1 + (e1 + 4000)) < 2 ^ (dg m2 + (e2 + 4000))).
    { rewrite (Z.pow_add_r 2 (dg m1 - 1)), (Z.pow_add_r 2 (dg m2)) by lia. apply Z.le_lt_trans with (Zpos m1 * 2 ^ (e1 + 4000)).
      - apply Z.mul_le_mono_nonneg_r; [apply pow_nonneg|apply B1].
      - rewrite E. apply Z.mul_lt_mono_pos_r; [apply Z.pow_pos_nonneg; lia|apply B2]. }
    assert (dg m1 - 1 + (e1 + 4000) < dg m2 + (e2 + 4000)) by (apply pow_lt_inv; lia). lia. }
  intros m1 e1 m2 e2 H1 H2 E. pose proof (H m1 e1 m2 e2 H1 H2 E). pose proof (H m2 e2 m1 e1 H2 H1 (eq_sym E)). lia.
Qed.

Lemma fdiv_exact : forall x y X Y Z0, canon x -> canon y -> fval x = Some X -> fval y = Some Y -> Y <> 0 ->
    X * 2 ^ 1074 = Z0 * Y -> rep Z0 -> small Z0 -> canon (fdiv x y) /\ fval (fdiv x y) = Some Z0.
Proof.
  intros x y X Y Z0 Cx Cy Vx Vy NY E R S.
  destruct (rep_canon Z0 R S) as (g & Cg & Vg).
  assert (P : forall m e, -1074 <= e -> 0 < Zpos m * 2 ^ (e + 1074)).
  { intros m e H. apply Z.mul_pos_pos; [lia|apply Z.pow_pos_nonneg; lia]. }
  destruct y as [sy|sy| |sy m2 e2]; try discriminate; [injection Vy as <-; lia|].
  pose proof (canon_e _ _ _ Cy) as Ey. pose proof (P m2 e2 Ey) as Py.
  destruct x as [sx|sx| |sx m1 e1]; try discriminate.
  { injection Vx as <-. unfold fdiv, SFdiv. split; [reflexivity|]. cbn [fval]. f_equal.
    rewrite Z.mul_0_l in E. symmetry in E. apply Z.mul_eq_0 in E. destruct E as [E|E]; [symmetry; exact E|contradiction]. }
  pose proof (canon_e _ _ _ Cx) as Ex. pose proof (P m1 e1 Ex) as Px.
  cbn [fval] in Vx, Vy. injection Vx as <-. injection Vy as <-. fold (sgn sx) in *. fold (sgn sy) in *.
  destruct g as [sg|sg| |sg m3 e3]; try discriminate.
  { injection Vg as <-. exfalso. rewrite Z.mul_0_l in E. apply Z.mul_eq_0 in E.
    destruct E as [E|E]; [destruct sx; cbn [sgn] in E; lia|]. revert E. apply Z.pow_nonzero; lia. }
  pose proof (canon_e _ _ _ Cg) as Eg. pose proof (P m3 e3 Eg) as Pg.
  cbn [fval] in Vg. injection Vg as <-. fold (sgn sg) in *.
  assert (A1 : forall s, Z.abs (sgn s) = 1) by (intros [|]; reflexivity).
  (* magnitudes and signs *)
  assert (Em : Zpos m1 * 2 ^ (e1 + 1074) * 2 ^ 1074 = Zpos m3 * 2 ^ (e3 + 1074) * (Zpos m2 * 2 ^ (e2 + 1074))).
  { apply (f_equal Z.abs) in E. rewrite !Z.abs_mul, !A1, !(Z.abs_eq (2 ^ _)) in E by apply pow_nonneg. cbn [Z.abs] in E.
    rewrite !Z.mul_1_l in E. exact E. }
  assert (Es : sgn (xorb sx sy) = sgn sg).
  { rewrite sgn_xor.
    set (A := Zpos m1 * 2 ^ (e1 + 1074) * 2 ^ 1074) in *. assert (PA : 0 < A) by (apply Z.mul_pos_pos; [lia|apply Z.pow_pos_nonneg; lia]).
    replace (sgn sx * Zpos m1 * 2 ^ (e1 + 1074) * 2 ^ 1074) with (sgn sx * A) in E by (unfold A; ring).
    replace (sgn sg * Zpos m3 * 2 ^ (e3 + 1074) * (sgn sy * Zpos m2 * 2 ^ (e2 + 1074))) with (sgn sg * sgn sy * A) in E by (rewrite Em; ring).
    destruct sx, sy, sg; cbn [sgn] in *; lia. }
  assert (Ev : Zpos m1 * 2 ^ (e1 + 4000) = Zpos (m3 * m2) * 2 ^ (e3 + e2 + 4000)).
  { rewrite Pos2Z.inj_mul.
    replace (e1 + 4000) with ((e1 + 1074 + 1074) + 1852) by lia.
    replace (e3 + e2 + 4000) with (((e3 + 1074) + (e2 + 1074)) + 1852) by lia.
    rewrite (Z.pow_add_r 2 _ 1852), (Z.pow_add_r 2 _ 1852) by lia.
    rewrite (Z.pow_add_r 2 (e1 + 1074) 1074), (Z.pow_add_r 2 (e3 + 1074) (e2 + 1074)) by lia.
    rewrite !Z.mul_assoc. rewrite Em. ring. }
  assert (Ed : dg m1 + e1 = dg (m3 * m2) + (e3 + e2)) by (apply dg_eq_val; [lia|lia|exact Ev]).
  pose proof (dg_mul_upper m3 m2) as Hup.
  unfold fdiv, SFdiv, SFdiv_core_binary. cbn [Zdigits2]. fold (dg m1) (dg m2).
  set (e' := Z.min (fexp 53 1024 (dg m1 + e1 - (dg m2 + e2))) (e1 - e2)).
  pose proof Cg as Cg'. apply canon_iff in Cg'. rewrite fexp_val in Cg'.
  assert (He3 : e' <= e3).
  { unfold e'. rewrite fexp_val. lia. }
  assert (He'1 : e' <= e1 - e2) by (unfold e'; lia).
  set (m' := match e1 - e2 - e' with 0 => Zpos m1 | Zpos _ => Z.shiftl (Zpos m1) (e1 - e2 - e') | Zneg _ => 0 end).
  assert (Em' : m' = Zpos m1 * 2 ^ (e1 - e2 - e')).
  { unfold m'. destruct (e1 - e2 - e') eqn:Es'; [|rewrite Z.shiftl_mul_pow2 by lia; reflexivity|lia].
    rewrite Z.pow_0_r. lia. }
  assert (Hm' : m' = Zpos m3 * 2 ^ (e3 - e') * Zpos m2).
  { rewrite Em'. apply (Z.mul_cancel_r _ _ (2 ^ (e2 + e' + 4000))); [apply Z.pow_nonzero; [lia|]; unfold e'; rewrite fexp_val; lia|].
    assert (-1074 <= fexp 53 1024 (dg m1 + e1 - (dg m2 + e2))) by (rewrite fexp_val; lia).
    assert (-2 * 1074 <= e' + e2) by (unfold e'; lia).
    rewrite <- Z.mul_assoc, <- Z.pow_add_r by lia. replace (e1 - e2 - e' + (e2 + e' + 4000)) with (e1 + 4000) by lia.
    rewrite Ev, Pos2Z.inj_mul. replace (e3 + e2 + 4000) with ((e3 - e') + (e2 + e' + 4000)) by lia.
    rewrite (Z.pow_add_r 2 (e3 - e')) by lia. ring. }
  assert (Hdiv : Z.div_eucl m' (Zpos m2) = (Zpos m3 * 2 ^ (e3 - e'), 0)).
  { pose proof (Z_div_mod m' (Zpos m2) ltac:(lia)) as D. destruct (Z.div_eucl m' (Zpos m2)) as [q r].
    destruct D as [D1 D2]. rewrite Hm' in D1.
    set (w := Zpos m3 * 2 ^ (e3 - e')) in *.
    assert (q = w /\ r = 0) as [-> ->]; [|reflexivity].
    apply (Z.div_mod_unique (Zpos m2)); [left; lia|left; lia|lia]. }
  fold m'. rewrite Hdiv, new_location_0.
  assert (Hq : exists q, Zpos m3 * 2 ^ (e3 - e') = Zpos q /\ dg q = dg m3 + (e3 - e')).
  { destruct (e3 - e') as [|k|k] eqn:Ek; [exists m3; split; [rewrite Z.pow_0_r; lia|lia]| |lia].
    exists (shift_pos k m3). split; [rewrite shift_pos_val; reflexivity|apply dg_shift]. }
  destruct Hq as (q & Hq1 & Hq2). rewrite Hq1.
  assert (Ey2 : e2 <= 971) by (apply canon_iff in Cy; lia).
  assert (Hlow : -3000 <= e') by (unfold e'; rewrite fexp_val; lia).
  assert (Hdg3 : dg m3 + e3 <= 1023).
  { apply (small_digits m3 e3 0); [lia|lia|]. unfold small in S. rewrite !Z.add_0_r.
    rewrite !Z.abs_mul, A1, (Z.abs_eq (2 ^ _)) in S by apply pow_nonneg. cbn [Z.abs] in S. lia. }
  destruct (round_aux_gen (xorb sx sy) q e' 2000) as [C N]; try lia.
  - rewrite Hq2, fexp_val. lia.
  - split; [exact C|]. eapply nearestK_rep with (K := 2000); [lia|exact R| |exact N].
    rewrite Es, <- Hq1. replace (e3 + 1074) with ((e3 - e') + (e' + 1074)) by lia.
    replace (e' + 1074 + 2000) with (e' + 3074) by lia.
    assert (2 ^ ((e3 - e') + (e' + 1074)) * 2 ^ 2000 = 2 ^ (e3 - e') * 2 ^ (e' + 3074)) as X.
    { rewrite <- !Z.pow_add_r by lia. f_equal. lia. }
    rewrite <- !Z.mul_assoc, X. ring.
Qed.

(** *** Rounding to the unique nearest canonical number *)

Lemma canon_unique : forall x y v, canon x -> canon y -> fval x = Some v -> fval y = Some v -> v <> 0 -> x = y.
Proof.
  intros x y v Cx Cy Vx Vy Nv.
  destruct x as [sx|sx| |sx m1 e1]; try discriminate; [cbn in Vx; congruence|].
  destruct y as [sy|sy| |sy m2 e2]; try discriminate; [cbn in Vy; congruence|].
  pose proof (canon_e _ _ _ Cx) as Ex. pose proof (canon_e _ _ _ Cy) as Ey.
  cbn [fval] in Vx, Vy. rewrite <- Vy in Vx. injection Vx as E. fold (sgn sx) (sgn sy) in E. clear Vy Nv v.
  assert (P : forall m e, -1074 <= e -> 0 < Zpos m * 2 ^ (e + 1074)).
  { intros m e H. apply Z.mul_pos_pos; [lia|apply Z.pow_pos_nonneg; lia]. }
  pose proof (P m1 e1 Ex). pose proof (P m2 e2 Ey).
  pose proof (canon_order m1 e1 m2 e2 (canon_sign _ false _ _ Cx) (canon_sign _ false _ _ Cy)) as O1.
  pose proof (canon_order m2 e2 m1 e1 (canon_sign _ false _ _ Cy) (canon_sign _ false _ _ Cx)) as O2.
  assert (Hs : sx = sy) by (destruct sx, sy; cbn [sgn] in E; try reflexivity; lia).
  subst sy.
  assert (E' : Zpos m1 * 2 ^ (e1 + 1074) = Zpos m2 * 2 ^ (e2 + 1074)) by (destruct sx; cbn [sgn] in E; lia).
  assert (e1 = e2) by (destruct (Z.lt_total e1 e2) as [L|[L|L]]; [specialize (O1 L); lia|exact L|specialize (O2 L); lia]).
  subst e2. apply Z.mul_cancel_r in E'; [|apply Z.pow_nonzero; lia]. congruence.
Qed.

(** ** Integers *)

Lemma unit1_pos : 0 < unit1.
Proof. apply Z.pow_pos_nonneg; lia. Qed.

Lemma f_of_Z_isint : forall z, Z.abs z < 2 ^ 53 -> isint (f_of_Z z) z.
Proof.
  intros z H. pose proof (small_int z H) as S. unfold small, unit1 in S.
  destruct (normalize_nearest z 0 0) as [C N]; [lia|lia|exact S|].
  split; [exact C|]. eapply nearestK_rep with (K := 0); [lia|apply rep_int; exact H| |exact N].
    change (0 + 1074 + 0) with 1074. rewrite Z.pow_0_r, Z.mul_1_r. reflexivity.
Qed.

Lemma isint_mul : forall x y a c, isint x a -> isint y c -> Z.abs (a * c) < 2 ^ 53 -> isint (fmul x y) (a * c).
Proof.
  intros x y a c [Cx Vx] [Cy Vy] H. apply (fmul_exact x y _ _ _ Cx Cy Vx Vy); [|apply rep_int; exact H|apply small_int; exact H].
  unfold unit1. ring.
Qed.

Lemma isint_add : forall x y a c, isint x a -> isint y c -> Z.abs (a + c) < 2 ^ 53 -> isint (fadd x y) (a + c).
Proof.
  intros x y a c [Cx Vx] [Cy Vy] H. unfold isint. rewrite Z.mul_add_distr_r.
  apply (fadd_exact x y _ _ Cx Cy Vx Vy); rewrite <- Z.mul_add_distr_r; [apply rep_int; exact H|apply small_int; exact H].
Qed.

Lemma isint_sub : forall x y a c, isint x a -> isint y c -> Z.abs (a - c) < 2 ^ 53 -> isint (fsub x y) (a - c).
Proof.
  intros x y a c [Cx Vx] [Cy Vy] H. unfold isint. rewrite Z.mul_sub_distr_r.
  apply (fsub_exact x y _ _ Cx Cy Vx Vy); rewrite <- Z.mul_sub_distr_r; [apply rep_int; exact H|apply small_int; exact H].
Qed.

Lemma isint_div : forall x y a c, isint x (a * c) -> isint y c -> c <> 0 -> Z.abs a < 2 ^ 53 -> isint (fdiv x y) a.
Proof.
  intros x y a c [Cx Vx] [Cy Vy] N H. pose proof unit1_pos.
  apply (fdiv_exact x y _ _ _ Cx Cy Vx Vy); [nia| |apply rep_int; exact H|apply small_int; exact H].
  unfold unit1. ring.
Qed.

Lemma isint_0 : forall f, isint f 0 -> exists s, f = S754_zero s.
Proof.
  intros f [C V]. destruct f as [s|s| |s m e]; try discriminate; [eauto|].
  exfalso. cbn [fval] in V. pose proof (canon_e _ _ _ C). injection V as V.
  assert (0 < 2 ^ (e + 1074)) by (apply Z.pow_pos_nonneg; lia). destruct s; nia.
Qed.

Lemma isint_eqb : forall x y a c, isint x a -> isint y c -> feqb x y = (a =? c).
Proof.
  intros x y a c [Cx Vx] [Cy Vy]. pose proof (feqb_iff x y _ _ Cx Cy Vx Vy) as F. pose proof unit1_pos.
  destruct (Z.eqb_spec a c) as [->|N]; [apply F; reflexivity|].
  destruct (feqb x y); [|reflexivity]. exfalso. apply N. assert (a * unit1 = c * unit1) by (apply F; reflexivity). nia.
Qed.

Lemma isint_zero : forall s, isint (S754_zero s) 0.
Proof. intros s. split; reflexivity. Qed.

(** *** Squares *)

(** the exponent of an integer whose square is small *)
Lemma square_exp : forall m e a, Zpos m * 2 ^ (e + 1074) = Z.abs a * 2 ^ 1074 -> -1074 <= e -> 1 <= Z.abs a -> Z.abs a * Z.abs a < 2 ^ 53 ->
    1 <= e + dg m /\ 2 * (e + dg m) <= 54.
Proof.
  intros m e a V E A H. pose proof (dg_bounds m) as B. pose proof (dg_pos m) as D0.
  assert (UP : 0 < 2 ^ 1074) by (apply Z.pow_pos_nonneg; lia). split.
  - assert (L : 2 ^ 1074 < 2 ^ (dg m + (e + 1074))); [|apply pow_lt_inv in L; lia].
    rewrite Z.pow_add_r by lia. eapply Z.le_lt_trans with (Z.abs a * 2 ^ 1074).
    + rewrite <- (Z.mul_1_l (2 ^ 1074)) at 1. apply Z.mul_le_mono_nonneg_r; [apply Z.lt_le_incl, UP|exact A].
    + rewrite <- V. apply Z.mul_lt_mono_pos_r; [apply Z.pow_pos_nonneg; lia|apply B].
  - assert (L : 2 ^ (dg m - 1 + (e + 1074)) <= Z.abs a * 2 ^ 1074).
    { rewrite Z.pow_add_r by lia. rewrite <- V. apply Z.mul_le_mono_nonneg_r; [apply pow_nonneg|apply B]. }
    destruct (Z.le_gt_cases (e + dg m) 0) as [N|N]; [lia|].
    replace (dg m - 1 + (e + 1074)) with (e + dg m - 1 + 1074) in L by lia. rewrite Z.pow_add_r in L by lia.
    apply Z.mul_le_mono_pos_r in L; [|exact UP]. clear V UP.
    pose proof (pow_nonneg (e + dg m - 1)) as P0.
    assert (L2 : 2 ^ (e + dg m - 1 + (e + dg m - 1)) < 2 ^ 53).
    { rewrite Z.pow_add_r by lia. eapply Z.le_lt_trans; [|exact H]. apply Z.mul_le_mono_nonneg; lia. }
    apply pow_lt_inv in L2; lia.
Qed.

(** [math.Frexp] *)
Lemma frexp_canon : forall m, dg m <= 53 -> let x1 := S754_finite false (Z.to_pos (Zpos m * 2 ^ (53 - dg m))) (-53) in
    canon x1 /\ fval x1 = Some (Zpos m * 2 ^ (53 - dg m) * 2 ^ 1021).
Proof.
  intros m D1. pose proof (dg_bounds m) as B. pose proof (dg_pos m) as D0. set (k := 53 - dg m).
  assert (M1 : Zpos (Z.to_pos (Zpos m * 2 ^ k)) = Zpos m * 2 ^ k).
  { apply Z2Pos.id. apply Z.mul_pos_pos; [lia|apply Z.pow_pos_nonneg; lia]. }
  assert (B1 : 2 ^ 52 <= Zpos m * 2 ^ k < 2 ^ 53).
  { replace (2 ^ 52) with (2 ^ (dg m - 1 + k)) by (f_equal; lia). replace (2 ^ 53) with (2 ^ (dg m + k)) by (f_equal; lia). rewrite !Z.pow_add_r by lia.
    split; [apply Z.mul_le_mono_nonneg_r; [apply pow_nonneg|apply B]|apply Z.mul_lt_mono_pos_r; [apply Z.pow_pos_nonneg; lia|apply B]]. }
  assert (DG : dg (Z.to_pos (Zpos m * 2 ^ k)) = 53).
  { pose proof (dg_bounds (Z.to_pos (Zpos m * 2 ^ k))) as BB. rewrite M1 in BB. pose proof (dg_pos (Z.to_pos (Zpos m * 2 ^ k))).
    assert (52 < dg (Z.to_pos (Zpos m * 2 ^ k))) by (apply pow_lt_inv; lia).
    assert (dg (Z.to_pos (Zpos m * 2 ^ k)) - 1 < 53) by (apply pow_lt_inv; lia). lia. }
  split.
  - apply canon_iff. rewrite DG, fexp_val. lia.
  - cbn [fval]. rewrite M1. f_equal. change (-53 + 1074) with 1021. rewrite Z.mul_1_l. reflexivity.
Qed.

Lemma isint_square : forall x a, isint x a -> Z.abs (a * a) < 2 ^ 53 -> isint (fsquare x) (a * a).
Proof.
  intros x a [C V] H. assert (SI : forall u v : Z, Some u = Some v -> u = v) by (intros u v Q; congruence).
  destruct x as [s|s| |s m e]; try discriminate.
  - cbn [fval] in V. apply SI in V. symmetry in V. apply Z.mul_eq_0_l in V; [|pose proof unit1_pos; lia].
    subst a. apply (isint_zero false).
  - cbn [fval fsquare] in *. fold (sgn s) in V. fold (dg m).
    pose proof (canon_float64 _ C) as (F1 & F2 & F3). pose proof (dg_bounds m) as B. pose proof (dg_pos m) as D0.
    assert (D1 : dg m <= 53).
    { destruct (Z.le_gt_cases (dg m) 53) as [L|L]; [exact L|exfalso]. assert (2 ^ 53 <= 2 ^ (dg m - 1)) by (apply Z.pow_le_mono_r; lia). lia. }
    apply SI in V. apply (f_equal Z.abs) in V. rewrite !Z.abs_mul in V.
    rewrite (Z.abs_eq unit1), (Z.abs_eq (2 ^ _)) in V by (apply pow_nonneg || apply Z.lt_le_incl, unit1_pos).
    assert (V' : Zpos m * 2 ^ (e + 1074) = Z.abs a * 2 ^ 1074).
    { fold unit1. rewrite <- V. destruct s; cbn [sgn Z.abs]; rewrite Z.mul_1_l; reflexivity. }
    clear V. rewrite Z.abs_mul in H.
    assert (A0 : 1 <= Z.abs a).
    { destruct (Z.eq_dec a 0) as [Z0|N0]; [exfalso; subst a; change (Z.abs 0) with 0 in V'; rewrite Z.mul_0_l in V'|lia].
      apply Z.mul_eq_0 in V'. destruct V' as [V'|V']; [lia|]. revert V'. apply Z.pow_nonzero; lia. }
    destruct (square_exp m e a V' F2 A0 H) as [X0 X1].
    destruct (frexp_canon m D1) as [C1 V1]. set (x1 := S754_finite false _ (-53)) in *. clearbody x1.
    set (xe := e + dg m) in *. set (k := 53 - dg m) in *. set (P := Z.abs a * Z.abs a) in *.
    assert (P1 : 0 < P) by (apply Z.mul_pos_pos; lia).
    assert (PA : P = a * a) by (unfold P; rewrite <- Z.abs_mul; apply Z.abs_eq, Z.square_nonneg).
    assert (E1 : Zpos m * 2 ^ k * 2 ^ 1021 * 2 ^ xe = Z.abs a * 2 ^ 1074).
    { rewrite <- V', <- !Z.mul_assoc. f_equal. rewrite <- !Z.pow_add_r by lia. f_equal. lia. }
    destruct (fmul_exact x1 x1 _ _ (P * 2 ^ (1074 - 2 * xe)) C1 C1 V1 V1) as [Cq Vq].
    + apply (Z.mul_cancel_r _ _ (2 ^ xe * 2 ^ xe)).
      { apply Z.neq_mul_0. split; apply Z.pow_nonzero; lia. }
      transitivity ((Zpos m * 2 ^ k * 2 ^ 1021 * 2 ^ xe) * (Zpos m * 2 ^ k * 2 ^ 1021 * 2 ^ xe)).
      { generalize (2 ^ 1021) (2 ^ k) (2 ^ xe). intros. ring. }
      rewrite E1. unfold P.
      transitivity (Z.abs a * Z.abs a * (2 ^ (1074 - 2 * xe) * (2 ^ xe * 2 ^ xe) * 2 ^ 1074)).
      * rewrite <- !Z.pow_add_r by lia. replace (1074 - 2 * xe + (xe + xe) + 1074) with (1074 + 1074) by lia. rewrite (Z.pow_add_r 2 1074 1074) by lia.
        generalize (2 ^ 1074). intros. ring.
      * generalize (2 ^ 1074) (2 ^ (1074 - 2 * xe)) (2 ^ xe). intros. ring.
    + exists (S754_finite false (Z.to_pos P) (- (2 * xe))). cbn [is_float64 fval]. rewrite Z2Pos.id by exact P1. split; [lia|].
      f_equal. replace (- (2 * xe) + 1074) with (1074 - 2 * xe) by lia. rewrite Z.mul_1_l. reflexivity.
    + unfold small. rewrite Z.abs_mul, (Z.abs_eq (2 ^ _)) by apply pow_nonneg. rewrite (Z.abs_eq P) by lia.
      eapply Z.lt_le_trans with (2 ^ 53 * 2 ^ (1074 - 2 * xe)); [apply Z.mul_lt_mono_pos_r; [apply Z.pow_pos_nonneg; lia|exact H]|].
      rewrite <- Z.pow_add_r by lia. apply Z.pow_le_mono_r; lia.
    + assert (P0 : 0 < P * 2 ^ (1074 - 2 * xe)) by (apply Z.mul_pos_pos; [exact P1|apply Z.pow_pos_nonneg; lia]).
      destruct (fmul x1 x1) as [s2|s2| |s2 m2 e2]; try discriminate.
      { cbn [fval] in Vq. apply SI in Vq. rewrite <- Vq in P0. discriminate P0. }
      cbn [fval fldexp] in *. fold (sgn s2) in Vq. pose proof (canon_e _ _ _ Cq) as E2. apply SI in Vq.
      assert (s2 = false).
      { destruct s2; [exfalso|reflexivity]. cbn [sgn] in Vq. rewrite <- Vq in P0. pose proof (pow_nonneg (e2 + 1074)) as PN.
        revert P0 PN. generalize (2 ^ (e2 + 1074)). intros. nia. }
      subst s2. cbn [sgn cond_Zopp] in *. rewrite Z.mul_1_l in Vq.
      assert (VV : Zpos m2 * 2 ^ (e2 + 2 * xe + 1074 + 0) = a * a * unit1).
      { replace (e2 + 2 * xe + 1074 + 0) with ((e2 + 1074) + 2 * xe) by lia. rewrite Z.pow_add_r by lia. rewrite Z.mul_assoc, Vq.
        rewrite <- Z.mul_assoc, <- Z.pow_add_r by lia.
        replace (1074 - 2 * xe + 2 * xe) with 1074 by lia. fold unit1. rewrite PA. reflexivity. }
      assert (HH : Z.abs (a * a) < 2 ^ 53) by (rewrite Z.abs_mul; exact H).
      destruct (normalize_nearest (Zpos m2) (e2 + 2 * xe) 0) as [Cn Nn]; [lia|lia| |].
      * rewrite VV. pose proof (small_int _ HH) as SS. unfold small in SS. rewrite Z.add_0_r. exact SS.
      * split; [exact Cn|]. eapply nearestK_rep with (K := 0); [lia|apply rep_int; exact HH| |exact Nn]. rewrite VV. rewrite Z.pow_0_r, Z.mul_1_r. reflexivity.
Qed.
