From Coq Require Import String Ascii List Arith NArith ZArith Bool Lia Floats.SpecFloat.
From Verif Require Import GoBase FloatModel FloatSpec FloatProofs FloatArith CompuModel CompuSpec.
Import ListNotations.

(** ** Lookup *)

Lemma search_spec : forall A dec (l pre : list (f64 * A)), canon dec -> Forall (fun p => canon (fst p)) l ->
    (no_entry dec l /\ searchLoop dec (map fst l) (map snd (pre ++ l)) (length pre) = None)
    \/ (exists o, first_entry dec l o /\ searchLoop dec (map fst l) (map snd (pre ++ l)) (length pre) = Some (Ret o None)).
Proof.
  intros A dec l. induction l as [|[v o] l IH]; intros pre Cd Cl.
  - left. split; [constructor|reflexivity].
  - inversion Cl as [|? ? Cv Cl']; subst. cbn [fst] in Cv.
    cbn [map fst searchLoop]. destruct (feqb dec v) eqn:E.
    + right. exists o. apply feqb_num in E; [|exact Cd|exact Cv]. split.
      * exists [], v, l. split; [reflexivity|]. split; [exact E|constructor].
      * rewrite map_app. rewrite nth_error_app2 by (rewrite map_length; lia).
        rewrite map_length, Nat.sub_diag. reflexivity.
    + assert (N : ~ same_number dec v).
      { intros S. apply feqb_num in S; [congruence|exact Cd|exact Cv]. }
      specialize (IH (pre ++ [(v, o)]) Cd Cl'). rewrite app_length in IH. cbn [length] in IH.
      rewrite <- app_assoc in IH. cbn [app] in IH.
      destruct IH as [[I1 I2]|(o' & (p & w & q & I1 & I2 & I3) & I4)].
      * left. split; [constructor; assumption|exact I2].
      * right. exists o'. split; [|exact I4]. exists ((v, o) :: p), w, q.
        split; [rewrite I1; reflexivity|]. split; [exact I2|constructor; assumption].
Qed.

Lemma first_not_none : forall A dec (l : list (f64 * A)) o, first_entry dec l o -> ~ no_entry dec l.
Proof.
  intros A dec l o (p & v & q & -> & S & _) N. apply Forall_app in N. destruct N as [_ N].
  inversion N as [|? ? K _]; subst. apply K. exact S.
Qed.

Lemma first_unique : forall A dec (l : list (f64 * A)) o1 o2, first_entry dec l o1 -> first_entry dec l o2 -> o1 = o2.
Proof.
  intros A dec l o1 o2 (p1 & v1 & q1 & E1 & S1 & N1) (p2 & v2 & q2 & E2 & S2 & N2). subst l.
  revert p2 N2 E2. induction p1 as [|x p1 IH]; intros p2 N2 E2.
  - destruct p2 as [|y p2]; cbn in E2; [congruence|]. injection E2 as E _. subst y.
    inversion N2 as [|? ? K _]; subst. contradiction.
  - inversion N1 as [|? ? K1 K2]; subst. destruct p2 as [|y p2]; cbn in E2.
    + injection E2 as E _. subst x. contradiction.
    + injection E2 as _ E2. inversion N2; subst. eapply IH; eauto.
Qed.

Lemma search_first : forall A dec (l : list (f64 * A)) o, canon dec -> Forall (fun p => canon (fst p)) l ->
    first_entry dec l o -> searchLoop dec (map fst l) (map snd l) 0 = Some (Ret o None).
Proof.
  intros A dec l o Cd Cl F. destruct (search_spec A dec l [] Cd Cl) as [[N _]|(o' & F' & R)].
  - exfalso. eapply first_not_none; eauto.
  - rewrite (first_unique _ _ _ _ _ F F'). exact R.
Qed.

Lemma search_none : forall A dec (l : list (f64 * A)), canon dec -> Forall (fun p => canon (fst p)) l ->
    no_entry dec l -> searchLoop dec (map fst l) (map snd l) 0 = None.
Proof.
  intros A dec l Cd Cl N. destruct (search_spec A dec l [] Cd Cl) as [[_ R]|(o' & F' & R)]; [exact R|].
  exfalso. eapply first_not_none; eauto.
Qed.

Lemma first_nonempty : forall A dec (l : list (f64 * A)) o, first_entry dec l o -> nonempty l = true.
Proof. intros A dec l o (p & v & q & -> & _). destruct p; reflexivity. Qed.

(** ** Ranges *)

Lemma compare_antisym : forall x y, SFcompare y x = match SFcompare x y with Some c => Some (CompOpp c) | None => None end.
Proof.
  intros [sx|sx| |sx mx ex] [sy|sy| |sy my ey]; cbn [SFcompare]; try reflexivity;
    try (destruct sx; reflexivity); try (destruct sy; reflexivity); try (destruct sx, sy; reflexivity).
  rewrite (Z.compare_antisym ex ey).
  assert (P : Pos.compare_cont Eq my mx = CompOpp (Pos.compare_cont Eq mx my)) by apply Pos.compare_antisym.
  destruct sx, sy; try reflexivity; destruct (ex ?= ey)%Z; cbn [CompOpp]; rewrite ?P; reflexivity.
Qed.

Lemma le_lt_false : forall x y, fleb x y && fltb y x = false.
Proof.
  intros x y. unfold fleb, fltb, SFleb, SFltb. rewrite (compare_antisym x y).
  destruct (SFcompare x y) as [[| |]|]; reflexivity.
Qed.

Lemma rangeLoop_never : forall dec t n i, (i + n <= length (cr_min t))%nat ->
    rangeLoop dec t n i = if cr_defaultSet t then Ret (cr_default t) None else Ret [] (Some CNoDefault).
Proof.
  intros dec t. induction n as [|n IH]; intros i H; cbn [rangeLoop]; [reflexivity|].
  destruct (nth_error (cr_min t) i) as [lo|] eqn:E.
  - rewrite le_lt_false. apply IH. lia.
  - apply nth_error_None in E. lia.
Qed.

Lemma rangeLoop_short : forall dec t n i, (length (cr_min t) < i + n)%nat -> (i <= length (cr_min t))%nat ->
    rangeLoop dec t n i = CPanic.
Proof.
  intros dec t. induction n as [|n IH]; intros i H Hi; cbn [rangeLoop]; [lia|].
  destruct (nth_error (cr_min t) i) as [lo|] eqn:E; [|reflexivity].
  rewrite le_lt_false. apply IH; [lia|]. assert (i < length (cr_min t))%nat by (apply nth_error_Some; congruence). lia.
Qed.

(** ** Rational functions *)

Lemma zero_mul : forall s x, fval x <> None -> exists s', fmul (S754_zero s) x = S754_zero s'.
Proof. intros s [sx|sx| |sx m e] H; cbn; eauto; exfalso; apply H; reflexivity. Qed.

Lemma zero_sub : forall s s', exists s'', fsub (S754_zero s) (S754_zero s') = S754_zero s''.
Proof. intros [|] [|]; cbn; eauto. Qed.

Lemma two_zero : forall s, exists s', fmul (f_of_Z 2) (S754_zero s) = S754_zero s'.
Proof. intros s. eexists. vm_compute. reflexivity. Qed.

Lemma zero_div : forall s x, exists f, fdiv (S754_zero s) x = f /\ (f = S754_nan \/ exists s', f = S754_zero s').
Proof. intros s [sx|sx| |sx m e]; cbn; eexists; (split; [reflexivity|eauto]). Qed.

Lemma ratfunc_linear : forall sa sd b_ c e f dec, fval dec <> None ->
    calcRatFunc dec (ratMethod (S754_zero sa) b_ c (S754_zero sd) e f) = Ret (S754_zero false) (Some CZeroDiv).
Proof.
  intros sa sd b_ c e f dec H. unfold calcRatFunc. cbn [cm_coeffs ratMethod coeffs6 cA cB cC cD cE cF co_val].
  destruct (zero_mul sd dec H) as [s1 E1]. rewrite E1.
  destruct (zero_sub sa s1) as [s2 E2]. rewrite E2.
  destruct (two_zero s2) as [s3 E3]. rewrite E3. reflexivity.
Qed.

Lemma ratfunc_no_linear_terms : forall a sb c d se f dec v, fval dec <> None ->
    calcRatFunc dec (ratMethod a (S754_zero sb) c d (S754_zero se) f) = Ret v None ->
    v = S754_nan \/ exists s, v = S754_zero s.
Proof.
  intros a sb c d se f dec v H. unfold calcRatFunc. cbn [cm_coeffs ratMethod coeffs6 cA cB cC cD cE cF co_val].
  destruct (zero_mul se dec H) as [s1 E1]. rewrite E1.
  destruct (zero_sub s1 sb) as [s2 E2]. rewrite E2.
  set (fd := fmul (f_of_Z 2) (fsub a (fmul d dec))).
  destruct (feqb fd (S754_zero false)); [discriminate|].
  set (root := fsqrt _). set (sp := fadd _ _). set (sn := fsub _ _).
  destruct (zero_div s2 sp) as (p & Ep & Hp). destruct (zero_div s2 sn) as (n & En & Hn).
  rewrite Ep, En. intros R.
  assert (v = p \/ v = n) as [-> | ->]; [|exact Hp|exact Hn].
  destruct (negb (feqb sp (S754_zero false)) && negb (feqb sn (S754_zero false))).
  - match type of R with (if ?c then _ else _) = _ => destruct c end; injection R as <-; auto.
  - destruct (negb (feqb sp (S754_zero false))); [injection R as <-; auto|].
    destruct (negb (feqb sn (S754_zero false))); [injection R as <-; auto|discriminate].
Qed.

Local Open Scope Z_scope.

(** [a (x - r)^2 + k]: the double root is found. *)
Lemma ratfunc_double_root : forall a r k, 0 < Z.abs a <= 2 ^ 10 -> Z.abs r <= 2 ^ 15 -> Z.abs k <= 2 ^ 50 ->
    exists v, calcRatFunc (f_of_Z k)
        (ratMethod (f_of_Z a) (f_of_Z (- 2 * a * r)) (f_of_Z (a * r * r + k)) (f_of_Z 0) (f_of_Z 0) (f_of_Z 1)) = Ret v None
      /\ isint v r.
Proof.
  intros a r k Ha Hr Hk. unfold calcRatFunc. cbn [cm_coeffs ratMethod coeffs6 cA cB cC cD cE cF co_val].
  assert (B1 : Z.abs (a * r) <= 2 ^ 25) by (rewrite Z.abs_mul; nia).
  assert (B2 : Z.abs (a * r * r) <= 2 ^ 40) by (rewrite Z.abs_mul; nia).
  assert (B3 : Z.abs (a * r * (a * r)) <= 2 ^ 50) by (rewrite Z.abs_mul; nia).
  pose proof (f_of_Z_isint k ltac:(lia)) as Ik. pose proof (f_of_Z_isint a ltac:(lia)) as Ia.
  pose proof (f_of_Z_isint (-2 * a * r) ltac:(lia)) as Ib.
  pose proof (f_of_Z_isint (a * r * r + k) ltac:(lia)) as Ic.
  pose proof (f_of_Z_isint 0 ltac:(lia)) as I0. pose proof (f_of_Z_isint 1 ltac:(lia)) as I1.
  pose proof (f_of_Z_isint 2 ltac:(lia)) as I2. pose proof (f_of_Z_isint 4 ltac:(lia)) as I4.
  generalize dependent (f_of_Z k). intros dec Ik.
  generalize dependent (f_of_Z a). intros A Ia.
  generalize dependent (f_of_Z (-2 * a * r)). intros B Ib.
  generalize dependent (f_of_Z (a * r * r + k)). intros C Ic.
  generalize dependent (f_of_Z 0). intros O I0. generalize dependent (f_of_Z 1). intros F I1.
  generalize dependent (f_of_Z 2). intros W I2. generalize dependent (f_of_Z 4). intros V4 I4.
  pose proof (isint_mul _ _ _ _ I0 Ik ltac:(lia)) as Jd.
  pose proof (isint_sub _ _ _ _ Ia Jd ltac:(lia)) as Ja.
  pose proof (isint_mul _ _ _ _ I2 Ja ltac:(lia)) as Jfd.
  pose proof (isint_sub _ _ _ _ Jd Ib ltac:(lia)) as Jn.
  pose proof (isint_square _ _ Jn) as Jsq. 
  replace ((0 * k - -2 * a * r) * (0 * k - -2 * a * r)) with (4 * (a * r * (a * r))) in Jsq by ring. specialize (Jsq ltac:(lia)).
  pose proof (isint_sub _ _ _ _ Jd Ia ltac:(lia)) as Jma.
  pose proof (isint_mul _ _ _ _ I4 Jma ltac:(lia)) as J4.
  pose proof (isint_mul _ _ _ _ I1 Ik ltac:(lia)) as Jf.
  pose proof (isint_sub _ _ _ _ Jf Ic ltac:(lia)) as Jfc.
  pose proof (isint_mul _ _ _ _ J4 Jfc) as Jp.
  replace (4 * (0 * k - a) * (1 * k - (a * r * r + k))) with (4 * (a * r * (a * r))) in Jp by ring. specialize (Jp ltac:(lia)).
  pose proof (isint_sub _ _ _ _ Jsq Jp ltac:(lia)) as Jdisc.
  replace (4 * (a * r * (a * r)) - 4 * (a * r * (a * r))) with 0 in Jdisc by ring.
  destruct (isint_0 _ Jdisc) as [sd Ed].
  rewrite (isint_eqb _ _ _ _ Jfd (isint_zero false)).
  assert ((2 * (a - 0 * k) =? 0) = false) as -> by (apply Z.eqb_neq; lia).
  rewrite Ed. cbn [fsqrt SFsqrt].
  change (fsqrt (S754_zero sd)) with (S754_zero sd).
  set (fd := fmul W (fsub A (fmul O dec))) in *.
  assert (Jz : isint (fdiv (S754_zero sd) fd) 0).
  { apply (isint_div _ _ 0 (2 * (a - 0 * k))); [apply isint_zero|exact Jfd|lia|lia]. }
  pose proof (isint_add _ _ _ _ Jfd Jz ltac:(lia)) as Jsp.
  pose proof (isint_sub _ _ _ _ Jfd Jz ltac:(lia)) as Jsn.
  set (sp := fadd fd (fdiv (S754_zero sd) fd)) in *. set (sn := fsub fd (fdiv (S754_zero sd) fd)) in *.
  rewrite (isint_eqb _ _ _ _ Jsp (isint_zero false)), (isint_eqb _ _ _ _ Jsn (isint_zero false)).
  assert ((2 * (a - 0 * k) + 0 =? 0) = false) as -> by (apply Z.eqb_neq; lia).
  assert ((2 * (a - 0 * k) - 0 =? 0) = false) as -> by (apply Z.eqb_neq; lia).
  cbn [negb andb].
  assert (Rp : isint (fdiv (fsub (fmul O dec) B) sp) r).
  { apply (isint_div _ _ r (2 * (a - 0 * k) + 0)); [|exact Jsp|lia|lia].
    replace (r * (2 * (a - 0 * k) + 0)) with (0 * k - -2 * a * r) by ring. exact Jn. }
  assert (Rn : isint (fdiv (fsub (fmul O dec) B) sn) r).
  { apply (isint_div _ _ r (2 * (a - 0 * k) - 0)); [|exact Jsn|lia|lia].
    replace (r * (2 * (a - 0 * k) - 0)) with (0 * k - -2 * a * r) by ring. exact Jn. }
  match goal with |- exists v, (if ?c then _ else _) = _ /\ _ => destruct c end; eexists; (split; [reflexivity|assumption]).
Qed.

(** ** Linear *)

Lemma linear_int : forall A B dec a c x, isint A a -> isint B c -> isint dec x ->
    Z.abs (a * x) < 2 ^ 53 -> Z.abs (a * x + c) < 2 ^ 53 -> isint (fadd (fmul A dec) B) (a * x + c).
Proof. intros. apply isint_add; auto. apply isint_mul; auto. Qed.
