(** Properties of the conversion of decimal to physical values. *)
From Coq Require Import String Ascii List Arith NArith ZArith Bool Lia Floats.SpecFloat.
From Verif Require Import GoBase FloatModel FloatSpec FloatProofs FloatArith CompuModel CompuSpec CompuThm.
Import ListNotations.

Definition noCtx : compuCtx := CompuCtx [] [] [].

(** ** C33 identical and linear *)

Theorem C33_identical : forall dec cm cx, cm_type cm = Identical -> convDecToPhy dec cm cx = Ret dec None.
Proof. intros dec cm cx H. unfold convDecToPhy. rewrite H. reflexivity. Qed.
Print Assumptions C33_identical.

(** One of the coefficients missing: an error, and only then. *)
Theorem C33_missing_iff : forall dec cm cx, cm_type cm = Linear ->
    ((exists v e, convDecToPhy dec cm cx = Ret v (Some e)) <->
     co_set (lA (cm_linear cm)) = false \/ co_set (lB (cm_linear cm)) = false).
Proof.
  intros dec cm cx H. unfold convDecToPhy. rewrite H.
  destruct (co_set (lA (cm_linear cm))), (co_set (lB (cm_linear cm))); cbn [negb andb];
    (split; [intros (v & e & E)|intros [E|E]]); try discriminate; eauto.
Qed.
Print Assumptions C33_missing_iff.

(** Two correctly rounded operations: the product to [p], then the sum. *)
Theorem C33_linear : forall cx A B dec a b_ x, canon A -> canon B -> canon dec ->
    fval A = Some a -> fval B = Some b_ -> fval dec = Some x ->
    (Z.abs (a * x) < 2 ^ (1023 + 1074 + 1074))%Z ->
    exists p P, canon p /\ nearestK 1074 (a * x) p /\ fval p = Some P /\
      ((Z.abs (P + b_) < 2 ^ (1023 + 1074))%Z ->
       exists v, convDecToPhy dec (linMethod A B) cx = Ret v None /\ canon v /\ nearestK 0 (P + b_) v).
Proof.
  intros cx A B dec a b_ x CA CB Cd VA VB Vd Hs.
  destruct (fmul_nearest A dec a x CA Cd VA Vd Hs) as [C N].
  destruct N as (P & VP & N). exists (fmul A dec), P.
  split; [exact C|]. split; [exists P; auto|]. split; [exact VP|]. intros HS.
  exists (fadd (fmul A dec) B). split; [reflexivity|].
  apply (fadd_nearest (fmul A dec) B P b_); assumption.
Qed.
Print Assumptions C33_linear.

(** On integers below 2^53 the result is exact. *)
Theorem C33_linear_exact : forall cx A B dec a b_ x, isint A a -> isint B b_ -> isint dec x ->
    (Z.abs (a * x) < 2 ^ 53)%Z -> (Z.abs (a * x + b_) < 2 ^ 53)%Z ->
    exists v, convDecToPhy dec (linMethod A B) cx = Ret v None /\ isint v (a * x + b_).
Proof.
  intros cx A B dec a b_ x IA IB Id H1 H2. exists (fadd (fmul A dec) B).
  split; [reflexivity|]. apply linear_int; assumption.
Qed.
Print Assumptions C33_linear_exact.

(** FORM, TAB_VERB and unknown kinds are errors with the value zero; the kinds of conversion are
    these, RAT_FUNC, TAB_INTP and TAB_NOINTP. *)
Theorem C33_other_kinds : forall dec cm cx,
    cm_type cm = Form \/ cm_type cm = TabVerb \/ cm_type cm = ConvUndef ->
    exists e, convDecToPhy dec cm cx = Ret (S754_zero false) (Some e).
Proof. intros dec cm cx [H|[H|H]]; unfold convDecToPhy; rewrite H; eauto. Qed.
Print Assumptions C33_other_kinds.

Example C33_example :
  convDecToPhy (f_of_Z 12) (linMethod (f_of_Z 3) (f_of_Z (-40))) noCtx = Ret (f_of_Z (-4)) None
  /\ isint (f_of_Z 12) 12
  /\ convDecToPhy (f_of_Z 12) (tabMethod Linear []) noCtx = Ret (S754_zero false) (Some CCoeffs).
Proof. split; [|split]; [vm_compute; reflexivity|apply f_of_Z_isint; lia|reflexivity]. Qed.

(** ** C34 rational functions *)

(** x^2 = 4 is solved by 0. *)
Theorem C34_inverse_refuted : exists a b_ c d e f dec v,
    calcRatFunc dec (ratMethod a b_ c d e f) = Ret v None
    /\ isint v 0 /\ isint a 1 /\ isint b_ 0 /\ isint c 0 /\ isint d 0 /\ isint e 0 /\ isint f 1 /\ isint dec 4.
Proof.
  exists (f_of_Z 1), (f_of_Z 0), (f_of_Z 0), (f_of_Z 0), (f_of_Z 0), (f_of_Z 1), (f_of_Z 4), (S754_zero false).
  split; [vm_compute; reflexivity|]. split; [apply isint_zero|].
  repeat split; try (apply f_of_Z_isint; reflexivity).
Qed.
Print Assumptions C34_inverse_refuted.

(** Without linear terms, whatever the other coefficients and the value, the
    only results are zero and NaN. *)
Theorem C34_no_linear_terms_refuted : forall a sb c d se f dec v, fval dec <> None ->
    calcRatFunc dec (ratMethod a (S754_zero sb) c d (S754_zero se) f) = Ret v None ->
    v = S754_nan \/ exists s, v = S754_zero s.
Proof. exact ratfunc_no_linear_terms. Qed.
Print Assumptions C34_no_linear_terms_refuted.

(** At a double root the result is right: the polynomial a (x - r)^2 + k takes the value k in r. *)
Theorem C34_double_root_guarded : forall a r k, (0 < Z.abs a <= 2 ^ 10)%Z -> (Z.abs r <= 2 ^ 15)%Z -> (Z.abs k <= 2 ^ 50)%Z ->
    exists v, calcRatFunc (f_of_Z k)
        (ratMethod (f_of_Z a) (f_of_Z (- 2 * a * r)) (f_of_Z (a * r * r + k)) (f_of_Z 0) (f_of_Z 0) (f_of_Z 1)) = Ret v None
      /\ isint v r.
Proof. exact ratfunc_double_root. Qed.
Print Assumptions C34_double_root_guarded.

Example C34_example :
  calcRatFunc (f_of_Z 7) (ratMethod (f_of_Z 2) (f_of_Z (-12)) (f_of_Z 25) (f_of_Z 0) (f_of_Z 0) (f_of_Z 1)) = Ret (f_of_Z 3) None.
Proof. vm_compute. reflexivity. Qed.

(** ** C35 linear rational functions *)

(** With a = d = 0 there is always an error. *)
Theorem C35_linear_refuted : forall sa sd b_ c e f dec cx, fval dec <> None ->
    convDecToPhy dec (ratMethod (S754_zero sa) b_ c (S754_zero sd) e f) cx = Ret dec (Some CZeroDiv).
Proof.
  intros sa sd b_ c e f dec cx H. unfold convDecToPhy.
  cbn [cm_type ratMethod]. rewrite ratfunc_linear by exact H. reflexivity.
Qed.
Print Assumptions C35_linear_refuted.

(** A coefficient that is missing is reported, whichever it is; with all six the report never comes. *)
Theorem C35_missing_iff : forall dec cm cx, cm_type cm = RatFunc ->
    ((exists v, convDecToPhy dec cm cx = Ret v (Some CCoeffs)) <->
     exists c, In c [cA; cB; cC; cD; cE; cF] /\ co_set (c (cm_coeffs cm)) = false).
Proof.
  intros dec cm cx H. unfold convDecToPhy. rewrite H. cbv zeta. split.
  - intros (v & E).
    destruct (co_set (cA (cm_coeffs cm))) eqn:Ea; [|exists cA; split; [cbn; tauto|assumption]].
    destruct (co_set (cB (cm_coeffs cm))) eqn:Eb; [|exists cB; split; [cbn; tauto|assumption]].
    destruct (co_set (cC (cm_coeffs cm))) eqn:Ec; [|exists cC; split; [cbn; tauto|assumption]].
    destruct (co_set (cD (cm_coeffs cm))) eqn:Ed; [|exists cD; split; [cbn; tauto|assumption]].
    destruct (co_set (cE (cm_coeffs cm))) eqn:Ee; [|exists cE; split; [cbn; tauto|assumption]].
    destruct (co_set (cF (cm_coeffs cm))) eqn:Ef; [|exists cF; split; [cbn; tauto|assumption]].
    cbn [andb negb] in E. exfalso.
    assert (K : forall w, calcRatFunc dec cm <> Ret w (Some CCoeffs)).
    { intro w. unfold calcRatFunc. repeat (match goal with |- context [if ?c then _ else _] => destruct c end); discriminate. }
    destruct (calcRatFunc dec cm) as [w [[]|]|]; try discriminate; eapply K; reflexivity.
  - intros (c & I & E). exists (S754_zero false).
    repeat (destruct I as [<-|I]; [rewrite E, ?andb_false_r; cbn [andb negb]; rewrite ?andb_false_r; reflexivity|]).
    destruct I.
Qed.
Print Assumptions C35_missing_iff.

(** INT = 10 * PHYS, the value 50 *)
Example C35_example :
  fval (f_of_Z 50) <> None
  /\ convDecToPhy (f_of_Z 50) (ratMethod (f_of_Z 0) (f_of_Z 10) (f_of_Z 0) (f_of_Z 0) (f_of_Z 0) (f_of_Z 1)) noCtx
     = Ret (f_of_Z 50) (Some CZeroDiv)
  /\ convDecToPhy (f_of_Z 50) (tabMethod RatFunc []) noCtx = Ret (S754_zero false) (Some CCoeffs)
  /\ convDecToPhy (f_of_Z 50) (tabMethod TabVerb []) noCtx = Ret (S754_zero false) (Some CVerb).
Proof. split; [discriminate|repeat split; vm_compute; reflexivity]. Qed.

(** ** C36 tables without interpolation *)

Theorem C36_table : forall cx cm l d dec, cm_type cm = TabNointp ->
    sfind (cm_tabRef cm) (mod_tabs cx) = Some (tab_of l d) ->
    canon dec -> Forall (fun p => canon (fst p)) l ->
    (forall o, first_entry dec l o -> convDecToPhy dec cm cx = Ret o None)
    /\ (forall x, no_entry dec l -> d = Some x -> convDecToPhy dec cm cx = Ret x None)
    /\ (no_entry dec l -> d = None -> exists v e, convDecToPhy dec cm cx = Ret v (Some e)).
Proof.
  intros cx cm l d dec T F Cd Cl. unfold convDecToPhy, calcTabNoIntp. rewrite T, F.
  cbn [tab_of ct_inSet ct_outSet ct_in ct_out ct_default ct_defaultSet]. split; [|split].
  - intros o H. rewrite (first_nonempty _ _ _ _ H). cbn [andb].
    rewrite (search_first _ _ _ _ Cd Cl H). reflexivity.
  - intros x H ->. rewrite (search_none _ _ _ Cd Cl H). destruct (nonempty l); reflexivity.
  - intros H ->. rewrite (search_none _ _ _ Cd Cl H). destruct (nonempty l); cbn [andb]; eauto.
Qed.
Print Assumptions C36_table.

Theorem C36_no_table : forall cx cm dec, cm_type cm = TabNointp -> sfind (cm_tabRef cm) (mod_tabs cx) = None ->
    exists v e, convDecToPhy dec cm cx = Ret v (Some e).
Proof.
  intros cx cm dec T F. unfold convDecToPhy, calcTabNoIntp. rewrite T, F. cbn. eauto.
Qed.
Print Assumptions C36_no_table.

Definition nums : list (f64 * f64) := [(f_of_Z 1, f_of_Z 10); (f_of_Z 2, f_of_Z 20); (f_of_Z 2, f_of_Z 30)].
Definition texts : list (f64 * bytes) := [(f_of_Z 1, b "on"); (f_of_Z 2, b "off"); (f_of_Z 2, b "late")].
Definition ranges : list triple := [Triple (f_of_Z 0) (f_of_Z 10) (b "low"); Triple (f_of_Z 10) (f_of_Z 20) (b "high")].
Definition exCtx : compuCtx :=
  CompuCtx [(b "T", tab_of nums (Some (f_of_Z 99))); (b "U", tab_of nums None)]
           [(b "T", vtab_of texts (Some (b "else"))); (b "U", vtab_of texts None); (b "E", vtab_of [] (Some (b "else")))]
           [(b "T", range_of ranges (Some (b "else"))); (b "U", range_of ranges None)].

Example C36_example :
  convDecToPhy (f_of_Z 2) (tabMethod TabNointp (b "T")) exCtx = Ret (f_of_Z 20) None
  /\ convDecToPhy (f_of_Z 3) (tabMethod TabNointp (b "T")) exCtx = Ret (f_of_Z 99) None
  /\ convDecToPhy (f_of_Z 3) (tabMethod TabNointp (b "U")) exCtx = Ret (f_of_Z 3) (Some CNoDefault)
  /\ convDecToPhy (f_of_Z 3) (tabMethod TabNointp (b "V")) exCtx = Ret (f_of_Z 3) (Some CNoOutput)
  /\ first_entry (f_of_Z 2) nums (f_of_Z 20) /\ no_entry (f_of_Z 3) nums.
Proof.
  assert (N : forall p q, (Z.abs p < 2 ^ 53)%Z -> (Z.abs q < 2 ^ 53)%Z -> p <> q -> ~ same_number (f_of_Z p) (f_of_Z q)).
  { intros p q Hp Hq Hn S. pose proof (f_of_Z_isint p Hp) as Ip. pose proof (f_of_Z_isint q Hq) as Iq.
    apply (feqb_num _ _ (proj1 Ip) (proj1 Iq)) in S. rewrite (isint_eqb _ _ _ _ Ip Iq) in S.
    apply Z.eqb_eq in S. contradiction. }
  repeat (split; [vm_compute; reflexivity|]). split.
  - exists [(f_of_Z 1, f_of_Z 10)], (f_of_Z 2), [(f_of_Z 2, f_of_Z 30)]. split; [reflexivity|].
    split; [left; eauto; eexists; split; reflexivity|]. repeat constructor. apply N; lia.
  - repeat constructor; cbn [fst]; apply N; lia.
Qed.

(** ** C37 verbal tables *)

Theorem C37_verbal_guarded : forall cx name l d dec, l <> [] ->
    sfind name (mod_vtabs cx) = Some (vtab_of l d) ->
    canon dec -> Forall (fun p => canon (fst p)) l ->
    (forall o, first_entry dec l o -> calcTabVerb dec name cx = Ret o None)
    /\ (forall x, no_entry dec l -> d = Some x -> calcTabVerb dec name cx = Ret x None)
    /\ (no_entry dec l -> d = None -> exists v e, calcTabVerb dec name cx = Ret v (Some e)).
Proof.
  intros cx name l d dec NE F Cd Cl. unfold calcTabVerb. rewrite F.
  cbn [vtab_of cv_inSet cv_outSet cv_in cv_out cv_default cv_defaultSet].
  assert (nonempty l = true) as -> by (destruct l; [contradiction|reflexivity]). cbn [andb]. split; [|split].
  - intros o H. rewrite (search_first _ _ _ _ Cd Cl H). reflexivity.
  - intros x H ->. rewrite (search_none _ _ _ Cd Cl H). reflexivity.
  - intros H ->. rewrite (search_none _ _ _ Cd Cl H). eauto.
Qed.
Print Assumptions C37_verbal_guarded.

(** A table without pairs: its default is not used. *)
Theorem C37_empty_refuted : forall cx name d dec, sfind name (mod_vtabs cx) = Some (vtab_of [] d) ->
    calcTabVerb dec name cx = Ret [] (Some CNoOutput).
Proof. intros cx name d dec F. unfold calcTabVerb. rewrite F. reflexivity. Qed.
Print Assumptions C37_empty_refuted.

Theorem C37_no_table : forall cx name dec, sfind name (mod_vtabs cx) = None ->
    exists v e, calcTabVerb dec name cx = Ret v (Some e).
Proof. intros cx name dec F. unfold calcTabVerb. rewrite F. eauto. Qed.
Print Assumptions C37_no_table.

Example C37_example :
  calcTabVerb (f_of_Z 2) (b "T") exCtx = Ret (b "off") None
  /\ calcTabVerb (f_of_Z 3) (b "T") exCtx = Ret (b "else") None
  /\ calcTabVerb (f_of_Z 3) (b "U") exCtx = Ret [] (Some CNoDefault)
  /\ calcTabVerb (f_of_Z 3) (b "E") exCtx = Ret [] (Some CNoOutput)
  /\ calcTabVerb (f_of_Z 3) (b "V") exCtx = Ret [] (Some CNoTable).
Proof. vm_compute. repeat split. Qed.

(** ** C38 verbal ranges *)

(** No range is ever found: the result does not depend on the value. *)
Theorem C38_range_refuted : forall cx name l d dec, sfind name (mod_ranges cx) = Some (range_of l d) ->
    calcTabVerbRange dec name cx = match d with Some x => Ret x None | None => Ret [] (Some CNoDefault) end.
Proof.
  intros cx name l d dec F. unfold calcTabVerbRange. rewrite F. cbn [range_of cr_numberSet cr_number].
  rewrite Nnat.Nat2N.id. rewrite rangeLoop_never by (cbn [cr_min range_of]; rewrite map_length; lia).
  destruct d; reflexivity.
Qed.
Print Assumptions C38_range_refuted.

(** Hence it is right exactly for the values in no range. *)
Theorem C38_outside_guarded : forall cx name l d dec, sfind name (mod_ranges cx) = Some (range_of l d) ->
    Forall (fun t => ~ contains t dec) l ->
    (forall x, d = Some x -> calcTabVerbRange dec name cx = Ret x None)
    /\ (d = None -> exists v e, calcTabVerbRange dec name cx = Ret v (Some e)).
Proof.
  intros cx name l d dec F _. rewrite (C38_range_refuted _ _ _ _ _ F). split; [intros x ->; reflexivity|intros ->; eauto].
Qed.
Print Assumptions C38_outside_guarded.

(** A number of triples larger than the triples present: a panic. *)
Theorem C38_short_refuted : forall cx name t dec, sfind name (mod_ranges cx) = Some t -> cr_numberSet t = true ->
    (length (cr_min t) < N.to_nat (cr_number t))%nat -> calcTabVerbRange dec name cx = CPanic.
Proof.
  intros cx name t dec F S H. unfold calcTabVerbRange. rewrite F, S. apply rangeLoop_short; lia.
Qed.
Print Assumptions C38_short_refuted.

(** 5 lies in the first range. *)
Example C38_example :
  contains (Triple (f_of_Z 0) (f_of_Z 10) (b "low")) (f_of_Z 5)
  /\ calcTabVerbRange (f_of_Z 5) (b "T") exCtx = Ret (b "else") None
  /\ calcTabVerbRange (f_of_Z 5) (b "U") exCtx = Ret [] (Some CNoDefault).
Proof.
  split; [|vm_compute; auto].
  exists (0 * unit1)%Z, (10 * unit1)%Z, (5 * unit1)%Z.
  repeat (split; [apply f_of_Z_isint; lia|]). pose proof unit1_pos. lia.
Qed.

(** ** C39 interpolated tables *)

Theorem C39_interpolation_refuted : forall dec cm cx, cm_type cm = TabIntp ->
    exists z, convDecToPhy dec cm cx = Ret z None /\ isint z 0.
Proof.
  intros dec cm cx H. unfold convDecToPhy. rewrite H. eexists. split; [reflexivity|apply isint_zero].
Qed.
Print Assumptions C39_interpolation_refuted.

(** even at a table point *)
Example C39_example :
  convDecToPhy (f_of_Z 1) (tabMethod TabIntp (b "T")) exCtx = Ret (S754_zero false) None
  /\ first_entry (f_of_Z 1) nums (f_of_Z 10).
Proof.
  split; [reflexivity|]. exists [], (f_of_Z 1), (tl nums). split; [reflexivity|]. split; [|constructor].
  left. eexists; split; reflexivity.
Qed.
