From Coq Require Import String Ascii List Arith NArith Bool Lia Permutation.
From Verif Require Import GoBase GoBaseFacts GoStrings IhexModel SrecModel HexSpec IhexThm SrecProofs CalibModel.
Import ListNotations.

Section RC.
  Variables A H E : Type.
  Variable RA : outcome E A -> Prop.
  Variable RH : outcome E H -> Prop.
  Local Notation rcs := (@rcs A H E).

  Definition errOf {X} (r : X + E) : list E := match r with inl _ => [] | inr e => [e] end.
  Definition okOf {X} (r : X + E) : list X := match r with inl x => [x] | inr _ => [] end.
  Definition sentE {X} (p : pc E X) : list E :=
    match p with PClose r | PDone r | PEnd r => errOf r | _ => [] end.
  Definition sentOk {X} (p : pc E X) : list X :=
    match p with PClose r | PDone r | PEnd r => okOf r | _ => [] end.
  Definition pclosed {X} (p : pc E X) : bool := match p with PDone _ | PEnd _ => true | _ => false end.
  Definition plive {X} (p : pc E X) : nat := match p with PEnd _ => 0 | _ => 1 end.
  Definition from {X} (R : outcome E X -> Prop) (r : X + E) : Prop :=
    match r with inl x => R (Ok x) | inr e => R (Err e) end.
  Definition pfrom {X} (R : outcome E X -> Prop) (p : pc E X) : Prop :=
    match p with PRead => True | PSend r | PClose r | PDone r | PEnd r => from R r end.

  Definition result_ok (ra : A + E) (rh : H + E) (cd : caldata A H) (err : option E) : Prop :=
    match ra, rh with
    | inl x, inl y => cd = CD (Some x) (Some y) /\ err = None
    | inr e, inl _ | inl _, inr e => cd = CD None None /\ err = Some e
    | inr e1, inr e2 => cd = CD None None /\ (err = Some e1 \/ err = Some e2)
    end.

  Definition ended (s : rcs) (ra : A + E) (rh : H + E) : Prop :=
    rc_a s = PEnd ra /\ rc_h s = PEnd rh /\ rc_errClosed s = true /\ rc_acClosed s = true /\ rc_hcClosed s = true.

  Definition rinv (s : rcs) : Prop :=
    pfrom RA (rc_a s) /\ pfrom RH (rc_h s) /\
    match rc_main s with
    | MWait => rc_wg s = plive (rc_a s) + plive (rc_h s) /\ rc_errClosed s = false
        /\ Permutation (rc_err s) (sentE (rc_a s) ++ sentE (rc_h s))
        /\ rc_ac s = sentOk (rc_a s) /\ rc_acClosed s = pclosed (rc_a s)
        /\ rc_hc s = sentOk (rc_h s) /\ rc_hcClosed s = pclosed (rc_h s)
    | MCheck => exists ra rh, ended s ra rh /\ Permutation (rc_err s) (errOf ra ++ errOf rh)
        /\ rc_ac s = okOf ra /\ rc_hc s = okOf rh
    | MDrain f => exists ra rh sent, ended s ra rh /\ Permutation (sent ++ rc_err s) (errOf ra ++ errOf rh)
        /\ errOf ra ++ errOf rh <> [] /\ f = last (map Some sent) None
    | MRecvA => exists x y, ended s (inl x) (inl y) /\ rc_ac s = [x] /\ rc_hc s = [y]
    | MRecvH oa => exists x y, ended s (inl x) (inl y) /\ oa = Some x /\ rc_hc s = [y]
    | MRet cd err => exists ra rh, ended s ra rh /\ result_ok ra rh cd err
    | MCrash => RA Panic \/ RH Panic
    end.

  Lemma rinv_init : rinv (rinit A H E).
  Proof. repeat split. apply Permutation_refl. Qed.

  Lemma drained : forall ra rh (sent : list E), Permutation sent (errOf ra ++ errOf rh) -> errOf ra ++ errOf rh <> [] ->
      result_ok ra rh (CD None None) (last (map Some sent) None).
  Proof.
    intros [x|e1] [y|e2] sent P N; cbn in *; try congruence.
    - apply Permutation_sym, Permutation_length_1_inv in P. subst. auto.
    - apply Permutation_sym, Permutation_length_1_inv in P. subst. auto.
    - apply Permutation_sym, Permutation_length_2_inv in P. destruct P as [->| ->]; cbn; auto.
  Qed.

  Lemma last_snoc : forall (X : Type) (l : list X) x d, last (l ++ [x]) d = x.
  Proof. intros X l x d. induction l as [|y l IH]; [reflexivity|]. cbn [app]. destruct l; [reflexivity|exact IH]. Qed.

  Ltac use_ended :=
    match goal with
    | K : ended _ _ _ |- _ => destruct K as (?K1 & ?K2 & ?K3 & ?K4 & ?K5); cbn in K1, K2, K3, K4, K5
    end.

  Lemma rinv_step : forall s s', rinv s -> rstep RA RH s s' -> rinv s'.
  Proof.
    intros s s' Hi Hs. destruct Hi as (I1 & I2 & I3).
    destruct Hs; cbn in I1, I2, I3; (split; [cbn; assumption|]); (split; [cbn; assumption|]); cbn.
    (* goroutine steps that need main to be waiting *)
    all: try (destruct mn; cbn in I3;
              [ | destruct I3 as (? & ? & I3 & ?); use_ended; discriminate
                | destruct I3 as (? & ? & ? & I3 & ?); use_ended; discriminate
                | destruct I3 as (? & ? & I3 & ?); use_ended; discriminate
                | destruct I3 as (? & ? & I3 & ?); use_ended; discriminate
                | destruct I3 as (? & ? & I3 & ?); use_ended; discriminate
                | congruence ]).
    all: try (left; assumption); try (right; assumption).
    all: try (decompose [and] I3; clear I3; subst; cbn in *; try discriminate;
              repeat split; auto; try lia; try congruence; fail).
    - (* RASendErr *) decompose [and] I3; clear I3. cbn in *. repeat split; auto.
      apply (Permutation_app_comm err [e]) || idtac.
      transitivity (e :: err); [symmetry; apply Permutation_cons_append|]. constructor. assumption.
    - (* RHSendErr *) decompose [and] I3; clear I3. cbn in *. repeat split; auto.
      apply Permutation_app; [|reflexivity]. rewrite app_nil_r in *. assumption.
    - (* RWait *) destruct I3 as (Hw & _ & Hp & Ha & Hac & Hh & Hhc).
      destruct a as [| | | |ra]; try (cbn in Hw; lia). destruct h as [| | | |rh]; try (cbn in Hw; lia).
      exists ra, rh. cbn in *. subst. unfold ended. cbn. auto 10.
    - (* RCheck *) destruct I3 as (ra & rh & He & Hp & Ha & Hh). destruct err as [|e err].
      + apply Permutation_nil in Hp. destruct ra as [x|]; [|discriminate]. destruct rh as [y|]; [|discriminate].
        exists x, y. auto.
      + exists ra, rh, []. cbn. split; [exact He|]. split; [exact Hp|]. split; [|reflexivity].
        intros Hn. rewrite Hn in Hp. apply Permutation_sym, Permutation_nil in Hp. discriminate.
    - (* RDrain *) destruct I3 as (ra & rh & sent & He & Hp & Hn & Hf).
      exists ra, rh, (sent ++ [e]). split; [exact He|]. rewrite <- app_assoc. cbn. split; [exact Hp|].
      split; [exact Hn|]. rewrite map_app. cbn. rewrite last_snoc. reflexivity.
    - (* RDrained *) destruct I3 as (ra & rh & sent & He & Hp & Hn & Hf). rewrite app_nil_r in Hp.
      exists ra, rh. split; [exact He|]. subst f. apply drained; assumption.
    - destruct I3 as (x0 & y & He & Ha & Hh). inversion Ha; subst. exists x0, y. auto.
    - destruct I3 as (x0 & y & He & Ha & Hh). discriminate.
    - destruct I3 as (x0 & y & He & Ha & Hh). inversion Hh; subst. exists (inl x0), (inl y). split; [exact He|cbn; auto].
    - destruct I3 as (x0 & y & He & Ha & Hh). discriminate.
  Qed.

  Lemma rinv_reach : forall s s', rinv s -> reach (rstep RA RH) s s' -> rinv s'.
  Proof. intros s s' Hi Hr. induction Hr; [exact Hi|]. apply IHHr. eapply rinv_step; eassumption. Qed.

  Lemma rsteps_reach : forall s s', rsteps RA RH s s' <-> reach (rstep RA RH) s s'.
  Proof. intros s s'. split; intros Hr; induction Hr; econstructor; eassumption. Qed.

  (** ** Progress and termination *)

  Definition rdone (s : rcs) : Prop := match rc_main s with MRet _ _ | MCrash => True | _ => False end.

  Lemma rprogress : forall s, (exists r, RA r) -> (exists r, RH r) -> rinv s -> rdone s \/ exists s', rstep RA RH s s'.
  Proof.
    intros [a h wg err ec ac acl hc hcl mn] [oa Ha] [oh Hh] (I1 & I2 & I3). cbn in *.
    destruct mn as [| |f| |oa'|cd er|]; cbn in I3; unfold rdone; cbn.
    - right. destruct I3 as (Hw & -> & Hp & -> & -> & -> & ->).
      assert (Hl : List.length err = List.length (sentE a ++ sentE h)) by (apply Permutation_length, Hp).
      assert (Hm : @MWait A H E <> MCrash) by discriminate.
      destruct a as [|[x|e]|r|r|ra].
      + destruct oa as [x|e|]; eexists; [eapply RAOk|eapply RAErr|eapply RAPanic]; eassumption.
      + eexists. eapply RASendOk; [cbn; lia|exact Hm].
      + eexists. eapply RASendErr; [|exact Hm]. rewrite Hl. cbn.
        destruct h as [|[|]|[|]|[|]|[|]]; cbn; lia.
      + eexists. eapply RAClose; exact Hm.
      + cbn in Hw. destruct wg; [lia|]. eexists. eapply RADone; exact Hm.
      + destruct h as [|[x|e]|r|r|rh].
        * destruct oh as [x|e|]; eexists; [eapply RHOk|eapply RHErr|eapply RHPanic]; eassumption.
        * eexists. eapply RHSendOk; [cbn; lia|exact Hm].
        * eexists. eapply RHSendErr; [|exact Hm]. rewrite Hl. cbn. destruct ra; cbn; lia.
        * eexists. eapply RHClose; exact Hm.
        * cbn in Hw. destruct wg; [lia|]. eexists. eapply RHDone; exact Hm.
        * cbn in Hw. subst wg. eexists. eapply RWait.
    - right. eexists. eapply RCheck.
    - right. destruct I3 as (ra & rh & sent & (K1 & K2 & K3 & _) & _). cbn in *. subst.
      destruct err; eexists; [eapply RDrained|eapply RDrain].
    - right. destruct I3 as (x & y & _ & -> & _). eexists. eapply RRecvA.
    - right. destruct I3 as (x & y & _ & _ & ->). eexists. eapply RRecvH.
    - left; exact I.
    - left; exact I.
  Qed.

  Definition prank {X} (p : pc E X) : nat :=
    match p with PRead => 4 | PSend _ => 3 | PClose _ => 2 | PDone _ => 1 | PEnd _ => 0 end.
  Definition rmeasure (s : rcs) : nat :=
    2 * prank (rc_a s) + 2 * prank (rc_h s)
    + match rc_main s with
      | MWait => 7 + List.length (rc_err s) | MCheck => 6 + List.length (rc_err s)
      | MDrain _ => 2 + List.length (rc_err s) | MRecvA => 3 | MRecvH _ => 2
      | MRet _ _ => 1 | MCrash => 0
      end.

  Lemma rdecreases : forall s s', rstep RA RH s s' -> rmeasure s' < rmeasure s.
  Proof.
    intros s s' Hs. destruct Hs; unfold rmeasure; cbn [rc_a rc_h rc_main rc_err prank];
      try (destruct mn; try congruence; rewrite ?app_length; cbn [List.length]; lia);
      try (cbn [List.length]; lia).
    destruct err; cbn [List.length]; lia.
  Qed.

  Theorem rc_completes : (exists r, RA r) -> (exists r, RH r) -> completes (rstep RA RH) rdone (rinit A H E).
  Proof.
    intros Ha Hh. split.
    - intros s Hr. apply rprogress; auto. eapply rinv_reach; [apply rinv_init|exact Hr].
    - apply (acc_measure _ _ (fun _ => True) rmeasure); [|exact I]. intros s s' _ Hs. split; [exact I|apply rdecreases, Hs].
  Qed.

  Lemma rc_no_leak : forall s cd err, reach (rstep RA RH) (rinit A H E) s -> rc_main s = MRet cd err ->
      exists ra rh, rc_a s = PEnd ra /\ rc_h s = PEnd rh.
  Proof.
    intros s cd err Hr Hm. apply rinv_reach in Hr; [|apply rinv_init]. destruct Hr as (_ & _ & I). rewrite Hm in I.
    destruct I as (ra & rh & (K1 & K2 & _) & _). eauto.
  Qed.

  (** ** Results *)

  Lemma steps_cat : forall s1 s2 s3, rsteps RA RH s1 s2 -> rsteps RA RH s2 s3 -> rsteps RA RH s1 s3.
  Proof. intros s1 s2 s3 H1 H2. induction H1; [exact H2|]. econstructor; [eassumption|auto]. Qed.

  Ltac st c := eapply RTrans; [eapply c; first [eassumption|discriminate|cbn; lia]|]; cbn [app].

  Lemma run_a : forall ra h wg err hc hcl, from RA ra -> List.length err < 2 ->
      rsteps RA RH (RC PRead h (S wg) err false [] false hc hcl MWait)
        (RC (PEnd ra) h wg (err ++ errOf ra) false (okOf ra) true hc hcl MWait).
  Proof.
    intros [x|e] h wg err hc hcl Hr Hl; cbn in Hr.
    - st RAOk. st RASendOk. st RAClose. st RADone. cbn. rewrite app_nil_r. constructor.
    - st RAErr. st RASendErr. st RAClose. st RADone. constructor.
  Qed.
  Lemma run_h : forall rh a wg err ac acl, from RH rh -> List.length err < 2 ->
      rsteps RA RH (RC a PRead (S wg) err false ac acl [] false MWait)
        (RC a (PEnd rh) wg (err ++ errOf rh) false ac acl (okOf rh) true MWait).
  Proof.
    intros [x|e] a wg err ac acl Hr Hl; cbn in Hr.
    - st RHOk. st RHSendOk. st RHClose. st RHDone. cbn. rewrite app_nil_r. constructor.
    - st RHErr. st RHSendErr. st RHClose. st RHDone. constructor.
  Qed.

  Lemma run_main : forall a h ra rh err, (err = errOf ra ++ errOf rh \/ err = errOf rh ++ errOf ra) ->
      exists cd er s, rsteps RA RH (RC a h 0 err false (okOf ra) true (okOf rh) true MWait) s
        /\ rc_main s = MRet cd er
        /\ ((err = [] /\ cd = CD (hd_error (okOf ra)) (hd_error (okOf rh)) /\ er = None)
            \/ (err <> [] /\ cd = CD None None /\ er = last (map Some err) None)).
  Proof.
    intros a h ra rh err He.
    assert (Hc : (err = [] /\ (exists x, ra = inl x) /\ (exists y, rh = inl y)) \/ (exists e, err = [e]) \/ (exists e1 e2, err = [e1; e2])).
    { destruct ra as [x|e1], rh as [y|e2]; cbn in He; destruct He as [->| ->]; eauto 10. }
    destruct Hc as [(-> & [x ->] & [y ->])|[[e ->]|(e1 & e2 & ->)]].
    - do 3 eexists. split; [st RWait; st RCheck; cbn; st RRecvA; st RRecvH; constructor|]. split; [reflexivity|]. left. auto.
    - do 3 eexists. split; [st RWait; st RCheck; st RDrain; st RDrained; constructor|]. split; [reflexivity|].
      right. split; [discriminate|]. auto.
    - do 3 eexists. split; [st RWait; st RCheck; st RDrain; st RDrain; st RDrained; constructor|]. split; [reflexivity|].
      right. split; [discriminate|]. auto.
  Qed.

  Lemma errOf_short : forall X (r : X + E), List.length (errOf r) < 2.
  Proof. intros X [x|e]; cbn; lia. Qed.

  Theorem rc_results : forall r, readCalibration RA RH None r <->
      (exists x y, RA (Ok x) /\ RH (Ok y) /\ r = RReturned (CD (Some x) (Some y)) None)
      \/ (exists e, ((RA (Err e) /\ exists rh, from RH rh) \/ (RH (Err e) /\ exists ra, from RA ra))
                    /\ r = RReturned (CD None None) (Some e))
      \/ ((RA Panic \/ RH Panic) /\ r = RCrashed).
  Proof.
    intros r. unfold readCalibration. split.
    - intros (s & Hs & Hm). apply rsteps_reach in Hs. apply rinv_reach in Hs; [|apply rinv_init].
      destruct Hs as (I1 & I2 & I3). destruct (rc_main s) as [| |f| |oa|cd er|] eqn:Em; try contradiction; subst r.
      + destruct I3 as (ra & rh & (K1 & K2 & _) & Hr). rewrite K1 in I1. rewrite K2 in I2. cbn in I1, I2.
        destruct ra as [x|e1], rh as [y|e2]; cbn in Hr, I1, I2.
        * left. destruct Hr as [-> ->]. eauto 10.
        * right; left. destruct Hr as [-> ->]. exists e2. split; [right; split; [exact I2|exists (inl x); exact I1]|reflexivity].
        * right; left. destruct Hr as [-> ->]. exists e1. split; [left; split; [exact I1|exists (inl y); exact I2]|reflexivity].
        * right; left. destruct Hr as [-> [->| ->]].
          -- exists e1. split; [left; split; [exact I1|exists (inr e2); exact I2]|reflexivity].
          -- exists e2. split; [right; split; [exact I2|exists (inr e1); exact I1]|reflexivity].
      + right; right. auto.
    - assert (G : forall ra rh err, from RA ra -> from RH rh ->
          (err = errOf ra ++ errOf rh \/ err = errOf rh ++ errOf ra) ->
          rsteps RA RH (rinit A H E) (RC (PEnd ra) (PEnd rh) 0 err false (okOf ra) true (okOf rh) true MWait)).
      { intros ra rh err Ha Hh [->| ->]; unfold rinit.
        - eapply steps_cat; [apply (run_a ra); [exact Ha|cbn; lia]|]. cbn [app].
          eapply steps_cat; [apply (run_h rh); [exact Hh|apply errOf_short]|]. constructor.
        - eapply steps_cat; [apply (run_h rh); [exact Hh|cbn; lia]|]. cbn [app].
          eapply steps_cat; [apply (run_a ra); [exact Ha|apply errOf_short]|]. constructor. }
      assert (G2 : forall ra rh err, from RA ra -> from RH rh ->
          (err = errOf ra ++ errOf rh \/ err = errOf rh ++ errOf ra) ->
          forall q, ((err = [] /\ q = RReturned (CD (hd_error (okOf ra)) (hd_error (okOf rh))) None)
             \/ (err <> [] /\ q = RReturned (CD None None) (last (map Some err) None))) ->
          exists s, rsteps RA RH (rinit A H E) s /\
            match rc_main s with MRet cd er => q = RReturned cd er | MCrash => q = RCrashed | _ => False end).
      { intros ra rh err Ha Hh He q Hq. destruct (run_main (PEnd ra) (PEnd rh) ra rh err He) as (cd & er & s & Hs & Hm & Hc).
        exists s. split; [eapply steps_cat; [apply (G ra rh err); assumption|exact Hs]|]. rewrite Hm.
        destruct Hc as [(E1 & -> & ->)|(E1 & -> & ->)], Hq as [[E2 ->]|[E2 ->]]; try contradiction; reflexivity. }
      intros [(x & y & Ha & Hh & ->)|[(e & [[Ha [rh Hh]]|[Hh [ra Ha]]] & ->)|(Hp & ->)]].
      + apply (G2 (inl x) (inl y) []); auto.
      + apply (G2 (inr e) rh (errOf rh ++ [e])); auto. right. split; [destruct rh; discriminate|].
        rewrite map_app. cbn. rewrite last_snoc. reflexivity.
      + apply (G2 ra (inr e) (errOf ra ++ [e])); auto. right. split; [destruct ra; discriminate|].
        rewrite map_app. cbn. rewrite last_snoc. reflexivity.
      + destruct Hp as [Hp|Hp].
        * eexists. split; [unfold rinit; st RAPanic; constructor|reflexivity].
        * eexists. split; [unfold rinit; st RHPanic; constructor|reflexivity].
  Qed.
End RC.
