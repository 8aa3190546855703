(** The parsers of the other special objects. *)
From Coq Require Import String Ascii List Arith NArith ZArith Bool Lia SpecFloat.
From Verif Require Import GoBase GoBaseFacts A2lModModel A2lModSpec A2lModProps A2lProps A2lIR A2lTokens A2lSpec A2lGrammar A2lForms A2lParsers A2lCheck
  A2lExactSpec A2lExact A2lExactThm A2lOddSpec A2lOddThm A2lOddParsers.
From Verif Require A2lExploreThm OriginProps.
Import ListNotations.
Local Open Scope string_scope.
Local Open Scope list_scope.

Lemma beqb_spec : forall x y, reflect (x = y) (beqb x y).
Proof. intros x y. destruct (beqb x y) eqn:E; constructor; [apply beqb_eq, E|apply beqb_neq, E]. Qed.

Section Rest.
  Variable toks : list bytes.
  Variable pf : bytes -> option spec_float.
  Hypothesis EN : ended toks.

  Notation tok := (tok toks).
  Notation len := (List.length toks).
  Notation run := (run isKeyword toks pf).
  Notation exec := (exec isKeyword toks pf).
  Notation call := (call isKeyword toks pf).
  Notation run_seq := (A2lExactThm.run_seq toks pf).
  Notation run_one := (A2lExactThm.run_one toks pf).

  Ltac items good := intros kw f p sub IN; cbn [In] in IN;
    repeat (destruct IN as [IN|IN]; [injection IN as <- <- <- <-; split; [discriminate|]; split; [discriminate|]; split; [exact Logic.I|];
      eexists; split; [reflexivity|]; eexists; split; [|first [left; split; reflexivity|right; eexists; left; split; reflexivity]]; apply good; vm_compute; reflexivity|]); destruct IN.
  Ltac cases_only := intros t kb C; cbn [caseFor] in C;
    repeat match type of C with (if beqb ?x ?y then _ else _) = _ => let E := fresh "E" in destruct (beqb x y) eqn:E;
      [apply beqb_eq in E; subst t; eexists _, _, _, _; split; [|reflexivity]; cbn [In]; repeat (first [left; reflexivity|right])|clear E] end; discriminate.
  Ltac fields := cbn [store put mark fst snd p_how p_field p_flag P]; repeat (rewrite ?fbool_set, ?flist_set, ?fint_set; cbn [String.eqb Ascii.eqb Bool.eqb]).
  Ltac into F := rewrite run_one, exec_if; cbn [test]; rewrite F; cbn [negb Nat.ltb Nat.leb orb].

  (** ** VAR_FORBIDDEN_COMB *)
  Theorem comb_exact : forall i v j, i < len -> (returns toks pf parseVarForbiddenComb i v false j <-> forbidden toks pf i v j).
  Proof.
    intros i v j L. unfold parseVarForbiddenComb, forbidden, varForbiddenCombForm.
    eapply (simple_exact toks pf EN noOwn _ _ _ _ _ _ _ _ _ _ (fun _ o => fbool "criterionNameSet" o = false)); try reflexivity; try discriminate.
    - intros kw f p sub [].
    - intros a o kw f p sub w _ [].
    - intros a i0 o a1 i1 o1 a2 i2 o2 H H'. inversion H as [? ? vs (_ & _ & C)]; inversion H' as [? ? vs' (_ & _ & C')]; subst.
      pose proof (cells_fun toks pf _ _ _ _ C C'). subst. auto.
    - intros a i0 o a' i' o' _ H. inversion H as [? ? vs (W & _)]. exact W.
    - intros fuel a [o vr e si] i0 SI LT E F W. cbn [s_idx s_err s_obj] in *. subst si e. destruct a. rewrite run_one, exec_if. cbn [test s_obj]. rewrite F. cbn [negb orb].
      rewrite run_seq. cbn [A2lIR.exec s_idx s_obj value]. rewrite run_one, exec_switch. cbn [s_idx setObj readSrc fst snd]. rewrite (nextTok_tok toks).
      destruct (list_eq_dec ascii_dec (tok (S (S i0))) []) as [N|N].
      + right. split.
        * intros a' i' o' H. inversion H as [? ? vs (_ & _ & C) NE]; subst. apply NE. cbn [List.length]. rewrite Nat.add_comm. exact N.
        * left. rewrite pick_case, N. cbn. eexists. split; reflexivity.
      + left. pose proof (tok_lt toks EN _ N) as LT2. exists tt, (i0 + 2). eexists _, vr. rewrite pick_case, (proj2 (beqb_neq _ _) N : beqb (tok (S (S i0))) (b "") = false), (next_word toks EN _ N). cbn [A2lIR.pick]. split; [cbn; rewrite (Nat.add_comm i0 2); reflexivity|].
        split; [|split; [|lia]].
        * match goal with |- pairs _ _ ?cols tt i0 o tt _ _ => refine (pa_row toks pf cols i0 o [VStr (tok (S i0)); VStr (tok (S (S i0)))] _ _) end.
          -- split; [exact W|]. split; [cbn; lia|]. repeat constructor.
          -- cbn [List.length]. rewrite Nat.add_comm. exact N.
        * cbn. fields. exact F.
    - exact L.
  Qed.

  (** ** VARIANT_CODING *)
  Definition combFn (stop : string) : option fn := if String.eqb stop "/end VAR_FORBIDDEN_COMB" then Some parseVarForbiddenComb else None.
  Lemma some_len : forall stop i v j, In stop special -> i < len -> someOwn toks pf stop i v j -> j < len.
  Proof.
    intros stop i v j _ L (_ & F). apply comb_exact in F; [|exact L].
    assert (I : In ("parseVarForbiddenComb", parseVarForbiddenComb) allParsers).
    { assert (E : existsb (fun q => String.eqb "parseVarForbiddenComb" (fst q) && sameF parseVarForbiddenComb (snd q)) allParsers = true) by (vm_compute; reflexivity).
      apply existsb_exists in E. destruct E as ([n g] & K1 & K2). cbn [fst snd] in K2. apply andb_true_iff in K2. destruct K2 as [K2 K3]. apply String.eqb_eq in K2. apply same_eq in K3. subst. exact K1. }
    destruct (C59_terminates _ _ toks pf i I EN L) as (v' & e' & j' & R' & J).
    destruct (OriginProps.returns_fun _ _ _ _ _ _ _ _ _ _ F R') as (_ & _ & ->). lia.
  Qed.
  Lemma some_is : forall stop h, In stop special -> combFn stop = Some h -> forall i v j, i < len -> tok i <> [] ->
      (someOwn toks pf stop i v j <-> returns toks pf h i v false j).
  Proof.
    intros stop h _ H i v j L _. unfold combFn in H. destruct (String.eqb_spec stop "/end VAR_FORBIDDEN_COMB") as [->|]; [|discriminate]. injection H as <-.
    rewrite (comb_exact i v j L). unfold someOwn. intuition.
  Qed.
  Lemma some_good : forall g f, shapeFn combFn g f = true -> good toks pf (someOwn toks pf) g f.
  Proof. destruct (all_good toks pf EN (someOwn toks pf) some_len combFn some_is) as (_ & _ & _ & G). exact G. Qed.

  Theorem variant_exact : forall i v j, i < len -> (returns toks pf parseVariantCoding i v false j <-> variantObject toks pf variantCodingRead i v j).
  Proof.
    intros i v j L. unfold parseVariantCoding, variantObject, variantCodingRead.
    assert (SG : good toks pf (someOwn toks pf) parseVarSeparator varSeparatorForm) by (apply some_good; vm_compute; reflexivity).
    assert (SEP : forall i0 v k v' k', isWord (tok (S i0)) -> reads toks pf (someOwn toks pf) varSeparatorForm (S i0) v k -> reads toks pf (someOwn toks pf) varSeparatorForm (S i0) v' k' -> v = v' /\ k = k').
    { intros i0 w k w' k' (N & _) R R'. pose proof (tok_lt toks EN _ N) as LT. apply (proj1 (SG (S i0) w k ltac:(lia) N)) in R. apply (proj1 (SG (S i0) w' k' ltac:(lia) N)) in R'.
      destruct (OriginProps.returns_fun _ _ _ _ _ _ _ _ _ _ R R') as (? & _ & ?). auto. }
    eapply (simple_exact toks pf EN (someOwn toks pf) _ _ _ _ _ _ _ _ _ _ (fun a o => fbool "varSeparatorSet" o = a)); try reflexivity; try discriminate.
    - items some_good.
    - cases_only.
    - intros a o kw f p sub w F IN. cbn [In] in IN.
      repeat (destruct IN as [IN|IN]; [injection IN as <- <- <- <-; cbn [place_in]; fields; exact F|]). destruct IN.
    - intros a i0 o a1 i1 o1 a2 i2 o2 H H'. inversion H; inversion H'; subst; try discriminate; auto.
      match goal with W : isWord _, A : reads _ _ _ _ _ _ _, B : reads _ _ _ _ _ _ _ |- _ => destruct (SEP _ _ _ _ _ W A B) as (-> & ->); auto end.
    - intros a i0 o a' i' o' _ H. inversion H; assumption.
    - intros fuel a [o vr e si] i0 SI LT E F W. cbn [s_idx s_err s_obj] in *. subst si e. rewrite run_one, exec_if. cbn [test s_obj]. rewrite F.
      destruct a; cbn [negb].
      + left. exists true, (S i0), o, vr. split; [reflexivity|]. split; [constructor; exact W|]. split; [exact F|lia].
      + rewrite run_seq, exec_callF. cbn [s_idx].
        assert (T : exists w e k, call fuel parseVarSeparator (S i0) = Ret w e k /\ forall f', call f' parseVarSeparator (S i0) = Ret w e k).
        { unfold parseVarSeparator. cbn -[isKeyword]. match goal with |- context [beqb ?x ?y] => destruct (beqb x y) end; [|match goal with |- context [isKeyword ?x] => destruct (isKeyword x) end]; eexists _, _, _; (split; [|intros f']); reflexivity. }
        destruct T as (w & e & k & T & T'). rewrite T. destruct e.
        * right. split; [|left; eexists; split; reflexivity]. intros a' i' o' H. inversion H as [? ? w' k' _ RD|]; subst.
          apply (proj1 (SG (S i0) w' i' ltac:(lia) (proj1 W))) in RD. destruct RD as (f' & RD). specialize (RD f' (le_n _)). rewrite T' in RD. discriminate.
        * assert (RD : reads toks pf (someOwn toks pf) varSeparatorForm (S i0) w k) by (apply (proj1 (SG (S i0) w k ltac:(lia) (proj1 W))); exists 0; intros; apply T').
          left. exists true, k. eexists _, _. split; [reflexivity|]. split; [constructor; [exact W|exact RD]|]. split; [cbn; fields; reflexivity|].
          destruct (SG (S i0) w k ltac:(lia) (proj1 W)) as [_ LK]. exact (LK RD).
    - exact L.
  Qed.

  Lemma stop_run : forall fuel body cases d stop sb cs d2 s, bodyOf body = Some (cases, d) -> eofOf d = Some {{ If (CurIs stop) sb d2 }} -> setsOf sb = Some cs -> stop <> "" ->
      caseFor (b stop) cases = None -> s_idx s < len -> s_err s = false -> tok (S (s_idx s)) = b stop ->
      run fuel body s = Out (St (consts cs (s_obj s)) (s_var s) false (S (s_idx s))).
  Proof.
    intros fuel body cases d stop sb cs d2 s HB HE HS NS C L0 E0 T. assert (N : tok (S (s_idx s)) <> []) by (rewrite T; intros X; apply NS, b_inj; exact X).
    rewrite (body_run toks pf _ _ _ _ _ HB), pick_for, T, C, (eof_run _ _ _ _ _ _ HE). cbn [s_idx setIdx]. rewrite (current_next toks EN _ L0), (proj2 (beqb_neq _ _) N).
    rewrite run_one, exec_if. cbn [test s_idx setIdx]. rewrite (current_next toks EN _ L0), T, beqb_refl, (sets_run _ _ _ _ _ _ HS), (next_word toks EN _ N).
    destruct s as [o0 v0 e0 i0]. cbn [s_obj s_var s_err s_idx setIdx] in *. rewrite E0. reflexivity.
  Qed.

  Lemma key_run : forall fuel body cases d kw f o vr i, bodyOf body = Some (cases, d) -> caseFor (b kw) cases = Some {{ Set_ f Cur }} -> b kw <> [] -> tok (S i) = b kw ->
      run fuel body (St o vr false i) = Go (St (fset f (VStr (b kw)) o) vr false (S i)).
  Proof.
    intros fuel body cases d kw f o vr i HB C NE T. assert (N : tok (S i) <> []) by congruence.
    rewrite (body_run toks pf _ _ _ _ _ HB), pick_for. cbn [s_idx setIdx]. rewrite T, C, (next_word toks EN _ N), run_one. cbn [A2lIR.exec eval s_idx].
    cbn [setIdx s_idx]. change (current toks (S i)) with (tok (S i)). rewrite T. reflexivity.
  Qed.

  (** ** OVERWRITE *)
  Definition overParams : list param := match overwriteRead with Block _ ps _ _ _ _ => ps | _ => [] end.
  Definition overAbs (ps : list param) (o : fields) : Prop :=
    exists m, m <= 2 /\ ps = skipn m overParams /\ fbool "nameSet" o = (0 <? m)%nat /\ fbool "axisNumberSet" o = (1 <? m)%nat.
  Lemma stored_kw : forall kw f, In (kw, f) stored -> isKeyword (b kw) = true /\ b kw <> [] /\ b kw <> b "/end OVERWRITE".
  Proof. intros kw f [I|[I|[]]]; injection I as <- <-; (split; [vm_compute; reflexivity|split; discriminate]). Qed.

  Theorem overwrite_exact : forall i v j, i < len -> (returns toks pf parseOverwrite i v false j <-> overwriteObject toks pf overwriteRead i v j).
  Proof.
    intros i v j L. unfold parseOverwrite, overwriteObject, overwriteRead, object.
    assert (TW : forall a o i' a' j' o', overAbs a o -> inTurn toks pf a i' o a' j' o' -> isWord (tok (S i'))).
    { intros a o i' a' j' o' (m & M & PS & _) H. eapply (turn_is toks pf overParams m); eauto. }
    eapply (odd_exact toks pf EN noOwn _ _ _ _ _ _ _ overAbs (fun t => t = b "/end OVERWRITE") (fun i => S i)); try reflexivity; try discriminate.
    - intros t. destruct (list_eq_dec ascii_dec t (b "/end OVERWRITE")); auto.
    - items (no_good toks pf EN).
    - intros a o kw f p sub w (m & M & PS & F1 & F2) IN. cbn [In] in IN.
      repeat (destruct IN as [IN|IN]; [injection IN as <- <- <- <-; exists m; cbn [place_in]; fields; auto 10|]). destruct IN.
    - intros a i0 o a' i' o' E (P & _) _. contradiction.
    - intros fuel s a L0 E0 _ T. eapply stop_run; try reflexivity; try discriminate; assumption.
    - intros a i0 o a1 i1 o1 a2 i2 o2 AB H H'.
      assert (X : forall kw f a3 i3 o3, In (kw, f) stored -> tok (S i0) = b kw -> ~ inTurn toks pf a i0 o a3 i3 o3).
      { intros kw f a3 i3 o3 I E H0. destruct (TW _ _ _ _ _ _ AB H0) as (_ & K). destruct (stored_kw _ _ I) as (K' & _). congruence. }
      inversion H as [? ? ? ? ? ? T|? ? ? kw f I E]; inversion H' as [? ? ? ? ? ? T'|? ? ? kw' f' I' E']; subst.
      + eapply turn_fun; eassumption.
      + exfalso. eapply X; eassumption.
      + exfalso. eapply X; eassumption.
      + rewrite E in E'. apply b_inj in E'. subst kw'. assert (f = f') by (destruct I as [I|[I|[]]]; injection I as <- <-; destruct I' as [I'|[I'|[]]]; injection I'; auto; discriminate). subst. auto.
    - intros fuel a [o vr e si] L0 E0 AB P NE. cbn [s_idx s_err s_obj] in *. subst e.
      destruct (list_eq_dec ascii_dec (tok (S si)) (b "CONVERSION")) as [T1|T1]; [|destruct (list_eq_dec ascii_dec (tok (S si)) (b "INPUT_QUANTITY")) as [T2|T2]].
      + left. exists a, (S si), (fset "conversion" (VStr (b "CONVERSION")) o), vr. split; [eapply key_run; (reflexivity || discriminate || assumption)|].
        split; [apply (ow_keyword toks pf) with (kw := "CONVERSION"); [left; reflexivity|exact T1]|]. split.
        * destruct AB as (m & M & PS & F1 & F2). exists m. fields. auto.
        * assert (N : tok (S si) <> []) by (rewrite T1; discriminate). pose proof (tok_lt toks EN _ N). lia.
      + left. exists a, (S si), (fset "inputQuantity" (VStr (b "INPUT_QUANTITY")) o), vr. split; [eapply key_run; (reflexivity || discriminate || assumption)|].
        split; [apply (ow_keyword toks pf) with (kw := "INPUT_QUANTITY"); [right; left; reflexivity|exact T2]|]. split.
        * destruct AB as (m & M & PS & F1 & F2). exists m. fields. auto.
        * assert (N : tok (S si) <> []) by (rewrite T2; discriminate). pose proof (tok_lt toks EN _ N). lia.
      + assert (NK : forall kw f, In (kw, f) stored -> tok (S si) <> b kw) by (intros kw f [I|[I|[]]]; injection I as <- <-; assumption).
        assert (NW : ~ isWord (tok (S si)) -> noWord (overwrites toks pf) a (St o vr false si)).
        { intros W a' i' o' H. cbn [s_idx s_obj] in H. inversion H as [? ? ? ? ? ? T|? ? ? kw f I E]; subst; [|exact (NK _ _ I E)]. apply W. eapply TW; eassumption. }
        match goal with |- outcome _ _ _ _ _ _ _ (A2lIR.run _ _ _ ?f ?bd ?x) => pose proof (fun H1 H2 => front toks pf EN "/end OVERWRITE" bd _ _ _ _ _ eq_refl eq_refl eq_refl f x L0 H1 H2) as FR end.
        destruct FR as [(T & s' & R & ER)|[(T & K & s' & R & ER)|(W & R)]]; [|exact NE| | |].
        * cbn [s_idx]. destruct P as (_ & P). cbn [caseFor].
          rewrite (proj2 (beqb_neq _ _) T1), (proj2 (beqb_neq _ _) T2).
          repeat match goal with |- (if beqb ?x ?y then _ else _) = _ => let E := fresh in destruct (beqb x y) eqn:E;
            [exfalso; apply beqb_eq in E; eapply P; [|exact E]; cbn [In]; repeat (first [left; reflexivity|right])|clear E] end. reflexivity.
        * right. left. split; [apply NW; intros (X & _); contradiction|]. exists s'. split; [exact R|exact ER].
        * right. left. split; [apply NW; intros (_ & X); cbn [s_idx] in K; congruence|]. exists s'. split; [exact R|exact ER].
        * rewrite R. clear R. unfold setIdx. cbn [s_idx setIdx s_obj s_var s_err] in *. pose proof (tok_lt toks EN _ (proj1 W)) as LT. destruct AB as (m & M & -> & F1 & F2).
          assert (DONE : forall p m' kb, nth_error overParams m' = Some p -> m' < 2 ->
              (forall v, overAbs (skipn (S m') overParams) (store true o (p, v))) ->
              ((exists v vr', fits pf (p_type p) (tok (S si)) v /\ run fuel kb (St o vr false (S si)) = Go (St (store true o (p, v)) vr' false (S si)))
               \/ (forall v, ~ fits pf (p_type p) (tok (S si)) v) /\ exists s', run fuel kb (St o vr false (S si)) = Out s' /\ s_err s' = true) ->
              forall bd, outcome toks pf (overwrites toks pf) bd overAbs (skipn m' overParams) (St o vr false si) (run fuel kb (St o vr false (S si)))).
          { intros p m' kb NP LM AB [(v0 & vr' & F & R)|(NF & s' & R & ER)] bd.
            - left. exists (skipn (S m') overParams), (S si), (store true o (p, v0)), vr'. cbn [s_idx s_obj]. rewrite (skipn_cons _ _ _ _ NP). split; [exact R|].
              split; [constructor; constructor; exact F|]. split; [apply AB|lia].
            - right. left. split; [|eauto]. intros a' i' o' X. cbn [s_idx s_obj] in X. rewrite (skipn_cons _ _ _ _ NP) in X. inversion X as [? ? ? ? ? ? T|? ? ? kw f I E]; subst; [|exact (NK _ _ I E)].
              inversion T; subst. eapply NF. eassumption. }
          assert (PS : forall p kb, isStore true p kb = Some false -> isAny p = false ->
              ((exists v vr', fits pf (p_type p) (tok (S si)) v /\ run fuel kb (St o vr false (S si)) = Go (St (store true o (p, v)) vr' false (S si)))
               \/ (forall v, ~ fits pf (p_type p) (tok (S si)) v) /\ exists s', run fuel kb (St o vr false (S si)) = Out s' /\ s_err s' = true)).
          { intros p kb IS NA. exact (param_step toks pf fuel p kb (St o vr false (S si)) si IS NA eq_refl eq_refl W). }
          destruct m as [|[|[|m]]]; [| | |lia].
          -- rewrite run_one, exec_if. cbn [test s_obj]. rewrite F1. cbn [negb Nat.ltb Nat.leb]. eapply DONE; [reflexivity|lia| |apply PS; reflexivity].
             intros w. exists 1. fields. auto.
          -- rewrite run_one, exec_if. cbn [test s_obj]. rewrite F1. cbn [negb Nat.ltb Nat.leb]. rewrite run_one, exec_if. cbn [test s_obj]. rewrite F2. cbn [negb Nat.ltb Nat.leb].
             eapply DONE; [reflexivity|lia| |apply PS; reflexivity]. intros w. exists 2. fields. auto.
          -- rewrite run_one, exec_if. cbn [test s_obj]. rewrite F1. cbn [negb Nat.ltb Nat.leb]. rewrite run_one, exec_if. cbn [test s_obj]. rewrite F2. cbn [negb Nat.ltb Nat.leb].
             left. exists [], (S si), o, vr. cbn [s_idx s_obj]. split; [reflexivity|]. split; [constructor; constructor; exact W|]. split; [|lia]. exists 2. auto.
    - exact L.
    - exists 0. cbn. auto.
  Qed.

  (** ** FRAME *)
  Theorem frame_exact : forall i v j, i < len -> (returns toks pf parseFrame i v false j <-> frameObject toks pf frameRead i v j).
  Proof.
    intros i v j L. unfold parseFrame, frameObject, frameRead.
    set (ends := fun t : bytes => t = b "/end FRAME" \/ t = []).
    match goal with |- (_ <-> exists i' o, rounds _ _ _ ?it ?st _ _ _ _ _ _ _ /\ _) =>
      assert (M : returns toks pf parseFrame i v false j <->
        exists a' i' o, rounds toks pf noOwn it st (names toks) tt i [] a' i' o /\ ends (tok (S i')) /\ v = VObj (consts [] o) /\ j = Nat.min (S i') (len - 1)) end.
    { unfold parseFrame.
      eapply (odd_exact toks pf EN noOwn _ _ (names toks) _ _ _ _ (fun _ o => fbool "nameSet" o = false) ends (fun i => Nat.min (S i) (len - 1)));
        try reflexivity; try discriminate.
      - intros t. unfold ends. destruct (list_eq_dec ascii_dec t (b "/end FRAME")), (list_eq_dec ascii_dec t []); tauto.
      - intros kw f p sub IN; cbn [In] in IN;
    repeat (destruct IN as [IN|IN]; [injection IN as <- <- <- <-; split; [intros [X|X]; discriminate X|]; split; [discriminate|]; split; [exact Logic.I|];
      eexists; split; [reflexivity|]; eexists; split; [|first [left; split; reflexivity|right; eexists; left; split; reflexivity]]; apply (no_good toks pf EN); vm_compute; reflexivity|]); destruct IN.
      - intros a o kw f p sub w F IN. cbn [In] in IN.
        repeat (destruct IN as [IN|IN]; [injection IN as <- <- <- <-; cbn [place_in]; fields; exact F|]). destruct IN.
      - left. reflexivity.
      - intros a i0 o a' i' o' [E|E] (P & _) H; [contradiction|]. inversion H as [? ? W]. destruct W. contradiction.
      - intros fuel [o vr e si] a L0 E0 F EE. cbn [s_idx s_err s_obj s_var] in *. subst e.
        erewrite (body_run toks pf) by reflexivity. rewrite pick_for. cbn [s_idx].
        assert (C : forall t, ends t -> forall X Y, caseFor t (Case "FRAME_MEASUREMENT" X (Case "/begin IF_DATA" Y Default)) = None).
        { intros t [->| ->] X Y; reflexivity. }
        rewrite (C _ EE). rewrite run_one, exec_if. cbn [test s_idx setIdx]. rewrite (current_next toks EN _ L0).
        assert (NX : next toks si = Nat.min (S si) (len - 1)).
        { unfold next, moves. destruct (Nat.ltb_spec (S si) len); lia. }
        unfold setIdx. cbn [s_obj s_var s_err]. rewrite NX. destruct (beqb_spec (tok (S si)) (b "")) as [Z|Z].
        + reflexivity.
        + rewrite run_one, exec_if. cbn [test s_idx]. rewrite <- NX, (current_next toks EN _ L0). destruct EE as [T|T]; [|contradiction]. rewrite T, beqb_refl. reflexivity.
      - intros a i0 o a1 i1 o1 a2 i2 o2 F H H'. inversion H; inversion H'; subst. auto.
      - intros fuel a [o vr e si] L0 E0 F P NE. cbn [s_idx s_err s_obj s_var] in *. subst e. destruct a.
        assert (N : tok (S si) <> []) by (intros X; apply NE; right; exact X).
        assert (C : forall X Y, caseFor (tok (S si)) (Case "FRAME_MEASUREMENT" X (Case "/begin IF_DATA" Y Default)) = None).
        { intros X Y. destruct P as (_ & P). cbn [caseFor].
          repeat match goal with |- (if beqb ?x ?y then _ else _) = _ => let E := fresh in destruct (beqb x y) eqn:E;
            [exfalso; apply beqb_eq in E; eapply P; [|exact E]; cbn [In]; repeat (first [left; reflexivity|right])|clear E] end. reflexivity. }
        erewrite (body_run toks pf) by reflexivity. rewrite pick_for. cbn [s_idx]. rewrite C. rewrite (next_word toks EN _ N). unfold setIdx. cbn [s_obj s_var s_err].
        rewrite run_one, exec_if. cbn [test s_idx]. change (current toks (S si)) with (tok (S si)). rewrite (proj2 (beqb_neq _ _) N : beqb (tok (S si)) (b "") = false).
        assert (NS : tok (S si) <> b "/end FRAME") by (intros X; apply NE; left; exact X).
        rewrite run_one, exec_if. cbn [test s_idx]. change (current toks (S si)) with (tok (S si)). rewrite (proj2 (beqb_neq _ _) NS).
        rewrite run_one, exec_if. cbn [test s_idx]. change (current toks (S si)) with (tok (S si)). destruct (isKeyword (tok (S si))) eqn:K.
        + right. left. split; [|eexists; split; reflexivity]. intros a' i' o' H. cbn [s_idx s_obj] in H. inversion H as [? ? (_ & W)]. congruence.
        + left. exists tt, (S si). eexists _, vr. rewrite run_one, exec_if. cbn [test s_obj]. rewrite F. cbn [negb]. split; [reflexivity|]. cbn [s_idx s_obj].
          split; [constructor; split; assumption|]. split; [fields; exact F|]. pose proof (tok_lt toks EN _ N). lia.
      - exact L. }
    fold parseFrame. rewrite M. cbn [consts]. split.
    - intros ([] & i' & o & RR & EE & E1 & E2). exists i', o. auto.
    - intros (i' & o & RR & EE & E1 & E2). exists tt, i', o. auto.
  Qed.

  (** ** BIT_OPERATION *)
  Definition bitItems : list item := match bitOperationForm with Block _ _ _ its _ _ => its | _ => [] end.
  Definition bitBody : block := match parseBitOperation with Loop _ body => body | _ => Skip end.
  Definition bitStop : string := "/end BIT_OPERATION".
  Lemma bit_items : forall kw f p sub, In (Item kw f p sub) bitItems -> exists g, good toks pf noOwn g sub /\ b kw <> [] /\ b kw <> b bitStop /\ match p with Under _ => False | _ => True end /\
      forall fuel s, s_idx s < len -> tok (S (s_idx s)) = b kw ->
        match call fuel g (S (s_idx s)) with
        | Ret v false j => exists vr, run fuel bitBody s = Go (St (place_in p f v (s_obj s)) vr false j)
        | Ret v true j => exists s', run fuel bitBody s = Out s' /\ s_err s' = true
        | FBad => run fuel bitBody s = Bad
        | FFuel => run fuel bitBody s = Fuel
        end.
  Proof.
    intros kw f p sub IN.
    assert (G : b kw <> b bitStop /\ b kw <> [] /\ match p with Under _ => False | _ => True end /\
       exists cases d kb, bodyOf bitBody = Some (cases, d) /\ caseFor (b kw) cases = Some kb /\ itemCase toks pf noOwn kb f p sub).
    { revert IN. unfold bitItems, bitOperationForm. intros IN. cbn [In] in IN.
      repeat (destruct IN as [IN|IN]; [injection IN as <- <- <- <-; split; [discriminate|]; split; [discriminate|]; split; [exact Logic.I|];
      eexists _, _, _; split; [reflexivity|]; split; [reflexivity|]; eexists; split; [|first [left; split; reflexivity|right; eexists; left; split; reflexivity]]; apply (no_good toks pf EN); vm_compute; reflexivity|]); destruct IN. }
    destruct G as (NS & NE & U & cases & d & kb & HB & CF & g & G & SH). exists g. split; [exact G|]. split; [exact NE|]. split; [exact NS|]. split; [exact U|].
    intros fuel s L T. assert (N : tok (S (s_idx s)) <> []) by congruence.
    assert (R : run fuel bitBody s = run fuel kb (setIdx (S (s_idx s)) s)).
    { rewrite (body_run toks pf _ _ _ _ _ HB), pick_for, T, CF, (next_word toks EN _ N). reflexivity. }
    rewrite R. exact (A2lOddThm.item_run toks pf fuel g kb f p (setIdx (S (s_idx s)) s) SH U).
  Qed.
  Lemma bit_other : forall fuel s, s_idx s < len -> (forall kw f p sub, In (Item kw f p sub) bitItems -> tok (S (s_idx s)) <> b kw) ->
      run fuel bitBody s =
        if beqb (tok (S (s_idx s))) [] then Out (St (s_obj s) (s_var s) true (next toks (s_idx s)))
        else if beqb (tok (S (s_idx s))) (b bitStop) then Out (St (s_obj s) (s_var s) (s_err s) (S (s_idx s)))
        else Go (St (s_obj s) (s_var s) (if isKeyword (tok (S (s_idx s))) then true else s_err s) (S (s_idx s))).
  Proof.
    intros fuel [o vr e si] L P. cbn [s_idx s_err s_obj s_var] in *. unfold bitBody, parseBitOperation.
    erewrite (body_run toks pf) by reflexivity. rewrite pick_for. cbn [s_idx].
    assert (C : forall X Y Z, caseFor (tok (S si)) (Case "LEFT_SHIFT" X (Case "RIGHT_SHIFT" Y (Case "SIGN_EXTEND" Z Default))) = None).
    { intros X Y Z. cbn [caseFor].
      repeat match goal with |- (if beqb ?x ?y then _ else _) = _ => let E := fresh in destruct (beqb x y) eqn:E;
        [exfalso; apply beqb_eq in E; eapply P; [|exact E]; cbn [In bitItems bitOperationForm]; repeat (first [left; reflexivity|right])|clear E] end. reflexivity. }
    rewrite C. rewrite run_one, exec_if. cbn [test s_idx setIdx]. rewrite (current_next toks EN _ L). change (b "") with (@nil ascii).
    destruct (beqb_spec (tok (S si)) []) as [Z|Z]; [reflexivity|]. rewrite (next_word toks EN _ Z). unfold setIdx. cbn [s_obj s_var s_err].
    rewrite run_one, exec_if. cbn [test s_idx]. change (current toks (S si)) with (tok (S si)). unfold bitStop. destruct (beqb (tok (S si)) (b "/end BIT_OPERATION")); [reflexivity|].
    rewrite run_one, exec_if. cbn [test s_idx]. change (current toks (S si)) with (tok (S si)). destruct (isKeyword (tok (S si))); reflexivity.
  Qed.
  Notation bits := (bits toks pf noOwn bitItems bitStop).
  Lemma is_item : forall t, (exists kw f p sub, In (Item kw f p sub) bitItems /\ t = b kw) \/ forall kw f p sub, In (Item kw f p sub) bitItems -> t <> b kw.
  Proof.
    intros t. induction bitItems as [|[kw f p sub] l IH]; [right; intros ? ? ? ? []|].
    destruct (list_eq_dec ascii_dec t (b kw)) as [E|E]; [left; exists kw, f, p, sub; split; [left; reflexivity|exact E]|].
    destruct IH as [(kw' & f' & p' & sub' & I & E')|IH]; [left; exists kw', f', p', sub'; split; [right; exact I|exact E']|].
    right. intros kw' f' p' sub' [I|I]; [injection I as <- <- <- <-; exact E|eapply IH; exact I].
  Qed.
  Lemma bit_sound : forall fuel x s s', s_idx s < len -> iter x (run fuel bitBody) s = Go s' -> s_err s' = false ->
      exists i o, bits (s_err s) (s_idx s) (s_obj s) false i o /\ tok (S i) = b bitStop /\ s_obj s' = o /\ s_idx s' = S i.
  Proof.
    intros fuel x. induction x as [|x IH]; intros s s' L H ER; [discriminate|]. cbn [iter] in H.
    destruct (is_item (tok (S (s_idx s)))) as [(kw & f & p & sub & I & T)|P].
    - destruct (bit_items _ _ _ _ I) as (g & G & NE & _ & _ & R). specialize (R fuel s L T). assert (N : tok (S (s_idx s)) <> []) by congruence. pose proof (tok_lt toks EN _ N) as LT.
      destruct (call fuel g (S (s_idx s))) as [v [|] j| |] eqn:C.
      + destruct R as (s1 & R & E1). rewrite R in H. injection H as ->. congruence.
      + destruct R as (vr & R). rewrite R in H. destruct (G (S (s_idx s)) v j ltac:(lia) N) as [G1 G2].
        assert (RD : reads toks pf noOwn sub (S (s_idx s)) v j) by (apply G1; eapply returns_run; exact C).
        destruct (IH (St (place_in p f v (s_obj s)) vr false j) s' (G2 RD) H ER) as (i & o & RR & REST). cbn [s_idx s_obj s_err] in RR.
        exists i, o. split; [|exact REST]. eapply bi_item; eauto.
      + rewrite R in H. discriminate.
      + rewrite R in H. discriminate.
    - rewrite (bit_other fuel s L P) in H. destruct (beqb_spec (tok (S (s_idx s))) []) as [Z|Z]; [injection H as <-; discriminate ER|].
      pose proof (tok_lt toks EN _ Z) as LT. destruct (beqb_spec (tok (S (s_idx s))) (b bitStop)) as [Q|Q].
      + injection H as <-. cbn [s_err s_obj s_idx] in *. exists (s_idx s), (s_obj s). rewrite ER. split; [constructor|]. auto.
      + match type of H with iter _ _ ?s1 = _ => assert (L1 : s_idx s1 < len) by (cbn [s_idx]; lia); destruct (IH s1 s' L1 H ER) as (i & o & RR & REST) end. cbn [s_idx s_obj s_err] in RR. exists i, o. split; [|exact REST].
        destruct (isKeyword (tok (S (s_idx s)))) eqn:K; [eapply bi_keyword|eapply bi_word]; try exact RR; try split; try assumption.
  Qed.
  Lemma bit_complete : forall e i o e' i' o', bits e i o e' i' o' -> i < len ->
      (exists N c, forall fuel vr, N <= fuel -> exists vr', forall x, iter (c + x) (run fuel bitBody) (St o vr e i) = iter x (run fuel bitBody) (St o' vr' e' i')) /\ i' < len.
  Proof.
    induction 1 as [e i o|e i o e' j o' W PL _ IH|e i o e' j o' K PL _ IH|e i o kw f p sub v k e' j o' I T RD _ IH]; intros L.
    - split; [|auto]. exists 0, 0. intros fuel vr _. exists vr. reflexivity.
    - pose proof (tok_lt toks EN _ (proj1 W)) as LT. destruct (IH ltac:(lia)) as ((N & c & R) & L'). split; [|exact L'].
      exists N, (S c). intros fuel vr LF. destruct (R fuel vr LF) as (vr' & E). exists vr'. intros x. cbn [plus iter].
      rewrite (bit_other fuel (St o vr e i) L (proj2 PL)). cbn [s_idx s_obj s_var s_err]. rewrite (proj2 (beqb_neq _ _) (proj1 W)), (proj2 (beqb_neq _ _) (proj1 PL)), (proj2 W). apply E.
    - assert (N0 : tok (S i) <> []) by (intros X; rewrite X in K; vm_compute in K; discriminate).
      pose proof (tok_lt toks EN _ N0) as LT. destruct (IH ltac:(lia)) as ((N & c & R) & L'). split; [|exact L'].
      exists N, (S c). intros fuel vr LF. destruct (R fuel vr LF) as (vr' & E). exists vr'. intros x. cbn [plus iter].
      rewrite (bit_other fuel (St o vr e i) L (proj2 PL)). cbn [s_idx s_obj s_var s_err]. rewrite (proj2 (beqb_neq _ _) N0), (proj2 (beqb_neq _ _) (proj1 PL)), K. apply E.
    - destruct (bit_items _ _ _ _ I) as (g & G & NE & _ & _ & R). assert (N : tok (S i) <> []) by congruence. pose proof (tok_lt toks EN _ N) as LT.
      destruct (G (S i) v k ltac:(lia) N) as [G1 G2]. destruct (IH (G2 RD)) as ((N1 & c & R1) & L2). split; [|exact L2].
      destruct (proj2 G1 RD) as (N0 & CA). exists (Nat.max N0 N1), (S c). intros fuel vr LF. specialize (R fuel (St o vr e i) L T). cbn [s_idx s_obj] in R. rewrite (CA fuel ltac:(lia)) in R.
      destruct R as (vr1 & E1). destruct (R1 fuel vr1 ltac:(lia)) as (vr2 & E2). exists vr2. intros x. cbn [plus iter]. rewrite E1. apply E2.
  Qed.
  Theorem bit_exact : forall i v j, i < len -> (returns toks pf parseBitOperation i v false j <-> bitObject toks pf bitOperationForm i v j).
  Proof.
    intros i v j L. change (bitObject toks pf bitOperationForm i v j) with (exists i' o, bits false i [] false i' o /\ tok (S i') = b bitStop /\ v = VObj o /\ j = S i').
    change parseBitOperation with (Loop Skip bitBody). split.
    - intros (N & R). specialize (R N (le_n _)). rewrite call_loop in R.
      change (run N Skip (St [] [] false i)) with (Go (St [] [] false i)) in R. cbv beta iota in R.
      destruct (iter N (run N bitBody) (St [] [] false i)) as [s'|s'| |] eqn:IT; try discriminate.
      + injection R as <- ER <-. destruct (bit_sound N N (St [] [] false i) s' L IT ER) as (i' & o & RR & SA & OB & IX).
        exists i', o. rewrite OB, IX. auto.
      + exfalso. exact (A2lExploreThm.iter_noout _ _ _ _ IT).
    - intros (i' & o & RR & SA & -> & ->). destruct (bit_complete _ _ _ _ _ _ RR L) as ((N & c & R) & L').
      exists (Nat.max N (S c)). intros fuel LF. rewrite call_loop.
      change (run fuel Skip (St [] [] false i)) with (Go (St [] [] false i)). cbv beta iota.
      destruct (R fuel [] ltac:(lia)) as (vr & RQ). replace fuel with (c + S (fuel - S c)) at 1 by lia. rewrite RQ. cbn [iter].
      assert (P : forall kw f p sub, In (Item kw f p sub) bitItems -> tok (S i') <> b kw).
      { intros kw f p sub I X. destruct (bit_items _ _ _ _ I) as (_ & _ & _ & NS & _). congruence. }
      rewrite (bit_other fuel (St o vr false i') L' P). cbn [s_idx s_obj s_var s_err]. rewrite SA, beqb_refl. reflexivity.
  Qed.
End Rest.
