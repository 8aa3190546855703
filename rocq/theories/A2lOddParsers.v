(** The nine special parsers. *)
From Coq Require Import String Ascii List Arith NArith ZArith Bool Lia SpecFloat.
From Verif Require Import GoBase GoBaseFacts A2lModModel A2lModSpec A2lModProps A2lProps A2lIR A2lTokens A2lSpec A2lGrammar A2lForms A2lParsers A2lCheck
  A2lExactSpec A2lExact A2lExactThm A2lOddSpec A2lOddThm.
From Verif Require A2lExploreThm OriginProps A2lStrictProps.
Import ListNotations.
Local Open Scope string_scope.
Local Open Scope list_scope.

Lemma flist_set : forall f g v o, flist f (fset g v o) = if String.eqb f g then match v with VList l => l | _ => [] end else flist f o.
Proof.
  intros f g v o. unfold flist. destruct (String.eqb_spec f g) as [->|N]; [rewrite fget_set|rewrite fget_other by exact N]; reflexivity.
Qed.
Lemma fint_set : forall f g v o, fint f (fset g v o) = if String.eqb f g then match v with VInt z => z | _ => 0%Z end else fint f o.
Proof.
  intros f g v o. unfold fint. destruct (String.eqb_spec f g) as [->|N]; [rewrite fget_set|rewrite fget_other by exact N]; reflexivity.
Qed.

Lemma nodup_left : forall A (l l' : list A), NoDup (l ++ l') -> NoDup l.
Proof.
  intros A l l' H. induction l as [|x l IH]; [constructor|]. cbn in H. inversion H as [|? ? N ND]; subst. constructor; [|apply IH, ND].
  intros I. apply N, in_or_app. left. exact I.
Qed.
Lemma nodup_right : forall A (l l' : list A), NoDup (l ++ l') -> NoDup l'.
Proof. intros A l l' H. induction l as [|x l IH]; [exact H|]. cbn in H. inversion H; subst. apply IH. assumption. Qed.

Section Odd.
  Variable toks : list bytes.
  Variable pf : bytes -> option spec_float.
  Hypothesis EN : ended toks.

  Notation tok := (tok toks).
  Notation len := (List.length toks).
  Notation run := (run isKeyword toks pf).
  Notation exec := (exec isKeyword toks pf).
  Notation call := (call isKeyword toks pf).
  Notation run_seq := (A2lExactThm.run_seq toks pf).
  Notation run_one := (A2lExactThm.run_one toks pf).
  Notation fits := (fits pf).
  Notation isWord := (isWord).

  Lemma fits_fun : forall ty t v v', fits ty t v -> fits ty t v' -> v = v'.
  Proof. intros [| |n|l] t v v' (_ & F) (_ & F'); cbn in F, F'; intuition congruence. Qed.
  Lemma fits_word : forall ty t v, match ty with Any => False | _ => True end -> fits ty t v -> isWord t.
  Proof. intros [| |n|l] t v H (N & F); try contradiction; (split; [exact N|apply F]). Qed.
  Lemma cells_fun : forall ps i vs vs', cells toks pf ps i vs -> cells toks pf ps i vs' -> vs = vs'.
  Proof.
    induction ps as [|p ps IH]; intros i vs vs' C C'; inversion C; inversion C'; subst; [reflexivity|].
    f_equal; [|eapply IH; eassumption].
    match goal with A : cell _ _ _ _, B : cell _ _ _ _ |- _ => unfold cell in A, B; destruct (p_type p); congruence end.
  Qed.

  (** ** Loops in which words are looked at if they are no keywords *)
  Section Simple.
    Variable own : string -> nat -> val -> nat -> Prop.
    Context {A : Type}.
    Variable its : list item.
    Variable stop : string.
    Variable word : A -> nat -> fields -> A -> nat -> fields -> Prop.
    Variable cs : list (string * const).
    Variable body : block.
    Variable cases : cases.
    Variable d sb d2 k : block.
    Variable abs : A -> fields -> Prop.
    Hypothesis is_body : bodyOf body = Some (cases, d).
    Hypothesis is_eof : eofOf d = Some {{ If (CurIs stop) sb d2 }}.
    Hypothesis is_sb : setsOf sb = Some cs.
    Hypothesis is_kw : kwTest d2 = Some k.
    Hypothesis not_empty : stop <> "".
    Hypothesis H_item : forall kw f p sub, In (Item kw f p sub) its ->
        b kw <> b stop /\ b kw <> [] /\ match p with Under _ => False | _ => True end /\ exists kb, caseFor (b kw) cases = Some kb /\ itemCase toks pf own kb f p sub.
    Hypothesis H_case : forall t kb, caseFor t cases = Some kb -> exists kw f p sub, In (Item kw f p sub) its /\ t = b kw.
    Hypothesis abs_item : forall a o kw f p sub v, abs a o -> In (Item kw f p sub) its -> abs a (place_in p f v o).
    Hypothesis word_fun : forall a i o a1 i1 o1 a2 i2 o2, word a i o a1 i1 o1 -> word a i o a2 i2 o2 -> a1 = a2 /\ i1 = i2 /\ o1 = o2.
    Hypothesis word_is : forall a i o a' i' o', abs a o -> word a i o a' i' o' -> isWord (tok (S i)).
    Hypothesis H_k : forall fuel a s i, s_idx s = S i -> S (S i) < len -> s_err s = false -> abs a (s_obj s) -> isWord (tok (S i)) ->
        (exists a' i' o' vr, run fuel k s = Go (St o' vr false i') /\ word a i (s_obj s) a' i' o' /\ abs a' o' /\ i' < len)
        \/ (forall a' i' o', ~ word a i (s_obj s) a' i' o') /\
           ((exists s', run fuel k s = Out s' /\ s_err s' = true)
            \/ exists s', run fuel k s = Go s' /\ s_idx s' < len /\ s_err s' = false /\ tok (S (s_idx s')) = []).

    Lemma front : forall fuel s, s_idx s < len -> caseFor (tok (S (s_idx s))) cases = None -> tok (S (s_idx s)) <> b stop ->
        (tok (S (s_idx s)) = [] /\ exists s', run fuel body s = Out s' /\ s_err s' = true)
        \/ (tok (S (s_idx s)) <> [] /\ isKeyword (tok (S (s_idx s))) = true /\ exists s', run fuel body s = Out s' /\ s_err s' = true)
        \/ (isWord (tok (S (s_idx s))) /\ run fuel body s = run fuel k (setIdx (S (s_idx s)) s)).
    Proof.
      intros fuel s L C N. rewrite (body_run toks pf _ _ _ _ _ is_body), pick_for, C, (eof_run _ _ _ _ _ _ is_eof).
      cbn [s_idx setIdx]. rewrite (current_next toks EN _ L).
      destruct (list_eq_dec ascii_dec (tok (S (s_idx s))) []) as [E|E].
      - left. split; [exact E|]. rewrite E. cbn. eexists. split; reflexivity.
      - right. rewrite (proj2 (beqb_neq _ _) E), run_one, exec_if. cbn [test s_idx setIdx]. rewrite (current_next toks EN _ L), (proj2 (beqb_neq _ _) N).
        rewrite (kwTest_run _ _ _ _ _ _ is_kw). cbn [s_idx setIdx]. rewrite (current_next toks EN _ L), (next_word toks EN _ E).
        destruct (isKeyword (tok (S (s_idx s)))) eqn:K.
        + left. split; [exact E|]. split; [reflexivity|]. eexists. split; reflexivity.
        + right. split; [split; assumption|reflexivity].
    Qed.
    Lemma case_plain : forall t, plain its stop t -> caseFor t cases = None.
    Proof.
      intros t (_ & P). destruct (caseFor t cases) as [kb|] eqn:C; [|reflexivity]. destruct (H_case _ _ C) as (kw & f & p & sub & I & E). exfalso. exact (P _ _ _ _ I E).
    Qed.

    Theorem simple_exact : forall a i v j, i < len -> abs a [] ->
        (returns toks pf (Loop Skip body) i v false j <-> object toks pf own its stop word cs a i v j).
    Proof.
      intros a i v j L AB. unfold object.
      apply (odd_exact toks pf EN own its stop word cs body cases d abs (fun t => t = b stop) (fun i => S i)); auto.
      - intros t. destruct (list_eq_dec ascii_dec t (b stop)); auto.
      - intros a0 i0 o a' i' o' E (P & _) _. contradiction.
      - intros fuel s a0 L0 E0 AB0 T. assert (N : tok (S (s_idx s)) <> []) by (rewrite T; intros X; apply not_empty, b_inj; exact X).
        assert (C : caseFor (tok (S (s_idx s))) cases = None).
        { destruct (caseFor (tok (S (s_idx s))) cases) as [kb|] eqn:C; [|reflexivity]. destruct (H_case _ _ C) as (kw & f & p & sub & I & E).
          destruct (H_item _ _ _ _ I) as (NS & _). congruence. }
        rewrite (body_run toks pf _ _ _ _ _ is_body), pick_for, C, (eof_run _ _ _ _ _ _ is_eof). cbn [s_idx setIdx]. rewrite (current_next toks EN _ L0), (proj2 (beqb_neq _ _) N).
        rewrite run_one, exec_if. cbn [test s_idx setIdx]. rewrite (current_next toks EN _ L0), T, beqb_refl, (sets_run _ _ _ _ _ _ is_sb), (next_word toks EN _ N).
        destruct s as [o0 v0 e0 i0]. cbn [s_obj s_var s_err s_idx setIdx] in *. rewrite E0. reflexivity.
      - intros a0 i0 o0 a1 i1 o1 a2 i2 o2 _. apply word_fun.
      - intros fuel a0 s L0 E0 AB0 P NE. destruct (front fuel s L0 (case_plain _ P) NE) as [(T & s' & R & ER)|[(T & K & s' & R & ER)|(W & R)]].
        + right. left. split; [|exists s'; auto]. intros a' i' o' X. apply word_is in X; [|exact AB0]. destruct X as (X & _). contradiction.
        + right. left. split; [|exists s'; auto]. intros a' i' o' X. apply word_is in X; [|exact AB0]. destruct X as (_ & X). congruence.
        + pose proof (tok_lt toks EN _ (proj1 W)) as LT.
          destruct (H_k fuel a0 (setIdx (S (s_idx s)) s) (s_idx s) eq_refl LT E0 AB0 W) as [(a' & i' & o' & vr & Q & WD & AB' & L')|(NW & [(s' & Q & ER)|(s' & Q & L' & E' & T')])].
          * left. exists a', i', o', vr. rewrite R. auto.
          * right. left. split; [exact NW|]. exists s'. rewrite R. auto.
          * right. right. split; [exact NW|]. exists s'. rewrite R. split; [exact Q|]. intros fuel'.
            assert (NS : tok (S (s_idx s')) <> b stop) by (rewrite T'; intros X; apply not_empty, b_inj; symmetry; exact X).
            assert (C : caseFor (tok (S (s_idx s'))) cases = None).
            { destruct (caseFor (tok (S (s_idx s'))) cases) as [kb|] eqn:C; [|reflexivity]. destruct (H_case _ _ C) as (kw & f & p & sub & I & E).
              destruct (H_item _ _ _ _ I) as (_ & N0 & _). rewrite T' in E. symmetry in E. contradiction. }
            destruct (front fuel' s' L' C NS) as [(_ & X)|[(X & _)|(X & _)]]; [exact X|contradiction|]. destruct X as (X & _). contradiction.
    Qed.
  End Simple.

  (** ** Objects inside *)

  Notation NO := (noOwn).
  Lemma no_good : forall g f, shapeFn (fun _ => None) g f = true -> good toks pf noOwn g f.
  Proof.
    intros g f H. assert (OL : forall stop i v j, In stop special -> i < len -> noOwn stop i v j -> j < len) by (intros ? ? ? ? _ _ []).
    assert (OI : forall stop h, In stop special -> (fun _ : string => @None fn) stop = Some h -> forall i v j, i < len -> tok i <> [] ->
       (noOwn stop i v j <-> returns toks pf h i v false j)) by (intros; discriminate).
    destruct (all_good toks pf EN noOwn OL (fun _ => None) OI) as (_ & _ & _ & G). exact (G g f H).
  Qed.

  Ltac items good := intros kw f p sub IN; cbn [In] in IN;
    repeat (destruct IN as [IN|IN]; [injection IN as <- <- <- <-; split; [discriminate|]; split; [discriminate|]; split; [exact Logic.I|];
      eexists; split; [reflexivity|]; eexists; split; [|first [left; split; reflexivity|right; eexists; left; split; reflexivity]]; apply good; vm_compute; reflexivity|]); destruct IN.
  Ltac cases_only := intros t kb C; cbn [caseFor] in C;
    repeat match type of C with (if beqb ?x ?y then _ else _) = _ => let E := fresh "E" in destruct (beqb x y) eqn:E;
      [apply beqb_eq in E; subst t; eexists _, _, _, _; split; [|reflexivity]; cbn [In]; repeat (first [left; reflexivity|right])|clear E] end; discriminate.

  (** a parameter *)
  Lemma param_step : forall fuel p kb s i, isStore true p kb = Some false -> isAny p = false -> s_idx s = S i -> s_err s = false -> isWord (tok (S i)) ->
      (exists v vr, fits (p_type p) (tok (S i)) v /\ run fuel kb s = Go (St (store true (s_obj s) (p, v)) vr false (S i)))
      \/ (forall v, ~ fits (p_type p) (tok (S i)) v) /\ exists s', run fuel kb s = Out s' /\ s_err s' = true.
  Proof.
    intros fuel p kb s i IS NA SI E (NE & K). pose proof (isStore_run toks pf true fuel p kb false s IS E) as R. rewrite SI in R. change (current toks (S i)) with (tok (S i)) in R.
    specialize (R (or_introl K)). destruct (wordVal pf (p_type p) (tok (S i))) as [v|] eqn:WV; cbn [A2lExactThm.stored] in R.
    - left. destruct R as (vr & ->). exists v, vr. rewrite SI. split; [|reflexivity]. apply fits_val; assumption.
    - right. split.
      + intros v F. apply (fits_val pf _ _ v NE K) in F. congruence.
      + destruct R as (s' & ER & [->|[X _]]); [|discriminate]. eauto.
  Qed.

  Ltac fields := cbn [store put mark fst snd p_how p_field p_flag P]; repeat (rewrite ?fbool_set, ?flist_set, ?fint_set; cbn [String.eqb Ascii.eqb Bool.eqb]).
  Ltac into F := rewrite run_one, exec_if; cbn [test]; rewrite F; cbn [negb Nat.ltb Nat.leb].

  Lemma turn_fun : forall a i o a1 i1 o1 a2 i2 o2, inTurn toks pf a i o a1 i1 o1 -> inTurn toks pf a i o a2 i2 o2 -> a1 = a2 /\ i1 = i2 /\ o1 = o2.
  Proof.
    intros a i o a1 i1 o1 a2 i2 o2 H H'. inversion H; inversion H'; subst; try discriminate; auto.
    match goal with E : _ :: _ = _ :: _ |- _ => injection E as -> -> end.
    match goal with A : fits _ _ ?v, B : fits _ _ ?w |- _ => assert (v = w) by (eapply fits_fun; eassumption); subst end. auto.
  Qed.
  Lemma turn_is : forall all m a i o a' i' o', forallb (fun p => negb (isAny p)) all = true -> a = skipn m all -> inTurn toks pf a i o a' i' o' -> isWord (tok (S i)).
  Proof.
    intros all m a i o a' i' o' NA E H. inversion H as [p ps i0 o0 v F|]; subst; [|assumption].
    assert (IN : In p all) by (rewrite <- (firstn_skipn m all), <- H0; apply in_or_app; right; left; reflexivity).
    rewrite forallb_forall in NA. specialize (NA p IN). apply negb_true_iff in NA. unfold isAny in NA. eapply fits_word; [|exact F]. destruct (p_type p); try exact Logic.I. discriminate.
  Qed.

  (** ** MEMORY_LAYOUT *)
  Definition layoutParams : list param := match memoryLayoutForm with Block _ ps _ _ _ _ => ps | _ => [] end.
  Definition layoutAbs (ps : list param) (o : fields) : Prop :=
    exists m, m <= 8 /\ ps = skipn m layoutParams /\ fbool "prgTypeSet" o = (0 <? m)%nat /\ fbool "addressSet" o = (1 <? m)%nat /\ fbool "sizeSet" o = (2 <? m)%nat
      /\ fbool "offsetSet" o = (7 <? m)%nat /\ List.length (flist "offset" o) = m - 3.

  (** the five offsets *)
  Lemma offset_step : forall fuel s i n, s_idx s = S i -> s_err s = false -> isWord (tok (S i)) -> List.length (flist "offset" (s_obj s)) = n -> n < 5 ->
      let p := Param Append "offset" (if (n =? 4)%nat then Some "offsetSet" else None) (Number (NInt 32)) in
      let kb := {{ Num "buf" (NInt 32) FromCur; If ErrSet {{ Break }} Skip; App "offset" (Var "buf"); If (LenIs "offset" 5) {{ Set_ "offsetSet" Tru }} Skip }} in
      (exists v vr, fits (p_type p) (tok (S i)) v /\ run fuel kb s = Go (St (store true (s_obj s) (p, v)) vr false (S i)))
      \/ (forall v, ~ fits (p_type p) (tok (S i)) v) /\ exists s', run fuel kb s = Out s' /\ s_err s' = true.
  Proof.
    intros fuel [o vr e si] i n SI E (NE & K) LN N5 p kb. cbn [s_idx s_err s_obj] in *. subst si e. unfold kb. rewrite run_seq. cbn [A2lIR.exec readSrc s_idx].
    change (current toks (S i)) with (tok (S i)). destruct (readNum pf (NInt 32) (tok (S i))) as [w|] eqn:RN.
    - left. exists w. cbn -[readNum]. rewrite fget_set, flist_set, String.eqb_refl, app_length, LN. cbn [List.length].
      assert (X : (n + 1 =? 5)%nat = (n =? 4)%nat) by (apply eq_iff_eq_true; rewrite !Nat.eqb_eq; lia). rewrite X.
      destruct (n =? 4)%nat; eexists; (split; [split; [exact NE|split; [exact K|exact RN]]|reflexivity]).
    - right. split; [intros v (_ & _ & F); cbn [p p_type] in F; congruence|]. eexists. split; reflexivity.
  Qed.

  Theorem layout_exact : forall i v j, i < len -> (returns toks pf parseMemoryLayout i v false j <-> plainObject toks pf memoryLayoutForm i v j).
  Proof.
    intros i v j L. unfold parseMemoryLayout, plainObject, memoryLayoutForm.
    eapply (simple_exact noOwn _ _ _ _ _ _ _ _ _ _ layoutAbs); try reflexivity; try discriminate.
    - items no_good.
    - cases_only.
    - intros a o kw f p sub w (m & M & PS & F1 & F2 & F3 & F4 & FL) [IN|[]]. injection IN as <- <- <- <-. exists m. cbn [place_in]. fields. auto 10.
    - exact turn_fun.
    - intros a i0 o a' i' o' (m & M & PS & _) H. eapply (turn_is layoutParams m); eauto.
    - intros fuel a s i0 SI LT E (m & M & -> & F1 & F2 & F3 & F4 & FL) W.
      assert (DONE : forall p m' kb, nth_error layoutParams m' = Some p -> m' < 8 ->
          (forall v, layoutAbs (skipn (S m') layoutParams) (store true (s_obj s) (p, v))) ->
          ((exists v vr, fits (p_type p) (tok (S i0)) v /\ run fuel kb s = Go (St (store true (s_obj s) (p, v)) vr false (S i0)))
           \/ (forall v, ~ fits (p_type p) (tok (S i0)) v) /\ exists s', run fuel kb s = Out s' /\ s_err s' = true) ->
          (exists a' i' o' vr, run fuel kb s = Go (St o' vr false i') /\ inTurn toks pf (skipn m' layoutParams) i0 (s_obj s) a' i' o' /\ layoutAbs a' o' /\ i' < len)
          \/ (forall a' i' o', ~ inTurn toks pf (skipn m' layoutParams) i0 (s_obj s) a' i' o') /\
             ((exists s', run fuel kb s = Out s' /\ s_err s' = true)
              \/ exists s', run fuel kb s = Go s' /\ s_idx s' < len /\ s_err s' = false /\ tok (S (s_idx s')) = [])).
      { intros p m' kb NP LM AB [(v0 & vr & F & R)|(NF & s' & R & ER)].
        - left. exists (skipn (S m') layoutParams), (S i0), (store true (s_obj s) (p, v0)), vr. rewrite (skipn_cons _ _ _ _ NP). split; [exact R|].
          split; [constructor; exact F|]. split; [apply AB|lia].
        - right. split; [|left; eauto]. intros a' i' o' X. rewrite (skipn_cons _ _ _ _ NP) in X. inversion X; subst. eapply NF. eassumption. }
      destruct m as [|[|[|m]]].
      + into F1. eapply DONE; [reflexivity|lia| |apply param_step; auto; reflexivity]. intros w. exists 1. fields. auto 10 with arith.
      + into F1. into F2. eapply DONE; [reflexivity|lia| |apply param_step; auto; reflexivity]. intros w. exists 2. fields. auto 10 with arith.
      + into F1. into F2. into F3. eapply DONE; [reflexivity|lia| |apply param_step; auto; reflexivity]. intros w. exists 3. fields. auto 10 with arith.
      + into F1. into F2. into F3. rewrite run_one, exec_if. cbn [test]. rewrite F4. replace (7 <? S (S (S m)))%nat with (5 <=? m)%nat by reflexivity.
        replace (S (S (S m)) - 3) with m in FL by lia.
        destruct (Nat.leb_spec 5 m) as [G|G]; cbn [negb].
        * left. exists [], (S i0), (s_obj s), (s_var s). split; [destruct s; cbn in SI, E |- *; subst; reflexivity|].
          assert (M5 : m = 5) by lia. clear DONE. subst m. rewrite M5 in *. split; [constructor; exact W|]. split; [|lia]. exists 8. auto 10.
        * eapply DONE; [| | |apply (offset_step fuel s i0 m SI E W FL G)].
          -- do 5 (destruct m as [|m]; [reflexivity|]). lia.
          -- lia.
          -- intros w. exists (S (S (S (S m)))). fields. do 5 (destruct m as [|m]; [cbn [Nat.eqb]; fields; rewrite ?app_length; cbn [List.length]; rewrite ?FL; auto 10 with arith|]). lia.
    - exact L.
    - exists 0. cbn. auto 10 with arith.
  Qed.

  (** ** Tables *)

  Definition colFlag (c : param) : string := match p_flag c with Some f => f | None => "" end.
  Fixpoint chainK (l : list (string * block)) (row : block) : block :=
    match l with
    | [] => row
    | (f, kb) :: l' => {{ If (NotSet f) kb (chainK l' row) }}
    end.

  Lemma chain_at : forall fuel l row m f kb s, nth_error l m = Some (f, kb) -> (forall q f', nth_error (map fst l) q = Some f' -> fbool f' (s_obj s) = (q <? m)%nat) ->
      run fuel (chainK l row) s = run fuel kb s.
  Proof.
    intros fuel l. induction l as [|[f0 kb0] l IH]; intros row m f kb s N F; [destruct m; discriminate|]. cbn [chainK]. rewrite run_one, exec_if. cbn [test].
    rewrite (F 0 f0 eq_refl). destruct m as [|m]; cbn [negb Nat.ltb Nat.leb].
    - injection N as -> ->. reflexivity.
    - apply (IH row m f kb s N). intros q f' E. rewrite (F (S q) f' E). reflexivity.
  Qed.
  Lemma chain_end : forall fuel l row s, (forall f, In f (map fst l) -> fbool f (s_obj s) = true) -> run fuel (chainK l row) s = run fuel row s.
  Proof.
    intros fuel l. induction l as [|[f0 kb0] l IH]; intros row s F; [reflexivity|]. cbn [chainK]. rewrite run_one, exec_if. cbn [test].
    rewrite (F f0) by (left; reflexivity). cbn [negb]. apply IH. intros f I. apply F. right. exact I.
  Qed.

  Lemma stores_cols : forall m cols vs o, NoDup (map colFlag cols ++ map p_field cols) -> (forall c, In c cols -> p_how c = Append /\ p_flag c = Some (colFlag c)) ->
      List.length vs = List.length cols ->
      (forall f, ~ In f (map colFlag cols ++ map p_field cols) -> fget f (stores m cols vs o) = fget f o)
      /\ forall c, In c cols -> List.length (flist (p_field c) (stores m cols vs o)) = S (List.length (flist (p_field c) o))
                             /\ fbool (colFlag c) (stores m cols vs o) = if m then true else fbool (colFlag c) o.
  Proof.
    intros m cols. induction cols as [|c cols IH]; intros vs o ND FO LE; [destruct vs; [|discriminate]; split; [reflexivity|intros ? []]|].
    destruct vs as [|v vs]; [discriminate|]. cbn [map app] in ND. inversion ND as [|? ? N1 ND1]; subst.
    assert (ND2 : NoDup (map colFlag cols ++ map p_field cols)) by (apply NoDup_remove_1 in ND1; exact ND1).
    assert (N2 : ~ In (p_field c) (map colFlag cols ++ map p_field cols)) by (apply NoDup_remove_2 in ND1; exact ND1).
    assert (N3 : ~ In (colFlag c) (map colFlag cols ++ map p_field cols)).
    { intros X. apply N1. apply in_app_or in X. apply in_or_app. destruct X as [X|X]; [left; exact X|right; right; exact X]. }
    assert (NE : colFlag c <> p_field c) by (intros X; apply N1; rewrite X; apply in_or_app; right; left; reflexivity).
    destruct (FO c (or_introl eq_refl)) as [HW HF].
    assert (LE' : List.length vs = List.length cols) by (injection LE as LE; exact LE).
    destruct (IH vs (store m o (c, v)) ND2 (fun c' I => FO c' (or_intror I)) LE') as [IH1 IH2].
    change (stores m (c :: cols) (v :: vs) o) with (stores m cols vs (store m o (c, v))).
    assert (ST : forall f, f <> colFlag c -> f <> p_field c -> fget f (store m o (c, v)) = fget f o).
    { intros f E1 E2. unfold store. cbn [fst snd]. rewrite HW, HF. cbn [put mark]. destruct m; rewrite ?fget_other by assumption; reflexivity. }
    split.
    - intros f NI. cbn [map] in NI. rewrite IH1.
      + apply ST; intros ->; apply NI; [left; reflexivity|]. cbn [app]. right. apply in_or_app. right. left. reflexivity.
      + intros X. apply NI. cbn [app]. right. apply in_app_or in X. apply in_or_app. destruct X as [X|X]; [left; exact X|right; right; exact X].
    - intros c' [<-|I].
      + unfold flist, fbool. rewrite !IH1 by assumption. unfold store. cbn [fst snd]. rewrite HW, HF. cbn [put mark]. destruct m.
        * rewrite fget_other by (intros X; apply NE; symmetry; exact X). rewrite !fget_set, app_length. cbn [List.length]. split; [apply Nat.add_1_r|reflexivity].
        * rewrite fget_set, app_length. cbn [List.length]. rewrite fget_other by exact NE. split; [apply Nat.add_1_r|reflexivity].
      + destruct (IH2 c' I) as [A B]. rewrite A, B.
        assert (C1 : p_field c' <> colFlag c).
        { intros X. apply N3. rewrite <- X. apply in_or_app. right. apply in_map. exact I. }
        assert (C2 : p_field c' <> p_field c).
        { intros X. apply N2. rewrite <- X. apply in_or_app. right. apply in_map. exact I. }
        assert (C3 : colFlag c' <> colFlag c).
        { intros X. apply N3. rewrite <- X. apply in_or_app. left. apply in_map. exact I. }
        assert (C4 : colFlag c' <> p_field c).
        { intros X. apply N2. rewrite <- X. apply in_or_app. left. apply in_map. exact I. }
        unfold flist, fbool. rewrite !ST by assumption. split; reflexivity.
  Qed.
  Lemma cells_length : forall cols i vs, cells toks pf cols i vs -> List.length vs = List.length cols.
  Proof. induction 1; cbn; congruence. Qed.

  Section Table.
    Variable its : list item.
    Variable stop : string.
    Variable body : block.
    Variable cases : cases.
    Variable d d2 : block.
    Variable all cols : list param.
    Variable links : list (string * block).
    Variable row : block.
    Variable nf : string.
    Hypothesis is_body : bodyOf body = Some (cases, d).
    Hypothesis is_eof : eofOf d = Some {{ If (CurIs stop) {{ Break }} d2 }}.
    Hypothesis is_kw : kwTest d2 = Some (chainK links row).
    Hypothesis not_empty : stop <> "".
    Hypothesis H_item : forall kw f p sub, In (Item kw f p sub) its ->
        b kw <> b stop /\ b kw <> [] /\ match p with Under _ => False | _ => True end /\ exists kb, caseFor (b kw) cases = Some kb /\ itemCase toks pf noOwn kb f p sub.
    Hypothesis H_case : forall t kb, caseFor t cases = Some kb -> exists kw f p sub, In (Item kw f p sub) its /\ t = b kw.
    Hypothesis same_len : List.length links = List.length all.
    Hypothesis some : 0 < List.length all.
    Hypothesis H_link : forall m p f kb, nth_error all m = Some p -> nth_error links m = Some (f, kb) ->
        isStore true p kb = Some false /\ isAny p = false /\ p_flag p = Some f /\ p_how p = One.
    Hypothesis count_last : forall p m, nth_error all m = Some p -> S m = List.length all -> p_field p = nf /\ p_type p = Number (NUint 16).
    Definition tracked : list string := map fst links ++ map colFlag cols ++ map p_field cols.
    Hypothesis nodup : NoDup tracked.
    Hypothesis params_free : forall p, In p all -> ~ In (p_field p) tracked.
    Hypothesis items_free : forall kw f p sub, In (Item kw f p sub) its -> ~ In f tracked /\ f <> nf.
    Hypothesis cols_ok : forall c, In c cols -> p_how c = Append /\ p_flag c = Some (colFlag c).

    Definition tabAbs (a : phase) (o : fields) : Prop :=
      match a with
      | Params ps => exists m, m < List.length all /\ ps = skipn m all /\ (forall q f, nth_error (map fst links) q = Some f -> fbool f o = (q <? m)%nat)
                       /\ forall c, In c cols -> fbool (colFlag c) o = false /\ flist (p_field c) o = []
      | Rows r => (forall f, In f (map fst links) -> fbool f o = true) /\ exists n, fint nf o = n /\ (0 <= n < 65536)%Z
                       /\ match r with
                          | 0 => forall c, In c cols -> fbool (colFlag c) o = true
                          | _ => exists x, r + x = limit n /\ forall c, In c cols -> fbool (colFlag c) o = false /\ List.length (flist (p_field c) o) = x
                          end
      end.

    Hypothesis H_row : forall fuel s i r n x, s_idx s = S i -> S (S i) < len -> s_err s = false -> isWord (tok (S i)) -> fint nf (s_obj s) = n -> (0 <= n < 65536)%Z ->
        (forall c, In c cols -> fbool (colFlag c) (s_obj s) = false /\ List.length (flist (p_field c) (s_obj s)) = x) -> S r + x = limit n ->
        (exists vs vr, aRow toks pf cols i vs /\ run fuel row s = Go (St (stores (r =? 0)%nat cols vs (s_obj s)) vr false (i + List.length cols)))
        \/ (forall vs, ~ aRow toks pf cols i vs) /\
           ((exists s', run fuel row s = Out s' /\ s_err s' = true)
            \/ exists s', run fuel row s = Go s' /\ s_idx s' < len /\ s_err s' = false /\ tok (S (s_idx s')) = []).
    Hypothesis H_full : forall fuel s, (forall c, In c cols -> fbool (colFlag c) (s_obj s) = true) -> run fuel row s = Go s.

    Lemma abs_same : forall a o o', tabAbs a o -> (forall f, In f tracked -> fget f o' = fget f o) -> fget nf o' = fget nf o -> tabAbs a o'.
    Proof.
      intros a o o' AB T NF.
      assert (B : forall f, In f tracked -> fbool f o' = fbool f o) by (intros f I; unfold fbool; rewrite (T f I); reflexivity).
      assert (LI : forall f, In f tracked -> flist f o' = flist f o) by (intros f I; unfold flist; rewrite (T f I); reflexivity).
      assert (I1 : forall f, In f (map fst links) -> In f tracked) by (intros f I; apply in_or_app; left; exact I).
      assert (I2 : forall c, In c cols -> In (colFlag c) tracked) by (intros c I; apply in_or_app; right; apply in_or_app; left; apply in_map; exact I).
      assert (I3 : forall c, In c cols -> In (p_field c) tracked) by (intros c I; apply in_or_app; right; apply in_or_app; right; apply in_map; exact I).
      destruct a as [ps|r]; cbn [tabAbs] in *.
      - destruct AB as (m & M & PS & F & C). exists m. split; [exact M|]. split; [exact PS|]. split.
        + intros q f E. rewrite B; [auto|]. apply I1. eapply nth_error_In; eauto.
        + intros c I. rewrite B, LI by auto. auto.
      - destruct AB as (F & n & NE & R & C). split; [intros f I; rewrite B; auto|]. exists n. split; [unfold fint in *; rewrite NF; exact NE|]. split; [exact R|].
        destruct r; [intros c I; rewrite B; auto|]. destruct C as (x & X & C). exists x. split; [exact X|]. intros c I. rewrite B, LI by auto. auto.
    Qed.

    Lemma table_fun : forall a i o a1 i1 o1 a2 i2 o2, table toks pf cols a i o a1 i1 o1 -> table toks pf cols a i o a2 i2 o2 -> a1 = a2 /\ i1 = i2 /\ o1 = o2.
    Proof.
      intros a i o a1 i1 o1 a2 i2 o2 H H'. destruct H as [p q ps i o v F|p i o n F|r i o vs (_ & _ & C)|i o W];
        inversion H' as [? ? ? ? ? v' F'|? ? ? n' F'|? ? ? vs' (_ & _ & C')|]; subst; try (cbn in *; discriminate); auto.
      - rewrite (fits_fun _ _ _ _ F F'). auto.
      - assert (E : VInt n = VInt n') by (eapply fits_fun; eassumption). injection E as ->. auto.
      - rewrite (cells_fun _ _ _ _ C C'). auto.
    Qed.

    Theorem table_exact : forall i v j, i < len -> (returns toks pf (Loop Skip body) i v false j <-> object toks pf noOwn its stop (table toks pf cols) [] (Params all) i v j).
    Proof.
      intros i v j L.
      apply (simple_exact noOwn its stop (table toks pf cols) [] body cases d {{ Break }} d2 (chainK links row) tabAbs is_body is_eof eq_refl is_kw not_empty H_item H_case); [| | | |exact L|].
      - intros a o kw f p sub w AB IN. destruct (items_free _ _ _ _ IN) as [N1 N2]. destruct (H_item _ _ _ _ IN) as (_ & _ & PU & _).
        eapply abs_same; [exact AB| |]; destruct p; try contradiction; cbn [place_in]; intros; apply fget_other; congruence.
      - exact table_fun.
      - intros a i0 o a' i' o' AB H. destruct H as [p q ps i0 o w F|p i0 o n F|r i0 o vs (W & _ & C)|i0 o W]; try exact W.
        all: destruct AB as (m & M & PS & _); assert (NP : nth_error all m = Some p) by (replace m with (m + 0) by lia; rewrite <- nth_error_skipn, <- PS; reflexivity);
          destruct (nth_error links m) as [[f kb]|] eqn:NL; [|exfalso; apply nth_error_None in NL; lia];
          destruct (H_link _ _ _ _ NP NL) as (_ & NA & _); eapply fits_word; [|exact F]; unfold isAny in NA; destruct (p_type p); try exact Logic.I; discriminate.
      - intros fuel a s i0 SI LT E AB W. destruct a as [ps|r].
        + destruct AB as (m & M & -> & F & C).
          destruct (nth_error all m) as [p|] eqn:NP; [|apply nth_error_None in NP; lia].
          destruct (nth_error links m) as [[f kb]|] eqn:NL; [|apply nth_error_None in NL; lia].
          destruct (H_link _ _ _ _ NP NL) as (IS & NA & FL & HW). rewrite (chain_at fuel links row m f kb s NL F).
          assert (IP : In p all) by (eapply nth_error_In; eauto). pose proof (params_free p IP) as PFREE.
          assert (IF : In f tracked) by (apply in_or_app; left; apply in_map_iff; exists (f, kb); split; [reflexivity|eapply nth_error_In; eauto]).
          assert (SF : forall w, store true (s_obj s) (p, w) = fset f (VBool true) (fset (p_field p) w (s_obj s))) by (intros w; unfold store; cbn [fst snd]; rewrite HW, FL; reflexivity).
          assert (FN : nth_error (map fst links) m = Some f) by (rewrite nth_error_map, NL; reflexivity).
          assert (NDL : NoDup (map fst links)) by (eapply nodup_left; exact nodup).
          assert (UF : forall w q f', nth_error (map fst links) q = Some f' -> fbool f' (store true (s_obj s) (p, w)) = (q <? S m)%nat).
          { intros w q f' E'. rewrite SF, fbool_set. destruct (String.eqb_spec f' f) as [->|NE].
            - assert (q = m) by (eapply (proj1 (NoDup_nth_error _) NDL); [apply nth_error_Some; congruence|congruence]). subst q. symmetry. apply Nat.ltb_lt. lia.
            - assert (f' <> p_field p) by (intros ->; apply PFREE; apply in_or_app; left; eapply nth_error_In; eauto).
              rewrite fbool_set. destruct (String.eqb_spec f' (p_field p)) as [X|_]; [contradiction|]. rewrite (F q f' E').
              assert (q <> m) by (intros ->; congruence). apply eq_iff_eq_true. rewrite !Nat.ltb_lt. lia. }
          assert (NCF : forall c, In c cols -> f <> colFlag c /\ f <> p_field c).
          { intros c I. assert (D : forall x, In x (map colFlag cols ++ map p_field cols) -> f <> x).
            { intros x IX ->. unfold tracked in nodup. clear - nodup IX FN. apply nth_error_In in FN. apply in_split in FN. destruct FN as (l1 & l2 & EQ).
              rewrite EQ in nodup. rewrite <- app_assoc in nodup. cbn [app] in nodup. apply NoDup_remove_2 in nodup. apply nodup. apply in_or_app. right. apply in_or_app. right. exact IX. }
            split; apply D; apply in_or_app; [left|right]; apply in_map; exact I. }
          assert (UC : forall w c, In c cols -> fbool (colFlag c) (store true (s_obj s) (p, w)) = false /\ flist (p_field c) (store true (s_obj s) (p, w)) = []).
          { intros w c I. destruct (NCF c I) as [N1 N2]. destruct (C c I) as [C1 C2].
            assert (N3 : colFlag c <> p_field p) by (intros X; apply PFREE; rewrite <- X; apply in_or_app; right; apply in_or_app; left; apply in_map; exact I).
            assert (N4 : p_field c <> p_field p) by (intros X; apply PFREE; rewrite <- X; apply in_or_app; right; apply in_or_app; right; apply in_map; exact I).
            rewrite SF. unfold fbool, flist in *. rewrite !fget_other by congruence. auto. }
          assert (SK : skipn m all = p :: skipn (S m) all) by (apply skipn_cons; exact NP).
          destruct (param_step fuel p kb s i0 IS NA SI E W) as [(w & vr & FT & R)|(NF & s' & R & ER)].
          * left. destruct (skipn (S m) all) as [|q ps] eqn:SQ.
            -- assert (LM : S m = List.length all).
               { assert (X : List.length (skipn (S m) all) = 0) by (rewrite SQ; reflexivity). rewrite skipn_length in X. lia. }
               destruct (count_last p m NP LM) as [NFE TY]. assert (EW : exists n, w = VInt n /\ (0 <= n < 65536)%Z).
               { rewrite TY in FT. destruct FT as (_ & _ & RN). cbn [readNum] in RN. destruct (ParseUint 16 (tok (S i0))) as [z|] eqn:PU; [|discriminate]. injection RN as <-.
                 exists z. split; [reflexivity|]. apply A2lStrictProps.uint_iff in PU. destruct PU as [NU LE]. apply A2lStrictProps.numeral_nonneg in NU. cbn in LE. lia. }
               destruct EW as (n & -> & RG). exists (Rows (limit n)), (S i0), (store true (s_obj s) (p, VInt n)), vr. split; [exact R|]. rewrite SK. split; [constructor; exact FT|]. split; [|lia].
               split.
               ++ intros f' I. apply In_nth_error in I. destruct I as (q & Q). rewrite (UF _ _ _ Q). apply Nat.ltb_lt.
                  assert (q < List.length (map fst links)) by (apply nth_error_Some; congruence). rewrite map_length in *. lia.
               ++ exists n. split.
                  { rewrite SF, fint_set. destruct (String.eqb_spec nf f) as [X|_]; [exfalso; apply PFREE; rewrite NFE, X; exact IF|]. rewrite fint_set, NFE, String.eqb_refl. reflexivity. }
                  split; [exact RG|]. assert (0 < limit n) by (unfold limit; destruct (Z.eqb_spec n 0); lia).
                  destruct (limit n) as [|l]; [lia|]. exists 0. split; [lia|]. intros c I. destruct (UC (VInt n) c I) as [U1 U2]. rewrite U1, U2. auto.
            -- exists (Params (q :: ps)), (S i0), (store true (s_obj s) (p, w)), vr. split; [exact R|]. rewrite SK. split; [constructor; exact FT|]. split; [|lia].
               exists (S m). split; [|split; [symmetry; exact SQ|split; [apply UF|apply UC]]].
               destruct (Nat.lt_ge_cases (S m) (List.length all)) as [X|X]; [exact X|]. rewrite skipn_all2 in SQ by exact X. discriminate.
          * right. split; [|left; eauto]. intros a' i' o' X. rewrite SK in X. inversion X; subst; eapply NF; eassumption.
        + destruct AB as (F & n & NE & RG & C). rewrite (chain_end fuel links row s F). destruct r as [|r].
          * left. exists (Rows 0), (S i0), (s_obj s), (s_var s). rewrite (H_full fuel s C). split; [destruct s; cbn in SI, E |- *; subst; reflexivity|].
            split; [constructor; exact W|]. split; [|lia]. split; [exact F|]. exists n. auto.
          * destruct C as (x & X & C). destruct (H_row fuel s i0 r n x SI LT E W NE RG C X) as [(vs & vr & AR & R)|(NR & Q)].
            -- left. exists (Rows r), (i0 + List.length cols), (stores (r =? 0)%nat cols vs (s_obj s)), vr. split; [exact R|]. split; [constructor; exact AR|].
               destruct AR as (_ & LL & CE). split; [|exact LL]. assert (NDC : NoDup (map colFlag cols ++ map p_field cols)) by (eapply nodup_right; exact nodup).
               destruct (stores_cols (r =? 0)%nat cols vs (s_obj s) NDC cols_ok (cells_length _ _ _ CE)) as [S1 S2].
               assert (NOT : forall f, In f (map fst links) -> ~ In f (map colFlag cols ++ map p_field cols)).
               { intros f I IX. unfold tracked in nodup. clear - nodup IX I. apply in_split in I. destruct I as (l1 & l2 & EQ).
                 rewrite EQ in nodup. rewrite <- app_assoc in nodup. cbn [app] in nodup. apply NoDup_remove_2 in nodup. apply nodup. apply in_or_app. right. apply in_or_app. right. exact IX. }
               split; [intros f I; unfold fbool; rewrite (S1 f (NOT f I)); apply F; exact I|]. exists n. split.
               { unfold fint in *. rewrite S1; [exact NE|]. intros IX. destruct (nth_error all (pred (List.length all))) as [p|] eqn:NP; [|apply nth_error_None in NP; lia].
                 destruct (count_last p _ NP ltac:(lia)) as [NFE _]. apply (params_free p); [eapply nth_error_In; eauto|]. rewrite NFE. apply in_or_app. right. exact IX. }
               split; [exact RG|]. destruct r as [|r]; cbn [Nat.eqb].
               ++ intros c I. apply (S2 c I).
               ++ exists (S x). split; [lia|]. intros c I. destruct (S2 c I) as [U1 U2]. destruct (C c I) as [C1 C2]. cbn [Nat.eqb] in U1, U2. rewrite U1, U2, C2. auto.
            -- right. split; [|exact Q]. intros a' i' o' Y. inversion Y; subst. eapply NR. eassumption.
      - exists 0. split; [exact some|]. split; [reflexivity|]. split; [intros; destruct q; reflexivity|intros; split; reflexivity].
    Qed.
  End Table.
End Odd.
