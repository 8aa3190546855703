(** The parsers of tables and of the other special objects. *)
From Coq Require Import String Ascii List Arith NArith ZArith Bool Lia SpecFloat.
From Verif Require Import GoBase GoBaseFacts A2lModModel A2lModSpec A2lModProps A2lProps A2lIR A2lTokens A2lSpec A2lGrammar A2lForms A2lParsers A2lCheck
  A2lExactSpec A2lExact A2lExactThm A2lOddSpec A2lOddThm A2lOddParsers.
From Verif Require A2lExploreThm OriginProps.
Import ListNotations.
Local Open Scope string_scope.
Local Open Scope list_scope.

(** the uint16 comparison *)
Lemma wraps : forall r x n, S r + x = limit n -> (0 <= n < 65536)%Z -> (Z.of_N (u16 (N.of_nat (x + 1))) =? n)%Z = (r =? 0)%nat.
Proof.
  intros r x n H R. unfold limit in H. unfold u16. rewrite N2Z.inj_mod, nat_N_Z. change (Z.of_N 65536) with 65536%Z.
  destruct (Z.eqb_spec n 0) as [NZ|NZ]; [rewrite NZ|].
  - destruct (Nat.eqb_spec r 0) as [->|NR].
    + replace (Z.of_nat (x + 1)) with 65536%Z by lia. reflexivity.
    + rewrite Z.mod_small by lia. apply Z.eqb_neq. lia.
  - rewrite Z.mod_small by lia. destruct (Nat.eqb_spec r 0) as [->|NR]; [apply Z.eqb_eq|apply Z.eqb_neq]; lia.
Qed.

Section Tables.
  Variable toks : list bytes.
  Variable pf : bytes -> option spec_float.
  Hypothesis EN : ended toks.

  Notation tok := (tok toks).
  Notation len := (List.length toks).
  Notation run := (run isKeyword toks pf).
  Notation exec := (exec isKeyword toks pf).
  Notation call := (call isKeyword toks pf).
  Notation run_seq := (A2lExactThm.run_seq toks pf).
  Notation run_one := (A2lExactThm.run_one toks pf).

  Ltac items good := intros kw f p sub IN; cbn [In] in IN;
    repeat (destruct IN as [IN|IN]; [injection IN as <- <- <- <-; split; [discriminate|]; split; [discriminate|]; split; [exact Logic.I|];
      eexists; split; [reflexivity|]; eexists; split; [|first [left; split; reflexivity|right; eexists; left; split; reflexivity]]; apply good; vm_compute; reflexivity|]); destruct IN.
  Ltac cases_only := intros t kb C; cbn [caseFor] in C;
    repeat match type of C with (if beqb ?x ?y then _ else _) = _ => let E := fresh "E" in destruct (beqb x y) eqn:E;
      [apply beqb_eq in E; subst t; eexists _, _, _, _; split; [|reflexivity]; cbn [In]; repeat (first [left; reflexivity|right])|clear E] end; discriminate.

  Ltac name_free := let X := fresh in intros X; vm_compute in X; repeat (destruct X as [X|X]; [discriminate|]); destruct X.
  Ltac links_ok := intros m p f kb NP NL; do 6 (destruct m as [|m]; [cbn in NP; first [discriminate NP|injection NP as <-; injection NL as <- <-; repeat split; reflexivity]|]); cbn in NP; destruct m; discriminate NP.
  Ltac count_ok := intros p m NP LM; do 6 (destruct m as [|m]; [first [discriminate LM|injection NP as <-; split; reflexivity]|]); cbn in LM; lia.
  Ltac nodup_ok := apply distinct_nodup; vm_compute; reflexivity.
  Ltac params_ok := intros p IN; cbn [In] in IN; repeat (destruct IN as [<-|IN]; [name_free|]); destruct IN.
  Ltac items_ok := intros kw f p sub IN; cbn [In] in IN; repeat (destruct IN as [IN|IN]; [injection IN as <- <- <- <-; split; [name_free|discriminate]|]); destruct IN.
  Ltac cols_ok := intros c IN; cbn [In] in IN; repeat (destruct IN as [<-|IN]; [split; reflexivity|]); destruct IN.

  Definition inCol : param := Param Append "InVal" (Some "InValSet") (Number NFloat).
  Definition outCol : param := Param Append "OutVal" (Some "OutValSet") (Number NFloat).
  Definition outText : param := Param Append "OutVal" (Some "OutValSet") Text.
  Lemma run_skip : forall fuel s, run fuel Skip s = Go s.
  Proof. reflexivity. Qed.

  Lemma num_app : forall fuel v n f fl nf k o vr si r x z, f <> nf -> List.length (flist f o) = x -> fint nf o = z -> (0 <= z < 65536)%Z -> S r + x = limit z ->
      run fuel (Seq (Num v n FromCur) (Seq (If ErrSet {{ Break }} Skip) (Seq (App f (Var v)) (Seq (If (Len16Is f nf) {{ Set_ fl Tru }} Skip) k)))) (St o vr false si)
      = match readNum pf n (current toks si) with
        | None => Out (St o (fset v (failedNum n (current toks si)) vr) true si)
        | Some w => run fuel k (St (store (r =? 0)%nat o (Param Append f (Some fl) (Number n), w)) (fset v w vr) false si)
        end.
  Proof.
    intros fuel v n f fl nf k o vr si r x z NE LE FI RG X. rewrite run_seq. cbn [A2lIR.exec readSrc s_idx].
    destruct (readNum pf n (current toks si)) as [w|].
    - rewrite run_seq, exec_if. cbn [test s_err setErr setVar]. rewrite run_skip. cbv iota. rewrite run_seq. cbn [A2lIR.exec eval s_var s_obj setErr setVar setObj s_err s_idx].
      rewrite fget_set. rewrite run_seq, exec_if. cbn [test s_obj]. unfold setObj, setErr, setVar. cbn [s_obj s_var s_err s_idx]. rewrite flist_set, String.eqb_refl, app_length, LE, fint_set.
      destruct (String.eqb_spec nf f) as [E|_]; [congruence|]. cbn [List.length]. rewrite FI, (wraps r x z X RG). unfold store. cbn [fst snd p_how p_field p_flag put mark].
      destruct (r =? 0)%nat; reflexivity.
    - rewrite run_seq, exec_if. cbn [test s_err setErr setVar]. reflexivity.
  Qed.
  Lemma text_app : forall fuel f fl nf k o vr si r x z, f <> nf -> List.length (flist f o) = x -> fint nf o = z -> (0 <= z < 65536)%Z -> S r + x = limit z ->
      run fuel (Seq (App f Cur) (Seq (If (Len16Is f nf) {{ Set_ fl Tru }} Skip) k)) (St o vr false si)
      = run fuel k (St (store (r =? 0)%nat o (Param Append f (Some fl) Text, VStr (current toks si))) vr false si).
  Proof.
    intros fuel f fl nf k o vr si r x z NE LE FI RG X. rewrite run_seq. cbn [A2lIR.exec eval s_idx s_obj]. rewrite run_seq, exec_if. unfold setObj. cbn [test s_obj s_var s_err s_idx].
    rewrite flist_set, String.eqb_refl, app_length, LE, fint_set.
    destruct (String.eqb_spec nf f) as [E|_]; [congruence|]. cbn [List.length]. rewrite FI, (wraps r x z X RG). unfold store. cbn [fst snd p_how p_field p_flag put mark].
    destruct (r =? 0)%nat; reflexivity.
  Qed.
  Lemma next_lt : forall i, S i < len -> next toks i = S i.
  Proof. intros i L. unfold next, moves. rewrite (proj2 (Nat.ltb_lt _ _) L). reflexivity. Qed.
  Lemma num_next : forall fuel v n k s, S (s_idx s) < len -> run fuel (Seq (Num v n FromNext) k) s = run fuel (Seq Next (Seq (Num v n FromCur) k)) s.
  Proof.
    intros fuel v n k s L. rewrite !run_seq. cbn [A2lIR.exec readSrc]. rewrite run_seq. cbn [A2lIR.exec readSrc s_idx setIdx].
    unfold nextTok, next, moves. rewrite (proj2 (Nat.ltb_lt _ _) L). reflexivity.
  Qed.
  Ltac fields := cbn [store put mark fst snd p_how p_field p_flag]; repeat (rewrite ?fbool_set, ?flist_set, ?fint_set; cbn [String.eqb Ascii.eqb Bool.eqb]).

  Theorem tab_exact : forall i v j, i < len -> (returns toks pf parseCompuTab i v false j <-> tableObject toks pf compuTabForm i v j).
  Proof.
    intros i v j L. unfold parseCompuTab, tableObject, compuTabForm.
    eapply (table_exact toks pf EN _ _ _ _ _ _ _ _
      [("NameSet", _); ("longIdentifierSet", _); ("ConversionTypeSet", _); ("NumberValuePairsSet", _)] _ "NumberValuePairs"); try reflexivity; try discriminate.
    - items (no_good toks pf EN).
    - cases_only.
    - cbn. lia.
    - links_ok.
    - count_ok.
    - nodup_ok.
    - params_ok.
    - items_ok.
    - cols_ok.
    - intros fuel [o vr e si] i0 r n x SI LT E W NE RG C X. cbn [s_idx s_err s_obj] in *. subst si e.
      destruct (C inCol ltac:(left; reflexivity)) as [C1 C2]. destruct (C outCol ltac:(right; left; reflexivity)) as [C3 C4]. cbn [colFlag p_flag p_field inCol outCol] in C1, C2, C3, C4.
      rewrite run_one, exec_if. cbn [test s_obj]. rewrite C1. cbn [negb orb].
      rewrite (num_app fuel "buf" NFloat "InVal" "InValSet" "NumberValuePairs" _ o vr (S i0) r x n) by (assumption || discriminate).
      change (current toks (S i0)) with (tok (S i0)).
      destruct (readNum pf NFloat (tok (S i0))) as [w|] eqn:RN.
      + rewrite num_next by (cbn [s_idx]; lia). rewrite run_seq. cbn [A2lIR.exec s_idx]. rewrite (next_lt (S i0)) by lia. unfold setIdx. cbn [s_obj s_var s_err].
        rewrite (num_app fuel "buf" NFloat "OutVal" "OutValSet" "NumberValuePairs" _ _ _ (S (S i0)) r x n);
          [|discriminate|destruct (r =? 0)%nat; fields; assumption|destruct (r =? 0)%nat; fields; assumption|exact RG|exact X].
        change (current toks (S (S i0))) with (tok (S (S i0))). destruct (readNum pf NFloat (tok (S (S i0)))) as [w'|] eqn:RN'.
        * left. eexists [w; w'], _. split; [|rewrite run_skip; cbn [List.length]; rewrite Nat.add_comm; reflexivity].
          split; [exact W|]. split; [cbn [List.length]; lia|]. repeat constructor; assumption.
        * right. split; [|left; eexists; split; reflexivity]. intros vs (_ & _ & Q). inversion Q as [|? ? ? ? ? ? Q2]; subst. inversion Q2 as [|? ? ? ? ? Q3]; subst. cbn in Q3. cbn in RN'. congruence.
      + right. split; [|left; eexists; split; reflexivity]. intros vs (_ & _ & Q). inversion Q as [|? ? ? ? ? Q3]; subst. cbn in Q3. cbn in RN. congruence.
    - intros fuel s C. rewrite run_one, exec_if. cbn [test].
      pose proof (C inCol ltac:(left; reflexivity)) as C1. pose proof (C outCol ltac:(right; left; reflexivity)) as C3. cbn [colFlag p_flag inCol outCol] in C1, C3.
      rewrite C1, C3. reflexivity.
    - exact L.
  Qed.

  Theorem vtab_exact : forall i v j, i < len -> (returns toks pf parseCompuVtab i v false j <-> tableObject toks pf compuVtabForm i v j).
  Proof.
    intros i v j L. unfold parseCompuVtab, tableObject, compuVtabForm.
    eapply (table_exact toks pf EN _ _ _ _ _ _ _ _
      [("NameSet", _); ("LongIdentifierSet", _); ("ConversionTypeSet", _); ("NumberValuePairsSet", _)] _ "NumberValuePairs"); try reflexivity; try discriminate.
    - items (no_good toks pf EN).
    - cases_only.
    - cbn. lia.
    - links_ok.
    - count_ok.
    - nodup_ok.
    - params_ok.
    - items_ok.
    - cols_ok.
    - intros fuel [o vr e si] i0 r n x SI LT E W NE RG C X. cbn [s_idx s_err s_obj] in *. subst si e.
      destruct (C inCol ltac:(left; reflexivity)) as [C1 C2]. destruct (C outText ltac:(right; left; reflexivity)) as [C3 C4]. cbn [colFlag p_flag p_field inCol outText] in C1, C2, C3, C4.
      rewrite run_one, exec_if. cbn [test s_obj]. rewrite C1. cbn [negb orb].
      rewrite (num_app fuel "buf" NFloat "InVal" "InValSet" "NumberValuePairs" _ o vr (S i0) r x n) by (assumption || discriminate).
      change (current toks (S i0)) with (tok (S i0)).
      destruct (readNum pf NFloat (tok (S i0))) as [w|] eqn:RN.
      + rewrite run_seq. cbn [A2lIR.exec s_idx]. rewrite (next_lt (S i0)) by lia. unfold setIdx. cbn [s_obj s_var s_err].
        rewrite (text_app fuel "OutVal" "OutValSet" "NumberValuePairs" _ _ _ (S (S i0)) r x n);
          [|discriminate|destruct (r =? 0)%nat; fields; assumption|destruct (r =? 0)%nat; fields; assumption|exact RG|exact X].
        left. eexists [w; VStr (tok (S (S i0)))], _. split; [|rewrite run_skip; cbn [List.length]; rewrite Nat.add_comm; reflexivity].
        split; [exact W|]. split; [cbn [List.length]; lia|]. repeat constructor; assumption.
      + right. split; [|left; eexists; split; reflexivity]. intros vs (_ & _ & Q). inversion Q as [|? ? ? ? ? Q3]; subst. cbn in Q3. cbn in RN. congruence.
    - intros fuel s C. rewrite run_one, exec_if. cbn [test].
      pose proof (C inCol ltac:(left; reflexivity)) as C1. pose proof (C outText ltac:(right; left; reflexivity)) as C3. cbn [colFlag p_flag inCol outText] in C1, C3.
      rewrite C1, C3. reflexivity.
    - exact L.
  Qed.

  Definition minCol : param := Param Append "InValMin" (Some "InValMinSet") (Number NFloat).
  Definition maxCol : param := Param Append "InValMax" (Some "InValMaxSet") (Number NFloat).
  Theorem range_exact : forall i v j, i < len -> (returns toks pf parseCompuVtabRange i v false j <-> tableObject toks pf compuVtabRangeForm i v j).
  Proof.
    intros i v j L. unfold parseCompuVtabRange, tableObject, compuVtabRangeForm.
    eapply (table_exact toks pf EN _ _ _ _ _ _ _ _
      [("NameSet", _); ("LongIdentifierSet", _); ("NumberValueTriplesSet", _)] _ "NumberValueTriples"); try reflexivity; try discriminate.
    - items (no_good toks pf EN).
    - cases_only.
    - cbn. lia.
    - links_ok.
    - count_ok.
    - nodup_ok.
    - params_ok.
    - items_ok.
    - cols_ok.
    - intros fuel [o vr e si] i0 r n x SI LT E W NE RG C X. cbn [s_idx s_err s_obj] in *. subst si e.
      destruct (C minCol ltac:(left; reflexivity)) as [C1 C2]. destruct (C maxCol ltac:(right; left; reflexivity)) as [C3 C4].
      destruct (C outText ltac:(right; right; left; reflexivity)) as [C5 C6]. cbn [colFlag p_flag p_field minCol maxCol outText] in C1, C2, C3, C4, C5, C6.
      rewrite run_one, exec_if. cbn [test s_obj]. rewrite C1. cbn [negb orb].
      rewrite (num_app fuel "buf" NFloat "InValMin" "InValMinSet" "NumberValueTriples" _ o vr (S i0) r x n) by (assumption || discriminate).
      change (current toks (S i0)) with (tok (S i0)).
      destruct (readNum pf NFloat (tok (S i0))) as [w|] eqn:RN.
      + rewrite run_seq. cbn [A2lIR.exec s_idx]. rewrite (next_lt (S i0)) by lia. unfold setIdx. cbn [s_obj s_var s_err].
        rewrite (num_app fuel "buf" NFloat "InValMax" "InValMaxSet" "NumberValueTriples" _ _ _ (S (S i0)) r x n);
          [|discriminate|destruct (r =? 0)%nat; fields; assumption|destruct (r =? 0)%nat; fields; assumption|exact RG|exact X].
        change (current toks (S (S i0))) with (tok (S (S i0))). destruct (readNum pf NFloat (tok (S (S i0)))) as [w'|] eqn:RN'.
        * rewrite run_seq. cbn [A2lIR.exec s_idx]. unfold setIdx. cbn [s_obj s_var s_err].
          rewrite (text_app fuel "OutVal" "OutValSet" "NumberValueTriples" _ _ _ (next toks (S (S i0))) r x n);
            [|discriminate|destruct (r =? 0)%nat; fields; assumption|destruct (r =? 0)%nat; fields; assumption|exact RG|exact X]. rewrite run_skip.
          destruct (next_cases toks (S len) (Nat.lt_succ_diag_r _) (S (S i0)) LT) as [(_ & -> & L3)|(_ & -> & L3)].
          -- left. eexists [w; w'; VStr (tok (S (S (S i0))))], _. split; [|cbn [List.length]; rewrite Nat.add_comm; reflexivity].
             split; [exact W|]. split; [cbn [List.length]; lia|]. repeat constructor; assumption.
          -- right. split; [intros vs (_ & Q & _); cbn [List.length] in Q; lia|]. right. eexists. split; [reflexivity|]. cbn [s_idx s_err]. split; [lia|]. split; [reflexivity|].
             apply nth_overflow. lia.
        * right. split; [|left; eexists; split; reflexivity]. intros vs (_ & _ & Q). inversion Q as [|? ? ? ? ? ? Q2]; subst. inversion Q2 as [|? ? ? ? ? Q3]; subst. cbn in Q3. cbn in RN'. congruence.
      + right. split; [|left; eexists; split; reflexivity]. intros vs (_ & _ & Q). inversion Q as [|? ? ? ? ? Q3]; subst. cbn in Q3. cbn in RN. congruence.
    - intros fuel s C. rewrite run_one, exec_if. cbn [test].
      pose proof (C minCol ltac:(left; reflexivity)) as C1. pose proof (C maxCol ltac:(right; left; reflexivity)) as C2.
      pose proof (C outText ltac:(right; right; left; reflexivity)) as C3. cbn [colFlag p_flag minCol maxCol outText] in C1, C2, C3.
      rewrite C1, C2, C3. reflexivity.
    - exact L.
  Qed.
End Tables.
