(** The special parsers read exactly what A2lOddSpec.v says. *)
From Coq Require Import String Ascii List Arith NArith ZArith Bool Lia SpecFloat.
From Verif Require Import GoBase GoBaseFacts A2lModModel A2lModSpec A2lModProps A2lProps A2lIR A2lTokens A2lSpec A2lGrammar A2lForms A2lParsers A2lCheck
  A2lExactSpec A2lExact A2lExactThm A2lOddSpec.
From Verif Require A2lExploreThm OriginProps.
Import ListNotations.
Local Open Scope string_scope.
Local Open Scope list_scope.

Section Loops.
  Variable toks : list bytes.
  Variable pf : bytes -> option spec_float.
  Hypothesis EN : ended toks.

  Notation tok := (tok toks).
  Notation len := (List.length toks).
  Notation run := (run isKeyword toks pf).
  Notation call := (call isKeyword toks pf).
  Notation run_seq := (A2lExactThm.run_seq toks pf).
  Notation run_one := (A2lExactThm.run_one toks pf).

  (** any object within: the error before does not matter *)
  Lemma item_run : forall fuel g kb f p s, itemBlock g kb f p -> match p with Under _ => False | _ => True end ->
      match call fuel g (s_idx s) with
      | Ret v false j => exists vr, run fuel kb s = Go (St (place_in p f v (s_obj s)) vr false j)
      | Ret v true j => exists s', run fuel kb s = Out s' /\ s_err s' = true
      | FBad => run fuel kb s = Bad
      | FFuel => run fuel kb s = Fuel
      end.
  Proof.
    intros fuel g kb f p [o vr e0 i] C M. cbn [s_err s_idx s_obj] in *.
    destruct C as [(-> & ->)|(v & [(-> & ->)|(key & -> & ->)])]; [| |destruct M].
    - rewrite run_seq, exec_callF. cbn [s_idx]. destruct (call fuel g i) as [w e j| |]; try reflexivity.
      destruct e; [eexists; split; reflexivity|eexists; reflexivity].
    - rewrite run_seq, exec_callV. cbn [s_idx]. destruct (call fuel g i) as [w e j| |]; try reflexivity.
      destruct e; [eexists; split; reflexivity|]. cbn. rewrite fget_set. eexists. reflexivity.
  Qed.

  Variable own : string -> nat -> val -> nat -> Prop.
  Notation reads := (reads toks pf own).

  Section Odd.
    Context {A : Type}.
    Variable its : list item.
    Variable stop : string.
    Variable word : A -> nat -> fields -> A -> nat -> fields -> Prop.
    Variable cs : list (string * const).
    Variable body : block.
    Variable cases : cases.
    Variable d : block.
    Variable abs : A -> fields -> Prop.
    (** the ends of the object; its last token *)
    Variable ends : bytes -> Prop.
    Variable fin : nat -> nat.
    Hypothesis ends_dec : forall t, ends t \/ ~ ends t.
    Hypothesis is_body : bodyOf body = Some (cases, d).
    Hypothesis H_item : forall kw f p sub, In (Item kw f p sub) its ->
        ~ ends (b kw) /\ b kw <> [] /\ match p with Under _ => False | _ => True end /\ exists kb, caseFor (b kw) cases = Some kb /\ itemCase toks pf own kb f p sub.
    Hypothesis abs_item : forall a o kw f p sub v, abs a o -> In (Item kw f p sub) its -> abs a (place_in p f v o).
    Hypothesis stop_ends : ends (b stop).
    Hypothesis ends_plain : forall a i o a' i' o', ends (tok (S i)) -> plain its stop (tok (S i)) -> ~ word a i o a' i' o'.
    Hypothesis H_stop : forall fuel s a, s_idx s < len -> s_err s = false -> abs a (s_obj s) -> ends (tok (S (s_idx s))) ->
        run fuel body s = Out (St (consts cs (s_obj s)) (s_var s) false (fin (s_idx s))).
    Hypothesis word_fun : forall a i o a1 i1 o1 a2 i2 o2, abs a o -> word a i o a1 i1 o1 -> word a i o a2 i2 o2 -> a1 = a2 /\ i1 = i2 /\ o1 = o2.
    Definition noWord (a : A) (s : st) : Prop := forall a' i' o', ~ word a (s_idx s) (s_obj s) a' i' o'.
    Definition outcome (a : A) (s : st) (q : res) : Prop :=
      (exists a' i' o' vr, q = Go (St o' vr false i') /\ word a (s_idx s) (s_obj s) a' i' o' /\ abs a' o' /\ i' < len)
      \/ (noWord a s /\ exists s', q = Out s' /\ s_err s' = true)
      \/ (noWord a s /\ exists s', q = Go s' /\ forall fuel, exists s'', run fuel body s' = Out s'' /\ s_err s'' = true).
    Hypothesis H_word : forall fuel a s, s_idx s < len -> s_err s = false -> abs a (s_obj s) ->
        plain its stop (tok (S (s_idx s))) -> ~ ends (tok (S (s_idx s))) -> outcome a s (run fuel body s).

    Notation rounds := (rounds toks pf own its stop word).

    Lemma kind_of : forall t, (exists kw f p sub, In (Item kw f p sub) its /\ t = b kw) \/ ends t \/ (plain its stop t /\ ~ ends t).
    Proof.
      intros t.
      assert (D : (exists kw f p sub, In (Item kw f p sub) its /\ t = b kw) \/ forall kw f p sub, In (Item kw f p sub) its -> t <> b kw).
      { clear - t. induction its as [|[kw f p sub] l IH]; [right; intros ? ? ? ? []|].
        destruct (list_eq_dec ascii_dec t (b kw)) as [E|E]; [left; exists kw, f, p, sub; split; [left; reflexivity|exact E]|].
        destruct IH as [(kw' & f' & p' & sub' & I & E')|IH]; [left; exists kw', f', p', sub'; split; [right; exact I|exact E']|].
        right. intros kw' f' p' sub' [I|I]; [injection I as <- <- <- <-; exact E|eapply IH; exact I]. }
      destruct D as [D|D]; [left; exact D|]. right. destruct (ends_dec t) as [E|E]; [left; exact E|right]. split; [|exact E]. split; [|exact D].
      intros ->. exact (E stop_ends).
    Qed.

    Lemma item_step : forall fuel s kw f p sub, s_err s = false -> s_idx s < len -> In (Item kw f p sub) its -> tok (S (s_idx s)) = b kw ->
        exists g, good toks pf own g sub /\
        match call fuel g (S (s_idx s)) with
        | Ret v false j => exists vr, run fuel body s = Go (St (place_in p f v (s_obj s)) vr false j)
        | Ret v true j => exists s', run fuel body s = Out s' /\ s_err s' = true
        | FBad => run fuel body s = Bad
        | FFuel => run fuel body s = Fuel
        end.
    Proof.
      intros fuel s kw f p sub E L I T. destruct (H_item _ _ _ _ I) as (NS & NE & PU & kb & CF & g & G & SH). exists g. split; [exact G|].
      assert (N : tok (S (s_idx s)) <> []) by congruence.
      assert (R : run fuel body s = run fuel kb (setIdx (S (s_idx s)) s)).
      { rewrite (body_run toks pf _ _ _ _ _ is_body), pick_for, T, CF, (next_word toks EN _ N). reflexivity. }
      rewrite R. exact (item_run fuel g kb f p (setIdx (S (s_idx s)) s) SH PU).
    Qed.

    Lemma iter_sound : forall fuel x a s s', s_idx s < len -> s_err s = false -> abs a (s_obj s) ->
        iter x (run fuel body) s = Go s' -> s_err s' = false ->
        exists a' i o, rounds a (s_idx s) (s_obj s) a' i o /\ ends (tok (S i)) /\ s_obj s' = consts cs o /\ s_idx s' = fin i.
    Proof.
      intros fuel x. induction x as [|x IH]; intros a s s' L E AB H ER; [discriminate|]. cbn [iter] in H.
      destruct (kind_of (tok (S (s_idx s)))) as [(kw & f & p & sub & I & T)|[EE|(PL & NE)]].
      - destruct (item_step fuel s kw f p sub E L I T) as (g & G & R). destruct (H_item _ _ _ _ I) as (_ & NE & _).
        assert (N : tok (S (s_idx s)) <> []) by congruence. pose proof (tok_lt toks EN _ N) as LT.
        destruct (call fuel g (S (s_idx s))) as [v [|] j| |] eqn:C.
        + destruct R as (s1 & R & E1). rewrite R in H. injection H as ->. congruence.
        + destruct R as (vr & R). rewrite R in H. destruct (G (S (s_idx s)) v j ltac:(lia) N) as [G1 G2].
          assert (RD : reads sub (S (s_idx s)) v j) by (apply G1; eapply returns_run; exact C).
          destruct (IH a (St (place_in p f v (s_obj s)) vr false j) s' (G2 RD) eq_refl (abs_item _ _ _ _ _ _ v AB I) H ER) as (a' & i & o & RR & REST). cbn [s_idx s_obj] in RR.
          exists a', i, o. split; [|exact REST]. eapply ro_item; eauto.
        + rewrite R in H. discriminate.
        + rewrite R in H. discriminate.
      - rewrite (H_stop fuel s a L E AB EE) in H. injection H as <-. exists a, (s_idx s), (s_obj s). split; [constructor|]. auto.
      - pose proof (H_word fuel a s L E AB PL NE) as O. destruct (run fuel body s) as [s1|s1| |]; try discriminate.
        + destruct O as [(a1 & i1 & o1 & vr & Q & W & AB1 & L1)|[(NW & s2 & Q & E2)|(NW & s2 & Q & DD)]]; [|discriminate|].
          * injection Q as ->. destruct (IH a1 (St o1 vr false i1) s' L1 eq_refl AB1 H ER) as (a' & i & o & RR & REST). cbn [s_idx s_obj] in RR.
            exists a', i, o. split; [|exact REST]. eapply ro_word; eauto.
          * injection Q as <-. destruct x as [|x]; [discriminate|]. cbn [iter] in H. destruct (DD fuel) as (s3 & R3 & E3). rewrite R3 in H. injection H as ->. congruence.
        + destruct O as [(a1 & i1 & o1 & vr & Q & _)|[(NW & s2 & Q & E2)|(NW & s2 & Q & DD)]]; [discriminate| |discriminate].
          injection Q as <-. injection H as <-. congruence.
    Qed.

    Lemma rounds_complete : forall a i o a' i' o', rounds a i o a' i' o' -> i < len -> abs a o ->
        (exists N c, forall fuel vr, N <= fuel -> exists vr', forall x, iter (c + x) (run fuel body) (St o vr false i) = iter x (run fuel body) (St o' vr' false i'))
        /\ abs a' o' /\ i' < len.
    Proof.
      induction 1 as [a i o|a i o a1 i1 o1 a2 i2 o2 PL W _ IH|a i o kw f p sub v k a2 i2 o2 I T RD _ IH]; intros L AB.
      - split; [|auto]. exists 0, 0. intros fuel vr _. exists vr. reflexivity.
      - assert (NE : ~ ends (tok (S i))) by (intros X; exact (ends_plain _ _ _ _ _ _ X PL W)).
        assert (OC : forall fuel vr, abs a1 o1 /\ i1 < len /\ exists vr', run fuel body (St o vr false i) = Go (St o1 vr' false i1)).
        { intros fuel vr. destruct (H_word fuel a (St o vr false i) L eq_refl AB PL NE) as [(a3 & i3 & o3 & vr3 & Q & W3 & AB3 & L3)|[(NW & _)|(NW & _)]];
            cbn [s_idx s_obj] in *; try (exfalso; eapply NW; exact W).
          destruct (word_fun _ _ _ _ _ _ _ _ _ AB W W3) as (<- & <- & <-). split; [exact AB3|]. split; [exact L3|]. exists vr3. exact Q. }
        destruct (OC 0 []) as (AB1 & L1 & _). destruct (IH L1 AB1) as ((N & c & R) & AB2 & L2). split; [|auto].
        exists N, (S c). intros fuel vr LF. destruct (OC fuel vr) as (_ & _ & vr1 & E1). destruct (R fuel vr1 LF) as (vr2 & E2).
        exists vr2. intros x. cbn [plus iter]. rewrite E1. apply E2.
      - destruct (H_item _ _ _ _ I) as (_ & NE & _). assert (N : tok (S i) <> []) by congruence. pose proof (tok_lt toks EN _ N) as LT.
        assert (LK : k < len).
        { destruct (item_step 0 (St o [] false i) kw f p sub eq_refl L I T) as (g & G & _). destruct (G (S i) v k ltac:(lia) N) as [_ G2]. exact (G2 RD). }
        destruct (IH LK (abs_item _ _ _ _ _ _ v AB I)) as ((N1 & c & R) & AB2 & L2). split; [|auto].
        destruct (H_item _ _ _ _ I) as (_ & _ & PU & kb & CF & g & G & SH). destruct (proj2 (proj1 (G (S i) v k ltac:(lia) N)) RD) as (N0 & CA).
        exists (Nat.max N0 N1), (S c). intros fuel vr LF.
        assert (RB : exists vr', run fuel body (St o vr false i) = Go (St (place_in p f v o) vr' false k)).
        { rewrite (body_run toks pf _ _ _ _ _ is_body), pick_for. cbn [s_idx]. rewrite T, CF, (next_word toks EN _ N).
          pose proof (item_run fuel g kb f p (setIdx (S i) (St o vr false i)) SH PU) as IR. cbn [s_idx setIdx s_obj] in IR. rewrite (CA fuel ltac:(lia)) in IR. exact IR. }
        destruct RB as (vr1 & E1). destruct (R fuel vr1 ltac:(lia)) as (vr2 & E2). exists vr2. intros x. cbn [plus iter]. rewrite E1. apply E2.
    Qed.

    Lemma odd_exact : forall a i v j, i < len -> abs a [] ->
        (returns toks pf (Loop Skip body) i v false j <->
         exists a' i' o, rounds a i [] a' i' o /\ ends (tok (S i')) /\ v = VObj (consts cs o) /\ j = fin i').
    Proof.
      intros a i v j L AB. split.
      - intros (N & R). specialize (R N (le_n _)). rewrite call_loop in R.
        change (run N Skip (St [] [] false i)) with (Go (St [] [] false i)) in R. cbv beta iota in R.
        destruct (iter N (run N body) (St [] [] false i)) as [s'|s'| |] eqn:IT; try discriminate.
        + injection R as <- ER <-. destruct (iter_sound N N a (St [] [] false i) s' L eq_refl AB IT ER) as (a' & i' & o & RR & SA & OB & IX).
          exists a', i', o. rewrite OB, IX. auto.
        + exfalso. exact (A2lExploreThm.iter_noout _ _ _ _ IT).
      - intros (a' & i' & o & RR & SA & -> & ->). destruct (rounds_complete _ _ _ _ _ _ RR L AB) as ((N & c & R) & AB' & L').
        exists (Nat.max N (S c)). intros fuel LF. rewrite call_loop.
        change (run fuel Skip (St [] [] false i)) with (Go (St [] [] false i)). cbv beta iota.
        destruct (R fuel [] ltac:(lia)) as (vr & RQ). replace fuel with (c + S (fuel - S c)) at 1 by lia. rewrite RQ. cbn [iter].
        rewrite (H_stop fuel (St o vr false i') a' L' eq_refl AB' SA). reflexivity.
    Qed.
  End Odd.
End Loops.
