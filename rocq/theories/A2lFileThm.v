(** Lemmas about the loops of parseProject and parseA2l. *)
From Coq Require Import String Ascii List Arith Bool Lia SpecFloat.
From Verif Require Import GoBase GoBaseFacts A2lIR A2lTokens A2lParsers A2lThm A2lSpec A2lProps A2lModModel A2lModSpec A2lModStore A2lModSeq A2lModProps A2lFileModel.
Import ListNotations.

Definition projCases : cases := match parseProject with Loop _ (Seq (Switch FromNext cs _) Skip) => cs | _ => Default end.
Definition projDefault : block :=
  {{ If (CurIs "") {{ Raise; Break }}
    {{ If (CurIs "/end PROJECT") {{ Break }}
    {{ If CurKw {{ Raise; Break }}
    {{ If (NotSet "nameSet") {{ Set_ "Name" Cur; Set_ "nameSet" Tru }}
    {{ If (NotSet "longIdentifierSet") {{ Set_ "longIdentifier" Cur; Set_ "longIdentifierSet" Tru }} Skip }} }} }} }} }}.
Definition projBody : block := Seq (Switch FromNext projCases projDefault) Skip.
Lemma proj_shape : parseProject = Loop Skip projBody.
Proof. reflexivity. Qed.
Lemma proj_cases : projCases =
  Case "/begin HEADER" {{ CallF "header" parseHeader; If ErrSet {{ Break }} Skip }} (
  Case "/begin MODULE" {{ CallV "buf" parseModule; If ErrSet {{ Break }} Skip; App "Modules" (Var "buf") }} Default).
Proof. reflexivity. Qed.
Definition a2lCases : cases := match parseA2l with Loop _ (Seq (Switch FromCur cs _) _) => cs | _ => Default end.
Definition a2lDefault : block := {{ If (CurIs "") {{ Break }} {{ If CurKw {{ Raise; Break }} Skip }} }}.
Definition a2lBody : block := Seq (Switch FromCur a2lCases a2lDefault) {{ Next }}.
Lemma a2l_shape : parseA2l = Loop Skip a2lBody.
Proof. reflexivity. Qed.
Lemma a2l_cases : a2lCases =
  Case "ASAP2_VERSION" {{ CallF "Asap2Version" parseASAP2Version; If ErrSet {{ Break }} Skip }} (
  Case "A2ML_VERSION" {{ CallF "A2mlVersion" parseA2MLVersion; If ErrSet {{ Break }} Skip }} (
  Case "/begin PROJECT" {{ CallF "Project" parseProject; If ErrSet {{ Break }} Skip }} Default)).
Proof. reflexivity. Qed.

(** ** The programs of A2lParsers.v are sequential parsing *)
Section Sequential.
  Variable toks : list bytes.
  Variable pf : bytes -> option spec_float.
  Variable fuel : nat.
  Notation run := (A2lIR.run isKeyword toks pf fuel).
  Notation pick := (A2lIR.pick isKeyword toks pf fuel).
  Notation call := (A2lIR.call isKeyword toks pf fuel).
  Notation exec := (A2lIR.exec isKeyword toks pf fuel).
  Notation seqModule := (returns toks pf parseModule).

  Lemma run_app : forall f x s, run {{ App f (Var x) }} s = Go (setObj f (VList (flist f (s_obj s) ++ [eval toks (Var x) s])) s).
  Proof. reflexivity. Qed.
  Lemma pick_default : forall t s, pick Default t s = None.
  Proof. reflexivity. Qed.
  Lemma exec_switch_cur : forall cs d s, exec (Switch FromCur cs d) s =
    match pick cs (current toks (s_idx s)) s with Some q => q | None => run d s end.
  Proof. reflexivity. Qed.

  Lemma run_field : forall f g s, run {{ CallF f g; If ErrSet {{ Break }} Skip }} s =
    match call g (s_idx s) with
    | Ret v e j => let s' := setIdx j (setErr e (setObj f v s)) in if e then Out s' else Go s'
    | FBad => Bad
    | FFuel => A2lIR.Fuel
    end.
  Proof.
    intros f g s. rewrite run_seq, exec_callF. destruct (call g (s_idx s)) as [v [|] j| |]; try reflexivity;
      rewrite run_seq, exec_if; cbn [test setIdx setErr s_err]; reflexivity.
  Qed.

  Lemma proj_other : forall s, run projDefault s =
    match projectOther (current toks (s_idx s)) (s_obj s) with
    | Stop e => Out (if e then setErr true s else s)
    | Cont p => Go (St p (s_var s) (s_err s) (s_idx s))
    end.
  Proof.
    intros s. unfold projDefault, projectOther. set (t := current toks (s_idx s)).
    rewrite run_seq, exec_if. cbn [test]. fold t. change (b "") with (@nil ascii). destruct (beqb t []); [reflexivity|].
    rewrite run_seq, exec_if. cbn [test]. fold t. destruct (beqb t (b "/end PROJECT")); [reflexivity|].
    rewrite run_seq, exec_if. cbn [test]. fold t. destruct (isKeyword t); [reflexivity|].
    rewrite run_seq, exec_if. cbn [test]. destruct (fbool "nameSet" (s_obj s)); cbn [negb]; [|reflexivity].
    rewrite run_seq, exec_if. cbn [test]. destruct (fbool "longIdentifierSet" (s_obj s)); destruct s; reflexivity.
  Qed.

  Lemma proj_iter : forall n s s', s_err s = false -> iter n (run projBody) s = Go s' ->
    project toks pf seqModule (s_obj s) (s_idx s) (s_obj s') (s_err s') (s_idx s').
  Proof.
    induction n as [|n IH]; intros s s' E H; [discriminate|]. cbn [iter] in H.
    unfold projBody in H at 1. rewrite run_seq, exec_switch, proj_cases, !pick_case, pick_default in H.
    destruct (beqb (nextTok toks (s_idx s)) (b "/begin HEADER")) eqn:B1.
    - apply beqb_eq in B1. rewrite run_field in H. cbn [setIdx s_idx] in H. destruct (call parseHeader (next toks (s_idx s))) as [v [|] j| |] eqn:C; try discriminate.
      + injection H as <-. cbn [setIdx setErr setObj s_obj s_err s_idx]. apply call_returns in C. eapply PrHeaderErr; eauto.
      + rewrite run_skip in H. apply IH in H; [|reflexivity]. cbn [setIdx setErr setObj s_obj s_err s_idx] in H. apply call_returns in C. eapply PrHeader; eauto.
    - apply beqb_neq in B1. destruct (beqb (nextTok toks (s_idx s)) (b "/begin MODULE")) eqn:B2.
      + apply beqb_eq in B2. rewrite run_seq, exec_callV in H. cbn [setIdx s_idx] in H. destruct (call parseModule (next toks (s_idx s))) as [v [|] j| |] eqn:C; try discriminate.
        * rewrite run_seq, exec_if in H. cbn [test setIdx setErr s_err] in H. injection H as <-. cbn [setIdx setErr setVar s_obj s_err s_idx]. apply call_returns in C. eapply PrModuleErr; eauto.
        * rewrite run_seq, exec_if in H. cbn [test setIdx setErr s_err] in H. rewrite run_skip, run_app in H. cbv iota in H. rewrite run_skip in H. apply IH in H; [|reflexivity].
          cbn [setIdx setErr setObj setVar s_obj s_err s_idx s_var eval] in H. rewrite fget_fset, String.eqb_refl in H. apply call_returns in C. eapply PrModule; eauto.
      + apply beqb_neq in B2. rewrite proj_other in H. cbn [setIdx s_idx s_obj s_var s_err] in H. destruct (projectOther (current toks (next toks (s_idx s))) (s_obj s)) as [e|p] eqn:D.
        * injection H as <-. destruct e; cbn [setErr setIdx s_obj s_err s_idx]; [|rewrite E]; eapply PrStop; eauto.
        * rewrite run_skip in H. apply IH in H; [|exact E]. cbn [s_obj s_idx] in H. eapply PrGo; eauto.
  Qed.

  Lemma proj_call : forall i v e j, call parseProject i = Ret v e j -> exists p, v = VObj p /\ project toks pf seqModule [] i p e j.
  Proof.
    intros i v e j H. rewrite proj_shape, (call_loop toks pf fuel Skip projBody i (St [] [] false i) eq_refl) in H.
    destruct (iter fuel (run projBody) (St [] [] false i)) as [s|s| |] eqn:I; try discriminate; [|destruct (iter_out _ _ _ _ I)].
    injection H as <- <- <-. apply proj_iter in I; [|reflexivity]. eauto.
  Qed.

  Lemma a2l_other : forall s, run a2lDefault s =
    match a2lOther (current toks (s_idx s)) (s_obj s) with
    | Stop e => Out (if e then setErr true s else s)
    | Cont p => Go (St p (s_var s) (s_err s) (s_idx s))
    end.
  Proof.
    intros s. unfold a2lDefault, a2lOther. set (t := current toks (s_idx s)).
    rewrite run_seq, exec_if. cbn [test]. fold t. change (b "") with (@nil ascii). destruct (beqb t []); [reflexivity|].
    rewrite run_seq, exec_if. cbn [test]. fold t. destruct (isKeyword t); [reflexivity|]. destruct s; reflexivity.
  Qed.
  Lemma run_next : forall s, run {{ Next }} s = Go (setIdx (next toks (s_idx s)) s).
  Proof. reflexivity. Qed.

  Lemma a2l_iter : forall n s s', s_err s = false -> iter n (run a2lBody) s = Go s' ->
    a2l toks pf seqModule (s_obj s) (s_idx s) (s_obj s') (s_err s') (s_idx s').
  Proof.
    induction n as [|n IH]; intros s s' E H; [discriminate|]. cbn [iter] in H.
    unfold a2lBody in H at 1. rewrite run_seq, exec_switch_cur, a2l_cases, !pick_case, pick_default in H.
    assert (P : forall f g, (forall v e j, call g (s_idx s) = Ret v e j -> part toks pf seqModule (current toks (s_idx s)) (s_idx s) f v e j) ->
       match match match call g (s_idx s) with
             | Ret v e j => let s' := setIdx j (setErr e (setObj f v s)) in if e then Out s' else Go s' | FBad => Bad | FFuel => A2lIR.Fuel end
             with Go s' => run {{ Next }} s' | r => r end
       with Go s' => iter n (run a2lBody) s' | Out s' => Go s' | r => r end = Go s' ->
       a2l toks pf seqModule (s_obj s) (s_idx s) (s_obj s') (s_err s') (s_idx s')).
    { intros f g PT HH. destruct (call g (s_idx s)) as [v [|] j| |]; try discriminate; cbv zeta iota in HH.
      - injection HH as <-. cbn [setIdx setErr setObj s_obj s_err s_idx]. eapply AlPartErr; eauto.
      - rewrite run_next in HH. apply IH in HH; [|reflexivity]. cbn [setIdx setErr setObj s_obj s_err s_idx] in HH. eapply AlPart; eauto. }
    destruct (beqb (current toks (s_idx s)) (b "ASAP2_VERSION")) eqn:B1; [|destruct (beqb (current toks (s_idx s)) (b "A2ML_VERSION")) eqn:B2; [|destruct (beqb (current toks (s_idx s)) (b "/begin PROJECT")) eqn:B3]].
    - apply beqb_eq in B1. rewrite run_field in H. eapply P; [|exact H]. intros v e j C. rewrite B1. constructor. eapply call_returns; eauto.
    - apply beqb_eq in B2. rewrite run_field in H. eapply P; [|exact H]. intros v e j C. rewrite B2. constructor. eapply call_returns; eauto.
    - apply beqb_eq in B3. rewrite run_field in H. eapply P; [|exact H]. intros v e j C. rewrite B3. destruct (proj_call _ _ _ _ C) as (p & -> & D). constructor. exact D.
    - apply beqb_neq in B1, B2, B3. assert (N : ~ In (current toks (s_idx s)) [b "ASAP2_VERSION"; b "A2ML_VERSION"; b "/begin PROJECT"]) by (intros [K|[K|[K|[]]]]; congruence).
      rewrite a2l_other in H. destruct (a2lOther (current toks (s_idx s)) (s_obj s)) as [e|p] eqn:D.
      + injection H as <-. destruct e; cbn [setErr s_obj s_err s_idx]; [|rewrite E]; eapply AlStop; eauto.
      + rewrite run_next in H. apply IH in H; [|exact E]. cbn [setIdx s_obj s_idx] in H. eapply AlGo; eauto.
  Qed.

  Lemma a2l_call : forall i v e j, call parseA2l i = Ret v e j -> exists a, v = VObj a /\ a2l toks pf seqModule [] i a e j.
  Proof.
    intros i v e j H. rewrite a2l_shape, (call_loop toks pf fuel Skip a2lBody i (St [] [] false i) eq_refl) in H.
    destruct (iter fuel (run a2lBody) (St [] [] false i)) as [s|s| |] eqn:I; try discriminate; [|destruct (iter_out _ _ _ _ I)].
    injection H as <- <- <-. apply a2l_iter in I; [|reflexivity]. eauto.
  Qed.
End Sequential.

(** ** Outcomes *)
Lemma returns_fun : forall toks pf g i v e j v' e' j', returns toks pf g i v e j -> returns toks pf g i v' e' j' -> v = v' /\ e = e' /\ j = j'.
Proof. intros toks pf g i v e j v' e' j' [n R] [n' R']. specialize (R (n + n') ltac:(lia)). rewrite (R' (n + n') ltac:(lia)) in R. injection R as -> -> ->. auto. Qed.

Lemma next_bound : forall toks i, i < length toks -> i <= next toks i < length toks.
Proof. intros toks i L. unfold next, moves. destruct (Nat.ltb_spec (S i) (length toks)); lia. Qed.
Lemma nextTok_moves : forall toks i, nextTok toks i <> [] -> next toks i = S i /\ S i < length toks.
Proof. intros toks i H. unfold nextTok, next, moves in *. destruct (Nat.ltb_spec (S i) (length toks)); [auto|destruct H; reflexivity]. Qed.
Lemma current_moves : forall toks i, ended toks -> current toks i <> [] -> next toks i = S i /\ S i < length toks.
Proof.
  intros toks i EN H. unfold next. destruct (moves toks i) eqn:M; [|destruct H; apply last_empty; assumption].
  split; [reflexivity|]. unfold moves in M. apply Nat.ltb_lt in M. exact M.
Qed.

Section Total.
  Variable toks : list bytes.
  Variable pf : bytes -> option spec_float.
  Hypothesis EN : ended toks.
  Variable module : nat -> val -> bool -> nat -> Prop.
  Hypothesis MT : forall i, i < length toks -> exists v e j, module i v e j /\ i <= j < length toks.

  Lemma project_total : forall n p i, length toks - i <= n -> i < length toks -> exists p' e j, project toks pf module p i p' e j /\ i <= j < length toks.
  Proof.
    induction n as [|n IH]; intros p i M L; [lia|]. pose proof (next_bound toks i L) as NB.
    destruct (list_eq_dec ascii_dec (nextTok toks i) (b "/begin HEADER")) as [B1|B1]; [|destruct (list_eq_dec ascii_dec (nextTok toks i) (b "/begin MODULE")) as [B2|B2]].
    - destruct (nextTok_moves toks i) as [N NL]; [rewrite B1; discriminate|].
      destruct (C59_terminates "parseHeader" parseHeader toks pf (next toks i)) as (v & e & j & R & J); [listed|exact EN|lia|]. destruct e.
      + do 3 eexists. split; [eapply PrHeaderErr; eauto|lia].
      + destruct (IH (fset "header" v p) j) as (p' & e & k & P & K); [lia|lia|]. exists p', e, k. split; [eapply PrHeader; eauto|lia].
    - destruct (nextTok_moves toks i) as [N NL]; [rewrite B2; discriminate|].
      destruct (MT (next toks i)) as (v & e & j & R & J); [lia|]. destruct e.
      + do 3 eexists. split; [eapply PrModuleErr; eauto|lia].
      + destruct (IH (fset "Modules" (VList (flist "Modules" p ++ [v])) p) j) as (p' & e & k & P & K); [lia|lia|]. exists p', e, k. split; [eapply PrModule; eauto|lia].
    - destruct (projectOther (current toks (next toks i)) p) as [e|q] eqn:D.
      + do 3 eexists. split; [eapply PrStop; eauto|lia].
      + assert (NE : nextTok toks i <> []).
        { intros Z. unfold nextTok, next in *. destruct (moves toks i) eqn:MV.
          - unfold projectOther in D. rewrite Z in D. discriminate.
          - unfold projectOther in D. rewrite (last_empty toks EN i MV) in D. discriminate. }
        destruct (nextTok_moves toks i NE) as [N NL]. destruct (IH q (next toks i)) as (p' & e & k & P & K); [lia|lia|]. exists p', e, k. split; [eapply PrGo; eauto|lia].
  Qed.

  Lemma part_total : forall i, i < length toks -> In (current toks i) [b "ASAP2_VERSION"; b "A2ML_VERSION"; b "/begin PROJECT"] ->
    exists f v e j, part toks pf module (current toks i) i f v e j /\ i <= j < length toks.
  Proof.
    intros i L [K|[K|[K|[]]]]; rewrite <- K.
    - destruct (C59_terminates "parseASAP2Version" parseASAP2Version toks pf i) as (v & e & j & R & J); [listed|exact EN|lia|]. do 4 eexists. split; [apply PartAsap2; eauto|lia].
    - destruct (C59_terminates "parseA2MLVersion" parseA2MLVersion toks pf i) as (v & e & j & R & J); [listed|exact EN|lia|]. do 4 eexists. split; [apply PartA2ml; eauto|lia].
    - destruct (project_total (length toks) [] i) as (p & e & j & R & J); [lia|lia|]. do 4 eexists. split; [apply PartProject; eauto|lia].
  Qed.

  Lemma a2l_total : forall n a i, length toks - i <= n -> i < length toks -> exists a' e j, a2l toks pf module a i a' e j.
  Proof.
    induction n as [|n IH]; intros a i M L; [lia|].
    destruct (in_dec (list_eq_dec ascii_dec) (current toks i) [b "ASAP2_VERSION"; b "A2ML_VERSION"; b "/begin PROJECT"]) as [I|I].
    - destruct (part_total i L I) as (f & v & [|] & j & P & J); [do 3 eexists; eapply AlPartErr; exact P|].
      pose proof (next_bound toks j (proj2 J)) as NB. destruct (moves toks j) eqn:MV.
      + assert (N : next toks j = S j) by (unfold next; rewrite MV; reflexivity). destruct (IH (fset f v a) (next toks j)) as (a' & e & k & A); [lia|lia|]. exists a', e, k. eapply AlPart; eauto.
      + assert (N : next toks j = j) by (unfold next; rewrite MV; reflexivity). pose proof (last_empty toks EN j MV) as E.
        exists (fset f v a), false, j. eapply AlPart; [exact P|]. rewrite N. apply AlStop; rewrite E; [intros [K|[K|[K|[]]]]; discriminate|reflexivity].
    - destruct (a2lOther (current toks i) a) as [e|q] eqn:D; [do 3 eexists; eapply AlStop; eauto|].
      destruct (current_moves toks i EN) as [N NL]; [intros Z; unfold a2lOther in D; rewrite Z in D; discriminate|].
      destruct (IH q (next toks i)) as (a' & e & k & A); [lia|lia|]. exists a', e, k. eapply AlGo; eauto.
  Qed.
End Total.

Section Fun.
  Variable toks : list bytes.
  Variable pf : bytes -> option spec_float.
  Variable module : nat -> val -> bool -> nat -> Prop.
  Hypothesis MF : forall i v e j v' e' j', module i v e j -> module i v' e' j' -> v = v' /\ e = e' /\ j = j'.

  Ltac same :=
    repeat match goal with
    | H : ?t = b ?x, K : ?t = b ?y |- _ => rewrite H in K; discriminate K
    | R : returns _ _ ?g ?i _ _ _, R' : returns _ _ ?g ?i _ _ _ |- _ =>
        destruct (returns_fun _ _ _ _ _ _ _ _ _ _ R R') as (? & ? & ?); clear R'; subst; try discriminate
    | R : module ?i _ _ _, R' : module ?i _ _ _ |- _ => destruct (MF _ _ _ _ _ _ _ R R') as (? & ? & ?); clear R'; subst; try discriminate
    | R : projectOther ?t ?p = _, R' : projectOther ?t ?p = _ |- _ => rewrite R in R'; try discriminate R'; injection R' as R'; subst
    | R : a2lOther ?t ?p = _, R' : a2lOther ?t ?p = _ |- _ => rewrite R in R'; try discriminate R'; injection R' as R'; subst
    end.

  Lemma project_fun : forall p i p1 e1 j1, project toks pf module p i p1 e1 j1 -> forall p2 e2 j2, project toks pf module p i p2 e2 j2 -> p1 = p2 /\ e1 = e2 /\ j1 = j2.
  Proof.
    induction 1 as [p i v j p1 e1 k T R P IH|p i v j T R|p i v j p1 e1 k T R P IH|p i v j T R|p i q p1 e1 k T1 T2 D P IH|p i e T1 T2 D];
      intros p2 e2 j2 Q; inversion Q; subst; same; try congruence; auto.
  Qed.
  Lemma part_fun : forall t i f v e j f' v' e' j', part toks pf module t i f v e j -> part toks pf module t i f' v' e' j' -> f = f' /\ v = v' /\ e = e' /\ j = j'.
  Proof.
    intros t i f v e j f' v' e' j' P Q. destruct P as [i v e j R|i v e j R|i p e j R]; inversion Q; subst; try discriminate; same; auto.
    match goal with H : project _ _ _ [] i _ _ _, K : project _ _ _ [] i _ _ _ |- _ => destruct (project_fun _ _ _ _ _ H _ _ _ K) as (-> & -> & ->) end. auto.
  Qed.
  Lemma part_in : forall t i f v e j, part toks pf module t i f v e j -> In t [b "ASAP2_VERSION"; b "A2ML_VERSION"; b "/begin PROJECT"].
  Proof. intros t i f v e j P. destruct P; cbn [In]; auto. Qed.
  Lemma a2l_fun : forall a i a1 e1 j1, a2l toks pf module a i a1 e1 j1 -> forall a2 e2 j2, a2l toks pf module a i a2 e2 j2 -> a1 = a2 /\ e1 = e2 /\ j1 = j2.
  Proof.
    induction 1 as [a i f v j a1 e1 k P A IH|a i f v j P|a i q a1 e1 k N D A IH|a i e N D]; intros a2 e2 j2 Q;
      inversion Q as [? ? f' v' j' ? ? ? P' A'|? ? f' v' j' P'|? ? q' ? ? ? N' D' A'|? ? ? N' D']; subst; same;
      try (exfalso; match goal with N : ~ In _ _, P : part _ _ _ _ _ _ _ _ _ |- _ => exact (N (part_in _ _ _ _ _ _ P)) end);
      try (destruct (part_fun _ _ _ _ _ _ _ _ _ _ P P') as (? & ? & ? & ?); subst; try discriminate); auto.
  Qed.
End Fun.

(** ** The two ways of parsing modules *)
Lemma header_bound : forall toks i o e j, i < length toks -> header toks i = (o, e, j) -> i <= j < length toks.
Proof.
  intros toks i o e j L H. unfold header in H. pose proof (next_bound toks i L) as B1. pose proof (next_bound toks (next toks i) (proj2 B1)) as B2.
  destruct (beqb (current toks (next toks i)) []); [injection H as <- <- <-; lia|]. destruct (beqb _ []); injection H as <- <- <-; lia.
Qed.
Lemma parallel_bound : forall toks pf np i v e j, i < length toks -> parallel toks pf np i v e j -> i <= j < length toks.
Proof.
  intros toks pf np i v e j L P. inversion P as [o e0 start H F|o e0 start stop outs s H F LT W ST FI]; subst.
  - eapply header_bound; eauto.
  - apply header_bound in H; [|exact L]. destruct (A2lModParts.firstEnd_lt toks 0); lia.
Qed.
Lemma module_total : forall toks pf np mt i, ended toks -> 0 < np -> i < length toks ->
  exists v e j, parsesModule toks pf np mt i v e j /\ i <= j < length toks.
Proof.
  intros toks pf np mt i EN NP L. destruct mt; cbn [parsesModule].
  - destruct (proj1 (C48_total toks pf np i EN NP L)) as (v & e & j & P). exists v, e, j. split; [exact P|]. eapply parallel_bound; eauto.
  - apply (C59_terminates "parseModule"); [listed|exact EN|exact L].
Qed.

(** ** What must have been read *)
Lemma project_end : forall toks pf module p i p' e j, ended toks -> project toks pf module p i p' e j -> e = false ->
  In (b "/end PROJECT") toks /\ (flist "Modules" p' <> flist "Modules" p -> exists k v l, module k v false l).
Proof.
  intros toks pf module p i p' e j EN P. induction P as [p i v j p' e k T R P IH|p i v j T R|p i v j p' e k T R P IH|p i v j T R|p i q p' e k T1 T2 D P IH|p i e T1 T2 D]; intros E; try discriminate.
  - destruct (IH E) as [I1 I2]. split; [exact I1|]. intros N. apply I2. unfold flist in *. rewrite fget_fset. exact N.
  - destruct (IH E) as [I1 I2]. split; [exact I1|]. eauto.
  - destruct (IH E) as [I1 I2]. split; [exact I1|]. intros N. apply I2. intros Z. apply N. rewrite Z. unfold projectOther in D.
    repeat (match type of D with context [if ?x then _ else _] => destruct x; try discriminate D end); injection D as <-; unfold flist; rewrite ?fget_fset; reflexivity.
  - split; [|intros Z; destruct Z; reflexivity]. unfold projectOther in D. destruct (beqb (current toks (next toks i)) []); [congruence|].
    destruct (beqb (current toks (next toks i)) (b "/end PROJECT")) eqn:B; [|destruct (isKeyword _); [congruence|]; destruct (fbool _ p); [destruct (fbool _ p)|]; discriminate].
    apply beqb_eq in B. rewrite <- B. unfold current. apply nth_In. apply Nat.lt_nge. intros L. unfold current in B. rewrite nth_overflow in B by exact L. discriminate.
Qed.
