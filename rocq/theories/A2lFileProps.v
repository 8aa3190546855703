(** C65: reading an A2L file. *)
From Coq Require Import String Ascii List Arith NArith Bool Lia SpecFloat.
From Verif Require Import GoBase GoBaseFacts A2lIR A2lTokens A2lParsers A2lThm A2lSpec A2lProps A2lModModel A2lModSpec A2lModStore A2lModSeq A2lModProps
  A2lTextModel A2lTextProps A2lFileModel A2lFileSpec A2lFileThm.
From Verif Require TokModel TokSpec TokThm TokProps.
Import ListNotations.

(** The tokens of a file do not depend on the schedule, and end with the empty token. *)
Lemma tokens_one : forall gr cpus content r r', fileTokens gr cpus content r -> fileTokens gr cpus content r' -> r = r'.
Proof. intros gr cpus content r r' H H'. apply TokThm.exec_lex in H, H'. congruence. Qed.
Lemma tokens_ended : forall gr cpus content r, fileTokens gr cpus content r -> exists t, r = Some t /\ ended (TokModel.tk_list t).
Proof. intros gr cpus content r H. destruct (TokProps.C44_no_error _ _ _ H) as (t & -> & E). exists t. split; [reflexivity|]. eexists. exact E. Qed.
Lemma ended_length : forall toks, ended toks -> 0 < length toks.
Proof. intros toks [l ->]. rewrite app_length. cbn. lia. Qed.

(** ** The call returns *)

(** Whatever the file contains, there is an outcome, and no outcome is a panic.
    (C48_total and C47_terminates: the goroutines end under every schedule.) *)
Theorem C65_total : forall gr pf cpus file, 0 < cpus ->
    (exists r, parseFromFile gr pf cpus file r) /\ forall r, parseFromFile gr pf cpus file r -> exists a e, r = Returned a e.
Proof.
  intros gr pf cpus file CP. split.
  - destruct file as [content|]; [|eexists; apply PfNoFile].
    destruct (TokProps.C47_terminates (cpus * 2) (cleanBytesString gr content) ltac:(lia)) as (_ & _ & (t & T) & _).
    destruct (tokens_ended gr cpus content (Some t) T) as (t' & E & EN). injection E as <-.
    destruct (a2l_total (TokModel.tk_list t) pf EN (parsesModule (TokModel.tk_list t) pf (cpus * 2) (TokModel.tk_multithreading t))
      (fun i => module_total _ pf (cpus * 2) _ i EN ltac:(lia)) (length (TokModel.tk_list t)) [] 0 ltac:(lia) (ended_length _ EN)) as (a & e & j & A).
    eexists. eapply PfTokens; eauto.
  - intros r H. destruct H as [|content T|content t a e j T A]; eauto. destruct (tokens_ended _ _ _ _ T) as (t & E & _). discriminate.
Qed.
Print Assumptions C65_total.

(** ** Several modules: sequential parsing *)

(** A file with several modules is parsed by the program parseA2l of A2lParsers.v,
    to which the theorems C51-C59 and C64 apply; there is one outcome. *)
Theorem C65_sequential : forall gr pf cpus content t r, fileTokens gr cpus content (Some t) -> TokModel.tk_multithreading t = false ->
    (parseFromFile gr pf cpus (Some content) r <-> exists a e j, r = Returned a e /\ returns (TokModel.tk_list t) pf parseA2l 0 (VObj a) e j).
Proof.
  intros gr pf cpus content t r T MT. destruct (tokens_ended _ _ _ _ T) as (t' & E & EN). injection E as <-.
  assert (R : exists a e j, returns (TokModel.tk_list t) pf parseA2l 0 (VObj a) e j /\ a2l (TokModel.tk_list t) pf (returns (TokModel.tk_list t) pf parseModule) [] 0 a e j).
  { destruct (C59_terminates "parseA2l" parseA2l (TokModel.tk_list t) pf 0) as (v & e & j & R & _); [listed|exact EN|apply ended_length; exact EN|].
    pose proof R as R0. destruct R0 as [n R0]. destruct (a2l_call _ _ _ _ _ _ _ (R0 n (le_n _))) as (a & -> & A). eauto 6. }
  destruct R as (a0 & e0 & j0 & R & A). split.
  - intros H. inversion H as [|? T'|? t' a e j T' A']; subst; [pose proof (tokens_one _ _ _ _ _ T T'); discriminate|].
    pose proof (tokens_one _ _ _ _ _ T T') as E. injection E as <-. rewrite MT in A'. cbn [parsesModule] in A'.
    destruct (a2l_fun _ _ _ (returns_fun _ _ _) _ _ _ _ _ A _ _ _ A') as (-> & -> & ->). eauto.
  - intros (a & e & j & -> & R'). destruct (returns_fun _ _ _ _ _ _ _ _ _ _ R R') as (E & -> & ->). injection E as ->.
    eapply PfTokens; [exact T|]. rewrite MT. exact A.
Qed.
Print Assumptions C65_sequential.

(** ** One module: parallel parsing *)
Section Same.
  Variable toks : list bytes.
  Variable pf : bytes -> option spec_float.
  Variable np : nat.
  Variable same : val -> val -> Prop.
  Hypothesis MS : forall i v j v' e' j', tok toks i = b "/begin MODULE" -> returns toks pf parseModule i v false j -> parallel toks pf np i v' e' j' ->
    e' = false /\ j' = j /\ same v v'.

  Lemma same_fbool : forall f p p', f <> "Modules"%string -> likeProject same p p' -> fbool f p = fbool f p'.
  Proof. intros f p p' N [S1 _]. unfold fbool. rewrite (S1 f N). reflexivity. Qed.
  Lemma same_set : forall f v p p', f <> "Modules"%string -> likeProject same p p' -> likeProject same (fset f v p) (fset f v p').
  Proof.
    intros f v p p' N [S1 S2]. split.
    - intros g G. rewrite !fget_fset. destruct (String.eqb g f); [reflexivity|auto].
    - unfold flist in *. rewrite !fget_fset. assert (E : String.eqb "Modules" f = false) by (apply String.eqb_neq; congruence). rewrite E. exact S2.
  Qed.
  Lemma same_module : forall v v' p p', same v v' -> likeProject same p p' ->
    likeProject same (fset "Modules" (VList (flist "Modules" p ++ [v])) p) (fset "Modules" (VList (flist "Modules" p' ++ [v'])) p').
  Proof.
    intros v v' p p' M [S1 S2]. split.
    - intros g G. rewrite !fget_fset. assert (E : String.eqb g "Modules" = false) by (apply String.eqb_neq; exact G). rewrite E. auto.
    - set (l := flist "Modules" p) in *. set (l' := flist "Modules" p') in *. unfold flist. rewrite !fget_fset, String.eqb_refl. apply Forall2_app; auto.
  Qed.
  Lemma same_other : forall t p p', likeProject same p p' ->
    match projectOther t p with
    | Stop e => projectOther t p' = Stop e
    | Cont q => exists q', projectOther t p' = Cont q' /\ likeProject same q q'
    end.
  Proof.
    intros t p p' SP. unfold projectOther. rewrite <- (same_fbool "nameSet" p p'), <- (same_fbool "longIdentifierSet" p p') by (discriminate || assumption).
    destruct (beqb t []); [reflexivity|]. destruct (beqb t _); [reflexivity|]. destruct (isKeyword t); [reflexivity|].
    destruct (fbool "nameSet" p); [destruct (fbool "longIdentifierSet" p)|]; (eexists; split; [reflexivity|]); [exact SP| |]; repeat apply same_set; try discriminate; exact SP.
  Qed.

  Lemma project_same : forall p i p1 e1 j1, project toks pf (returns toks pf parseModule) p i p1 e1 j1 -> e1 = false -> forall p', likeProject same p p' ->
    forall p2 e2 j2, project toks pf (parallel toks pf np) p' i p2 e2 j2 -> e2 = false /\ j2 = j1 /\ likeProject same p1 p2.
  Proof.
    intros p i p1 e1 j1 P. induction P as [p i v j p1 e1 k T R P IH|p i v j T R|p i v j p1 e1 k T R P IH|p i v j T R|p i q p1 e1 k T1 T2 D P IH|p i e T1 T2 D];
      intros E p' SP p2 e2 j2 Q; try discriminate; subst;
      inversion Q as [? ? v' j' ? ? ? T' R' P'|? ? v' j' T' R'|? ? v' j' ? ? ? T' R' P'|? ? v' j' T' R'|? ? q' ? ? ? T1' T2' D' P'|? ? e' T1' T2' D']; subst;
      try congruence; try (rewrite T in T'; discriminate T').
    - destruct (returns_fun _ _ _ _ _ _ _ _ _ _ R R') as (-> & _ & ->). eapply IH; [reflexivity| |exact P']. apply same_set; [discriminate|exact SP].
    - destruct (returns_fun _ _ _ _ _ _ _ _ _ _ R R') as (_ & E & _). discriminate.
    - destruct (nextTok_moves toks i) as [N NL]; [rewrite T; discriminate|].
      assert (TK : tok toks (next toks i) = b "/begin MODULE") by (rewrite <- T; unfold nextTok, moves; rewrite (proj2 (Nat.ltb_lt _ _) NL), N; reflexivity).
      destruct (MS _ _ _ _ _ _ TK R R') as (_ & -> & M). eapply IH; [reflexivity| |exact P']. apply same_module; assumption.
    - destruct (nextTok_moves toks i) as [N NL]; [rewrite T; discriminate|].
      assert (TK : tok toks (next toks i) = b "/begin MODULE") by (rewrite <- T; unfold nextTok, moves; rewrite (proj2 (Nat.ltb_lt _ _) NL), N; reflexivity).
      destruct (MS _ _ _ _ _ _ TK R R') as (E & _ & _). discriminate.
    - pose proof (same_other (current toks (next toks i)) p _ SP) as O. rewrite D in O. destruct O as (q2 & O & SQ). rewrite O in D'. injection D' as <-. eapply IH; eauto.
    - pose proof (same_other (current toks (next toks i)) p _ SP) as O. rewrite D in O. destruct O as (q2 & O & SQ). rewrite O in D'. discriminate.
    - pose proof (same_other (current toks (next toks i)) p _ SP) as O. rewrite D in O. rewrite O in D'. discriminate.
    - pose proof (same_other (current toks (next toks i)) p _ SP) as O. rewrite D in O. rewrite O in D'. injection D' as <-. auto.
  Qed.

  Lemma same_empty : likeProject same [] [].
  Proof. split; [reflexivity|constructor]. Qed.
  Lemma part_same : forall t i f v j, part toks pf (returns toks pf parseModule) t i f v false j ->
    forall f' v' e' j', part toks pf (parallel toks pf np) t i f' v' e' j' ->
    f' = f /\ e' = false /\ j' = j /\ (if String.eqb f "Project" then exists p p', v = VObj p /\ v' = VObj p' /\ likeProject same p p' else v' = v).
  Proof.
    intros t i f v j P f' v' e' j' Q. inversion P as [? ? ? ? R|? ? ? ? R|? p ? ? R]; subst; inversion Q as [? ? ? ? R'|? ? ? ? R'|? p' ? ? R']; subst; try discriminate.
    - destruct (returns_fun _ _ _ _ _ _ _ _ _ _ R R') as (-> & <- & ->). repeat split; reflexivity.
    - destruct (returns_fun _ _ _ _ _ _ _ _ _ _ R R') as (-> & <- & ->). repeat split; reflexivity.
    - destruct (project_same _ _ _ _ _ R eq_refl [] same_empty _ _ _ R') as (-> & -> & SP). repeat (split; [reflexivity|]). cbn. eauto 6.
  Qed.
  Lemma same_file_set : forall f v v' a a', (if String.eqb f "Project" then exists p p', v = VObj p /\ v' = VObj p' /\ likeProject same p p' else v' = v) ->
    likeFile same a a' -> likeFile same (fset f v a) (fset f v' a').
  Proof.
    intros f v v' a a' V [S1 S2]. destruct (String.eqb f "Project") eqn:F.
    - apply String.eqb_eq in F. subst f. destruct V as (p & p' & -> & -> & SP). split.
      + intros g G. rewrite !fget_fset, (proj2 (String.eqb_neq _ _) G). auto.
      + rewrite !fget_fset. exact SP.
    - subst v'. split.
      + intros g G. rewrite !fget_fset. destruct (String.eqb g f); auto.
      + rewrite !fget_fset. rewrite String.eqb_sym in F. rewrite F. exact S2.
  Qed.

  Lemma a2l_same : forall a i a1 e1 j1, a2l toks pf (returns toks pf parseModule) a i a1 e1 j1 -> e1 = false -> forall a', likeFile same a a' ->
    forall a2 e2 j2, a2l toks pf (parallel toks pf np) a' i a2 e2 j2 -> e2 = false /\ likeFile same a1 a2.
  Proof.
    intros a i a1 e1 j1 A. induction A as [a i f v j a1 e1 k P A IH|a i f v j P|a i q a1 e1 k N D A IH|a i e N D]; intros E a' SF a2 e2 j2 Q; try discriminate; subst;
      inversion Q as [? ? f' v' j' ? ? ? P' A'|? ? f' v' j' P'|? ? q' ? ? ? N' D' A'|? ? ? N' D']; subst;
      try (exfalso; match goal with N : ~ In _ _, P : part _ _ _ _ _ _ _ _ _ |- _ => exact (N (part_in _ _ _ _ _ _ _ _ _ P)) end).
    - destruct (part_same _ _ _ _ _ P _ _ _ _ P') as (-> & _ & -> & V). eapply IH; [reflexivity| |exact A']. apply same_file_set; assumption.
    - destruct (part_same _ _ _ _ _ P _ _ _ _ P') as (_ & K & _). discriminate.
    - assert (q = a /\ q' = a') as [-> ->] by (unfold a2lOther in *; destruct (beqb _ []); [discriminate|]; destruct (isKeyword _); [discriminate|]; split; congruence).
      eapply IH; eauto.
    - exfalso. unfold a2lOther in *. destruct (beqb _ []); [discriminate|]. destruct (isKeyword _); discriminate.
    - exfalso. unfold a2lOther in *. destruct (beqb _ []); [discriminate|]. destruct (isKeyword _); discriminate.
    - assert (e2 = false) as -> by (unfold a2lOther in *; destruct (beqb _ []); [congruence|]; destruct (isKeyword _); congruence). auto.
  Qed.
End Same.

(** If the sequential parser reads the file without an error and every module in
    it is [divisible], then every outcome is without an error, and the modules lack
    exactly the objects that begin at a border between two goroutines' shares. *)
Lemma file_like : forall gr pf cpus content t a j r same, 0 < cpus -> fileTokens gr cpus content (Some t) -> TokModel.tk_multithreading t = true ->
    returns (TokModel.tk_list t) pf parseA2l 0 (VObj a) false j ->
    (forall i v j v' e' j', tok (TokModel.tk_list t) i = b "/begin MODULE" -> returns (TokModel.tk_list t) pf parseModule i v false j ->
       parallel (TokModel.tk_list t) pf (cpus * 2) i v' e' j' -> e' = false /\ j' = j /\ same v v') ->
    parseFromFile gr pf cpus (Some content) r -> exists a', r = Returned a' false /\ likeFile same a a'.
Proof.
  intros gr pf cpus content t a j r same CP T MT R MS H. destruct (tokens_ended _ _ _ _ T) as (t' & E & EN). injection E as <-.
  inversion H as [|? T'|? t' a2 e2 j2 T' A2]; subst; [pose proof (tokens_one _ _ _ _ _ T T'); discriminate|].
  pose proof (tokens_one _ _ _ _ _ T T') as E. injection E as <-. rewrite MT in A2. cbn [parsesModule] in A2.
  destruct R as [n R]. destruct (a2l_call _ _ _ _ _ _ _ (R n (le_n _))) as (a0 & E & A). injection E as <-.
  destruct (a2l_same _ pf (cpus * 2) same MS _ _ _ _ _ A eq_refl [] ltac:(split; [reflexivity|exact Logic.I]) _ _ _ A2) as (-> & SF). eauto.
Qed.

Theorem C65_as_read : forall gr pf cpus content t a j r, 0 < cpus -> fileTokens gr cpus content (Some t) -> TokModel.tk_multithreading t = true ->
    returns (TokModel.tk_list t) pf parseA2l 0 (VObj a) false j ->
    (forall i, tok (TokModel.tk_list t) i = b "/begin MODULE" -> divisible (TokModel.tk_list t) pf (cpus * 2) i) ->
    parseFromFile gr pf cpus (Some content) r -> exists a', r = Returned a' false /\ likeFile (lacksBorders (TokModel.tk_list t) pf (cpus * 2)) a a'.
Proof.
  intros gr pf cpus content t a j r CP T MT R DV H. destruct (tokens_ended _ _ _ _ T) as (t' & E & EN). injection E as <-.
  eapply file_like; eauto. intros i v k v' e' k' TK RM P. destruct (DV i TK) as (items & stop & M & CL & TD & DI). pose proof M as (W1 & W2 & C).
  destruct (C48_sequential _ pf i v k EN W1 W2 RM) as (items2 & o & (_ & _ & C2) & -> & N & HO).
  destruct (content_fun _ _ _ _ _ C _ _ C2) as [-> ->].
  destruct (C48_as_read _ pf (cpus * 2) i items stop v' e' k' EN ltac:(lia) M CL TD DI P) as (-> & -> & o' & kept & -> & N' & HO' & K).
  split; [reflexivity|]. split; [reflexivity|]. do 8 eexists. split; [exact TK|]. split; [exact M|]. split; [reflexivity|]. split; [reflexivity|]. split; [exact N|]. split; [exact N'|]. split; [apply HO; exact DI|]. split; [exact HO'|exact K].
Qed.
Print Assumptions C65_as_read.

(** If moreover no object begins at a border, the content is the same, for every
    number of CPUs and every schedule. *)
Theorem C65_guarded : forall gr pf cpus content t a j r, 0 < cpus -> fileTokens gr cpus content (Some t) -> TokModel.tk_multithreading t = true ->
    returns (TokModel.tk_list t) pf parseA2l 0 (VObj a) false j ->
    (forall i, tok (TokModel.tk_list t) i = b "/begin MODULE" -> divisible (TokModel.tk_list t) pf (cpus * 2) i /\ inside (TokModel.tk_list t) pf (cpus * 2) i) ->
    parseFromFile gr pf cpus (Some content) r -> exists a', r = Returned a' false /\ likeFile sameModule a a'.
Proof.
  intros gr pf cpus content t a j r CP T MT R DV H. destruct (tokens_ended _ _ _ _ T) as (t' & E & EN). injection E as <-.
  eapply file_like; eauto. intros i v k v' e' k' TK RM P. destruct (DV i TK) as ((items & stop & M & CL & TD & DI) & IN). pose proof M as (W1 & W2 & C).
  destruct (C48_sequential _ pf i v k EN W1 W2 RM) as (items2 & o2 & (_ & _ & C2) & _).
  destruct (content_fun _ _ _ _ _ C _ _ C2) as [_ ->].
  destruct (C48_guarded _ pf (cpus * 2) i items v stop v' e' k' EN ltac:(lia) M RM CL TD DI (fun x => IN items stop x M) P) as (-> & -> & o & o' & -> & -> & N & N' & HO & HO').
  split; [reflexivity|]. split; [reflexivity|]. do 5 eexists. split; [reflexivity|]. split; [reflexivity|]. split; [exact N|]. split; [exact N'|]. eauto.
Qed.
Print Assumptions C65_guarded.

(** ** Incomplete files *)

(** A project or a module that does not end is an error. *)
Lemma part_project : forall toks pf module t i f v e j, part toks pf module t i f v e j -> f = "Project"%string -> exists p, v = VObj p /\ project toks pf module [] i p e j.
Proof. intros toks pf module t i f v e j P E. destruct P; try discriminate. eauto. Qed.
Lemma a2l_complete : forall toks pf module a i a' e j, ended toks -> a2l toks pf module a i a' e j -> e = false ->
  fget "Project" a' = fget "Project" a \/ exists p, fget "Project" a' = Some (VObj p) /\ In (b "/end PROJECT") toks /\ (flist "Modules" p <> [] -> exists k v l, module k v false l).
Proof.
  intros toks pf module a i a' e j EN A. induction A as [a i f v j a' e k P A IH|a i f v j P|a i q a' e k N D A IH|a i e N D]; intros E; try discriminate; auto.
  - destruct (IH E) as [Q|Q]; [|right; exact Q]. rewrite Q, fget_fset. destruct (String.eqb "Project" f) eqn:F; [|left; reflexivity].
    apply String.eqb_eq in F. subst f. destruct (part_project _ _ _ _ _ _ _ _ _ P eq_refl) as (p & -> & PR). right. exists p. split; [reflexivity|].
    exact (project_end _ _ _ _ _ _ _ _ EN PR eq_refl).
  - assert (q = a) as -> by (unfold a2lOther in D; destruct (beqb _ []); [discriminate|]; destruct (isKeyword _); [discriminate|]; congruence). auto.
Qed.
Lemma firstEnd_in : forall l k, 0 < firstEnd l k -> In (b "/end MODULE") l.
Proof.
  induction l as [|t l IH]; intros k H; [cbn in H; lia|]. cbn [firstEnd] in H. destruct (beqb t (b "/end MODULE")) eqn:B; [left; apply beqb_eq; exact B|right; eapply IH; exact H].
Qed.
Lemma parallel_end : forall toks pf np i v e j, parallel toks pf np i v e j -> e = false -> In (b "/end MODULE") toks.
Proof. intros toks pf np i v e j P E. destruct P as [o e start H F|o e start stop outs s H F LT]; [discriminate|]. apply (firstEnd_in toks 0). lia. Qed.
Lemma module_end : forall toks pf np mt i v j, ended toks -> parsesModule toks pf np mt i v false j -> In (b "/end MODULE") toks.
Proof.
  intros toks pf np mt i v j EN P. destruct mt; cbn [parsesModule] in P.
  - eapply parallel_end; eauto.
  - destruct (lt_dec i (length toks)) as [L|L].
    + destruct (C59_end_guarded "parseModule" "/end MODULE" parseModule toks pf i) as (v' & e' & j' & R & K); [listed|listed|discriminate|exact EN|exact L|].
      destruct (returns_fun _ _ _ _ _ _ _ _ _ _ P R) as (_ & <- & <-). destruct (K eq_refl) as [B E]. rewrite <- E. apply nth_In. lia.
    + exfalso. destruct P as [n P]. specialize (P (S n) ltac:(lia)). clear - P L EN.
      assert (T : nextTok toks i = [] /\ next toks i = i /\ current toks i = []).
      { unfold nextTok, next. assert (M : moves toks i = false) by (unfold moves; apply Nat.ltb_ge; lia). rewrite M. repeat split. apply last_empty; assumption. }
      destruct T as (T1 & T2 & T3). rewrite mod_shape in P.
      destruct (A2lIR.run isKeyword toks pf (S n) modPre (St [] [] false i)) as [s|s| |] eqn:RP.
      2,3,4: vm_compute in RP; discriminate.
      rewrite (call_loop toks pf (S n) modPre modBody i s RP) in P.
      assert (SI : s_idx s = i) by (vm_compute in RP; injection RP as <-; reflexivity).
      cbn [iter] in P. rewrite (default_round toks pf (S n) s), default_steps in P by (rewrite SI, T1; reflexivity). cbn [setIdx s_idx s_obj] in P. rewrite SI, T2, T3 in P. cbn in P. discriminate.
Qed.

Theorem C65_complete : forall gr pf cpus content t r a p, 0 < cpus -> fileTokens gr cpus content (Some t) ->
    parseFromFile gr pf cpus (Some content) r -> r = Returned a false -> fget "Project" a = Some (VObj p) ->
    In (b "/end PROJECT") (TokModel.tk_list t) /\ (flist "Modules" p <> [] -> In (b "/end MODULE") (TokModel.tk_list t)).
Proof.
  intros gr pf cpus content t r a p CP T H E P. subst r. destruct (tokens_ended _ _ _ _ T) as (t' & E & EN). injection E as <-.
  inversion H as [|? T'|? t' a2 e2 j2 T' A2]; subst. pose proof (tokens_one _ _ _ _ _ T T') as E. injection E as <-.
  destruct (a2l_complete _ _ _ _ _ _ _ _ EN A2 eq_refl) as [Q|(p' & Q & I1 & I2)]; [rewrite P in Q; discriminate|].
  rewrite P in Q. injection Q as <-. split; [exact I1|]. intros N. destruct (I2 N) as (k & v & l & M). eapply module_end; eauto.
Qed.
Print Assumptions C65_complete.

(** Not every text is an A2L file, but a text without a keyword is read without an
    error; the result has no project. *)
Theorem C65_no_project_refuted : exists content, forall gr pf cpus r, 0 < cpus -> parseFromFile gr pf cpus (Some content) r -> r = Returned [] false.
Proof.
  exists (b "hello world"). intros gr pf cpus r CP H. assert (T : fileTokens gr cpus (b "hello world") (Some (TokModel.Tokens [b "hello"; b "world"; []] true))).
  { unfold fileTokens. replace (cleanBytesString gr (b "hello world")) with (b "hello world") by (vm_compute; reflexivity).
    apply (TokProps.C42_lines_guarded _ _ [b "hello world"] [[[b "hello"]; [b "world"]]]); [lia|split; [reflexivity|split; [discriminate|repeat constructor; apply TokProps.no_byte; reflexivity]]| |].
    - constructor; [|constructor]. apply TokSpec.li_items. repeat (apply TokProps.items_plain; [apply TokProps.plain_dec; reflexivity|]). constructor.
    - eexists. split; [reflexivity|]. split; [reflexivity|]. cbn [TokModel.tk_multithreading]. split; [intros _|reflexivity]. vm_compute. discriminate. }
  assert (A : forall module, a2l [b "hello"; b "world"; []] pf module [] 0 [] false 2).
  { intros module. eapply AlGo; [intros [K|[K|[K|[]]]]; discriminate|reflexivity|]. eapply AlGo; [intros [K|[K|[K|[]]]]; discriminate|reflexivity|].
    eapply AlStop; [intros [K|[K|[K|[]]]]; discriminate|reflexivity]. }
  inversion H as [|? T'|? t' a2 e2 j2 T' A2]; subst; pose proof (tokens_one _ _ _ _ _ T T') as E; [discriminate|]. injection E as <-. cbn [TokModel.tk_list TokModel.tk_multithreading] in A2.
  assert (F : forall module a2 e2 j2, a2l [b "hello"; b "world"; []] pf module [] 0 a2 e2 j2 -> a2 = [] /\ e2 = false).
  { clear. intros module a e j A. 
    inversion A as [? ? f' v' j' ? ? ? P' A'|? ? f' v' j' P'|? ? q' ? ? ? N' D' A'|? ? ? N' D']; subst; try (apply part_in in P'; destruct P' as [K|[K|[K|[]]]]; discriminate); vm_compute in D'; [|discriminate].
    injection D' as <-. clear A. rename A' into A.
    inversion A as [? ? f' v' j' ? ? ? P' A'|? ? f' v' j' P'|? ? q' ? ? ? N'' D' A'|? ? ? N'' D']; subst; try (apply part_in in P'; destruct P' as [K|[K|[K|[]]]]; discriminate); vm_compute in D'; [|discriminate].
    injection D' as <-. clear A. rename A' into A.
    inversion A as [? ? f' v' j' ? ? ? P' A'|? ? f' v' j' P'|? ? q' ? ? ? N3 D' A'|? ? ? N3 D']; subst; try (apply part_in in P'; destruct P' as [K|[K|[K|[]]]]; discriminate); vm_compute in D'; [discriminate|].
    injection D' as <-. auto. }
  destruct (F _ _ _ _ A2) as [-> ->]. reflexivity.
Qed.
Print Assumptions C65_no_project_refuted.

(** ** From the text *)

(** The tokens of a file of self-contained lines (C42) that begins and ends with a
    printable ASCII character and has no backslash. *)
Theorem C65_tokens_guarded : forall gr cpus c s d lines gss, 0 < cpus -> tableOk gr ->
    (32 <= N_of_ascii c <= 126)%N -> (32 <= N_of_ascii d <= 126)%N -> TokSpec.text_of lines (c :: s ++ [d]) ->
    Forall2 TokSpec.line_items (map TokModel.fields lines) gss ->
    forall r, fileTokens gr cpus (c :: s ++ [d]) r <-> TokProps.delivers (concat gss) r.
Proof.
  intros gr cpus c s d lines gss CP G C D T L r. unfold fileTokens. rewrite C62_unchanged_guarded; [|exact G| |exact C|exact D].
  - apply (TokProps.C42_lines_guarded (cpus * 2) _ lines gss); [lia|exact T|exact L].
  - destruct T as (E & _ & F). rewrite E. clear - F. intros I. revert I. induction F as [|l ls [H1 H2] F IH]; [intros []|].
    destruct ls as [|l' ls]; cbn [HexSpec.join]; [exact H2|]. intros I. rewrite !in_app_iff in I. destruct I as [I|[I|I]]; [exact (H2 I)|destruct I as [I|[]]; discriminate|exact (IH I)].
Qed.
Print Assumptions C65_tokens_guarded.

(** A file that cannot be read is an error. *)
Theorem C65_unreadable : forall gr pf cpus r, parseFromFile gr pf cpus None r <-> r = Returned [] true.
Proof. intros gr pf cpus r. split; [intros H; inversion H; reflexivity|intros ->; apply PfNoFile]. Qed.
Print Assumptions C65_unreadable.
