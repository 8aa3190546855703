(** C75: what the parsers accept; files that were read without an error; C74,
    guarded: objects without an end keyword have all their parameters. *)
From Coq Require Import String Ascii List Arith NArith ZArith Bool Lia SpecFloat.
From Verif Require Import GoBase GoBaseFacts A2lIR A2lTokens A2lGrammar A2lForms A2lParsers A2lSpec A2lModProps A2lAcceptSpec A2lExplore A2lExploreThm.
From Verif Require TokModel TokThm A2lTextModel A2lFileModel A2lFileProps A2lNestProps.
Import ListNotations.

Lemma forms_check : forallb (fun p => forallb (fun q => if String.eqb (fst p) (fst q) then af (snd q) (Some (snd p)) someWord else true) allParsers) readForms = true.
Proof. vm_compute. reflexivity. Qed.

Lemma someWord_ok : forall pf t, t <> [] -> is pf someWord t.
Proof. intros pf t N. constructor; [intros _; exact N|discriminate|intros ? []|discriminate|intros ? []]. Qed.

(** If the parser of an object returns no error, the words from the first keyword
    to the place where it stops are an object of its form: for objects with an
    end keyword these are words that are no keywords, and keywords of this kind of
    object with the words that belong to them, in any order and number, then the end
    keyword; for all other objects these are exactly their parameters. *)
Theorem C75_accepted : forall name f g toks pf i v j, In (name, f) readForms -> In (name, g) allParsers -> ended toks ->
    current toks i <> [] -> returns toks pf g i v false j ->
    exists ts, j = i + length ts /\ firstn (length ts) (skipn (S i) toks) = ts /\ accepted pf f ts.
Proof.
  intros name f g toks pf i v j I J EN N [n R]. specialize (R n (le_n _)).
  pose proof (proj1 (forallb_forall _ _) forms_check _ I) as K. cbv beta in K. pose proof (proj1 (forallb_forall _ _) K _ J) as L. cbn [fst snd] in L.
  rewrite String.eqb_refl in L.
  assert (LT : i < length toks) by (destruct (Nat.lt_ge_cases i (length toks)) as [H|H]; [exact H|]; exfalso; apply N; unfold current; apply nth_overflow; exact H).
  destruct (af_ok toks pf n EN g (Some f) someWord i v j L LT (someWord_ok pf _ N) R) as (ts & E & _ & SL & A & _).
  exists ts. split; [exact E|]. split; [exact SL|exact A].
Qed.
Print Assumptions C75_accepted.

(** ** Files *)

(** What may stand at the top of a file. *)
Definition fileItems : list item := [
  Item "ASAP2_VERSION" "Asap2Version" Single asap2VersionForm;
  Item "A2ML_VERSION" "A2mlVersion" Single a2mlVersionForm;
  Item "/begin PROJECT" "Project" Single projectRead].

Definition a2lBody : block := match parseA2l with Loop _ body => body | _ => Skip end.
Definition a2lRound (r : bool * sy) : bool :=
  let y := snd r in
  if fst r : bool then if failed y then true else match y_mode y, y_parts y with Ok_, [p] => match exact p with Some s => String.eqb s "" | None => false end | _, _ => false end
  else match y_mode y, y_parts y with Ok_, Wd _ _ _ _ _ :: p :: ps => insideP "" (rev (p :: ps)) | _, _ => false end.
Lemma a2l_check : match xb fileItems false a2lBody (Sy Ok_ [unknown] None []) with Some l => forallb a2lRound l | None => false end = true.
Proof. vm_compute. reflexivity. Qed.

Section File.
  Variable toks : list bytes.
  Variable pf : bytes -> option spec_float.
  Variable fuel : nat.
  Hypothesis EN : ended toks.
  Notation run := (run isKeyword toks pf fuel).
  Notation current := (current toks).

  (** with the first word *)
  Lemma trail_all : forall its i0 ps i, trail toks pf its i0 ps i -> (match rev ps with Wd _ _ _ _ _ :: _ => True | _ => False end) ->
    exists ts, spells pf its (rev ps) ts /\ S i = i0 + length ts /\ slice toks i0 ts.
  Proof.
    intros its i0 ps i T. induction T as [p W L|ps i e k ns x no T IH L W|ps i kw f p sub ts e T IH I A SL L W]; intros F.
    - destruct p as [e k ns x no|e kw]; [|destruct F]. exists [current i0]. split; [repeat constructor; apply W|]. split; [cbn; lia|]. apply slice_one, L.
    - cbn [rev] in *. destruct IH as (us & A & E & B). { destruct (rev ps) as [|q qs] eqn:R; [exact (trail_ne _ _ _ _ _ _ T R)|exact F]. }
      exists (us ++ [current (S i)]). split; [apply spells_app; [exact A|repeat constructor; apply W]|]. split; [rewrite app_length; cbn; lia|].
      apply slice_app; [exact B|]. rewrite <- E. apply slice_one, L.
    - cbn [rev] in *. destruct IH as (us & B & E & C). { destruct (rev ps) as [|q qs] eqn:R; [exact (trail_ne _ _ _ _ _ _ T R)|exact F]. }
      exists (us ++ ts). split; [apply spells_app; [exact B|rewrite <- (app_nil_r ts); econstructor; [exact I|exact A|constructor]]|].
      split; [rewrite app_length; lia|]. apply slice_app; [exact C|]. rewrite <- E. exact SL.
  Qed.

  Variable its : list item.
  Variable body : block.
  Hypothesis CK : match xb its false body (Sy Ok_ [unknown] None []) with Some l => forallb a2lRound l | None => false end = true.
  Lemma a2l_rounds : forall m s s', s_idx s < length toks -> iter m (run body) s = Go s' -> s_err s' = false ->
    exists ts, s_idx s' = s_idx s + length ts /\ s_idx s' < length toks /\ slice toks (s_idx s) ts /\ inside pf its "" ts /\ current (s_idx s') = [].
  Proof.
    induction m as [|m IH]; intros s s' L IT NE; [discriminate|]. cbn [iter] in IT.
    pose proof CK as CK'. destruct (xb its false body (Sy Ok_ [unknown] None [])) as [l|] eqn:E; [|discriminate].
    assert (R : rel toks pf its false (s_idx s) (Sy Ok_ [unknown] None []) s).
    { constructor; [discriminate|discriminate|]. unfold place. cbn. constructor; [apply unknown_ok|exact L]. }
    pose proof (proj1 (proj2 (sound toks pf fuel EN)) body _ _ _ _ _ _ E R) as C. rewrite forallb_forall in CK'.
    destruct (run body s) as [s1|s1| |]; try discriminate; cbn [covers] in C; destruct C as (y & I & R1); apply CK' in I; unfold a2lRound in I; cbn [fst snd] in I.
    - destruct (y_mode y) eqn:M; try discriminate. pose proof (rel_trail _ _ _ _ _ _ _ R1 M) as T.
      destruct (y_parts y) as [|[e k ns x no|e kw] [|p ps]]; try discriminate.
      inversion T as [|? i ? ? ? ? ? T' L' W EQ EI|]; subst.
      destruct (trail_all _ _ _ _ T') as (ts1 & SP & J & SL).
      { destruct (rev (p :: ps)) as [|q qs] eqn:Q; [exact (trail_ne _ _ _ _ _ _ T' Q)|]. destruct q; [exact Logic.I|discriminate]. }
      destruct (IH s1 s') as (ts & J' & L2 & SL' & IN & CE); [rewrite <- EI; exact L'|exact IT|exact NE|].
      exists (ts1 ++ ts). rewrite <- EI in J', SL'. split; [rewrite app_length; lia|]. split; [exact L2|].
      split; [apply slice_app; [exact SL|]; rewrite <- J; exact SL'|]. split; [|exact CE].
      apply inside_app; [|exact IN]. eapply insideP_ok; [apply le_n|exact I|exact SP].
    - injection IT as <-. destruct (failed y) eqn:F; [pose proof (failed_ok _ _ _ _ _ _ _ F R1); congruence|].
      destruct (y_mode y) eqn:M; try discriminate. pose proof (rel_trail _ _ _ _ _ _ _ R1 M) as T.
      destruct (y_parts y) as [|p [|q ps]]; try discriminate. destruct (exact p) as [u|] eqn:X; [|discriminate]. apply String.eqb_eq in I. subst u.
      pose proof (exact_ok _ _ _ _ X (trail_is _ _ _ _ _ _ _ T)) as CE.
      assert (EI : s_idx s1 = s_idx s) by (inversion T; subst; try reflexivity; match goal with K : trail _ _ _ _ [] _ |- _ => inversion K end).
      exists []. split; [cbn; lia|]. split; [exact (trail_lt _ _ _ _ _ _ T)|]. split; [apply slice_nil|]. split; [constructor|exact CE].
  Qed.
End File.

Lemma a2l_loop : parseA2l = Loop Skip a2lBody.
Proof. reflexivity. Qed.

(** A file is read without an error by the sequential parser only if it consists
    of words that are no keywords and of version numbers and projects in their forms. *)
Theorem C75_a2l : forall toks pf v j, A2lNestSpec.closed toks -> returns toks pf parseA2l 0 v false j ->
    exists ts, toks = ts ++ [[]] /\ inside pf fileItems "" ts.
Proof.
  intros toks pf v j (l & E & N) [n R]. specialize (R n (le_n _)). rewrite a2l_loop, call_loop in R.
  change (run isKeyword toks pf n Skip (St [] [] false 0)) with (Go (St [] [] false 0)) in R. cbv beta iota in R.
  destruct (iter n (run isKeyword toks pf n a2lBody) (St [] [] false 0)) as [s'|s'| |] eqn:IT; try discriminate; [|exfalso; exact (iter_noout _ _ _ _ IT)].
  injection R as <- Q <-. assert (EN : ended toks) by (exists l; exact E).
  assert (LT : length toks = S (length l)) by (rewrite E, app_length; cbn; lia).
  destruct (a2l_rounds toks pf n EN fileItems a2lBody a2l_check n (St [] [] false 0) s') as (ts & J & L & SL & IN & CE); [cbn; lia|exact IT|exact Q|].
  exists ts. split; [|exact IN]. cbn [s_idx] in *. unfold slice in SL. cbn [skipn Nat.add] in *.
  assert (K : s_idx s' = length l).
  { destruct (Nat.lt_ge_cases (s_idx s') (length l)) as [H|H]; [|lia]. exfalso. apply N. unfold current in CE. rewrite E, app_nth1 in CE by exact H. rewrite <- CE. apply nth_In, H. }
  rewrite J in K. rewrite K, E in SL. rewrite firstn_app, Nat.sub_diag, firstn_all, app_nil_r in SL. cbn in SL. rewrite <- SL. exact E.
Qed.
Print Assumptions C75_a2l.

(** ParseFromFile on a file that is not read in parallel. *)
Theorem C75_file : forall gr pf cpus content t a, A2lFileModel.fileTokens gr cpus content (Some t) -> TokModel.tk_multithreading t = false ->
    A2lFileModel.parseFromFile gr pf cpus (Some content) (A2lFileModel.Returned a false) ->
    exists ts, TokModel.tk_list t = ts ++ [[]] /\ inside pf fileItems "" ts.
Proof.
  intros gr pf cpus content t a T MT P. apply (A2lFileProps.C65_sequential gr pf cpus content t _ T MT) in P.
  destruct P as (a' & e & j & EQ & R). injection EQ as <- <-. destruct (A2lNestProps.C68_tokens _ _ _ T) as (t' & ET & C). injection ET as <-.
  exact (C75_a2l _ _ _ _ C R).
Qed.
Print Assumptions C75_file.

(** ** C74 *)

(** An object without an end keyword of which a parameter is missing is reported:
    the file ends before it, or a keyword stands where a text is expected. *)
Theorem C74_fixed_guarded : forall name ps cs g toks pf i v e j k p, In (name, Fixed ps cs) readForms -> In (name, g) allParsers -> ended toks ->
    current toks i <> [] -> returns toks pf g i v e j -> nth_error ps k = Some p ->
    current toks (S i + k) = [] \/ p_type p = Text /\ isKeyword (current toks (S i + k)) = true -> e = true.
Proof.
  intros name ps cs g toks pf i v e j k p I J EN N R P H. destruct e; [reflexivity|exfalso].
  destruct (C75_accepted name _ g toks pf i v j I J EN N R) as (ts & E & SL & A). inversion A as [|? ? ? F| |]; subst. clear A I J R N.
  assert (K : exists t, nth_error ts k = Some t /\ fits pf (p_type p) t).
  { clear SL H. revert k P. induction F as [|q t ps' ts' Q _ IH]; intros [|k] P; try discriminate.
    - injection P as ->. exists t. split; [reflexivity|exact Q].
    - exact (IH k P). }
  destruct K as (t & T & (F1 & F2)).
  assert (C : current toks (S i + k) = t).
  { assert (KL : k < length ts) by (apply nth_error_Some; congruence). unfold current.
    assert (X : nth_error (skipn (S i) toks) k = Some t).
    { rewrite <- (firstn_skipn (length ts) (skipn (S i) toks)), SL. rewrite nth_error_app1 by exact KL. exact T. }
    revert X. generalize (S i). clear. intros n. revert toks. induction n as [|n IH]; intros toks X; [apply nth_error_nth, X|].
    destruct toks as [|x toks]; [destruct k; discriminate|]. cbn [skipn] in X. cbn. apply IH, X. }
  rewrite C in H. destruct H as [H|[H K]]; [exact (F1 H)|]. rewrite H in F2. congruence.
Qed.
Print Assumptions C74_fixed_guarded.

(** ** Examples *)

Definition groupTokens : list bytes := map b ["/begin GROUP"; "g1"; "words"; "ROOT"; "/begin SUB_GROUP"; "g2"; "g3"; "/end SUB_GROUP"; "/end GROUP"; ""]%string.
Example C75_example : forall pf, exists f v, In ("parseGroup"%string, f) readForms /\ In ("parseGroup"%string, parseGroup) allParsers /\ ended groupTokens
  /\ current groupTokens 0 <> [] /\ returns groupTokens pf parseGroup 0 v false 8.
Proof.
  intros pf. do 2 eexists. split; [unfold readForms; repeat (first [left; reflexivity|right])|].
  split; [unfold allParsers; repeat (first [left; reflexivity|right])|]. split; [exists (firstn 8 groupTokens ++ [b "/end GROUP"]); reflexivity|].
  split; [discriminate|]. apply (returns_run 50). vm_compute. reflexivity.
Qed.

(** Not every text is accepted: a group does not contain a measurement. *)
Example C75_excludes : forall pf t, ~ accepted pf groupForm [b "g1"; b "words"; b "/begin MEASUREMENT"; t].
Proof.
  intros pf t A. inversion A as [| | |ms ps g its stop cs ts t' IN EO EQ1 EQ2]; subst. clear A.
  assert (E : ts = [b "g1"; b "words"; b "/begin MEASUREMENT"]) by (apply (app_inj_tail ts [b "g1"; b "words"; b "/begin MEASUREMENT"] t' t EQ2)). subst ts.
  assert (W : forall s u us, inside pf (match groupForm with Block _ _ _ its _ _ => its | _ => [] end) s (u :: us) -> s = "/end GROUP"%string ->
     isKeyword u = false /\ inside pf (match groupForm with Block _ _ _ its _ _ => its | _ => [] end) s us \/ In u (map (fun i => match i with Item k _ _ _ => b k end) (match groupForm with Block _ _ _ its _ _ => its | _ => [] end))).
  { intros s u us H ->. inversion H as [|? ? ? ? W H'|? ? kw f p sub us1 us2 J AC H']; subst.
    - left. split; [|exact H']. destruct W as [[_ W]|[[W _]|[W|(k & W & _)]]]; [exact W| | |]; cbn in W; intuition discriminate.
    - right. apply in_map_iff. eexists. split; [|exact J]. reflexivity. }
  do 2 (apply W in IN; [|reflexivity]; destruct IN as [[_ IN]|IN]; [|vm_compute in IN; intuition discriminate]).
  apply W in IN; [|reflexivity]. destruct IN as [[IN _]|IN]; vm_compute in IN; intuition discriminate.
Qed.

Definition shortFile : bytes := b "ASAP2_VERSION 1 60 /begin PROJECT p q /begin MODULE m n /end MODULE /begin MODULE m n /end MODULE /end PROJECT".
Definition shortTokens : list bytes := map b
  ["ASAP2_VERSION"; "1"; "60"; "/begin PROJECT"; "p"; "q"; "/begin MODULE"; "m"; "n"; "/end MODULE"; "/begin MODULE"; "m"; "n"; "/end MODULE"; "/end PROJECT"; ""]%string.
Example C75_file_example : exists a, forall gr pf, A2lFileModel.fileTokens gr 1 shortFile (Some (TokModel.Tokens shortTokens false))
  /\ A2lFileModel.parseFromFile gr pf 1 (Some shortFile) (A2lFileModel.Returned a false).
Proof.
  eexists. intros gr pf. assert (T : A2lFileModel.fileTokens gr 1 shortFile (Some (TokModel.Tokens shortTokens false))).
  { unfold A2lFileModel.fileTokens. replace (A2lTextModel.cleanBytesString gr shortFile) with shortFile by (vm_compute; reflexivity).
    apply TokThm.exec_lex. vm_compute. reflexivity. }
  split; [exact T|]. apply (A2lFileProps.C65_sequential gr pf 1 shortFile _ _ T eq_refl). do 3 eexists. split; [reflexivity|].
  apply (returns_run 50). vm_compute. reflexivity.
Qed.

Definition shortVersion : list bytes := map b ["ASAP2_VERSION"; "1"; ""]%string.
Example C74_fixed_example : forall pf, exists ps v j, In ("parseASAP2Version"%string, Fixed ps []) readForms /\ In ("parseASAP2Version"%string, parseASAP2Version) allParsers
  /\ ended shortVersion /\ current shortVersion 0 <> [] /\ nth_error ps 1 <> None /\ current shortVersion (1 + 1) = [] /\ returns shortVersion pf parseASAP2Version 0 v true j.
Proof.
  intros pf. do 3 eexists. split; [unfold readForms; repeat (first [left; reflexivity|right])|].
  split; [unfold allParsers; repeat (first [left; reflexivity|right])|]. split; [exists (firstn 2 shortVersion); reflexivity|].
  split; [discriminate|]. split; [discriminate|]. split; [reflexivity|]. apply (returns_run 50). vm_compute. reflexivity.
Qed.

(** ** Surplus words *)

Definition surplusTokens : list bytes := map b ["/begin GROUP"; "g1"; "words"; "surplus"; "ROOT"; "1.5"; "/begin SUB_GROUP"; "g2"; "g3"; "/end SUB_GROUP"; "again"; "/end GROUP"; ""]%string.
(** Words that no rule of the language allows are skipped without an error: this
    object is read like the one without them. *)
Theorem C75_surplus_refuted : exists v, forall pf, returns groupTokens pf parseGroup 0 v false 8 /\ returns surplusTokens pf parseGroup 0 v false 11.
Proof. eexists. intros pf. split; apply (returns_run 50); vm_compute; reflexivity. Qed.
Print Assumptions C75_surplus_refuted.
