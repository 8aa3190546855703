(** Theorem of property C65 on files that the sequential parser refuses. *)
From Coq Require Import String Ascii List Arith Bool Lia SpecFloat.
From Verif Require Import GoBase GoBaseFacts A2lIR A2lTokens A2lParsers A2lThm A2lSpec A2lProps A2lModModel A2lModSpec A2lModStore A2lModSeq A2lModPar A2lModProps
  A2lFileModel A2lFileSpec A2lFileThm A2lFileProps A2lCutSpec A2lCut A2lCutProps A2lCutLost A2lQuietSpec A2lQuiet A2lQuietThm A2lQuietProps A2lLooseSpec A2lLoose A2lLooseProps.
From Verif Require TokModel TokSpec TokProps A2lNestSpec A2lNestThm A2lNestProps StrconvModel FloatTextProps.
Import ListNotations.

Section Fails.
  Variable toks : list bytes.
  Variable pf : bytes -> option spec_float.
  Variable np : nat.
  Hypothesis MS : forall i v e j v' e' j', tok toks i = b "/begin MODULE" -> returns toks pf parseModule i v e j -> parallel toks pf np i v' e' j' ->
    e' = e /\ (e = false -> j' = j).
  Notation any := (fun _ _ : val => True).

  Lemma project_verdict : forall p i p1 e1 j1, project toks pf (returns toks pf parseModule) p i p1 e1 j1 -> forall p', likeProject any p p' ->
    forall p2 e2 j2, project toks pf (parallel toks pf np) p' i p2 e2 j2 -> e2 = e1 /\ (e1 = false -> j2 = j1).
  Proof.
    intros p i p1 e1 j1 P. induction P as [p i v j p1 e1 k T R P IH|p i v j T R|p i v j p1 e1 k T R P IH|p i v j T R|p i q p1 e1 k T1 T2 D P IH|p i e T1 T2 D];
      intros p' SP p2 e2 j2 Q; subst;
      inversion Q as [? ? v' j' ? ? ? T' R' P'|? ? v' j' T' R'|? ? v' j' ? ? ? T' R' P'|? ? v' j' T' R'|? ? q' ? ? ? T1' T2' D' P'|? ? e' T1' T2' D']; subst;
      try congruence; try (rewrite T in T'; discriminate T');
      try (destruct (returns_fun _ _ _ _ _ _ _ _ _ _ R R') as (EV & EE & EJ); try discriminate EE);
      try (destruct (nextTok_moves toks i) as [N NL]; [rewrite T; discriminate|];
        assert (TK : tok toks (next toks i) = b "/begin MODULE") by (rewrite <- T; unfold nextTok, moves; rewrite (proj2 (Nat.ltb_lt _ _) NL), N; reflexivity);
        destruct (MS _ _ _ _ _ _ _ TK R R') as (ME & MJ); try discriminate ME);
      try (pose proof (same_other any (current toks (next toks i)) p _ SP) as O; rewrite D in O).
    - subst. eapply IH; [|exact P']. apply same_set; [discriminate|exact SP].
    - split; [reflexivity|discriminate].
    - rewrite (MJ eq_refl) in P'. eapply IH; [|exact P']. apply same_module; [exact Logic.I|exact SP].
    - split; [reflexivity|discriminate].
    - destruct O as (q2 & O & SQ). rewrite O in D'. injection D' as <-. eapply IH; eauto.
    - destruct O as (q2 & O & SQ). rewrite O in D'. discriminate.
    - rewrite O in D'. discriminate.
    - rewrite O in D'. injection D' as <-. auto.
  Qed.
  Lemma part_verdict : forall t i f v e j, part toks pf (returns toks pf parseModule) t i f v e j ->
    forall f' v' e' j', part toks pf (parallel toks pf np) t i f' v' e' j' -> e' = e /\ (e = false -> j' = j).
  Proof.
    intros t i f v e j P f' v' e' j' Q. inversion P as [? ? ? ? R|? ? ? ? R|? p ? ? R]; subst; inversion Q as [? ? ? ? R'|? ? ? ? R'|? p' ? ? R']; subst; try discriminate.
    - destruct (returns_fun _ _ _ _ _ _ _ _ _ _ R R') as (-> & <- & ->). auto.
    - destruct (returns_fun _ _ _ _ _ _ _ _ _ _ R R') as (-> & <- & ->). auto.
    - exact (project_verdict _ _ _ _ _ R [] (same_empty any) _ _ _ R').
  Qed.
  Lemma a2l_verdict : forall a i a1 e1 j1, a2l toks pf (returns toks pf parseModule) a i a1 e1 j1 -> forall a' a2 e2 j2, a2l toks pf (parallel toks pf np) a' i a2 e2 j2 -> e2 = e1.
  Proof.
    intros a i a1 e1 j1 A. induction A as [a i f v j a1 e1 k P A IH|a i f v j P|a i q a1 e1 k N D A IH|a i e N D]; intros a' a2 e2 j2 Q;
      inversion Q as [? ? f' v' j' ? ? ? P' A'|? ? f' v' j' P'|? ? q' ? ? ? N' D' A'|? ? ? N' D']; subst;
      try (exfalso; match goal with N : ~ In _ _, P : part _ _ _ _ _ _ _ _ _ |- _ => exact (N (part_in _ _ _ _ _ _ _ _ _ P)) end);
      try (destruct (part_verdict _ _ _ _ _ _ P _ _ _ _ P') as (E & J); try discriminate E); try reflexivity.
    - rewrite (J eq_refl) in A'. eapply IH; eauto.
    - eapply IH; eauto.
    - exfalso. unfold a2lOther in *. destruct (beqb _ []); [discriminate|]. destruct (isKeyword _); discriminate.
    - exfalso. unfold a2lOther in *. destruct (beqb _ []); [discriminate|]. destruct (isKeyword _); discriminate.
    - unfold a2lOther in *; destruct (beqb _ []); [congruence|]; destruct (isKeyword _); congruence.
  Qed.
End Fails.

Lemma nested_behind : forall toks pf i e l, A2lNestSpec.closed toks -> A2lNestSpec.rejects pf -> nestedIn toks pf i e l -> S e < length toks ->
  forall x, In x l -> behind toks pf (it_from x) (S (it_to x)).
Proof.
  intros toks pf i e l CL RJ H L. pose proof (closed_ended _ CL) as EN. induction H as [e|i e l N H IH|i t g a v j e l I T R H IH]; intros x X; [destruct X|auto|].
  destruct X as [<-|X]; [|auto]. cbn [it_from it_to]. pose proof (nested_bounds toks pf EN _ _ _ H) as [B _].
  pose proof (returns_after toks pf EN _ _ _ _ _ _ I (tok_length toks _ _ _ _ I T) R). eapply kind_behind; eauto; lia.
Qed.

(** A file with one module.  The sequential parser reads the module without an error,
    or comes to an object that its parser refuses, which no border falls on.  Then
    both parsers report an error in the file, or neither does. *)
Theorem C65_verdict_guarded : forall gr pf cpus content t a e j r, A2lNestSpec.rejects pf -> 0 < cpus -> fileTokens gr cpus content (Some t) -> TokModel.tk_multithreading t = true ->
    returns (TokModel.tk_list t) pf parseA2l 0 (VObj a) e j ->
    (forall i, tok (TokModel.tk_list t) i = b "/begin MODULE" ->
       word (tok (TokModel.tk_list t) (i + 1)) /\ word (tok (TokModel.tk_list t) (i + 2)) /\
       exists stop, i + 2 < stop /\ (forall q, q < stop -> tok (TokModel.tk_list t) q <> b "/end MODULE") /\ tok (TokModel.tk_list t) stop = b "/end MODULE"
         /\ quiet (TokModel.tk_list t) pf (i + 2) stop
         /\ ((exists v, returns (TokModel.tk_list t) pf parseModule i v false stop)
             \/ exists items p, broken (TokModel.tk_list t) pf (i + 2) items p /\ p < stop /\ ~ border (cpus * 2) (i + 2) stop p)) ->
    parseFromFile gr pf cpus (Some content) r -> exists a', r = Returned a' e.
Proof.
  intros gr pf cpus content t a e j r RJ CP T MT R DV H.
  assert (CL : A2lNestSpec.closed (TokModel.tk_list t)).
  { destruct (A2lNestProps.C68_tokens _ _ _ T) as (t' & E & CL). injection E as <-. exact CL. }
  pose proof (closed_ended _ CL) as EN.
  inversion H as [|? T'|? t' a2 e2 j2 T' A2]; subst; [pose proof (tokens_one _ _ _ _ _ T T'); discriminate|].
  pose proof (tokens_one _ _ _ _ _ T T') as E. injection E as <-. rewrite MT in A2. cbn [parsesModule] in A2. clear H T'.
  destruct R as [n R]. destruct (a2l_call _ _ _ _ _ _ _ (R n (le_n _))) as (a0 & E & A). injection E as <-.
  exists a2. f_equal. eapply a2l_verdict; [|exact A|exact A2]. clear A A2 R a j a2 e2 j2.
  intros i v f j v' f' j' TK RM P. destruct (DV i TK) as (W1 & W2 & stop & LS & FE & TE & QU & D). clear DV.
  set (toks := TokModel.tk_list t) in *.
  assert (LE : stop < length toks) by (exact (tok_length' _ _ _ TE ltac:(discriminate))).
  assert (CN : clean toks stop) by (intros q Q; split; [apply FE, Q|apply closed_empty; [exact CL|lia]]).
  destruct D as [(w & RS)|(items & p & BR & LP & NB)].
  - destruct (returns_fun _ _ _ _ _ _ _ _ _ _ RS RM) as (-> & -> & ->).
    destruct (C48_quiet_guarded toks pf (cpus * 2) i w stop v' f' j' CL RJ ltac:(lia) W1 W2 (fun q Q => FE q ltac:(lia)) RS QU P) as (-> & -> & _). auto.
  - assert (f = true) as ->.
    { destruct (C48_sequential_error toks pf i EN (tok_length' _ _ _ TK ltac:(discriminate)) W1 W2) as [_ SE].
      destruct SE as (w & k & RS); [exists items, p; left; exact BR|]. destruct (returns_fun _ _ _ _ _ _ _ _ _ _ RS RM) as (_ & E & _). congruence. }
    split; [|discriminate]. eapply (C48_error_any_guarded toks pf (cpus * 2) i items p stop v' f' j'); eauto; [lia|].
    destruct (broken_nested toks pf _ _ _ BR) as (d & t0 & g & a & v0 & j0 & -> & N & _).
    intros q x _ X (CU1 & CU2). pose proof (nested_bounds toks pf EN _ _ _ N) as [_ BX]. specialize (BX x X).
    pose proof (nested_behind toks pf _ _ _ CL RJ N ltac:(lia) x X) as BH. apply (proj1 BH (fun k K => QU k ltac:(lia)) q (it_to x) eq_refl). lia.
Qed.
Print Assumptions C65_verdict_guarded.

(** ** The theorem applies: a group that its parser refuses *)
Definition badText : bytes := b "/begin PROJECT P L /begin MODULE M L /begin GROUP G a /begin UNIT /end GROUP /end MODULE /end PROJECT".
Definition badToks : list bytes := map b ["/begin PROJECT"; "P"; "L"; "/begin MODULE"; "M"; "L"; "/begin GROUP"; "G"; "a"; "/begin UNIT"; "/end GROUP"; "/end MODULE"; "/end PROJECT"; ""]%string.
Lemma bad_tokens : forall gr cpus, 0 < cpus -> fileTokens gr cpus badText (Some (TokModel.Tokens badToks true)).
Proof.
  intros gr cpus CP. unfold fileTokens. replace (A2lTextModel.cleanBytesString gr badText) with badText by (vm_compute; reflexivity).
  apply (TokProps.C42_lines_guarded _ _ [badText] [map TokModel.fields (firstn 13 badToks)]); [lia|split; [reflexivity|split; [discriminate|repeat constructor; apply TokProps.no_byte; reflexivity]]| |].
  - constructor; [|constructor]. apply TokSpec.li_items. change (map TokModel.fields (firstn 13 badToks)) with
      [[b "/begin"; b "PROJECT"]; [b "P"]; [b "L"]; [b "/begin"; b "MODULE"]; [b "M"]; [b "L"]; [b "/begin"; b "GROUP"]; [b "G"]; [b "a"];
       [b "/begin"; b "UNIT"]; [b "/end"; b "GROUP"]; [b "/end"; b "MODULE"]; [b "/end"; b "PROJECT"]].
    change (TokModel.fields badText) with (map b ["/begin"; "PROJECT"; "P"; "L"; "/begin"; "MODULE"; "M"; "L"; "/begin"; "GROUP"; "G"; "a";
       "/begin"; "UNIT"; "/end"; "GROUP"; "/end"; "MODULE"; "/end"; "PROJECT"]%string). cbn [map].
    repeat first [apply TokProps.items_pair; [first [left; reflexivity|right; reflexivity]|] | apply TokProps.items_plain; [apply TokProps.plain_dec; reflexivity|]]. constructor.
  - eexists. split; [reflexivity|]. split; [reflexivity|]. cbn [TokModel.tk_multithreading]. split; [intros _|reflexivity]. vm_compute. discriminate.
Qed.
Example C65_verdict_example : forall gr pf, fileTokens gr 1 badText (Some (TokModel.Tokens badToks true))
  /\ (exists a j, returns badToks pf parseA2l 0 (VObj a) true j)
  /\ (forall i, tok badToks i = b "/begin MODULE" ->
       word (tok badToks (i + 1)) /\ word (tok badToks (i + 2)) /\
       exists stop, i + 2 < stop /\ (forall q, q < stop -> tok badToks q <> b "/end MODULE") /\ tok badToks stop = b "/end MODULE" /\ quiet badToks pf (i + 2) stop
         /\ ((exists v, returns badToks pf parseModule i v false stop) \/ exists items p, broken badToks pf (i + 2) items p /\ p < stop /\ ~ border (1 * 2) (i + 2) stop p))
  /\ exists r, parseFromFile gr pf 1 (Some badText) r.
Proof.
  intros gr pf. split; [apply bad_tokens; lia|]. split; [|split; [|apply C65_total; lia]].
  - do 2 eexists. apply (returns_run 50). vm_compute. reflexivity.
  - intros i T. assert (i = 3) as ->.
    { revert T. do 14 (destruct i as [|i]; [intros H; first [reflexivity|discriminate H]|]). destruct i; discriminate. }
    split; [aWord|]. split; [aWord|]. exists 11. split; [lia|]. split; [intros q Q; do 11 (destruct q as [|q]; [discriminate|]); lia|]. split; [reflexivity|]. split.
    + intros i L x g v j X T'. exfalso. cbn [In unread] in X. repeat (destruct X as [E|X]; [injection E as <- <-|]); try contradiction;
        do 11 (destruct i as [|i]; [first [clear - L; lia|vm_compute in T'; discriminate T']|]); clear - L; lia.
    + right. exists [], 6. split; [eapply (BrkHere _ _ _ "/begin GROUP"%string); [inKinds|reflexivity|apply (returns_run 50); vm_compute; reflexivity]|].
      split; [lia|]. intros B. apply (border_two 5 11) in B. discriminate B.
Qed.
