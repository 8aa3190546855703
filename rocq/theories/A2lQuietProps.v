(** Theorems of properties C48 and C65 on modules in which no token that begins an
    object or ends a module is taken for a word. *)
From Coq Require Import String Ascii List Arith Bool Lia SpecFloat.
From Verif Require Import GoBase GoBaseFacts A2lIR A2lTokens A2lParsers A2lThm A2lSpec A2lProps A2lModModel A2lModSpec A2lModStore A2lModSeq A2lModPar A2lModProps
  A2lFileModel A2lFileSpec A2lFileThm A2lFileProps A2lCutSpec A2lCut A2lCutProps A2lCutLost A2lQuietSpec A2lQuiet A2lQuietThm.
From Verif Require TokModel A2lNestSpec A2lNestThm A2lNestProps StrconvModel FloatTextProps.
Import ListNotations.

(** Every parser of an object of a module takes complete objects, or is one of [unread]. *)
Definition kindsCheck : bool :=
  forallb (fun k => match kndFn (fst (snd k)) with
                    | Whole _ => true
                    | _ => existsb (fun u => String.eqb (fst k) ("/begin " ++ fst u) && sameFn (fst (snd k)) (snd u)) unread
                    end) kinds.
Lemma kinds_check : kindsCheck = true. Proof. vm_compute. reflexivity. Qed.

Lemma closed_ended : forall toks, A2lNestSpec.closed toks -> ended toks.
Proof. intros toks (l & E & _). exists l. exact E. Qed.
Lemma closed_empty : forall toks i, A2lNestSpec.closed toks -> S i < length toks -> tok toks i <> [].
Proof.
  intros toks i CL L H. pose proof (A2lNestThm.empty_last toks (S (length toks)) CL ltac:(lia) i ltac:(lia) H). lia.
Qed.

Section Items.
  Variable toks : list bytes.
  Variable pf : bytes -> option spec_float.
  Hypothesis CL : A2lNestSpec.closed toks.
  Hypothesis RJ : A2lNestSpec.rejects pf.

  Lemma kind_behind : forall t g a i v j, In (t, (g, a)) kinds -> tok toks i = b t -> returns toks pf g i v false j -> i <= j -> S j < length toks ->
      behind toks pf i (S j).
  Proof.
    intros t g a i v j I T R IJ L. pose proof (proj1 (forallb_forall _ _) kinds_check _ I) as K. cbn [fst snd] in K.
    assert (U : existsb (fun u => String.eqb t ("/begin " ++ fst u) && sameFn g (snd u)) unread = true -> behind toks pf i (S j)).
    { intros H. apply existsb_exists in H. destruct H as ([x g'] & X & E). cbn [fst snd] in E. apply andb_true_iff in E. destruct E as [E1 E2].
      apply String.eqb_eq in E1. apply same_fn in E2. subst t g'. eapply behind_unread; [exact X|exact T|exact R|exact IJ|]. intros _. exists ("/begin " ++ x)%string, a. auto. }
    destruct (A2lNestProps.length_fuel _ _ _ _ _ _ _ R) as (fuel & FU & C).
    pose proof (knd_sound toks pf fuel CL RJ FU g i v j ltac:(lia) C) as KS.
    destruct (kndFn g) as [last| |]; [|apply U, K|apply U, K]. destruct KS as [(_ & _ & KS)|(_ & Z)]; [|lia].
    eapply behind_obj; eauto.
  Qed.

  Lemma content_behind : forall i items e, content toks pf i items e ->
      (forall x, In x items -> behind toks pf (it_from x) (S (it_to x))) /\
      ((forall k, i < k < e -> quietAt toks pf k) -> forall q, i < q < e -> tok toks q <> b "/end MODULE").
  Proof.
    intros i items e C. pose proof (content_bounds toks pf (closed_ended _ CL) _ _ _ C) as [B1 B2]. revert B1 B2.
    induction C as [i H|i items e W C IH|i t g a v j items e I T R C IH]; intros B1 B2.
    - split; [intros x []|]. intros _ q Q. lia.
    - pose proof (content_bounds toks pf (closed_ended _ CL) _ _ _ C) as [B3 B4]. destruct (IH B3 B4) as [I1 I2]. split; [exact I1|].
      intros Q q L. destruct (Nat.eq_dec q (S i)) as [->|D]; [|apply (I2 (fun k K => Q k ltac:(lia))); lia].
      destruct W as [_ W]. intros Z. rewrite Z in W. discriminate.
    - pose proof (content_bounds toks pf (closed_ended _ CL) _ _ _ C) as [B3 B4]. destruct (IH B3 B4) as [I1 I2].
      pose proof (B2 _ (or_introl eq_refl)) as BX. cbn [it_from it_to] in BX.
      assert (H : behind toks pf (S i) (S j)) by (eapply kind_behind; eauto; lia).
      split; [intros x [<-|X]; [exact H|apply I1, X]|].
      intros Q q L. destruct (Nat.le_gt_cases q j) as [A|A]; [|apply (I2 (fun k K => Q k ltac:(lia))); lia].
      apply (proj2 H); [lia|intros k K; apply Q; lia].
  Qed.
End Items.

(** In the objects of a module, whatever the borders, the objects behind a border
    are complete, and the module ends at the first token that ends a module. *)
Theorem C48_quiet_complete : forall toks pf i items stop,
    A2lNestSpec.closed toks -> A2lNestSpec.rejects pf -> isModule toks pf i items stop -> quiet toks pf (i + 2) stop ->
    (forall np, complete toks pf np (i + 2) stop items) /\
    ((forall q, q <= i -> tok toks q <> b "/end MODULE") -> clean toks stop).
Proof.
  intros toks pf i items stop CL RJ (W1 & W2 & C) Q. destruct (content_behind toks pf CL RJ _ _ _ C) as [H1 H2].
  pose proof (content_bounds toks pf (closed_ended _ CL) _ _ _ C) as [B1 B2]. split.
  - intros np p x _ X (CU1 & CU2). specialize (B2 x X). apply (proj1 (H1 x X) (fun k K => Q k ltac:(lia)) p (it_to x) eq_refl). lia.
  - intros F q L. split; [|apply closed_empty; [exact CL|lia]].
    destruct (Nat.le_gt_cases q i) as [A|A]; [apply F, A|].
    destruct (Nat.eq_dec q (i + 1)) as [->|D1]; [intros Z; rewrite Z in W1; destruct W1; discriminate|].
    destruct (Nat.eq_dec q (i + 2)) as [->|D2]; [intros Z; rewrite Z in W2; destruct W2; discriminate|].
    apply (H2 Q). lia.
Qed.
Print Assumptions C48_quiet_complete.

(** The first module of a file, if the sequential parser reads it without an
    error: the parallel one, with any number of goroutines, returns no error and
    ends at the same token; both hold what was read last. *)
Theorem C48_quiet_guarded : forall toks pf np i v stop v' e' j',
    A2lNestSpec.closed toks -> A2lNestSpec.rejects pf -> 0 < np -> word (tok toks (i + 1)) -> word (tok toks (i + 2)) ->
    (forall q, q <= i -> tok toks q <> b "/end MODULE") ->
    returns toks pf parseModule i v false stop -> quiet toks pf (i + 2) stop ->
    parallel toks pf np i v' e' j' ->
    e' = false /\ j' = stop /\
    exists items o o' shares, isModule toks pf i items stop /\ v = VObj o /\ v' = VObj o'
      /\ named o (tok toks (i + 1)) (tok toks (i + 2)) /\ named o' (tok toks (i + 1)) (tok toks (i + 2))
      /\ holdsLast o [stored items]
      /\ Forall2 (shareOf toks pf np (i + 2) stop items) (seq 0 np) shares /\ holdsLast o' (map stored shares).
Proof.
  intros toks pf np i v stop v' e' j' CL RJ NP W1 W2 F R Q P. pose proof (closed_ended _ CL) as EN.
  destruct (C48_sequential_last toks pf i v stop EN W1 W2 R) as (items & o & M & -> & N & H).
  destruct (C48_quiet_complete toks pf i items stop CL RJ M Q) as [CO CN].
  destruct (C48_any_guarded toks pf np i items stop v' e' j' EN NP M (CN F) (CO np) P) as (-> & -> & o' & shares & -> & N' & SH & H').
  split; [reflexivity|]. split; [reflexivity|]. exists items, o, o', shares. repeat (split; [first [reflexivity|assumption]|]). assumption.
Qed.
Print Assumptions C48_quiet_guarded.

(** A file with one module that the sequential parser reads without an error. *)
Theorem C65_quiet_guarded : forall gr pf cpus content t a j r, A2lNestSpec.rejects pf -> 0 < cpus -> fileTokens gr cpus content (Some t) -> TokModel.tk_multithreading t = true ->
    returns (TokModel.tk_list t) pf parseA2l 0 (VObj a) false j ->
    (forall i, tok (TokModel.tk_list t) i = b "/begin MODULE" ->
       word (tok (TokModel.tk_list t) (i + 1)) /\ word (tok (TokModel.tk_list t) (i + 2)) /\ (forall q, q <= i -> tok (TokModel.tk_list t) q <> b "/end MODULE")
       /\ exists v stop, returns (TokModel.tk_list t) pf parseModule i v false stop /\ quiet (TokModel.tk_list t) pf (i + 2) stop) ->
    parseFromFile gr pf cpus (Some content) r -> exists a', r = Returned a' false /\ likeFile (sharedOut (TokModel.tk_list t) pf (cpus * 2)) a a'.
Proof.
  intros gr pf cpus content t a j r RJ CP T MT R DV H.
  assert (CL : A2lNestSpec.closed (TokModel.tk_list t)).
  { destruct (A2lNestProps.C68_tokens _ _ _ T) as (t' & E & CL). injection E as <-. exact CL. }
  eapply C65_any_guarded; eauto. intros i TK. destruct (DV i TK) as (W1 & W2 & F & v & stop & RM & Q).
  destruct (C48_sequential_last _ pf i v stop (closed_ended _ CL) W1 W2 RM) as (items & o & M & _).
  destruct (C48_quiet_complete _ pf i items stop CL RJ M Q) as [CO CN]. exists items, stop. split; [exact M|]. split; [exact (CN F)|exact (CO _)].
Qed.
Print Assumptions C65_quiet_guarded.

(** ** The theorems apply: interface data in a group *)
Lemma cut_closed : A2lNestSpec.closed cutToks.
Proof. exists (firstn 16 cutToks). split; [reflexivity|]. cbn. intros H. repeat (destruct H as [H|H]; [discriminate H|]). exact H. Qed.
Lemma cut_quiet : forall pf, quiet cutToks pf 5 14.
Proof.
  intros pf i L x g v j X T R q Q. assert (i = 10) as ->.
  { cbn [In unread] in X. repeat (destruct X as [E|X]; [injection E as <- <-|]); try contradiction;
      do 15 (destruct i as [|i]; [try (exfalso; clear - L; lia); first [reflexivity|exfalso; vm_compute in T; discriminate T]|]); exfalso; clear - L; lia. }
  assert (g = parseIfData) as ->.
  { cbn [In unread] in X. repeat (destruct X as [E|X]; [injection E as <- <-; first [reflexivity|exfalso; vm_compute in T; discriminate T]|]). contradiction. }
  destruct R as [n R]. assert (R' : exists w, returns cutToks pf parseIfData 10 w false 12) by (eexists; apply (returns_run 50); vm_compute; reflexivity).
  destruct R' as [w [m R']]. pose proof (R (n + m) ltac:(lia)) as R1. rewrite (R' (n + m) ltac:(lia)) in R1. injection R1 as _ <-.
  intros LD. apply isLoud_iff in LD. assert (q = 11 \/ q = 12) as [->| ->] by lia; vm_compute in LD; discriminate LD.
Qed.
Example C48_quiet_example : A2lNestSpec.closed cutToks /\ A2lNestSpec.rejects StrconvModel.ParseFloat
  /\ word (tok cutToks 4) /\ word (tok cutToks 5) /\ (forall q, q <= 3 -> tok cutToks q <> b "/end MODULE")
  /\ (forall pf, quiet cutToks pf 5 14 /\ (exists v, returns cutToks pf parseModule 3 v false 14) /\ exists v e j, parallel cutToks pf 2 3 v e j)
  /\ (forall i, tok cutToks i = b "/begin MODULE" -> i = 3).
Proof.
  split; [exact cut_closed|]. split; [exact FloatTextProps.C87_keywords|]. split; [split; [discriminate|reflexivity]|]. split; [split; [discriminate|reflexivity]|].
  split; [intros q Q; do 4 (destruct q as [|q]; [discriminate|]); lia|]. split; [|exact cut_only].
  intros pf. split; [apply cut_quiet|]. split; [eexists; apply (returns_run 50); vm_compute; reflexivity|].
  apply C48_total; [apply closed_ended, cut_closed|lia|cbn; lia].
Qed.
