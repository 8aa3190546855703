(** Property C48 on modules with less than two tokens for each goroutine. *)
From Coq Require Import String Ascii List Arith Bool Lia SpecFloat Permutation.
From Verif Require Import GoBase GoBaseFacts A2lIR A2lTokens A2lParsers A2lThm A2lSpec A2lProps FanModel FanProofs A2lModModel A2lModSpec A2lModStore A2lModSeq A2lModPar A2lModParts A2lModProps
  A2lFileModel A2lFileSpec A2lFileThm A2lFileProps A2lCutSpec A2lCut A2lCutProps A2lCutLost A2lLooseSpec A2lLoose.
From Verif Require TokModel TokSpec TokProps A2lTextModel.
Import ListNotations.

(** What the collectors have at the end. *)
Lemma run_shares : forall (pf : bytes -> option spec_float) np name long outs shares s,
    Forall2 sends outs shares -> (forall sh x, In sh shares -> In x (stored sh) -> In (fst x) actions) ->
    fsteps (capOf np) (finit outs closing) s -> ffinal s ->
    f_got s errChan = [] /\ named (collected (f_got s) (headOf name long)) name long /\ holdsLast (collected (f_got s) (headOf name long)) (map stored shares).
Proof.
  intros pf np name long outs shares s S2 S3 ST FI.
  assert (OB : forall l m, In l outs -> In m l -> object m).
  { intros l m I J. destruct (F2_in_l _ _ _ _ _ S2 l I) as (sh & _ & Q & _). exact (proj1 (Forall_forall _ _) Q m J). }
  assert (IV : inv closing outs s).
  { eapply inv_steps; [|exact ST]. apply inv_init; [exact closing_nodup|]. intros l m I J. exact (proj1 (OB l m I J)). }
  destruct (fan_final _ _ _ _ IV FI) as (tr & SH & GT); [discriminate|]. pose proof (shuffle_perm _ _ _ SH) as PM.
  assert (ER : f_got s errChan = []).
  { rewrite GT by (left; reflexivity). unfold on. assert (NE : forall m, In m tr -> fst m <> errChan).
    { intros m M. apply (Permutation_in _ (Permutation_sym PM)) in M. apply in_concat in M. destruct M as (l & I & J). exact (proj2 (OB l m I J)). }
    clear - NE. induction tr as [|m tr IH]; [reflexivity|]. cbn [filter]. destruct (String.eqb_spec (fst m) errChan) as [E|E]; [destruct (NE m (or_introl eq_refl) E)|].
    apply IH. intros x X. apply NE. right. exact X. }
  split; [exact ER|]. rewrite collected_store.
  assert (GA : forall x, In x (gathered (f_got s)) -> In (fst x) actions).
  { intros x X. assert (PX : In x (acts tr)) by (eapply Permutation_in; [apply gathered_perm; intros c I; apply GT; apply closing_channels; exact I|exact X]).
    apply acts_in in PX. destruct PX as (m & M & A & V). apply (Permutation_in _ (Permutation_sym PM)) in M. apply in_concat in M. destruct M as (l & I & J).
    destruct (F2_in_l _ _ _ _ _ S2 l I) as (sh & SI & _ & AE). apply (S3 sh x SI). rewrite <- AE. apply acts_in. exists m. auto. }
  assert (LG : forall t g a x v, In (t, (g, a)) kinds -> lastAt a x (gathered (f_got s)) v <-> lastAt a x (acts tr) v).
  { intros t g a x v I. destruct (kind_chan t g a I) as [c A]. rewrite (lastAt_filter a x (gathered _)), (lastAt_filter a x (acts tr)), (gathered_kind _ a c A), (acts_kind _ a c A), GT; [reflexivity|].
    apply closing_channels. destruct (chan_of _ _ A) as [n K]. apply (in_map fst _ _ K). }
  split; [apply (store_named pf); exact GA|]. intros t g a x I. split.
  - intros v F. apply (store_found _ _ a x v (head_fresh pf _ _) (kind_action _ _ _ I) GA) in F. apply (LG t g a x v I) in F.
    destruct (shuffle_last _ _ a x v SH F) as (l & L & Q). destruct (F2_in_l _ _ _ _ _ S2 l L) as (sh & SI & _ & AE). exists (stored sh). split; [apply in_map; exact SI|]. rewrite <- AE. exact Q.
  - intros F l v L Q. apply in_map_iff in L. destruct L as (sh & <- & SI). destruct (F2_in_r _ _ _ _ _ S2 sh SI) as (out & OI & _ & AE). rewrite <- AE in Q. apply lastAt_in in Q. destruct Q as [Q N].
    assert (IT : In (a, v) (acts tr)).
    { apply acts_in in Q. destruct Q as (m & M & A & V). apply acts_in. exists m. split; [|auto]. eapply Permutation_in; [exact PM|]. apply in_concat. eauto. }
    destruct (lastAt_some a x _ v IT N) as [w LW]. apply (LG t g a x w I) in LW. apply (store_found _ _ a x w (head_fresh pf name long) (kind_action _ _ _ I) GA) in LW. congruence.
Qed.

(** The index from which the last goroutine reads. *)
Definition lastFrom (np start stop : nat) : nat := if stop - start <? np then start else start + np - 1.

Lemma quotient : forall np start stop, 0 < np -> start < stop -> stop - start < 2 * np -> (stop - start) / np = (if stop - start <? np then 0 else 1).
Proof.
  intros np start stop NP L SH. destruct (Nat.ltb_spec (stop - start) np) as [H|H]; [apply Nat.div_small; exact H|].
  symmetry. apply (Nat.div_unique _ _ 1 (stop - start - np)); lia.
Qed.

Section Short.
  Variable toks : list bytes.
  Variable pf : bytes -> option spec_float.
  Hypothesis EN : ended toks.

  (** All goroutines but the last have nothing to read. *)
  Lemma short_outs : forall np start stop outs, 0 < np -> 0 < start -> start < stop -> stop - start < 2 * np ->
    Forall2 (fun k out => loops toks pf (maxIndex np start stop k) (minIndex np start stop k) out) (seq 0 np) outs ->
    exists out, outs = repeat [] (np - 1) ++ [out] /\ loops toks pf stop (lastFrom np start stop) out.
  Proof.
    intros np start stop outs NP ST L SH F2. pose proof (quotient np start stop NP L SH) as Q.
    destruct np as [|n]; [lia|]. rewrite seq_S in F2. apply Forall2_app_inv_l in F2. destruct F2 as (o1 & o2 & F1 & F2 & ->).
    inversion F2 as [|? out ? ? LO N]; subst. inversion N; subst. exists out. replace (S n - 1) with n by lia. cbn [Nat.add] in *. split.
    - f_equal. assert (K : forall ks o1, (forall k, In k ks -> k < n) -> Forall2 (fun k out => loops toks pf (maxIndex (S n) start stop k) (minIndex (S n) start stop k) out) ks o1 -> o1 = repeat [] (length ks)).
      { clear F1 o1. induction ks as [|k ks IH]; intros o1 H F; inversion F as [|? x ? xs LX FX]; subst; [reflexivity|]. cbn [length repeat]. f_equal; [|apply IH; [intros; apply H; right; assumption|exact FX]].
        apply (loops_fun toks pf _ _ _ _ LX). apply loopsAt_loops. apply loop_stop. specialize (H k (or_introl eq_refl)).
        unfold maxIndex. destruct (Nat.eqb_spec (S k) (S n)); [lia|]. rewrite Q. unfold minIndex. destruct (stop - start <? S n); lia. }
      rewrite (K (seq 0 n) o1) by (auto; intros k I; apply in_seq in I; lia). rewrite seq_length. reflexivity.
    - unfold maxIndex in LO. rewrite Nat.eqb_refl in LO. unfold minIndex in LO. rewrite Q in LO. unfold lastFrom.
      destruct (stop - start <? S n); [replace (start + 0 * n) with start in LO by lia|replace (start + 1 * n) with (start + S n - 1) in LO by lia]; exact LO.
  Qed.
End Short.

Lemma holds_empty : forall o n l, holdsLast o (map stored (repeat [] n ++ [l])) -> holdsLast o [stored l].
Proof.
  intros o n l H t g a x I. destruct (H t g a x I) as [H1 H2]. split.
  - intros v F. destruct (H1 v F) as (k & K & LK). exists k. split; [|exact LK]. rewrite map_app in K. apply in_app_or in K. destruct K as [K|K]; [|exact K].
    exfalso. apply in_map_iff in K. destruct K as (y & <- & Y). apply repeat_spec in Y. subst y. destruct LK as (l1 & l2 & E & _). destruct l1; discriminate.
  - intros F k v [<-|[]]. apply (H2 F). rewrite map_app. apply in_or_app. right. left. reflexivity.
Qed.

(** If a module has less than two tokens for each goroutine, only the last goroutine
    reads: everything, if there are fewer tokens than goroutines; otherwise only
    from token [i + 1 + np] on.  What stands before is not even looked at. *)
Theorem C48_short : forall toks pf np i stop l v e j,
    ended toks -> 0 < np -> word (tok toks (i + 1)) -> word (tok toks (i + 2)) -> i + 2 < stop -> clean toks stop -> tok toks stop = b "/end MODULE" ->
    stop - (i + 2) < 2 * np -> nestedIn toks pf (lastFrom np (i + 2) stop) (stop - 1) l ->
    parallel toks pf np i v e j ->
    e = false /\ j = stop /\ exists o, v = VObj o /\ named o (tok toks (i + 1)) (tok toks (i + 2)) /\ holdsLast o [stored l].
Proof.
  intros toks pf np i stop l v e j EN NP W1 W2 LS CL TE SH N PAR. pose proof (header_words toks i W1 W2) as HW.
  assert (FE : firstEnd toks 0 = stop) by (apply (firstEnd_at toks 0 stop); [intros p P; apply (CL p P)|exact TE]).
  destruct PAR as [o e start H1 H2|o e start stop' outs s H1 H2 H3 F2 ST FI]; [exfalso; rewrite HW in H1; injection H1 as <- <- <-; lia|].
  rewrite HW in H1. injection H1 as <- <- <-. rewrite FE in H2. subst stop'.
  destruct (short_outs toks pf np (i + 2) stop outs NP ltac:(lia) LS SH F2) as (out & -> & LO).
  assert (LT : stop < length toks).
  { destruct (lt_dec stop (length toks)) as [L|L]; [exact L|]. unfold tok in TE. rewrite nth_overflow in TE by lia. discriminate. }
  destruct (loose_worker toks pf EN stop (stop - 1) (lastFrom np (i + 2) stop) l) as (out' & LO' & SO); [lia|replace (S (stop - 1)) with stop by lia; exact TE|replace (S (stop - 1)) with stop by lia; exact CL|exact N|].
  rewrite (loops_fun toks pf _ _ _ _ LO (loopsAt_loops toks pf _ _ _ LO')) in *. clear LO LO'.
  pose proof (nested_bounds toks pf EN _ _ _ N) as [_ BN].
  assert (FL : filter (inRange (lastFrom np (i + 2) stop) stop) l = l).
  { clear - BN LS. induction l as [|x l IH]; [reflexivity|]. cbn [filter]. pose proof (BN x (or_introl eq_refl)) as B. unfold inRange at 1.
    rewrite (proj2 (Nat.ltb_lt _ _)) by lia. rewrite (proj2 (Nat.leb_le _ _)) by lia. cbn [andb]. f_equal. apply IH. intros y Y. apply BN. right. exact Y. }
  rewrite FL in SO.
  destruct (run_shares pf np (tok toks (i + 1)) (tok toks (i + 2)) (repeat [] (np - 1) ++ [out']) (repeat [] (np - 1) ++ [l]) s) as (ER & NM & HL); auto.
  - apply Forall2_app; [|constructor; [exact SO|constructor]]. generalize (np - 1). intros n. induction n as [|n IH]; constructor; auto. split; [constructor|reflexivity].
  - intros sh x SI X. apply in_app_or in SI. destruct SI as [SI|[<-|[]]]; [apply repeat_spec in SI; subst sh; destruct X|]. exact (nested_actions toks pf _ _ _ N x X).
  - rewrite ER. split; [reflexivity|]. split; [reflexivity|]. eexists. split; [reflexivity|]. split; [exact NM|]. exact (holds_empty _ _ _ HL).
Qed.
Print Assumptions C48_short.

(** As many goroutines as tokens: whatever stands in the module, the result is a
    module without objects, and no error. *)
Theorem C48_all_lost : forall toks pf i stop v e j,
    ended toks -> word (tok toks (i + 1)) -> word (tok toks (i + 2)) -> i + 2 < stop -> clean toks stop -> tok toks stop = b "/end MODULE" ->
    parallel toks pf (stop - (i + 2)) i v e j ->
    e = false /\ j = stop /\ exists o, v = VObj o /\ named o (tok toks (i + 1)) (tok toks (i + 2)) /\ forall t g a x, In (t, (g, a)) kinds -> found o a x = None.
Proof.
  intros toks pf i stop v e j EN W1 W2 LS CL TE P.
  destruct (C48_short toks pf (stop - (i + 2)) i stop [] v e j EN ltac:(lia) W1 W2 LS CL TE ltac:(lia)) as (-> & -> & o & -> & N & H); [|exact P|].
  - unfold lastFrom. rewrite Nat.ltb_irrefl. replace (i + 2 + (stop - (i + 2)) - 1) with (stop - 1) by lia. constructor.
  - split; [reflexivity|]. split; [reflexivity|]. exists o. split; [reflexivity|]. split; [exact N|]. intros t g a x I.
    destruct (found o a x) as [w|] eqn:F; [|reflexivity]. destruct (proj1 (H t g a x I) w F) as (l & [<-|[]] & l1 & l2 & E & _). destruct l1; discriminate.
Qed.
Print Assumptions C48_all_lost.

Lemma last_one : forall a x l v w, lastAt a x l v -> lastAt a x l w -> v = w.
Proof.
  intros a x l v w (l1 & l2 & E & N & M) (k1 & k2 & E' & N' & M'). rewrite E in E'. clear E. revert k1 E'.
  induction l1 as [|y l1 IH]; intros [|z k1] E'; cbn [app] in E'.
  - injection E' as -> _. reflexivity.
  - injection E' as _ E'. subst l2. exfalso. apply (M w); [apply in_or_app; right; left; reflexivity|exact N'].
  - injection E' as _ E'. subst k2. exfalso. apply (M' v); [apply in_or_app; right; left; reflexivity|exact N].
  - injection E' as _ E'. exact (IH _ E').
Qed.
Lemma holds_one : forall o o' l t g a x, holdsLast o [l] -> holdsLast o' [l] -> In (t, (g, a)) kinds -> found o a x = found o' a x.
Proof.
  intros o o' l t g a x H H' I. destruct (H t g a x I) as [A B], (H' t g a x I) as [A' B'].
  destruct (found o a x) as [v|] eqn:F, (found o' a x) as [w|] eqn:F'; try reflexivity.
  - destruct (A v eq_refl) as (k & [<-|[]] & K), (A' w eq_refl) as (k' & [<-|[]] & K'). f_equal. exact (last_one _ _ _ _ _ K K').
  - destruct (A v eq_refl) as (k & [<-|[]] & K). exfalso. exact (B' eq_refl l v (or_introl eq_refl) K).
  - destruct (A' w eq_refl) as (k & [<-|[]] & K). exfalso. exact (B eq_refl l w (or_introl eq_refl) K).
Qed.

(** Two modules that agree in their names and in every object. *)
Definition agree (v w : val) : Prop :=
  exists o o' name long, v = VObj o /\ w = VObj o' /\ named o name long /\ named o' name long /\ forall t g a x, In (t, (g, a)) kinds -> found o a x = found o' a x.

(** Fewer tokens than goroutines: the result is that of the sequential parser. *)
Theorem C48_short_guarded : forall toks pf np i v stop v' e' j',
    ended toks -> word (tok toks (i + 1)) -> word (tok toks (i + 2)) -> returns toks pf parseModule i v false stop -> clean toks stop -> stop - (i + 2) < np ->
    parallel toks pf np i v' e' j' -> e' = false /\ j' = stop /\ agree v v'.
Proof.
  intros toks pf np i v stop v' e' j' EN W1 W2 R CL SH P.
  destruct (C48_sequential_last toks pf i v stop EN W1 W2 R) as (items & o & (_ & _ & C) & -> & N & H).
  pose proof (content_bounds toks pf EN _ _ _ C) as [B _]. destruct (content_nested toks pf _ _ _ C) as (d & -> & NE).
  destruct (C48_short toks pf np i (S d) items v' e' j' EN ltac:(lia) W1 W2 ltac:(lia) CL (content_end toks pf _ _ _ C) ltac:(lia)) as (-> & -> & o' & -> & N' & H'); [|exact P|].
  - unfold lastFrom. rewrite (proj2 (Nat.ltb_lt _ _) SH). replace (S d - 1) with d by lia. exact NE.
  - split; [reflexivity|]. split; [reflexivity|]. exists o, o', (tok toks (i + 1)), (tok toks (i + 2)). repeat (split; [first [reflexivity|assumption]|]).
    intros t g a x I. exact (holds_one _ _ _ _ _ _ _ H H' I).
Qed.
Print Assumptions C48_short_guarded.

(** ** Files *)
(** The second module has the same names and no objects. *)
Definition emptied (v w : val) : Prop :=
  exists o o' name long, v = VObj o /\ w = VObj o' /\ named o name long /\ named o' name long /\ forall t g a x, In (t, (g, a)) kinds -> found o' a x = None.

(** The file that the sequential parser reads without an error, on a computer with
    half as many CPUs as its module has tokens: no error, and nothing in the module. *)
Theorem C65_all_lost : forall gr pf cpus content t a j r, 0 < cpus -> fileTokens gr cpus content (Some t) -> TokModel.tk_multithreading t = true ->
    returns (TokModel.tk_list t) pf parseA2l 0 (VObj a) false j ->
    (forall i, tok (TokModel.tk_list t) i = b "/begin MODULE" -> word (tok (TokModel.tk_list t) (i + 1)) /\ word (tok (TokModel.tk_list t) (i + 2))
       /\ exists v stop, returns (TokModel.tk_list t) pf parseModule i v false stop /\ clean (TokModel.tk_list t) stop /\ stop - (i + 2) = cpus * 2) ->
    parseFromFile gr pf cpus (Some content) r -> exists a', r = Returned a' false /\ likeFile emptied a a'.
Proof.
  intros gr pf cpus content t a j r CP T MT R DV H. destruct (tokens_ended _ _ _ _ T) as (t' & E & EN). injection E as <-.
  eapply file_like; eauto. intros i v k v' e' k' TK RM P. destruct (DV i TK) as (W1 & W2 & w & stop & RS & CL & SH).
  destruct (returns_fun _ _ _ _ _ _ _ _ _ _ RS RM) as (-> & _ & ->).
  destruct (C48_sequential_last _ pf i v k EN W1 W2 RM) as (items & o & (_ & _ & C) & -> & N & HO). rewrite <- SH in P.
  destruct (C48_all_lost _ pf i k v' e' k' EN W1 W2 ltac:(lia) CL (content_end _ pf _ _ _ C) P) as (-> & -> & o' & -> & N' & F).
  split; [reflexivity|]. split; [reflexivity|]. exists o, o'. do 2 eexists. repeat (split; [first [reflexivity|eassumption]|]). exact F.
Qed.
Print Assumptions C65_all_lost.

(** On a computer with more than half as many CPUs: what the sequential parser reads. *)
Theorem C65_short_guarded : forall gr pf cpus content t a j r, 0 < cpus -> fileTokens gr cpus content (Some t) -> TokModel.tk_multithreading t = true ->
    returns (TokModel.tk_list t) pf parseA2l 0 (VObj a) false j ->
    (forall i, tok (TokModel.tk_list t) i = b "/begin MODULE" -> word (tok (TokModel.tk_list t) (i + 1)) /\ word (tok (TokModel.tk_list t) (i + 2))
       /\ exists v stop, returns (TokModel.tk_list t) pf parseModule i v false stop /\ clean (TokModel.tk_list t) stop /\ stop - (i + 2) < cpus * 2) ->
    parseFromFile gr pf cpus (Some content) r -> exists a', r = Returned a' false /\ likeFile agree a a'.
Proof.
  intros gr pf cpus content t a j r CP T MT R DV H. destruct (tokens_ended _ _ _ _ T) as (t' & E & EN). injection E as <-.
  eapply file_like; eauto. intros i v k v' e' k' TK RM P. destruct (DV i TK) as (W1 & W2 & w & stop & RS & CL & SH).
  destruct (returns_fun _ _ _ _ _ _ _ _ _ _ RS RM) as (-> & _ & ->).
  exact (C48_short_guarded _ pf (cpus * 2) i v k v' e' k' EN W1 W2 RM CL SH P).
Qed.
Print Assumptions C65_short_guarded.

(** ** The theorems apply *)
(** A module with six tokens after its names, of which the last ends it: on a computer
    with three CPUs its group is lost, on one with four it is there. *)
Definition evenText : bytes := b "/begin PROJECT P L /begin MODULE M L /begin GROUP G a /end GROUP w /end MODULE /end PROJECT".
Definition evenToks : list bytes := map b ["/begin PROJECT"; "P"; "L"; "/begin MODULE"; "M"; "L"; "/begin GROUP"; "G"; "a"; "/end GROUP"; "w"; "/end MODULE"; "/end PROJECT"; ""]%string.
Lemma even_tokens : forall gr cpus, 0 < cpus -> fileTokens gr cpus evenText (Some (TokModel.Tokens evenToks true)).
Proof.
  intros gr cpus CP. unfold fileTokens. replace (A2lTextModel.cleanBytesString gr evenText) with evenText by (vm_compute; reflexivity).
  apply (TokProps.C42_lines_guarded _ _ [evenText] [map TokModel.fields (firstn 13 evenToks)]); [lia|split; [reflexivity|split; [discriminate|repeat constructor; apply TokProps.no_byte; reflexivity]]| |].
  - constructor; [|constructor]. apply TokSpec.li_items. change (map TokModel.fields (firstn 13 evenToks)) with
      [[b "/begin"; b "PROJECT"]; [b "P"]; [b "L"]; [b "/begin"; b "MODULE"]; [b "M"]; [b "L"]; [b "/begin"; b "GROUP"]; [b "G"]; [b "a"];
       [b "/end"; b "GROUP"]; [b "w"]; [b "/end"; b "MODULE"]; [b "/end"; b "PROJECT"]].
    change (TokModel.fields evenText) with (map b ["/begin"; "PROJECT"; "P"; "L"; "/begin"; "MODULE"; "M"; "L"; "/begin"; "GROUP"; "G"; "a";
       "/end"; "GROUP"; "w"; "/end"; "MODULE"; "/end"; "PROJECT"]%string). cbn [map].
    repeat first [apply TokProps.items_pair; [first [left; reflexivity|right; reflexivity]|] | apply TokProps.items_plain; [apply TokProps.plain_dec; reflexivity|]]. constructor.
  - eexists. split; [reflexivity|]. split; [reflexivity|]. cbn [TokModel.tk_multithreading]. split; [intros _|reflexivity]. vm_compute. discriminate.
Qed.
Definition groupOf (a : fields) (x : bytes) : option val :=
  match fget "Project" a with
  | Some (VObj p) => match flist "Modules" p with [VObj m] => match fget "Groups" m with Some (VMap g) => mget x g | _ => None end | _ => None end
  | _ => None
  end.
Lemma even_read : forall pf, exists a, returns evenToks pf parseA2l 0 (VObj a) false 13 /\ exists v, groupOf a (b "G") = Some v.
Proof. intros pf. eexists. split; [apply (returns_run 50); vm_compute; reflexivity|]. eexists. vm_compute. reflexivity. Qed.
Lemma even_module : forall pf i, tok evenToks i = b "/begin MODULE" -> word (tok evenToks (i + 1)) /\ word (tok evenToks (i + 2))
  /\ exists v stop, returns evenToks pf parseModule i v false stop /\ clean evenToks stop /\ stop - (i + 2) = 6.
Proof.
  intros pf i T. assert (i = 3) as ->.
  { revert T. do 14 (destruct i as [|i]; [intros H; first [reflexivity|discriminate H]|]). destruct i; discriminate. }
  split; [aWord|]. split; [aWord|]. eexists. exists 11. split; [apply (returns_run 50); vm_compute; reflexivity|]. split; [|reflexivity].
  intros p P. do 11 (destruct p as [|p]; [split; discriminate|]). lia.
Qed.
Lemma like_group : forall (same : val -> val -> Prop) a a' x, likeFile same a a' -> (exists v, groupOf a x = Some v) ->
  exists o o', same (VObj o) (VObj o') /\ groupOf a x = found o (Put_ "Groups" "groupName") x /\ groupOf a' x = found o' (Put_ "Groups" "groupName") x
  \/ exists o w, same (VObj o) w /\ (forall q, w <> VObj q).
Proof.
  intros same a a' x [_ L] (v & G). unfold groupOf in *. destruct (fget "Project" a) as [[| | | | | |p]|]; try discriminate.
  destruct (fget "Project" a') as [[| | | | | |p']|]; try contradiction. destruct L as [_ L].
  destruct (flist "Modules" p) as [|[| | | | | |m] [|]]; try discriminate. inversion L as [|? w ? ws M L']; subst. inversion L'; subst.
  destruct w as [| | | | | |m']; try (exists m, m; right; exists m; eexists; split; [exact M|intros q; discriminate]).
  exists m, m'. left. split; [exact M|]. split; reflexivity.
Qed.
Theorem C65_all_lost_refuted : exists content, forall gr pf,
    (forall cpus, 3 < cpus -> (exists r, parseFromFile gr pf cpus (Some content) r)
       /\ forall r, parseFromFile gr pf cpus (Some content) r -> exists a v, r = Returned a false /\ groupOf a (b "G") = Some v) /\
    (exists r, parseFromFile gr pf 3 (Some content) r) /\
    forall r, parseFromFile gr pf 3 (Some content) r -> exists a, r = Returned a false /\ groupOf a (b "G") = None.
Proof.
  exists evenText. intros gr pf. destruct (even_read pf) as (a0 & R0 & G0).
  assert (KG : exists g, In ("/begin GROUP"%string, (g, Put_ "Groups" "groupName")) kinds) by (eexists; inKinds). destruct KG as [g KG].
  split; [intros cpus CP; split; [apply C65_total; lia|]|split; [apply C65_total; lia|]]; intros r H.
  - destruct (C65_short_guarded gr pf cpus evenText _ a0 13 r ltac:(lia) (even_tokens gr cpus ltac:(lia)) eq_refl R0) as (a & -> & L); [|exact H|].
    + intros i T. destruct (even_module pf i T) as (W1 & W2 & v & stop & R & C & S6). split; [exact W1|]. split; [exact W2|]. exists v, stop. split; [exact R|]. split; [exact C|lia].
    + destruct G0 as [v G0]. exists a, v. split; [reflexivity|]. destruct (like_group _ _ _ (b "G") L (ex_intro _ v G0)) as (o & o' & [(S & E1 & E2)|(m & w & S & NW)]).
      * destruct S as (p & p' & name & long & Q1 & Q2 & _ & _ & F). injection Q1 as <-. injection Q2 as <-. rewrite E2, <- (F _ _ _ _ KG), <- E1. exact G0.
      * destruct S as (p & p' & name & long & _ & Q2 & _). destruct (NW _ Q2).
  - destruct (C65_all_lost gr pf 3 evenText _ a0 13 r ltac:(lia) (even_tokens gr 3 ltac:(lia)) eq_refl R0 (even_module pf) H) as (a & -> & L).
    exists a. split; [reflexivity|]. destruct (like_group _ _ _ (b "G") L G0) as (o & o' & [(S & E1 & E2)|(m & w & S & NW)]).
    + destruct S as (p & p' & name & long & Q1 & Q2 & _ & _ & F). injection Q1 as <-. injection Q2 as <-. rewrite E2. exact (F _ _ _ _ KG).
    + destruct S as (p & p' & name & long & _ & Q2 & _). destruct (NW _ Q2).
Qed.
Print Assumptions C65_all_lost_refuted.
(** The hypotheses of the theorems about modules. *)
Example C48_short_example : ended evenToks /\ clean evenToks 11 /\ tok evenToks 11 = b "/end MODULE" /\ 11 - (3 + 2) < 2 * 4
  /\ forall pf, nestedIn evenToks pf (lastFrom 4 (3 + 2) 11) 10 [] /\ (exists v, returns evenToks pf parseModule 3 v false 11)
     /\ (exists v e j, parallel evenToks pf 4 3 v e j) /\ (exists v e j, parallel evenToks pf 6 3 v e j) /\ exists v e j, parallel evenToks pf 7 3 v e j.
Proof.
  assert (EN : ended evenToks) by (eexists (firstn 13 evenToks); reflexivity).
  split; [exact EN|]. split; [intros p P; do 11 (destruct p as [|p]; [split; discriminate|]); lia|]. split; [reflexivity|]. split; [lia|]. intros pf.
  split; [|split; [eexists; apply (returns_run 50); vm_compute; reflexivity|repeat split; apply C48_total; try exact EN; cbn; lia]].
  change (lastFrom 4 (3 + 2) 11) with 8. do 2 (apply NestOther; [apply findKind_none; vm_compute; reflexivity|]). constructor.
Qed.
