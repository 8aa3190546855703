(** C48: how many objects of a module the parallel parser loses. *)
From Coq Require Import String Ascii List Arith Bool Lia SpecFloat Permutation.
From Verif Require Import GoBase GoBaseFacts A2lIR A2lTokens A2lParsers A2lCheck A2lThm A2lSpec A2lProps A2lGrammar A2lForms A2lFormProps A2lDescribe.
From Verif Require Import A2lModModel A2lModSpec A2lModStore A2lModSeq A2lModPar A2lModParts A2lModProps A2lCutSpec A2lCut A2lLooseProps.
Import ListNotations.

(** ** At most one for each goroutine after the first *)

Definition borders (np start stop : nat) : list nat := map (fun k => start + (stop - start) / np * k) (seq 1 (np - 1)).
Lemma borders_in : forall np start stop p, In p (borders np start stop) <-> border np start stop p.
Proof.
  intros np start stop p. unfold borders. rewrite in_map_iff. split.
  - intros (k & <- & K). apply in_seq in K. exists k. split; [lia|reflexivity].
  - intros (k & K & ->). exists k. split; [reflexivity|]. apply in_seq. lia.
Qed.
Definition onBorder (np start stop : nat) (x : item) : bool := existsb (Nat.eqb (it_from x)) (borders np start stop).
Lemma onBorder_ok : forall np start stop x, onBorder np start stop x = true <-> border np start stop (it_from x).
Proof.
  intros np start stop x. unfold onBorder. rewrite existsb_exists, <- borders_in. split.
  - intros (p & P & E). apply Nat.eqb_eq in E. subst p. exact P.
  - intros P. exists (it_from x). split; [exact P|apply Nat.eqb_refl].
Qed.
Lemma content_from : forall toks pf, ended toks -> forall i items e, content toks pf i items e -> NoDup (map it_from items).
Proof.
  intros toks pf EN i items e C. induction C as [i H|i items e W C IH|i t g a v j items e I T R C IH]; [constructor|exact IH|].
  cbn [map]. constructor; [|exact IH]. intros IN. apply in_map_iff in IN. destruct IN as (x & E & X). cbn [it_from] in E.
  pose proof (ContObj toks pf i t g a v j items e I T R C) as C2. pose proof (proj2 (content_bounds toks pf EN _ _ _ C2) _ (or_introl eq_refl)) as B1. cbn in B1.
  pose proof (proj2 (content_bounds toks pf EN _ _ _ C) x X) as B2. lia.
Qed.
Lemma NoDup_filter_map : forall A B (f : A -> B) p l, NoDup (map f l) -> NoDup (map f (filter p l)).
Proof.
  induction l as [|x l IH]; intros ND; [constructor|]. cbn [map] in ND. inversion ND as [|? ? N ND']; subst. cbn [filter]. destruct (p x); [|auto].
  cbn [map]. constructor; [|auto]. intros I. apply N. apply in_map_iff in I. destruct I as (y & E & Y). apply filter_In in Y. apply in_map_iff. exists y. tauto.
Qed.

(** Under the hypotheses of [C48_as_read], less than [np] objects are lost, whatever
    the size of the module. *)
Theorem C48_lost_few : forall toks pf np i items stop v e j,
    ended toks -> 0 < np -> isModule toks pf i items stop -> clean toks stop -> tidy toks np (i + 2) stop items -> distinct (stored items) ->
    parallel toks pf np i v e j ->
    exists o kept lost, v = VObj o /\ holds o (stored kept) /\ Permutation items (kept ++ lost) /\ length lost < np.
Proof.
  intros toks pf np i items stop v e j EN NP M CL TD DI PAR.
  destruct (C48_as_read toks pf np i items stop v e j EN NP M CL TD DI PAR) as (_ & _ & o & kept & -> & _ & HO & K).
  set (p := onBorder np (i + 2) stop). exists o, (filter (fun x => negb (p x)) items), (filter p items).
  split; [reflexivity|]. split; [|split].
  - assert (SAME : forall y, In y (stored kept) <-> In y (stored (filter (fun x => negb (p x)) items))).
    { intros y. unfold stored. rewrite !in_map_iff. split; intros (x & E & X); exists x; (split; [exact E|]).
      - apply K in X. apply filter_In. split; [tauto|]. destruct (p x) eqn:P; [|reflexivity]. apply onBorder_ok in P. tauto.
      - apply filter_In in X. destruct X as [X P]. apply K. split; [exact X|]. intros B. apply onBorder_ok in B. fold p in B. rewrite B in P. discriminate. }
    intros t g a I. specialize (HO t g a I). destruct a as [f|f k].
    + intros w. rewrite HO. apply SAME.
    + destruct HO as (m & F & MM). exists m. split; [exact F|]. intros x w. rewrite MM, SAME. reflexivity.
  - generalize items. clear. intros l. induction l as [|x l IH]; [constructor|]. cbn [filter]. destruct (p x); cbn [negb].
    + apply Permutation_cons_app. exact IH.
    + constructor. exact IH.
  - destruct M as (_ & _ & C). pose proof (NoDup_filter_map _ _ it_from p items (content_from toks pf EN _ _ _ C)) as ND.
    assert (LE : length (map it_from (filter p items)) <= length (borders np (i + 2) stop)).
    { apply NoDup_incl_length; [exact ND|]. intros q Q. apply in_map_iff in Q. destruct Q as (x & <- & X). apply filter_In in X. apply borders_in, onBorder_ok, X. }
    rewrite map_length in LE. unfold borders in LE. rewrite map_length, seq_length in LE. lia.
Qed.
Print Assumptions C48_lost_few.

(** ** As many as that: a module of [np] groups of which one is left *)

Definition nameOf (k : nat) : bytes := repeat "x"%char (S k).
Definition short : list bytes := [b "/begin GROUP"; nameOf 0; b "l"; b "/end GROUP"].
Definition long (k : nat) : list bytes := [b "/begin GROUP"; nameOf k; b "l"; b "ROOT"; b "/end GROUP"].
Definition groups (j n : nat) : list bytes := flat_map long (seq j n).
Definition unlucky (np : nat) : list bytes := [b "/begin MODULE"; b "M"; b "L"] ++ short ++ groups 1 (np - 1) ++ [b "/end MODULE"; []].

Definition shortVal : val := VObj (stores true [P "groupName" "groupNameSet" Text; P "groupLongIdentifier" "groupLongIdentifierSet" Text]%string [VStr (nameOf 0); VStr (b "l")] []).
Definition longVal (k : nat) : val := VObj (fset "root" (VObj [("value", VBool true); ("valueSet", VBool true)]%string)
  (stores true [P "groupName" "groupNameSet" Text; P "groupLongIdentifier" "groupLongIdentifierSet" Text]%string [VStr (nameOf k); VStr (b "l")] [])).
Definition groupAt : action := Put_ "Groups" "groupName".
Definition shortItem : item := Item 3 6 groupAt shortVal.
Definition longItem (k : nat) : item := Item (2 + 5 * k) (6 + 5 * k) groupAt (longVal k).
Definition unluckyItems (np : nat) : list item := shortItem :: map longItem (seq 1 (np - 1)).

Lemma groups_length : forall n j, length (groups j n) = 5 * n.
Proof. induction n as [|n IH]; intros j; [reflexivity|]. unfold groups in *. cbn [seq flat_map]. rewrite app_length, IH. cbn [long length]. lia. Qed.
Lemma name_apart : forall ks k, forallb (fun s => match b s with c :: _ => negb (Ascii.eqb c "x") | [] => true end) ks = true -> existsb (fun s => beqb (nameOf k) (b s)) ks = false.
Proof.
  induction ks as [|s ks IH]; intros k H; [reflexivity|]. cbn [forallb] in H. apply andb_prop in H. destruct H as [H1 H2]. cbn [existsb]. rewrite (IH k H2), orb_false_r.
  destruct (beqb (nameOf k) (b s)) eqn:B; [|reflexivity]. apply beqb_eq in B. rewrite <- B in H1. cbn in H1. discriminate.
Qed.
Lemma name_free : forall k, reserved (nameOf k) = false.
Proof. intros k. unfold reserved, isKeyword. rewrite !name_apart by (vm_compute; reflexivity). reflexivity. Qed.

Lemma short_den : forall pf, den pf groupForm (tl short) shortVal.
Proof.
  intros pf. refine (d_block pf [] _ NoGroup _ "/end GROUP" [] [nameOf 0; b "l"] [] [] [VStr (nameOf 0); VStr (b "l")] _ _ _ _ _).
  - constructor; [split; [discriminate|split; [apply name_free|reflexivity]]|]. constructor; [split; [discriminate|split; [vm_compute; reflexivity|reflexivity]]|constructor].
  - split; reflexivity.
  - constructor.
Qed.
Lemma long_den : forall pf k, den pf groupForm (tl (long k)) (longVal k).
Proof.
  intros pf k. refine (d_block pf [] _ NoGroup _ "/end GROUP" [] [nameOf k; b "l"] [] [b "ROOT"] [VStr (nameOf k); VStr (b "l")] _ _ _ _ _).
  - constructor; [split; [discriminate|split; [apply name_free|reflexivity]]|]. constructor; [split; [discriminate|split; [vm_compute; reflexivity|reflexivity]]|constructor].
  - split; reflexivity.
  - refine (p_cons pf _ _ "ROOT" "root" Single rootForm [] [] (VObj [("value", VBool true); ("valueSet", VBool true)]%string) _ _ _ _ _ _).
    + cbn. tauto.
    + refine (d_fixed pf [] _ [] [] _). constructor.
    + reflexivity.
    + constructor.
Qed.

Section Unlucky.
  Variable np : nat.
  Hypothesis NP : 0 < np.
  Local Notation toks := (unlucky np).
  Local Notation stop := (2 + 5 * np).

  Lemma unlucky_length : length toks = 4 + 5 * np.
  Proof. unfold unlucky. rewrite !app_length, groups_length. cbn [length short]. lia. Qed.
  Lemma unlucky_ended : ended toks.
  Proof. exists ([b "/begin MODULE"; b "M"; b "L"] ++ short ++ groups 1 (np - 1) ++ [b "/end MODULE"]). unfold unlucky. rewrite <- !app_assoc. reflexivity. Qed.

  Definition behindGroup (k : nat) : list bytes := groups (S k) (np - 1 - k) ++ [b "/end MODULE"; []].
  Lemma behind_ended : forall k, ended (behindGroup k).
  Proof. intros k. exists (groups (S k) (np - 1 - k) ++ [b "/end MODULE"]). unfold behindGroup. rewrite <- app_assoc. reflexivity. Qed.
  Definition beforeGroup (k : nat) : list bytes := [b "/begin MODULE"; b "M"; b "L"] ++ short ++ groups 1 (k - 1).
  Lemma before_length : forall k, 0 < k -> length (beforeGroup k) = 2 + 5 * k.
  Proof. intros k K. unfold beforeGroup. rewrite !app_length, groups_length. cbn [length short]. lia. Qed.
  Lemma unlucky_split : forall k, 0 < k < np -> toks = beforeGroup k ++ long k ++ behindGroup k.
  Proof.
    intros k K. unfold unlucky, beforeGroup, behindGroup, groups. rewrite <- !app_assoc. do 2 f_equal.
    replace (seq 1 (np - 1)) with (seq 1 (k - 1) ++ k :: seq (S k) (np - 1 - k)).
    - rewrite flat_map_app. cbn [flat_map]. rewrite <- !app_assoc. reflexivity.
    - replace (np - 1) with ((k - 1) + S (np - 1 - k)) by lia. rewrite seq_app. replace (1 + (k - 1)) with k by lia. do 2 f_equal. cbn [seq]. do 2 f_equal. lia.
  Qed.
  Lemma tok_long : forall k d, 0 < k < np -> d < 5 -> tok toks (2 + 5 * k + d) = nth d (long k) [].
  Proof.
    intros k d K D. unfold tok. rewrite (unlucky_split k K), app_nth2 by (rewrite before_length; lia). rewrite before_length by lia.
    replace (2 + 5 * k + d - (2 + 5 * k)) with d by lia. rewrite app_nth1 by (cbn; lia). reflexivity.
  Qed.
  Lemma tok_stop : tok toks stop = b "/end MODULE".
  Proof.
    unfold tok, unlucky. rewrite !app_assoc. rewrite app_nth2; rewrite !app_length, groups_length; cbn [length short]; [|lia].
    replace (2 + 5 * np - (3 + 4 + 5 * (np - 1))) with 0 by lia. reflexivity.
  Qed.
  Lemma long_returns : forall pf k, 0 < k < np -> returns toks pf parseGroup (2 + 5 * k) (longVal k) false (6 + 5 * k).
  Proof.
    intros pf k K. pose proof (C64_reads "parseGroup" groupForm parseGroup pf _ _ ltac:(listed) ltac:(listed) (long_den pf k) (beforeGroup k) (b "/begin GROUP") (behindGroup k) ltac:(discriminate) (behind_ended k) eq_refl) as R.
    rewrite before_length in R by lia. rewrite (unlucky_split k K). cbn [tl long length app] in R |- *. replace (6 + 5 * k) with (2 + 5 * k + 4) by lia. exact R.
  Qed.
  Lemma short_returns : forall pf, returns toks pf parseGroup 3 shortVal false 6.
  Proof.
    intros pf. assert (EN : ended (groups 1 (np - 1) ++ [b "/end MODULE"; []])).
    { exists (groups 1 (np - 1) ++ [b "/end MODULE"]). rewrite <- app_assoc. reflexivity. }
    exact (C64_reads "parseGroup" groupForm parseGroup pf _ _ ltac:(listed) ltac:(listed) (short_den pf) [b "/begin MODULE"; b "M"; b "L"] (b "/begin GROUP") _ ltac:(discriminate) EN eq_refl).
  Qed.
  Lemma group_kind : In ("/begin GROUP", (parseGroup, groupAt))%string kinds.
  Proof. inKinds. Qed.

  Lemma unlucky_content : forall pf n k, 0 < k -> k + n = np -> content toks pf (1 + 5 * k) (map longItem (seq k n)) stop.
  Proof.
    intros pf n. induction n as [|n IH]; intros k K E.
    - assert (k = np) as -> by lia. cbn [seq map]. apply (ContEnd toks pf (1 + 5 * np)). exact tok_stop.
    - cbn [seq map]. refine (ContObj toks pf (1 + 5 * k) _ parseGroup groupAt (longVal k) (6 + 5 * k) _ _ group_kind _ (long_returns pf k ltac:(lia)) _).
      + pose proof (tok_long k 0 ltac:(lia) ltac:(lia)) as T. rewrite Nat.add_0_r in T. exact T.
      + replace (6 + 5 * k) with (1 + 5 * S k) by lia. apply IH; lia.
  Qed.
  Lemma unlucky_module : forall pf, isModule toks pf 0 (unluckyItems np) stop.
  Proof.
    intros pf. split; [aWord|]. split; [aWord|].
    refine (ContObj toks pf 2 _ parseGroup groupAt shortVal 6 _ _ group_kind eq_refl (short_returns pf) _).
    exact (unlucky_content pf (np - 1) 1 ltac:(lia) ltac:(lia)).
  Qed.
  Lemma unlucky_clean : clean toks stop.
  Proof.
    assert (F : Forall (fun t => t <> b "/end MODULE" /\ t <> []) ([b "/begin MODULE"; b "M"; b "L"] ++ short ++ groups 1 (np - 1))).
    { apply Forall_app. split; [repeat constructor; discriminate|]. apply Forall_app. split; [repeat constructor; discriminate|]. unfold groups. generalize (seq 1 (np - 1)) as l.
      induction l as [|k l IH]; [constructor|]. cbn [flat_map]. apply Forall_app. split; [|exact IH]. repeat constructor; discriminate. }
    intros p P. assert (L : p < length ([b "/begin MODULE"; b "M"; b "L"] ++ short ++ groups 1 (np - 1))) by (rewrite !app_length, groups_length; cbn [length short]; lia).
    unfold tok, unlucky. rewrite !app_assoc, app_nth1 by (rewrite <- !app_assoc; exact L). rewrite <- !app_assoc.
    exact (proj1 (Forall_forall _ _) F _ (nth_In _ _ L)).
  Qed.
  Lemma unlucky_border : forall p, border np 2 stop p <-> exists k, 0 < k < np /\ p = 2 + 5 * k.
  Proof.
    intros p. unfold border. replace ((stop - 2) / np) with 5; [reflexivity|]. replace (stop - 2) with (5 * np) by lia. symmetry. apply Nat.div_mul. lia.
  Qed.
  Lemma unlucky_tidy : tidy toks np 2 stop (unluckyItems np).
  Proof.
    intros p x q B X F Q. apply unlucky_border in B. destruct B as (k & K & ->). destruct X as [<-|X]; [cbn in F, Q; lia|].
    apply in_map_iff in X. destruct X as (k' & <- & K'). apply in_seq in K'. cbn [longItem it_from it_to] in F, Q. assert (k' = k) as -> by lia.
    assert (D : exists d, 0 < d < 5 /\ q = 2 + 5 * k + d) by (exists (q - (2 + 5 * k)); lia). destruct D as (d & D & ->). rewrite tok_long by lia. clear - D.
    assert (C : d = 1 \/ d = 2 \/ d = 3 \/ d = 4) by lia. destruct C as [->|[->|[->| ->]]].
    - intros ((t & ga) & I & E). cbn [nth long nameOf fst] in E. unfold kinds in I. cbn [In] in I. repeat (destruct I as [I|I]; [injection I as <- _; discriminate E|]). destruct I.
    - apply findKind_none. vm_compute. reflexivity.
    - apply findKind_none. vm_compute. reflexivity.
    - apply findKind_none. vm_compute. reflexivity.
  Qed.
  Lemma name_inj : forall k k', nameOf k = nameOf k' -> k = k'.
  Proof. intros k k' E. apply (f_equal (@length ascii)) in E. unfold nameOf in E. rewrite !repeat_length in E. lia. Qed.
  Lemma unlucky_distinct : distinct (stored (unluckyItems np)).
  Proof.
    unfold distinct, stored, unluckyItems. cbn [map]. rewrite !map_map.
    change (NoDup (("Groups"%string, nameOf 0) :: map (fun k => ("Groups"%string, nameOf k)) (seq 1 (np - 1)))).
    change (NoDup (map (fun k => ("Groups"%string, nameOf k)) (seq 0 (S (np - 1))))).
    apply FinFun.Injective_map_NoDup; [|apply seq_NoDup]. intros k k' E. injection E as E. apply (name_inj k k'). unfold nameOf. cbn. rewrite E. reflexivity.
  Qed.
End Unlucky.

(** For every number of goroutines there is a module of as many groups of which every
    run of the parallel parser keeps only the first, without an error; the
    sequential parser keeps all. *)
Theorem C48_lost_many_refuted : forall np, 0 < np -> exists toks i items stop, ended toks /\ clean toks stop /\ distinct (stored items) /\ length items = np /\
  forall pf, isModule toks pf i items stop /\
    (exists o, returns toks pf parseModule i (VObj o) false stop /\ holds o (stored items)) /\
    (exists v e j, parallel toks pf np i v e j) /\
    forall v e j, parallel toks pf np i v e j -> e = false /\ j = stop /\ exists o, v = VObj o /\ holds o (stored (firstn 1 items)).
Proof.
  intros np NP. exists (unlucky np), 0, (unluckyItems np), (2 + 5 * np). pose proof (unlucky_ended np) as EN.
  split; [exact EN|]. split; [exact (unlucky_clean np NP)|]. split; [exact (unlucky_distinct np NP)|].
  split; [unfold unluckyItems; cbn [length]; rewrite map_length, seq_length; lia|]. intros pf. pose proof (unlucky_module np NP pf) as M. pose proof (unlucky_length np NP) as LN.
  split; [exact M|]. split; [|split].
  - destruct M as (W1 & W2 & C). destruct (ok_call (unlucky np) pf EN parseModule 0 ltac:(vm_compute; reflexivity) ltac:(lia)) as (v & e & j & J & R).
    assert (RT : returns (unlucky np) pf parseModule 0 v e j) by (exists (S (length (unlucky np))); exact R). destruct e.
    + exfalso. destruct (proj1 (C48_sequential_error _ pf 0 EN ltac:(lia) W1 W2) (ex_intro _ v (ex_intro _ j RT))) as (its & p & B).
      destruct (content_excludes _ _ _ _ _ C its p) as [X1 X2]. destruct B as [B|B]; auto.
    + destruct (C48_sequential _ pf 0 v j EN W1 W2 RT) as (items & o & (_ & _ & C') & -> & _ & H). destruct (content_fun _ _ _ _ _ C _ _ C') as [-> ->].
      exists o. split; [exact RT|exact (H (unlucky_distinct np NP))].
  - apply C48_total; [exact EN|exact NP|lia].
  - intros v e j PAR. destruct (C48_as_read _ pf np 0 _ _ v e j EN NP M (unlucky_clean np NP) (unlucky_tidy np NP) (unlucky_distinct np NP) PAR) as (-> & -> & o & kept & -> & _ & HO & K).
    split; [reflexivity|]. split; [reflexivity|]. exists o. split; [reflexivity|].
    assert (SAME : forall y, In y (stored kept) <-> In y (stored [shortItem])).
    { intros y. unfold stored. rewrite !in_map_iff. split; intros (x & E & X); exists x; (split; [exact E|]).
      - apply K in X. destruct X as [X NB]. destruct X as [X|X]; [left; exact X|]. exfalso. apply NB. apply in_map_iff in X. destruct X as (k & <- & I). apply in_seq in I.
        apply (unlucky_border np NP). exists k. split; [lia|reflexivity].
      - destruct X as [<-|[]]. apply K. split; [left; reflexivity|]. intros B. apply (unlucky_border np NP) in B. destruct B as (k & K1 & K2). cbn in K2. lia. }
    cbn [firstn unluckyItems]. intros t g a I. specialize (HO t g a I). destruct a as [f|f k].
    + intros w. rewrite HO. apply SAME.
    + destruct HO as (m & F & MM). exists m. split; [exact F|]. intros x w. rewrite MM, SAME. reflexivity.
Qed.
Print Assumptions C48_lost_many_refuted.

(** The hypotheses of [C48_lost_few] *)
Example C48_lost_few_example : forall pf, ended (unlucky 4) /\ isModule (unlucky 4) pf 0 (unluckyItems 4) 22 /\ clean (unlucky 4) 22 /\
  tidy (unlucky 4) 4 2 22 (unluckyItems 4) /\ distinct (stored (unluckyItems 4)) /\ exists v e j, parallel (unlucky 4) pf 4 0 v e j.
Proof.
  intros pf. split; [apply unlucky_ended|]. split; [apply (unlucky_module 4); lia|]. split; [apply (unlucky_clean 4); lia|]. split; [apply (unlucky_tidy 4); lia|].
  split; [apply (unlucky_distinct 4); lia|]. apply C48_total; [apply unlucky_ended|lia|rewrite unlucky_length; lia].
Qed.
