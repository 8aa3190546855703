(** C65: how many objects of each module of a file are lost. *)
From Coq Require Import String Ascii List Arith NArith Bool Lia SpecFloat Permutation.
From Verif Require Import GoBase GoBaseFacts A2lIR A2lTokens A2lParsers A2lCheck A2lThm A2lSpec A2lProps A2lGrammar A2lForms A2lFormProps A2lDescribe.
From Verif Require Import A2lModModel A2lModSpec A2lModStore A2lModSeq A2lModPar A2lModParts A2lModProps A2lCutSpec A2lCut A2lLooseProps A2lLostProps.
From Verif Require TokModel.
From Verif Require Import A2lTextModel A2lTextProps A2lFileModel A2lFileSpec A2lFileThm A2lFileProps A2lFileLost A2lTripSpec A2lMeetThm A2lTripThm A2lTripProps.
From Verif Require TokSpec.
Import ListNotations.

(** Two modules: the second has all objects of the first but less than [n]. *)
Definition lacksFew (n : nat) (v v' : val) : Prop :=
  exists o o' items kept lost, v = VObj o /\ v' = VObj o' /\ holds o (stored items) /\ holds o' (stored kept) /\ Permutation items (kept ++ lost) /\ length lost < n.

Theorem C65_lost_few : forall gr pf cpus content t a j r, 0 < cpus -> fileTokens gr cpus content (Some t) -> TokModel.tk_multithreading t = true ->
    returns (TokModel.tk_list t) pf parseA2l 0 (VObj a) false j ->
    (forall i, tok (TokModel.tk_list t) i = b "/begin MODULE" -> divisible (TokModel.tk_list t) pf (cpus * 2) i) ->
    parseFromFile gr pf cpus (Some content) r -> exists a', r = Returned a' false /\ likeFile (lacksFew (cpus * 2)) a a'.
Proof.
  intros gr pf cpus content t a j r CP T MT R DV H. destruct (tokens_ended _ _ _ _ T) as (t' & E & EN). injection E as <-.
  eapply file_like; eauto. intros i v k v' e' k' TK RM P. destruct (DV i TK) as (items & stop & M & CL & TD & DI). pose proof M as (W1 & W2 & C).
  destruct (C48_sequential _ pf i v k EN W1 W2 RM) as (items2 & o & (_ & _ & C2) & -> & N & HO).
  destruct (content_fun _ _ _ _ _ C _ _ C2) as [-> ->].
  destruct (C48_as_read _ pf (cpus * 2) i items stop v' e' k' EN ltac:(lia) M CL TD DI P) as (-> & -> & _).
  destruct (C48_lost_few _ pf (cpus * 2) i items stop v' _ _ EN ltac:(lia) M CL TD DI P) as (o' & kept & lost & -> & HO' & PE & LE).
  split; [reflexivity|]. split; [reflexivity|]. exists o, o', items, kept, lost. split; [reflexivity|]. split; [reflexivity|]. split; [apply HO; exact DI|]. auto.
Qed.
Print Assumptions C65_lost_few.

Example C65_lost_few_example : forall gr pf, exists t a j, fileTokens gr 1 lostText (Some t) /\ TokModel.tk_multithreading t = true /\
    returns (TokModel.tk_list t) pf parseA2l 0 (VObj a) false j /\
    (exists i, tok (TokModel.tk_list t) i = b "/begin MODULE") /\
    forall i, tok (TokModel.tk_list t) i = b "/begin MODULE" -> divisible (TokModel.tk_list t) pf (1 * 2) i.
Proof.
  intros gr pf. do 3 eexists. split; [apply lost_tokens; lia|]. split; [reflexivity|]. cbn [TokModel.tk_list]. split; [apply (returns_run 50); vm_compute; reflexivity|].
  split; [exists 3; reflexivity|]. intros i T. apply lost_divisible. exact T.
Qed.

(** ** For every number of CPUs a file of which all groups but one are lost *)

Definition top : list bytes := [b "/begin PROJECT"; b "P"; b "L"; b "/begin MODULE"; b "M"; b "L"].
Definition unluckyFile (np : nat) : list bytes := top ++ short ++ groups 1 (np - 1) ++ [b "/end MODULE"; b "/end PROJECT"].
Definition shift (x : item) : item := A2lModSpec.Item (3 + it_from x) (3 + it_to x) (it_act x) (it_val x).

Section File.
  Variable np : nat.
  Hypothesis NP : 0 < np.
  Local Notation toks := (unluckyFile np ++ [[]]).
  Local Notation stop := (5 + 5 * np).
  Local Notation items := (map shift (unluckyItems np)).

  Lemma uf_length : length toks = 8 + 5 * np.
  Proof. unfold unluckyFile. rewrite !app_length, groups_length. cbn [length short top]. lia. Qed.
  Lemma uf_ended : ended toks.
  Proof. eexists. reflexivity. Qed.

  Definition behindF (k : nat) : list bytes := groups (S k) (np - 1 - k) ++ [b "/end MODULE"; b "/end PROJECT"; []].
  Lemma behindF_ended : forall k, ended (behindF k).
  Proof. intros k. exists (groups (S k) (np - 1 - k) ++ [b "/end MODULE"; b "/end PROJECT"]). unfold behindF. rewrite <- app_assoc. reflexivity. Qed.
  Definition beforeF (k : nat) : list bytes := top ++ short ++ groups 1 (k - 1).
  Lemma beforeF_length : forall k, 0 < k -> length (beforeF k) = 5 + 5 * k.
  Proof. intros k K. unfold beforeF. rewrite !app_length, groups_length. cbn [length short top]. lia. Qed.
  Lemma uf_split : forall k, 0 < k < np -> toks = beforeF k ++ long k ++ behindF k.
  Proof.
    intros k K. unfold unluckyFile, beforeF, behindF, groups. rewrite <- !app_assoc. do 2 f_equal.
    replace (seq 1 (np - 1)) with (seq 1 (k - 1) ++ k :: seq (S k) (np - 1 - k)).
    - rewrite flat_map_app. cbn [flat_map]. rewrite <- !app_assoc. reflexivity.
    - replace (np - 1) with ((k - 1) + S (np - 1 - k)) by lia. rewrite seq_app. replace (1 + (k - 1)) with k by lia. do 2 f_equal. cbn [seq]. do 2 f_equal. lia.
  Qed.
  Lemma uf_long : forall k d, 0 < k < np -> d < 5 -> tok toks (5 + 5 * k + d) = nth d (long k) [].
  Proof.
    intros k d K D. unfold tok. rewrite (uf_split k K), app_nth2 by (rewrite beforeF_length; lia). rewrite beforeF_length by lia.
    replace (5 + 5 * k + d - (5 + 5 * k)) with d by lia. rewrite app_nth1 by (cbn; lia). reflexivity.
  Qed.
  Lemma uf_stop : tok toks stop = b "/end MODULE".
  Proof.
    unfold tok, unluckyFile. rewrite <- !app_assoc. rewrite !(app_assoc top), !(app_assoc (top ++ short)). rewrite app_nth2; rewrite !app_length, groups_length; cbn [length short top]; [|lia].
    replace (5 + 5 * np - (6 + 4 + 5 * (np - 1))) with 0 by lia. reflexivity.
  Qed.
  Lemma uf_returns : forall pf k, 0 < k < np -> returns toks pf parseGroup (5 + 5 * k) (longVal k) false (9 + 5 * k).
  Proof.
    intros pf k K. pose proof (C64_reads "parseGroup" groupForm parseGroup pf _ _ ltac:(listed) ltac:(listed) (long_den pf k) (beforeF k) (b "/begin GROUP") (behindF k) ltac:(discriminate) (behindF_ended k) eq_refl) as R.
    rewrite beforeF_length in R by lia. rewrite (uf_split k K). cbn [tl long length app] in R |- *. replace (9 + 5 * k) with (5 + 5 * k + 4) by lia. exact R.
  Qed.
  Lemma uf_short : forall pf, returns toks pf parseGroup 6 shortVal false 9.
  Proof.
    intros pf. assert (EN : ended (groups 1 (np - 1) ++ [b "/end MODULE"; b "/end PROJECT"; []])).
    { exists (groups 1 (np - 1) ++ [b "/end MODULE"; b "/end PROJECT"]). rewrite <- app_assoc. reflexivity. }
    replace toks with (top ++ b "/begin GROUP" :: tl short ++ groups 1 (np - 1) ++ [b "/end MODULE"; b "/end PROJECT"; []]) by (unfold unluckyFile; rewrite <- !app_assoc; reflexivity).
    exact (C64_reads "parseGroup" groupForm parseGroup pf _ _ ltac:(listed) ltac:(listed) (short_den pf) top (b "/begin GROUP") _ ltac:(discriminate) EN eq_refl).
  Qed.
  Lemma uf_content : forall pf n k, 0 < k -> k + n = np -> content toks pf (4 + 5 * k) (map shift (map longItem (seq k n))) stop.
  Proof.
    intros pf n. induction n as [|n IH]; intros k K E.
    - assert (k = np) as -> by lia. cbn [seq map]. apply (ContEnd toks pf (4 + 5 * np)). exact uf_stop.
    - cbn [seq map]. refine (ContObj toks pf (4 + 5 * k) _ parseGroup groupAt (longVal k) (9 + 5 * k) _ _ group_kind _ (uf_returns pf k ltac:(lia)) _).
      + pose proof (uf_long k 0 ltac:(lia) ltac:(lia)) as T. rewrite Nat.add_0_r in T. exact T.
      + replace (9 + 5 * k) with (4 + 5 * S k) by lia. apply IH; lia.
  Qed.
  Lemma uf_module : forall pf, isModule toks pf 3 items stop.
  Proof.
    intros pf. split; [aWord|]. split; [aWord|].
    refine (ContObj toks pf 5 _ parseGroup groupAt shortVal 9 _ _ group_kind eq_refl (uf_short pf) _).
    exact (uf_content pf (np - 1) 1 ltac:(lia) ltac:(lia)).
  Qed.
  Lemma groups_all : forall (Q : bytes -> Prop), (forall k, Forall Q (long k)) -> forall l, Forall Q (flat_map long l).
  Proof. intros Q H. induction l as [|k l IH]; [constructor|]. cbn [flat_map]. apply Forall_app. auto. Qed.
  Lemma uf_clean : clean toks stop.
  Proof.
    assert (F : Forall (fun t => t <> b "/end MODULE" /\ t <> []) (top ++ short ++ groups 1 (np - 1))).
    { apply Forall_app. split; [repeat constructor; discriminate|]. apply Forall_app. split; [repeat constructor; discriminate|]. apply groups_all. intros k. repeat constructor; discriminate. }
    intros p P. assert (L : p < length (top ++ short ++ groups 1 (np - 1))) by (rewrite !app_length, groups_length; cbn [length short top]; lia).
    assert (E : toks = (top ++ short ++ groups 1 (np - 1)) ++ [b "/end MODULE"; b "/end PROJECT"; []]) by (unfold unluckyFile; rewrite <- !app_assoc; reflexivity).
    unfold tok. rewrite E, app_nth1 by exact L. exact (proj1 (Forall_forall _ _) F _ (nth_In _ _ L)).
  Qed.
  Lemma uf_only : forall i, tok toks i = b "/begin MODULE" -> i = 3.
  Proof.
    intros i T. unfold tok in T. destruct (lt_dec i (length toks)) as [L|L]; [|rewrite nth_overflow in T by lia; discriminate].
    assert (E : toks = top ++ (short ++ groups 1 (np - 1)) ++ [b "/end MODULE"; b "/end PROJECT"; []]) by (unfold unluckyFile; rewrite <- !app_assoc; reflexivity).
    rewrite E in T. destruct (lt_dec i 6) as [L6|L6].
    - do 6 (destruct i as [|i]; [first [reflexivity|discriminate T]|]). lia.
    - exfalso. rewrite app_nth2 in T by (cbn [length top]; lia). change (length top) with 6 in T. rewrite uf_length in L.
      assert (F : Forall (fun t => t <> b "/begin MODULE") ((short ++ groups 1 (np - 1)) ++ [b "/end MODULE"; b "/end PROJECT"; []])).
      { apply Forall_app. split; [|repeat constructor; discriminate]. apply Forall_app. split; [repeat constructor; discriminate|]. apply groups_all. intros k. repeat constructor; discriminate. }
      refine (proj1 (Forall_forall _ _) F _ (nth_In _ [] _) T). rewrite !app_length, groups_length. cbn [length short]. lia.
  Qed.
  Lemma uf_border : forall p, border np 5 stop p <-> exists k, 0 < k < np /\ p = 5 + 5 * k.
  Proof.
    intros p. unfold border. replace ((stop - 5) / np) with 5; [reflexivity|]. replace (stop - 5) with (5 * np) by lia. symmetry. apply Nat.div_mul. lia.
  Qed.
  Lemma uf_item : forall x, In x items -> x = shift shortItem \/ exists k, 0 < k < np /\ x = shift (longItem k).
  Proof.
    intros x X. apply in_map_iff in X. destruct X as (y & <- & [<-|Y]); [left; reflexivity|right]. apply in_map_iff in Y. destruct Y as (k & <- & K). apply in_seq in K. exists k. split; [lia|reflexivity].
  Qed.
  Lemma uf_tidy : tidy toks np 5 stop items.
  Proof.
    intros p x q B X F Q. apply uf_border in B. destruct B as (k & K & ->). destruct (uf_item x X) as [->|(k' & K' & ->)]; [cbn in F, Q; lia|].
    cbn [shift longItem it_from it_to] in F, Q. assert (k' = k) as -> by lia.
    assert (D : exists d, 0 < d < 5 /\ q = 5 + 5 * k + d) by (exists (q - (5 + 5 * k)); lia). destruct D as (d & D & ->). rewrite uf_long by lia. clear - D.
    assert (C : d = 1 \/ d = 2 \/ d = 3 \/ d = 4) by lia. destruct C as [->|[->|[->| ->]]].
    - intros ((t & ga) & I & E). cbn [nth long nameOf fst] in E. unfold kinds in I. cbn [In] in I. repeat (destruct I as [I|I]; [injection I as <- _; discriminate E|]). destruct I.
    - apply findKind_none. vm_compute. reflexivity.
    - apply findKind_none. vm_compute. reflexivity.
    - apply findKind_none. vm_compute. reflexivity.
  Qed.
  Lemma uf_stored : stored items = stored (unluckyItems np).
  Proof. unfold stored. rewrite map_map. reflexivity. Qed.
  Lemma uf_divisible : forall pf i, tok toks i = b "/begin MODULE" -> divisible toks pf np i.
  Proof.
    intros pf i T. apply uf_only in T. subst i. exists items, stop. split; [apply uf_module|]. split; [apply uf_clean|]. split; [apply uf_tidy|]. rewrite uf_stored. apply unlucky_distinct. exact NP.
  Qed.

  (** *** The text *)
  Lemma uf_writable : Forall writable (unluckyFile np).
  Proof.
    assert (N : forall k, writable (nameOf k)).
    { intros k. assert (X : forall c, In c (nameOf k) -> c = "x"%char) by (intros c I; symmetry; exact (eq_sym (repeat_spec _ _ _ I))).
      apply wr_word; [split; [discriminate|apply Forall_forall; intros c I; rewrite (X c I); vm_compute; repeat split; discriminate]|split; intros I; discriminate (X _ I)|intros I; discriminate (X _ I)]. }
    unfold unluckyFile. apply Forall_app. split; [repeat (constructor; [apply writableb_ok; reflexivity|]); constructor|]. apply Forall_app. split; [constructor; [apply writableb_ok; reflexivity|constructor; [apply N|repeat (constructor; [apply writableb_ok; reflexivity|]); constructor]]|].
    apply Forall_app. split; [|repeat (constructor; [apply writableb_ok; reflexivity|]); constructor].
    apply groups_all. intros k. constructor; [apply writableb_ok; reflexivity|]. constructor; [apply N|]. repeat (constructor; [apply writableb_ok; reflexivity|]); constructor.
  Qed.
  Lemma uf_count : moduleCount (unluckyFile np) = 1%N.
  Proof.
    assert (Z : forall l, Forall (fun t => t <> b "/begin MODULE") l -> count_occ (list_eq_dec ascii_dec) l (b "/begin MODULE") = 0).
    { intros l F. apply count_occ_not_In. intros I. exact (proj1 (Forall_forall _ _) F _ I eq_refl). }
    unfold moduleCount, unluckyFile. rewrite count_occ_app, (Z (short ++ _)); [reflexivity|].
    apply Forall_app. split; [repeat constructor; discriminate|]. apply Forall_app. split; [|repeat constructor; discriminate]. apply groups_all. intros k. repeat constructor; discriminate.
  Qed.
  Definition itemsOf (f : form) : list A2lGrammar.item := match f with Block _ _ _ its _ _ => its | _ => [] end.
  Lemma uf_groups : forall pf n k o, exists o', A2lGrammar.parts pf (itemsOf moduleRead) "/end MODULE"%string (groups k n) o o'.
  Proof.
    intros pf n. induction n as [|n IH]; intros k o; [exists o; constructor|].
    destruct (IH (S k) (place_in (Under "groupName") "Groups" (longVal k) o)) as (o' & D). exists o'. unfold groups in *. cbn [seq flat_map].
    refine (p_cons pf _ _ "/begin GROUP" "Groups" (Under "groupName") groupForm (tl (long k)) _ (longVal k) o o' _ (long_den pf k) eq_refl D).
    cbn. tauto.
  Qed.
  Lemma uf_described : forall pf, exists a p m, describes pf projectRead (unluckyFile np) a /\ fget "Project" a = Some (VObj p) /\ flist "Modules" p = [m].
  Proof.
    intros pf. set (o0 := stores true [P "Name" "nameSet" Text; P "longIdentifier" "longIdentifierSet" Text]%string [VStr (b "M"); VStr (b "L")] (newMaps (match moduleRead with Block ms _ _ _ _ _ => ms | _ => [] end))).
    destruct (uf_groups pf (np - 1) 1 (place_in (Under "groupName") "Groups" shortVal o0)) as (m & D).
    assert (PM : A2lGrammar.parts pf (itemsOf moduleRead) "/end MODULE"%string (short ++ groups 1 (np - 1)) o0 m).
    { refine (p_cons pf _ _ "/begin GROUP" "Groups" (Under "groupName") groupForm (tl short) _ shortVal o0 m _ (short_den pf) eq_refl D). cbn. tauto. }
    assert (DM : den pf moduleRead ([b "M"; b "L"] ++ [] ++ (short ++ groups 1 (np - 1)) ++ [b "/end MODULE"]) (VObj m)).
    { refine (d_block pf _ _ NoGroup _ "/end MODULE" [] [b "M"; b "L"] [] _ [VStr (b "M"); VStr (b "L")] o0 m _ _ PM).
      - constructor; [split; [discriminate|split; [vm_compute; reflexivity|reflexivity]]|]. constructor; [split; [discriminate|split; [vm_compute; reflexivity|reflexivity]]|constructor].
      - split; reflexivity. }
    set (p0 := stores true [P "Name" "nameSet" Text; P "longIdentifier" "longIdentifierSet" Text]%string [VStr (b "P"); VStr (b "L")] (newMaps [])).
    assert (DP : den pf projectRead ([b "P"; b "L"] ++ [] ++ (b "/begin MODULE" :: ([b "M"; b "L"] ++ [] ++ (short ++ groups 1 (np - 1)) ++ [b "/end MODULE"]) ++ []) ++ [b "/end PROJECT"]) (VObj (place_in Several "Modules" (VObj m) p0))).
    { refine (d_block pf _ _ NoGroup _ "/end PROJECT" [] [b "P"; b "L"] [] _ [VStr (b "P"); VStr (b "L")] p0 _ _ _ _).
      - constructor; [split; [discriminate|split; [vm_compute; reflexivity|reflexivity]]|]. constructor; [split; [discriminate|split; [vm_compute; reflexivity|reflexivity]]|constructor].
      - split; reflexivity.
      - refine (p_cons pf _ _ "/begin MODULE" "Modules" Several moduleRead _ [] (VObj m) p0 _ _ DM eq_refl (p_nil _ _ _ _)). cbn. tauto. }
    do 3 eexists. split; [|split; [|]].
    - unfold describes. replace (unluckyFile np) with (b "/begin PROJECT" :: ([b "P"; b "L"] ++ [] ++ (b "/begin MODULE" :: ([b "M"; b "L"] ++ [] ++ (short ++ groups 1 (np - 1)) ++ [b "/end MODULE"]) ++ []) ++ [b "/end PROJECT"]) ++ [])
        by (unfold unluckyFile, top; cbn [app]; rewrite <- !app_assoc; cbn [app]; rewrite <- ?app_assoc; reflexivity).
      refine (p_cons pf _ _ "/begin PROJECT" "Project" Single projectRead _ [] _ [] _ _ DP eq_refl (p_nil _ _ _ _)). cbn. tauto.
    - reflexivity.
    - reflexivity.
  Qed.
End File.

(** Whatever the number of CPUs: a file with twice as many groups as CPUs (their names
    are x, xx, xxx and so on), read without an error by every run, of which only the
    first group stays. *)
Theorem C65_lost_many_refuted : forall cpus, 0 < cpus -> exists ts, Forall writable ts /\ moduleCount ts = 1%N /\ forall gr pf, tableOk gr ->
    (exists a, describes pf projectRead ts a /\ forall k, k < cpus * 2 -> group a (nameOf k) <> None) /\
    (exists r, parseFromFile gr pf cpus (Some (write ts)) r) /\
    forall r, parseFromFile gr pf cpus (Some (write ts)) r -> exists a', r = Returned a' false /\ group a' (nameOf 0) <> None /\ forall k, 0 < k -> group a' (nameOf k) = None.
Proof.
  intros cpus CP. set (np := cpus * 2). assert (NP : 0 < np) by (unfold np; lia). exists (unluckyFile np). split; [apply uf_writable|]. split; [apply uf_count|].
  intros gr pf G. destruct (uf_described np pf) as (a & p & m & D & P & M).
  assert (NE : unluckyFile np <> []) by discriminate.
  assert (RD : forall r, parseFromFile gr pf cpus (Some (write (unluckyFile np))) r -> exists a', r = Returned a' false /\ likeFile (lacksBorders (unluckyFile np ++ [[]]) pf np) a a').
  { intros r H. apply (C69_one_module_as_read gr pf cpus (unluckyFile np) a CP G D (uf_writable np) NE); [rewrite uf_count; vm_compute; discriminate|intros i T; apply uf_divisible; assumption|exact H]. }
  assert (LK : forall a', likeFile (lacksBorders (unluckyFile np ++ [[]]) pf np) a a' ->
     (forall k, k < np -> group a (nameOf k) <> None) /\ group a' (nameOf 0) <> None /\ forall k, 0 < k -> group a' (nameOf k) = None).
  { intros a' [_ LP]. unfold group. rewrite P in *. destruct (fget "Project" a') as [[| | | | | |p']|]; try contradiction. destruct LP as [_ F].
    rewrite M in *. inversion F as [|? w ? ws L F']; subst. inversion F'; subst.
    destruct L as (i & its & stop & o & o' & name & long & kept & T & IM & -> & -> & _ & _ & HO & HO' & K).
    apply uf_only in T; [|exact NP]. subst i. destruct IM as (_ & _ & C). pose proof (uf_module np NP pf) as (_ & _ & C0). destruct (content_fun _ _ _ _ _ C0 _ _ C) as [-> ->].
    destruct (HO _ _ _ group_kind) as (g & -> & MM). destruct (HO' _ _ _ group_kind) as (g' & -> & MM').
    assert (KEYS : keyOf "groupName" shortVal = nameOf 0 /\ forall k, keyOf "groupName" (longVal k) = nameOf k) by (split; [reflexivity|intros k; reflexivity]). destruct KEYS as [K0 K1].
    split; [|split].
    - intros k KN E. assert (X : exists v, mget (nameOf k) g = Some v); [|destruct X as (v & X); congruence]. destruct k as [|k].
      + exists shortVal. apply MM. split; [|exact K0]. rewrite uf_stored. left. reflexivity.
      + exists (longVal (S k)). apply MM. split; [|apply K1]. rewrite uf_stored. right. apply in_map_iff. exists (longItem (S k)). split; [reflexivity|]. apply in_map_iff. exists (S k). split; [reflexivity|]. apply in_seq. lia.
    - intros E. assert (X : mget (nameOf 0) g' = Some shortVal); [|congruence]. apply MM'. split; [|exact K0]. apply in_map_iff. exists (shift shortItem). split; [reflexivity|]. apply K. split; [left; reflexivity|].
      intros B. apply (uf_border np NP) in B. destruct B as (k & B1 & B2). cbn in B2. lia.
    - intros k KP. destruct (mget (nameOf k) g') as [v|] eqn:E; [|reflexivity]. exfalso. apply MM' in E. destruct E as [E1 E2]. apply in_map_iff in E1. destruct E1 as (y & E1 & Y).
      apply K in Y. destruct Y as [Y NB]. destruct (uf_item np NP y Y) as [->|(k' & K' & ->)].
      + injection E1 as <-. rewrite K0 in E2. pose proof (name_inj np NP 0 k E2). lia.
      + apply NB. apply (uf_border np NP). exists k'. split; [exact K'|reflexivity]. }
  destruct (C65_total gr pf cpus (Some (write (unluckyFile np))) CP) as [[r0 H0] _].
  split; [|split; [exists r0; exact H0|]].
  - exists a. split; [exact D|]. destruct (RD r0 H0) as (a' & _ & L). exact (proj1 (LK a' L)).
  - intros r H. destruct (RD r H) as (a' & -> & L). exists a'. split; [reflexivity|]. exact (proj2 (LK a' L)).
Qed.
Print Assumptions C65_lost_many_refuted.
