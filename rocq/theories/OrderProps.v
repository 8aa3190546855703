(** C98: the order of the objects of a module. *)
From Coq Require Import String Ascii List Arith NArith ZArith Bool Lia SpecFloat Permutation.
From Verif Require Import GoBase HexSpec CalibModel CalibFileModel A2lIR A2lParsers A2lGrammar A2lForms A2lTripSpec A2lTripThm A2lTripProps A2lTextProps A2lFileModel A2lFileSpec A2lFileProps A2lFileLost.
From Verif Require Import LookModel ValuesModel TreeModel TreeSpec TreeThm TreeLook TreeConv FilesSpec FilesThm FilesProps OrderSpec SameMemSpec SameMemProps.
From Verif Require Import A2lDescribe CompuModel LookProps TreeLayoutSpec TreeLayout FilesConv.
From Verif Require IhexSpec IhexProps A2lModSpec A2lModModel A2lModProps A2lModSeq A2lLayoutModel.
Import ListNotations.

Lemma atMostOne_last : forall P l e, atMostOne P l -> (lastSuch P l e <-> In e l /\ P e).
Proof.
  intros P l e A. split; [apply lastSuch_in|]. intros [I Q]. apply in_split in I. destruct I as (l1 & l2 & ->). exists l1, l2. split; [reflexivity|]. split; [exact Q|].
  apply Forall_forall. intros x X Q'. apply in_split in X. destruct X as (l3 & l4 & ->). exact (A l1 l3 l4 e x eq_refl Q Q').
Qed.
Lemma perm_two : forall A (l1 l2 l3 : list A) x y l, Permutation (l1 ++ x :: l2 ++ y :: l3) l -> exists m1 m2 m3, l = m1 ++ x :: m2 ++ y :: m3 \/ l = m1 ++ y :: m2 ++ x :: m3.
Proof.
  intros A l1 l2 l3 x y l P. assert (IX : In x l) by (apply (Permutation_in x P), in_or_app; right; left; reflexivity). apply in_split in IX. destruct IX as (a & b & ->).
  pose proof (Permutation_app_inv _ _ _ _ _ P) as P'. assert (IY : In y (a ++ b)) by (apply (Permutation_in y P'); apply in_or_app; right; apply in_or_app; right; left; reflexivity).
  apply in_app_or in IY. destruct IY as [I|I]; apply in_split in I; destruct I as (c & d & ->).
  - exists c, d, b. right. rewrite <- app_assoc. reflexivity.
  - exists a, c, d. left. reflexivity.
Qed.
Lemma atMostOne_perm : forall P l l', Permutation l l' -> atMostOne P l -> atMostOne P l'.
Proof.
  intros P l l' PE A l1 l2 l3 e e' -> Q Q'. apply Permutation_sym in PE. destruct (perm_two _ _ _ _ _ _ _ PE) as (m1 & m2 & m3 & [->| ->]).
  - exact (A m1 m2 m3 e e' eq_refl Q Q').
  - exact (A m1 m2 m3 e' e eq_refl Q' Q).
Qed.
Lemma last_perm : forall P l l' e, Permutation l l' -> atMostOne P l -> (lastSuch P l e <-> lastSuch P l' e).
Proof.
  intros P l l' e PE A. rewrite (atMostOne_last P l e A), (atMostOne_last P l' e (atMostOne_perm _ _ _ PE A)). split; intros [I Q]; (split; [|exact Q]);
    [exact (Permutation_in e PE I)|exact (Permutation_in e (Permutation_sym PE) I)].
Qed.

(** One of the parts of which a module has one. *)
Lemma single_part : forall pf ts l m kw f, den pf moduleRead ts (VObj m) -> moduleHas pf ts l ->
    owns (itemsOf moduleRead) f kw = true -> slot (itemsOf moduleRead) kw = Some (f, Single) -> forallb (spares f) moduleParams = true -> fget f (newMaps moduleMapsOf) = None ->
    fget f m = option_map e_val (lastVal (fun e => String.eqb (e_kw e) kw) l).
Proof.
  intros pf ts l m kw f D H OW SL SP NM. destruct (module_entries _ _ _ D) as [_ U]. destruct (U l H) as (vs & E). injection E as ->.
  rewrite (single_entries _ _ _ OW SL). rewrite stores_other by exact SP. rewrite NM. destruct (lastVal _ l); reflexivity.
Qed.

Definition fieldOfKind : list (string * (string * string)) :=
  [("AxisPts", ("/begin AXIS_PTS", "name")); ("Characteristics", ("/begin CHARACTERISTIC", "Name")); ("CompuMethods", ("/begin COMPU_METHOD", "Name")); ("CompuTabs", ("/begin COMPU_TAB", "Name"));
   ("CompuVTabs", ("/begin COMPU_VTAB", "Name")); ("CompuVTabRanges", ("/begin COMPU_VTAB_RANGE", "Name")); ("Functions", ("/begin FUNCTION", "name")); ("Groups", ("/begin GROUP", "groupName"));
   ("Measurements", ("/begin MEASUREMENT", "name")); ("RecordLayouts", ("/begin RECORD_LAYOUT", "Name")); ("Units", ("/begin UNIT", "name"))]%string.
Lemma fieldOfKind_ok : forall f, In f mapFields -> exists kw key, In kw namedKinds /\ kindOk (itemsOf moduleRead) moduleMapsOf moduleParams kw f key = true.
Proof.
  assert (A : forallb (fun x => existsb (String.eqb (fst (snd x))) namedKinds && kindOk (itemsOf moduleRead) moduleMapsOf moduleParams (fst (snd x)) (fst x) (snd (snd x))) fieldOfKind = true) by (vm_compute; reflexivity).
  rewrite forallb_forall in A. intros f I. change mapFields with (map fst fieldOfKind) in I. apply in_map_iff in I. destruct I as ([f' [kw key]] & <- & I). specialize (A _ I). cbn [fst snd] in *.
  apply andb_prop in A. destruct A as [A1 A2]. exists kw, key. split; [|exact A2]. apply existsb_exists in A1. destruct A1 as (x & X & E). apply String.eqb_eq in E. subst x. exact X.
Qed.

(** If the entries of two modules are the same but for their order, and no two
    have the same name, no function of the package tells the modules apart. *)
Theorem C98_module : forall pf cd cd' lm lm', chosen pf cd lm -> chosen pf cd' lm' -> Permutation lm lm' -> unambiguous lm ->
    (forall x, lookup x (cd_hex cd) = lookup x (cd_hex cd')) -> alike cd cd'.
Proof.
  intros pf cd cd' lm lm' CH CH' PE [U1 U2] HX. apply same_alike. split; [exact HX|].
  destruct (chosen_map _ _ _ CH) as (m & TM & MM). destruct (chosen_map _ _ _ CH') as (m' & TM' & MM'). rewrite TM, TM'.
  assert (SI : forall kw f, In kw singleKinds -> owns (itemsOf moduleRead) f kw = true -> slot (itemsOf moduleRead) kw = Some (f, Single) -> forallb (spares f) moduleParams = true -> fget f (newMaps moduleMapsOf) = None -> fget f m = fget f m').
  { intros kw f I OW SL SP NM. destruct CH as (ws & v & D & H & NE), CH' as (ws' & v' & D' & H' & NE').
    assert (EV : v = VObj m) by (destruct (module_entries _ _ _ D) as [_ U]; destruct (U lm H) as (vs & E); unfold theModule in TM; rewrite NE in TM; rewrite E in TM |- *; injection TM as <-; reflexivity).
    assert (EV' : v' = VObj m') by (destruct (module_entries _ _ _ D') as [_ U]; destruct (U lm' H') as (vs & E); unfold theModule in TM'; rewrite NE' in TM'; rewrite E in TM' |- *; injection TM' as <-; reflexivity).
    subst v v'. rewrite (single_part pf ws lm m kw f D H OW SL SP NM), (single_part pf ws' lm' m' kw f D' H' OW SL SP NM). f_equal.
    assert (L : forall e, lastVal (fun e => String.eqb (e_kw e) kw) lm = Some e <-> lastVal (fun e => String.eqb (e_kw e) kw) lm' = Some e).
    { intros e. rewrite (lastVal_such (isKw kw) _ lm e), (lastVal_such (isKw kw) _ lm' e); [apply last_perm; [exact PE|apply U2; exact I]|intros; apply String.eqb_eq|intros; apply String.eqb_eq]. }
    destruct (lastVal _ lm) as [e|]; [symmetry; apply L; reflexivity|]. destruct (lastVal _ lm') as [e|]; [apply L; reflexivity|reflexivity]. }
  constructor.
  - intros f I k. destruct (fieldOfKind_ok f I) as (kw & key & IK & KO).
    assert (E : forall v, A2lModSpec.mget k (fmap f m) = Some v <-> A2lModSpec.mget k (fmap f m') = Some v).
    { intros v. rewrite (MM kw f key KO), (MM' kw f key KO). split; intros (e & L & <-); exists e; (split; [|reflexivity]); apply (last_perm (isNamed kw k) lm lm' e PE (U1 kw k IK)); exact L. }
    destruct (A2lModSpec.mget k (fmap f m)) as [v|]; [symmetry; apply E; reflexivity|]. destruct (A2lModSpec.mget k (fmap f m')) as [v|]; [apply E; reflexivity|reflexivity].
  - unfold A2lLayoutModel.part. rewrite (SI "/begin MOD_PAR"%string "ModPar"%string); [reflexivity|left; reflexivity|vm_compute; reflexivity|reflexivity|vm_compute; reflexivity|vm_compute; reflexivity].
  - unfold A2lLayoutModel.part. rewrite (SI "/begin MOD_COMMON"%string "ModCommon"%string); [reflexivity|right; left; reflexivity|vm_compute; reflexivity|reflexivity|vm_compute; reflexivity|vm_compute; reflexivity].
Qed.
Print Assumptions C98_module.

(** Both files written in another way: the objects of the module in another order, the
    bytes in other records, possibly of the other format; on whatever machines. *)
Theorem C98_calibration : forall gr pf cpus1 cpus2 ts1 ts2 path1 path2 content1 content2 img1 img2 r1 r2, (0 < cpus1)%nat -> (0 < cpus2)%nat ->
    a2lText gr pf cpus1 ts1 -> a2lText gr pf cpus2 ts2 -> hexText path1 content1 img1 -> hexText path2 content2 img2 -> Permutation img1 img2 ->
    calibration gr pf cpus1 true (Some (write ts1)) path1 (Some content1) r1 -> calibration gr pf cpus2 true (Some (write ts2)) path2 (Some content2) r2 ->
    exists a1 a2 m1 m2, r1 = RReturned (CD (Some a1) (Some m1)) None /\ r2 = RReturned (CD (Some a2) (Some m2)) None /\
      forall n1 n2 words1 words2 l1 l2, fileModule pf ts1 n1 words1 -> moduleHas pf words1 l1 -> fileModule pf ts2 n2 words2 -> moduleHas pf words2 l2 ->
        Permutation l1 l2 -> unambiguous l1 -> alike (calibOf a1 n1 m1) (calibOf a2 n2 m2).
Proof.
  intros gr pf cpus1 cpus2 ts1 ts2 path1 path2 content1 content2 img1 img2 r1 r2 C1 C2 A1 A2 H1 H2 P R1 R2.
  destruct (C80_files gr pf cpus1 ts1 path1 content1 img1 C1 A1 H1) as [_ F1]. destruct (C80_files gr pf cpus2 ts2 path2 content2 img2 C2 A2 H2) as [_ F2].
  destruct (F1 r1 R1) as (a1 & m1 & -> & M1 & K1), (F2 r2 R2) as (a2 & m2 & -> & M2 & K2). exists a1, a2, m1, m2. split; [reflexivity|]. split; [reflexivity|].
  intros n1 n2 words1 words2 l1 l2 W1 HM1 W2 HM2 PE UN.
  destruct (K1 n1 words1 l1 W1 HM1) as (cd1 & CH1 & E1 & AL1). destruct (K2 n2 words2 l2 W2 HM2) as (cd2 & CH2 & E2 & AL2).
  apply alike_trans with cd1; [apply alike_sym; exact AL1|]. apply alike_trans with cd2; [|exact AL2].
  apply (C98_module pf cd1 cd2 l1 l2 CH1 CH2 PE UN). rewrite E1, E2. cbn [calibOf cd_hex].
  apply (maps_agree m1 m2 img1 img2 M1 M2). intros x. split; intros I; [exact (Permutation_in x P I)|exact (Permutation_in x (Permutation_sym P) I)].
Qed.
Print Assumptions C98_calibration.

(** ** The same two groups in both orders *)
Definition g1Words : list bytes := map b ["G1"; "a"; "/end GROUP"]%string.
Definition g2Words : list bytes := map b ["G2"; "b"; "ROOT"; "/end GROUP"]%string.
Definition groupVal (ws : list bytes) : val := match describe (fun _ => None) 10 groupForm ws with Some (v, _) => v | None => VBool false end.
Definition eG1 : entry := Entry "/begin GROUP" g1Words (groupVal g1Words).
Definition eG2 : entry := Entry "/begin GROUP" g2Words (groupVal g2Words).
Definition groupsOf (l : list (list bytes)) : list bytes := flat_map (fun g => b "/begin GROUP" :: g) l.
Definition moduleG (l : list (list bytes)) : list bytes := b "M" :: b "L" :: groupsOf l ++ [b "/end MODULE"].
Definition moduleE : list bytes := [b "N"; b "L"; b "/end MODULE"].
Definition fileG (l : list (list bytes)) (more : list (list bytes)) : list bytes :=
  b "/begin PROJECT" :: b "P" :: b "L" :: flat_map (fun m => b "/begin MODULE" :: m) (moduleG l :: more) ++ [b "/end PROJECT"].

Local Ltac found := first [apply item_found; vm_compute; reflexivity | cbn [itemsOf moduleRead projectRead fileItems In]; tauto].
Local Ltac run := apply (den_run 10); vm_compute; reflexivity.
Definition entryG (ws : list bytes) : entry := Entry "/begin GROUP" ws (groupVal ws).
Definition groupOk (ws : list bytes) : Prop := forall pf, den pf groupForm ws (groupVal ws).
Lemma groups_module : forall pf l, Forall groupOk l -> moduleHas pf (moduleG l) (map entryG l).
Proof.
  intros pf l F. exists (b "M"), (b "L"), (groupsOf l). split; [reflexivity|]. induction F as [|g l G F IH]; [constructor|].
  change (groupsOf (g :: l)) with (b "/begin GROUP" :: g ++ groupsOf l). refine (en_cons _ _ _ "/begin GROUP" "Groups" (Under "groupName") groupForm g _ _ _ _ _ _ _); [found|apply G|reflexivity|exact IH].
Qed.
Lemma groups_file : forall pf l more v lv, Forall groupOk l -> den pf projectRead (tl (fileG l more)) v -> Forall2 (fun m v => den pf moduleRead m v) (moduleG l :: more) lv ->
    fileModule pf (fileG l more) 0 (moduleG l).
Proof.
  intros pf l more v lv F D DM. inversion DM as [|? vm ? lv' DV DM']; subst. set (em := Entry "/begin MODULE" (moduleG l) vm). set (ep := Entry "/begin PROJECT" (tl (fileG l more)) v).
  assert (EN : exists es, entries pf (itemsOf projectRead) "/end PROJECT" (flat_map (fun m => b "/begin MODULE" :: m) more) es).
  { clear - DM'. induction DM' as [|m w more ws D F IH]; [exists []; constructor|]. destruct IH as (es & IH). eexists. cbn [flat_map].
    change ((b "/begin MODULE" :: m) ++ flat_map (fun m => b "/begin MODULE" :: m) more) with (b "/begin MODULE" :: m ++ flat_map (fun m => b "/begin MODULE" :: m) more).
    refine (en_cons _ _ _ "/begin MODULE" "Modules" Several moduleRead m _ _ _ _ _ _ _); [found|exact D|reflexivity|exact IH]. }
  destruct EN as (es & EN). exists [ep], ep, (em :: es), em. split; [|split; [lastkw (@nil entry) (@nil entry)|split; [|split; reflexivity]]].
  - replace (fileG l more) with (b "/begin PROJECT" :: tl (fileG l more) ++ []) by (rewrite app_nil_r; reflexivity).
    refine (en_cons _ _ _ "/begin PROJECT" "Project" Single projectRead _ [] _ [] _ _ _ _); [found|exact D|reflexivity|constructor].
  - exists (b "P"), (b "L"). eexists. split; [reflexivity|]. cbn [flat_map].
    change ((b "/begin MODULE" :: moduleG l) ++ flat_map (fun m => b "/begin MODULE" :: m) more) with (b "/begin MODULE" :: moduleG l ++ flat_map (fun m => b "/begin MODULE" :: m) more).
    refine (en_cons _ _ _ "/begin MODULE" "Modules" Several moduleRead (moduleG l) _ _ _ _ _ _ _); [found|exact DV|reflexivity|exact EN].
Qed.
Lemma g1_ok : groupOk g1Words. Proof. intros pf. run. Qed.
Lemma g2_ok : groupOk g2Words. Proof. intros pf. run. Qed.
Lemma distinct_groups : unambiguous [eG1; eG2].
Proof.
  split.
  - intros kw k _ l1 l2 l3 e e' E [_ <-] [_ H]. destruct l1 as [|x [|y l1]]; cbn in E; inversion E; subst; try (destruct l2; discriminate);
      [destruct l2 as [|z [|]]; inversion H2; subst; discriminate H|destruct l1; discriminate].
  - intros kw [<-|[<-|[]]] l1 l2 l3 e e' E H H'; assert (I : In e [eG1; eG2]) by (rewrite E; apply in_or_app; right; left; reflexivity); destruct I as [<-|[<-|[]]]; discriminate H.
Qed.

(** The file with G2 before G1; one module. *)
Definition swapFile : list bytes := fileG [g2Words; g1Words] [].
Definition swapToks : list bytes := swapFile ++ [[]].
Definition swapGroups : list A2lModSpec.item :=
  [A2lModSpec.Item 6 10 (A2lModModel.Put_ "Groups" "groupName") (A2lModProps.readOr swapToks parseGroup 6); A2lModSpec.Item 11 14 (A2lModModel.Put_ "Groups" "groupName") (A2lModProps.readOr swapToks parseGroup 11)].
Lemma swap_isModule : forall pf, A2lModSpec.isModule swapToks pf 3 swapGroups 15.
Proof.
  intros pf. split; [A2lModProps.aWord|]. split; [A2lModProps.aWord|]. unfold swapGroups.
  A2lModProps.anObject "/begin GROUP"%string. A2lModProps.anObject "/begin GROUP"%string. apply A2lModSpec.ContEnd. reflexivity.
Qed.
Lemma swap_only : forall i, A2lModSpec.tok swapToks i = b "/begin MODULE" -> i = 3%nat.
Proof. intros i. do 18 (destruct i as [|i]; [intros H; first [reflexivity|discriminate H]|]). destruct i; discriminate. Qed.
Lemma swap_shared : forall pf i, A2lModSpec.tok swapToks i = b "/begin MODULE" -> divisible swapToks pf (1 * 2) i /\ inside swapToks pf (1 * 2) i.
Proof.
  intros pf i T. apply swap_only in T. subst i. split.
  - exists swapGroups, 15%nat. split; [apply swap_isModule|]. split; [|split].
    + intros p P. do 15 (destruct p as [|p]; [split; discriminate|]). lia.
    + intros p x q _ X F Q BG. assert (N : A2lModSeq.findKind (A2lModSpec.tok swapToks q) A2lModSpec.kinds = None).
      { destruct X as [<-|[<-|[]]]; cbn in F, Q.
        - assert (C : q = 7%nat \/ q = 8%nat \/ q = 9%nat \/ q = 10%nat) by lia. destruct C as [->|[->|[->| ->]]]; vm_compute; reflexivity.
        - assert (C : q = 12%nat \/ q = 13%nat \/ q = 14%nat) by lia. destruct C as [->|[->| ->]]; vm_compute; reflexivity. }
      apply A2lModSeq.findKind_none in N. exact (N BG).
    + unfold A2lModSpec.distinct. vm_compute. repeat constructor; cbn; intuition discriminate.
  - intros items stop x (_ & _ & C) X (k & K & E). pose proof (swap_isModule pf) as (_ & _ & C0). destruct (A2lModProps.content_fun _ _ _ _ _ C0 _ _ C) as [-> ->].
    change ((15 - (3 + 2)) / (1 * 2))%nat with 5%nat in E. destruct X as [<-|[<-|[]]]; cbn [A2lModSpec.it_from] in E; lia.
Qed.

Lemma no_group : forall a hex k res x, group a k = None -> (exists p m, fget "Project" a = Some (VObj p) /\ flist "Modules" p = [VObj m]) ->
    objectsByIdent (calibOf a 0 hex) k = Ok res -> ~ In (Group_ x) res.
Proof.
  intros a hex k res x GN (p & m & P & FL) ER I. unfold objectsByIdent, GetObjectByIdent, modulesOf, calibOf, A2lLayoutModel.part in ER. rewrite P in ER. cbn [ValuesModel.cd_modules ValuesModel.cd_index] in ER.
  rewrite FL in ER. cbn [map nth_error] in ER. injection ER as <-. unfold group in GN. rewrite P, FL in GN.
  assert (Z : sfind k (fmap "Groups" (objOf (VObj m))) = None) by (rewrite sfind_mget; unfold fmap; cbn [objOf]; destruct (fget "Groups" m) as [[]|]; try reflexivity; exact GN).
  rewrite !addFound_iff in I. unfold mapsOf in I. cbn [m_groups] in I.
  repeat match goal with X : _ \/ _ |- _ => destruct X as [X|(y & F & Q)]; [|first [discriminate Q|discriminate (eq_trans (eq_sym Z) F)]] end. destruct I.
Qed.

(** With one module the order does matter: on a computer with one CPU both files are read without an error, and
    only the second one has the group G2. *)
Theorem C98_order_refuted : exists ts1 ts2, Forall writable ts1 /\ Forall writable ts2 /\ forall gr pf, tableOk gr ->
    (exists a, describes pf plainProject ts1 a) /\ (exists a, describes pf plainProject ts2 a) /\
    (exists words1 words2 l1 l2, fileModule pf ts1 0 words1 /\ moduleHas pf words1 l1 /\ fileModule pf ts2 0 words2 /\ moduleHas pf words2 l2 /\ Permutation l1 l2 /\ unambiguous l1) /\
    (exists r, parseFromFile gr pf 1 (Some (write ts1)) r) /\ (exists r, parseFromFile gr pf 1 (Some (write ts2)) r) /\
    forall r1 r2, parseFromFile gr pf 1 (Some (write ts1)) r1 -> parseFromFile gr pf 1 (Some (write ts2)) r2 ->
      exists a1 a2, r1 = Returned a1 false /\ r2 = Returned a2 false /\ forall hex1 hex2, ~ alike (calibOf a1 0 hex1) (calibOf a2 0 hex2).
Proof.
  destruct lost_file as (W & M & E & DD). exists lostFile, swapFile. split; [exact W|].
  assert (W2 : Forall writable swapFile) by (apply Forall_forall; intros t I; apply writableb_ok; revert t I; apply forallb_forall; vm_compute; reflexivity). split; [exact W2|].
  intros gr pf G. destruct (DD pf) as (a & D & _ & N2). split; [exists a; exact D|]. destruct (C69_plain pf _ _ D) as [_ D'].
  assert (DS : exists s, describes pf plainProject swapFile s) by (eexists; described). split; [exact DS|]. destruct DS as (s & DS). destruct (C69_plain pf _ _ DS) as [_ DS'].
  assert (F1 : fileModule pf lostFile 0 (moduleG [g1Words; g2Words])).
  { change lostFile with (fileG [g1Words; g2Words] []). eapply groups_file; [repeat constructor; [exact g1_ok|exact g2_ok]|run|constructor; [run|constructor]]. }
  assert (F2 : fileModule pf swapFile 0 (moduleG [g2Words; g1Words])).
  { eapply groups_file; [repeat constructor; [exact g2_ok|exact g1_ok]|run|constructor; [run|constructor]]. }
  assert (H1 : moduleHas pf (moduleG [g1Words; g2Words]) [eG1; eG2]) by (apply (groups_module pf [g1Words; g2Words]); repeat constructor; [exact g1_ok|exact g2_ok]).
  assert (H2 : moduleHas pf (moduleG [g2Words; g1Words]) [eG2; eG1]) by (apply (groups_module pf [g2Words; g1Words]); repeat constructor; [exact g2_ok|exact g1_ok]).
  split; [exists (moduleG [g1Words; g2Words]), (moduleG [g2Words; g1Words]), [eG1; eG2], [eG2; eG1]; split; [exact F1|split; [exact H1|split; [exact F2|split; [exact H2|split; [apply perm_swap|exact distinct_groups]]]]]|].
  split; [apply C65_total; lia|]. split; [apply C65_total; lia|]. intros r1 r2 R1 R2.
  assert (DV : forall i, A2lModSpec.tok (lostFile ++ [[]]) i = b "/begin MODULE" -> divisible (lostFile ++ [[]]) pf (1 * 2) i) by (rewrite E; apply lost_divisible).
  destruct (C69_one_module_as_read gr pf 1 lostFile a ltac:(lia) G D' W ltac:(discriminate) M DV r1 R1) as (a1 & -> & L). rewrite E in L.
  destruct (C70_one_module_guarded gr pf 1 swapFile s ltac:(lia) G DS' W2 ltac:(discriminate) ltac:(vm_compute; discriminate) (swap_shared pf) r2 R2) as (a2 & -> & FI).
  exists a1, a2. split; [reflexivity|]. split; [reflexivity|]. intros hex1 hex2 AL.
  destruct (FI 0%nat hex2 _ _ (b "G2") F2 H2) as (res & ER & IFF & _). rewrite <- (al_objects _ _ AL) in ER.
  assert (IN : In (Group_ (e_val eG2)) res) by (apply IFF; apply wr_group; last_ (@nil entry) [eG1]). revert IN. apply (no_group a1 hex1 (b "G2") res _); [| |exact ER].
  - pose proof (C69_parsed pf lostFile a D') as R. rewrite E in R.
    destruct (lost_read pf (1 * 2) a a1 _ R L (b "G2") (A2lModSpec.Item 10 14 (A2lModModel.Put_ "Groups" "groupName") (A2lModProps.readOr lostToks parseGroup 10))) as [B _];
      [right; left; reflexivity|vm_compute; reflexivity|]. apply B. exists 1%nat. split; [lia|reflexivity].
  - destruct L as [_ L]. unfold group in N2. destruct (fget "Project" a) as [[| | | | | |p]|]; try (exfalso; apply N2; reflexivity). destruct (fget "Project" a1) as [[| | | | | |p']|]; try contradiction.
    destruct L as [_ F]. destruct (flist "Modules" p) as [|v0 [|v1 vs]] eqn:FL; [exfalso; apply N2; reflexivity| |destruct v0; exfalso; apply N2; reflexivity].
    inversion F as [|? w ? ws SM F' E1 E2]; subst. inversion F'; subst. destruct SM as (i & items & stop & o1 & o2 & name & long & kept & _ & _ & _ & -> & _). exists p', o2. auto.
Qed.
Print Assumptions C98_order_refuted.

(** Two modules, so that nothing is shared out. *)
Lemma two_modules : forall gr pf cpus l, tableOk gr -> Forall groupOk l -> Forall writable (fileG l [moduleE]) -> (exists a, describes pf projectRead (fileG l [moduleE]) a) -> (1 < moduleCount (fileG l [moduleE]) mod 2 ^ 32)%N ->
    a2lText gr pf cpus (fileG l [moduleE]).
Proof. intros gr pf cpus l G F W D M. constructor; [exact G|exact D|exact W|left; exact M]. Qed.
Definition sameWords1 : list bytes := map b ["G"; "a"; "/end GROUP"]%string.
Definition sameWords2 : list bytes := map b ["G"; "b"; "/end GROUP"]%string.
Local Ltac areWritable := apply Forall_forall; intros ? ?; apply writableb_ok; match goal with I : In ?t _ |- _ => revert t I; apply forallb_forall; vm_compute; reflexivity end.
Local Ltac aText := apply two_modules; [assumption|repeat constructor; intros ?; run|areWritable|eexists; described|vm_compute; reflexivity].

(** If two objects of one kind have the same name, the order matters on every computer. *)
Theorem C98_names_refuted : exists ts1 ts2, forall gr pf cpus, (0 < cpus)%nat -> tableOk gr -> a2lText gr pf cpus ts1 /\ a2lText gr pf cpus ts2 /\
    (exists words1 words2 l1 l2, fileModule pf ts1 0 words1 /\ moduleHas pf words1 l1 /\ fileModule pf ts2 0 words2 /\ moduleHas pf words2 l2 /\ Permutation l1 l2) /\
    forall r1 r2, parseFromFile gr pf cpus (Some (write ts1)) r1 -> parseFromFile gr pf cpus (Some (write ts2)) r2 ->
      exists a1 a2, r1 = Returned a1 false /\ r2 = Returned a2 false /\ forall hex1 hex2, ~ alike (calibOf a1 0 hex1) (calibOf a2 0 hex2).
Proof.
  exists (fileG [sameWords1; sameWords2] [moduleE]), (fileG [sameWords2; sameWords1] [moduleE]). intros gr pf cpus CP G.
  assert (OK1 : Forall groupOk [sameWords1; sameWords2]) by (repeat constructor; intros ?; run). assert (OK2 : Forall groupOk [sameWords2; sameWords1]) by (repeat constructor; intros ?; run).
  assert (T1 : a2lText gr pf cpus (fileG [sameWords1; sameWords2] [moduleE])) by aText. assert (T2 : a2lText gr pf cpus (fileG [sameWords2; sameWords1] [moduleE])) by aText.
  split; [exact T1|]. split; [exact T2|].
  assert (F1 : fileModule pf (fileG [sameWords1; sameWords2] [moduleE]) 0 (moduleG [sameWords1; sameWords2])) by (eapply groups_file; [exact OK1|run|constructor; [run|constructor; [run|constructor]]]).
  assert (F2 : fileModule pf (fileG [sameWords2; sameWords1] [moduleE]) 0 (moduleG [sameWords2; sameWords1])) by (eapply groups_file; [exact OK2|run|constructor; [run|constructor; [run|constructor]]]).
  pose proof (groups_module pf _ OK1) as H1. pose proof (groups_module pf _ OK2) as H2.
  split; [exists (moduleG [sameWords1; sameWords2]), (moduleG [sameWords2; sameWords1]), (map entryG [sameWords1; sameWords2]), (map entryG [sameWords2; sameWords1]); split; [exact F1|split; [exact H1|split; [exact F2|split; [exact H2|apply perm_swap]]]]|].
  intros r1 r2 R1 R2. destruct (at_words _ _ _ _ T1) as (a1 & D1). destruct (at_words _ _ _ _ T2) as (a2 & D2).
  apply (C69_sequential gr pf cpus _ a1 CP G D1 (at_writable _ _ _ _ T1)) in R1; [|vm_compute; reflexivity]. apply (C69_sequential gr pf cpus _ a2 CP G D2 (at_writable _ _ _ _ T2)) in R2; [|vm_compute; reflexivity].
  exists a1, a2. split; [exact R1|]. split; [exact R2|]. intros hex1 hex2 AL.
  destruct (C70_tree pf _ a1 D1 0%nat hex1 _ _ (b "G") F1 H1) as (x1 & E1 & I1 & _). destruct (C70_tree pf _ a2 D2 0%nat hex2 _ _ (b "G") F2 H2) as (x2 & E2 & I2 & _).
  assert (x2 = x1) as -> by (rewrite (al_objects _ _ AL) in E1; congruence).
  assert (IN : In (Group_ (groupVal sameWords1)) x1) by (apply I2; apply (wr_group pf _ _ (entryG sameWords1)); last_ [entryG sameWords2] (@nil entry)).
  apply I1 in IN. inversion IN as [| | | | | | |e L EV| | | |]; subst.
  assert (L2 : lastSuch (isNamed "/begin GROUP" (b "G")) (map entryG [sameWords1; sameWords2]) (entryG sameWords2)) by (last_ [entryG sameWords1] (@nil entry)).
  pose proof (lastSuch_fun _ _ _ _ L L2) as ->. vm_compute in EV. discriminate.
Qed.
Print Assumptions C98_names_refuted.

(** The hypotheses are met by files with these groups in both orders. *)
Example C98_example : forall gr pf cpus, tableOk gr -> a2lText gr pf cpus (fileG [g1Words; g2Words] [moduleE]) /\ a2lText gr pf cpus (fileG [g2Words; g1Words] [moduleE]) /\
    fileModule pf (fileG [g1Words; g2Words] [moduleE]) 0 (moduleG [g1Words; g2Words]) /\ moduleHas pf (moduleG [g1Words; g2Words]) [eG1; eG2] /\
    fileModule pf (fileG [g2Words; g1Words] [moduleE]) 0 (moduleG [g2Words; g1Words]) /\ moduleHas pf (moduleG [g2Words; g1Words]) [eG2; eG1] /\
    Permutation [eG1; eG2] [eG2; eG1] /\ unambiguous [eG1; eG2] /\ hexText (b "motor.hex") (IhexSpec.ifile Dos IhexProps.ex_items) (IhexSpec.image (IhexSpec.items_recs IhexProps.ex_items)).
Proof.
  intros gr pf cpus G. assert (OK1 : Forall groupOk [g1Words; g2Words]) by (repeat constructor; intros ?; run). assert (OK2 : Forall groupOk [g2Words; g1Words]) by (repeat constructor; intros ?; run).
  split; [aText|]. split; [aText|]. split; [eapply groups_file; [exact OK1|run|constructor; [run|constructor; [run|constructor]]]|]. split; [exact (groups_module pf _ OK1)|].
  split; [eapply groups_file; [exact OK2|run|constructor; [run|constructor; [run|constructor]]]|]. split; [exact (groups_module pf _ OK2)|]. split; [apply perm_swap|]. split; [exact distinct_groups|exact hex_f].
Qed.
