(** C105: an A2L file in which some objects of a module were taken out, put in or changed. *)
From Coq Require Import String Ascii List Arith NArith ZArith Bool Lia SpecFloat Permutation.
From Verif Require Import GoBase HexSpec MemModel CalibModel CalibFileModel A2lIR A2lParsers A2lGrammar A2lForms A2lTripSpec A2lTripThm A2lTripProps A2lTextProps A2lFileModel A2lFileSpec A2lFileProps A2lFileLost.
From Verif Require Import LookModel ValuesModel TreeModel TreeSpec TreeThm TreeLook TreeConv FilesSpec FilesThm FilesProps OrderSpec SameMemSpec SameMemProps.
From Verif Require Import A2lDescribe CompuModel LookProps TreeLayoutSpec TreeLayout FilesConv OrderProps.
From Verif Require IhexSpec IhexProps A2lModSpec A2lModModel A2lModProps A2lModSeq A2lLayoutModel.
Import ListNotations.

(** ** What should come out *)

(** The names that a conversion method and a characteristic refer to. *)
Definition tableName (cm : val) : bytes := fstr "ConversionTable" (A2lLayoutModel.part "CompuTabRef" (objOf cm)).
Definition layoutName (c : fields) : bytes := fstr "Deposit" c.

(** None of the objects [es] is one of the kind [kw] (with the name [k]). *)
Definition noNamed (kw : string) (k : bytes) (es : list entry) : Prop := Forall (fun e => ~ isNamed kw k e) es.
Definition noKw (kw : string) (es : list entry) : Prop := Forall (fun e => e_kw e <> kw) es.

(** The functions of the package tell two calibrations apart only where one of the
    objects [es] is asked for: by its name, or by another object that refers to it; a
    MOD_PAR is used for all system constants, a MOD_COMMON for all values. *)
Record alikeBut (es : list entry) (cd cd' : calib) : Prop := AlikeBut {
  ab_objects : forall k, noKw "/begin MOD_PAR" es -> (forall kw, In kw namedKinds -> noNamed kw k es) -> objectsByIdent cd k = objectsByIdent cd' k;
  ab_constants : noKw "/begin MOD_PAR" es -> forall k, systemConstantOf cd k = systemConstantOf cd' k /\ constantValueOf cd k = constantValueOf cd' k;
  ab_phy : forall dec cm, noNamed "/begin COMPU_TAB" (tableName cm) es -> decToPhy dec cm cd = decToPhy dec cm cd';
  ab_verbal : forall dec cv, noNamed "/begin COMPU_VTAB" (fstr "Name" (objOf cv)) es -> verbalOf dec cv cd = verbalOf dec cv cd';
  ab_range : forall dec cv, noNamed "/begin COMPU_VTAB_RANGE" (fstr "Name" (objOf cv)) es -> rangeTextOf dec cv cd = rangeTextOf dec cv cd';
  ab_layout : forall c, noNamed "/begin RECORD_LAYOUT" (layoutName c) es -> getRecordLayout cd c = getRecordLayout cd' c;
  ab_values : forall cv, noNamed "/begin RECORD_LAYOUT" (layoutName (cv_char cv)) es -> noKw "/begin MOD_COMMON" es ->
    (forall r, getValuesFromHex cd cv r <-> getValuesFromHex cd' cv r) /\ forall order, valuesAlong getBytes_repaired cd cv order = valuesAlong getBytes_repaired cd' cv order
}.

(** ** Modules *)

Lemma last_more : forall P l1 l2 (e x : entry), ~ P e -> (lastSuch P (l1 ++ l2) x <-> lastSuch P (l1 ++ e :: l2) x).
Proof.
  intros P l1 l2 e x N. split; intros (a & c & E & Q & F).
  - revert a E. induction l1 as [|y l1 IH]; intros a E; cbn [app] in *.
    + exists (e :: a), c. rewrite E. auto.
    + destruct a as [|z a]; cbn [app] in E; injection E as -> E.
      * exists [], (l1 ++ e :: l2). split; [reflexivity|]. split; [exact Q|]. subst c. apply Forall_app in F. destruct F as [F1 F2]. apply Forall_app. auto.
      * destruct (IH a E) as (a' & c' & E' & H). exists (z :: a'), c'. rewrite E'. auto.
  - revert a E. induction l1 as [|y l1 IH]; intros a E; cbn [app] in *.
    + destruct a as [|z a]; cbn [app] in E; injection E as -> E; [contradiction|]. exists a, c. auto.
    + destruct a as [|z a]; cbn [app] in E; injection E as -> E.
      * exists [], (l1 ++ l2). split; [reflexivity|]. split; [exact Q|]. subst c. apply Forall_app in F. destruct F as [F1 F2]. inversion F2. apply Forall_app. auto.
      * destruct (IH a E) as (a' & c' & E' & H). exists (z :: a'), c'. rewrite E'. auto.
Qed.

Lemma last_edit : forall P l1 l2 d d' (x : entry), Forall (fun e => ~ P e) (d ++ d') -> (lastSuch P (l1 ++ d ++ l2) x <-> lastSuch P (l1 ++ d' ++ l2) x).
Proof.
  assert (K : forall P d l1 l2 (x : entry), Forall (fun e => ~ P e) d -> (lastSuch P (l1 ++ l2) x <-> lastSuch P (l1 ++ d ++ l2) x)).
  { intros P d l1 l2 x F. induction F as [|e d N F IH]; [reflexivity|]. rewrite IH. cbn [app]. apply last_more. exact N. }
  intros P l1 l2 d d' x F. apply Forall_app in F. destruct F as [F F']. rewrite <- (K P d l1 l2 x F). apply K. exact F'.
Qed.

(** What the functions use of two modules, which differ in [es]. *)
Record mapsBut (es : list entry) (o o' : fields) : Prop := MapsBut {
  mb_maps : forall f kw key, In (f, (kw, key)) fieldOfKind -> forall k, noNamed kw k es -> A2lModSpec.mget k (fmap f o) = A2lModSpec.mget k (fmap f o');
  mb_par : noKw "/begin MOD_PAR" es -> A2lLayoutModel.part "ModPar" o = A2lLayoutModel.part "ModPar" o';
  mb_common : noKw "/begin MOD_COMMON" es -> A2lLayoutModel.part "ModCommon" o = A2lLayoutModel.part "ModCommon" o'
}.

Lemma fieldOfKind_all : forall f kw key, In (f, (kw, key)) fieldOfKind -> In kw namedKinds /\ kindOk (itemsOf moduleRead) moduleMapsOf moduleParams kw f key = true.
Proof.
  assert (A : forallb (fun x => existsb (String.eqb (fst (snd x))) namedKinds && kindOk (itemsOf moduleRead) moduleMapsOf moduleParams (fst (snd x)) (fst x) (snd (snd x))) fieldOfKind = true) by (vm_compute; reflexivity).
  rewrite forallb_forall in A. intros f kw key I. specialize (A _ I). cbn [fst snd] in A. apply andb_prop in A. destruct A as [A1 A2]. split; [|exact A2].
  apply existsb_exists in A1. destruct A1 as (x & X & E). apply String.eqb_eq in E. subst x. exact X.
Qed.

Lemma edit_maps : forall pf cd cd' l1 d d' l2, chosen pf cd (l1 ++ d ++ l2) -> chosen pf cd' (l1 ++ d' ++ l2) -> exists m m', theModule cd = Some m /\ theModule cd' = Some m' /\ mapsBut (d ++ d') m m'.
Proof.
  intros pf cd cd' l1 d d' l2 CH CH'.
  destruct (chosen_map _ _ _ CH) as (m & TM & MM). destruct (chosen_map _ _ _ CH') as (m' & TM' & MM'). exists m, m'. split; [exact TM|]. split; [exact TM'|].
  assert (SI : forall kw f, noKw kw (d ++ d') -> owns (itemsOf moduleRead) f kw = true -> slot (itemsOf moduleRead) kw = Some (f, Single) -> forallb (spares f) moduleParams = true -> fget f (newMaps moduleMapsOf) = None -> fget f m = fget f m').
  { intros kw f NK OW SL SP NM. destruct CH as (ws & v & D & H & NE), CH' as (ws' & v' & D' & H' & NE').
    assert (EV : v = VObj m) by (destruct (module_entries _ _ _ D) as [_ U]; destruct (U _ H) as (vs & E); unfold theModule in TM; rewrite NE in TM; rewrite E in TM |- *; injection TM as <-; reflexivity).
    assert (EV' : v' = VObj m') by (destruct (module_entries _ _ _ D') as [_ U]; destruct (U _ H') as (vs & E); unfold theModule in TM'; rewrite NE' in TM'; rewrite E in TM' |- *; injection TM' as <-; reflexivity).
    subst v v'. rewrite (single_part pf ws _ m kw f D H OW SL SP NM), (single_part pf ws' _ m' kw f D' H' OW SL SP NM). f_equal.
    assert (L : forall x, lastVal (fun e => String.eqb (e_kw e) kw) (l1 ++ d ++ l2) = Some x <-> lastVal (fun e => String.eqb (e_kw e) kw) (l1 ++ d' ++ l2) = Some x).
    { intros x. rewrite (lastVal_such (isKw kw) _ (l1 ++ d ++ l2) x), (lastVal_such (isKw kw) _ (l1 ++ d' ++ l2) x); [apply last_edit; exact NK|intros; apply String.eqb_eq|intros; apply String.eqb_eq]. }
    destruct (lastVal _ (l1 ++ d ++ l2)) as [x|]; [symmetry; apply L; reflexivity|]. destruct (lastVal _ (l1 ++ d' ++ l2)) as [x|]; [apply L; reflexivity|reflexivity]. }
  constructor.
  - intros f kw key I k NN. destruct (fieldOfKind_all _ _ _ I) as [_ KO].
    assert (E : forall v, A2lModSpec.mget k (fmap f m) = Some v <-> A2lModSpec.mget k (fmap f m') = Some v).
    { intros v. rewrite (MM kw f key KO), (MM' kw f key KO). split; intros (x & L & <-); exists x; (split; [|reflexivity]); apply (last_edit (isNamed kw k) l1 l2 d d' x NN); exact L. }
    destruct (A2lModSpec.mget k (fmap f m)) as [v|]; [symmetry; apply E; reflexivity|]. destruct (A2lModSpec.mget k (fmap f m')) as [v|]; [apply E; reflexivity|reflexivity].
  - intros NK. unfold A2lLayoutModel.part. rewrite (SI "/begin MOD_PAR"%string "ModPar"%string NK); [reflexivity|vm_compute; reflexivity|reflexivity|vm_compute; reflexivity|vm_compute; reflexivity].
  - intros NK. unfold A2lLayoutModel.part. rewrite (SI "/begin MOD_COMMON"%string "ModCommon"%string NK); [reflexivity|vm_compute; reflexivity|reflexivity|vm_compute; reflexivity|vm_compute; reflexivity].
Qed.

Local Ltac inK := cbn; tauto.

(** The objects [d] of a module are replaced by the objects [d'] (none, one or more):
    nothing else changes. *)
Theorem C105_module : forall pf cd cd' l1 d d' l2, chosen pf cd (l1 ++ d ++ l2) -> chosen pf cd' (l1 ++ d' ++ l2) ->
    (forall x, lookup x (cd_hex cd) = lookup x (cd_hex cd')) -> alikeBut (d ++ d') cd cd'.
Proof.
  intros pf cd cd' l1 d d' l2 CH CH' HX. destruct (edit_maps pf cd cd' l1 d d' l2 CH CH') as (o & o' & TM & TM' & S).
  assert (LY : forall c, noNamed "/begin RECORD_LAYOUT" (layoutName c) (d ++ d') -> getRecordLayout cd c = getRecordLayout cd' c).
  { intros c N. unfold getRecordLayout. destruct (negb _); [reflexivity|]. rewrite TM, TM', !mget_both. pose proof (mb_maps _ _ _ S "RecordLayouts" "/begin RECORD_LAYOUT" "Name" ltac:(inK) _ N) as Q. unfold layoutName in Q. rewrite Q. reflexivity. }
  assert (AL : forall gb cv order, gb = getBytes \/ gb = getBytes_repaired -> noNamed "/begin RECORD_LAYOUT" (layoutName (cv_char cv)) (d ++ d') -> noKw "/begin MOD_COMMON" (d ++ d') ->
      valuesAlong gb cd cv order = valuesAlong gb cd' cv order).
  { intros gb cv order G N NC. unfold valuesAlong. rewrite (LY _ N), TM, TM'. destruct (getRecordLayout cd' (cv_char cv)) as [rl| |]; try reflexivity.
    assert (E1 : cx_common (contextOf cd o) = cx_common (contextOf cd' o')) by (unfold contextOf; cbn; rewrite (mb_common _ _ _ S NC); reflexivity).
    assert (E2 : cx_order (contextOf cd o) = cx_order (contextOf cd' o')) by (unfold contextOf; cbn; rewrite (mb_common _ _ _ S NC); reflexivity).
    assert (E3 : cx_orderSet (contextOf cd o) = cx_orderSet (contextOf cd' o')) by (unfold contextOf; cbn; rewrite (mb_common _ _ _ S NC); reflexivity).
    assert (GB : forall p n, gb (contextOf cd o) p n = gb (contextOf cd' o') p n).
    { intros p n. destruct G as [-> | ->]; unfold getBytes, getBytes_repaired; cbn [cx_hex contextOf]; rewrite (loop_same _ (cd_hex cd')) by exact HX; reflexivity. }
    cbv zeta. rewrite (ext_address _ _ E2 E3). destruct (convertStringToUint32Address (contextOf cd' o') _); try reflexivity; rewrite (ext_fields gb _ _ GB E1 E2 E3); reflexivity. }
  constructor.
  - intros k NP N. unfold objectsByIdent, GetObjectByIdent. rewrite !theModule_maps, TM, TM'. cbn [option_map]. unfold mapsOf.
    cbn [m_axisPts m_characteristics m_compuMethods m_compuTabs m_compuVTabs m_compuVTabRanges m_functions m_groups m_measurements m_recordLayouts m_systemConstants m_units].
    rewrite (mb_par _ _ _ S NP).
    assert (F : forall f kw key (mk : val -> object val) acc, In (f, (kw, key)) fieldOfKind -> addFound mk k (fmap f o) acc = addFound mk k (fmap f o') acc).
    { intros f kw key mk acc I. apply addFound_same. rewrite !sfind_mget. apply (mb_maps _ _ _ S f kw key I). apply N. exact (proj1 (fieldOfKind_all _ _ _ I)). }
    repeat match goal with |- context [addFound ?mk k (fmap ?f o) ?acc] => erewrite (F f _ _ mk acc) by (cbn; intuition reflexivity) end. reflexivity.
  - intros NP k. unfold systemConstantOf, constantValueOf, getSystemConstantValue, getSystemConstant. rewrite !theModule_maps, TM, TM'. cbn [option_map]. unfold mapsOf. cbn [m_systemConstants]. rewrite (mb_par _ _ _ S NP). auto.
  - intros dec cm N. unfold decToPhy. rewrite TM, TM'. unfold convDecToPhy. destruct (cm_type (methodOf cm)); try reflexivity. unfold calcTabNoIntp, tablesOf. cbn [mod_tabs]. rewrite !sfind_onValues.
    pose proof (mb_maps _ _ _ S "CompuTabs" "/begin COMPU_TAB" "Name" ltac:(inK) _ N) as Q. change (tableName cm) with (cm_tabRef (methodOf cm)) in Q. rewrite Q. reflexivity.
  - intros dec cv N. unfold verbalOf. rewrite TM, TM'. unfold calcTabVerb, tablesOf. cbn [mod_vtabs]. rewrite !sfind_onValues. rewrite (mb_maps _ _ _ S "CompuVTabs" "/begin COMPU_VTAB" "Name" ltac:(inK) _ N). reflexivity.
  - intros dec cv N. unfold rangeTextOf. rewrite TM, TM'. unfold calcTabVerbRange, tablesOf. cbn [mod_ranges]. rewrite !sfind_onValues. rewrite (mb_maps _ _ _ S "CompuVTabRanges" "/begin COMPU_VTAB_RANGE" "Name" ltac:(inK) _ N). reflexivity.
  - exact LY.
  - intros cv N NC. split; [|intros order; apply AL; auto]. intros r. unfold getValuesFromHex. destruct (cv_layout cv); [|reflexivity].
    split; intros (order & P & E); exists order; (split; [exact P|]); rewrite E; [|symmetry]; apply AL; auto.
Qed.
Print Assumptions C105_module.

(** Objects of kinds that no function asks for make no difference at all. *)
Theorem C105_unused_kind : forall pf cd cd' l1 d d' l2, chosen pf cd (l1 ++ d ++ l2) -> chosen pf cd' (l1 ++ d' ++ l2) -> Forall (fun e => ~ In (e_kw e) (namedKinds ++ singleKinds)) (d ++ d') ->
    (forall x, lookup x (cd_hex cd) = lookup x (cd_hex cd')) -> alike cd cd'.
Proof.
  intros pf cd cd' l1 d d' l2 CH CH' NI HX. destruct (C105_module pf cd cd' l1 d d' l2 CH CH' HX) as [OB CO PH VE RA LY VA].
  assert (NK : forall kw, In kw (namedKinds ++ singleKinds) -> noKw kw (d ++ d')) by (intros kw I; eapply Forall_impl; [|exact NI]; intros e N E; subst kw; contradiction).
  assert (NN : forall kw k, In kw namedKinds -> noNamed kw k (d ++ d')).
  { intros kw k I. eapply Forall_impl; [|exact (NK kw (in_or_app _ _ _ (or_introl I)))]. intros e N [E _]. contradiction. }
  assert (NP : noKw "/begin MOD_PAR" (d ++ d')) by (apply NK; cbn; tauto). assert (NC : noKw "/begin MOD_COMMON" (d ++ d')) by (apply NK; cbn; tauto).
  constructor; intros.
  - apply OB; [exact NP|auto].
  - apply CO, NP.
  - apply CO, NP.
  - apply PH, NN. inK.
  - apply VE, NN. inK.
  - apply RA, NN. inK.
  - apply LY, NN. inK.
  - apply VA; [apply NN; inK|exact NC].
  - apply VA; [apply NN; inK|exact NC].
Qed.
Print Assumptions C105_unused_kind.

Lemma alikeBut_alike : forall es a b c d, alike a b -> alikeBut es b c -> alike c d -> alikeBut es a d.
Proof.
  intros es a b c d [O1 K1 V1 P1 E1 R1 L1 G1 W1] [O2 C2 P2 E2 R2 L2 G2] [O3 K3 V3 P3 E3 R3 L3 G3 W3]. constructor.
  - intros k NP N. rewrite O1, (O2 k NP N). apply O3.
  - intros NP k. rewrite K1, V1. destruct (C2 NP k) as [-> ->]. rewrite K3, V3. auto.
  - intros dec cm N. rewrite P1, (P2 dec cm N). apply P3.
  - intros dec cv N. rewrite E1, (E2 dec cv N). apply E3.
  - intros dec cv N. rewrite R1, (R2 dec cv N). apply R3.
  - intros x N. rewrite L1, (L2 x N). apply L3.
  - intros cv N NC. destruct (G2 cv N NC) as [GA GB]. split; [intros r; rewrite G1, GA; apply G3|intros order; rewrite W1, GB; apply W3].
Qed.

(** The same for two calls of ReadCalibration, on whatever machines, with the bytes of
    the hex files in any records. *)
Theorem C105_calibration_guarded : forall gr pf cpus1 cpus2 ts1 ts2 path1 path2 content1 content2 img1 img2 r1 r2, (0 < cpus1)%nat -> (0 < cpus2)%nat ->
    a2lText gr pf cpus1 ts1 -> a2lText gr pf cpus2 ts2 -> hexText path1 content1 img1 -> hexText path2 content2 img2 -> Permutation img1 img2 ->
    calibration gr pf cpus1 true (Some (write ts1)) path1 (Some content1) r1 -> calibration gr pf cpus2 true (Some (write ts2)) path2 (Some content2) r2 ->
    exists a1 a2 m1 m2, r1 = RReturned (CD (Some a1) (Some m1)) None /\ r2 = RReturned (CD (Some a2) (Some m2)) None /\
      forall n1 n2 words1 words2 l1 d d' l2, fileModule pf ts1 n1 words1 -> moduleHas pf words1 (l1 ++ d ++ l2) -> fileModule pf ts2 n2 words2 -> moduleHas pf words2 (l1 ++ d' ++ l2) ->
        alikeBut (d ++ d') (calibOf a1 n1 m1) (calibOf a2 n2 m2).
Proof.
  intros gr pf cpus1 cpus2 ts1 ts2 path1 path2 content1 content2 img1 img2 r1 r2 C1 C2 A1 A2 H1 H2 P R1 R2.
  destruct (C80_files gr pf cpus1 ts1 path1 content1 img1 C1 A1 H1) as [_ F1]. destruct (C80_files gr pf cpus2 ts2 path2 content2 img2 C2 A2 H2) as [_ F2].
  destruct (F1 r1 R1) as (a1 & m1 & -> & M1 & K1), (F2 r2 R2) as (a2 & m2 & -> & M2 & K2). exists a1, a2, m1, m2. split; [reflexivity|]. split; [reflexivity|].
  intros n1 n2 words1 words2 l1 d d' l2 W1 HM1 W2 HM2.
  destruct (K1 n1 words1 _ W1 HM1) as (cd1 & CH1 & E1 & AL1). destruct (K2 n2 words2 _ W2 HM2) as (cd2 & CH2 & E2 & AL2).
  apply alikeBut_alike with cd1 cd2; [apply alike_sym; exact AL1| |exact AL2].
  apply (C105_module pf cd1 cd2 l1 d d' l2 CH1 CH2). rewrite E1, E2. cbn [calibOf cd_hex].
  apply (maps_agree m1 m2 img1 img2 M1 M2). intros x. split; intros I; [exact (Permutation_in x P I)|exact (Permutation_in x (Permutation_sym P) I)].
Qed.
Print Assumptions C105_calibration_guarded.

(** Two files in which one module has the same objects: whatever the other modules, the
    rest of the project and the numbers of the module are. *)
Theorem C105_other_modules_guarded : forall gr pf cpus1 cpus2 ts1 ts2 path1 path2 content1 content2 img1 img2 r1 r2, (0 < cpus1)%nat -> (0 < cpus2)%nat ->
    a2lText gr pf cpus1 ts1 -> a2lText gr pf cpus2 ts2 -> hexText path1 content1 img1 -> hexText path2 content2 img2 -> Permutation img1 img2 ->
    calibration gr pf cpus1 true (Some (write ts1)) path1 (Some content1) r1 -> calibration gr pf cpus2 true (Some (write ts2)) path2 (Some content2) r2 ->
    exists a1 a2 m1 m2, r1 = RReturned (CD (Some a1) (Some m1)) None /\ r2 = RReturned (CD (Some a2) (Some m2)) None /\
      forall n1 n2 words1 words2 l, fileModule pf ts1 n1 words1 -> moduleHas pf words1 l -> fileModule pf ts2 n2 words2 -> moduleHas pf words2 l ->
        alike (calibOf a1 n1 m1) (calibOf a2 n2 m2).
Proof.
  intros gr pf cpus1 cpus2 ts1 ts2 path1 path2 content1 content2 img1 img2 r1 r2 C1 C2 A1 A2 H1 H2 P R1 R2.
  destruct (C105_calibration_guarded gr pf cpus1 cpus2 ts1 ts2 path1 path2 content1 content2 img1 img2 r1 r2 C1 C2 A1 A2 H1 H2 P R1 R2) as (a1 & a2 & m1 & m2 & -> & -> & K).
  exists a1, a2, m1, m2. split; [reflexivity|]. split; [reflexivity|]. intros n1 n2 words1 words2 l W1 HM1 W2 HM2.
  destruct (K n1 n2 words1 words2 l [] [] [] W1 ltac:(cbn [app]; rewrite app_nil_r; exact HM1) W2 ltac:(cbn [app]; rewrite app_nil_r; exact HM2)) as [OB CO PH VE RA LY VA].
  constructor; intros; try solve [apply OB; [constructor|intros; constructor]|apply CO; constructor|apply PH; constructor|apply VE; constructor|apply RA; constructor|apply LY; constructor|apply VA; constructor].
Qed.
Print Assumptions C105_other_modules_guarded.

Local Ltac run := apply (den_run 10); vm_compute; reflexivity.
Local Ltac areWritable := apply Forall_forall; intros ? ?; apply writableb_ok; match goal with I : In ?t _ |- _ => revert t I; apply forallb_forall; vm_compute; reflexivity end.
Local Ltac aText := apply two_modules; [assumption|repeat constructor; intros ?; run|areWritable|eexists; described|vm_compute; reflexivity].

(** A module with the group G1, and one with the groups G1 and G2: what is found under
    any name but G2 is the same. *)
Example C105_example : forall gr pf cpus r1 r2, tableOk gr -> (0 < cpus)%nat ->
    a2lText gr pf cpus (fileG [g1Words] [moduleE]) /\ a2lText gr pf cpus (fileG [g1Words; g2Words] [moduleE]) /\
    fileModule pf (fileG [g1Words] [moduleE]) 0 (moduleG [g1Words]) /\ moduleHas pf (moduleG [g1Words]) ([eG1] ++ [] ++ []) /\
    fileModule pf (fileG [g1Words; g2Words] [moduleE]) 0 (moduleG [g1Words; g2Words]) /\ moduleHas pf (moduleG [g1Words; g2Words]) ([eG1] ++ [eG2] ++ []) /\
    (calibration gr pf cpus true (Some (write (fileG [g1Words] [moduleE]))) (b "motor.hex") (Some (IhexSpec.ifile Dos IhexProps.ex_items)) r1 ->
     calibration gr pf cpus true (Some (write (fileG [g1Words; g2Words] [moduleE]))) (b "motor.hex") (Some (IhexSpec.ifile Dos IhexProps.ex_items)) r2 ->
     exists a1 a2 m1 m2, r1 = RReturned (CD (Some a1) (Some m1)) None /\ r2 = RReturned (CD (Some a2) (Some m2)) None /\
       forall k, k <> b "G2" -> objectsByIdent (calibOf a1 0 m1) k = objectsByIdent (calibOf a2 0 m2) k).
Proof.
  intros gr pf cpus r1 r2 G CP. assert (OK1 : Forall groupOk [g1Words]) by (repeat constructor; intros ?; run). assert (OK2 : Forall groupOk [g1Words; g2Words]) by (repeat constructor; intros ?; run).
  assert (T1 : a2lText gr pf cpus (fileG [g1Words] [moduleE])) by aText. assert (T2 : a2lText gr pf cpus (fileG [g1Words; g2Words] [moduleE])) by aText.
  assert (F1 : fileModule pf (fileG [g1Words] [moduleE]) 0 (moduleG [g1Words])) by (eapply groups_file; [exact OK1|run|constructor; [run|constructor; [run|constructor]]]).
  assert (F2 : fileModule pf (fileG [g1Words; g2Words] [moduleE]) 0 (moduleG [g1Words; g2Words])) by (eapply groups_file; [exact OK2|run|constructor; [run|constructor; [run|constructor]]]).
  assert (H1 : moduleHas pf (moduleG [g1Words]) ([eG1] ++ [] ++ [])) by exact (groups_module pf _ OK1). assert (H2 : moduleHas pf (moduleG [g1Words; g2Words]) ([eG1] ++ [eG2] ++ [])) by exact (groups_module pf _ OK2).
  split; [exact T1|]. split; [exact T2|]. split; [exact F1|]. split; [exact H1|]. split; [exact F2|]. split; [exact H2|]. intros R1 R2.
  destruct (C105_calibration_guarded gr pf cpus cpus _ _ _ _ _ _ _ _ r1 r2 CP CP T1 T2 hex_f hex_f (Permutation_refl _) R1 R2) as (a1 & a2 & m1 & m2 & -> & -> & K). exists a1, a2, m1, m2. split; [reflexivity|]. split; [reflexivity|].
  intros k NK. apply (ab_objects _ _ _ (K 0%nat 0%nat _ _ [eG1] [] [eG2] [] F1 H1 F2 H2)).
  - constructor; [discriminate|constructor].
  - intros kw _. constructor; [|constructor]. intros [_ E]. apply NK. symmetry. exact E.
Qed.

(** ** One module, one CPU *)

Definition oneFile : list bytes := fileG [g2Words] [].
Definition oneToks : list bytes := oneFile ++ [[]].
Definition oneGroup : list A2lModSpec.item := [A2lModSpec.Item 6 10 (A2lModModel.Put_ "Groups" "groupName") (A2lModProps.readOr oneToks parseGroup 6)].
Lemma one_isModule : forall pf, A2lModSpec.isModule oneToks pf 3 oneGroup 11.
Proof.
  intros pf. split; [A2lModProps.aWord|]. split; [A2lModProps.aWord|]. unfold oneGroup. A2lModProps.anObject "/begin GROUP"%string. apply A2lModSpec.ContEnd. reflexivity.
Qed.
Lemma one_only : forall i, A2lModSpec.tok oneToks i = b "/begin MODULE" -> i = 3%nat.
Proof. intros i. do 15 (destruct i as [|i]; [intros H; first [reflexivity|discriminate H]|]). destruct i; discriminate. Qed.
Lemma one_shared : forall pf i, A2lModSpec.tok oneToks i = b "/begin MODULE" -> divisible oneToks pf (1 * 2) i /\ inside oneToks pf (1 * 2) i.
Proof.
  intros pf i T. apply one_only in T. subst i. split.
  - exists oneGroup, 11%nat. split; [apply one_isModule|]. split; [|split].
    + intros p P. do 11 (destruct p as [|p]; [split; discriminate|]). lia.
    + intros p x q _ X F Q BG. assert (N : A2lModSeq.findKind (A2lModSpec.tok oneToks q) A2lModSpec.kinds = None).
      { destruct X as [<-|[]]; cbn in F, Q. assert (C : q = 7%nat \/ q = 8%nat \/ q = 9%nat \/ q = 10%nat) by lia. destruct C as [->|[->|[->| ->]]]; vm_compute; reflexivity. }
      apply A2lModSeq.findKind_none in N. exact (N BG).
    + unfold A2lModSpec.distinct. vm_compute. repeat constructor; cbn; intuition discriminate.
  - intros items stop x (_ & _ & C) X (k & K & E). pose proof (one_isModule pf) as (_ & _ & C0). destruct (A2lModProps.content_fun _ _ _ _ _ C0 _ _ C) as [-> ->].
    change ((11 - (3 + 2)) / (1 * 2))%nat with 3%nat in E. destruct X as [<-|[]]; cbn [A2lModSpec.it_from] in E; lia.
Qed.

(** In a file of one module the group G1 is put in before the group G2.  On a computer
    with one CPU both files are read without an error, and G2 is not found any more. *)
Theorem C105_one_module_refuted : exists ts1 ts2 l1 d l2, Forall writable ts1 /\ Forall writable ts2 /\ forall gr pf, tableOk gr ->
    (exists a, describes pf plainProject ts1 a) /\ (exists a, describes pf plainProject ts2 a) /\
    (exists words1 words2, fileModule pf ts1 0 words1 /\ moduleHas pf words1 (l1 ++ [] ++ l2) /\ fileModule pf ts2 0 words2 /\ moduleHas pf words2 (l1 ++ d ++ l2)) /\
    (exists r, parseFromFile gr pf 1 (Some (write ts1)) r) /\ (exists r, parseFromFile gr pf 1 (Some (write ts2)) r) /\
    forall r1 r2, parseFromFile gr pf 1 (Some (write ts1)) r1 -> parseFromFile gr pf 1 (Some (write ts2)) r2 ->
      exists a1 a2, r1 = Returned a1 false /\ r2 = Returned a2 false /\ forall hex1 hex2, ~ alikeBut d (calibOf a1 0 hex1) (calibOf a2 0 hex2).
Proof.
  destruct lost_file as (W & M & E & DD). exists oneFile, lostFile, [], [eG1], [eG2].
  assert (W2 : Forall writable oneFile) by (apply Forall_forall; intros t I; apply writableb_ok; revert t I; apply forallb_forall; vm_compute; reflexivity). split; [exact W2|]. split; [exact W|].
  intros gr pf G. destruct (DD pf) as (a & D & _ & N2). destruct (C69_plain pf _ _ D) as [_ D'].
  assert (DS : exists s, describes pf plainProject oneFile s) by (eexists; described). split; [exact DS|]. split; [exists a; exact D|]. destruct DS as (s & DS). destruct (C69_plain pf _ _ DS) as [_ DS'].
  assert (F1 : fileModule pf lostFile 0 (moduleG [g1Words; g2Words])).
  { change lostFile with (fileG [g1Words; g2Words] []). eapply groups_file; [repeat constructor; [exact g1_ok|exact g2_ok]|run|constructor; [run|constructor]]. }
  assert (F2 : fileModule pf oneFile 0 (moduleG [g2Words])) by (eapply groups_file; [repeat constructor; exact g2_ok|run|constructor; [run|constructor]]).
  assert (H1 : moduleHas pf (moduleG [g1Words; g2Words]) [eG1; eG2]) by (apply (groups_module pf [g1Words; g2Words]); repeat constructor; [exact g1_ok|exact g2_ok]).
  assert (H2 : moduleHas pf (moduleG [g2Words]) [eG2]) by (apply (groups_module pf [g2Words]); repeat constructor; exact g2_ok).
  split; [exists (moduleG [g2Words]), (moduleG [g1Words; g2Words]); split; [exact F2|split; [exact H2|split; [exact F1|exact H1]]]|].
  split; [apply C65_total; lia|]. split; [apply C65_total; lia|]. intros r1 r2 R1 R2.
  assert (DV : forall i, A2lModSpec.tok (lostFile ++ [[]]) i = b "/begin MODULE" -> divisible (lostFile ++ [[]]) pf (1 * 2) i) by (rewrite E; apply lost_divisible).
  destruct (C69_one_module_as_read gr pf 1 lostFile a ltac:(lia) G D' W ltac:(discriminate) M DV r2 R2) as (a2 & -> & L). rewrite E in L.
  destruct (C70_one_module_guarded gr pf 1 oneFile s ltac:(lia) G DS' W2 ltac:(discriminate) ltac:(vm_compute; discriminate) (one_shared pf) r1 R1) as (a1 & -> & FI).
  exists a1, a2. split; [reflexivity|]. split; [reflexivity|]. intros hex1 hex2 AL.
  destruct (FI 0%nat hex1 _ _ (b "G2") F2 H2) as (res & ER & IFF & _).
  rewrite (ab_objects _ _ _ AL (b "G2")) in ER; [|constructor; [discriminate|constructor]|intros kw _; constructor; [intros [_ X]; discriminate X|constructor]].
  assert (IN : In (Group_ (e_val eG2)) res) by (apply IFF; apply wr_group; last_ (@nil entry) (@nil entry)). revert IN. apply (no_group a2 hex2 (b "G2") res _); [| |exact ER].
  - pose proof (C69_parsed pf lostFile a D') as R. rewrite E in R.
    destruct (lost_read pf (1 * 2) a a2 _ R L (b "G2") (A2lModSpec.Item 10 14 (A2lModModel.Put_ "Groups" "groupName") (A2lModProps.readOr lostToks parseGroup 10))) as [B _];
      [right; left; reflexivity|vm_compute; reflexivity|]. apply B. exists 1%nat. split; [lia|reflexivity].
  - destruct L as [_ L]. unfold group in N2. destruct (fget "Project" a) as [[| | | | | |p]|]; try (exfalso; apply N2; reflexivity). destruct (fget "Project" a2) as [[| | | | | |p']|]; try contradiction.
    destruct L as [_ F]. destruct (flist "Modules" p) as [|v0 [|v1 vs]] eqn:FL; [exfalso; apply N2; reflexivity| |destruct v0; exfalso; apply N2; reflexivity].
    inversion F as [|? w ? ws SM F' E1 E2]; subst. inversion F'; subst. destruct SM as (i & items & stop & o1 & o2 & name & long & kept & _ & _ & _ & -> & _). exists p', o2. auto.
Qed.
Print Assumptions C105_one_module_refuted.
