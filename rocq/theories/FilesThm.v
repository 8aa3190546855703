(** Lemmas for C80. *)
From Coq Require Import String Ascii List Arith NArith ZArith Bool SpecFloat Lia.
From Verif Require Import GoBase HexSpec MemModel A2lIR A2lParsers A2lModSpec A2lFileSpec LookModel LookProps CompuModel ValuesModel TreeModel TreeThm TreeLook FilesSpec.
From Verif Require A2lLayoutModel A2lModModel.
Import ListNotations.

(** What the functions use of two modules. *)
Definition mapFields : list string :=
  ["AxisPts"; "Characteristics"; "CompuMethods"; "CompuTabs"; "CompuVTabs"; "CompuVTabRanges"; "Functions"; "Groups"; "Measurements"; "RecordLayouts"; "Units"]%string.
Record sameMaps (o o' : fields) : Prop := SameMaps {
  sm_maps : forall f, In f mapFields -> forall k, A2lModSpec.mget k (fmap f o) = A2lModSpec.mget k (fmap f o');
  sm_par : A2lLayoutModel.part "ModPar" o = A2lLayoutModel.part "ModPar" o';
  sm_common : A2lLayoutModel.part "ModCommon" o = A2lLayoutModel.part "ModCommon" o'
}.
Definition sameCalib (cd cd' : calib) : Prop :=
  (forall x, lookup x (cd_hex cd) = lookup x (cd_hex cd')) /\
  match theModule cd, theModule cd' with
  | Some o, Some o' => sameMaps o o'
  | None, None => True
  | _, _ => False
  end.

Lemma sameModule_maps : forall v w, sameModule v w -> sameMaps (objOf v) (objOf w).
Proof.
  intros v w (o1 & o2 & name & long & l & -> & -> & _ & _ & H & H'). cbn [objOf]. constructor.
  - intros f I k. assert (K : exists t g key, In (t, (g, A2lModModel.Put_ f key)) A2lModSpec.kinds).
    { unfold mapFields in I. cbn [In] in I. repeat (destruct I as [<-|I]; [eexists; eexists; eexists; unfold A2lModSpec.kinds; cbn [In]; repeat (first [left; reflexivity|right])|]). destruct I. }
    destruct K as (t & g & key & K). eapply same_fmap; eauto.
  - unfold A2lLayoutModel.part. rewrite (same_single o1 o2 l "/begin MOD_PAR" parseModPar "ModPar" H H'); [reflexivity|cbn; tauto].
  - unfold A2lLayoutModel.part. rewrite (same_single o1 o2 l "/begin MOD_COMMON" parseModCommon "ModCommon" H H'); [reflexivity|cbn; tauto].
Qed.
Lemma likeFile_same : forall a a' n hex hex', likeFile sameModule a a' -> (forall x, lookup x hex = lookup x hex') -> sameCalib (calibOf a n hex) (calibOf a' n hex').
Proof.
  intros a a' n hex hex' [_ L] HX. split; [exact HX|]. unfold theModule, calibOf, A2lLayoutModel.part. cbn [cd_modules cd_index].
  assert (F : match fget "Project" a, fget "Project" a' with
              | Some (VObj p), Some (VObj p') => Forall2 sameModule (flist "Modules" p) (flist "Modules" p') | None, None => True | _, _ => False end).
  { destruct (fget "Project" a) as [[]|], (fget "Project" a') as [[]|]; try exact L. destruct L as [_ L]. exact L. }
  clear L. destruct (fget "Project" a) as [[]|], (fget "Project" a') as [[]|]; try contradiction; [|cbn; destruct n; exact I].
  revert n. induction F as [|v w lv lw S F IH]; intros [|n]; cbn [nth_error option_map]; [exact I|exact I| |apply IH].
  exact (sameModule_maps _ _ S).
Qed.
Lemma sameCalib_refl : forall cd, sameCalib cd cd.
Proof. intros cd. split; [reflexivity|]. destruct (theModule cd); [|exact I]. constructor; reflexivity. Qed.

(** ** Lookups and conversions *)

Lemma theModule_maps : forall cd, nth_error (modulesOf cd) (cd_index cd) = option_map mapsOf (theModule cd).
Proof.
  intros cd. unfold modulesOf, theModule. rewrite nth_error_map. destruct (nth_error (cd_modules cd) (cd_index cd)); reflexivity.
Qed.
Lemma same_sfind : forall o o' f k, sameMaps o o' -> In f mapFields -> sfind k (fmap f o) = sfind k (fmap f o').
Proof. intros o o' f k H I. rewrite !sfind_mget. apply (sm_maps _ _ H f I). Qed.
Lemma same_found : forall o o' f (mk : val -> object val) k acc, sameMaps o o' -> In f mapFields -> addFound mk k (fmap f o) acc = addFound mk k (fmap f o') acc.
Proof. intros. apply addFound_same. apply same_sfind; assumption. Qed.

Ltac inF := cbn; tauto.
Lemma same_objects : forall cd cd' k, sameCalib cd cd' -> objectsByIdent cd k = objectsByIdent cd' k.
Proof.
  intros cd cd' k [_ S]. unfold objectsByIdent, GetObjectByIdent. rewrite !theModule_maps.
  destruct (theModule cd) as [o|], (theModule cd') as [o'|]; try contradiction; [|reflexivity]. cbn [option_map]. unfold mapsOf.
  cbn [m_axisPts m_characteristics m_compuMethods m_compuTabs m_compuVTabs m_compuVTabRanges m_functions m_groups m_measurements m_recordLayouts m_systemConstants m_units].
  rewrite (sm_par _ _ S). rewrite !(fun f mk acc => same_found o o' f mk k acc S) by inF. reflexivity.
Qed.
Lemma same_constant : forall cd cd' k, sameCalib cd cd' -> systemConstantOf cd k = systemConstantOf cd' k /\ constantValueOf cd k = constantValueOf cd' k.
Proof.
  intros cd cd' k [_ S]. unfold systemConstantOf, constantValueOf, getSystemConstantValue, getSystemConstant. rewrite !theModule_maps.
  destruct (theModule cd) as [o|], (theModule cd') as [o'|]; try contradiction; [|auto]. cbn [option_map]. unfold mapsOf. cbn [m_systemConstants]. rewrite (sm_par _ _ S). auto.
Qed.
Lemma same_phy : forall cd cd' dec cm, sameCalib cd cd' -> decToPhy dec cm cd = decToPhy dec cm cd'.
Proof.
  intros cd cd' dec cm [_ S]. unfold decToPhy. destruct (theModule cd) as [o|], (theModule cd') as [o'|]; try contradiction; [|reflexivity].
  unfold convDecToPhy. destruct (cm_type (methodOf cm)); try reflexivity. unfold calcTabNoIntp, tablesOf. cbn [mod_tabs]. rewrite !sfind_onValues.
  rewrite (sm_maps _ _ S "CompuTabs" ltac:(inF)). reflexivity.
Qed.
Lemma same_verbal : forall cd cd' dec cm, sameCalib cd cd' -> verbalOf dec cm cd = verbalOf dec cm cd'.
Proof.
  intros cd cd' dec cm [_ S]. unfold verbalOf. destruct (theModule cd) as [o|], (theModule cd') as [o'|]; try contradiction; [|reflexivity].
  unfold calcTabVerb, tablesOf. cbn [mod_vtabs]. rewrite !sfind_onValues. rewrite (sm_maps _ _ S "CompuVTabs" ltac:(inF)). reflexivity.
Qed.
Lemma same_range : forall cd cd' dec cm, sameCalib cd cd' -> rangeTextOf dec cm cd = rangeTextOf dec cm cd'.
Proof.
  intros cd cd' dec cm [_ S]. unfold rangeTextOf. destruct (theModule cd) as [o|], (theModule cd') as [o'|]; try contradiction; [|reflexivity].
  unfold calcTabVerbRange, tablesOf. cbn [mod_ranges]. rewrite !sfind_onValues. rewrite (sm_maps _ _ S "CompuVTabRanges" ltac:(inF)). reflexivity.
Qed.

(** ** Values *)

Lemma mget_both : forall k (m : list (bytes * val)), ValuesModel.mget k m = A2lModSpec.mget k m.
Proof. induction m as [|[k' v] m IH]; [reflexivity|]. cbn. rewrite IH. reflexivity. Qed.
Lemma same_layout : forall cd cd' c, sameCalib cd cd' -> getRecordLayout cd c = getRecordLayout cd' c.
Proof.
  intros cd cd' c [_ S]. unfold getRecordLayout. destruct (negb _); [reflexivity|]. destruct (theModule cd) as [o|], (theModule cd') as [o'|]; try contradiction; [|reflexivity].
  rewrite !mget_both, (sm_maps _ _ S "RecordLayouts" ltac:(inF)). reflexivity.
Qed.

Section Ext.
  Variable gb : memctx -> N -> N -> outcome merr (list N).
  Variable cx cx' : memctx.
  Hypothesis GB : forall p n, gb cx p n = gb cx' p n.
  Hypothesis CC : cx_common cx = cx_common cx'.
  Hypothesis CO : cx_order cx = cx_order cx'.
  Hypothesis CS : cx_orderSet cx = cx_orderSet cx'.

  Lemma ext_align : forall p d al, getNextAlignedAddress cx p d al = getNextAlignedAddress cx' p d al.
  Proof. intros. unfold getNextAlignedAddress. rewrite CC. reflexivity. Qed.
  Lemma ext_value : forall al p d, getValue gb cx al p d = getValue gb cx' al p d.
  Proof. intros. unfold getValue. rewrite ext_align. destruct (getNextAlignedAddress cx' p d al); [|reflexivity|reflexivity]. apply GB. Qed.
  Lemma ext_convert : forall bs d, convertByteSliceToDatatype cx bs d = convertByteSliceToDatatype cx' bs d.
  Proof. intros. unfold convertByteSliceToDatatype. rewrite CO, CS. reflexivity. Qed.
  Lemma ext_address : forall s, convertStringToUint32Address cx s = convertStringToUint32Address cx' s.
  Proof. intros. unfold convertStringToUint32Address. rewrite CO, CS. reflexivity. Qed.
  Lemma ext_int : forall al c p, getInt gb cx al c p = getInt gb cx' al c p.
  Proof. intros. unfold getInt. rewrite ext_value. destruct (negb _); [reflexivity|]. destruct (getValue gb cx' al p (c_type c)); try reflexivity. rewrite ext_convert. reflexivity. Qed.
  Lemma ext_ident : forall al c p, getIdentification gb cx al c p = getIdentification gb cx' al c p.
  Proof. intros. unfold getIdentification. rewrite ext_value. reflexivity. Qed.
  Lemma ext_axis : forall al n d l p, axisLoop gb cx al n d l p = axisLoop gb cx' al n d l p.
  Proof.
    induction n as [|n IH]; intros; [reflexivity|]. cbn [axisLoop]. rewrite ext_value. destruct (getValue gb cx' al p d) as [bs| |]; try reflexivity. rewrite ext_convert.
    destruct (convertByteSliceToDatatype cx' bs d); try reflexivity. apply IH.
  Qed.
  Lemma ext_points : forall al o z d p, getAxisPoints gb cx al o z d p = getAxisPoints gb cx' al o z d p.
  Proof. intros. unfold getAxisPoints. destruct o; [apply ext_axis|]. destruct (z <=? 0)%Z; [reflexivity|apply ext_axis]. Qed.
  Lemma ext_fnc : forall rl p, getFncValues gb cx rl p = getFncValues gb cx' rl p.
  Proof. intros. unfold getFncValues. rewrite ext_value. destruct (getValue gb cx' (alignmentsOf rl) p UBYTE); try reflexivity. rewrite ext_convert. reflexivity. Qed.
  Lemma ext_fields : forall rl fs v p, readFields gb cx rl fs v p = readFields gb cx' rl fs v p.
  Proof.
    induction fs as [|f fs IH]; intros; [reflexivity|]. cbn [readFields].
    assert (E : readField gb cx rl f v p = readField gb cx' rl f v p).
    { unfold readField. destruct (caseOf f switch); rewrite ?ext_points, ?ext_int, ?ext_ident, ?ext_fnc; reflexivity. }
    rewrite E. destruct (readField gb cx' rl f v p) as [[v' q]|]; [apply IH|reflexivity].
  Qed.
End Ext.

Lemma loop_same : forall h h' p n i acc, (forall x, lookup x h = lookup x h') -> getBytes_loop h p n i acc = getBytes_loop h' p n i acc.
Proof. intros h h' p n. induction n as [|n IH]; intros i acc H; [reflexivity|]. cbn [getBytes_loop]. rewrite H. destruct (lookup _ h'); [apply IH; exact H|reflexivity]. Qed.

Lemma same_along : forall gb cd cd' cv order, gb = getBytes \/ gb = getBytes_repaired -> sameCalib cd cd' -> valuesAlong gb cd cv order = valuesAlong gb cd' cv order.
Proof.
  intros gb cd cd' cv order G SC. unfold valuesAlong. rewrite (same_layout _ _ _ SC). destruct SC as [HX S].
  destruct (getRecordLayout cd' (cv_char cv)) as [rl| |]; try reflexivity. destruct (theModule cd) as [o|], (theModule cd') as [o'|]; try contradiction; [|reflexivity].
  assert (E1 : cx_common (contextOf cd o) = cx_common (contextOf cd' o')) by (unfold contextOf; cbn; rewrite (sm_common _ _ S); reflexivity).
  assert (E2 : cx_order (contextOf cd o) = cx_order (contextOf cd' o')) by (unfold contextOf; cbn; rewrite (sm_common _ _ S); reflexivity).
  assert (E3 : cx_orderSet (contextOf cd o) = cx_orderSet (contextOf cd' o')) by (unfold contextOf; cbn; rewrite (sm_common _ _ S); reflexivity).
  assert (GB : forall p n, gb (contextOf cd o) p n = gb (contextOf cd' o') p n).
  { intros p n. destruct G as [-> | ->]; unfold getBytes, getBytes_repaired; cbn [cx_hex contextOf];
      rewrite (loop_same _ (cd_hex cd')) by exact HX; reflexivity. }
  cbv zeta. rewrite (ext_address _ _ E2 E3). destruct (convertStringToUint32Address (contextOf cd' o') _); try reflexivity;
    rewrite (ext_fields gb _ _ GB E1 E2 E3); reflexivity.
Qed.

Lemma same_alike : forall cd cd', sameCalib cd cd' -> alike cd cd'.
Proof.
  intros cd cd' S. constructor; intros.
  - apply same_objects; exact S.
  - apply same_constant; exact S.
  - apply same_constant; exact S.
  - apply same_phy; exact S.
  - apply same_verbal; exact S.
  - apply same_range; exact S.
  - apply same_layout; exact S.
  - unfold getValuesFromHex. destruct (cv_layout cv); [|reflexivity]. split; intros (order & P & E); exists order; (split; [exact P|]); rewrite E; [|symmetry]; apply same_along; auto.
  - apply same_along; auto.
Qed.
Lemma alike_trans : forall x y z, alike x y -> alike y z -> alike x z.
Proof.
  intros x y z A B. constructor; intros; try (etransitivity; [apply A|apply B]).
Qed.
Lemma alike_sym : forall x y, alike x y -> alike y x.
Proof. intros x y A. constructor; intros; symmetry; apply A. Qed.
