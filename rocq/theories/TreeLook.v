(** C70: what stands in an A2L file is found under its name. *)
From Coq Require Import String Ascii List Arith NArith ZArith Bool Lia Sorted SpecFloat.
From Verif Require Import GoBase GoBaseFacts A2lModStore A2lIR A2lSpec A2lParsers A2lFileThm A2lGrammar A2lForms A2lTripSpec A2lFormProps A2lProps.
From Verif Require Import A2lTextProps A2lFileModel A2lFileSpec A2lFileProps A2lFileLost A2lTripThm A2lTripProps CompuModel LookModel LookProps TreeModel TreeSpec TreeThm.
From Verif Require Import A2lDescribe.
From Verif Require A2lModSpec ValuesModel A2lFormSpec TokModel TokSpec.
Import ListNotations.

Lemma sfind_mget : forall k (m : list (bytes * val)), sfind k m = A2lModSpec.mget k m.
Proof. intros k m. induction m as [|[k' v] m IH]; [reflexivity|]. cbn. destruct (beqb k k'); [reflexivity|exact IH]. Qed.
Lemma sfind_onValues : forall A (f : val -> A) k m, sfind k (onValues f m) = option_map f (A2lModSpec.mget k m).
Proof. intros A f k m. induction m as [|[k' v] m IH]; [reflexivity|]. cbn. destruct (beqb k k'); [reflexivity|exact IH]. Qed.
Lemma addFound_iff : forall A obj (mk : A -> object obj) k (m : smap A) acc x,
    In x (addFound mk k m acc) <-> In x acc \/ exists o, sfind k m = Some o /\ x = mk o.
Proof.
  intros A obj mk k m acc x. unfold addFound. destruct (sfind k m) as [o|].
  - rewrite in_app_iff. cbn. split; [intros [H|[H|[]]]; eauto|intros [H|(o' & [= <-] & ->)]; auto].
  - split; [auto|intros [H|(o & K & _)]; [exact H|discriminate]].
Qed.

(** ** One map of a module *)

Definition kindOk (its : list item) (ms : list string) (ps : list param) (kw f key : string) : bool :=
  owns its f kw
  && match slot its kw with Some (f', Under key') => String.eqb f f' && String.eqb key key' | _ => false end
  && headedAll its kw key && forallb (spares f) ps
  && match fget f (newMaps ms) with Some (VMap []) => true | _ => false end.

Lemma map_entries : forall pf its stop c l ms ps vs kw f key, entries pf its stop c l -> kindOk its ms ps kw f key = true ->
    forall k v, A2lModSpec.mget k (fmap f (addEntries its l (stores true ps vs (newMaps ms)))) = Some v <-> exists e, lastSuch (isNamed kw k) l e /\ e_val e = v.
Proof.
  intros pf its stop c l ms ps vs kw f key E K k v. unfold kindOk in K. rewrite !andb_true_iff in K. destruct K as [[[[K1 K2] K3] K4] K5].
  destruct (slot its kw) as [[f' [| |key']]|] eqn:SL; try discriminate. apply andb_true_iff in K2. destruct K2 as [A B].
  apply String.eqb_eq in A. apply String.eqb_eq in B. subst f' key'. rewrite (under_entries its f kw key K1 SL).
  assert (Z : A2lModSpec.mget k (fmap f (stores true ps vs (newMaps ms))) = None).
  { unfold fmap. rewrite stores_other by exact K4. destruct (fget f (newMaps ms)) as [[]|]; try discriminate. destruct m; [reflexivity|discriminate]. }
  rewrite Z.
  assert (H : forall x, In x l -> (String.eqb (e_kw x) kw && beqb (keyOf key (e_val x)) k = true <-> isNamed kw k x)).
  { intros x I. rewrite andb_true_iff, String.eqb_eq, beqb_eq. unfold isNamed. split; intros [P Q]; (split; [exact P|]);
      pose proof (entries_name _ _ _ _ _ _ _ E K3 x I P); congruence. }
  pose proof (lastVal_such (isNamed kw k) (fun e => String.eqb (e_kw e) kw && beqb (keyOf key (e_val e)) k) l) as L. destruct (lastVal _ l) as [e|] eqn:LV.
  - split.
    + intros [= <-]. exists e. split; [apply (L e H); reflexivity|reflexivity].
    + intros (e' & LS & <-). apply (L e' H) in LS. congruence.
  - split; [discriminate|]. intros (e' & LS & _). apply (L e' H) in LS. congruence.
Qed.

(** ** System constants *)

Lemma fixed2 : forall pf p q ts v, den pf (Fixed [p; q] []) ts v -> exists t u x y, ts = [t; u] /\ stands pf "" (p_type p) t x /\ stands pf "" (p_type q) u y /\ v = VObj (stores true [p; q] [x; y] []).
Proof.
  intros pf p q ts v D. inversion D as [|? ? ? vs W| |]; subst. inversion W as [|? ? t ts0 x vs0 S1 W1]; subst. inversion W1 as [|? ? u ts1 y vs1 S2 W2]; subst.
  inversion W2; subst. exists t, u, x, y. auto.
Qed.
Lemma constant_value : forall pf ts v, den pf systemConstantForm ts v -> exists k value, ts = [k; value] /\ constOf v = SysConst k value true.
Proof.
  intros pf ts v D. destruct (fixed2 _ _ _ _ _ D) as (t & u & x & y & -> & (_ & _ & ->) & (_ & _ & ->) & ->). exists t, u. split; reflexivity.
Qed.
Lemma entries_in : forall pf its stop ts l e, entries pf its stop ts l -> In e l -> exists f p sub, In (Item (e_kw e) f p sub) its /\ den pf sub (e_words e) (e_val e).
Proof. intros pf its stop ts l e E. induction E as [|kw f p sub ts ts' v l IN D FO E IH]; intros [ ]; [subst e; cbn; eauto|apply IH; assumption]. Qed.
Lemma lastSuch_in : forall P l e, lastSuch P l e -> In e l /\ P e.
Proof. intros P l e (l1 & l2 & -> & Q & _). split; [apply in_or_app; right; left; reflexivity|exact Q]. Qed.
Lemma lastSuch_fun : forall P l e e', lastSuch P l e -> lastSuch P l e' -> e = e'.
Proof.
  intros P l e e' (l1 & l2 & -> & Q & F) (l1' & l2' & E & Q' & F'). revert l1' E. induction l1 as [|x l1 IH]; intros [|y l1'] E; cbn in E; injection E as E1 E2.
  - exact E1.
  - exfalso. subst l2. rewrite Forall_forall in F. apply (F e'); [apply in_or_app; right; left; reflexivity|exact Q'].
  - exfalso. subst l2'. rewrite Forall_forall in F'. apply (F' e); [apply in_or_app; right; left; reflexivity|exact Q].
  - eapply IH; eauto.
Qed.

Lemma module_kind : forall kw f sub p pf ts v, itemsOf moduleRead = itemsOf moduleRead -> In (Item kw f p sub) (itemsOf moduleRead) -> den pf sub ts v ->
    kw = "/begin MOD_PAR"%string -> den pf modParRead ts v.
Proof.
  intros kw f sub p pf ts v _ I D ->. cbn [itemsOf moduleRead] in I.
  repeat (destruct I as [I|I]; [injection I; intros; subst; (discriminate || assumption)|]). destruct I.
Qed.
Lemma modPar_kind : forall kw f sub p pf ts v, In (Item kw f p sub) (itemsOf modParRead) -> den pf sub ts v ->
    kw = "SYSTEM_CONSTANT"%string -> den pf systemConstantForm ts v.
Proof.
  intros kw f sub p pf ts v I D ->. cbn [itemsOf modParRead] in I.
  repeat (destruct I as [I|I]; [injection I; intros; subst; (discriminate || assumption)|]). destruct I.
Qed.

Lemma constants_entries : forall pf ts l v m, den pf moduleRead ts v -> moduleHas pf ts l -> v = VObj m -> forall k s,
    sfind k (onValues constOf (fmap "SystemConstants" (A2lLayoutModel.part "ModPar" m))) = Some s <-> written pf l k (SystemConstantO s).
Proof.
  intros pf ts l v m D H EV k s. destruct (module_entries _ _ _ D) as [_ U]. destruct (U l H) as (vs & E). rewrite EV in E. injection E as ->. clear U.
  destruct H as (n & lg & c & -> & EN). rewrite sfind_onValues. unfold A2lLayoutModel.part.
  assert (SL : slot (itemsOf moduleRead) "/begin MOD_PAR" = Some ("ModPar", Single)%string) by reflexivity.
  assert (OW : owns (itemsOf moduleRead) "ModPar" "/begin MOD_PAR" = true) by (vm_compute; reflexivity).
  rewrite (single_entries _ _ _ OW SL). rewrite stores_other by (vm_compute; reflexivity).
  pose proof (lastVal_such (isKw "/begin MOD_PAR") (fun e => String.eqb (e_kw e) "/begin MOD_PAR") l) as L.
  assert (HQ : forall x, In x l -> (String.eqb (e_kw x) "/begin MOD_PAR" = true <-> isKw "/begin MOD_PAR" x)) by (intros x _; apply String.eqb_eq).
  destruct (lastVal _ l) as [p|] eqn:LV.
  - clear LV. pose proof (proj1 (L p HQ) eq_refl) as LV. destruct (lastSuch_in _ _ _ LV) as [IP KP].
    destruct (entries_in _ _ _ _ _ _ EN IP) as (f & pl & sub & II & DD).
    pose proof (module_kind _ _ _ _ _ _ _ eq_refl II DD KP) as DP. destruct (modPar_entries _ _ _ DP) as [(l0 & HP) UP].
    assert (G : forall l', modParHas pf (e_words p) l' -> (option_map constOf (A2lModSpec.mget k (fmap "SystemConstants" (match e_val p with VObj o => o | _ => [] end))) = Some s <->
        exists e value, lastSuch (isNamed "SYSTEM_CONSTANT" k) l' e /\ e_words e = [k; value] /\ s = SysConst k value true)).
    { intros l' HP'. destruct (UP l' HP') as (vs' & ->). destruct HP' as (cm & c' & _ & EN').
      pose proof (map_entries pf (itemsOf modParRead) "/end MOD_PAR" c' l' modParMaps modParParams vs' "SYSTEM_CONSTANT" "SystemConstants" "Name" EN' ltac:(vm_compute; reflexivity) k) as ME.
      assert (CV : forall e, lastSuch (isNamed "SYSTEM_CONSTANT" k) l' e -> exists value, e_words e = [k; value] /\ constOf (e_val e) = SysConst k value true).
      { intros e LE. destruct (lastSuch_in _ _ _ LE) as [IE [KE NE]]. destruct (entries_in _ _ _ _ _ _ EN' IE) as (f' & p' & sub' & II' & DD').
        destruct (constant_value _ _ _ (modPar_kind _ _ _ _ _ _ _ II' DD' KE)) as (k' & value & W & C). rewrite W in NE. cbn in NE. subst k'. eauto. }
      destruct (A2lModSpec.mget k _) as [w|] eqn:MG; cbn [option_map].
      - destruct (proj1 (ME w) eq_refl) as (e & LE & EW). destruct (CV e LE) as (value & W & C). subst w. split.
        + intros [= <-]. exists e, value. auto.
        + intros (e2 & value2 & LE2 & W2 & ->). pose proof (lastSuch_fun _ _ _ _ LE LE2). subst e2. rewrite C. congruence.
      - split; [discriminate|]. intros (e & value & LE & W & ->). pose proof (proj2 (ME (e_val e)) (ex_intro _ e (conj LE eq_refl))). discriminate. }
    split.
    + intros X. apply (G l0 HP) in X. destruct X as (e & value & LE & W & ->). eapply wr_const; eauto.
    + intros X. inversion X as [| | | | | | | | | |p' l' e value LP HP' LE W ES|]; subst. pose proof (lastSuch_fun _ _ _ _ LV LP). subst p'.
      apply (G l' HP'). exists e, value. auto.
  - assert (Z : fget "ModPar" (newMaps moduleMapsOf) = None) by (vm_compute; reflexivity). rewrite Z. cbn. split; [discriminate|].
    intros X. inversion X as [| | | | | | | | | |p' l' e value LP HP' LE W ES|]; subst. apply (L p' HQ) in LP. discriminate.
Qed.

(** ** C70 *)

Ltac kind_ := match goal with E : entries _ _ _ _ _ |- _ => eapply (map_entries _ _ _ _ _ _ _ _ _ _ _ E); vm_compute; reflexivity end.

(** In a module: exactly what stands in it under the name; the last one, if there
    are several of a kind. *)
Theorem C70_module : forall pf ts l v cd k, den pf moduleRead ts v -> moduleHas pf ts l ->
    nth_error (ValuesModel.cd_modules cd) (ValuesModel.cd_index cd) = Some v ->
    exists r, objectsByIdent cd k = Ok r /\ (forall x, In x r <-> written pf l k x) /\ StronglySorted (fun x y => rank x < rank y) r.
Proof.
  intros pf ts l v cd k D H NE. destruct (module_entries _ _ _ D) as [_ U]. destruct (U l H) as (vs & EV). clear U.
  set (m := addEntries (itemsOf moduleRead) l (stores true moduleParams vs (newMaps moduleMapsOf))) in *.
  assert (NM : nth_error (modulesOf cd) (ValuesModel.cd_index cd) = Some (mapsOf m)).
  { unfold modulesOf. rewrite nth_error_map, NE. cbn [option_map]. rewrite EV. reflexivity. }
  pose proof (constants_entries _ _ _ _ _ D H EV) as CE. destruct H as (n & lg & c & _ & EN).
  unfold objectsByIdent, GetObjectByIdent. rewrite NM. cbv zeta. eexists. split; [reflexivity|].
  assert (KX : forall kw f key, kindOk (itemsOf moduleRead) moduleMapsOf moduleParams kw f key = true -> forall v,
     sfind k (fmap f m) = Some v <-> exists e, lastSuch (isNamed kw k) l e /\ e_val e = v).
  { intros kw f key KO w. rewrite sfind_mget. apply (map_entries _ _ _ _ _ _ _ _ _ _ _ EN KO). }
  assert (K1 := KX "/begin AXIS_PTS"%string "AxisPts"%string "name"%string ltac:(vm_compute; reflexivity)).
  assert (K2 := KX "/begin CHARACTERISTIC"%string "Characteristics"%string "Name"%string ltac:(vm_compute; reflexivity)).
  assert (K3 := KX "/begin COMPU_METHOD"%string "CompuMethods"%string "Name"%string ltac:(vm_compute; reflexivity)).
  assert (K4 := KX "/begin COMPU_TAB"%string "CompuTabs"%string "Name"%string ltac:(vm_compute; reflexivity)).
  assert (K5 := KX "/begin COMPU_VTAB"%string "CompuVTabs"%string "Name"%string ltac:(vm_compute; reflexivity)).
  assert (K6 := KX "/begin COMPU_VTAB_RANGE"%string "CompuVTabRanges"%string "Name"%string ltac:(vm_compute; reflexivity)).
  assert (K7 := KX "/begin FUNCTION"%string "Functions"%string "name"%string ltac:(vm_compute; reflexivity)).
  assert (K8 := KX "/begin GROUP"%string "Groups"%string "groupName"%string ltac:(vm_compute; reflexivity)).
  assert (K9 := KX "/begin MEASUREMENT"%string "Measurements"%string "name"%string ltac:(vm_compute; reflexivity)).
  assert (K10 := KX "/begin RECORD_LAYOUT"%string "RecordLayouts"%string "Name"%string ltac:(vm_compute; reflexivity)).
  assert (K12 := KX "/begin UNIT"%string "Units"%string "name"%string ltac:(vm_compute; reflexivity)).
  clear KX. split.
  - intros x. rewrite !addFound_iff. unfold mapsOf.
    cbn [m_axisPts m_characteristics m_compuMethods m_compuTabs m_compuVTabs m_compuVTabRanges m_functions m_groups m_measurements m_recordLayouts m_systemConstants m_units].
    split.
    + intros X. repeat match goal with H : _ \/ _ |- _ => destruct H as [H|(o & F & ->)] end; [destruct X|..];
        first [apply CE in F; exact F
              |match goal with F : sfind _ (fmap ?f _) = Some _, K : forall v, sfind _ (fmap ?f _) = Some v <-> _ |- _ => apply K in F; destruct F as (e & L & <-); constructor; exact L end].
    + intros X. destruct x; [do 11 left|do 10 left|do 9 left|do 8 left|do 7 left|do 6 left|do 5 left|do 4 left|do 3 left|do 2 left|left|]; right;
        try (inversion X as [e L|e L|e L|e L|e L|e L|e L|e L|e L|e L|p l' e vl L1 L2 L3 L4|e L]; subst;
             eexists; split; [|reflexivity];
             match goal with K : forall v, sfind _ (fmap ?f m) = Some v <-> _ |- sfind _ (fmap ?f m) = Some _ => apply K; eauto end).
      exists s. split; [apply CE; exact X|reflexivity].
  - cut (below 12 (match GetObjectByIdent (modulesOf cd) (ValuesModel.cd_index cd) k with Ok l => l | _ => [] end)).
    { unfold GetObjectByIdent. rewrite NM. intros [Q _]. exact Q. }
    unfold GetObjectByIdent. rewrite NM. do 12 (apply addFound_below; [reflexivity|]). split; constructor.
Qed.
Print Assumptions C70_module.

(** ** Files *)

Lemma file_kind : forall kw f sub p pf ts v, In (Item kw f p sub) (fileItems projectRead) -> den pf sub ts v -> kw = "/begin PROJECT"%string -> den pf projectRead ts v.
Proof.
  intros kw f sub p pf ts v I D ->. unfold fileItems in I. repeat (destruct I as [I|I]; [injection I; intros; subst; (discriminate || assumption)|]). destruct I.
Qed.
Lemma project_kind : forall kw f sub p pf ts v, In (Item kw f p sub) (itemsOf projectRead) -> den pf sub ts v -> kw = "/begin MODULE"%string -> den pf moduleRead ts v.
Proof.
  intros kw f sub p pf ts v I D ->. cbn [itemsOf projectRead] in I. repeat (destruct I as [I|I]; [injection I; intros; subst; (discriminate || assumption)|]). destruct I.
Qed.

Lemma file_entries : forall pf ts a, describes pf projectRead ts a -> (exists l, fileHas pf ts l) /\ forall l, fileHas pf ts l -> a = addEntries (fileItems projectRead) l [].
Proof.
  intros pf ts a D. assert (ND : NoDup (kws (fileItems projectRead))) by nodup. split.
  - destruct (parts_entries _ _ _ _ _ _ D ND) as (l & E & _). exists l. exact E.
  - intros l E. apply (C69_unique pf ts); [exact D|]. apply entries_parts; assumption.
Qed.

Lemma file_module : forall pf ts a n words, describes pf projectRead ts a -> fileModule pf ts n words ->
    exists v, nth_error (flist "Modules" (A2lLayoutModel.part "Project" a)) n = Some v /\ den pf moduleRead words v.
Proof.
  intros pf ts a n words D (lf & p & lp & e & HF & LP & HP & NE & <-). destruct (file_entries _ _ _ D) as [_ U]. rewrite (U lf HF). clear U.
  pose proof (lastSuch_in _ _ _ LP) as [IP KP]. destruct (entries_in _ _ _ _ _ _ HF IP) as (f & pl & sub & I & DP).
  pose proof (file_kind _ _ _ _ _ _ _ I DP KP) as DP'. destruct (project_entries _ _ _ DP') as [_ U]. destruct (U lp HP) as (vs & EV). clear U.
  assert (SL : slot (fileItems projectRead) "/begin PROJECT" = Some ("Project", Single)%string) by reflexivity.
  assert (OW : owns (fileItems projectRead) "Project" "/begin PROJECT" = true) by (vm_compute; reflexivity).
  unfold A2lLayoutModel.part. rewrite (single_entries _ _ _ OW SL).
  assert (HQ : forall x, In x lf -> (String.eqb (e_kw x) "/begin PROJECT" = true <-> isKw "/begin PROJECT" x)) by (intros x _; apply String.eqb_eq).
  rewrite (proj2 (lastVal_such (isKw "/begin PROJECT") (fun x => String.eqb (e_kw x) "/begin PROJECT") lf p HQ) LP). rewrite EV.
  assert (SL' : slot (itemsOf projectRead) "/begin MODULE" = Some ("Modules", Several)%string) by reflexivity.
  assert (OW' : owns (itemsOf projectRead) "Modules" "/begin MODULE" = true) by (vm_compute; reflexivity).
  rewrite (several_entries _ _ _ OW' SL'). assert (Z : flist "Modules" (stores true projectParams vs []) = []) by (unfold flist; rewrite stores_other by (vm_compute; reflexivity); reflexivity).
  rewrite Z. cbn [app]. rewrite nth_error_map, NE. cbn [option_map]. exists (e_val e). split; [reflexivity|].
  apply nth_error_In in NE. apply filter_In in NE. destruct NE as [IE KE]. apply String.eqb_eq in KE. destruct HP as (nm & lg & c & _ & EN).
  destruct (entries_in _ _ _ _ _ _ EN IE) as (f' & pl' & sub' & I' & DE). eapply project_kind; eauto.
Qed.

(** System constants: the last one of the name in the last MOD_PAR. *)
Theorem C70_constant : forall pf ts l v cd k, den pf moduleRead ts v -> moduleHas pf ts l ->
    nth_error (ValuesModel.cd_modules cd) (ValuesModel.cd_index cd) = Some v ->
    (forall s, systemConstantOf cd k = Ok s <-> written pf l k (SystemConstantO s)) /\ (systemConstantOf cd k = Err SCMissing <-> forall s, ~ written pf l k (SystemConstantO s)).
Proof.
  intros pf ts l v cd k D H NE. destruct (module_entries _ _ _ D) as [_ U]. destruct (U l H) as (vs & EV). pose proof (constants_entries _ _ _ _ _ D H EV k) as CE. clear U.
  unfold systemConstantOf, getSystemConstant, modulesOf. rewrite nth_error_map, NE. cbn [option_map]. rewrite EV. cbn [objOf]. unfold mapsOf. cbn [m_systemConstants].
  destruct (sfind _ _) as [s0|].
  - split.
    + intros s. rewrite <- CE. split; congruence.
    + split; [discriminate|]. intros N. destruct (N s0). apply CE. reflexivity.
  - split.
    + intros s. rewrite <- CE. split; congruence.
    + split; [|reflexivity]. intros _ s W. apply CE in W. discriminate.
Qed.
Print Assumptions C70_constant.

(** Its value should be the one in the file: it is always empty. *)
Theorem C70_constant_value_refuted : forall pf ts l v cd k value, den pf moduleRead ts v -> moduleHas pf ts l ->
    nth_error (ValuesModel.cd_modules cd) (ValuesModel.cd_index cd) = Some v -> written pf l k (SystemConstantO (SysConst k value true)) ->
    constantValueOf cd k = Ok [].
Proof.
  intros pf ts l v cd k value D H NE W. apply (proj1 (C70_constant pf ts l v cd k D H NE)) in W. unfold constantValueOf, getSystemConstantValue. unfold systemConstantOf in W. rewrite W. reflexivity.
Qed.
Print Assumptions C70_constant_value_refuted.

(** Every module of a described file has words and entries. *)
Theorem C70_modules : forall pf ts a n v, describes pf projectRead ts a -> nth_error (flist "Modules" (A2lLayoutModel.part "Project" a)) n = Some v ->
    exists words l, fileModule pf ts n words /\ den pf moduleRead words v /\ moduleHas pf words l.
Proof.
  intros pf ts a n v D NE. destruct (file_entries _ _ _ D) as [(lf & HF) U]. rewrite (U lf HF) in NE. clear U.
  assert (SL : slot (fileItems projectRead) "/begin PROJECT" = Some ("Project", Single)%string) by reflexivity.
  assert (OW : owns (fileItems projectRead) "Project" "/begin PROJECT" = true) by (vm_compute; reflexivity).
  unfold A2lLayoutModel.part in NE. rewrite (single_entries _ _ _ OW SL) in NE.
  assert (HQ : forall x, In x lf -> (String.eqb (e_kw x) "/begin PROJECT" = true <-> isKw "/begin PROJECT" x)) by (intros x _; apply String.eqb_eq).
  pose proof (fun p => lastVal_such (isKw "/begin PROJECT") (fun x => String.eqb (e_kw x) "/begin PROJECT") lf p HQ) as L.
  destruct (lastVal _ lf) as [p|]; [|destruct n; discriminate].
  pose proof (proj1 (L p) eq_refl) as LP. pose proof (lastSuch_in _ _ _ LP) as [IP KP]. destruct (entries_in _ _ _ _ _ _ HF IP) as (f & pl & sub & I & DP).
  pose proof (file_kind _ _ _ _ _ _ _ I DP KP) as DP'. destruct (project_entries _ _ _ DP') as [(lp & HP) U]. destruct (U lp HP) as (vs & EV). clear U. rewrite EV in NE.
  assert (SL' : slot (itemsOf projectRead) "/begin MODULE" = Some ("Modules", Several)%string) by reflexivity.
  assert (OW' : owns (itemsOf projectRead) "Modules" "/begin MODULE" = true) by (vm_compute; reflexivity).
  rewrite (several_entries _ _ _ OW' SL') in NE.
  assert (Z : flist "Modules" (stores true projectParams vs []) = []) by (unfold flist; rewrite stores_other by (vm_compute; reflexivity); reflexivity).
  rewrite Z in NE. cbn [app] in NE. rewrite nth_error_map in NE. destruct (nth_error (filter _ lp) n) as [e|] eqn:NF; [|discriminate]. injection NE as <-.
  assert (FM : fileModule pf ts n (e_words e)) by (exists lf, p, lp, e; auto).
  apply nth_error_In in NF. apply filter_In in NF. destruct NF as [IE KE]. apply String.eqb_eq in KE. pose proof HP as (nm & lg & c & _ & EN).
  destruct (entries_in _ _ _ _ _ _ EN IE) as (f' & pl' & sub' & I' & DE). pose proof (project_kind _ _ _ _ _ _ _ I' DE KE) as DE'.
  destruct (module_entries _ _ _ DE') as [(l & H) _]. exists (e_words e), l. auto.
Qed.
Print Assumptions C70_modules.

(** Lookups in the file [ts] find what stands in it. *)
Definition finds (pf : bytes -> option spec_float) (ts : list bytes) (a : fields) : Prop :=
  forall n hex words l k, fileModule pf ts n words -> moduleHas pf words l ->
    exists r, objectsByIdent (calibOf a n hex) k = Ok r /\ (forall x, In x r <-> written pf l k x) /\ StronglySorted (fun x y => rank x < rank y) r.

Theorem C70_tree : forall pf ts a, describes pf projectRead ts a -> finds pf ts a.
Proof.
  intros pf ts a D n hex words l k FM H. destruct (file_module _ _ _ _ _ D FM) as (v & NE & DV).
  exact (C70_module pf words l v (calibOf a n hex) k DV H NE).
Qed.
Print Assumptions C70_tree.

(** A file with several modules, whatever the number of CPUs and the schedule. *)
Theorem C70_file : forall gr pf cpus ts a, 0 < cpus -> tableOk gr -> describes pf projectRead ts a -> Forall writable ts ->
    (1 < moduleCount ts mod 2 ^ 32)%N ->
    forall r, parseFromFile gr pf cpus (Some (write ts)) r -> exists a', r = Returned a' false /\ finds pf ts a'.
Proof.
  intros gr pf cpus ts a CP G D W MC r H. apply (C69_sequential gr pf cpus ts a CP G D W MC) in H. exists a. split; [exact H|]. apply C70_tree. exact D.
Qed.
Print Assumptions C70_file.

(** ** One module, read by several goroutines *)

Lemma same_fmap : forall o o' l t g f k, A2lModSpec.holds o l -> A2lModSpec.holds o' l -> In (t, (g, A2lModModel.Put_ f k)) A2lModSpec.kinds ->
    forall x, A2lModSpec.mget x (fmap f o) = A2lModSpec.mget x (fmap f o').
Proof.
  intros o o' l t g f k H H' I x. pose proof (H _ _ _ I) as (m & E & Q). pose proof (H' _ _ _ I) as (m' & E' & Q'). unfold fmap. rewrite E, E'.
  destruct (A2lModSpec.mget x m) as [v|] eqn:M.
  - symmetry. apply Q'. apply Q. exact M.
  - destruct (A2lModSpec.mget x m') as [v|] eqn:M'; [|reflexivity]. apply Q' in M'. apply Q in M'. congruence.
Qed.
Lemma same_single : forall o o' l t g f, A2lModSpec.holds o l -> A2lModSpec.holds o' l -> In (t, (g, A2lModModel.Keep f)) A2lModSpec.kinds -> fget f o = fget f o'.
Proof.
  intros o o' l t g f H H' I. pose proof (H _ _ _ I) as Q. pose proof (H' _ _ _ I) as Q'. cbn beta iota in Q, Q'.
  destruct (fget f o) as [v|].
  - symmetry. apply Q'. apply Q. reflexivity.
  - destruct (fget f o') as [v|]; [|reflexivity]. pose proof (proj1 (Q' v) eq_refl) as K. apply Q in K. exact K.
Qed.
Lemma addFound_same : forall A obj (mk : A -> object obj) k (m m' : smap A) acc, sfind k m = sfind k m' -> addFound mk k m acc = addFound mk k m' acc.
Proof. intros A obj mk k m m' acc E. unfold addFound. rewrite E. reflexivity. Qed.

(** Two modules with the same objects: the same lookups. *)
Theorem C70_same : forall a a' n hex k, likeFile sameModule a a' -> objectsByIdent (calibOf a n hex) k = objectsByIdent (calibOf a' n hex) k.
Proof.
  intros a a' n hex k [_ L]. unfold objectsByIdent, GetObjectByIdent, modulesOf, calibOf, A2lLayoutModel.part. cbn [ValuesModel.cd_modules ValuesModel.cd_index].
  rewrite !nth_error_map.
  assert (F : match fget "Project" a, fget "Project" a' with
              | Some (VObj p), Some (VObj p') => Forall2 sameModule (flist "Modules" p) (flist "Modules" p') | None, None => True | _, _ => False end).
  { destruct (fget "Project" a) as [[]|], (fget "Project" a') as [[]|]; try exact L. destruct L as [_ L]. exact L. }
  clear L. destruct (fget "Project" a) as [[]|], (fget "Project" a') as [[]|]; try contradiction; [|reflexivity].
  revert n. induction F as [|v w lv lw S F IH]; intros [|n]; cbn [nth_error option_map]; [reflexivity|reflexivity| |apply IH].
  destruct S as (o1 & o2 & name & long & l & -> & -> & _ & _ & H & H'). unfold mapsOf, objOf.
  cbn [m_axisPts m_characteristics m_compuMethods m_compuTabs m_compuVTabs m_compuVTabRanges m_functions m_groups m_measurements m_recordLayouts m_systemConstants m_units].
  assert (P : A2lLayoutModel.part "ModPar" o1 = A2lLayoutModel.part "ModPar" o2).
  { unfold A2lLayoutModel.part. rewrite (same_single o1 o2 l "/begin MOD_PAR" parseModPar "ModPar" H H'); [reflexivity|cbn; tauto]. }
  rewrite P. assert (K : forall t g f key, In (t, (g, A2lModModel.Put_ f key)) A2lModSpec.kinds -> sfind k (fmap f o1) = sfind k (fmap f o2)).
  { intros t g f key I. rewrite !sfind_mget. eapply same_fmap; eauto. }
  assert (M : forall f, (exists t g key, In (t, (g, A2lModModel.Put_ f key)) A2lModSpec.kinds) -> forall (mk : val -> object val) acc, addFound mk k (fmap f o1) acc = addFound mk k (fmap f o2) acc).
  { intros f (t & g & key & I) mk acc. apply addFound_same. eapply K; eauto. }
  rewrite (M "AxisPts"%string), (M "Characteristics"%string), (M "CompuMethods"%string), (M "CompuTabs"%string), (M "CompuVTabs"%string), (M "CompuVTabRanges"%string), (M "Functions"%string), (M "Groups"%string), (M "Measurements"%string), (M "RecordLayouts"%string), (M "Units"%string); [reflexivity|..];
    (eexists; eexists; eexists; unfold A2lModSpec.kinds; cbn [In]; repeat (first [left; reflexivity|right])).
Qed.
Print Assumptions C70_same.

(** A file with one module that can be shared out. *)
Theorem C70_one_module_guarded : forall gr pf cpus ts a, 0 < cpus -> tableOk gr -> describes pf projectRead ts a -> Forall writable ts -> ts <> [] ->
    (moduleCount ts mod 2 ^ 32 <= 1)%N ->
    (forall i, A2lModSpec.tok (ts ++ [[]]) i = b "/begin MODULE" -> divisible (ts ++ [[]]) pf (cpus * 2) i /\ inside (ts ++ [[]]) pf (cpus * 2) i) ->
    forall r, parseFromFile gr pf cpus (Some (write ts)) r -> exists a', r = Returned a' false /\ finds pf ts a'.
Proof.
  intros gr pf cpus ts a CP G D W N MC DV r H. destruct (C69_one_module_guarded gr pf cpus ts a CP G D W N MC DV r H) as (a' & -> & L). exists a'. split; [reflexivity|].
  intros n hex words l k FM HM. rewrite <- (C70_same a a' n hex k L). apply (C70_tree pf ts a D n hex words l k FM HM).
Qed.
Print Assumptions C70_one_module_guarded.

(** Otherwise what stands in the file may be missing: the second group of [lostFile], on a computer with one CPU. *)
Theorem C70_one_module_refuted : exists ts k, Forall writable ts /\ forall gr pf, tableOk gr -> exists words l v,
    (exists a, describes pf plainProject ts a) /\ fileModule pf ts 0 words /\ moduleHas pf words l /\ written pf l k (Group_ v) /\
    (exists r, parseFromFile gr pf 1 (Some (write ts)) r) /\
    forall r, parseFromFile gr pf 1 (Some (write ts)) r -> exists a', r = Returned a' false /\
      forall hex res x, objectsByIdent (calibOf a' 0 hex) k = Ok res -> ~ In (Group_ x) res.
Proof.
  destruct lost_file as (W & M & E & DD). exists lostFile, (b "G2"). split; [exact W|]. intros gr pf G.
  assert (A : exists a, describes pf plainProject lostFile a /\ group a (b "G2") <> None /\ (exists r, parseFromFile gr pf 1 (Some (write lostFile)) r) /\
      forall r, parseFromFile gr pf 1 (Some (write lostFile)) r -> exists a', r = Returned a' false /\ group a' (b "G2") = None).
  { destruct (DD pf) as (a & D & _ & N2). exists a. split; [exact D|]. split; [exact N2|]. destruct (C69_plain pf _ _ D) as [_ D'].
    split; [apply C65_total; lia|]. intros r H.
    assert (DV : forall i, A2lModSpec.tok (lostFile ++ [[]]) i = b "/begin MODULE" -> divisible (lostFile ++ [[]]) pf (1 * 2) i) by (rewrite E; apply lost_divisible).
    destruct (C69_one_module_as_read gr pf 1 lostFile a ltac:(lia) G D' W ltac:(discriminate) M DV r H) as (a' & -> & L). rewrite E in L. exists a'. split; [reflexivity|].
    pose proof (C69_parsed pf lostFile a D') as R. rewrite E in R.
    destruct (lost_read pf (1 * 2) a a' _ R L (b "G2") (A2lModSpec.Item 10 14 (A2lModModel.Put_ "Groups" "groupName") (A2lModProps.readOr lostToks parseGroup 10))) as [B _];
      [right; left; reflexivity|vm_compute; reflexivity|]. apply B. exists 1. split; [lia|reflexivity]. }
  destruct A as (a & D & N & TOT & A). destruct (C69_plain pf _ _ D) as [_ D'].
  assert (NV : exists p m o, fget "Project" a = Some (VObj p) /\ flist "Modules" p = [VObj m] /\ A2lModSpec.mget (b "G2") (fmap "Groups" m) = Some o).
  { unfold group in N. destruct (fget "Project" a) as [[| | | | | |p]|]; try (exfalso; apply N; reflexivity).
    destruct (flist "Modules" p) as [|[| | | | | |m] [|]] eqn:FL; try (exfalso; apply N; reflexivity).
    unfold fmap. destruct (fget "Groups" m) as [[| | | | |g|]|] eqn:FG; try (exfalso; apply N; reflexivity).
    destruct (A2lModSpec.mget (b "G2") g) as [o|] eqn:MG; [|exfalso; apply N; reflexivity]. exists p, m, o. rewrite FG. auto. }
  destruct NV as (p & m & o & P & FL & MG).
  destruct (C70_modules pf lostFile a 0 (VObj m) D') as (words & l & FM & DM & HM); [unfold A2lLayoutModel.part; rewrite P, FL; reflexivity|].
  exists words, l, o. split; [exists a; exact D|]. split; [exact FM|]. split; [exact HM|]. split.
  - destruct (C70_tree pf lostFile a D' 0 [] words l (b "G2") FM HM) as (r & ER & IFF & _). apply IFF.
    unfold objectsByIdent, GetObjectByIdent, modulesOf, calibOf, A2lLayoutModel.part in ER. rewrite P in ER. cbn [ValuesModel.cd_modules ValuesModel.cd_index] in ER. rewrite FL in ER.
    cbn [map nth_error] in ER. injection ER as <-. rewrite !addFound_iff. do 4 left. right. exists o. split; [|reflexivity]. unfold mapsOf. cbn [m_groups]. rewrite sfind_mget. exact MG.
  - split; [exact TOT|]. intros r H. destruct (A r H) as (a' & -> & GN). exists a'. split; [reflexivity|]. intros hex res x ER I.
    unfold objectsByIdent, GetObjectByIdent, modulesOf, calibOf in ER. cbn [ValuesModel.cd_modules ValuesModel.cd_index] in ER. rewrite nth_error_map in ER.
    destruct (C69_one_module_as_read gr pf 1 lostFile a ltac:(lia) G D' W ltac:(discriminate) M ltac:(rewrite E; intros i; apply lost_divisible) _ H) as (a2 & [= <-] & (_ & L)).
    rewrite P in L. unfold group, A2lLayoutModel.part in *. destruct (fget "Project" a') as [[| | | | | |p']|]; try contradiction. destruct L as [_ F]. rewrite FL in F.
    destruct (flist "Modules" p') as [|w [|w' ws]]; inversion F as [|? ? ? ? SM F']; subst; inversion F'; subst. clear F F'.
    destruct SM as (i & items & stop & o1 & o2 & name & long & kept & _ & _ & _ & -> & _). cbn [nth_error option_map objOf] in ER. injection ER as <-.
    assert (Z : sfind (b "G2") (fmap "Groups" o2) = None) by (rewrite sfind_mget; unfold fmap; destruct (fget "Groups" o2) as [[]|]; try reflexivity; exact GN).
    rewrite !addFound_iff in I. unfold mapsOf in I. cbn [m_groups] in I.
    repeat match goal with X : _ \/ _ |- _ => destruct X as [X|(y & F & Q)]; [|first [discriminate Q|discriminate (eq_trans (eq_sym Z) F)]] end. destruct I.
Qed.
Print Assumptions C70_one_module_refuted.

(** The plain file of C69: two modules; the lookups of C, of T and of a name that does not occur. *)
Example C70_example : exists a, describes zeroFloat projectRead plainFile a /\
  (exists o, objectsByIdent (calibOf a 0 []) (b "C") = Ok [Characteristic o]) /\
  (exists o, objectsByIdent (calibOf a 0 []) (b "T") = Ok [CompuVTabO o]) /\ objectsByIdent (calibOf a 1 []) (b "C") = Ok [] /\
  exists words l o, fileModule zeroFloat plainFile 0 words /\ moduleHas zeroFloat words l /\ written zeroFloat l (b "C") (Characteristic o).
Proof.
  assert (A : exists a, describes zeroFloat projectRead plainFile a /\
    (exists o, objectsByIdent (calibOf a 0 []) (b "C") = Ok [Characteristic o]) /\
    (exists o, objectsByIdent (calibOf a 0 []) (b "T") = Ok [CompuVTabO o]) /\ objectsByIdent (calibOf a 1 []) (b "C") = Ok [] /\
    exists v, nth_error (flist "Modules" (A2lLayoutModel.part "Project" a)) 0 = Some v).
  { eexists. split; [described|]. split; [eexists; vm_compute; reflexivity|]. split; [eexists; vm_compute; reflexivity|]. split; [vm_compute; reflexivity|]. eexists. vm_compute. reflexivity. }
  destruct A as (a & D & (o & O) & T & N & (v & NE)). exists a. split; [exact D|]. split; [eauto|]. split; [exact T|]. split; [exact N|].
  destruct (C70_modules _ _ _ _ _ D NE) as (words & l & FM & _ & HM). exists words, l, o. split; [exact FM|]. split; [exact HM|].
  destruct (C70_tree _ _ _ D 0 [] words l (b "C") FM HM) as (r & ER & IFF & _). apply IFF. rewrite O in ER. injection ER as <-. left. reflexivity.
Qed.

Lemma den_run : forall n pf f ts v, describe pf n f ts = Some (v, []) -> den pf f ts v.
Proof. intros n pf f ts v H. destruct (describe_ok _ _ _ _ _ _ H) as (ts1 & -> & D). rewrite app_nil_r. exact D. Qed.
(** A module with a system constant given twice. *)
Definition constWords : list bytes := map b ["M"; "a module"; "/begin MOD_PAR"; "a comment"; "SYSTEM_CONSTANT"; "N"; "4"; "SYSTEM_CONSTANT"; "N"; "5"; "/end MOD_PAR"; "/end MODULE"]%string.
Example C70_constant_example : exists v l, den zeroFloat moduleRead constWords v /\ moduleHas zeroFloat constWords l /\ written zeroFloat l (b "N") (SystemConstantO (SysConst (b "N") (b "5") true))
  /\ systemConstantOf (ValuesModel.Calib [v] 0 []) (b "N") = Ok (SysConst (b "N") (b "5") true) /\ constantValueOf (ValuesModel.Calib [v] 0 []) (b "N") = Ok [].
Proof.
  assert (A : exists v, den zeroFloat moduleRead constWords v /\ systemConstantOf (ValuesModel.Calib [v] 0 []) (b "N") = Ok (SysConst (b "N") (b "5") true) /\ constantValueOf (ValuesModel.Calib [v] 0 []) (b "N") = Ok []).
  { eexists. split; [apply (den_run 10); vm_compute; reflexivity|]. split; vm_compute; reflexivity. }
  destruct A as (v & D & S1 & S2). destruct (module_entries _ _ _ D) as [(l & H) _]. exists v, l. split; [exact D|]. split; [exact H|]. split; [|auto].
  apply (proj1 (C70_constant zeroFloat constWords l v (ValuesModel.Calib [v] 0 []) (b "N") D H eq_refl)). exact S1.
Qed.
