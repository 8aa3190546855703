(** C91: what is found under a name, for any file that was read without an error. *)
From Coq Require Import String Ascii List Arith NArith ZArith Bool Lia SpecFloat Sorted.
From Verif Require Import GoBase GoBaseFacts A2lModStore A2lIR A2lTokens A2lSpec A2lParsers A2lFileThm A2lGrammar A2lForms A2lTripSpec A2lFormProps A2lProps.
From Verif Require Import CompuModel LookModel LookProps TreeModel TreeSpec TreeThm TreeLook.
From Verif Require Import A2lFileModel A2lFileSpec A2lExactSpec A2lExact A2lExactThm A2lExactProps A2lOddSpec A2lOddProps ConvFileProps LookFileSpec LookFileThm.
From Verif Require A2lModSpec A2lModProps ValuesModel ValuesThm A2lLayoutModel A2lNestProps OriginProps A2lTextModel TokModel TokThm A2lFileProps.
Import ListNotations.

(** ** Forms whose contents are objects *)

Definition mapsIn (f : form) : list string := match f with Block ms _ _ _ _ _ => ms | _ => [] end.
Definition formOk (f : form) : bool :=
  match f with
  | Block ms ps g its stop cs => negb (oneOf stop special) && goodItems its stop && forallb textual ps && optParam textual (further ps g stop)
  | _ => false
  end.
Definition spared (g : string) (f : form) : bool :=
  match f with
  | Block ms ps gr its stop cs => forallb (spares g) ps && optParam (spares g) (further ps gr stop) && forallb (fun fc => negb (String.eqb g (fst fc))) cs
  | _ => false
  end.
Definition shapedItems (l : list item) : Prop := forall kw f p sub, In (Item kw f p sub) l -> exists g, shapeFn ownFn g sub = true.

Section Tokens.
  Variable toks : list bytes.
  Variable pf : bytes -> option spec_float.
  Hypothesis EN : ended toks.
  Notation tok := (tok toks).
  Notation reads := (reads toks pf (odd toks pf)).
  Notation holdsAt := (holdsAt toks pf).

  Lemma form_fields : forall f i v j, formOk f = true -> reads f i v j ->
      exists o l, v = VObj o /\ holdsAt f i l /\ forall g, spared g f = true -> fget g o = fget g (addMembers (partsOf f) l (newMaps (mapsIn f))).
  Proof.
    intros f i v j OK R. destruct f as [ty|ps cs|ps gs cs nexts|ms ps gr its stop cs]; try discriminate OK. cbn [formOk] in OK.
    apply andb_true_iff in OK. destruct OK as [OK T2]. apply andb_true_iff in OK. destruct OK as [OK T1]. apply andb_true_iff in OK. destruct OK as [SP GI].
    apply negb_true_iff in SP. apply oneOf_out in SP.
    inversion R as [| | |ms' ps' g' its' stop' cs' i' j' o NS M TS|ms' ps' g' its' stop' cs' i' v' j' IS _]; subst; [|contradiction].
    unfold goodItems in GI. apply andb_true_iff in GI. destruct GI as [GI _]. apply andb_true_iff in GI. destruct GI as [GD _]. apply distinct_nodup in GD.
    inversion GD as [|? ? _ ND]; subst.
    destruct (mixed_contents toks pf _ _ _ _ _ _ _ _ M ND T1 T2) as (l & C & F). eexists _, l. split; [reflexivity|]. split; [exists j'; split; [exact C|exact TS]|].
    intros g S. cbn [spared] in S. apply andb_true_iff in S. destruct S as [S S3]. apply andb_true_iff in S. destruct S as [S1 S2].
    rewrite consts_other by exact S3. exact (F g S1 S2).
  Qed.

  Lemma holds_unique : forall f i l l', formOk f = true -> shapedItems (partsOf f) -> holdsAt f i l -> holdsAt f i l' -> l = l'.
  Proof.
    intros f i l l' OK SH (j & C & T) (j' & C' & T'). destruct f as [ty|ps cs|ps gs cs nexts|ms ps gr its stop cs]; try discriminate OK. cbn [formOk] in OK.
    apply andb_true_iff in OK. destruct OK as [OK _]. apply andb_true_iff in OK. destruct OK as [OK _]. apply andb_true_iff in OK. destruct OK as [_ GI].
    apply (contents_unique toks pf EN its stop GI SH i j l C T j' l' C' T').
  Qed.

  Lemma member_reads : forall its i j l m, contents toks pf its i j l -> In m l -> exists f p sub k, In (Item (m_kw m) f p sub) its /\ tok (m_at m) = b (m_kw m) /\ reads sub (m_at m) (m_val m) k.
  Proof.
    intros its i j l m C. induction C as [i|i j l N K C IH|kw f p sub i v k j l IN T R C IH]; intros I.
    - destruct I.
    - apply IH. exact I.
    - destruct I as [<-|I]; [|apply IH; exact I]. cbn [m_kw m_at m_val]. eauto 8.
  Qed.
End Tokens.

(** *** The three forms *)

Lemma module_ok : formOk moduleExact = true. Proof. vm_compute. reflexivity. Qed.
Lemma project_ok : formOk projectExact = true. Proof. vm_compute. reflexivity. Qed.
Lemma modPar_ok : formOk modParRead = true. Proof. vm_compute. reflexivity. Qed.

Definition shapedBy (l : list item) : bool := forallb (fun it => match it with Item _ _ _ sub => existsb (fun q => shapeFn ownFn (snd q) sub) allParsers end) l.
Lemma shaped_by : forall l, shapedBy l = true -> shapedItems l.
Proof.
  intros l H kw f p sub I. unfold shapedBy in H. rewrite forallb_forall in H. specialize (H _ I). cbv beta iota in H. apply existsb_exists in H. destruct H as (q & _ & Q). eauto.
Qed.
Lemma module_shaped : shapedItems (partsOf moduleExact).
Proof. intros kw f p sub I. exact (proj2 (module_shape kw f p sub I)). Qed.
Lemma project_shaped : shapedItems (partsOf projectExact). Proof. apply shaped_by. vm_compute. reflexivity. Qed.
Lemma modPar_shaped : shapedItems (partsOf modParRead). Proof. apply shaped_by. vm_compute. reflexivity. Qed.

(** ** One module *)

(** the field of a form that maps names to the objects with keyword [kw] *)
Definition keyedBy (f : form) (kw g key : string) : bool :=
  owns (partsOf f) g kw && spared g f
  && match slot (partsOf f) kw with Some (g', Under key') => String.eqb g g' && String.eqb key key' | _ => false end
  && match fget g (newMaps (mapsIn f)) with Some (VMap []) => true | _ => false end.
Lemma keyed_members : forall f kw g key l o, keyedBy f kw g key = true ->
    (forall g, spared g f = true -> fget g o = fget g (addMembers (partsOf f) l (newMaps (mapsIn f)))) ->
    forall k v, sfind k (fmap g o) = Some v <-> exists m, lastOf (called kw key k) l m /\ m_val m = v.
Proof.
  intros f kw g key l o K F k v. unfold keyedBy in K. rewrite !andb_true_iff in K. destruct K as [[[K1 K2] K3] K4].
  destruct (slot (partsOf f) kw) as [[g' [| |key']]|] eqn:SL; try discriminate. apply andb_true_iff in K3. destruct K3 as [A B].
  apply String.eqb_eq in A. apply String.eqb_eq in B. subst g' key'.
  rewrite sfind_mget, (fmap_fget g o _ (F g K2)). apply map_members; [exact K1|exact SL|]. destruct (fget g (newMaps (mapsIn f))) as [[]|]; try discriminate. destruct m; [reflexivity|discriminate].
Qed.

Lemma constant_is : forall v, constOf v = constant v.
Proof. intros []; reflexivity. Qed.

Section Module.
  Variable toks : list bytes.
  Variable pf : bytes -> option spec_float.
  Hypothesis EN : ended toks.
  Notation reads := (reads toks pf (odd toks pf)).
  Notation holdsAt := (holdsAt toks pf).

  (** the constants of a MOD_PAR *)
  Lemma constants_at : forall i v j l k s, reads modParRead i v j -> holdsAt modParRead i l ->
      (sfind k (onValues constOf (fmap "SystemConstants" (objOf v))) = Some s <-> exists c, lastOf (called "SYSTEM_CONSTANT" "Name" k) l c /\ s = constant (m_val c)).
  Proof.
    intros i v j l k s R H. destruct (form_fields toks pf _ _ _ _ modPar_ok R) as (o & l0 & -> & H0 & F).
    assert (l0 = l) as -> by (eapply (holds_unique toks pf EN); eauto using modPar_ok, modPar_shaped).
    pose proof (keyed_members modParRead "SYSTEM_CONSTANT" "SystemConstants" "Name" l o ltac:(vm_compute; reflexivity) F k)%string as ME.
    rewrite sfind_onValues. cbn [objOf]. rewrite <- sfind_mget. destruct (sfind k (fmap "SystemConstants" o)) as [w|]; cbn [option_map].
    - destruct (proj1 (ME w) eq_refl) as (c & LC & <-). split.
      + intros [= <-]. exists c. split; [exact LC|apply constant_is].
      + intros (c' & LC' & ->). rewrite (lastOf_fun _ _ _ _ _ LC' LC). f_equal. apply constant_is.
    - split; [discriminate|]. intros (c & LC & _). pose proof (proj2 (ME (m_val c)) (ex_intro _ c (conj LC eq_refl))). discriminate.
  Qed.

  Lemma modPar_item : forall f p sub, In (Item "/begin MOD_PAR" f p sub) (partsOf moduleExact) -> sub = modParRead.
  Proof.
    intros f p sub I. unfold moduleExact, within_form, moduleRead in I. cbn [partsOf map] in I.
    repeat (destruct I as [I|I]; [first [discriminate I|injection I as _ _ I; exact (eq_sym I)]|]). destruct I.
  Qed.

  Lemma module_constants : forall i j l o k s, contents toks pf (partsOf moduleExact) i j l ->
      (forall g, spared g moduleExact = true -> fget g o = fget g (addMembers (partsOf moduleExact) l (newMaps (mapsIn moduleExact)))) ->
      (sfind k (onValues constOf (fmap "SystemConstants" (A2lLayoutModel.part "ModPar" o))) = Some s <->
       exists p l' c, lastOf (ofKind "/begin MOD_PAR") l p /\ holdsAt modParRead (m_at p) l' /\ lastOf (called "SYSTEM_CONSTANT" "Name" k) l' c /\ s = constant (m_val c)).
  Proof.
    intros i j l o k s C F. unfold A2lLayoutModel.part. rewrite (F "ModPar"%string) by (vm_compute; reflexivity).
    destruct (single_member (partsOf moduleExact) l (newMaps (mapsIn moduleExact)) "/begin MOD_PAR" "ModPar" ltac:(vm_compute; reflexivity) ltac:(vm_compute; reflexivity))%string as [(p & LP & ->)|[NO ->]].
    - destruct (lastOf_in _ _ _ _ LP) as [IP KP]. destruct (member_reads _ _ _ _ _ _ _ C IP) as (f & pl & sub & e & IT & TK & R). rewrite KP in IT. rewrite (modPar_item _ _ _ IT) in R.
      change (match Some (m_val p) with Some (VObj o') => o' | _ => [] end) with (objOf (m_val p)).
      split.
      + intros S. destruct (form_fields toks pf _ _ _ _ modPar_ok R) as (o' & l' & _ & H' & _). apply (constants_at _ _ _ _ _ _ R H') in S. destruct S as (c & LC & ->). exists p, l', c. auto.
      + intros (p' & l' & c & LP' & H' & LC & ->). rewrite (lastOf_fun _ _ _ _ _ LP' LP) in H'. apply (constants_at _ _ _ _ _ _ R H'). eauto.
    - split; [discriminate|]. intros (p & l' & c & LP & _). destruct (lastOf_in _ _ _ _ LP) as [IP KP]. exfalso. exact (NO _ IP KP).
  Qed.

  Ltac keyed_ := intros ?; apply (keyed_members moduleExact); [vm_compute; reflexivity|assumption].

  Lemma found_module : forall i v j l cd k, reads moduleExact i v j -> holdsAt moduleExact i l ->
      nth_error (ValuesModel.cd_modules cd) (ValuesModel.cd_index cd) = Some v ->
      exists r, objectsByIdent cd k = Ok r /\ (forall x, In x r <-> listed toks pf l k x) /\ StronglySorted (fun x y => rank x < rank y) r.
  Proof.
    intros i v j l cd k R H NE. destruct (form_fields toks pf _ _ _ _ module_ok R) as (o & l0 & -> & H0 & F).
    assert (l0 = l) as -> by (eapply (holds_unique toks pf EN); eauto using module_ok, module_shaped). destruct H as (j1 & C & _).
    assert (NM : nth_error (modulesOf cd) (ValuesModel.cd_index cd) = Some (mapsOf o)).
    { unfold modulesOf. rewrite nth_error_map, NE. reflexivity. }
    pose proof (fun s => module_constants _ _ _ _ k s C F) as CE.
    unfold objectsByIdent, GetObjectByIdent. rewrite NM. cbv zeta. eexists. split; [reflexivity|].
    assert (K1 : forall v, sfind k (fmap "AxisPts" o) = Some v <-> exists m, lastOf (called "/begin AXIS_PTS" "name" k) l m /\ m_val m = v) by keyed_.
    assert (K2 : forall v, sfind k (fmap "Characteristics" o) = Some v <-> exists m, lastOf (called "/begin CHARACTERISTIC" "Name" k) l m /\ m_val m = v) by keyed_.
    assert (K3 : forall v, sfind k (fmap "CompuMethods" o) = Some v <-> exists m, lastOf (called "/begin COMPU_METHOD" "Name" k) l m /\ m_val m = v) by keyed_.
    assert (K4 : forall v, sfind k (fmap "CompuTabs" o) = Some v <-> exists m, lastOf (called "/begin COMPU_TAB" "Name" k) l m /\ m_val m = v) by keyed_.
    assert (K5 : forall v, sfind k (fmap "CompuVTabs" o) = Some v <-> exists m, lastOf (called "/begin COMPU_VTAB" "Name" k) l m /\ m_val m = v) by keyed_.
    assert (K6 : forall v, sfind k (fmap "CompuVTabRanges" o) = Some v <-> exists m, lastOf (called "/begin COMPU_VTAB_RANGE" "Name" k) l m /\ m_val m = v) by keyed_.
    assert (K7 : forall v, sfind k (fmap "Functions" o) = Some v <-> exists m, lastOf (called "/begin FUNCTION" "name" k) l m /\ m_val m = v) by keyed_.
    assert (K8 : forall v, sfind k (fmap "Groups" o) = Some v <-> exists m, lastOf (called "/begin GROUP" "groupName" k) l m /\ m_val m = v) by keyed_.
    assert (K9 : forall v, sfind k (fmap "Measurements" o) = Some v <-> exists m, lastOf (called "/begin MEASUREMENT" "name" k) l m /\ m_val m = v) by keyed_.
    assert (K10 : forall v, sfind k (fmap "RecordLayouts" o) = Some v <-> exists m, lastOf (called "/begin RECORD_LAYOUT" "Name" k) l m /\ m_val m = v) by keyed_.
    assert (K12 : forall v, sfind k (fmap "Units" o) = Some v <-> exists m, lastOf (called "/begin UNIT" "name" k) l m /\ m_val m = v) by keyed_.
    split.
    - intros x. rewrite !addFound_iff. unfold mapsOf.
      cbn [m_axisPts m_characteristics m_compuMethods m_compuTabs m_compuVTabs m_compuVTabRanges m_functions m_groups m_measurements m_recordLayouts m_systemConstants m_units].
      split.
      + intros X. repeat match goal with H : _ \/ _ |- _ => destruct H as [H|(w & W & ->)] end; [destruct X|..];
          first [apply CE in W; destruct W as (p & l' & c & W1 & W2 & W3 & ->); eapply li_constant; eauto
                |match goal with W : sfind _ (fmap ?f _) = Some _, K : forall v, sfind _ (fmap ?f _) = Some v <-> _ |- _ =>
                   apply K in W; destruct W as (m & L & <-); eapply (li_object toks pf l k); [|exact L]; unfold lookedUp; cbn [In]; repeat (first [left; reflexivity|right]) end].
      + intros X. destruct X as [kw key mk m I L|p l' c W1 W2 W3].
        * unfold lookedUp in I. cbn [In] in I.
          repeat match type of I with _ \/ _ => destruct I as [I|I]; [injection I as <- <- <-|] end; [..|destruct I];
            [do 11 left|do 10 left|do 9 left|do 8 left|do 7 left|do 6 left|do 5 left|do 4 left|do 3 left|do 2 left|]; right; exists (m_val m); (split; [|reflexivity]);
            match goal with K : forall v, sfind _ (fmap ?f o) = Some v <-> _ |- sfind _ (fmap ?f o) = Some _ => apply K; eauto end.
        * left; right. exists (constant (m_val c)). split; [apply CE; exists p, l', c; auto|reflexivity].
    - cut (below 12 (match GetObjectByIdent (modulesOf cd) (ValuesModel.cd_index cd) k with Ok l => l | _ => [] end)).
      { unfold GetObjectByIdent. rewrite NM. intros [Q _]. exact Q. }
      unfold GetObjectByIdent. rewrite NM. do 12 (apply addFound_below; [reflexivity|]). split; constructor.
  Qed.
End Module.

(** In a module that was read without an error: under each name exactly the last
    object of each kind with this name. *)
Theorem C91_module : forall toks pf i v j l cd k, ended toks -> reads toks pf (odd toks pf) moduleExact i v j -> holdsAt toks pf moduleExact i l ->
    nth_error (ValuesModel.cd_modules cd) (ValuesModel.cd_index cd) = Some v ->
    exists r, objectsByIdent cd k = Ok r /\ (forall x, In x r <-> listed toks pf l k x) /\ StronglySorted (fun x y => rank x < rank y) r.
Proof. intros toks pf i v j l cd k EN. apply found_module. exact EN. Qed.
Print Assumptions C91_module.

(** ** Files *)

Section File.
  Variable toks : list bytes.
  Variable pf : bytes -> option spec_float.
  Hypothesis EN : ended toks.
  Notation tok := (tok toks).
  Notation reads := (reads toks pf (odd toks pf)).
  Notation holdsAt := (holdsAt toks pf).
  Notation fileHolds := (fileHolds toks pf).

  Lemma top_item : forall kw f sub, In (kw, (f, sub)) topItems -> isKeyword (b kw) = true /\ exists g, shapeFn ownFn g sub = true.
  Proof.
    assert (C : forallb (fun e => isKeyword (b (fst e)) && existsb (fun q => shapeFn ownFn (snd q) (snd (snd e))) allParsers) topItems = true) by (vm_compute; reflexivity).
    intros kw f sub I. rewrite forallb_forall in C. specialize (C _ I). cbn [fst snd] in C. apply andb_true_iff in C. destruct C as [C1 C2]. split; [exact C1|].
    apply existsb_exists in C2. destruct C2 as (q & _ & Q). eauto.
  Qed.
  Lemma top_fun : forall kw f sub f' sub', In (kw, (f, sub)) topItems -> In (kw, (f', sub')) topItems -> f = f' /\ sub = sub'.
  Proof.
    intros kw f sub f' sub' I I'. unfold topItems in I, I'.
    repeat (destruct I as [I|I]; [injection I as <- <- <-; repeat (destruct I' as [I'|I']; [first [discriminate I'|injection I' as <- <-; split; reflexivity]|]); destruct I'|]). destruct I.
  Qed.
  Lemma file_unique : forall i l l', fileHolds i l -> fileHolds i l' -> l = l'.
  Proof.
    intros i l l' H. revert l'. induction H as [i N|i l N K H IH|i kw f sub v k l IN T R H IH]; intros l' H'.
    - inversion H' as [|? ? N' _ _|? kw' f' sub' v' k' ? IN' T' _ _]; subst; [reflexivity|contradiction|]. rewrite N in T'. exfalso. apply (keyword_full (b kw')); [apply (top_item _ _ _ IN')|auto].
    - inversion H' as [? N'|? ? N' _ H1|? kw' f' sub' v' k' ? IN' T' _ _]; subst; [contradiction|apply IH; exact H1|]. rewrite T', (proj1 (top_item _ _ _ IN')) in K. discriminate.
    - inversion H' as [? N'|? ? N' K' _|? kw' f' sub' v' k' l1 IN' T' R' H1]; subst.
      + rewrite T in N'. exfalso. apply (keyword_full (b kw)); [apply (top_item _ _ _ IN)|exact N'].
      + rewrite T, (proj1 (top_item _ _ _ IN)) in K'. discriminate.
      + assert (kw = kw') as <- by (apply key_inj; congruence). destruct (top_fun _ _ _ _ _ IN IN') as [<- <-]. destruct (top_item _ _ _ IN) as (KW & g & SH).
        destruct (reads_fun toks pf EN g sub i v k v' k' SH) as [<- <-]; [rewrite T; apply keyword_full; exact KW|exact R|exact R'|]. f_equal. apply IH. exact H1.
  Qed.

  Lemma lastOf_cons : forall A (P : A -> Prop) a l x, lastOf P l x -> lastOf P (a :: l) x.
  Proof. intros A P a l x (l1 & l2 & -> & H). exists (a :: l1), l2. auto. Qed.

  Lemma exact_holds : forall i o o', exactFile toks pf i o o' -> exists l, fileHolds i l /\
      ((exists p k, lastOf (ofKind "/begin PROJECT") l p /\ fget "Project" o' = Some (m_val p) /\ reads projectExact (m_at p) (m_val p) k) \/
       ((forall p, In p l -> m_kw p <> "/begin PROJECT"%string) /\ fget "Project" o' = fget "Project" o)).
  Proof.
    intros i o o' H. induction H as [i o N|i o o' N K H IH|i kw f sub v k o o' IN T R H IH].
    - exists []. split; [constructor; exact N|]. right. split; [intros p []|reflexivity].
    - destruct IH as (l & F & X). exists l. split; [constructor; assumption|exact X].
    - destruct IH as (l & F & X). exists (Member kw i v :: l). split; [econstructor; eassumption|]. destruct X as [(p & e & L & Q & RR)|[NO Q]].
      + left. exists p, e. split; [apply lastOf_cons; exact L|]. auto.
      + destruct (String.eqb_spec kw "/begin PROJECT") as [->|NE].
        * left. exists (Member "/begin PROJECT" i v), k. destruct (top_fun _ _ _ "Project"%string projectExact IN) as [-> ->]; [unfold topItems; cbn [In]; auto|]. cbn [m_val m_at].
          split; [exists [], l; split; [reflexivity|split; [reflexivity|apply Forall_forall; exact NO]]|]. rewrite Q, fget_fset. auto.
        * right. split; [intros p [<-|I]; [exact NE|exact (NO _ I)]|]. rewrite Q, fget_fset. destruct (String.eqb_spec "Project" f) as [<-|]; [|reflexivity].
          exfalso. unfold topItems in IN. cbn [In] in IN. repeat (destruct IN as [IN|IN]; [congruence|]). destruct IN.
  Qed.

  Lemma module_item_sub : forall f p sub, In (Item "/begin MODULE" f p sub) (partsOf projectExact) -> sub = moduleExact.
  Proof.
    intros f p sub I. unfold projectExact, within_form, projectRead in I. cbn [partsOf map] in I.
    repeat (destruct I as [I|I]; [first [discriminate I|injection I as _ _ I; exact (eq_sym I)]|]). destruct I.
  Qed.

  (** the modules of the file, in their order *)
  Lemma modules_at : forall a, exactFile toks pf 0 [] a -> 
      (forall n v, nth_error (flist "Modules" (A2lLayoutModel.part "Project" a)) n = Some v -> exists i j, moduleAt toks pf n i /\ reads moduleExact i v j) /\
      (forall n i, moduleAt toks pf n i -> exists v j, nth_error (flist "Modules" (A2lLayoutModel.part "Project" a)) n = Some v /\ reads moduleExact i v j).
  Proof.
    intros a H. destruct (exact_holds _ _ _ H) as (lf & FH & [(p & k & LP & Q & RP)|[NO Q]]).
    - destruct (form_fields toks pf _ _ _ _ project_ok RP) as (o & lp & EV & HP & F).
      assert (FL : flist "Modules" (A2lLayoutModel.part "Project" a) = map m_val (filter (fun m => String.eqb (m_kw m) "/begin MODULE") lp)).
      { unfold A2lLayoutModel.part. rewrite Q, EV. unfold flist at 1. rewrite (F "Modules"%string) by (vm_compute; reflexivity).
        exact (several_members (partsOf projectExact) lp (newMaps (mapsIn projectExact)) "/begin MODULE" "Modules" ltac:(vm_compute; reflexivity) ltac:(vm_compute; reflexivity))%string. }
      rewrite FL.
      assert (RD : forall n q, nth_error (filter (fun m => String.eqb (m_kw m) "/begin MODULE") lp) n = Some q -> exists j, reads moduleExact (m_at q) (m_val q) j).
      { intros n q NQ. apply nth_error_In in NQ. apply filter_In in NQ. destruct NQ as [IQ KQ]. apply String.eqb_eq in KQ. destruct HP as (jp & C & _).
        destruct (member_reads _ _ _ _ _ _ _ C IQ) as (f & pl & sub & e & IT & _ & R). rewrite KQ in IT. rewrite (module_item_sub _ _ _ IT) in R. eauto. }
      split.
      + intros n v NV. rewrite nth_error_map in NV. destruct (nth_error (filter _ lp) n) as [q|] eqn:NQ; [|discriminate]. injection NV as <-. destruct (RD _ _ NQ) as (j & R).
        exists (m_at q), j. split; [|exact R]. exists lf, p, lp, q. auto.
      + intros n i (lf' & p' & lp' & q & FH' & LP' & HP' & NQ & <-). assert (lf' = lf) as -> by (eapply file_unique; eauto). rewrite (lastOf_fun _ _ _ _ _ LP' LP) in HP'.
        assert (lp' = lp) as -> by (eapply (holds_unique toks pf EN); eauto using project_ok, project_shaped). destruct (RD _ _ NQ) as (j & R). exists (m_val q), j. split; [|exact R].
        rewrite nth_error_map, NQ. reflexivity.
    - assert (FL : flist "Modules" (A2lLayoutModel.part "Project" a) = []) by (unfold A2lLayoutModel.part; rewrite Q; reflexivity). rewrite FL. split.
      + intros n v NV. destruct n; discriminate.
      + intros n i (lf' & p' & lp' & q & FH' & LP' & _). assert (lf' = lf) as -> by (eapply file_unique; eauto). destruct (lastOf_in _ _ _ _ LP') as [IP KP]. exfalso. exact (NO _ IP KP).
  Qed.
End File.

Lemma tokens_ended : forall gr cpus content t, fileTokens gr cpus content (Some t) -> ended (TokModel.tk_list t).
Proof. intros gr cpus content t T. destruct (A2lNestProps.C68_tokens _ _ _ T) as (t' & ET & (l & EL & _)). injection ET as <-. exists l. exact EL. Qed.

(** A file that is parsed by one goroutine and read without an error: module [n] of
    the tree is module [n] of the last project, and under each name exactly what is
    listed there is found. *)
Theorem C91_file : forall gr pf cpus content t a n i l hex k, fileTokens gr cpus content (Some t) -> TokModel.tk_multithreading t = false ->
    parseFromFile gr pf cpus (Some content) (Returned a false) -> moduleAt (TokModel.tk_list t) pf n i -> holdsAt (TokModel.tk_list t) pf moduleExact i l ->
    exists r, objectsByIdent (calibOf a n hex) k = Ok r /\ (forall x, In x r <-> listed (TokModel.tk_list t) pf l k x) /\ StronglySorted (fun x y => rank x < rank y) r.
Proof.
  intros gr pf cpus content t a n i l hex k T MT P M H. pose proof (tokens_ended _ _ _ _ T) as EN. apply (C89_file gr pf cpus content t a T MT) in P.
  destruct (proj2 (modules_at _ _ EN _ P) n i M) as (v & j & NV & R). eapply C91_module; eauto.
Qed.
Print Assumptions C91_file.

(** There is such a list for every module of the tree. *)
Theorem C91_modules : forall gr pf cpus content t a n, fileTokens gr cpus content (Some t) -> TokModel.tk_multithreading t = false ->
    parseFromFile gr pf cpus (Some content) (Returned a false) -> n < length (flist "Modules" (A2lLayoutModel.part "Project" a)) ->
    exists i l, moduleAt (TokModel.tk_list t) pf n i /\ holdsAt (TokModel.tk_list t) pf moduleExact i l.
Proof.
  intros gr pf cpus content t a n T MT P L. pose proof (tokens_ended _ _ _ _ T) as EN. apply (C89_file gr pf cpus content t a T MT) in P.
  apply nth_error_Some in L. destruct (nth_error _ n) as [v|] eqn:NV in L; [|congruence]. destruct (proj1 (modules_at _ _ EN _ P) n v NV) as (i & j & M & R).
  destruct (form_fields _ _ _ _ _ _ module_ok R) as (o & l & _ & H & _). eauto.
Qed.
Print Assumptions C91_modules.

(** ** Any file, parsed in whatever way: what is found stands in the file, under this name *)

Inductive standsThere (toks : list bytes) (pf : bytes -> option spec_float) (k : bytes) : LookModel.object val -> Prop :=
| st_object : forall kw key mk f sub i w j, In (kw, (key, mk)) lookedUp -> In (Item kw f (Under key) sub) moduleItems -> nth i toks [] = b kw ->
    reads toks pf (odd toks pf) sub i w j -> keyOf key w = k -> standsThere toks pf k (mk w)
| st_constant : forall i w j l c, nth i toks [] = b "/begin MOD_PAR" -> reads toks pf (odd toks pf) modParRead i w j -> holdsAt toks pf modParRead i l ->
    lastOf (called "SYSTEM_CONSTANT" "Name" k) l c -> standsThere toks pf k (SystemConstantO (constant (m_val c))).

Definition modulesExact (toks : list bytes) (pf : bytes -> option spec_float) (v : val) : Prop := exists o, v = VObj o /\ allReadExactly toks pf o.

Lemma all_modules_exact : forall gr pf cpus content a v, parseFromFile gr pf cpus (Some content) (Returned a false) -> In v (flist "Modules" (A2lLayoutModel.part "Project" a)) ->
    exists t, fileTokens gr cpus content (Some t) /\ modulesExact (TokModel.tk_list t) pf v.
Proof.
  intros gr pf cpus content a v P I. inversion P as [| |content' t a' e' j T A]; subst. exists t. split; [exact T|]. pose proof (tokens_ended _ _ _ _ T) as EN.
  exact (good_file _ _ _ (modulesExact (TokModel.tk_list t) pf) (fun i v j H => C89_module _ _ _ _ _ _ _ EN H) _ _ _ _ _ A ltac:(intros w []) v I).
Qed.

Theorem C91_found : forall gr pf cpus content a n hex k r x, parseFromFile gr pf cpus (Some content) (Returned a false) ->
    objectsByIdent (calibOf a n hex) k = Ok r -> In x r -> exists t, fileTokens gr cpus content (Some t) /\ standsThere (TokModel.tk_list t) pf k x.
Proof.
  intros gr pf cpus content a n hex k r x P O I. unfold objectsByIdent, GetObjectByIdent in O. destruct (nth_error (modulesOf (calibOf a n hex)) (ValuesModel.cd_index (calibOf a n hex))) as [mm|] eqn:NM; [|discriminate].
  unfold modulesOf in NM. rewrite nth_error_map in NM. cbn [calibOf ValuesModel.cd_modules ValuesModel.cd_index] in NM. destruct (nth_error (flist "Modules" (A2lLayoutModel.part "Project" a)) n) as [v|] eqn:NV; [|discriminate].
  injection NM as <-. destruct (all_modules_exact _ _ _ _ _ _ P (nth_error_In _ _ NV)) as (t & T & o & -> & A). exists t. split; [exact T|]. pose proof (tokens_ended _ _ _ _ T) as EN.
  cbn [objOf] in O. injection O as <-. revert I. rewrite !addFound_iff. unfold mapsOf.
  cbn [m_axisPts m_characteristics m_compuMethods m_compuTabs m_compuVTabs m_compuVTabRanges m_functions m_groups m_measurements m_recordLayouts m_systemConstants m_units].
  assert (G : forall kw f key mk sub w, In (kw, (key, mk)) lookedUp -> In (Item kw f (Under key) sub) moduleItems -> sfind k (fmap f o) = Some w -> standsThere (TokModel.tk_list t) pf k (mk w)).
  { intros kw f key mk sub w IL IM S. destruct (A kw f (Under key) sub IM) as (m & FM & M). rewrite sfind_mget in S. unfold fmap in S. rewrite FM in S.
    destruct (M _ _ (ValuesThm.mget_in _ _ _ S)) as (KE & i & j & TK & R). eapply st_object; eauto. }
  intros X. repeat match goal with H : _ \/ _ |- _ => destruct H as [H|(w & W & ->)] end; [destruct X|..];
    try (eapply G; [| |exact W]; [unfold lookedUp; cbn [In]; repeat (first [left; reflexivity|right])|unfold moduleItems, moduleExact, within_form, moduleRead; cbn [map In]; repeat (first [left; reflexivity|right])]).
  rewrite sfind_onValues in W. destruct (A2lModSpec.mget k (fmap "SystemConstants" (A2lLayoutModel.part "ModPar" o))) as [c|] eqn:MG; [|discriminate]. cbn [option_map] in W. injection W as <-.
  unfold A2lLayoutModel.part in MG. destruct (fget "ModPar" o) as [mp|] eqn:FM; [|discriminate MG].
  destruct (A "/begin MOD_PAR" "ModPar" Single modParRead ltac:(unfold moduleItems, moduleExact, within_form, moduleRead; cbn [map In]; repeat (first [left; reflexivity|right])) mp FM)%string as (i & j & TK & R).
  destruct (form_fields _ _ _ _ _ _ modPar_ok R) as (o' & l & -> & H & F). pose proof (proj1 (constants_at _ _ EN _ _ _ l k (constOf c) R H)) as CA.
  rewrite sfind_onValues in CA. cbn [objOf] in CA. rewrite MG in CA. destruct (CA eq_refl) as (c' & LC & ->). eapply st_constant; eauto.
Qed.
Print Assumptions C91_found.
