(** C90: conversions with any file that was read without an error. *)
From Coq Require Import String Ascii List Arith NArith ZArith Bool Lia SpecFloat.
From Verif Require Import GoBase GoBaseFacts A2lModStore A2lIR A2lSpec A2lParsers A2lFileThm A2lGrammar A2lForms A2lTripSpec A2lFormProps A2lProps.
From Verif Require Import FloatModel FloatSpec CompuModel CompuSpec CompuThm CompuProps LookModel TreeModel TreeSpec TreeThm TreeLook TreeConv.
From Verif Require Import A2lFileModel A2lFileSpec A2lExactSpec A2lExactProps A2lOddSpec A2lOddProps OriginProps.
From Verif Require A2lModSpec A2lModProps ValuesModel ValuesThm A2lLayoutModel A2lNestProps A2lTextModel TokModel TokThm A2lFileProps.
Import ListNotations.

(** ** The modules of a file *)

(** What is true of every module that is read without an error is true of the modules of a
    file that is read without one. *)
Section Modules.
  Variable toks : list bytes.
  Variable pf : bytes -> option spec_float.
  Variable module : nat -> val -> bool -> nat -> Prop.
  Variable good : val -> Prop.
  Hypothesis all : forall i v j, module i v false j -> good v.
  Definition goodProject (p : fields) : Prop := forall m, In m (flist "Modules" p) -> good m.
  Lemma good_set : forall p f v, f <> "Modules"%string -> goodProject p -> goodProject (fset f v p).
  Proof.
    intros p f v N M m I. apply M. unfold flist in *. rewrite fget_fset in I.
    destruct (String.eqb_spec "Modules" f); [congruence|exact I].
  Qed.
  Lemma good_project : forall p i p' e j, project toks pf module p i p' e j -> goodProject p -> goodProject p'.
  Proof.
    intros p i p' e j H. induction H as [p i v j p' e k T R _ IH|p i v j T R|p i v j p' e k T R _ IH|p i v j T R|p i q p' e k N1 N2 O _ IH|p i e N1 N2 O]; intros S1.
    - apply IH. apply good_set; [discriminate|exact S1].
    - apply good_set; [discriminate|exact S1].
    - apply IH. intros m I. unfold flist in I at 1. rewrite fget_fset in I. change (String.eqb "Modules" "Modules") with true in I. cbv iota in I. apply in_app_or in I.
      destruct I as [I|[<-|[]]]; [exact (S1 _ I)|exact (all _ _ _ R)].
    - exact S1.
    - apply IH. unfold projectOther in O. repeat match type of O with (if ?c then _ else _) = _ => destruct c; try discriminate end; injection O as <-; auto;
        (apply good_set; [discriminate|apply good_set; [discriminate|exact S1]]).
    - exact S1.
  Qed.
  Definition goodFile (a : fields) : Prop := goodProject (A2lLayoutModel.part "Project" a).
  Lemma good_file : forall a i a' e j, a2l toks pf module a i a' e j -> goodFile a -> goodFile a'.
  Proof.
    assert (PT : forall t i f v e j a, part toks pf module t i f v e j -> goodFile a -> goodFile (fset f v a)).
    { intros t i f v e j a P S0. unfold goodFile, A2lLayoutModel.part in *. destruct P as [i v e j R|i v e j R|i p e j R]; rewrite fget_fset.
      - exact S0.
      - exact S0.
      - change (String.eqb "Project" "Project") with true. cbv iota. apply (good_project _ _ _ _ _ R). intros m []. }
    intros a i a' e j H. induction H as [a i f v j a' e k P _ IH|a i f v j P|a i q a' e k N O _ IH|a i e N O]; intros S1.
    - apply IH. exact (PT _ _ _ _ _ _ _ P S1).
    - exact (PT _ _ _ _ _ _ _ P S1).
    - apply IH. unfold a2lOther in O. repeat match type of O with (if ?c then _ else _) = _ => destruct c; try discriminate end. injection O as <-. exact S1.
    - exact S1.
  Qed.
End Modules.

(** ** The tables of a module *)

Definition tablesOk (m : fields) : Prop :=
  (forall k w, In (k, w) (fmap "CompuTabs" m) -> exists o n full, w = VObj o /\ columns "NumberValuePairs" numberColumns o n full) /\
  (forall k w, In (k, w) (fmap "CompuVTabs" m) -> exists o n full, w = VObj o /\ columns "NumberValuePairs" numberColumns o n full) /\
  (forall k w, In (k, w) (fmap "CompuVTabRanges" m) -> exists o n full, w = VObj o /\ columns "NumberValueTriples" rangeColumns o n full).

Lemma own_reads : forall toks pf kw ms ps g its stop cs name h v, ended toks -> In (stop, (name, h)) ownParsers -> b kw <> [] ->
    (exists i j, nth i toks [] = b kw /\ reads toks pf (odd toks pf) (Block ms ps g its stop cs) i v j) ->
    exists i j, nth i toks [] <> [] /\ returns toks pf h i v false j.
Proof.
  intros toks pf kw ms ps g its stop cs name h v EN I NE (i & j & T & R). exists i, j.
  assert (N : nth i toks [] <> []) by (rewrite T; exact NE). split; [exact N|].
  assert (SP : In stop special) by (unfold ownParsers in I; cbn [In] in I; repeat destruct I as [I|I]; try (injection I as <- _ _; unfold special; cbn [In]; repeat (first [left; reflexivity|right])); destruct I).
  inversion R; subst; [contradiction|]. apply (C89_odd toks pf stop name h i v j EN N I). assumption.
Qed.
Ltac own_form := unfold ownParsers; cbn [In]; repeat (first [left; reflexivity|right]).
Ltac module_item k := apply (nth_error_In moduleItems k); reflexivity.

Lemma module_tables : forall toks pf np mt i v j, ended toks -> parsesModule toks pf np mt i v false j -> exists o, v = VObj o /\ tablesOk o.
Proof.
  intros toks pf np mt i v j EN H. destruct (C89_module _ _ _ _ _ _ _ EN H) as (o & -> & A). exists o. split; [reflexivity|].
  split; [|split]; intros k w I.
  - destruct (A "/begin COMPU_TAB" "CompuTabs" (Under "Name") compuTabForm ltac:(module_item 5))%string as (m & F & M). unfold fmap in I. rewrite F in I. destruct (M _ _ I) as [_ R].
    apply (own_reads _ _ "/begin COMPU_TAB" _ _ _ _ _ _ "parseCompuTab" parseCompuTab _ EN ltac:(own_form) ltac:(discriminate)) in R. destruct R as (i0 & j0 & N & R). exact (proj1 (C89_columns _ _ _ _ _ EN N) R).
  - destruct (A "/begin COMPU_VTAB" "CompuVTabs" (Under "Name") compuVtabForm ltac:(module_item 6))%string as (m & F & M). unfold fmap in I. rewrite F in I. destruct (M _ _ I) as [_ R].
    apply (own_reads _ _ "/begin COMPU_VTAB" _ _ _ _ _ _ "parseCompuVtab" parseCompuVtab _ EN ltac:(own_form) ltac:(discriminate)) in R. destruct R as (i0 & j0 & N & R). exact (proj1 (proj2 (C89_columns _ _ _ _ _ EN N)) R).
  - destruct (A "/begin COMPU_VTAB_RANGE" "CompuVTabRanges" (Under "Name") compuVtabRangeForm ltac:(module_item 7))%string as (m & F & M). unfold fmap in I. rewrite F in I. destruct (M _ _ I) as [_ R].
    apply (own_reads _ _ "/begin COMPU_VTAB_RANGE" _ _ _ _ _ _ "parseCompuVtabRange" parseCompuVtabRange _ EN ltac:(own_form) ltac:(discriminate)) in R. destruct R as (i0 & j0 & N & R). exact (proj2 (proj2 (C89_columns _ _ _ _ _ EN N)) R).
Qed.

(** ** Conversions *)

(** [hits dec ins k]: the first entry of the column that equals [dec] is entry [k]. *)
Definition hits (dec : f64) (ins : list val) (k : nat) : Prop :=
  (exists v, nth_error ins k = Some v /\ feqb dec (floatOf v) = true) /\
  forall k' v, k' < k -> nth_error ins k' = Some v -> feqb dec (floatOf v) = false.

Lemma search_hits : forall A dec ins (outs : list A) i k, hits dec ins k ->
    searchLoop dec (map floatOf ins) outs i = Some (match nth_error outs (i + k) with Some s => Ret s None | None => CPanic end).
Proof.
  intros A dec ins. induction ins as [|x ins IH]; intros outs i k [(v & E & Q) B].
  - destruct k; discriminate.
  - cbn [map searchLoop]. destruct k as [|k].
    + cbn in E. injection E as ->. rewrite Q, Nat.add_0_r. reflexivity.
    + rewrite (B 0 x); [|lia|reflexivity]. replace (i + S k) with (i + 1 + k) by lia. apply IH. split; [exists v; auto|].
      intros k' w L W. apply (B (S k') w); [lia|exact W].
Qed.
Lemma search_misses : forall A dec ins (outs : list A) i, (forall k, ~ hits dec ins k) -> searchLoop dec (map floatOf ins) outs i = None.
Proof.
  intros A dec ins. induction ins as [|x ins IH]; intros outs i H; [reflexivity|]. cbn [map searchLoop]. destruct (feqb dec (floatOf x)) eqn:Q.
  - exfalso. apply (H 0). split; [exists x; auto|]. intros k' v L. lia.
  - apply IH. intros k [(v & E & Q') B]. apply (H (S k)). split; [exists v; auto|]. intros k' w L W. destruct k' as [|k']; [cbn in W; congruence|]. apply (B k' w); [lia|exact W].
Qed.
Lemma hits_dec : forall dec ins, (exists k, hits dec ins k) \/ (forall k, ~ hits dec ins k).
Proof.
  intros dec ins. induction ins as [|x ins IH].
  - right. intros k [(v & E & _) _]. destruct k; discriminate.
  - destruct (feqb dec (floatOf x)) eqn:Q.
    + left. exists 0. split; [exists x; auto|]. intros k' v L. lia.
    + destruct IH as [(k & (v & E & Q') & B)|IH].
      * left. exists (S k). split; [exists v; auto|]. intros k' w L W. destruct k' as [|k']; [cbn in W; congruence|]. apply (B k' w); [lia|exact W].
      * right. intros k [(v & E & Q') B]. destruct k as [|k]; [cbn in E; congruence|]. apply (IH k). split; [exists v; auto|].
        intros k' w L W. apply (B (S k') w); [lia|exact W].
Qed.


(** [chosenFrom gr pf cpus content cd m]: the chosen module [m] of [cd] is one of a file
    with this content, which was read without an error. *)
Definition chosenFrom (gr : N -> bool) (pf : bytes -> option spec_float) (cpus : nat) (content : bytes) (cd : ValuesModel.calib) (m : fields) : Prop :=
  exists a n hex, parseFromFile gr pf cpus (Some content) (Returned a false) /\ cd = calibOf a n hex /\
    nth_error (flist "Modules" (A2lLayoutModel.part "Project" a)) n = Some (VObj m).

Lemma chosen_tables : forall gr pf cpus content cd m, chosenFrom gr pf cpus content cd m -> ValuesModel.theModule cd = Some m /\ tablesOk m.
Proof.
  intros gr pf cpus content cd m (a & n & hex & P & -> & N). split.
  - unfold ValuesModel.theModule, calibOf. cbn [ValuesModel.cd_modules ValuesModel.cd_index]. rewrite N. reflexivity.
  - inversion P as [| |content' t a' e' j T A]; subst.
    destruct (A2lNestProps.C68_tokens _ _ _ T) as (t' & ET & (l & EL & _)). injection ET as <-.
    assert (EN : ended (TokModel.tk_list t)) by (exists l; exact EL).
    pose proof (good_file _ _ _ (fun v => exists o, v = VObj o /\ tablesOk o) (fun i v j H => module_tables _ _ _ _ _ _ _ EN H) _ _ _ _ _ A) as G.
    destruct (G ltac:(intros w []) _ (nth_error_In _ _ N)) as (o & E & K). injection E as <-. exact K.
Qed.

(** The index of a module that exists. *)
Lemma chosen_exists : forall gr pf cpus content a n hex, parseFromFile gr pf cpus (Some content) (Returned a false) ->
    n < length (flist "Modules" (A2lLayoutModel.part "Project" a)) -> exists m, chosenFrom gr pf cpus content (calibOf a n hex) m.
Proof.
  intros gr pf cpus content a n hex P L. destruct (nth_error (flist "Modules" (A2lLayoutModel.part "Project" a)) n) as [v|] eqn:E; [|apply nth_error_None in E; lia].
  assert (X : exists m, v = VObj m).
  { inversion P as [| |content' t a' e' j T A]; subst. destruct (A2lNestProps.C68_tokens _ _ _ T) as (t' & ET & (l & EL & _)). injection ET as <-.
    assert (EN : ended (TokModel.tk_list t)) by (exists l; exact EL).
    pose proof (good_file _ _ _ (fun v => exists o, v = VObj o /\ tablesOk o) (fun i v j H => module_tables _ _ _ _ _ _ _ EN H) _ _ _ _ _ A) as G.
    destruct (G ltac:(intros w []) _ (nth_error_In _ _ E)) as (o & -> & _). eauto. }
  destruct X as (m & ->). exists m, a, n, hex. auto.
Qed.

Definition orElse {A} (d : option A) (r : cres A) : cres A := match d with Some x => Ret x None | None => r end.
(** the default of a table *)
Definition defaultText (o : fields) : option bytes :=
  if fbool "DisplayStringSet" (A2lLayoutModel.part "DefaultValue" o) then Some (fstr "DisplayString" (A2lLayoutModel.part "DefaultValue" o)) else None.
Definition defaultNumber (o : fields) : option f64 :=
  if fbool "DisplayValueSet" (A2lLayoutModel.part "DefaultValueNumeric" o) then Some (ffloat "DisplayValue" (A2lLayoutModel.part "DefaultValueNumeric" o)) else None.

(** ** Verbal tables *)
Theorem C90_verbal : forall gr pf cpus content cd m dec cv, chosenFrom gr pf cpus content cd m ->
    (A2lModSpec.mget (fstr "Name" (objOf cv)) (fmap "CompuVTabs" m) = None -> verbalOf dec cv cd = Ret [] (Some CNoTable)) /\
    forall w, A2lModSpec.mget (fstr "Name" (objOf cv)) (fmap "CompuVTabs" m) = Some w -> exists o, w = VObj o /\
      let ins := flist "InVal" o in
      (length ins <> limit (fint "NumberValuePairs" o) -> verbalOf dec cv cd = Ret [] (Some CNoOutput)) /\
      (length ins = limit (fint "NumberValuePairs" o) ->
         (forall k, hits dec ins k -> exists t, nth_error (flist "OutVal" o) k = Some t /\ verbalOf dec cv cd = Ret (textOf t) None) /\
         ((forall k, ~ hits dec ins k) -> verbalOf dec cv cd = orElse (defaultText o) (Ret [] (Some CNoDefault)))).
Proof.
  intros gr pf cpus content cd m dec cv CH. destruct (chosen_tables _ _ _ _ _ _ CH) as (EM & _ & VT & _).
  unfold verbalOf, calcTabVerb, tablesOf. rewrite EM. cbn [mod_vtabs]. rewrite sfind_onValues. split.
  - intros ->. reflexivity.
  - intros w W. destruct (VT _ _ (ValuesThm.mget_in _ _ _ W)) as (o & n & full & -> & C & _ & _ & FU). exists o. split; [reflexivity|]. rewrite W. cbn [option_map]. cbv zeta.
    destruct (C "InVal" "InValSet" ltac:(left; reflexivity))%string as [LI FI]. destruct (C "OutVal" "OutValSet" ltac:(right; left; reflexivity))%string as [LO FO].
    unfold vtabOf. cbn [objOf cv_in cv_inSet cv_out cv_outSet cv_default cv_defaultSet]. rewrite FI, FO. rewrite LI. split.
    + intros NE. destruct full; [exfalso; apply NE, FU; reflexivity|]. reflexivity.
    + intros E. rewrite (proj2 FU E). cbn [andb]. split.
      * intros k H. rewrite (search_hits _ _ _ _ _ _ H). cbn [Nat.add]. destruct (nth_error (flist "OutVal" o) k) as [t|] eqn:NE.
        -- exists t. split; [reflexivity|]. rewrite nth_error_map, NE. reflexivity.
        -- exfalso. apply nth_error_None in NE. destruct H as [(x & X & _) _]. assert (k < length (flist "InVal" o)) by (apply nth_error_Some; congruence). lia.
      * intros H. rewrite (search_misses _ _ _ _ _ H). unfold orElse, defaultText. match goal with |- context [if fbool ?f ?x then Some _ else _] => destruct (fbool f x) end; reflexivity.
Qed.
Print Assumptions C90_verbal.

(** ** Tables of numbers *)
Theorem C90_table : forall gr pf cpus content cd m dec cm, chosenFrom gr pf cpus content cd m -> fstr "ConversionType" (objOf cm) = b "TAB_NOINTP" ->
    let name := fstr "ConversionTable" (A2lLayoutModel.part "CompuTabRef" (objOf cm)) in
    (A2lModSpec.mget name (fmap "CompuTabs" m) = None -> decToPhy dec cm cd = Ret dec (Some CNoOutput)) /\
    forall w, A2lModSpec.mget name (fmap "CompuTabs" m) = Some w -> exists o, w = VObj o /\
      let ins := flist "InVal" o in
      (length ins <> limit (fint "NumberValuePairs" o) -> decToPhy dec cm cd = orElse (defaultNumber o) (Ret dec (Some CNoOutput))) /\
      (length ins = limit (fint "NumberValuePairs" o) ->
         (forall k, hits dec ins k -> exists t, nth_error (flist "OutVal" o) k = Some t /\ decToPhy dec cm cd = Ret (floatOf t) None) /\
         ((forall k, ~ hits dec ins k) -> decToPhy dec cm cd = orElse (defaultNumber o) (Ret dec (Some CNoDefault)))).
Proof.
  intros gr pf cpus content cd m dec cm CH TY. cbv zeta. destruct (chosen_tables _ _ _ _ _ _ CH) as (EM & TT & _).
  unfold decToPhy. rewrite EM. unfold convDecToPhy, methodOf. cbn [cm_type]. rewrite TY. change (conversionOf (b "TAB_NOINTP")) with TabNointp. cbv iota.
  unfold calcTabNoIntp, tablesOf. cbn [mod_tabs cm_tabRef]. rewrite sfind_onValues. split.
  - intros ->. reflexivity.
  - intros w W. destruct (TT _ _ (ValuesThm.mget_in _ _ _ W)) as (o & n & full & -> & C & _ & _ & FU). exists o. split; [reflexivity|]. rewrite W. cbn [option_map].
    destruct (C "InVal" "InValSet" ltac:(left; reflexivity))%string as [LI FI]. destruct (C "OutVal" "OutValSet" ltac:(right; left; reflexivity))%string as [LO FO].
    unfold tabOf. cbn [objOf ct_in ct_inSet ct_out ct_outSet ct_default ct_defaultSet]. rewrite FI, FO. rewrite LI. split.
    + intros NE. destruct full; [exfalso; apply NE, FU; reflexivity|]. unfold orElse, defaultNumber. cbn [andb]. match goal with |- context [if fbool ?f ?x then Some _ else _] => destruct (fbool f x) end; reflexivity.
    + intros E. rewrite (proj2 FU E). cbn [andb]. split.
      * intros k H. rewrite (search_hits _ _ _ _ _ _ H). cbn [Nat.add]. destruct (nth_error (flist "OutVal" o) k) as [t|] eqn:NE.
        -- exists t. split; [reflexivity|]. rewrite nth_error_map, NE. reflexivity.
        -- exfalso. apply nth_error_None in NE. destruct H as [(x & X & _) _]. assert (k < length (flist "InVal" o)) by (apply nth_error_Some; congruence). lia.
      * intros H. rewrite (search_misses _ _ _ _ _ H). unfold orElse, defaultNumber. match goal with |- context [if fbool ?f ?x then Some _ else _] => destruct (fbool f x) end; reflexivity.
Qed.
Print Assumptions C90_table.

(** ** Tables of ranges: never a row; a panic exactly when rows are missing *)
Theorem C90_range_refuted : forall gr pf cpus content cd m dec cvr, chosenFrom gr pf cpus content cd m ->
    (A2lModSpec.mget (fstr "Name" (objOf cvr)) (fmap "CompuVTabRanges" m) = None -> rangeTextOf dec cvr cd = Ret [] (Some CNoTable)) /\
    forall w, A2lModSpec.mget (fstr "Name" (objOf cvr)) (fmap "CompuVTabRanges" m) = Some w -> exists o, w = VObj o /\
      let rows := Z.of_nat (length (flist "OutVal" o)) in
      (fbool "NumberValueTriplesSet" o = false -> rangeTextOf dec cvr cd = Ret [] (Some CNoOutput)) /\
      (fbool "NumberValueTriplesSet" o = true -> (rows < fint "NumberValueTriples" o)%Z -> rangeTextOf dec cvr cd = CPanic) /\
      (fbool "NumberValueTriplesSet" o = true -> (fint "NumberValueTriples" o <= rows)%Z -> rangeTextOf dec cvr cd = orElse (defaultText o) (Ret [] (Some CNoDefault))).
Proof.
  intros gr pf cpus content cd m dec cvr CH. destruct (chosen_tables _ _ _ _ _ _ CH) as (EM & _ & _ & RT).
  unfold rangeTextOf, calcTabVerbRange, tablesOf. rewrite EM. cbn [mod_ranges]. rewrite sfind_onValues. split.
  - intros ->. reflexivity.
  - intros w W. destruct (RT _ _ (ValuesThm.mget_in _ _ _ W)) as (o & n & full & -> & C & RG & _ & _). exists o. split; [reflexivity|]. rewrite W. cbn [option_map]. cbv zeta.
    destruct (C "InValMin" "InValMinSet" ltac:(cbn; auto))%string as [LI _]. destruct (C "OutVal" "OutValSet" ltac:(cbn; auto))%string as [LO _].
    split; [|split].
    + intros F. unfold rangeOf at 1. cbn [objOf cr_numberSet]. rewrite F. reflexivity.
    + intros F L. unfold rangeOf at 1. cbn [objOf cr_numberSet]. rewrite F. apply rangeLoop_short; unfold rangeOf; cbn [objOf cr_min cr_number]; rewrite map_length; lia.
    + intros F L. unfold rangeOf at 1. cbn [objOf cr_numberSet]. rewrite F. rewrite rangeLoop_never by (unfold rangeOf; cbn [objOf cr_min cr_number]; rewrite map_length; lia).
      unfold rangeOf, orElse, defaultText. cbn [objOf cr_defaultSet cr_default]. match goal with |- context [if fbool ?f ?x then Some _ else _] => destruct (fbool f x) end; reflexivity.
Qed.
Print Assumptions C90_range_refuted.

(** ** No panic *)
Theorem C90_no_panic : forall gr pf cpus content a n hex dec v, parseFromFile gr pf cpus (Some content) (Returned a false) ->
    n < length (flist "Modules" (A2lLayoutModel.part "Project" a)) ->
    decToPhy dec v (calibOf a n hex) <> CPanic /\ verbalOf dec v (calibOf a n hex) <> CPanic.
Proof.
  intros gr pf cpus content a n hex dec v P L. destruct (chosen_exists gr pf cpus content a n hex P L) as (m & CH). split.
  - destruct (beqb (fstr "ConversionType" (objOf v)) (b "TAB_NOINTP")) eqn:TY.
    + apply beqb_eq in TY. destruct (C90_table _ _ _ _ _ _ dec v CH TY) as [NO SO]. destruct (A2lModSpec.mget _ _) as [w|].
      * destruct (SO w eq_refl) as (o & -> & SH & FU). destruct (Nat.eq_dec (length (flist "InVal" o)) (limit (fint "NumberValuePairs" o))) as [E|E].
        -- destruct (FU E) as [HI MI]. destruct (hits_dec dec (flist "InVal" o)) as [(k & H)|H].
           ++ destruct (HI k H) as (t & _ & ->). discriminate.
           ++ rewrite (MI H). unfold orElse. destruct (defaultNumber o); discriminate.
        -- rewrite (SH E). unfold orElse. destruct (defaultNumber o); discriminate.
      * rewrite NO by reflexivity. discriminate.
    + destruct (chosen_tables _ _ _ _ _ _ CH) as (EM & _). unfold decToPhy. rewrite EM. unfold convDecToPhy.
      assert (NT : cm_type (methodOf v) <> TabNointp).
      { unfold methodOf. cbn [cm_type]. intros E. unfold conversionOf in E. cbn [ValuesModel.named] in E.
        repeat match type of E with (if ?c then _ else _) = _ => let Q := fresh in destruct c eqn:Q; [first [discriminate E|congruence]|] end. discriminate E. }
      destruct (cm_type (methodOf v)); try discriminate; try contradiction.
      * destruct (negb _); discriminate.
      * destruct (negb _); [discriminate|]. pose proof (ratfunc_no_panic dec (methodOf v)). destruct (calcRatFunc dec (methodOf v)) as [? [|]|]; [discriminate|discriminate|contradiction].
  - destruct (C90_verbal _ _ _ _ _ _ dec v CH) as [NO SO]. destruct (A2lModSpec.mget _ _) as [w|].
    + destruct (SO w eq_refl) as (o & -> & SH & FU). destruct (Nat.eq_dec (length (flist "InVal" o)) (limit (fint "NumberValuePairs" o))) as [E|E].
      * destruct (FU E) as [HI MI]. destruct (hits_dec dec (flist "InVal" o)) as [(k & H)|H].
        -- destruct (HI k H) as (t & _ & ->). discriminate.
        -- rewrite (MI H). unfold orElse. destruct (defaultText o); discriminate.
      * rewrite (SH E). discriminate.
    + rewrite NO by reflexivity. discriminate.
Qed.
Print Assumptions C90_no_panic.

(** ** Example: a file with a complete table of texts and two tables that lack a row *)
Definition tableFile : bytes := b
  "ASAP2_VERSION 1 60 /begin PROJECT p q /begin MODULE m n /begin COMPU_TAB T t TAB_NOINTP 2 1 10 DEFAULT_VALUE_NUMERIC 99 /end COMPU_TAB /begin COMPU_VTAB V t TAB_VERB 2 1 on 2 off /end COMPU_VTAB /begin COMPU_VTAB_RANGE R t 2 0 10 low /end COMPU_VTAB_RANGE /end MODULE /begin MODULE m n /end MODULE /end PROJECT".
Definition tableTokens : list bytes := map b
  ["ASAP2_VERSION"; "1"; "60"; "/begin PROJECT"; "p"; "q"; "/begin MODULE"; "m"; "n";
   "/begin COMPU_TAB"; "T"; "t"; "TAB_NOINTP"; "2"; "1"; "10"; "DEFAULT_VALUE_NUMERIC"; "99"; "/end COMPU_TAB";
   "/begin COMPU_VTAB"; "V"; "t"; "TAB_VERB"; "2"; "1"; "on"; "2"; "off"; "/end COMPU_VTAB";
   "/begin COMPU_VTAB_RANGE"; "R"; "t"; "2"; "0"; "10"; "low"; "/end COMPU_VTAB_RANGE"; "/end MODULE";
   "/begin MODULE"; "m"; "n"; "/end MODULE"; "/end PROJECT"; ""]%string.
Definition namedTable (s : string) : val := VObj [("Name", VStr (b s))]%string.
Definition tableMethod : val := VObj [("ConversionType", VStr (b "TAB_NOINTP")); ("CompuTabRef", VObj [("ConversionTable", VStr (b "T"))])]%string.
Ltac table_run T := apply (A2lFileProps.C65_sequential _ smallFloat 1 tableFile _ _ T eq_refl); do 3 eexists; split; [reflexivity|apply (A2lModProps.returns_run 80); vm_compute; reflexivity].
Example C90_example : exists a, forall gr, parseFromFile gr smallFloat 1 (Some tableFile) (Returned a false) /\
  0 < length (flist "Modules" (A2lLayoutModel.part "Project" a)) /\
  forall hex, (exists m, chosenFrom gr smallFloat 1 tableFile (calibOf a 0 hex) m) /\
    decToPhy (f_of_Z 1) tableMethod (calibOf a 0 hex) = Ret (f_of_Z 99) None /\
    verbalOf (f_of_Z 2) (namedTable "V") (calibOf a 0 hex) = Ret (b "off") None /\
    rangeTextOf (f_of_Z 5) (namedTable "R") (calibOf a 0 hex) = CPanic.
Proof.
  eexists. intros gr.
  assert (T : fileTokens gr 1 tableFile (Some (TokModel.Tokens tableTokens false))).
  { unfold fileTokens. change (1 * 2) with 2. replace (A2lTextModel.cleanBytesString gr tableFile) with tableFile by (vm_compute; reflexivity).
    apply (proj2 (TokThm.exec_lex 2 tableFile _)). vm_compute. reflexivity. }
  split; [table_run T|]. split; [vm_compute; lia|]. intros hex. split; [eapply chosen_exists; [table_run T|vm_compute; lia]|].
  split; [vm_compute; reflexivity|]. split; vm_compute; reflexivity.
Qed.
