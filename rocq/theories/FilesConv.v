(** C80: the remaining conversions, from the bytes of both files. *)
From Coq Require Import String Ascii List Arith NArith ZArith Bool SpecFloat Lia.
From Verif Require Import GoBase HexSpec IhexSpec IhexModel MemModel MemSpec CalibModel CalibFileModel A2lIR A2lGrammar A2lForms A2lTextProps A2lFileSpec A2lTripSpec A2lTripThm A2lTripProps
  FloatModel FloatSpec FloatArith CompuModel CompuSpec ValuesModel ValuesSpec TreeModel TreeSpec TreeThm TreeLook TreeConv TreeLayoutSpec TreeLayout FilesSpec FilesThm FilesProps.
From Verif Require IhexProps IhexThm.
Import ListNotations.

(** What holds of every calibration whose chosen module consists of [lm] holds of
    the one that is read, if no function of the package is needed to see it. *)
Lemma always_chosen : forall gr pf cpus ts path content img (P : nat -> list entry -> calib -> Prop), 0 < cpus -> a2lText gr pf cpus ts -> hexText path content img ->
    (forall n lm cd cd', chosen pf cd' lm -> alike cd' cd -> P n lm cd) ->
    always (calibration gr pf cpus true (Some (write ts)) path (Some content)) (fun r => readAs pf ts img r P).
Proof.
  intros gr pf cpus ts path content img P CP A H Q. destruct (C80_files gr pf cpus ts path content img CP A H) as [E R]. split; [exact E|]. intros r HR.
  destruct (R r HR) as (a & m & -> & M & F). exists a, m. split; [reflexivity|]. split; [exact M|]. intros n words lm FM HM.
  destruct (F n words lm FM HM) as (cd & CH & _ & AL). exact (Q n lm _ cd CH AL).
Qed.

Lemma method_den : forall pf cd lm km em, chosen pf cd lm -> lastSuch (isNamed "/begin COMPU_METHOD" km) lm em -> den pf compuMethodForm (e_words em) (e_val em).
Proof.
  intros pf cd lm km em CH LM. exact (chosen_den _ _ _ "/begin COMPU_METHOD" compuMethodForm _ _ CH ltac:(modForm_) LM (proj1 (proj2 (lastSuch_in _ _ _ LM)))).
Qed.

(** IDENTICAL: the value itself *)
Theorem C80_identical : forall gr pf cpus ts path content img, 0 < cpus -> a2lText gr pf cpus ts -> hexText path content img ->
    always (calibration gr pf cpus true (Some (write ts)) path (Some content))
      (fun r => readAs pf ts img r (fun n lm cd => forall km em l dec,
         lastSuch (isNamed "/begin COMPU_METHOD" km) lm em -> methodHas pf (e_words em) "IDENTICAL" l -> decToPhy dec (e_val em) cd = Ret dec None)).
Proof.
  intros gr pf cpus ts path content img CP A H. apply always_chosen; [exact CP|exact A|exact H|]. intros n lm cd cd' CH AL km em l dec LM MH.
  rewrite <- (al_phy _ _ AL). exact (C71_identical pf _ _ l dec cd' (method_den _ _ _ _ _ CH LM) MH).
Qed.
Print Assumptions C80_identical.

(** LINEAR with COEFFS_LINEAR a b: a * dec + b in float64, and without rounding for
    integers below 2^53. *)
Theorem C80_linear : forall gr pf cpus ts path content img, 0 < cpus -> a2lText gr pf cpus ts -> hexText path content img ->
    always (calibration gr pf cpus true (Some (write ts)) path (Some content))
      (fun r => readAs pf ts img r (fun n lm cd => forall km em l ta tb A B dec,
         lastSuch (isNamed "/begin COMPU_METHOD" km) lm em -> methodHas pf (e_words em) "LINEAR" l ->
         lastWords "COEFFS_LINEAR" l (Some [ta; tb]) -> pf ta = Some A -> pf tb = Some B ->
         decToPhy dec (e_val em) cd = Ret (fadd (fmul A dec) B) None
         /\ forall a b_ x, isint A a -> isint B b_ -> isint dec x -> (Z.abs (a * x) < 2 ^ 53)%Z -> (Z.abs (a * x + b_) < 2 ^ 53)%Z ->
              exists v, decToPhy dec (e_val em) cd = Ret v None /\ isint v (a * x + b_))).
Proof.
  intros gr pf cpus ts path content img CP A H. apply always_chosen; [exact CP|exact A|exact H|]. intros n lm cd cd' CH AL km em l ta tb A0 B dec LM MH LW HA HB.
  rewrite <- (al_phy _ _ AL). pose proof (method_den _ _ _ _ _ CH LM) as DM. split.
  - exact (C71_linear pf _ _ l ta tb A0 B dec cd' DM MH LW HA HB).
  - intros a b_ x IA IB IX B1 B2. exact (C71_linear_exact pf _ _ l ta tb A0 B dec cd' a b_ x DM MH LW HA HB IA IB IX B1 B2).
Qed.
Print Assumptions C80_linear.

(** RAT_FUNC with a = d = 0, the usual way to write a linear conversion: an error for
    every finite value. *)
Theorem C80_ratfunc_refuted : forall gr pf cpus ts path content img, 0 < cpus -> a2lText gr pf cpus ts -> hexText path content img ->
    always (calibration gr pf cpus true (Some (write ts)) path (Some content))
      (fun r => readAs pf ts img r (fun n lm cd => forall km em l ta tb tc td te tf B C E F sa sd dec,
         lastSuch (isNamed "/begin COMPU_METHOD" km) lm em -> methodHas pf (e_words em) "RAT_FUNC" l ->
         lastWords "COEFFS" l (Some [ta; tb; tc; td; te; tf]) ->
         pf ta = Some (S754_zero sa) -> pf tb = Some B -> pf tc = Some C -> pf td = Some (S754_zero sd) -> pf te = Some E -> pf tf = Some F ->
         fval dec <> None -> decToPhy dec (e_val em) cd = Ret dec (Some CZeroDiv))).
Proof.
  intros gr pf cpus ts path content img CP A H. apply always_chosen; [exact CP|exact A|exact H|]. intros n lm cd cd' CH AL km em l ta tb tc td te tf B C E F sa sd dec LM MH LW HA HB HC HD HE HF FV.
  rewrite <- (al_phy _ _ AL). exact (C71_ratfunc_refuted pf _ _ l ta tb tc td te tf B C E F sa sd dec cd' (method_den _ _ _ _ _ CH LM) MH LW HA HB HC HD HE HF FV).
Qed.
Print Assumptions C80_ratfunc_refuted.

(** Verbal tables: the text of the first row with the value, else the default. *)
Theorem C80_verbal : forall gr pf cpus ts path content img, 0 < cpus -> a2lText gr pf cpus ts -> hexText path content img ->
    always (calibration gr pf cpus true (Some (write ts)) path (Some content))
      (fun r => readAs pf ts img r (fun n lm cd => forall k e rows lt nums d dec,
         lastSuch (isNamed "/begin COMPU_VTAB" k) lm e -> tableHas pf compuVtabForm "/end COMPU_VTAB" (e_words e) rows lt ->
         Forall2 (fun r p => pf (fst r) = Some (fst p) /\ snd r = snd p) rows nums -> defaultOf Some "DEFAULT_VALUE" lt d ->
         canon dec -> Forall (fun p => canon (fst p)) nums ->
         (forall o, first_entry dec nums o \/ no_entry dec nums /\ d = Some o -> verbalOf dec (e_val e) cd = Ret o None)
         /\ (no_entry dec nums -> d = None -> exists v err, verbalOf dec (e_val e) cd = Ret v (Some err)))).
Proof.
  intros gr pf cpus ts path content img CP A H. apply always_chosen; [exact CP|exact A|exact H|]. intros n lm cd cd' CH AL k e rows lt nums d dec LE TH F2 DF CD CN.
  rewrite <- (al_verbal _ _ AL). destruct (C71_verbal pf cd' lm k e rows lt nums d dec CH LE TH F2 DF CD CN) as (Q1 & Q2 & Q3). split; [|exact Q3].
  intros o [Q|[Q ->]]; auto.
Qed.
Print Assumptions C80_verbal.

(** Range tables: the default whatever the rows. *)
Theorem C80_range_refuted : forall gr pf cpus ts path content img, 0 < cpus -> a2lText gr pf cpus ts -> hexText path content img ->
    always (calibration gr pf cpus true (Some (write ts)) path (Some content))
      (fun r => readAs pf ts img r (fun n lm cd => forall k e rows lt nums d dec,
         lastSuch (isNamed "/begin COMPU_VTAB_RANGE" k) lm e -> rangesHas pf (e_words e) rows lt ->
         Forall2 (fun r t => pf (fst (fst r)) = Some (t_lo t) /\ pf (snd (fst r)) = Some (t_hi t) /\ snd r = t_text t) rows nums -> defaultOf Some "DEFAULT_VALUE" lt d ->
         rangeTextOf dec (e_val e) cd = match d with Some x => Ret x None | None => Ret [] (Some CNoDefault) end)).
Proof.
  intros gr pf cpus ts path content img CP A H. apply always_chosen; [exact CP|exact A|exact H|]. intros n lm cd cd' CH AL k e rows lt nums d dec LE TH F2 DF.
  rewrite <- (al_range _ _ AL). exact (C71_range_refuted pf cd' lm k e rows lt nums d dec CH LE TH F2 DF).
Qed.
Print Assumptions C80_range_refuted.

(** No conversion with anything in the file panics. *)
Theorem C80_no_panic : forall gr pf cpus ts path content img, 0 < cpus -> a2lText gr pf cpus ts -> hexText path content img ->
    always (calibration gr pf cpus true (Some (write ts)) path (Some content))
      (fun r => readAs pf ts img r (fun n lm cd => forall dec v, decToPhy dec v cd <> CPanic /\ verbalOf dec v cd <> CPanic /\ rangeTextOf dec v cd <> CPanic)).
Proof.
  intros gr pf cpus ts path content img CP A H. apply always_chosen; [exact CP|exact A|exact H|]. intros n lm cd cd' CH AL dec v.
  rewrite <- (al_phy _ _ AL), <- (al_verbal _ _ AL), <- (al_range _ _ AL). exact (C71_no_panic_guarded pf cd' lm dec v CH).
Qed.
Print Assumptions C80_no_panic.

(** ** A file with one of each *)
Definition iWordsF : list bytes := map b ["I"; quote "a method"; "IDENTICAL"; quote "%4.2"; quote "m"; "/end COMPU_METHOD"]%string.
Definition lWordsF : list bytes := map b ["L"; quote "a method"; "LINEAR"; quote "%4.2"; quote "m"; "COEFFS_LINEAR"; "2"; "3"; "/end COMPU_METHOD"]%string.
Definition qWordsF : list bytes := map b ["Q"; quote "a method"; "RAT_FUNC"; quote "%4.2"; quote "m"; "COEFFS"; "0"; "1"; "2"; "0"; "0"; "1"; "/end COMPU_METHOD"]%string.
Definition vWordsF : list bytes := map b ["V"; quote "a table"; "TAB_VERB"; "2"; "1"; quote "on"; "2"; quote "off"; "DEFAULT_VALUE"; quote "else"; "/end COMPU_VTAB"]%string.
Definition rWordsF : list bytes := map b ["R"; quote "a table"; "2"; "0"; "10"; quote "low"; "10"; "20"; quote "high"; "DEFAULT_VALUE"; quote "else"; "/end COMPU_VTAB_RANGE"]%string.
Definition insideF : list bytes :=
  (b "/begin COMPU_METHOD" :: iWordsF) ++ (b "/begin COMPU_METHOD" :: lWordsF) ++ (b "/begin COMPU_METHOD" :: qWordsF) ++
  (b "/begin COMPU_VTAB" :: vWordsF) ++ (b "/begin COMPU_VTAB_RANGE" :: rWordsF).
Definition moduleF : list bytes := map b ["M"; quote "a module"]%string ++ insideF ++ [b "/end MODULE"].
Definition moduleO : list bytes := map b ["N"; quote "another"; "/end MODULE"]%string.
Definition projectF : list bytes := map b ["P"; quote "a project"]%string ++ (b "/begin MODULE" :: moduleF) ++ (b "/begin MODULE" :: moduleO) ++ [b "/end PROJECT"].
Definition fileF : list bytes := map b ["ASAP2_VERSION"; "1"; "71"]%string ++ (b "/begin PROJECT" :: projectF).
Definition eIF : entry := Entry "/begin COMPU_METHOD" iWordsF (valOf compuMethodForm iWordsF).
Definition eLF : entry := Entry "/begin COMPU_METHOD" lWordsF (valOf compuMethodForm lWordsF).
Definition eQF : entry := Entry "/begin COMPU_METHOD" qWordsF (valOf compuMethodForm qWordsF).
Definition eVF : entry := Entry "/begin COMPU_VTAB" vWordsF (valOf compuVtabForm vWordsF).
Definition eRF : entry := Entry "/begin COMPU_VTAB_RANGE" rWordsF (valOf compuVtabRangeForm rWordsF).
Definition entriesF : list entry := [eIF; eLF; eQF; eVF; eRF].

Local Ltac found := first [apply item_found; vm_compute; reflexivity | cbn [itemsOf moduleRead projectRead fileItems In]; tauto].
Local Ltac run := apply (den_run 10); vm_compute; reflexivity.
Lemma module_f : moduleHas smallFloat moduleF entriesF.
Proof.
  exists (b "M"), (b (quote "a module")), insideF. split; [reflexivity|]. unfold insideF.
  refine (en_cons _ _ _ "/begin COMPU_METHOD" "CompuMethods" (Under "Name") compuMethodForm iWordsF _ (valOf compuMethodForm iWordsF) _ _ _ _ _); [item_in|run|reflexivity|].
  refine (en_cons _ _ _ "/begin COMPU_METHOD" "CompuMethods" (Under "Name") compuMethodForm lWordsF _ (valOf compuMethodForm lWordsF) _ _ _ _ _); [item_in|run|reflexivity|].
  refine (en_cons _ _ _ "/begin COMPU_METHOD" "CompuMethods" (Under "Name") compuMethodForm qWordsF _ (valOf compuMethodForm qWordsF) _ _ _ _ _); [item_in|run|reflexivity|].
  refine (en_cons _ _ _ "/begin COMPU_VTAB" "CompuVTabs" (Under "Name") compuVtabForm vWordsF _ (valOf compuVtabForm vWordsF) _ _ _ _ _); [item_in|run|reflexivity|].
  refine (en_cons _ _ _ "/begin COMPU_VTAB_RANGE" "CompuVTabRanges" (Under "Name") compuVtabRangeForm rWordsF [] (valOf compuVtabRangeForm rWordsF) [] _ _ _ _); [item_in|run|reflexivity|].
  constructor.
Qed.
Lemma file_f : fileModule smallFloat fileF 0 moduleF.
Proof.
  set (em := Entry "/begin MODULE" moduleF (valOf moduleRead moduleF)). set (en := Entry "/begin MODULE" moduleO (valOf moduleRead moduleO)).
  set (ep := Entry "/begin PROJECT" projectF (valOf projectRead projectF)).
  set (ev := Entry "ASAP2_VERSION" [b "1"; b "71"] (valOf asap2VersionForm [b "1"; b "71"])).
  exists [ev; ep], ep, [em; en], em. split; [|split; [lastkw [ev] (@nil entry)|split; [|split; reflexivity]]].
  - refine (en_cons _ _ _ "ASAP2_VERSION" "Asap2Version" Single asap2VersionForm [b "1"; b "71"] _ _ _ _ _ _ _); [found|run|reflexivity|].
    refine (en_cons _ _ _ "/begin PROJECT" "Project" Single projectRead projectF [] _ [] _ _ _ _); [found|run|reflexivity|]. constructor.
  - exists (b "P"), (b (quote "a project")), ((b "/begin MODULE" :: moduleF) ++ (b "/begin MODULE" :: moduleO)). split; [reflexivity|].
    refine (en_cons _ _ _ "/begin MODULE" "Modules" Several moduleRead moduleF _ _ _ _ _ _ _); [found|run|reflexivity|].
    refine (en_cons _ _ _ "/begin MODULE" "Modules" Several moduleRead moduleO [] _ [] _ _ _ _); [found|run|reflexivity|]. constructor.
Qed.
Lemma text_f : forall gr cpus, tableOk gr -> a2lText gr smallFloat cpus fileF.
Proof.
  intros gr cpus G. constructor; [exact G| | |].
  - eexists. described.
  - apply Forall_forall. intros t I. apply writableb_ok. revert t I. apply forallb_forall. vm_compute. reflexivity.
  - left. vm_compute. reflexivity.
Qed.
Lemma hex_f : hexText (b "motor.hex") (ifile Dos IhexProps.ex_items) (image (items_recs IhexProps.ex_items)).
Proof. destruct IhexProps.C01_example as (I & U & N & _ & _). constructor; [reflexivity|exact I|exact (IhexThm.nonzero_upper_last _ U)|exact N]. Qed.

Lemma differ : forall p q, (Z.abs p < 2 ^ 53)%Z -> (Z.abs q < 2 ^ 53)%Z -> p <> q -> ~ same_number (f_of_Z p) (f_of_Z q).
Proof.
  intros p q Hp Hq Hn S. pose proof (f_of_Z_isint p Hp) as Ip. pose proof (f_of_Z_isint q Hq) as Iq.
  apply (feqb_num _ _ (proj1 Ip) (proj1 Iq)) in S. rewrite (isint_eqb _ _ _ _ Ip Iq) in S. apply Z.eqb_eq in S. contradiction.
Qed.
(** 5 with each of the methods; 2 and 3 with the table V, 5 with the ranges R. *)
Example C80_conversions_example : forall gr cpus, tableOk gr -> 0 < cpus ->
  let c := calibration gr smallFloat cpus true (Some (write fileF)) (b "motor.hex") (Some (ifile Dos IhexProps.ex_items)) in
  let says (Q : calib -> Prop) := always c (fun r => exists a m, r = RReturned (CD (Some a) (Some m)) None /\ Q (calibOf a 0 m)) in
  says (fun cd => decToPhy (f_of_Z 5) (e_val eIF) cd = Ret (f_of_Z 5) None)
  /\ says (fun cd => decToPhy (f_of_Z 5) (e_val eLF) cd = Ret (f_of_Z 13) None)
  /\ says (fun cd => decToPhy (f_of_Z 5) (e_val eQF) cd = Ret (f_of_Z 5) (Some CZeroDiv))
  /\ says (fun cd => verbalOf (f_of_Z 2) (e_val eVF) cd = Ret (b (quote "off")) None /\ verbalOf (f_of_Z 3) (e_val eVF) cd = Ret (b (quote "else")) None)
  /\ says (fun cd => rangeTextOf (f_of_Z 5) (e_val eRF) cd = Ret (b (quote "else")) None).
Proof.
  intros gr cpus G CP c says. pose proof (text_f gr cpus G) as T.
  assert (K : forall P (Q : calib -> Prop), always c (fun r => readAs smallFloat fileF (image (items_recs IhexProps.ex_items)) r P) -> (forall cd, P 0 entriesF cd -> Q cd) -> says Q).
  { intros P Q [E R] PQ. split; [exact E|]. intros r HR. destruct (R r HR) as (a & m & -> & _ & F). exists a, m. split; [reflexivity|]. apply PQ, (F 0 moduleF entriesF file_f module_f). }
  split; [|split; [|split; [|split]]].
  - apply (K _ _ (C80_identical gr smallFloat cpus fileF _ _ _ CP T hex_f)). intros cd F. apply (F (b "I") eIF [] (f_of_Z 5)).
    + last_ (@nil entry) [eLF; eQF; eVF; eRF].
    + do 4 eexists. exists []. split; [reflexivity|]. constructor.
  - apply (K _ _ (C80_linear gr smallFloat cpus fileF _ _ _ CP T hex_f)). intros cd F.
    set (e1 := Entry "COEFFS_LINEAR" [b "2"; b "3"] (valOf coeffsLinearForm [b "2"; b "3"])).
    refine (proj1 (F (b "L") eLF [e1] (b "2") (b "3") (f_of_Z 2) (f_of_Z 3) (f_of_Z 5) _ _ _ eq_refl eq_refl)).
    + last_ [eIF] [eQF; eVF; eRF].
    + do 4 eexists. exists (map b ["COEFFS_LINEAR"; "2"; "3"]%string). split; [reflexivity|].
      refine (en_cons _ _ _ "COEFFS_LINEAR" "CoeffsLinear" Single coeffsLinearForm [b "2"; b "3"] [] _ [] _ _ _ _); [item_in|run|reflexivity|constructor].
    + eexists. split; [lastkw (@nil entry) (@nil entry)|reflexivity].
  - apply (K _ _ (C80_ratfunc_refuted gr smallFloat cpus fileF _ _ _ CP T hex_f)). intros cd F.
    set (ws := map b ["0"; "1"; "2"; "0"; "0"; "1"]%string). set (e1 := Entry "COEFFS" ws (valOf coeffsForm ws)).
    refine (F (b "Q") eQF [e1] (b "0") (b "1") (b "2") (b "0") (b "0") (b "1") (f_of_Z 1) (f_of_Z 2) (f_of_Z 0) (f_of_Z 1) false false (f_of_Z 5) _ _ _ eq_refl eq_refl eq_refl eq_refl eq_refl eq_refl _).
    + last_ [eIF; eLF] [eVF; eRF].
    + do 4 eexists. exists (map b ["COEFFS"; "0"; "1"; "2"; "0"; "0"; "1"]%string). split; [reflexivity|].
      refine (en_cons _ _ _ "COEFFS" "Coeffs" Single coeffsForm ws [] _ [] _ _ _ _); [item_in|run|reflexivity|constructor].
    + eexists. split; [lastkw (@nil entry) (@nil entry)|reflexivity].
    + vm_compute. discriminate.
  - apply (K _ _ (C80_verbal gr smallFloat cpus fileF _ _ _ CP T hex_f)). intros cd F.
    set (e1 := Entry "DEFAULT_VALUE" [b (quote "else")] (valOf defaultValueForm [b (quote "else")])).
    set (rows := [(b "1", b (quote "on")); (b "2", b (quote "off"))]). set (nums := [(f_of_Z 1, b (quote "on")); (f_of_Z 2, b (quote "off"))]).
    assert (Z : forall dec, canon dec -> (forall o, first_entry dec nums o \/ no_entry dec nums /\ Some (b (quote "else")) = Some o -> verbalOf dec (e_val eVF) cd = Ret o None)).
    { intros dec CD. refine (proj1 (F (b "V") eVF rows [e1] nums (Some (b (quote "else"))) dec _ _ _ _ CD _)).
      - last_ [eIF; eLF; eQF] [eRF].
      - do 4 eexists. exists [b "DEFAULT_VALUE"; b (quote "else")]. split; [reflexivity|]. split; [vm_compute; reflexivity|].
        refine (en_cons _ _ _ "DEFAULT_VALUE" "DefaultValue" Single defaultValueForm [b (quote "else")] [] _ [] _ _ _ _); [item_in|run|reflexivity|constructor].
      - repeat constructor.
      - exists (b (quote "else")). split; [|reflexivity]. eexists. split; [lastkw (@nil entry) (@nil entry)|reflexivity].
      - repeat constructor. }
    split.
    + apply Z; [repeat constructor|]. left. exists [(f_of_Z 1, b (quote "on"))], (f_of_Z 2), []. split; [reflexivity|]. split; [left; eexists; split; reflexivity|]. repeat constructor. apply differ; lia.
    + apply Z; [repeat constructor|]. right. split; [|reflexivity]. repeat constructor; cbn [fst]; apply differ; lia.
  - apply (K _ _ (C80_range_refuted gr smallFloat cpus fileF _ _ _ CP T hex_f)). intros cd F.
    set (e1 := Entry "DEFAULT_VALUE" [b (quote "else")] (valOf defaultValueForm [b (quote "else")])).
    refine (F (b "R") eRF [(b "0", b "10", b (quote "low")); (b "10", b "20", b (quote "high"))] [e1]
      [Triple (f_of_Z 0) (f_of_Z 10) (b (quote "low")); Triple (f_of_Z 10) (f_of_Z 20) (b (quote "high"))] (Some (b (quote "else"))) (f_of_Z 5) _ _ _ _).
    + last_ [eIF; eLF; eQF; eVF] (@nil entry).
    + do 3 eexists. exists [b "DEFAULT_VALUE"; b (quote "else")]. split; [reflexivity|]. split; [vm_compute; reflexivity|].
      refine (en_cons _ _ _ "DEFAULT_VALUE" "DefaultValue" Single defaultValueForm [b (quote "else")] [] _ [] _ _ _ _); [item_in|run|reflexivity|constructor].
    + repeat constructor.
    + exists (b (quote "else")). split; [|reflexivity]. eexists. split; [lastkw (@nil entry) (@nil entry)|reflexivity].
Qed.
