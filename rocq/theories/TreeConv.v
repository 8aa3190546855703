(** C71: conversions with the methods and tables of an A2L file. *)
From Coq Require Import String Ascii List Arith NArith ZArith Bool Lia SpecFloat.
From Verif Require Import GoBase GoBaseFacts A2lModStore A2lIR A2lSpec A2lParsers A2lFileThm A2lGrammar A2lForms A2lTripSpec A2lFormProps A2lProps.
From Verif Require Import FloatModel FloatSpec CompuModel CompuSpec CompuThm CompuProps LookModel TreeModel TreeSpec TreeThm TreeLook.
From Verif Require Import A2lDescribe A2lTextProps A2lFileModel A2lFileSpec A2lFileProps A2lTripThm A2lTripProps.
From Verif Require A2lModSpec ValuesModel A2lLayoutModel.
Import ListNotations.

(** ** Methods *)

Definition entryOf (kw : string) (l : list entry) : option entry := lastVal (fun e => String.eqb (e_kw e) kw) l.
Definition partOf (kw : string) (l : list entry) : fields := match entryOf kw l with Some e => objOf (e_val e) | None => [] end.

Definition methodParams : list param := match compuMethodForm with Block _ ps _ _ _ _ => ps | _ => [] end.
Lemma method_entries : forall pf ts v kind l, den pf compuMethodForm ts v -> methodHas pf ts kind l ->
    exists name long format unit, v = VObj (addEntries (itemsOf compuMethodForm) l (stores true methodParams [VStr name; VStr long; VStr (b kind); VStr format; VStr unit] [])).
Proof.
  intros pf ts v kind l D H.
  destruct (block_entries "parseCompuMethod" parseCompuMethod pf [] methodParams (itemsOf compuMethodForm) "/end COMPU_METHOD" [] ts v) as (ws & vs & c & E & W & _ & U);
    [listed|listed|nodup|exact D|]. destruct H as (name & long & fm & un & c' & E' & X). rewrite E in E'. clear E D.
  inversion W as [|? ? t1 ? v1 ? S1 W1]; subst. inversion W1 as [|? ? t2 ? v2 ? S2 W2]; subst. inversion W2 as [|? ? t3 ? v3 ? S3 W3]; subst.
  inversion W3 as [|? ? t4 ? v4 ? S4 W4]; subst. inversion W4 as [|? ? t5 ? v5 ? S5 W5]; subst. inversion W5; subst.
  cbn [app] in E'. injection E' as -> -> -> -> -> E'. destruct (ends_with _ _ _ _ _ E') as [-> _].
  destruct S1 as (_ & _ & ->). destruct S2 as (_ & _ & ->). destruct S3 as (_ & _ & ->). destruct S4 as (_ & _ & ->). destruct S5 as (_ & _ & ->).
  exists name, long, fm, un. apply (U l X).
Qed.

Lemma method_of : forall pf ts v kind l, den pf compuMethodForm ts v -> methodHas pf ts kind l ->
    methodOf v = CompuMethod (conversionOf (b kind)) (coeffsOf (partOf "COEFFS" l)) (linearOf (partOf "COEFFS_LINEAR" l)) (fstr "ConversionTable" (partOf "COMPU_TAB_REF" l)).
Proof.
  intros pf ts v kind l D H. destruct (method_entries _ _ _ _ _ D H) as (name & long & fm & un & ->). unfold methodOf. cbn [objOf].
  assert (K : fstr "ConversionType" (addEntries (itemsOf compuMethodForm) l (stores true methodParams [VStr name; VStr long; VStr (b kind); VStr fm; VStr un] [])) = b kind).
  { unfold fstr. rewrite (unowned (itemsOf compuMethodForm) "ConversionType" eq_refl). reflexivity. }
  assert (P : forall f kw, owns (itemsOf compuMethodForm) f kw = true -> slot (itemsOf compuMethodForm) kw = Some (f, Single) -> forallb (spares f) methodParams = true ->
     A2lLayoutModel.part f (addEntries (itemsOf compuMethodForm) l (stores true methodParams [VStr name; VStr long; VStr (b kind); VStr fm; VStr un] [])) = partOf kw l).
  { intros f kw OW SL SP. unfold A2lLayoutModel.part, partOf, entryOf. rewrite (single_entries _ _ _ OW SL). destruct (lastVal _ l) as [e|]; [destruct (e_val e); reflexivity|].
    rewrite stores_other by exact SP. reflexivity. }
  rewrite K. rewrite (P "Coeffs" "COEFFS")%string by reflexivity. rewrite (P "CoeffsLinear" "COEFFS_LINEAR")%string by reflexivity. rewrite (P "CompuTabRef" "COMPU_TAB_REF")%string by reflexivity.
  reflexivity.
Qed.

Lemma entryOf_some : forall kw l ws, lastWords kw l (Some ws) -> exists e, entryOf kw l = Some e /\ In e l /\ e_kw e = kw /\ e_words e = ws.
Proof.
  intros kw l ws (e & L & W). exists e. pose proof (lastSuch_in _ _ _ L) as [I K]. split; [|auto]. unfold entryOf.
  apply (lastVal_such (isKw kw)); [|exact L]. intros x _. apply String.eqb_eq.
Qed.
Lemma entryOf_none : forall kw l, lastWords kw l None -> entryOf kw l = None.
Proof.
  intros kw l H. apply lastVal_none. apply Forall_forall. intros e I. apply String.eqb_neq. exact (H e I).
Qed.

(** the form of a keyword of a block *)
Definition formOf (its : list item) (kw : string) (f : form) : Prop := forall f' p sub, In (Item kw f' p sub) its -> sub = f.
Ltac formOf_ := let I := fresh in intros ? ? ? I; cbn [itemsOf compuMethodForm compuTabForm compuVtabForm compuVtabRangeForm] in I;
  repeat (destruct I as [I|I]; [injection I; intros; subst; (discriminate || reflexivity)|]); destruct I.
Lemma entry_den : forall pf its stop c l kw f ws, entries pf its stop c l -> formOf its kw f -> lastWords kw l (Some ws) ->
    exists e, entryOf kw l = Some e /\ den pf f ws (e_val e).
Proof.
  intros pf its stop c l kw f ws EN FO LW. destruct (entryOf_some _ _ _ LW) as (e & E & I & K & <-). exists e. split; [exact E|].
  destruct (entries_in _ _ _ _ _ _ EN I) as (f' & p & sub & II & D). rewrite K in II. rewrite <- (FO _ _ _ II). exact D.
Qed.

Lemma stands_float : forall pf stop t v, stands pf stop (Number NFloat) t v -> exists x, pf t = Some x /\ v = VFloat x.
Proof.
  intros pf stop t v (_ & _ & R). cbn in R. destruct (pf t) as [x|] eqn:P; [|discriminate]. injection R as <-. eauto.
Qed.
Ltac row W := match type of W with words _ _ (_ :: _) _ _ => let W' := fresh "W" in let S := fresh "S" in inversion W as [|? ? ? ? ? ? S W']; subst; clear W; row W' | words _ _ [] _ _ => inversion W; subst; clear W end.
Ltac floats := repeat match goal with S : stands _ _ (p_type (P _ _ (Number NFloat))) ?t _ |- _ => destruct (stands_float _ _ _ _ S) as (? & ? & ->); clear S end.

Lemma linear_words : forall pf ta tb A B v, den pf coeffsLinearForm [ta; tb] v -> pf ta = Some A -> pf tb = Some B ->
    linearOf (objOf v) = CoeffsLinear (Co A true) (Co B true).
Proof.
  intros pf ta tb A B v D HA HB. inversion D as [|? ? ? vs W| |]; subst. row W. floats.
  assert (x0 = A) by congruence. assert (x = B) by congruence. subst. reflexivity.
Qed.
Lemma coeffs_words : forall pf ta tb tc td te tf A B C D E F v, den pf coeffsForm [ta; tb; tc; td; te; tf] v ->
    pf ta = Some A -> pf tb = Some B -> pf tc = Some C -> pf td = Some D -> pf te = Some E -> pf tf = Some F ->
    coeffsOf (objOf v) = coeffs6 A B C D E F.
Proof.
  intros pf ta tb tc td te tf A B C D E F v DN HA HB HC HD HE HF. inversion DN as [|? ? ? vs W| |]; subst. row W. floats.
  assert (x4 = A) by congruence. assert (x3 = B) by congruence. assert (x2 = C) by congruence. assert (x1 = D) by congruence. assert (x0 = E) by congruence. assert (x = F) by congruence.
  subst. reflexivity.
Qed.

(** ** C71, methods *)

Theorem C71_identical : forall pf ts v l dec cd, den pf compuMethodForm ts v -> methodHas pf ts "IDENTICAL" l -> decToPhy dec v cd = Ret dec None.
Proof.
  intros pf ts v l dec cd D H. pose proof (method_of _ _ _ _ _ D H) as M. unfold decToPhy. destruct (ValuesModel.theModule cd); rewrite M; reflexivity.
Qed.
Print Assumptions C71_identical.

(** COEFFS_LINEAR a b: a * dec + b *)
Theorem C71_linear : forall pf ts v l ta tb A B dec cd, den pf compuMethodForm ts v -> methodHas pf ts "LINEAR" l ->
    lastWords "COEFFS_LINEAR" l (Some [ta; tb]) -> pf ta = Some A -> pf tb = Some B ->
    decToPhy dec v cd = Ret (fadd (fmul A dec) B) None.
Proof.
  intros pf ts v l ta tb A B dec cd D H LW HA HB. pose proof (method_of _ _ _ _ _ D H) as M.
  destruct H as (name & long & fm & un & c & _ & EN).
  destruct (entry_den _ _ _ _ _ "COEFFS_LINEAR" coeffsLinearForm _ EN ltac:(formOf_) LW) as (e & EO & DE).
  unfold partOf in M. rewrite EO in M. rewrite (linear_words _ _ _ _ _ _ DE HA HB) in M.
  unfold decToPhy. destruct (ValuesModel.theModule cd); rewrite M; reflexivity.
Qed.
Print Assumptions C71_linear.

Theorem C71_linear_exact : forall pf ts v l ta tb A B dec cd a b_ x, den pf compuMethodForm ts v -> methodHas pf ts "LINEAR" l ->
    lastWords "COEFFS_LINEAR" l (Some [ta; tb]) -> pf ta = Some A -> pf tb = Some B ->
    isint A a -> isint B b_ -> isint dec x -> (Z.abs (a * x) < 2 ^ 53)%Z -> (Z.abs (a * x + b_) < 2 ^ 53)%Z ->
    exists r, decToPhy dec v cd = Ret r None /\ isint r (a * x + b_).
Proof.
  intros pf ts v l ta tb A B dec cd a b_ x D H LW HA HB IA IB IX B1 B2. rewrite (C71_linear pf ts v l ta tb A B dec cd D H LW HA HB).
  eexists. split; [reflexivity|]. apply linear_int; assumption.
Qed.
Print Assumptions C71_linear_exact.

(** Without COEFFS_LINEAR: an error. *)
Theorem C71_linear_missing : forall pf ts v l dec cd, den pf compuMethodForm ts v -> methodHas pf ts "LINEAR" l ->
    lastWords "COEFFS_LINEAR" l None -> exists r e, decToPhy dec v cd = Ret r (Some e).
Proof.
  intros pf ts v l dec cd D H LW. pose proof (method_of _ _ _ _ _ D H) as M. unfold partOf in M. rewrite (entryOf_none _ _ LW) in M.
  unfold decToPhy. destruct (ValuesModel.theModule cd); rewrite M; cbn; eauto.
Qed.
Print Assumptions C71_linear_missing.

(** COEFFS a b c d e f *)
Theorem C71_ratfunc : forall pf ts v l ta tb tc td te tf A B C D E F dec cd, den pf compuMethodForm ts v -> methodHas pf ts "RAT_FUNC" l ->
    lastWords "COEFFS" l (Some [ta; tb; tc; td; te; tf]) ->
    pf ta = Some A -> pf tb = Some B -> pf tc = Some C -> pf td = Some D -> pf te = Some E -> pf tf = Some F ->
    decToPhy dec v cd = convDecToPhy dec (ratMethod A B C D E F) noCtx.
Proof.
  intros pf ts v l ta tb tc td te tf A B C D E F dec cd DN H LW HA HB HC HD HE HF. pose proof (method_of _ _ _ _ _ DN H) as M.
  destruct H as (name & long & fm & un & c & _ & EN).
  destruct (entry_den _ _ _ _ _ "COEFFS" coeffsForm _ EN ltac:(formOf_) LW) as (e & EO & DE).
  unfold partOf in M. rewrite EO in M. rewrite (coeffs_words _ _ _ _ _ _ _ _ _ _ _ _ _ _ DE HA HB HC HD HE HF) in M.
  unfold decToPhy. destruct (ValuesModel.theModule cd); rewrite M; reflexivity.
Qed.
Print Assumptions C71_ratfunc.

(** The usual way to write a linear conversion, COEFFS 0 b c 0 0 f (or any with a = d = 0),
    always gives an error. *)
Theorem C71_ratfunc_refuted : forall pf ts v l ta tb tc td te tf B C E F sa sd dec cd, den pf compuMethodForm ts v -> methodHas pf ts "RAT_FUNC" l ->
    lastWords "COEFFS" l (Some [ta; tb; tc; td; te; tf]) ->
    pf ta = Some (S754_zero sa) -> pf tb = Some B -> pf tc = Some C -> pf td = Some (S754_zero sd) -> pf te = Some E -> pf tf = Some F ->
    fval dec <> None -> decToPhy dec v cd = Ret dec (Some CZeroDiv).
Proof.
  intros pf ts v l ta tb tc td te tf B C E F sa sd dec cd DN H LW HA HB HC HD HE HF FV.
  rewrite (C71_ratfunc pf ts v l ta tb tc td te tf _ B C _ E F dec cd DN H LW HA HB HC HD HE HF). apply C35_linear_refuted. exact FV.
Qed.
Print Assumptions C71_ratfunc_refuted.

(** Any tree, also one left behind by a failed parse: without all the coefficients of
    its kind a method gives an error. *)
Definition lacks (v : val) (p f : string) : Prop :=
  forall o, fget p (objOf v) = Some (VObj o) -> fget f o <> Some (VBool true).
Theorem C71_incomplete : forall v dec cd f,
    fget "ConversionType" (objOf v) = Some (VStr (b "RAT_FUNC")) /\ lacks v "Coeffs" f /\ In f ["ASet"; "BSet"; "CSet"; "DSet"; "ESet"; "FSet"]%string
    \/ fget "ConversionType" (objOf v) = Some (VStr (b "LINEAR")) /\ lacks v "CoeffsLinear" f /\ In f ["ASet"; "BSet"]%string ->
    exists r e, decToPhy dec v cd = Ret r (Some e).
Proof.
  intros v dec cd f H.
  assert (L : forall p, lacks v p f -> fbool f (A2lLayoutModel.part p (objOf v)) = false).
  { intros p H0. unfold A2lLayoutModel.part, fbool. destruct (fget p (objOf v)) as [[]|] eqn:E; try reflexivity.
    match goal with |- match fget f ?o with _ => _ end = _ => specialize (H0 o E); destruct (fget f o) as [[]|] end; try reflexivity.
    match goal with |- ?x = _ => destruct x end; congruence. }
  assert (T : forall k, fget "ConversionType" (objOf v) = Some (VStr k) -> fstr "ConversionType" (objOf v) = k) by (intros k E; unfold fstr; rewrite E; reflexivity).
  assert (G : exists r e, forall cx, convDecToPhy dec (methodOf v) cx = Ret r (Some e)).
  { exists (S754_zero false), CCoeffs. intros cx.
    assert (C : fbool f (A2lLayoutModel.part (match cm_type (methodOf v) with RatFunc => "Coeffs" | _ => "CoeffsLinear" end)%string (objOf v)) = false
      /\ In f (match cm_type (methodOf v) with RatFunc => ["ASet"; "BSet"; "CSet"; "DSet"; "ESet"; "FSet"] | _ => ["ASet"; "BSet"] end)%string
      /\ (cm_type (methodOf v) = RatFunc \/ cm_type (methodOf v) = Linear)).
    { unfold methodOf, cm_type. destruct H as [(H1 & H2 & H3)|(H1 & H2 & H3)]; rewrite (T _ H1); apply L in H2.
      - change (conversionOf (b "RAT_FUNC")) with RatFunc. auto.
      - change (conversionOf (b "LINEAR")) with Linear. auto. }
    destruct C as (C1 & C2 & C3). unfold convDecToPhy. destruct C3 as [C3|C3]; rewrite C3 in *.
    - unfold methodOf, cm_coeffs, coeffsOf, coeffOf, cA, cB, cC, cD, cE, cF, co_set.
      repeat destruct C2 as [<-|C2]; try (destruct C2); rewrite C1, ?andb_false_r, ?andb_false_l; reflexivity.
    - unfold methodOf, cm_linear, linearOf, coeffOf, lA, lB, co_set.
      repeat destruct C2 as [<-|C2]; try (destruct C2); rewrite C1, ?andb_false_r, ?andb_false_l; reflexivity. }
  destruct G as (r & e & G). exists r, e. unfold decToPhy. destruct (ValuesModel.theModule cd); [apply G|].
  assert (N : cm_type (methodOf v) <> TabNointp).
  { intros N. unfold methodOf, cm_type in N. destruct H as [(H1 & _)|(H1 & _)]; rewrite (T _ H1) in N; discriminate N. }
  destruct (cm_type (methodOf v)); try apply G. congruence.
Qed.
Print Assumptions C71_incomplete.

(** Five coefficients, the sixth missing *)
Example C71_incomplete_example : let v := VObj [("ConversionType", VStr (b "RAT_FUNC"));
    ("Coeffs", VObj [("A", VFloat S754_nan); ("ASet", VBool true); ("BSet", VBool true); ("CSet", VBool true); ("DSet", VBool true); ("ESet", VBool true)])]%string in
  lacks v "Coeffs" "FSet" /\ decToPhy (S754_zero false) v (calibOf [] 0 []) = Ret (S754_zero false) (Some CCoeffs).
Proof. split; [intros o E; injection E as <-; discriminate|vm_compute; reflexivity]. Qed.

(** Other kinds: each its own error, but TAB_INTP, which gives zero without one. *)
Theorem C71_other_kinds : forall pf ts v kind l dec cd, den pf compuMethodForm ts v -> methodHas pf ts kind l ->
    (kind = "FORM" -> decToPhy dec v cd = Ret (S754_zero false) (Some CForm))%string
    /\ (kind = "TAB_VERB"%string -> decToPhy dec v cd = Ret (S754_zero false) (Some CVerb))
    /\ (kind = "TAB_INTP"%string -> decToPhy dec v cd = Ret (S754_zero false) None)
    /\ (~ In kind ["IDENTICAL"; "FORM"; "LINEAR"; "RAT_FUNC"; "TAB_INTP"; "TAB_NOINTP"; "TAB_VERB"]%string -> decToPhy dec v cd = Ret (S754_zero false) (Some CUndef)).
Proof.
  intros pf ts v kind l dec cd D H. pose proof (method_of _ _ _ _ _ D H) as M. split; [|split; [|split]].
  - intros ->; unfold decToPhy; destruct (ValuesModel.theModule cd); rewrite M; reflexivity.
  - intros ->; unfold decToPhy; destruct (ValuesModel.theModule cd); rewrite M; reflexivity.
  - intros ->; unfold decToPhy; destruct (ValuesModel.theModule cd); rewrite M; reflexivity.
  - intros N. assert (K : conversionOf (b kind) = ConvUndef).
    { unfold conversionOf. cbn [ValuesModel.named].
      repeat match goal with |- (if beqb (b kind) (b ?x) then _ else _) = _ => let Q := fresh in destruct (beqb (b kind) (b x)) eqn:Q;
        [apply beqb_eq in Q; exfalso; apply N; apply (f_equal string_of_list_ascii) in Q; unfold b in Q; rewrite !string_of_list_ascii_of_string in Q; rewrite Q; cbn; tauto|clear Q] end.
      reflexivity. }
    unfold decToPhy; destruct (ValuesModel.theModule cd); rewrite M; unfold convDecToPhy; cbn [cm_type]; rewrite K; reflexivity.
Qed.
Print Assumptions C71_other_kinds.

(** ** Tables *)

(** The rows of the repetitions. *)
Lemma repeats_rows : forall pf stop m ps n ts o o', repeats pf stop m ps n ts o o' ->
    exists rows, length rows = n /\ ts = flat_map fst rows /\ Forall (fun r => words pf stop ps (fst r) (snd r)) rows
      /\ (forall f, (forall m vs o, length vs = length ps -> fget f (stores m ps vs o) = fget f o) -> fget f o' = fget f o)
      /\ (forall f (col : list val -> val), (forall m vs o, length vs = length ps -> flist f (stores m ps vs o) = flist f o ++ [col vs]) -> flist f o' = flist f o ++ map (fun r => col (snd r)) rows)
      /\ (forall g, m = true -> rows <> [] -> (forall vs o, length vs = length ps -> fbool g (stores true ps vs o) = true) -> fbool g o' = true).
Proof.
  intros pf stop m ps n ts o o' R. induction R as [o|n ts ts' vs o o' W R IH].
  - exists []. repeat split; try constructor; try contradiction. intros. cbn. rewrite app_nil_r. reflexivity.
  - destruct IH as (rows & L & -> & F & H1 & H2 & H3). exists ((ts, vs) :: rows). split; [cbn; congruence|]. split; [reflexivity|]. split; [constructor; assumption|].
    assert (LV : length vs = length ps) by (clear - W; induction W; cbn; congruence).
    split; [|split].
    + intros f S. rewrite (H1 f S). apply S. exact LV.
    + intros f col S. rewrite (H2 f col S). rewrite (S _ _ _ LV). rewrite <- app_assoc. reflexivity.
    + intros g M _ S. destruct rows as [|r rows].
      * cbn in L. subst n m. inversion R; subst. cbn [andb Nat.eqb]. apply S. exact LV.
      * apply H3; [exact M|discriminate|exact S].
Qed.

Definition textRows (rows : list (list bytes * list val)) : list (bytes * bytes) := map (fun r => (nth 0 (fst r) [], nth 1 (fst r) [])) rows.
Lemma flat_rows : forall rows : list (bytes * bytes), length (flat_map (fun r => [fst r; snd r]) rows) = 2 * length rows.
Proof. induction rows as [|r rows IH]; [reflexivity|]. cbn [flat_map app length]. rewrite IH. lia. Qed.
Lemma app_inj_len : forall A (a a' c c' : list A), a ++ c = a' ++ c' -> length a = length a' -> a = a' /\ c = c'.
Proof. induction a as [|x a IH]; intros [|y a'] c c' E L; try discriminate; [auto|]. cbn in E. injection E as -> E. injection L as L. destruct (IH _ _ _ E L). split; congruence. Qed.
Lemma flat_inj : forall rows rows' : list (bytes * bytes), flat_map (fun r => [fst r; snd r]) rows = flat_map (fun r => [fst r; snd r]) rows' -> rows = rows'.
Proof.
  induction rows as [|[x y] rows IH]; intros [|[x' y'] rows'] E; try discriminate; [reflexivity|]. cbn in E. injection E as -> -> E. f_equal. apply IH. exact E.
Qed.

(** what the second column holds *)
Definition standsFor (pf : bytes -> option spec_float) (ty : ptype) (t : bytes) (v : val) : Prop :=
  match ty with Text => v = VStr t | Number NFloat => exists x, pf t = Some x /\ v = VFloat x | _ => False end.
Lemma stands_for : forall pf stop ty t v, ty = Text \/ ty = Number NFloat -> stands pf stop ty t v -> standsFor pf ty t v.
Proof. intros pf stop ty t v [-> | ->] S; [destruct S as (_ & _ & ->); reflexivity|exact (stands_float _ _ _ _ S)]. Qed.

Definition longField (f : form) : string := match f with Block _ (_ :: p :: _) _ _ _ _ => p_field p | _ => "" end.
Definition tableParams (long : string) (longSet : string) : list param :=
  [P "Name" "NameSet" Text; P long longSet Text; P "ConversionType" "ConversionTypeSet" (Choice conversionTypeTexts); P "NumberValuePairs" "NumberValuePairsSet" (Number (NUint 16))]%string.
Definition tableGroup (ty : ptype) : list param := [Param Append "InVal" (Some "InValSet") (Number NFloat); Param Append "OutVal" (Some "OutValSet") ty]%string.
Definition tableForm (long longSet : string) (ty : ptype) (its : list item) (stop : string) : form :=
  Block [] (tableParams long longSet) (Counted "NumberValuePairs" (tableGroup ty)) its stop [].

Lemma table_of : forall name g pf long longSet ty its stop ts v rows l,
    In (name, tableForm long longSet ty its stop) readForms -> In (name, g) allParsers -> NoDup (kws its) -> ty = Text \/ ty = Number NFloat ->
    In (long, longSet) [("longIdentifier", "longIdentifierSet"); ("LongIdentifier", "LongIdentifierSet")]%string ->
    den pf (tableForm long longSet ty its stop) ts v -> tableHas pf (tableForm long longSet ty its stop) stop ts rows l ->
    exists o ins outs, v = VObj (addEntries its l o) /\ rows <> [] /\
      flist "InVal" o = map VFloat ins /\ flist "OutVal" o = outs /\ fbool "InValSet" o = true /\ fbool "OutValSet" o = true /\
      Forall2 (fun r x => pf (fst r) = Some x) rows ins /\ Forall2 (fun r w => standsFor pf ty (snd r) w) rows outs /\
      fget "DefaultValue" o = None /\ fget "DefaultValueNumeric" o = None /\ fstr "Name" o = hd [] ts.
Proof.
  intros name g pf long longSet ty its stop ts v rows l I1 I2 ND TY LS D H. pose proof D as D0. unfold tableForm in D. inversion D as [| | |? ? ? ? ? ? ws ts' c vs o o' W R PA]; subst.
  destruct H as (nm & lg & kind & count & c' & E' & PU & EN). cbn [itemsOf tableForm] in EN. pose proof W as W0. unfold tableParams in W. row W.
  cbn [app] in E'. injection E' as -> -> -> -> E'. pose proof R as R0. destruct R as (n & NP & N16 & CN & R).
  destruct S as (_ & _ & ->). destruct S0 as (_ & _ & ->). destruct S1 as (_ & _ & ->). destruct S2 as (_ & _ & RN). cbn in RN. rewrite PU in RN. cbn in RN. injection RN as <-.
  assert (n = length rows) as ->.
  { destruct LS as [LS|[LS|[]]]; injection LS as <- <-; cbn in CN; lia. }
  destruct (repeats_rows _ _ _ _ _ _ _ _ R) as (rs & LR & ET & FR & K1 & K2 & K3). 
  assert (RW : Forall (fun r => exists t u x w, r = ([t; u], [VFloat x; w]) /\ pf t = Some x /\ standsFor pf ty u w) rs).
  { refine (Forall_impl _ _ FR). intros [rt rv] WR. cbn [fst snd] in WR. unfold tableGroup in WR. row WR.
    destruct (stands_float _ _ _ _ S) as (x & PX & ->). exists t, t0, x, v0. split; [reflexivity|]. split; [exact PX|]. eapply stands_for; eauto. }
  assert (ET' : ts' = flat_map (fun r => [fst r; snd r]) (textRows rs)).
  { subst ts'. clear - RW. induction RW as [|r rs (t & u & x & w & -> & _) RW IH]; [reflexivity|]. cbn. rewrite IH. reflexivity. }
  assert (LT : length (textRows rs) = length rows) by (unfold textRows; rewrite map_length; exact LR).
  destruct (app_inj_len _ _ _ _ _ E') as [A B]; [rewrite ET', !flat_rows; congruence|]. destruct (ends_with _ _ _ _ _ B) as [-> _].
  rewrite ET' in A. apply flat_inj in A. subst rows.
  exists o, (map (fun r => match nth 0 (snd r) (VBool false) with VFloat x => x | _ => S754_zero false end) rs), (map (fun r => nth 1 (snd r) (VBool false)) rs).
  assert (CI : forall m vs o0, length vs = length (tableGroup ty) -> flist "InVal" (stores m (tableGroup ty) vs o0) = flist "InVal" o0 ++ [nth 0 vs (VBool false)]).
  { intros m [|x [|y [|]]] o0 L; try discriminate. destruct m; cbv [stores combine fold_left tableGroup store fst snd p_how p_field p_flag put mark]; unfold flist; rewrite !fget_fset; reflexivity. }
  assert (CO : forall m vs o0, length vs = length (tableGroup ty) -> flist "OutVal" (stores m (tableGroup ty) vs o0) = flist "OutVal" o0 ++ [nth 1 vs (VBool false)]).
  { intros m [|x [|y [|]]] o0 L; try discriminate. destruct m; cbv [stores combine fold_left tableGroup store fst snd p_how p_field p_flag put mark]; unfold flist; rewrite !fget_fset; reflexivity. }
  assert (SI : forall vs o0, length vs = length (tableGroup ty) -> fbool "InValSet" (stores true (tableGroup ty) vs o0) = true).
  { intros [|x [|y [|]]] o0 L; try discriminate. cbv [stores combine fold_left tableGroup store fst snd p_how p_field p_flag put mark]; unfold fbool; rewrite !fget_fset; reflexivity. }
  assert (SO : forall vs o0, length vs = length (tableGroup ty) -> fbool "OutValSet" (stores true (tableGroup ty) vs o0) = true).
  { intros [|x [|y [|]]] o0 L; try discriminate. cbv [stores combine fold_left tableGroup store fst snd p_how p_field p_flag put mark]; unfold fbool; rewrite !fget_fset; reflexivity. }
  assert (NE : rs <> []) by (intros ->; cbn in NP; lia).
  assert (OT : forall f, forallb (spares f) (tableGroup ty) = true -> fget f o = fget f (stores true (tableParams long longSet) [VStr nm; VStr lg; VStr kind; VInt (Z.of_nat (length (textRows rs)))] (newMaps []))).
  { intros f SP. apply K1. intros m vs o0 _. apply stores_other. exact SP. }
  split.
  { refine (den_unique name _ g pf _ _ _ I1 I2 (fun t => eq_refl) D0 _). refine (d_block pf [] _ _ its stop [] [nm; lg; kind; count] ts' c' _ o _ W0 R0 (entries_parts _ _ _ _ _ EN ND o)). }
  split; [intros Z; destruct rs; [contradiction|discriminate]|].
  split.
  { rewrite (K2 _ _ CI). destruct LS as [LS|[LS|[]]]; injection LS as <- <-; cbn [app]; (match goal with |- ?x ++ _ = _ => change x with (@nil val) end); cbn [app]; rewrite map_map; apply map_ext_in;
      intros r IR; rewrite Forall_forall in RW; destruct (RW r IR) as (t & u & x & w & -> & _); reflexivity. }
  split.
  { rewrite (K2 _ _ CO). destruct LS as [LS|[LS|[]]]; injection LS as <- <-; reflexivity. }
  split; [apply K3; auto|]. split; [apply K3; auto|].
  split.
  { unfold textRows. clear - RW. induction RW as [|r rs (t & u & x & w & -> & PX & _) RW IH]; constructor; [exact PX|exact IH]. }
  split.
  { unfold textRows. clear - RW. induction RW as [|r rs (t & u & x & w & -> & PX & SF) RW IH]; constructor; [exact SF|exact IH]. }
  rewrite !OT by reflexivity. unfold fstr. rewrite OT by reflexivity. destruct LS as [LS|[LS|[]]]; injection LS as <- <-; repeat split; reflexivity.
Qed.

(** the default of a table *)
Definition defaultOf {A} (read : bytes -> option A) (kw : string) (l : list entry) (d : option A) : Prop :=
  match d with Some x => exists t, lastWords kw l (Some [t]) /\ read t = Some x | None => lastWords kw l None end.

Lemma tab_words : forall pf ts v rows l nums d, den pf compuTabForm ts v -> tableHas pf compuTabForm "/end COMPU_TAB" ts rows l ->
    Forall2 (fun r p => pf (fst r) = Some (fst p) /\ pf (snd r) = Some (snd p)) rows nums -> defaultOf pf "DEFAULT_VALUE_NUMERIC" l d ->
    tabOf v = tab_of nums d.
Proof.
  intros pf ts v rows l nums d D H N DF.
  destruct (table_of "parseCompuTab" parseCompuTab pf "longIdentifier" "longIdentifierSet" (Number NFloat) (itemsOf compuTabForm) "/end COMPU_TAB" ts v rows l)
    as (o & ins & outs & -> & NE & FI & FO & SI & SO & RI & RO & _ & DN & _); [listed|listed|nodup|auto|left; reflexivity|exact D|exact H|].
  destruct H as (nm & lg & kd & ct & c & _ & _ & EN).
  assert (EI : ins = map fst nums).
  { clear - RI N. revert nums N. induction RI as [|r x rows ins PX RI IH]; intros nums N; inversion N as [|? y ? ? [P1 P2] N']; subst; [reflexivity|]. cbn. f_equal; [congruence|auto]. }
  assert (EO : outs = map (fun p => VFloat (snd p)) nums).
  { clear - RO N. revert nums N. induction RO as [|r x rows outs PX RO IH]; intros nums N; inversion N as [|? y ? ? [P1 P2] N']; subst; [reflexivity|]. cbn. f_equal; [|auto].
    destruct PX as (z & PZ & ->). congruence. }
  assert (NN : nonempty nums = true) by (destruct N; [contradiction|reflexivity]).
  assert (U : forall f, forallb (fun i => match i with Item _ f' _ _ => negb (String.eqb f f') end) (itemsOf compuTabForm) = true -> fget f (addEntries (itemsOf compuTabForm) l o) = fget f o)
    by (intros f UF; apply unowned; exact UF).
  unfold tabOf, tab_of, f64. cbn [objOf]. unfold flist, fbool in FI, FO, SI, SO |- *. rewrite !U by reflexivity. rewrite FI, FO, SI, SO, EI, EO, NN. rewrite !map_map.
  assert (PD : A2lLayoutModel.part "DefaultValueNumeric" (addEntries (itemsOf compuTabForm) l o) = partOf "DEFAULT_VALUE_NUMERIC" l).
  { unfold A2lLayoutModel.part, partOf, entryOf. rewrite (single_entries (itemsOf compuTabForm) "DefaultValueNumeric" "DEFAULT_VALUE_NUMERIC") by reflexivity.
    destruct (lastVal _ l) as [e|]; [destruct (e_val e); reflexivity|]. rewrite DN. reflexivity. }
  rewrite PD. unfold partOf. destruct d as [x|].
  - destruct DF as (t & LW & PT). destruct (entry_den _ _ _ _ _ "DEFAULT_VALUE_NUMERIC" defaultValueNumericForm _ EN ltac:(formOf_) LW) as (e & E & DE). rewrite E.
    inversion DE as [|? ? ? vs W EQ| |]; subst. row W. destruct (stands_float _ _ _ _ S) as (y & PY & ->). assert (y = x) by congruence. subst y. reflexivity.
  - rewrite (entryOf_none _ _ DF). reflexivity.
Qed.

Lemma vtab_words : forall pf ts v rows l nums d, den pf compuVtabForm ts v -> tableHas pf compuVtabForm "/end COMPU_VTAB" ts rows l ->
    Forall2 (fun r p => pf (fst r) = Some (fst p) /\ snd r = snd p) rows nums -> defaultOf Some "DEFAULT_VALUE" l d ->
    vtabOf v = vtab_of nums d.
Proof.
  intros pf ts v rows l nums d D H N DF.
  destruct (table_of "parseCompuVtab" parseCompuVtab pf "LongIdentifier" "LongIdentifierSet" Text (itemsOf compuVtabForm) "/end COMPU_VTAB" ts v rows l)
    as (o & ins & outs & -> & NE & FI & FO & SI & SO & RI & RO & DN & _ & _); [listed|listed|nodup|auto|right; left; reflexivity|exact D|exact H|].
  destruct H as (nm & lg & kd & ct & c & _ & _ & EN).
  assert (EI : ins = map fst nums).
  { clear - RI N. revert nums N. induction RI as [|r x rows ins PX RI IH]; intros nums N; inversion N as [|? y ? ? [P1 P2] N']; subst; [reflexivity|]. cbn. f_equal; [congruence|auto]. }
  assert (EO : outs = map (fun p => VStr (snd p)) nums).
  { clear - RO N. revert nums N. induction RO as [|r x rows outs PX RO IH]; intros nums N; inversion N as [|? y ? ? [P1 P2] N']; subst; [reflexivity|]. cbn. f_equal; [|auto].
    cbn in PX. congruence. }
  assert (NN : nonempty nums = true) by (destruct N; [contradiction|reflexivity]).
  assert (U : forall f, forallb (fun i => match i with Item _ f' _ _ => negb (String.eqb f f') end) (itemsOf compuVtabForm) = true -> fget f (addEntries (itemsOf compuVtabForm) l o) = fget f o)
    by (intros f UF; apply unowned; exact UF).
  unfold vtabOf, vtab_of, f64. cbn [objOf]. unfold flist, fbool in FI, FO, SI, SO |- *. rewrite !U by reflexivity. rewrite FI, FO, SI, SO, EI, EO, NN. rewrite !map_map.
  assert (PD : A2lLayoutModel.part "DefaultValue" (addEntries (itemsOf compuVtabForm) l o) = partOf "DEFAULT_VALUE" l).
  { unfold A2lLayoutModel.part, partOf, entryOf. rewrite (single_entries (itemsOf compuVtabForm) "DefaultValue" "DEFAULT_VALUE") by reflexivity.
    destruct (lastVal _ l) as [e|]; [destruct (e_val e); reflexivity|]. rewrite DN. reflexivity. }
  rewrite PD. unfold partOf. destruct d as [x|].
  - destruct DF as (t & LW & PT). destruct (entry_den _ _ _ _ _ "DEFAULT_VALUE" defaultValueForm _ EN ltac:(formOf_) LW) as (e & E & DE). rewrite E.
    inversion DE as [|? ? ? vs W EQ| |]; subst. row W. destruct S as (_ & _ & ->). injection PT as ->. reflexivity.
  - rewrite (entryOf_none _ _ DF). reflexivity.
Qed.

Lemma flat_rows3 : forall rows : list (bytes * bytes * bytes), length (flat_map (fun r => [fst (fst r); snd (fst r); snd r]) rows) = 3 * length rows.
Proof. induction rows as [|r rows IH]; [reflexivity|]. cbn [flat_map app length]. rewrite IH. lia. Qed.
Lemma flat_inj3 : forall rows rows' : list (bytes * bytes * bytes),
    flat_map (fun r => [fst (fst r); snd (fst r); snd r]) rows = flat_map (fun r => [fst (fst r); snd (fst r); snd r]) rows' -> rows = rows'.
Proof.
  induction rows as [|[[x y] z] rows IH]; intros [|[[x' y'] z'] rows'] E; try discriminate; [reflexivity|]. cbn in E. injection E as -> -> -> E. f_equal. apply IH. exact E.
Qed.

Definition rangeGroup : list param :=
  [Param Append "InValMin" (Some "InValMinSet") (Number NFloat); Param Append "InValMax" (Some "InValMaxSet") (Number NFloat); Param Append "OutVal" (Some "OutValSet") Text]%string.
Definition rangeParams : list param :=
  [P "Name" "NameSet" Text; P "LongIdentifier" "LongIdentifierSet" Text; P "NumberValueTriples" "NumberValueTriplesSet" (Number (NUint 16))]%string.
Definition textRows3 (rows : list (list bytes * list val)) : list (bytes * bytes * bytes) := map (fun r => (nth 0 (fst r) [], nth 1 (fst r) [], nth 2 (fst r) [])) rows.
Lemma range_words : forall pf ts v rows l nums d, den pf compuVtabRangeForm ts v -> rangesHas pf ts rows l ->
    Forall2 (fun r t => pf (fst (fst r)) = Some (t_lo t) /\ pf (snd (fst r)) = Some (t_hi t) /\ snd r = t_text t) rows nums -> defaultOf Some "DEFAULT_VALUE" l d ->
    rangeOf v = range_of nums d.
Proof.
  intros pf ts v rows l nums d D H N DF. pose proof D as D0. unfold compuVtabRangeForm in D. fold rangeGroup rangeParams in D. inversion D as [| | |? ? ? ? ? ? ws ts' c vs o o' W R PA]; subst.
  destruct H as (nm & lg & count & c' & E' & PU & EN). pose proof W as W0. unfold rangeParams in W. row W.
  cbn [app] in E'. injection E' as -> -> -> E'. pose proof R as R0. destruct R as (n & NP & N16 & CN & R).
  destruct S as (_ & _ & ->). destruct S0 as (_ & _ & ->). destruct S1 as (_ & _ & RN). cbn in RN. rewrite PU in RN. cbn in RN. injection RN as <-.
  assert (n = length rows) as -> by (cbn in CN; lia).
  destruct (repeats_rows _ _ _ _ _ _ _ _ R) as (rs & LR & ET & FR & K1 & K2 & _).
  assert (RW : Forall (fun r => exists t u w x y, r = ([t; u; w], [VFloat x; VFloat y; VStr w]) /\ pf t = Some x /\ pf u = Some y) rs).
  { refine (Forall_impl _ _ FR). intros [rt rv] WR. cbn [fst snd] in WR. unfold rangeGroup in WR. row WR.
    destruct (stands_float _ _ _ _ S) as (x & PX & ->). destruct (stands_float _ _ _ _ S0) as (y & PY & ->). destruct S1 as (_ & _ & ->).
    repeat eexists; eassumption. }
  assert (ET' : ts' = flat_map (fun r => [fst (fst r); snd (fst r); snd r]) (textRows3 rs)).
  { subst ts'. clear - RW. induction RW as [|r rs (t & u & w & x & y & -> & _) RW IH]; [reflexivity|]. cbn. rewrite IH. reflexivity. }
  destruct (app_inj_len _ _ _ _ _ E') as [A B]; [rewrite ET', !flat_rows3; unfold textRows3; rewrite map_length; exact (f_equal (fun n => 3 * n) LR)|]. destruct (ends_with _ _ _ _ _ B) as [-> _].
  rewrite ET' in A. apply flat_inj3 in A. subst rows.
  assert (C1 : forall m vs o0, length vs = length rangeGroup -> flist "InValMin" (stores m rangeGroup vs o0) = flist "InValMin" o0 ++ [nth 0 vs (VBool false)]).
  { intros m [|x [|y [|z [|]]]] o0 L; try discriminate. destruct m; cbv [stores combine fold_left rangeGroup store fst snd p_how p_field p_flag put mark]; unfold flist; rewrite !fget_fset; reflexivity. }
  assert (C2 : forall m vs o0, length vs = length rangeGroup -> flist "InValMax" (stores m rangeGroup vs o0) = flist "InValMax" o0 ++ [nth 1 vs (VBool false)]).
  { intros m [|x [|y [|z [|]]]] o0 L; try discriminate. destruct m; cbv [stores combine fold_left rangeGroup store fst snd p_how p_field p_flag put mark]; unfold flist; rewrite !fget_fset; reflexivity. }
  assert (C3 : forall m vs o0, length vs = length rangeGroup -> flist "OutVal" (stores m rangeGroup vs o0) = flist "OutVal" o0 ++ [nth 2 vs (VBool false)]).
  { intros m [|x [|y [|z [|]]]] o0 L; try discriminate. destruct m; cbv [stores combine fold_left rangeGroup store fst snd p_how p_field p_flag put mark]; unfold flist; rewrite !fget_fset; reflexivity. }
  apply K2 in C1. apply K2 in C2. apply K2 in C3. 
  assert (OT : forall f, forallb (spares f) rangeGroup = true -> fget f o = fget f (stores true rangeParams [VStr nm; VStr lg; VInt (Z.of_nat (length (textRows3 rs)))] (newMaps []))).
  { intros f SP. apply K1. intros m vs o0 _. apply stores_other. exact SP. }
  assert (VO : VObj (consts [] o') = VObj (addEntries (itemsOf compuVtabRangeForm) l o)).
  { refine (den_unique "parseCompuVtabRange" compuVtabRangeForm parseCompuVtabRange pf _ _ _ ltac:(listed) ltac:(listed) (fun t => eq_refl) D0 _).
    refine (d_block pf [] rangeParams _ (itemsOf compuVtabRangeForm) "/end COMPU_VTAB_RANGE" [] [nm; lg; count] ts' c' _ o _ W0 R0 (entries_parts _ _ _ _ _ EN ltac:(nodup) o)). }
  rewrite VO. clear VO D0 PA.
  assert (U : forall f, forallb (fun i => match i with Item _ f' _ _ => negb (String.eqb f f') end) (itemsOf compuVtabRangeForm) = true -> fget f (addEntries (itemsOf compuVtabRangeForm) l o) = fget f o)
    by (intros f UF; apply unowned; exact UF).
  assert (PD : A2lLayoutModel.part "DefaultValue" (addEntries (itemsOf compuVtabRangeForm) l o) = partOf "DEFAULT_VALUE" l).
  { unfold A2lLayoutModel.part, partOf, entryOf. rewrite (single_entries (itemsOf compuVtabRangeForm) "DefaultValue" "DEFAULT_VALUE") by reflexivity.
    destruct (lastVal _ l) as [e|]; [destruct (e_val e); reflexivity|]. rewrite OT by reflexivity. reflexivity. }
  assert (EX : map floatOf (flist "InValMin" o) = map t_lo nums /\ map floatOf (flist "InValMax" o) = map t_hi nums /\ map textOf (flist "OutVal" o) = map t_text nums /\ length rs = length nums).
  { rewrite C1, C2, C3. cbn [app flist]. clear - RW N. remember (textRows3 rs) as rows eqn:ER in N. revert rs RW ER. induction N as [|r t rows nums (P1 & P2 & P3) N IH]; intros [|r' rs] RW ER; try discriminate.
    - repeat split; reflexivity.
    - inversion RW as [|? ? (t0 & u & w & x & y & -> & PX & PY) RW']; subst. cbn in ER. injection ER as -> ER. destruct (IH rs RW' ER) as (I1 & I2 & I3 & I4). cbn in P1, P2, P3.
      rewrite PX in P1. rewrite PY in P2. injection P1 as ->. injection P2 as ->. rewrite P3.
      cbn in I1, I2, I3 |- *. rewrite I1, I2, I3, I4. repeat split; reflexivity. }
  destruct EX as (E1 & E2 & E3 & E4).
  unfold rangeOf, range_of. cbn [objOf]. unfold fint, fbool. unfold flist in E1, E2, E3 |- *. rewrite !U by reflexivity. rewrite E1, E2, E3.
  rewrite !OT by reflexivity. rewrite PD. rewrite <- E4. unfold textRows3. rewrite map_length.
  assert (DV : (fstr "DisplayString" (partOf "DEFAULT_VALUE" l), fbool "DisplayStringSet" (partOf "DEFAULT_VALUE" l)) = (match d with Some x => x | None => [] end, match d with Some _ => true | None => false end)).
  { unfold partOf. destruct d as [x|].
    - destruct DF as (t & LW & PT). destruct (entry_den _ _ _ _ _ "DEFAULT_VALUE" defaultValueForm _ EN ltac:(formOf_) LW) as (e & E & DE). rewrite E.
      inversion DE as [|? ? ? vs W EQ| |]; subst. row W. destruct S as (_ & _ & ->). injection PT as ->. reflexivity.
    - rewrite (entryOf_none _ _ DF). reflexivity. }
  injection DV as DV1 DV2. unfold fbool in DV2. rewrite DV1, DV2. f_equal. rewrite <- Znat.Z_nat_N. exact (f_equal N.of_nat (Znat.Nat2Z.id _)).
Qed.

(** ** Tables of a module *)

(** The chosen module of [cd] is described by words with the entries [lm]. *)
Definition chosen (pf : bytes -> option spec_float) (cd : ValuesModel.calib) (lm : list entry) : Prop :=
  exists ws v, den pf moduleRead ws v /\ moduleHas pf ws lm /\ nth_error (ValuesModel.cd_modules cd) (ValuesModel.cd_index cd) = Some v.

Lemma chosen_map : forall pf cd lm, chosen pf cd lm -> exists m, ValuesModel.theModule cd = Some m /\
    forall kw f key, kindOk (itemsOf moduleRead) moduleMapsOf moduleParams kw f key = true -> forall k v,
      A2lModSpec.mget k (fmap f m) = Some v <-> exists e, lastSuch (isNamed kw k) lm e /\ e_val e = v.
Proof.
  intros pf cd lm (ws & v & D & H & NE). destruct (module_entries _ _ _ D) as [_ U]. destruct (U lm H) as (vs & ->). clear U. destruct H as (n & lg & c & _ & EN).
  eexists. split; [unfold ValuesModel.theModule; rewrite NE; reflexivity|]. intros kw f key KO k w. apply (map_entries _ _ _ _ _ _ _ _ _ _ _ EN KO).
Qed.
(** the entry of a module *)
Definition modForm (kw : string) (f : form) : Prop := forall f' p sub, In (Item kw f' p sub) (itemsOf moduleRead) -> sub = f.
Ltac modForm_ := let I := fresh in intros ? ? ? I; cbn [itemsOf moduleRead] in I;
  repeat (destruct I as [I|I]; [injection I; intros; subst; (discriminate || reflexivity)|]); destruct I.
Lemma chosen_den : forall pf cd lm kw f e P, chosen pf cd lm -> modForm kw f -> lastSuch P lm e -> e_kw e = kw -> den pf f (e_words e) (e_val e).
Proof.
  intros pf cd lm kw f e P (ws & v & D & (n & lg & c & _ & EN) & _) MF L K. destruct (lastSuch_in _ _ _ L) as [I _].
  destruct (entries_in _ _ _ _ _ _ EN I) as (f' & p & sub & II & DE). rewrite K in II. rewrite <- (MF _ _ _ II). exact DE.
Qed.
Lemma not_named : forall kw k l m f, (forall v : val, A2lModSpec.mget k (fmap f m) = Some v <-> exists e, lastSuch (isNamed kw k) l e /\ e_val e = v) ->
    (forall e, In e l -> ~ isNamed kw k e) -> A2lModSpec.mget k (fmap f m) = None.
Proof.
  intros kw k l m f H NO. destruct (A2lModSpec.mget k (fmap f m)) as [v|]; [|reflexivity]. destruct (proj1 (H v) eq_refl) as (e & LS & _). destruct (lastSuch_in _ _ _ LS) as [I N]. destruct (NO e I N).
Qed.

Lemma tab_method : forall pf ts v l t, den pf compuMethodForm ts v -> methodHas pf ts "TAB_NOINTP" l -> lastWords "COMPU_TAB_REF" l (Some [t]) ->
    cm_type (methodOf v) = TabNointp /\ cm_tabRef (methodOf v) = t.
Proof.
  intros pf ts v l t D H LW. rewrite (method_of _ _ _ _ _ D H). split; [reflexivity|]. destruct H as (name & long & fm & un & c & _ & EN).
  destruct (entry_den _ _ _ _ _ "COMPU_TAB_REF" compuTabRefForm _ EN ltac:(formOf_) LW) as (e & EO & DE).
  unfold partOf. cbn [cm_tabRef]. rewrite EO. inversion DE as [|? ? ? vs W EQ| |]; subst. row W. destruct S as (_ & _ & ->). reflexivity.
Qed.

(** TAB_NOINTP with a table: the output of the first row with this input, else
    the default, else an error. *)
Theorem C71_table : forall pf cd lm ts v l t e rows lt nums d dec, chosen pf cd lm ->
    den pf compuMethodForm ts v -> methodHas pf ts "TAB_NOINTP" l -> lastWords "COMPU_TAB_REF" l (Some [t]) ->
    lastSuch (isNamed "/begin COMPU_TAB" t) lm e -> tableHas pf compuTabForm "/end COMPU_TAB" (e_words e) rows lt ->
    Forall2 (fun r p => pf (fst r) = Some (fst p) /\ pf (snd r) = Some (snd p)) rows nums -> defaultOf pf "DEFAULT_VALUE_NUMERIC" lt d ->
    canon dec -> Forall (fun p => canon (fst p)) nums ->
    (forall o, first_entry dec nums o -> decToPhy dec v cd = Ret o None)
    /\ (forall x, no_entry dec nums -> d = Some x -> decToPhy dec v cd = Ret x None)
    /\ (no_entry dec nums -> d = None -> exists r err, decToPhy dec v cd = Ret r (Some err)).
Proof.
  intros pf cd lm ts v l t e rows lt nums d dec CH D H LW LE HT N DF CD CN. destruct (tab_method _ _ _ _ _ D H LW) as [T R].
  pose proof (proj1 (proj2 (lastSuch_in _ _ _ LE))) as KW.
  pose proof (tab_words _ _ _ _ _ _ _ (chosen_den _ _ _ "/begin COMPU_TAB" compuTabForm _ _ CH ltac:(modForm_) LE KW) HT N DF) as TW.
  destruct (chosen_map _ _ _ CH) as (m & EM & MM). specialize (MM "/begin COMPU_TAB" "CompuTabs" "Name" ltac:(vm_compute; reflexivity) t (e_val e))%string.
  unfold decToPhy. rewrite EM. apply (C36_table _ _ nums d dec T); [|exact CD|exact CN]. unfold tablesOf. cbn [mod_tabs]. rewrite R, sfind_onValues.
  rewrite (proj2 MM (ex_intro _ e (conj LE eq_refl))). cbn [option_map]. rewrite TW. reflexivity.
Qed.
Print Assumptions C71_table.

Theorem C71_table_missing : forall pf cd lm ts v l t dec, chosen pf cd lm ->
    den pf compuMethodForm ts v -> methodHas pf ts "TAB_NOINTP" l -> lastWords "COMPU_TAB_REF" l (Some [t]) ->
    (forall e, In e lm -> ~ isNamed "/begin COMPU_TAB" t e) -> exists r err, decToPhy dec v cd = Ret r (Some err).
Proof.
  intros pf cd lm ts v l t dec CH D H LW NO. destruct (tab_method _ _ _ _ _ D H LW) as [T R].
  destruct (chosen_map _ _ _ CH) as (m & EM & MM). specialize (MM "/begin COMPU_TAB" "CompuTabs" "Name" ltac:(vm_compute; reflexivity) t)%string.
  unfold decToPhy. rewrite EM. apply C36_no_table; [exact T|]. unfold tablesOf. cbn [mod_tabs]. rewrite R, sfind_onValues. rewrite (not_named _ _ _ _ _ MM NO). reflexivity.
Qed.
Print Assumptions C71_table_missing.

(** Verbal tables *)
Lemma vtab_name : forall pf ts v, den pf compuVtabForm ts v -> fstr "Name" (objOf v) = hd [] ts.
Proof. intros pf ts v D. pose proof (den_name pf "Name" compuVtabForm ts v eq_refl D) as K. unfold keyOf in K. destruct v; exact K. Qed.
Lemma range_name : forall pf ts v, den pf compuVtabRangeForm ts v -> fstr "Name" (objOf v) = hd [] ts.
Proof. intros pf ts v D. pose proof (den_name pf "Name" compuVtabRangeForm ts v eq_refl D) as K. unfold keyOf in K. destruct v; exact K. Qed.

Theorem C71_verbal : forall pf cd lm k e rows lt nums d dec, chosen pf cd lm ->
    lastSuch (isNamed "/begin COMPU_VTAB" k) lm e -> tableHas pf compuVtabForm "/end COMPU_VTAB" (e_words e) rows lt ->
    Forall2 (fun r p => pf (fst r) = Some (fst p) /\ snd r = snd p) rows nums -> defaultOf Some "DEFAULT_VALUE" lt d ->
    canon dec -> Forall (fun p => canon (fst p)) nums ->
    (forall o, first_entry dec nums o -> verbalOf dec (e_val e) cd = Ret o None)
    /\ (forall x, no_entry dec nums -> d = Some x -> verbalOf dec (e_val e) cd = Ret x None)
    /\ (no_entry dec nums -> d = None -> exists r err, verbalOf dec (e_val e) cd = Ret r (Some err)).
Proof.
  intros pf cd lm k e rows lt nums d dec CH LE HT N DF CD CN.
  pose proof (proj2 (lastSuch_in _ _ _ LE)) as [KW NM].
  pose proof (chosen_den _ _ _ "/begin COMPU_VTAB" compuVtabForm _ _ CH ltac:(modForm_) LE KW) as DE. pose proof (vtab_words _ _ _ _ _ _ _ DE HT N DF) as TW.
  assert (NE : nums <> []).
  { destruct (table_of "parseCompuVtab" parseCompuVtab pf "LongIdentifier" "LongIdentifierSet" Text (itemsOf compuVtabForm) "/end COMPU_VTAB" (e_words e) (e_val e) rows lt)
      as (? & ? & ? & _ & NR & _); [listed|listed|nodup|auto|right; left; reflexivity|exact DE|exact HT|]. intros ->. inversion N. subst rows. contradiction. }
  destruct (chosen_map _ _ _ CH) as (m & EM & MM). specialize (MM "/begin COMPU_VTAB" "CompuVTabs" "Name" ltac:(vm_compute; reflexivity) k (e_val e))%string.
  unfold verbalOf. rewrite EM, (vtab_name _ _ _ DE), NM. apply (C37_verbal_guarded _ _ nums d dec NE); [|exact CD|exact CN]. unfold tablesOf. cbn [mod_vtabs]. rewrite sfind_onValues.
  rewrite (proj2 MM (ex_intro _ e (conj LE eq_refl))). cbn [option_map]. rewrite TW. reflexivity.
Qed.
Print Assumptions C71_verbal.

(** Range tables: always the default, whatever the rows. *)
Theorem C71_range_refuted : forall pf cd lm k e rows lt nums d dec, chosen pf cd lm ->
    lastSuch (isNamed "/begin COMPU_VTAB_RANGE" k) lm e -> rangesHas pf (e_words e) rows lt ->
    Forall2 (fun r t => pf (fst (fst r)) = Some (t_lo t) /\ pf (snd (fst r)) = Some (t_hi t) /\ snd r = t_text t) rows nums -> defaultOf Some "DEFAULT_VALUE" lt d ->
    rangeTextOf dec (e_val e) cd = match d with Some x => Ret x None | None => Ret [] (Some CNoDefault) end.
Proof.
  intros pf cd lm k e rows lt nums d dec CH LE HT N DF.
  pose proof (proj2 (lastSuch_in _ _ _ LE)) as [KW NM].
  pose proof (chosen_den _ _ _ "/begin COMPU_VTAB_RANGE" compuVtabRangeForm _ _ CH ltac:(modForm_) LE KW) as DE. pose proof (range_words _ _ _ _ _ _ _ DE HT N DF) as TW.
  destruct (chosen_map _ _ _ CH) as (m & EM & MM). specialize (MM "/begin COMPU_VTAB_RANGE" "CompuVTabRanges" "Name" ltac:(vm_compute; reflexivity) k (e_val e))%string.
  unfold rangeTextOf. rewrite EM, (range_name _ _ _ DE), NM. apply (C38_range_refuted _ _ nums d dec). unfold tablesOf. cbn [mod_ranges]. rewrite sfind_onValues.
  rewrite (proj2 MM (ex_intro _ e (conj LE eq_refl))). cbn [option_map]. rewrite TW. reflexivity.
Qed.
Print Assumptions C71_range_refuted.

(** ** No panics *)

Lemma search_no_panic : forall A dec ins (outs : list A) i r, i + length ins <= length outs -> searchLoop dec ins outs i = Some r -> r <> CPanic.
Proof.
  intros A dec ins. induction ins as [|x ins IH]; intros outs i r L E; [discriminate|]. cbn in L, E. destruct (feqb dec x).
  - injection E as <-. destruct (nth_error outs i) eqn:NE; [discriminate|]. apply nth_error_None in NE. lia.
  - eapply IH; [|exact E]. lia.
Qed.
Lemma columns_table : forall name g pf long longSet ty its stop ts v, In (name, tableForm long longSet ty its stop) readForms -> In (name, g) allParsers -> NoDup (kws its) -> ty = Text \/ ty = Number NFloat ->
    In (long, longSet) [("longIdentifier", "longIdentifierSet"); ("LongIdentifier", "LongIdentifierSet")]%string ->
    den pf (tableForm long longSet ty its stop) ts v -> exists rows l, tableHas pf (tableForm long longSet ty its stop) stop ts rows l.
Proof.
  intros name g pf long longSet ty its stop ts v I1 I2 ND TY LS D. unfold tableForm in D. inversion D as [| | |? ? ? ? ? ? ws ts' c vs o o' W R PA]; subst.
  destruct (parts_entries _ _ _ _ _ _ PA ND) as (l & EN & _). unfold tableParams in W. row W. destruct R as (n & NP & N16 & CN & R).
  destruct S as (_ & _ & ->). destruct S0 as (_ & _ & ->). destruct S1 as (_ & _ & ->). destruct S2 as (_ & _ & RN). cbn in RN.
  destruct (ParseUint 16 t2) as [u|] eqn:PU; [|discriminate]. cbn in RN. injection RN as <-.
  assert (EU : u = Z.of_nat n) by (destruct LS as [LS|[LS|[]]]; injection LS as <- <-; cbn in CN; lia).
  destruct (repeats_rows _ _ _ _ _ _ _ _ R) as (rs & LR & ET & FR & _).
  exists (textRows rs), l. exists t, t0, t1, t2, c. split; [|split].
  - cbn [app]. do 5 f_equal. subst ts'. clear - FR TY. induction FR as [|[rt rv] rs WR FR IH]; [reflexivity|]. cbn [fst snd] in WR. unfold tableGroup in WR. row WR. cbn. rewrite IH. reflexivity.
  - rewrite PU, EU. do 2 f_equal. unfold textRows. rewrite map_length. symmetry. exact LR.
  - exact EN.
Qed.

Lemma Forall2_len : forall A B (R : A -> B -> Prop) l l', Forall2 R l l' -> length l = length l'.
Proof. intros A B R l l' F. induction F; cbn; congruence. Qed.
Lemma columns : forall name g pf long longSet ty its stop ts v, In (name, tableForm long longSet ty its stop) readForms -> In (name, g) allParsers -> NoDup (kws its) -> ty = Text \/ ty = Number NFloat ->
    In (long, longSet) [("longIdentifier", "longIdentifierSet"); ("LongIdentifier", "LongIdentifierSet")]%string ->
    forallb (fun i => match i with Item _ f' _ _ => negb (String.eqb "InVal" f') end) its = true -> forallb (fun i => match i with Item _ f' _ _ => negb (String.eqb "OutVal" f') end) its = true ->
    den pf (tableForm long longSet ty its stop) ts v -> length (flist "InVal" (objOf v)) = length (flist "OutVal" (objOf v)).
Proof.
  intros name g pf long longSet ty its stop ts v I1 I2 ND TY LS U1 U2 D. destruct (columns_table name g pf long longSet ty its stop ts v I1 I2 ND TY LS D) as (rows & l & H).
  destruct (table_of name g pf long longSet ty its stop ts v rows l I1 I2 ND TY LS D H) as (o & ins & outs & -> & _ & FI & FO & _ & _ & RI & RO & _). cbn [objOf].
  unfold flist in FI, FO |- *. rewrite (unowned its "InVal" U1), (unowned its "OutVal" U2). rewrite FI, FO, map_length. rewrite <- (Forall2_len _ _ _ _ _ RI), <- (Forall2_len _ _ _ _ _ RO). reflexivity.
Qed.
Lemma range_columns : forall pf ts v, den pf compuVtabRangeForm ts v -> exists rows l nums d, rangesHas pf ts rows l /\
    Forall2 (fun r t => pf (fst (fst r)) = Some (t_lo t) /\ pf (snd (fst r)) = Some (t_hi t) /\ snd r = t_text t) rows nums /\ defaultOf Some "DEFAULT_VALUE" l d.
Proof.
  intros pf ts v D. unfold compuVtabRangeForm in D. fold rangeGroup rangeParams in D. inversion D as [| | |? ? ? ? ? ? ws ts' c vs o o' W R PA]; subst.
  destruct (parts_entries _ _ _ _ _ _ PA ltac:(nodup)) as (l & EN & _). unfold rangeParams in W. row W. destruct R as (n & NP & N16 & CN & R).
  destruct S as (_ & _ & ->). destruct S0 as (_ & _ & ->). destruct S1 as (_ & _ & RN). cbn in RN.
  destruct (ParseUint 16 t1) as [u|] eqn:PU; [|discriminate]. cbn in RN. injection RN as <-.
  assert (EU : u = Z.of_nat n) by (cbn in CN; lia).
  destruct (repeats_rows _ _ _ _ _ _ _ _ R) as (rs & LR & ET & FR & _).
  assert (RW : Forall (fun r => exists t u w x y, r = ([t; u; w], [VFloat x; VFloat y; VStr w]) /\ pf t = Some x /\ pf u = Some y) rs).
  { refine (Forall_impl _ _ FR). intros [rt rv] WR. cbn [fst snd] in WR. unfold rangeGroup in WR. row WR.
    destruct (stands_float _ _ _ _ S) as (x & PX & ->). destruct (stands_float _ _ _ _ S0) as (y & PY & ->). destruct S1 as (_ & _ & ->). repeat eexists; eassumption. }
  exists (textRows3 rs), l.
  assert (NU : exists nums, Forall2 (fun r t => pf (fst (fst r)) = Some (t_lo t) /\ pf (snd (fst r)) = Some (t_hi t) /\ snd r = t_text t) (textRows3 rs) nums).
  { clear - RW. induction RW as [|r rs (t & u & w & x & y & -> & PX & PY) RW (nums & IH)]; [exists []; constructor|]. exists (Triple x y w :: nums). constructor; [cbn; auto|exact IH]. }
  destruct NU as (nums & NU).
  assert (DD : exists d, defaultOf Some "DEFAULT_VALUE" l d).
  { destruct (lastVal (fun e => String.eqb (e_kw e) "DEFAULT_VALUE") l) as [e|] eqn:LV.
    - pose proof (proj1 (lastVal_such (isKw "DEFAULT_VALUE") _ l e (fun x _ => String.eqb_eq _ _)) LV) as LS.
      destruct (entry_den _ _ _ _ _ "DEFAULT_VALUE" defaultValueForm (e_words e) EN ltac:(formOf_) (ex_intro _ e (conj LS eq_refl))) as (e' & _ & DE).
      inversion DE as [|? ? ? vs W EQ| |]. row W. exists (Some t2). exists t2. split; [|reflexivity]. exists e. split; [exact LS|congruence].
    - exists None. intros e I. apply lastVal_none in LV. rewrite Forall_forall in LV. apply String.eqb_neq. exact (LV e I). }
  destruct DD as (d & DD). exists nums, d. split; [|split; assumption]. exists t, t0, t1, c. split; [|split].
  - cbn [app]. do 4 f_equal. subst ts'. clear - RW. induction RW as [|r rs (t & u & w & x & y & -> & _) RW IH]; [reflexivity|]. cbn. rewrite IH. reflexivity.
  - rewrite PU, EU. do 2 f_equal. unfold textRows3. rewrite map_length. symmetry. exact LR.
  - exact EN.
Qed.

Lemma ratfunc_no_panic : forall dec cm, calcRatFunc dec cm <> CPanic.
Proof. intros dec cm. unfold calcRatFunc. cbv zeta. repeat match goal with |- (if ?c then _ else _) <> _ => destruct c end; discriminate. Qed.

(** With a described module no conversion panics, whatever the method or table asked for. *)
Theorem C71_no_panic_guarded : forall pf cd lm dec v, chosen pf cd lm -> decToPhy dec v cd <> CPanic /\ verbalOf dec v cd <> CPanic /\ rangeTextOf dec v cd <> CPanic.
Proof.
  intros pf cd lm dec v CH. destruct (chosen_map _ _ _ CH) as (m & EM & MM). unfold decToPhy, verbalOf, rangeTextOf. rewrite EM.
  split; [|split].
  - unfold convDecToPhy. destruct (cm_type (methodOf v)); try discriminate.
    + destruct (negb _); discriminate.
    + destruct (negb _); [discriminate|]. pose proof (ratfunc_no_panic dec (methodOf v)). destruct (calcRatFunc dec (methodOf v)) as [? [|]|]; [discriminate|discriminate|contradiction].
    + unfold calcTabNoIntp. unfold tablesOf. cbn [mod_tabs]. rewrite sfind_onValues.
      specialize (MM "/begin COMPU_TAB" "CompuTabs" "Name" ltac:(vm_compute; reflexivity) (cm_tabRef (methodOf v)))%string.
      destruct (A2lModSpec.mget _ _) as [w|]; cbn [option_map].
      * destruct (proj1 (MM w) eq_refl) as (e & LE & <-). pose proof (proj2 (lastSuch_in _ _ _ LE)) as [KW NM].
        pose proof (chosen_den _ _ _ "/begin COMPU_TAB" compuTabForm _ _ CH ltac:(modForm_) LE KW) as DE.
        assert (CL : length (flist "InVal" (objOf (e_val e))) = length (flist "OutVal" (objOf (e_val e)))).
        { apply (columns "parseCompuTab" parseCompuTab pf "longIdentifier" "longIdentifierSet" (Number NFloat) (itemsOf compuTabForm) "/end COMPU_TAB" (e_words e));
            [listed|listed|nodup|auto|left; reflexivity|reflexivity|reflexivity|exact DE]. }
        destruct (ct_inSet _ && ct_outSet _); [|destruct (ct_defaultSet _); discriminate].
        destruct (searchLoop _ _ _ _) as [r|] eqn:SL; [|destruct (ct_defaultSet _); discriminate].
        assert (r <> CPanic) by (eapply search_no_panic; [|exact SL]; unfold tabOf; cbn [ct_in ct_out]; rewrite !map_length; lia).
        destruct r as [? [|]|]; [discriminate|discriminate|contradiction].
      * cbn. discriminate.
  - unfold calcTabVerb, tablesOf. cbn [mod_vtabs]. rewrite sfind_onValues.
    specialize (MM "/begin COMPU_VTAB" "CompuVTabs" "Name" ltac:(vm_compute; reflexivity) (fstr "Name" (objOf v)))%string.
    destruct (A2lModSpec.mget _ _) as [w|]; cbn [option_map]; [|discriminate].
    destruct (proj1 (MM w) eq_refl) as (e & LE & <-). pose proof (proj2 (lastSuch_in _ _ _ LE)) as [KW NM].
    pose proof (chosen_den _ _ _ "/begin COMPU_VTAB" compuVtabForm _ _ CH ltac:(modForm_) LE KW) as DE.
    assert (CL : length (flist "InVal" (objOf (e_val e))) = length (flist "OutVal" (objOf (e_val e)))).
    { apply (columns "parseCompuVtab" parseCompuVtab pf "LongIdentifier" "LongIdentifierSet" Text (itemsOf compuVtabForm) "/end COMPU_VTAB" (e_words e));
        [listed|listed|nodup|auto|right; left; reflexivity|reflexivity|reflexivity|exact DE]. }
    destruct (cv_inSet _ && cv_outSet _); [|discriminate].
    destruct (searchLoop _ _ _ _) as [r|] eqn:SL; [|destruct (cv_defaultSet _); discriminate].
    eapply search_no_panic; [|exact SL]. unfold vtabOf. cbn [cv_in cv_out]. rewrite !map_length. lia.
  - pose proof (fun k e rows lt nums d => C71_range_refuted pf cd lm k e rows lt nums d dec CH) as CR. 
    unfold calcTabVerbRange, tablesOf. cbn [mod_ranges]. rewrite sfind_onValues.
    specialize (MM "/begin COMPU_VTAB_RANGE" "CompuVTabRanges" "Name" ltac:(vm_compute; reflexivity) (fstr "Name" (objOf v)))%string.
    destruct (A2lModSpec.mget _ _) as [w|] eqn:MG; cbn [option_map]; [|discriminate].
    destruct (proj1 (MM w) eq_refl) as (e & LE & <-). pose proof (proj2 (lastSuch_in _ _ _ LE)) as [KW NM].
    pose proof (chosen_den _ _ _ "/begin COMPU_VTAB_RANGE" compuVtabRangeForm _ _ CH ltac:(modForm_) LE KW) as DE.
    destruct (range_columns _ _ _ DE) as (rows & l & nums & d & HR & N & DF). specialize (CR _ _ _ _ _ _ LE HR N DF).
    unfold rangeTextOf in CR. rewrite EM, (range_name _ _ _ DE), NM in CR. unfold calcTabVerbRange, tablesOf in CR. cbn [mod_ranges] in CR. rewrite sfind_onValues, MG in CR. cbn [option_map] in CR.
    rewrite CR. destruct d; discriminate.
Qed.
Print Assumptions C71_no_panic_guarded.

(** Otherwise: parseCompuVtabRange accepts fewer rows than announced, and the
    conversion then panics. *)
Definition shortRange : list bytes := map b ["M"; "a module"; "/begin COMPU_VTAB_RANGE"; "R"; "a table"; "2"; "0"; "0"; "low"; "DEFAULT_VALUE"; "else"; "/end COMPU_VTAB_RANGE"; "/end MODULE"; ""]%string.
Theorem C71_short_refuted : exists pf toks v j, ended toks /\ returns toks pf parseModule 0 v false j /\
    forall cd dec cvr, nth_error (ValuesModel.cd_modules cd) (ValuesModel.cd_index cd) = Some v -> fstr "Name" (objOf cvr) = b "R" -> rangeTextOf dec cvr cd = CPanic.
Proof.
  exists zeroFloat, (b "/begin MODULE" :: shortRange). do 2 eexists. split; [exists (removelast (b "/begin MODULE" :: shortRange)); reflexivity|]. split.
  - apply (A2lModProps.returns_run 50). vm_compute. reflexivity.
  - intros cd dec cvr NE NM. unfold rangeTextOf, ValuesModel.theModule. rewrite NE. cbn [option_map]. rewrite NM.
    eapply C38_short_refuted; vm_compute; [reflexivity|reflexivity|repeat constructor].
Qed.
Print Assumptions C71_short_refuted.

(** Files with several modules: each module, once chosen, is as above. *)
Theorem C71_file : forall gr pf cpus ts a, 0 < cpus -> tableOk gr -> describes pf projectRead ts a -> Forall writable ts -> (1 < moduleCount ts mod 2 ^ 32)%N ->
    forall r, parseFromFile gr pf cpus (Some (write ts)) r -> exists a', r = Returned a' false /\
      forall n hex words lm, fileModule pf ts n words -> moduleHas pf words lm -> chosen pf (calibOf a' n hex) lm.
Proof.
  intros gr pf cpus ts a CP G D W MC r H. apply (C69_sequential gr pf cpus ts a CP G D W MC) in H. exists a. split; [exact H|]. intros n hex words lm FM HM.
  destruct (file_module _ _ _ _ _ D FM) as (v & NE & DV). exists words, v. auto.
Qed.
Print Assumptions C71_file.

(** ** Examples *)

(** decimal numbers below 2^16 *)
Definition smallFloat : bytes -> option spec_float := fun t => option_map f_of_Z (ParseUint 16 t).

Definition kWords : list bytes := map b ["K"; "a method"; "TAB_NOINTP"; "%4.2"; "m"; "COMPU_TAB_REF"; "T"; "/end COMPU_METHOD"]%string.
Definition lWords : list bytes := map b ["L"; "a method"; "LINEAR"; "%4.2"; "m"; "COEFFS_LINEAR"; "2"; "3"; "/end COMPU_METHOD"]%string.
Definition qWords : list bytes := map b ["Q"; "a method"; "RAT_FUNC"; "%4.2"; "m"; "COEFFS"; "0"; "1"; "2"; "0"; "0"; "1"; "/end COMPU_METHOD"]%string.
Definition tWords : list bytes := map b ["T"; "a table"; "TAB_NOINTP"; "2"; "1"; "10"; "2"; "20"; "DEFAULT_VALUE_NUMERIC"; "99"; "/end COMPU_TAB"]%string.
Definition vWords : list bytes := map b ["V"; "a table"; "TAB_VERB"; "2"; "1"; "on"; "2"; "off"; "DEFAULT_VALUE"; "else"; "/end COMPU_VTAB"]%string.
Definition rWords : list bytes := map b ["R"; "a table"; "2"; "0"; "10"; "low"; "10"; "20"; "high"; "DEFAULT_VALUE"; "else"; "/end COMPU_VTAB_RANGE"]%string.
Definition convWords : list bytes := map b ["M"; "a module"]%string ++
  (b "/begin COMPU_METHOD" :: kWords) ++ (b "/begin COMPU_METHOD" :: lWords) ++ (b "/begin COMPU_METHOD" :: qWords) ++
  (b "/begin COMPU_TAB" :: tWords) ++ (b "/begin COMPU_VTAB" :: vWords) ++ (b "/begin COMPU_VTAB_RANGE" :: rWords) ++ [b "/end MODULE"].


Definition valOf (f : form) (ws : list bytes) : val := match describe smallFloat 10 f ws with Some (v, _) => v | None => VBool false end.
Definition eK : entry := Entry "/begin COMPU_METHOD" kWords (valOf compuMethodForm kWords).
Definition eL : entry := Entry "/begin COMPU_METHOD" lWords (valOf compuMethodForm lWords).
Definition eQ : entry := Entry "/begin COMPU_METHOD" qWords (valOf compuMethodForm qWords).
Definition eT : entry := Entry "/begin COMPU_TAB" tWords (valOf compuTabForm tWords).
Definition eV : entry := Entry "/begin COMPU_VTAB" vWords (valOf compuVtabForm vWords).
Definition eR : entry := Entry "/begin COMPU_VTAB_RANGE" rWords (valOf compuVtabRangeForm rWords).
Definition convEntries : list entry := [eK; eL; eQ; eT; eV; eR].
Definition convCalib : ValuesModel.calib := ValuesModel.Calib [valOf moduleRead convWords] 0 [].

Ltac item_in := cbn [itemsOf moduleRead compuMethodForm compuTabForm compuVtabForm compuVtabRangeForm In]; tauto.
Ltac entry_ kw f p sub ws rest v l := refine (en_cons _ _ _ kw f p sub ws rest v l _ _ _ _); [item_in|apply (den_run 10); vm_compute; reflexivity|reflexivity|].
Lemma conv_chosen : chosen smallFloat convCalib convEntries.
Proof.
  exists convWords. eexists. split; [apply (den_run 10); vm_compute; reflexivity|]. split; [|vm_compute; reflexivity].
  exists (b "M"), (b "a module"). exists ((b "/begin COMPU_METHOD" :: kWords) ++ (b "/begin COMPU_METHOD" :: lWords) ++ (b "/begin COMPU_METHOD" :: qWords) ++
    (b "/begin COMPU_TAB" :: tWords) ++ (b "/begin COMPU_VTAB" :: vWords) ++ (b "/begin COMPU_VTAB_RANGE" :: rWords)). split; [reflexivity|].
  refine (en_cons _ _ _ "/begin COMPU_METHOD" "CompuMethods" (Under "Name") compuMethodForm kWords _ (valOf compuMethodForm kWords) _ _ _ _ _); [item_in|apply (den_run 10); vm_compute; reflexivity|reflexivity|].
  refine (en_cons _ _ _ "/begin COMPU_METHOD" "CompuMethods" (Under "Name") compuMethodForm lWords _ (valOf compuMethodForm lWords) _ _ _ _ _); [item_in|apply (den_run 10); vm_compute; reflexivity|reflexivity|].
  refine (en_cons _ _ _ "/begin COMPU_METHOD" "CompuMethods" (Under "Name") compuMethodForm qWords _ (valOf compuMethodForm qWords) _ _ _ _ _); [item_in|apply (den_run 10); vm_compute; reflexivity|reflexivity|].
  refine (en_cons _ _ _ "/begin COMPU_TAB" "CompuTabs" (Under "Name") compuTabForm tWords _ (valOf compuTabForm tWords) _ _ _ _ _); [item_in|apply (den_run 10); vm_compute; reflexivity|reflexivity|].
  refine (en_cons _ _ _ "/begin COMPU_VTAB" "CompuVTabs" (Under "Name") compuVtabForm vWords _ (valOf compuVtabForm vWords) _ _ _ _ _); [item_in|apply (den_run 10); vm_compute; reflexivity|reflexivity|].
  refine (en_cons _ _ _ "/begin COMPU_VTAB_RANGE" "CompuVTabRanges" (Under "Name") compuVtabRangeForm rWords [] (valOf compuVtabRangeForm rWords) [] _ _ _ _); [item_in|apply (den_run 10); vm_compute; reflexivity|reflexivity|].
  constructor.
Qed.
Ltac last_ l1 l2 := exists l1, l2; split; [reflexivity|]; split; [split; reflexivity|]; repeat constructor; intros [A B]; discriminate.
Ltac lastkw l1 l2 := exists l1, l2; split; [reflexivity|]; split; [reflexivity|]; repeat constructor; discriminate.

(** Methods: TAB_NOINTP, LINEAR, RAT_FUNC *)
Example C71_methods_example :
  (exists l, den smallFloat compuMethodForm kWords (valOf compuMethodForm kWords) /\ methodHas smallFloat kWords "TAB_NOINTP" l /\ lastWords "COMPU_TAB_REF" l (Some [b "T"]))
  /\ (exists l, den smallFloat compuMethodForm lWords (valOf compuMethodForm lWords) /\ methodHas smallFloat lWords "LINEAR" l /\ lastWords "COEFFS_LINEAR" l (Some [b "2"; b "3"])
      /\ decToPhy (f_of_Z 5) (valOf compuMethodForm lWords) convCalib = Ret (f_of_Z 13) None)
  /\ (exists l, den smallFloat compuMethodForm qWords (valOf compuMethodForm qWords) /\ methodHas smallFloat qWords "RAT_FUNC" l
      /\ lastWords "COEFFS" l (Some (map b ["0"; "1"; "2"; "0"; "0"; "1"]%string))
      /\ decToPhy (f_of_Z 5) (valOf compuMethodForm qWords) convCalib = Ret (f_of_Z 5) (Some CZeroDiv)).
Proof.
  split; [|split].
  - eexists. split; [apply (den_run 10); vm_compute; reflexivity|]. split.
    + do 4 eexists. exists (map b ["COMPU_TAB_REF"; "T"]%string). split; [reflexivity|].
      refine (en_cons _ _ _ "COMPU_TAB_REF" "CompuTabRef" Single compuTabRefForm [b "T"] [] _ [] _ _ _ _); [item_in|apply (den_run 10); vm_compute; reflexivity|reflexivity|constructor].
    + eexists. split; [lastkw (@nil entry) (@nil entry)|reflexivity].
  - eexists. split; [apply (den_run 10); vm_compute; reflexivity|]. split; [|split; [|vm_compute; reflexivity]].
    + do 4 eexists. exists (map b ["COEFFS_LINEAR"; "2"; "3"]%string). split; [reflexivity|].
      refine (en_cons _ _ _ "COEFFS_LINEAR" "CoeffsLinear" Single coeffsLinearForm [b "2"; b "3"] [] _ [] _ _ _ _); [item_in|apply (den_run 10); vm_compute; reflexivity|reflexivity|constructor].
    + eexists. split; [lastkw (@nil entry) (@nil entry)|reflexivity].
  - eexists. split; [apply (den_run 10); vm_compute; reflexivity|]. split; [|split; [|vm_compute; reflexivity]].
    + do 4 eexists. exists (map b ["COEFFS"; "0"; "1"; "2"; "0"; "0"; "1"]%string). split; [reflexivity|].
      refine (en_cons _ _ _ "COEFFS" "Coeffs" Single coeffsForm (map b ["0"; "1"; "2"; "0"; "0"; "1"]%string) [] _ [] _ _ _ _); [item_in|apply (den_run 10); vm_compute; reflexivity|reflexivity|constructor].
    + eexists. split; [lastkw (@nil entry) (@nil entry)|reflexivity].
Qed.

Definition tRows : list (bytes * bytes) := [(b "1", b "10"); (b "2", b "20")].
Definition vRows : list (bytes * bytes) := [(b "1", b "on"); (b "2", b "off")].
Definition rRows : list (bytes * bytes * bytes) := [(b "0", b "10", b "low"); (b "10", b "20", b "high")].
(** Tables.  5 is in the range 0 to 10, which the code does not notice. *)
Example C71_tables_example : chosen smallFloat convCalib convEntries /\
  (exists e l, lastSuch (isNamed "/begin COMPU_TAB" (b "T")) convEntries e /\ tableHas smallFloat compuTabForm "/end COMPU_TAB" (e_words e) tRows l /\
     defaultOf smallFloat "DEFAULT_VALUE_NUMERIC" l (Some (f_of_Z 99)) /\
     decToPhy (f_of_Z 2) (valOf compuMethodForm kWords) convCalib = Ret (f_of_Z 20) None /\ decToPhy (f_of_Z 3) (valOf compuMethodForm kWords) convCalib = Ret (f_of_Z 99) None) /\
  (exists e l, lastSuch (isNamed "/begin COMPU_VTAB" (b "V")) convEntries e /\ tableHas smallFloat compuVtabForm "/end COMPU_VTAB" (e_words e) vRows l /\
     defaultOf Some "DEFAULT_VALUE" l (Some (b "else")) /\
     verbalOf (f_of_Z 2) (e_val e) convCalib = Ret (b "off") None /\ verbalOf (f_of_Z 3) (e_val e) convCalib = Ret (b "else") None) /\
  (exists e l, lastSuch (isNamed "/begin COMPU_VTAB_RANGE" (b "R")) convEntries e /\ rangesHas smallFloat (e_words e) rRows l /\
     defaultOf Some "DEFAULT_VALUE" l (Some (b "else")) /\ rangeTextOf (f_of_Z 5) (e_val e) convCalib = Ret (b "else") None).
Proof.
  split; [exact conv_chosen|]. split; [|split].
  - exists eT. eexists. split; [last_ [eK; eL; eQ] [eV; eR]|]. split; [|split; [|split; vm_compute; reflexivity]].
    + do 4 eexists. exists (map b ["DEFAULT_VALUE_NUMERIC"; "99"]%string). split; [reflexivity|]. split; [vm_compute; reflexivity|].
      refine (en_cons _ _ _ "DEFAULT_VALUE_NUMERIC" "DefaultValueNumeric" Single defaultValueNumericForm [b "99"] [] _ [] _ _ _ _); [item_in|apply (den_run 10); vm_compute; reflexivity|reflexivity|constructor].
    + exists (b "99"). split; [|vm_compute; reflexivity]. eexists. split; [lastkw (@nil entry) (@nil entry)|reflexivity].
  - exists eV. eexists. split; [last_ [eK; eL; eQ; eT] [eR]|]. split; [|split; [|split; vm_compute; reflexivity]].
    + do 4 eexists. exists (map b ["DEFAULT_VALUE"; "else"]%string). split; [reflexivity|]. split; [vm_compute; reflexivity|].
      refine (en_cons _ _ _ "DEFAULT_VALUE" "DefaultValue" Single defaultValueForm [b "else"] [] _ [] _ _ _ _); [item_in|apply (den_run 10); vm_compute; reflexivity|reflexivity|constructor].
    + exists (b "else"). split; [|reflexivity]. eexists. split; [lastkw (@nil entry) (@nil entry)|reflexivity].
  - exists eR. eexists. split; [last_ [eK; eL; eQ; eT; eV] (@nil entry)|]. split; [|split; [|vm_compute; reflexivity]].
    + do 3 eexists. exists (map b ["DEFAULT_VALUE"; "else"]%string). split; [reflexivity|]. split; [vm_compute; reflexivity|].
      refine (en_cons _ _ _ "DEFAULT_VALUE" "DefaultValue" Single defaultValueForm [b "else"] [] _ [] _ _ _ _); [item_in|apply (den_run 10); vm_compute; reflexivity|reflexivity|constructor].
    + exists (b "else"). split; [|reflexivity]. eexists. split; [lastkw (@nil entry) (@nil entry)|reflexivity].
Qed.
