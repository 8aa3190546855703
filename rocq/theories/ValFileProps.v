(** C92: the values of a characteristic, with any files. *)
From Coq Require Import String Ascii List Arith NArith ZArith Bool Lia SpecFloat Sorted Permutation.
From Verif Require Import GoBase GoBaseFacts A2lModStore A2lIR A2lTokens A2lSpec A2lParsers A2lFileThm A2lGrammar A2lForms A2lTripSpec A2lFormProps A2lProps.
From Verif Require Import GoStrings HexSpec MemModel MemThm ValuesModel ValuesThm TreeModel TreeThm CalibModel CalibFileModel CalibFileProps.
From Verif Require Import A2lFileModel A2lFileSpec A2lExactSpec A2lExactThm A2lExactProps A2lOddSpec A2lOddProps ConvFileProps LookFileSpec LookFileThm LookFileProps LookFileName ValFileSpec.
From Verif Require IhexLines IhexModel A2lModSpec A2lModProps A2lLayoutModel A2lNestProps A2lTextModel TokModel TokThm A2lFileProps.
Import ListNotations.

(** ** Address texts *)

Lemma starts_0x : forall c s, prefixb (b "0x") (c :: s) = true <-> c = "0"%char /\ exists s', s = ("x" :: s')%char.
Proof.
  intros c s. split.
  - intros H. apply prefix_0x in H. destruct H as (s' & E). injection E as -> ->. eauto.
  - intros [-> (s' & ->)]. destruct s'; reflexivity.
Qed.
Lemma bare_replace : forall s t, bare s t -> replace_all s (b "0x") [] = t.
Proof.
  unfold replace_all. induction 1 as [|s t _ IH|c s t N _ IH].
  - reflexivity.
  - cbn [replace_aux]. rewrite (proj2 (starts_0x "0" ("x" :: s)%char)) by eauto. cbn [app length b list_ascii_of_string Nat.sub replace_aux]. exact IH.
  - cbn [replace_aux]. destruct (prefixb (b "0x") (c :: s)) eqn:E; [apply starts_0x in E; contradiction|]. rewrite IH. reflexivity.
Qed.
Lemma bare_total : forall n s, length s <= n -> exists t, bare s t.
Proof.
  induction n as [|n IH]; intros [|c s] L; cbn in L; try lia; try (exists []; constructor).
  destruct (prefixb (b "0x") (c :: s)) eqn:E.
  - apply starts_0x in E. destruct E as [-> (s' & ->)]. destruct (IH s') as (t & B); [cbn in L; lia|]. exists t. constructor. exact B.
  - destruct (IH s) as (t & B); [lia|]. exists (c :: t). constructor; [|exact B]. intros H. apply starts_0x in H. congruence.
Qed.
Lemma bare_is : forall s, bare s (replace_all s (b "0x") []).
Proof. intros s. destruct (bare_total _ s (le_n _)) as (t & B). rewrite (bare_replace _ _ B). exact B. Qed.
Lemma decode_text : forall n t bs, length t <= n -> hex_decode t = Some bs -> hex_text_any t bs.
Proof.
  induction n as [|n IH]; intros t bs L H.
  - destruct t; [|cbn in L; lia]. injection H as <-. constructor.
  - destruct t as [|c [|d t]]; cbn [hex_decode] in H; [injection H as <-; constructor|discriminate|].
    destruct (hex_any c) as [x|] eqn:X; [|discriminate]. destruct (hex_any d) as [y|] eqn:Y; [|discriminate]. destruct (hex_decode t) as [r|] eqn:R; [|discriminate]. injection H as <-.
    apply IhexLines.hex_any_inv in X. apply IhexLines.hex_any_inv in Y. destruct X as [LX (u & ->)], Y as [LY (w & ->)]. constructor; [exact LX|exact LY|]. apply IH; [cbn in L; lia|exact R].
Qed.
Lemma short_iff : forall s, shortAddress s <-> exists bs, hex_decode (replace_all s (b "0x") []) = Some bs /\ length bs < 4.
Proof.
  intros s. split.
  - intros (t & bs & B & H & L). exists bs. rewrite (bare_replace _ _ B). split; [apply hex_decode_text; exact H|exact L].
  - intros (bs & H & L). exists (replace_all s (b "0x") []), bs. split; [apply bare_is|]. split; [apply (decode_text _ _ _ (le_n _)); exact H|exact L].
Qed.

Lemma fstr_inv : forall f o s, fstr f o = s -> s <> [] -> fget f o = Some (VStr s).
Proof. intros f o s E N. unfold fstr in E. destruct (fget f o) as [[]|]; subst; congruence. Qed.
Lemma part_inv : forall f g o s, fstr g (A2lLayoutModel.part f o) = s -> s <> [] -> exists c, fget f o = Some (VObj c) /\ fstr g c = s.
Proof. intros f g o s E N. unfold A2lLayoutModel.part in E. destruct (fget f o) as [[]|]; try (cbn in E; congruence). eauto. Qed.
Lemma mixed_order : forall cd m, mixedOrder m <-> match cx_order (contextOf cd m) with MsbFirstMswLast | MsbLastMswFirst => True | _ => False end.
Proof.
  intros cd m. unfold contextOf. cbn [cx_order]. unfold A2lLayoutModel.pstr. cbn [fst snd]. split.
  - intros (c & o & s & C & O & S & E). unfold A2lLayoutModel.part. rewrite C, O. unfold fstr. rewrite S. destruct E as [-> | ->]; exact Logic.I.
  - set (t := fstr "ByteOrder" (A2lLayoutModel.part "ByteOrder" (A2lLayoutModel.part "ModCommon" m))). intros H.
    assert (X : exists s, t = b s /\ (s = "MSB_FIRST_MSW_LAST" \/ s = "MSB_LAST_MSW_FIRST")%string).
    { unfold orderOf in H. cbn [named] in H. repeat match type of H with context [if beqb t ?x then _ else _] => destruct (beqb t x) eqn:?; [match goal with Q : beqb t x = true |- _ => apply beqb_eq in Q end; try (exfalso; exact H); eauto|] end; exfalso; exact H. }
    destruct X as (s & ET & S). assert (NE : b s <> []) by (destruct S as [-> | ->]; discriminate). unfold t in ET.
    assert (Y : exists c o, fget "ModCommon" m = Some (VObj c) /\ fget "ByteOrder" c = Some (VObj o) /\ fget "ByteOrder" o = Some (VStr (b s))).
    { destruct (part_inv _ _ _ _ ET NE) as (o & O & F). unfold A2lLayoutModel.part in O. destruct (fget "ModCommon" m) as [[]|] eqn:C; try discriminate O. do 2 eexists. split; [reflexivity|]. split; [exact O|]. apply fstr_inv; assumption. }
    destruct Y as (c & o & Y1 & Y2 & Y3). exists c, o, s. auto.
Qed.
Lemma address_panic : forall cd m s, convertStringToUint32Address (contextOf cd m) s = Panic <-> shortAddress s /\ ~ mixedOrder m.
Proof.
  intros cd m s. rewrite short_iff, (mixed_order cd). unfold convertStringToUint32Address. destruct (hex_decode _) as [bs|].
  - assert (L : forall k, (beUint k bs = Panic <-> length bs < k) /\ (leUint k bs = Panic <-> length bs < k)).
    { intros k. unfold beUint, leUint. destruct (Nat.ltb_spec (length bs) k); split; split; intros; try reflexivity; try assumption; try discriminate; lia. }
    assert (E : (exists bs', Some bs = Some bs' /\ length bs' < 4) <-> length bs < 4) by (split; [intros (bs' & X & Y); congruence|eauto]).
    rewrite E. destruct (L 4) as [B1 B2]. destruct (cx_order (contextOf cd m)), (cx_orderSet (contextOf cd m)); cbn [negb]; try (split; [discriminate|tauto]); tauto.
  - split; [discriminate|]. intros [(bs & X & _) _]. discriminate.
Qed.

(** ** The record layouts of an accepted file *)

Lemma no_positions : forall gr pf cpus content cd m, chosenFrom gr pf cpus content cd m ->
    theModule cd = Some m /\ forall k w, In (k, w) (fmap "RecordLayouts" m) -> exists rl, w = VObj rl /\ relativePositions rl = [].
Proof.
  intros gr pf cpus content cd m (a & n & hex & P & -> & N). split.
  - unfold theModule, calibOf. cbn [cd_modules cd_index]. rewrite N. reflexivity.
  - intros k w I. destruct (all_modules_exact _ _ _ _ _ _ P (nth_error_In _ _ N)) as (t & T & o & E & A). injection E as <-. pose proof (tokens_ended _ _ _ _ T) as EN.
    destruct (A "/begin RECORD_LAYOUT" "RecordLayouts" (Under "Name") recordLayoutExact ltac:(apply (nth_error_In moduleItems 16); reflexivity))%string as (mm & FM & M).
    unfold fmap in I. rewrite FM in I. destruct (M _ _ I) as (_ & i & j & TK & R).
    assert (RP : returns (TokModel.tk_list t) pf parseRecordLayout i w false j).
    { apply (C89_exact "parseRecordLayout" recordLayoutExact parseRecordLayout (TokModel.tk_list t) pf i w j); [| |exact EN|rewrite TK; discriminate|exact R].
      - listed.
      - listed. }
    destruct (layout_spares _ _ _ _ _ _ RP) as (rl & -> & F). exists rl. split; [reflexivity|]. unfold relativePositions, flist. rewrite F. reflexivity.
Qed.

(** ** Nothing is ever read *)

(** What getValuesFromHex gives for a characteristic and a record layout of any file that is
    read without an error: no values, or a panic, which happens exactly if the record
    layout is missing in the module or the address is too short. *)
Theorem C92_outcome : forall gr pf cpus content cd m ch k rl r, chosenFrom gr pf cpus content cd m -> In (k, VObj rl) (fmap "RecordLayouts" m) ->
    (getValuesFromHex cd (NewCharacteristicValues ch (Some rl)) r <->
      (deposited m ch /\ ~ (shortAddress (fstr "Address" ch) /\ ~ mixedOrder m) /\ r = Some [] \/
       ~ (deposited m ch /\ ~ (shortAddress (fstr "Address" ch) /\ ~ mixedOrder m)) /\ r = None)).
Proof.
  intros gr pf cpus content cd m ch k rl r CF I. destruct (no_positions _ _ _ _ _ _ CF) as [TM NP]. destruct (NP _ _ I) as (rl' & E & RP). injection E as <-.
  assert (DE : deposited m ch <-> exists x, getRecordLayout cd ch = Ok x).
  { unfold getRecordLayout, deposited, fbool. rewrite TM. unfold fmap in *. split.
    - intros (D & ls & x & F & IX). rewrite D, F. cbn [negb]. destruct (mget (fstr "Deposit" ch) ls) as [w|] eqn:G; [destruct w; eauto|].
      exfalso. clear - G IX. induction ls as [|[k w] ls IH]; [exact IX|]. cbn [mget] in G. destruct (beqb (fstr "Deposit" ch) k) eqn:B; [discriminate|]. destruct IX as [IX|IX]; [|exact (IH IX G)].
      injection IX as -> _. rewrite (proj2 (beqb_eq _ _) eq_refl) in B. discriminate.
    - intros (x & G). destruct (fget "DepositSet" ch) as [[| | |[|]| | |]|]; try discriminate G. cbn [negb] in G. split; [reflexivity|].
      destruct (fget "RecordLayouts" m) as [[| | | | |ls|]|]; try discriminate G. destruct (mget (fstr "Deposit" ch) ls) as [w|] eqn:MG; [|discriminate G]. exists ls, w. split; [reflexivity|]. apply mget_in. exact MG. }
  assert (V : getValuesFromHex cd (NewCharacteristicValues ch (Some rl)) r <-> r = valuesAlong getBytes cd (NewCharacteristicValues ch (Some rl)) []).
  { unfold getValuesFromHex. cbn [cv_layout NewCharacteristicValues]. rewrite RP. split; [|intros ->; exists []; auto].
    intros (order & PM & ->). apply Permutation_sym, Permutation_nil in PM. subst order. reflexivity. }
  rewrite V. clear V. rewrite DE. unfold valuesAlong. rewrite TM. cbn [cv_char NewCharacteristicValues readFields option_map fst cv_values].
  rewrite <- (address_panic cd). destruct (getRecordLayout cd ch) as [x|e|].
  - assert (X : exists y, Ok x = @Ok unit _ y) by eauto. destruct (convertStringToUint32Address _ _) as [ad|e|].
    + split; [intros ->; left; repeat split; auto; discriminate|]. intros [(_ & _ & ->)|[N _]]; [reflexivity|]. exfalso. apply N. split; [exact X|discriminate].
    + split; [intros ->; left; repeat split; auto; discriminate|]. intros [(_ & _ & ->)|[N _]]; [reflexivity|]. exfalso. apply N. split; [exact X|discriminate].
    + split; [intros ->; right; split; [intros [_ N]; apply N; reflexivity|reflexivity]|]. intros [(_ & N & _)|[_ ->]]; [exfalso; apply N; reflexivity|reflexivity].
  - split; [intros ->; right; split; [intros [(y & Y) _]; discriminate|reflexivity]|]. intros [((y & Y) & _)|[_ ->]]; [discriminate|reflexivity].
  - split; [intros ->; right; split; [intros [(y & Y) _]; discriminate|reflexivity]|]. intros [((y & Y) & _)|[_ ->]]; [discriminate|reflexivity].
Qed.
Print Assumptions C92_outcome.

(** The whole way: whatever the two files are, no value of any characteristic is read. *)
Theorem C92_nothing_refuted : forall gr pf cpus a2lFile path hexFile cd n m ch k rl r, 0 < cpus ->
    calibration gr pf cpus true (Some a2lFile) path hexFile (RReturned cd None) ->
    (forall a hex, cd = CD (Some a) (Some hex) -> nth_error (flist "Modules" (A2lLayoutModel.part "Project" a)) n = Some (VObj m) -> In (k, VObj rl) (fmap "RecordLayouts" m) ->
     getValuesFromHex (calibOf a n hex) (NewCharacteristicValues ch (Some rl)) r -> r = Some [] \/ r = None).
Proof.
  intros gr pf cpus a2lFile path hexFile cd n m ch k rl r CP C a hex -> N I G. destruct (C66_results _ _ _ _ _ _ _ _ CP C) as (a' & m' & E & P & _). injection E as <- <-.
  apply (C92_outcome gr pf cpus a2lFile _ m ch k rl r) in G; [|exists a, n, hex; auto|exact I]. tauto.
Qed.
Print Assumptions C92_nothing_refuted.

(** ** The words of a characteristic *)

Section Words.
  Variable toks : list bytes.
  Variable pf : bytes -> option spec_float.
  Notation tok := (tok toks).

  Lemma kth_word : forall own k its stop ps r i j o o' p, mixed toks pf own its stop ps r i j o o' ->
      (forall q, q <= k -> ordinary (tok (S i + q))) -> nth_error ps k = Some p ->
      forallb (fun it => match it with Item kw _ _ _ => opens kw end) its = true -> tok (S j) = b stop -> isKeyword (b stop) = true ->
      exists v o1, fits pf (p_type p) (tok (S i + k)) v /\ mixed toks pf own its stop (skipn (S k) ps) r (S i + k) j (store true o1 (p, v)) o'.
  Proof.
    intros own k. induction k as [|k IH]; intros its stop ps r i j o o' p M W NP OI TS KS; destruct ps as [|p0 ps]; try discriminate NP;
      pose proof (W 0 ltac:(lia)) as W0; rewrite Nat.add_0_r in W0;
      inversion M as [|its0 stop0 p1 ps0 r0 i0 j0 v0 o0 o1 PL FI M1| | |its0 stop0 ps0 r0 kw f pl sub i0 v0 k0 j0 o0 o1 IN T RD M1]; subst;
      try (exfalso; destruct W0 as (_ & W0 & _); rewrite TS in W0; congruence);
      try (exfalso; pose proof (proj1 (forallb_forall _ _) OI _ IN) as K; cbv beta iota in K; exact (opens_not _ _ K W0 T)).
    - injection NP as ->. rewrite Nat.add_0_r. exists v0, o. auto.
    - destruct (IH _ _ _ _ _ _ _ _ p M1) as (v & o2 & FV & M2); [intros q Q; replace (S (S i) + q) with (S i + S q) by lia; apply W; lia|exact NP|exact OI|exact TS|exact KS|].
      exists v, o2. replace (S i + S k) with (S (S i) + k) by lia. auto.
  Qed.

  Lemma word_field : forall ms ps g its stop cs i v j k p t, reads toks pf (odd toks pf) (Block ms ps g its stop cs) i v j -> ~ In stop special ->
      (forall q, q <= k -> ordinary (tok (S i + q))) -> nth_error ps k = Some p -> p_how p = One -> tok (S i + k) = t ->
      match p_type p with Text | Choice _ => true | _ => false end = true -> isKeyword (b stop) = true ->
      forall h, p_flag p = Some h -> String.eqb (p_field p) h = false ->
      (forall x, x = p_field p \/ x = h -> forallb (spares x) (skipn (S k) ps) = true /\ optParam (spares x) (further ps g stop) = true /\
        forallb (fun it => match it with Item kw f _ _ => negb (String.eqb x f) && opens kw end) its = true /\ forallb (fun fc => negb (String.eqb x (fst fc))) cs = true) ->
      exists o, v = VObj o /\ fget (p_field p) o = Some (VStr t) /\ fget h o = Some (VBool true).
  Proof.
    intros ms ps g its stop cs i v j k p t R NS W NP HO ET TY KS h HF NE SP.
    inversion R as [| | |ms' ps' g' its' stop' cs' i' j' o NS' M TS|ms' ps' g' its' stop' cs' i' v' j' IS _]; subst; [|contradiction]. eexists. split; [reflexivity|].
    destruct (SP (p_field p) ltac:(auto)) as (A1 & A2 & A3 & A4), (SP h ltac:(auto)) as (B1 & B2 & B3 & B4).
    assert (OI : forallb (fun it => match it with Item kw _ _ _ => opens kw end) its = true).
    { apply forallb_forall. intros [kw f pl sub] IN. pose proof (proj1 (forallb_forall _ _) A3 _ IN) as K. cbv beta iota in K. apply andb_true_iff in K. tauto. }
    destruct (kth_word _ _ _ _ _ _ _ _ _ _ _ M W NP OI TS KS) as (v & o1 & FV & M1).
    assert (EV : v = VStr (tok (S i + k))) by (destruct FV as [_ FV]; destruct (p_type p); try discriminate TY; tauto). subst v.
    rewrite !consts_other by assumption. rewrite (mixed_keeps _ _ _ _ _ _ _ _ _ _ _ _ M1 A1 A2 A3), (mixed_keeps _ _ _ _ _ _ _ _ _ _ _ _ M1 B1 B2 B3).
    unfold store. cbn [fst snd]. rewrite HO, HF. cbn [put mark]. rewrite !fget_fset, NE, !String.eqb_refl. auto.
  Qed.
End Words.

Definition characteristicHere : form := match nth_error moduleItems 3 with Some (Item _ _ _ sub) => sub | None => Value Text end.
(** A characteristic whose keyword is followed by five words that are no keywords: the
    fourth is the address, the fifth names the record layout. *)
Theorem C92_words : forall toks pf i v j, reads toks pf (odd toks pf) characteristicHere i v j -> (forall q, 1 <= q <= 5 -> ordinary (tok toks (i + q))) ->
    exists ch, v = VObj ch /\ fstr "Name" ch = tok toks (i + 1) /\ fstr "Address" ch = tok toks (i + 4) /\ fstr "Deposit" ch = tok toks (i + 5) /\ fget "DepositSet" ch = Some (VBool true).
Proof.
  intros toks pf i v j R W.
  assert (W' : forall k q, k <= 4 -> q <= k -> ordinary (tok toks (S i + q))) by (intros k q K Q; replace (S i + q) with (i + S q) by lia; apply W; lia).
  assert (X : forall k p h, k <= 4 -> nth_error (match characteristicHere with Block _ ps _ _ _ _ => ps | _ => [] end) k = Some p -> p_flag p = Some h ->
      (k = 0 \/ k = 3 \/ k = 4) -> exists o, v = VObj o /\ fget (p_field p) o = Some (VStr (tok toks (S i + k))) /\ fget h o = Some (VBool true)).
  { intros k p h L NP HF K. pose proof (W' k) as WK. unfold characteristicHere in R, NP. cbn -[moduleItems nth_error] in R, NP. 
    eapply (word_field toks pf _ _ _ _ _ _ _ _ _ k p _ R); [intros IN; vm_compute in IN; repeat destruct IN as [IN|IN]; try discriminate IN; destruct IN|intros q Q; exact (WK q L Q)|exact NP| | | | | | |];
      destruct K as [->|[->| ->]]; injection NP as <-; injection HF as <-; try (vm_compute; reflexivity);
      intros x [->| ->]; vm_compute; auto. }
  destruct (X 0 _ _ ltac:(lia) eq_refl eq_refl ltac:(auto)) as (o & E & F1 & _). destruct (X 3 _ _ ltac:(lia) eq_refl eq_refl ltac:(auto)) as (o' & E' & F2 & _). rewrite E in E'. injection E' as <-.
  destruct (X 4 _ _ ltac:(lia) eq_refl eq_refl ltac:(auto)) as (o' & E' & F3 & F4). rewrite E in E'. injection E' as <-.
  exists o. cbn [p_field P] in F1, F2, F3. unfold fstr. rewrite F1, F2, F3. replace (S i + 0) with (i + 1) by lia. replace (S i + 3) with (i + 4) by lia. replace (S i + 4) with (i + 5) by lia. auto 6.
Qed.
Print Assumptions C92_words.

(** ** Example: two characteristics and a record layout *)

Definition valFile : bytes := b
  "ASAP2_VERSION 1 60 /begin PROJECT p q /begin MODULE m n /begin CHARACTERISTIC C c VALUE 0x80000000 RL 0 NO 0 1 /end CHARACTERISTIC /begin CHARACTERISTIC D d VALUE 0x8000 RL 0 NO 0 1 /end CHARACTERISTIC /begin CHARACTERISTIC E e VALUE 0x80000000 none 0 NO 0 1 /end CHARACTERISTIC /begin RECORD_LAYOUT RL FNC_VALUES 1 UBYTE ROW_DIR DIRECT /end RECORD_LAYOUT /end MODULE /begin MODULE m n /end MODULE /end PROJECT".
Definition valTokens : list bytes := map b
  ["ASAP2_VERSION"; "1"; "60"; "/begin PROJECT"; "p"; "q"; "/begin MODULE"; "m"; "n";
   "/begin CHARACTERISTIC"; "C"; "c"; "VALUE"; "0x80000000"; "RL"; "0"; "NO"; "0"; "1"; "/end CHARACTERISTIC";
   "/begin CHARACTERISTIC"; "D"; "d"; "VALUE"; "0x8000"; "RL"; "0"; "NO"; "0"; "1"; "/end CHARACTERISTIC";
   "/begin CHARACTERISTIC"; "E"; "e"; "VALUE"; "0x80000000"; "none"; "0"; "NO"; "0"; "1"; "/end CHARACTERISTIC";
   "/begin RECORD_LAYOUT"; "RL"; "FNC_VALUES"; "1"; "UBYTE"; "ROW_DIR"; "DIRECT"; "/end RECORD_LAYOUT";
   "/end MODULE"; "/begin MODULE"; "m"; "n"; "/end MODULE"; "/end PROJECT"; ""]%string.
Lemma val_tokens : forall gr, fileTokens gr 1 valFile (Some (TokModel.Tokens valTokens false)).
Proof.
  intros gr. unfold fileTokens. change (1 * 2) with 2. replace (A2lTextModel.cleanBytesString gr valFile) with valFile by (vm_compute; reflexivity).
  apply (proj2 (TokThm.exec_lex 2 valFile _)). vm_compute. reflexivity.
Qed.
Definition zeroOne (t : bytes) : option spec_float := if beqb t (b "0") then Some (S754_zero false) else if beqb t (b "1") then Some (S754_finite false 4503599627370496 (-52)) else None.
Lemma val_file : exists a m rl c d e, (forall gr, parseFromFile gr zeroOne 1 (Some valFile) (Returned a false)) /\
    nth_error (flist "Modules" (A2lLayoutModel.part "Project" a)) 0 = Some (VObj m) /\ fget "RecordLayouts" m = Some (VMap [(b "RL", VObj rl)]) /\
    mget (b "C") (fmap "Characteristics" m) = Some (VObj c) /\ mget (b "D") (fmap "Characteristics" m) = Some (VObj d) /\ mget (b "E") (fmap "Characteristics" m) = Some (VObj e) /\
    (fget "DepositSet" c = Some (VBool true) /\ fstr "Deposit" c = b "RL" /\ fstr "Address" c = b "0x80000000") /\
    (fget "DepositSet" d = Some (VBool true) /\ fstr "Deposit" d = b "RL" /\ fstr "Address" d = b "0x8000") /\
    fstr "Deposit" e = b "none" /\ fget "ModCommon" m = None.
Proof.
  do 6 eexists. split.
  - intros gr. apply (A2lFileProps.C65_sequential _ zeroOne 1 valFile _ _ (val_tokens gr) eq_refl). do 3 eexists. split; [reflexivity|]. apply (A2lModProps.returns_run 80). vm_compute. reflexivity.
  - do 5 (split; [vm_compute; reflexivity|]). repeat split; vm_compute; reflexivity.
Qed.
(** The first characteristic gives no values, the second has a short address, the record
    layout of the third is missing. *)
Example C92_example : exists a m rl, (forall gr, parseFromFile gr zeroOne 1 (Some valFile) (Returned a false)) /\
    nth_error (flist "Modules" (A2lLayoutModel.part "Project" a)) 0 = Some (VObj m) /\ In (b "RL", VObj rl) (fmap "RecordLayouts" m) /\
    forall hex x, In x ["C"; "D"; "E"]%string -> exists ch, mget (b x) (fmap "Characteristics" m) = Some (VObj ch) /\
      forall r, getValuesFromHex (calibOf a 0 hex) (NewCharacteristicValues ch (Some rl)) r <-> r = if String.eqb x "C" then Some [] else None.
Proof.
  destruct val_file as (a & m & rl & c & d & e & P & NM & FL & C & D & E & (C1 & C2 & C3) & (D1 & D2 & D3) & E2 & MC). exists a, m, rl. split; [exact P|]. split; [exact NM|].
  assert (I : In (b "RL", VObj rl) (fmap "RecordLayouts" m)) by (unfold fmap; rewrite FL; left; reflexivity). split; [exact I|]. intros hex x IX.
  pose (gr := fun _ : N => false). assert (CF : chosenFrom gr zeroOne 1 valFile (calibOf a 0 hex) m) by (exists a, 0, hex; split; [apply P|]; auto).
  assert (NX : ~ mixedOrder m) by (intros (cc & o & s & K & _); congruence).
  destruct IX as [<-|[<-|[<-|[]]]]; [exists c|exists d|exists e]; (split; [assumption|]); intros r; rewrite (C92_outcome gr zeroOne 1 valFile _ m _ _ rl r CF I); cbn [String.eqb Ascii.eqb Bool.eqb].
  - assert (Y : deposited m c) by (split; [exact C1|]; exists [(b "RL", VObj rl)], (VObj rl); rewrite C2; split; [exact FL|left; reflexivity]).
    assert (Z : ~ shortAddress (fstr "Address" c)) by (rewrite C3; intros Q; apply short_iff in Q; destruct Q as (bs & Q & L); vm_compute in Q; injection Q as <-; cbn in L; lia). intuition.
  - assert (Z : shortAddress (fstr "Address" d)) by (rewrite D3; apply short_iff; eexists; split; [vm_compute; reflexivity|cbn; lia]). intuition.
  - assert (Z : ~ deposited m e) by (intros (_ & ls & x & F & IN); rewrite E2 in IN; rewrite FL in F; injection F as <-; destruct IN as [IN|[]]; discriminate). intuition.
Qed.

(** [C92_words]: the second characteristic. *)
Example C92_words_example : exists v, reads valTokens zeroOne (odd valTokens zeroOne) characteristicHere 20 v 30 /\
    exists ch, v = VObj ch /\ fstr "Name" ch = b "D" /\ fstr "Address" ch = b "0x8000" /\ fstr "Deposit" ch = b "RL" /\ fget "DepositSet" ch = Some (VBool true).
Proof.
  assert (X : exists v, reads valTokens zeroOne (odd valTokens zeroOne) characteristicHere 20 v 30).
  { eexists. apply (reads_run _ _ parseCharacteristic); [exists (firstn 56 valTokens); reflexivity|discriminate|vm_compute; reflexivity|apply (A2lModProps.returns_run 80); vm_compute; reflexivity]. }
  destruct X as (v & R). exists v. split; [exact R|]. apply (C92_words _ _ _ _ _ R). intros q Q.
  assert (K : q = 1 \/ q = 2 \/ q = 3 \/ q = 4 \/ q = 5) by lia.
  destruct K as [->|[->|[->|[->| ->]]]]; (split; [discriminate|]; split; [reflexivity|]; vm_compute; intros H; repeat destruct H as [H|H]; solve [discriminate H|destruct H]).
Qed.
