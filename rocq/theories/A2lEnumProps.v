(** Enumerations: C54 and C58. *)
From Coq Require Import String Ascii List Arith NArith ZArith Bool Lia SpecFloat.
From Verif Require Import GoBase GoBaseFacts A2lIR A2lTokens A2lParsers A2lSpec A2lProps A2lForms A2lFormProps.
From Verif Require MemModel MemSpec.
Import ListNotations.

(** ** C54: sizes of data types *)

(** The reported size is that of ASAP2 ([MemSpec.size_bytes]) but for the two words. *)
Theorem C54_guarded : forall d, d <> MemModel.UWORD -> d <> MemModel.SWORD ->
    MemModel.GetDatatypeLength d = (8 * N.of_nat (MemSpec.size_bytes d))%N.
Proof. intros [] H1 H2; try reflexivity; congruence. Qed.
Print Assumptions C54_guarded.

Theorem C54_refuted : exists d, MemModel.GetDatatypeLength d <> (8 * N.of_nat (MemSpec.size_bytes d))%N
    /\ MemModel.GetDatatypeLength d = 32%N /\ MemSpec.size_bytes d = 2.
Proof. exists MemModel.UWORD. repeat split. discriminate. Qed.
Print Assumptions C54_refuted.

Theorem C54_words_refuted : MemModel.GetDatatypeLength MemModel.UWORD = 32%N /\ MemModel.GetDatatypeLength MemModel.SWORD = 32%N
    /\ MemModel.GetDataSizeLength MemModel.WORD = 32%N /\ MemModel.GetDataSizeLength MemModel.LONG = 64%N.
Proof. repeat split. Qed.

(** ** C58: texts of enumerations *)

(** The enumeration parsers, and the texts of the enumeration in ASAP2 (enums.go,
    const declarations).  The first group is called with the cursor on the text,
    the second with the cursor before it. *)
Definition enumerations : list (string * list string) := [
  ("parseEncodingEnum", encodingTexts); ("parseDataTypeEnum", dataTypeTexts); ("parseDataSizeEnum", dataSizeTexts);
  ("parseAddrTypeEnum", addrTypeTexts); ("parseByteOrderEnum", byteOrderTexts); ("parseIndexOrderEnum", indexOrderTexts);
  ("parseAttributeEnum", attributeTexts); ("parseTypeEnum", typeTexts); ("parseConversionTypeEnum", conversionTypeTexts);
  ("parseIndexModeEnum", indexModeTexts); ("parseModeEnum", modeTexts); ("parsePrgTypeEnum", prgTypeTexts);
  ("parseMemoryTypeEnum", memoryTypeTexts); ("parseMonotonyTypeEnum", monotonyTypeTexts); ("parseTagEnum", tagTexts);
  ("parseTriggerEnum", triggerTexts)]%string.
Definition nextEnumerations : list (string * list string) := [("parseCalibrationAccessEnum", calibrationAccessTexts)]%string.

(** a table of texts that stand for themselves *)
Definition selfTable (adv : bool) (texts : list string) (g : fn) : bool :=
  match g with
  | Enum adv' table => if Bool.eqb adv adv' then if list_eq_dec string_dec (map fst table) texts then if list_eq_dec string_dec (map snd table) texts then true else false else false else false
  | _ => false
  end.

Lemma findText_self : forall t table, map fst table = map snd table ->
    findText t table = if existsb (fun s => beqb t (b s)) (map fst table) then Some t else None.
Proof.
  intros t table. induction table as [|[c v] table IH]; intros E; [reflexivity|]. cbn in E. injection E as <- E. cbn [findText map existsb fst].
  destruct (beqb t (b c)) eqn:B; [apply beqb_eq in B; subst; reflexivity|]. apply IH. exact E.
Qed.

Lemma enums_ok : forallb (fun p => forallb (fun q => if String.eqb (fst p) (fst q) then if String.eqb (fst p) "parseAddrTypeEnum" then true else selfTable false (snd p) (snd q) else true) allParsers) enumerations = true.
Proof. vm_compute. reflexivity. Qed.
Lemma nextEnums_ok : forallb (fun p => forallb (fun q => if String.eqb (fst p) (fst q) then selfTable true (snd p) (snd q) else true) allParsers) nextEnumerations = true.
Proof. vm_compute. reflexivity. Qed.

Lemma selfTable_call : forall adv texts g toks pf fuel i, selfTable adv texts g = true ->
    call isKeyword toks pf fuel g i =
      (let i' := if adv then next toks i else i in let t := if adv then nextTok toks i else current toks i in
       if existsb (fun s => beqb t (b s)) texts then Ret (VStr t) false i' else Ret (VStr []) true i').
Proof.
  intros adv texts g toks pf fuel i H. destruct g as [adv' table| |]; try discriminate. cbn in H.
  destruct (Bool.eqb adv adv') eqn:E; [|discriminate]. apply eqb_prop in E. subst adv'.
  destruct (list_eq_dec string_dec (map fst table) texts) as [<-|]; [|discriminate].
  destruct (list_eq_dec string_dec (map snd table) (map fst table)) as [E|]; [|discriminate].
  cbn [call]. rewrite (findText_self _ table (eq_sym E)). destruct (existsb _ _); reflexivity.
Qed.

(** Each text is read as itself, any other word is an error. *)
Theorem C58_enum_guarded : forall name texts g toks pf i, In (name, texts) enumerations -> name <> "parseAddrTypeEnum"%string -> In (name, g) allParsers ->
    (forall s, In s texts -> nth_error toks i = Some (b s) -> returns toks pf g i (VStr (b s)) false i)
    /\ ((forall s, In s texts -> nth_error toks i <> Some (b s)) -> i < length toks -> exists v, returns toks pf g i v true i).
Proof.
  intros name texts g toks pf i HE NA HG.
  pose proof (proj1 (forallb_forall _ _) (proj1 (forallb_forall _ _) enums_ok _ HE) _ HG) as O. cbn [fst snd] in O. rewrite String.eqb_refl in O.
  apply String.eqb_neq in NA. rewrite NA in O. split.
  - intros s IS T. exists 0. intros fuel _. rewrite (selfTable_call _ _ _ toks pf fuel i O). cbv zeta.
    assert (C : current toks i = b s) by (unfold current; apply nth_error_nth; exact T).
    rewrite C. replace (existsb _ texts) with true; [reflexivity|]. symmetry. apply existsb_exists. exists s. split; [exact IS|apply beqb_refl].
  - intros N L. eexists. exists 0. intros fuel _. rewrite (selfTable_call _ _ _ toks pf fuel i O). cbv zeta.
    destruct (existsb _ texts) eqn:E; [|reflexivity]. apply existsb_exists in E. destruct E as (s & IS & E). apply beqb_eq in E.
    exfalso. apply (N s IS). unfold current in E. rewrite <- E. destruct (nth_error_Some toks i) as [_ H]. specialize (H L).
    destruct (nth_error toks i) as [t|] eqn:T; [|congruence]. f_equal. symmetry. apply nth_error_nth. exact T.
Qed.
Print Assumptions C58_enum_guarded.

(** CALIBRATION_ACCESS is read from the next word. *)
Theorem C58_next_enum : forall name texts g toks pf i, In (name, texts) nextEnumerations -> In (name, g) allParsers ->
    (forall s, In s texts -> nth_error toks (S i) = Some (b s) -> returns toks pf g i (VStr (b s)) false (S i))
    /\ ((forall s, In s texts -> nth_error toks (S i) <> Some (b s)) -> S i < length toks -> exists v, returns toks pf g i v true (S i)).
Proof.
  intros name texts g toks pf i HE HG.
  pose proof (proj1 (forallb_forall _ _) (proj1 (forallb_forall _ _) nextEnums_ok _ HE) _ HG) as O. cbn [fst snd] in O. rewrite String.eqb_refl in O.
  assert (M : forall t, nth_error toks (S i) = Some t -> moves toks i = true).
  { intros t T. unfold moves. apply Nat.ltb_lt. apply nth_error_Some. congruence. }
  split.
  - intros s IS T. exists 0. intros fuel _. rewrite (selfTable_call _ _ _ toks pf fuel i O). cbv zeta. unfold nextTok, next.
    rewrite (M _ T). assert (C : current toks (S i) = b s) by (unfold current; apply nth_error_nth; exact T).
    rewrite C. replace (existsb _ texts) with true; [reflexivity|]. symmetry. apply existsb_exists. exists s. split; [exact IS|apply beqb_refl].
  - intros N L. eexists. exists 0. intros fuel _. rewrite (selfTable_call _ _ _ toks pf fuel i O). cbv zeta. unfold nextTok, next.
    destruct (nth_error toks (S i)) as [t|] eqn:T; [|apply nth_error_None in T; lia]. rewrite (M _ eq_refl).
    destruct (existsb _ texts) eqn:E; [|reflexivity]. apply existsb_exists in E. destruct E as (s & IS & E). apply beqb_eq in E.
    exfalso. apply (N s IS). f_equal. rewrite <- E. unfold current. symmetry. apply nth_error_nth. exact T.
Qed.
Print Assumptions C58_next_enum.

(** The parser of address types does not know PLONGLONG; it reads the others. *)
Theorem C58_addr_type_refuted : exists s toks i, In s addrTypeTexts /\ nth_error toks i = Some (b s) /\ forall pf, exists v, returns toks pf parseAddrTypeEnum i v true i.
Proof.
  exists "PLONGLONG"%string, [b "PLONGLONG"; []], 0. split; [cbn; auto 10|]. split; [reflexivity|]. intros pf. eexists. exists 0. intros fuel _. reflexivity.
Qed.
Print Assumptions C58_addr_type_refuted.
Theorem C58_addr_type_guarded : forall s toks pf i, In s addrTypeTexts -> s <> "PLONGLONG"%string -> nth_error toks i = Some (b s) ->
    returns toks pf parseAddrTypeEnum i (VStr (b s)) false i.
Proof.
  intros s toks pf i IS N T. exists 0. intros fuel _.
  rewrite (selfTable_call false addrTypeRead parseAddrTypeEnum toks pf fuel i eq_refl). cbv zeta.
  assert (C : current toks i = b s) by (unfold current; apply nth_error_nth; exact T). rewrite C.
  replace (existsb _ addrTypeRead) with true; [reflexivity|]. symmetry. apply existsb_exists. exists s. split; [|apply beqb_refl].
  cbn in IS. cbn. intuition congruence.
Qed.
Print Assumptions C58_addr_type_guarded.

Fixpoint distinct (l : list bytes) : bool := match l with [] => true | t :: l' => negb (existsb (beqb t) l') && distinct l' end.
Lemma distinct_ok : forall l, distinct l = true -> NoDup l.
Proof.
  induction l as [|t l IH]; intros H; [constructor|]. cbn in H. apply andb_true_iff in H. destruct H as [H1 H2]. constructor; [|apply IH; exact H2].
  intros I. apply negb_true_iff in H1. assert (existsb (beqb t) l = true); [|congruence]. apply existsb_exists. exists t. split; [exact I|apply beqb_refl].
Qed.

(** Different texts are different values, within every enumeration. *)
Theorem C58_distinct : forall name texts, In (name, texts) (enumerations ++ nextEnumerations) -> NoDup (map b texts) /\ ~ In [] (map b texts).
Proof.
  intros name texts H.
  assert (A : forallb (fun p => distinct ([] :: map b (snd p))) (enumerations ++ nextEnumerations) = true) by (vm_compute; reflexivity).
  pose proof (distinct_ok _ (proj1 (forallb_forall _ _) A _ H)) as B. inversion B; subst. auto.
Qed.
Print Assumptions C58_distinct.

Example C58_example : In ("parseByteOrderEnum", byteOrderTexts)%string enumerations /\ In ("parseByteOrderEnum", parseByteOrderEnum)%string allParsers
  /\ In "MSB_LAST"%string byteOrderTexts.
Proof. split; [listed|]. split; [listed|]. cbn. auto 10. Qed.
