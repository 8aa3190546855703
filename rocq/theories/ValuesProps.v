(** Reading the values of a characteristic (C61) and its function values (C67). *)
From Coq Require Import String Ascii List Arith NArith ZArith Bool Lia Permutation SpecFloat.
From Verif Require Import GoBase GoBaseFacts HexSpec FloatModel FloatSpec FloatProofs A2lLayoutModel A2lLayoutProps A2lIR A2lTokens A2lParsers A2lSpec.
From Verif Require Import MemModel MemSpec MemThm MemProps A2lModProps A2lLayoutSpec ValuesModel ValuesSpec ValuesThm.
Import ListNotations.

(** ** Lemmas *)

Lemma component_typed : forall rl c d, hidden c = false -> d <> DUndef -> typed rl c (b (typeName d)) -> componentOf rl c = Comp d true.
Proof.
  intros rl c d H D T. unfold typed in T. rewrite H in T. destruct T as [T1 T2]. unfold componentOf.
  rewrite (proj2 (pbool_flag rl c "DatatypeSet") T1), pstr_text, T2. f_equal. destruct d; try contradiction; vm_compute; reflexivity.
Qed.

Lemma integer_case : forall c, In c integers -> hidden c = false /\ caseOf c switch = AInt (valueField c) c.
Proof. apply Forall_forall. unfold integers. cbn -[hidden caseOf switch valueField]. repeat constructor. Qed.
Lemma address_case : forall c, In c addresses -> caseOf c switch = ALog.
Proof. apply Forall_forall. unfold addresses. cbn -[caseOf switch]. repeat constructor. Qed.
Lemma axis_case : forall x, In x axes ->
  hidden ("AxisPts" ++ x) = false /\
  caseOf ("AxisPts" ++ x) switch = AAxis (axisField x) ("FixNoAxisPts" ++ x) ("noAxisPts" ++ x ++ "Value") ("AxisPts" ++ x).
Proof. apply Forall_forall. unfold axes. repeat constructor. Qed.

(** ** C61 *)

(** The record layout of a characteristic is the one it names. *)
Theorem C61_layout : forall cd c m rl, theModule cd = Some m -> NoDup (map fst (fmap "RecordLayouts" m)) ->
  (forall k w, In (k, w) (fmap "RecordLayouts" m) -> exists o, w = VObj o) ->
  (getRecordLayout cd c = Ok rl <->
   fget "DepositSet" c = Some (VBool true) /\ In (fstr "Deposit" c, VObj rl) (fmap "RecordLayouts" m)).
Proof.
  intros cd c m rl M ND OB. unfold getRecordLayout. rewrite M.
  assert (D : fbool "DepositSet" c = true <-> fget "DepositSet" c = Some (VBool true)).
  { unfold fbool. destruct (fget "DepositSet" c) as [[]|]; split; try discriminate; intros H; [subst; reflexivity|injection H as ->; reflexivity]. }
  rewrite <- D. destruct (fbool "DepositSet" c); cbn [negb]; [|split; [discriminate|intros [? _]; discriminate]].
  destruct (mget (fstr "Deposit" c) (fmap "RecordLayouts" m)) as [w|] eqn:G.
  - destruct (OB _ _ (mget_in _ _ _ G)) as [o ->]. split.
    + intros H. injection H as <-. split; [reflexivity|]. apply mget_in. exact G.
    + intros [_ I]. apply in_mget in I; [|exact ND]. rewrite I in G. injection G as <-. reflexivity.
  - split; [discriminate|]. intros [_ I]. apply in_mget in I; [|exact ND]. congruence.
Qed.
Print Assumptions C61_layout.

(** False: whatever the record layout contains, no value is read, because the loop
    runs over the positions of the record layout given to NewCharacteristicValues,
    which no parser fills. *)
Theorem C61_nothing_read_refuted : forall toks pf i l e j cd ch r,
  returns toks pf parseRecordLayout i (VObj l) e j ->
  getValuesFromHex cd (NewCharacteristicValues ch (Some l)) r -> r = None \/ r = Some [].
Proof.
  intros toks pf i l e j cd ch r R H. destruct (layout_spares _ _ _ _ _ _ R) as (o & E & N). injection E as <-.
  cbn in H. destruct H as (order & P & ->). unfold relativePositions, flist in P. rewrite N in P. apply Permutation_sym, Permutation_nil in P. subst order.
  unfold valuesAlong. destruct (getRecordLayout _ _); auto. destruct (theModule cd); auto. destruct (convertStringToUint32Address _ _); auto.
Qed.
Print Assumptions C61_nothing_read_refuted.

(** False: a characteristic without a record layout is not reported; the program
    crashes. *)
Theorem C61_missing_layout_refuted : forall cd cv r,
  fget "DepositSet" (cv_char cv) <> Some (VBool true) \/
  (exists m, theModule cd = Some m /\ forall w, ~ In (fstr "Deposit" (cv_char cv), w) (fmap "RecordLayouts" m)) ->
  getValuesFromHex cd cv r -> r = None.
Proof.
  intros cd cv r H G. unfold getValuesFromHex in G. destruct (cv_layout cv); [|exact G]. destruct G as (order & _ & ->). unfold valuesAlong, getRecordLayout.
  destruct (fbool "DepositSet" (cv_char cv)) eqn:D; cbn [negb]; [|reflexivity]. destruct H as [H|(m & M & NI)].
  - exfalso. apply H. unfold fbool in D. destruct (fget "DepositSet" (cv_char cv)) as [[]|]; try discriminate. subst. reflexivity.
  - rewrite M. destruct (mget _ _) as [w|] eqn:X; [|reflexivity]. exfalso. apply (NI w). apply mget_in. exact X.
Qed.
Print Assumptions C61_missing_layout_refuted.

(** False: were the positions there, reading any integer or the identification
    crashes the program, in every order (see C67 for function values). *)
Theorem C61_reading_refuted : forall cd cv l rl c d r,
  cv_layout cv = Some l -> In c (relativePositions l) -> getRecordLayout cd (cv_char cv) = Ok rl ->
  In c ("Identification"%string :: integers) -> d <> DUndef -> typed rl c (b (typeName d)) ->
  getValuesFromHex cd cv r -> r = None.
Proof.
  intros cd cv l rl c d r L I R K D T G. unfold getValuesFromHex in G. rewrite L in G. destruct G as (order & P & ->).
  unfold valuesAlong. rewrite R. destruct (theModule cd) as [m|]; [|reflexivity].
  assert (X : forall v p, readField getBytes (contextOf cd m) rl c v p = None).
  { intros v p. unfold readField. destruct K as [<-|K].
    - change (caseOf "Identification" switch) with (AIdent "identificationValue" "Identification"). cbv iota.
      rewrite (component_typed rl "Identification" d), getIdent_panics; [reflexivity|exact D|reflexivity|exact D|exact T].
    - destruct (integer_case c K) as [H ->]. cbv iota. rewrite (component_typed rl c d H D T), getInt_panics by exact D. reflexivity. }
  assert (Y : forall v p, readFields getBytes (contextOf cd m) rl order v p = None).
  { apply readFields_panic with c; [exact X|]. eapply Permutation_in; [apply Permutation_sym; exact P|exact I]. }
  destruct (convertStringToUint32Address _ _); rewrite ?Y; reflexivity.
Qed.
Print Assumptions C61_reading_refuted.

(** ** With the byte access repaired

    getBytes_repaired is not in the repository (see C26); with it the rest of the
    code can be looked at. *)

Lemma value_at : forall cx rl d z big p bd, d = UBYTE \/ d = SBYTE \/ d = AUint64 \/ d = AInt64 ->
  in_force (alignmentsOf rl) (cx_common cx) d bd -> bd <> 0%N -> (bd | p)%N ->
  bytes_at (cx_hex cx) p (encode big (size_bytes d) (twos (size_bytes d) z)) ->
  getValue getBytes_repaired cx (alignmentsOf rl) p d = Ok (encode big (size_bytes d) (twos (size_bytes d) z)).
Proof.
  intros cx rl d z big p bd D F B0 BD BA.
  unfold getValue. rewrite (align_value _ cx d p bd F). destruct (N.eqb_spec bd 0) as [E|_]; [contradiction|].
  destruct (N.eqb_spec (p mod bd) 0) as [_|E]; [|exfalso; apply E, N.mod_divide; assumption]. cbn [obind].
  assert (W : GetDatatypeLength d = (8 * N.of_nat (size_bytes d))%N) by (destruct D as [->|[->|[->| ->]]]; reflexivity).
  unfold getBytes_repaired. rewrite W. replace (8 * N.of_nat (size_bytes d) / 8)%N with (N.of_nat (size_bytes d)) by (rewrite N.mul_comm, N.div_mul by lia; reflexivity).
  replace (8 * N.of_nat (size_bytes d) mod 8)%N with 0%N by (rewrite N.mul_comm, N.mod_mul by lia; reflexivity). cbn [N.eqb negb].
  rewrite Nat2N.id. pose proof (loop_ok (cx_hex cx) p (encode big (size_bytes d) (twos (size_bytes d) z)) 0 []) as L.
  rewrite encode_length in L. rewrite N.add_0_r in L. rewrite L; [reflexivity| |exact BA].
  destruct D as [->|[->|[->| ->]]]; cbn; lia.
Qed.

(** An integer at an aligned position is read and stored under its own name. *)
Theorem C61_integer_guarded : forall cx rl c d sg z big v p bd,
  In c integers -> typed rl c (b (typeName d)) -> d = UBYTE \/ d = SBYTE \/ d = AUint64 \/ d = AInt64 ->
  int_type d = Some sg -> ordered cx big -> in_range sg (size_bytes d) z -> (Z.abs z < 2 ^ 53)%Z ->
  in_force (alignmentsOf rl) (cx_common cx) d bd -> bd <> 0%N -> (bd | p)%N ->
  bytes_at (cx_hex cx) p (encode big (size_bytes d) (twos (size_bytes d) z)) ->
  exists v' q, readField getBytes_repaired cx rl c v p = Some (v', q) /\ vint (valueField c) v' = z /\
    forall n, n <> valueField c -> vget n v' = vget n v.
Proof.
  intros cx rl c d sg z big v p bd K T D IT O R Z0 F B0 BD BA. destruct (integer_case c K) as [H C].
  assert (D0 : d <> DUndef) by (destruct D as [->|[->|[->| ->]]]; discriminate).
  unfold readField. rewrite C. cbv iota. rewrite (component_typed rl c d H D0 T). unfold getInt. cbn [c_set c_type negb].
  rewrite (value_at cx rl d z big p bd D F B0 BD BA). destruct (C29_integers_guarded cx big d sg z O IT D R) as (f & CV & _ & EX). rewrite CV.
  eexists. eexists. split; [reflexivity|]. split; [|intros n N; apply vget_other; exact N].
  unfold vint. rewrite vget_set. apply int64_exact; auto.
Qed.
Print Assumptions C61_integer_guarded.

(** A record layout with one integer: its value is read from the address of the
    characteristic. *)
Theorem C61_single_guarded : forall cd m ch l rl c d sg z t bs bd,
  theModule cd = Some m -> NoDup (map fst (fmap "RecordLayouts" m)) ->
  fget "DepositSet" ch = Some (VBool true) -> In (fstr "Deposit" ch, VObj rl) (fmap "RecordLayouts" m) ->
  fstr "Address" ch = b "0x" ++ t -> hex_text_any t bs -> List.length bs = 4%nat ->
  In c integers -> typed rl c (b (typeName d)) -> d = UBYTE \/ d = SBYTE \/ d = AUint64 \/ d = AInt64 ->
  int_type d = Some sg -> ordered (contextOf cd m) true -> in_range sg (size_bytes d) z -> (Z.abs z < 2 ^ 53)%Z ->
  in_force (alignmentsOf rl) (cx_common (contextOf cd m)) d bd -> bd <> 0%N -> (bd | MemSpec.number bs)%N ->
  bytes_at (cd_hex cd) (MemSpec.number bs) (encode true (size_bytes d) (twos (size_bytes d) z)) ->
  exists v, valuesAlong getBytes_repaired cd (NewCharacteristicValues ch l) [c] = Some v /\ vint (valueField c) v = z.
Proof.
  intros cd m ch l rl c d sg z t bs bd M ND DS I A H4 L4 K T D IT O R Z0 F B0 BD BA.
  unfold valuesAlong, getRecordLayout, fbool. cbn [cv_char cv_values NewCharacteristicValues]. rewrite DS, M. cbn [negb].
  rewrite (in_mget _ _ _ ND I). cbv iota. rewrite A, (C32_address_guarded _ (b "0x") t bs O (or_introl eq_refl) H4 L4). cbn [readFields].
  destruct (C61_integer_guarded (contextOf cd m) rl c d sg z true [] (MemSpec.number bs) bd K T D IT O R Z0 F B0 BD BA) as (v & q & E & V & _).
  rewrite E. exists v. auto.
Qed.
Print Assumptions C61_single_guarded.

(** False: a characteristic whose address is no hexadecimal text is read at address 0,
    and there is only a line in the log. *)
Theorem C61_bad_address_refuted : forall cd m ch l rl c d sg z x bd,
  theModule cd = Some m -> NoDup (map fst (fmap "RecordLayouts" m)) ->
  fget "DepositSet" ch = Some (VBool true) -> In (fstr "Deposit" ch, VObj rl) (fmap "RecordLayouts" m) ->
  In x (fstr "Address" ch) -> hex_any x = None -> x <> "x"%char ->
  In c integers -> typed rl c (b (typeName d)) -> d = UBYTE \/ d = SBYTE \/ d = AUint64 \/ d = AInt64 ->
  int_type d = Some sg -> ordered (contextOf cd m) true -> in_range sg (size_bytes d) z -> (Z.abs z < 2 ^ 53)%Z ->
  in_force (alignmentsOf rl) (cx_common (contextOf cd m)) d bd -> bd <> 0%N ->
  bytes_at (cd_hex cd) 0 (encode true (size_bytes d) (twos (size_bytes d) z)) ->
  exists v, valuesAlong getBytes_repaired cd (NewCharacteristicValues ch l) [c] = Some v /\ vint (valueField c) v = z.
Proof.
  intros cd m ch l rl c d sg z x bd M ND DS I A1 A2 A3 K T D IT O R Z0 F B0 BA.
  unfold valuesAlong, getRecordLayout, fbool. cbn [cv_char cv_values NewCharacteristicValues]. rewrite DS, M. cbn [negb].
  rewrite (in_mget _ _ _ ND I). cbv iota. rewrite (C32_foreign_character _ _ x A1 A2 A3). cbn [readFields].
  destruct (C61_integer_guarded (contextOf cd m) rl c d sg z true [] 0%N bd K T D IT O R Z0 F B0 (N.divide_0_r bd) BA) as (v & q & E & V & _).
  rewrite E. exists v. auto.
Qed.
Print Assumptions C61_bad_address_refuted.

Lemma bytes_at_missing : forall hex bs a i, bytes_at hex a bs -> (i < N.of_nat (length bs))%N ->
  lookup ((a + i) mod 2 ^ 32) hex = None -> False.
Proof.
  intros hex bs. induction bs as [|v bs IH]; intros a i B I L; [cbn in I; lia|]. destruct B as [B1 B2].
  destruct (N.eq_dec i 0) as [->|N0]; [rewrite N.add_0_r in L; congruence|].
  apply (IH (a + 1)%N (i - 1)%N B2); [cbn [length] in I; lia|]. replace (a + 1 + (i - 1))%N with (a + i)%N by lia. exact L.
Qed.

(** False: an integer whose bytes are not all in the image gets the value 0, again with
    only a line in the log; the components after it are then read at its place. *)
Theorem C61_missing_bytes_refuted : forall cx rl c d v p bd i,
  In c integers -> typed rl c (b (typeName d)) -> d = UBYTE \/ d = SBYTE \/ d = AUint64 \/ d = AInt64 ->
  in_force (alignmentsOf rl) (cx_common cx) d bd -> bd <> 0%N -> (bd | p)%N ->
  (i < N.of_nat (size_bytes d))%N -> lookup ((p + i) mod 2 ^ 32) (cx_hex cx) = None ->
  exists v', readField getBytes_repaired cx rl c v p = Some (v', p) /\ vint (valueField c) v' = 0%Z /\
    forall n, n <> valueField c -> vget n v' = vget n v.
Proof.
  intros cx rl c d v p bd i K T D F B0 BD I L. destruct (integer_case c K) as [H C].
  assert (D0 : d <> DUndef) by (destruct D as [->|[->|[->| ->]]]; discriminate).
  unfold readField. rewrite C. cbv iota. rewrite (component_typed rl c d H D0 T). unfold getInt. cbn [c_set c_type negb].
  assert (G : getValue getBytes_repaired cx (alignmentsOf rl) p d = Err MAddr).
  { unfold getValue. rewrite (align_value _ cx d p bd F). destruct (N.eqb_spec bd 0) as [E|_]; [contradiction|].
    destruct (N.eqb_spec (p mod bd) 0) as [_|E]; [|exfalso; apply E, N.mod_divide; assumption]. cbn [obind].
    assert (W : GetDatatypeLength d = (8 * N.of_nat (size_bytes d))%N) by (destruct D as [->|[->|[->| ->]]]; reflexivity). rewrite W.
    destruct (C26_loop_guarded cx p (N.of_nat (size_bytes d))) as [(bs & L1 & L2 & _)|[_ ->]].
    - destruct D as [->|[->|[->| ->]]]; reflexivity.
    - exfalso. exact (bytes_at_missing _ _ _ i L2 ltac:(rewrite L1; exact I) L).
    - reflexivity. }
  rewrite G. eexists. split; [reflexivity|]. split; [unfold vint; rewrite vget_set; reflexivity|intros n N; apply vget_other; exact N].
Qed.
Print Assumptions C61_missing_bytes_refuted.

(** False: of the points of an axis of bytes, every eighth address is taken. *)
Theorem C61_axis_refuted : forall cx rl x bs v p big,
  In x axes -> typed rl ("AxisPts" ++ x) (b "UBYTE") -> flag rl ("FixNoAxisPts" ++ x) "NumberOfAxisPointsSet" ->
  number rl ("FixNoAxisPts" ++ x) "NumberOfAxisPoints" = Z.of_nat (List.length bs) ->
  in_force (alignmentsOf rl) (cx_common cx) UBYTE 1 -> ordered cx big -> (p < 2 ^ 32)%N ->
  (forall i w, nth_error bs i = Some w -> (w < 256)%N /\ lookup ((p + 8 * N.of_nat i) mod 2 ^ 32) (cx_hex cx) = Some w) ->
  exists v' fs, readField getBytes_repaired cx rl ("AxisPts" ++ x) v p = Some (v', (p + 8 * N.of_nat (List.length bs)) mod 2 ^ 32)%N /\
    vget (axisField x) v' = Some (CFloats fs) /\ Forall2 (fun w f => exactly (Z.of_N w * unit1) f) bs fs.
Proof.
  intros cx rl x bs v p big K T FX NM F O P B. destruct (axis_case x K) as [H C]. unfold readField. rewrite C. cbv iota.
  rewrite (component_typed rl ("AxisPts" ++ x) UBYTE H ltac:(discriminate) T). unfold fixOf.
  rewrite (proj2 (pbool_flag _ _ _) FX), pint_number, NM. unfold getAxisPoints. cbn [c_type].
  replace (N.to_nat (Z.to_N (Z.of_nat (List.length bs)))) with (List.length bs) by lia.
  assert (W : forall bs acc p, (p < 2 ^ 32)%N ->
    (forall i w, nth_error bs i = Some w -> (w < 256)%N /\ lookup ((p + 8 * N.of_nat i) mod 2 ^ 32) (cx_hex cx) = Some w) ->
    axisLoop getBytes_repaired cx (alignmentsOf rl) (List.length bs) UBYTE acc p =
      (Ok (acc ++ map (fun w => f_of_Z (Z.of_N w)) bs), ((p + 8 * N.of_nat (List.length bs)) mod 2 ^ 32)%N)).
  { clear bs p NM P B v. induction bs as [|w bs IH]; intros acc p P B; cbn [List.length axisLoop map].
    - rewrite app_nil_r. rewrite N.mul_0_r, N.add_0_r, N.mod_small by exact P. reflexivity.
    - destruct (B 0%nat w eq_refl) as [W0 LK]. rewrite N.mul_0_r, N.add_0_r, N.mod_small in LK by exact P.
      unfold getValue. rewrite (align_value _ cx UBYTE p 1 F). cbn [N.eqb]. rewrite N.mod_1_r. cbn [N.eqb Pos.eqb obind].
      assert (G : getBytes_repaired cx p (GetDatatypeLength UBYTE) = Ok [w]).
      { unfold getBytes_repaired. cbn [GetDatatypeLength]. change (8 mod 8 =? 0)%N with true. change (N.to_nat (8 / 8)) with 1%nat. cbn [negb getBytes_loop].
        rewrite (u32_small 0) by (cbn; lia). rewrite N.add_0_r, u32_small by (change 4294967296%N with (2 ^ 32)%N; exact P). rewrite LK. reflexivity. }
      rewrite G. rewrite (convert_ordered cx big [w] UBYTE O). cbn [List.length Nat.eqb orb]. cbn [GetDatatypeLength].
      change (N.of_nat 1 * 8 <? 8)%N with false. cbn [convertSwitch]. cbv iota.
      change (u32 (p + 8)) with ((p + 8) mod 2 ^ 32)%N. rewrite IH.
      + rewrite <- app_assoc. cbn [app]. f_equal. rewrite N.add_mod_idemp_l by discriminate. f_equal. lia.
      + apply N.mod_lt. discriminate.
      + intros i u Hi. destruct (B (S i) u Hi) as [U1 U2]. split; [exact U1|]. rewrite <- U2. f_equal.
        rewrite N.add_mod_idemp_l by discriminate. f_equal. lia. }
  rewrite (W bs [] p P B). cbn [app]. eexists. eexists. split; [reflexivity|]. split; [apply vget_set|].
  clear NM W. revert B. generalize p. induction bs as [|w bs IH]; intros q B; constructor.
  - apply f_of_Z_exact. destruct (B 0%nat w eq_refl) as [U _]. lia.
  - apply IH with (p := (q + 8)%N). intros i u Hi. destruct (B (S i) u Hi) as [U1 U2]. split; [exact U1|]. rewrite <- U2. f_equal. f_equal. lia.
Qed.
Print Assumptions C61_axis_refuted.

(** False: components that hold addresses are passed over as if they took no room. *)
Theorem C61_skipped_refuted : forall gb cx rl c v p, In c addresses -> readField gb cx rl c v p = Some (v, p).
Proof. intros gb cx rl c v p K. unfold readField. rewrite (address_case c K). reflexivity. Qed.
Print Assumptions C61_skipped_refuted.

(** ** Examples *)

(** A module with the record layout R and the image of [hex] *)
Definition oneLayout (words : list string) (hex : gomap) : calib :=
  Calib [VObj [("RecordLayouts", VMap [(b "R", VObj (layoutOf words))])]%string] 0 hex.
Definition oneChar : fields :=
  [("DepositSet", VBool true); ("Deposit", VStr (b "R")); ("Address", VStr (b "0x80000000"))]%string.

Definition curveWords : list string :=
  ["R"; "NO_AXIS_PTS_X"; "1"; "UBYTE"; "AXIS_PTS_X"; "2"; "UBYTE"; "INDEX_INCR"; "DIRECT"; "/end RECORD_LAYOUT"]%string.
Definition curveImage : gomap := [(0x80000000, 1); (0x80000001, 7); (0x80000008, 9)]%N.
Definition curve : calib := oneLayout curveWords curveImage.

(** The record layout is found and has the position map (1: NoAxisPtsX,
    2: AxisPtsX), the bytes are there, the address is valid; yet nothing is read. *)
Example C61_example :
  let l := layoutOf curveWords in
  let cv := NewCharacteristicValues oneChar (Some l) in
  returns (b "RECORD_LAYOUT" :: map b curveWords ++ [[]]) (fun _ => None) parseRecordLayout 0 (VObj l) false 10 /\
  GetRecordLayoutRelativePositions l = ([(1, "NoAxisPtsX"); (2, "AxisPtsX")]%Z%string, false) /\
  getRecordLayout curve oneChar = Ok l /\ typed l "NoAxisPtsX" (b "UBYTE") /\
  convertStringToUint32Address (contextOf curve []) (fstr "Address" oneChar) = Ok 0x80000000%N /\
  getValuesFromHex curve cv (Some []).
Proof.
  split; [apply (returns_run 1000); vm_compute; reflexivity|]. split; [vm_compute; reflexivity|]. split; [vm_compute; reflexivity|].
  split; [split; vm_compute; reflexivity|]. split; [vm_compute; reflexivity|].
  exists []. split; [vm_compute; constructor|]. vm_compute. reflexivity.
Qed.

(** With the positions filled in by hand and the bytes accessible the result depends
    on the order in which Go happens to iterate over the map; and the first point of
    the axis is taken from the address + 8. *)
Theorem C61_order_refuted : exists cd cv rl o1 o2 v1 v2,
  getRecordLayout cd (cv_char cv) = Ok rl /\
  Permutation o1 (map snd (fst (GetRecordLayoutRelativePositions rl))) /\
  Permutation o2 (map snd (fst (GetRecordLayoutRelativePositions rl))) /\
  valuesAlong getBytes_repaired cd cv o1 = Some v1 /\ valuesAlong getBytes_repaired cd cv o2 = Some v2 /\
  vget "AxisXValues" v1 = Some (CFloats [f_of_Z 9]) /\ vget "AxisXValues" v2 = Some (CFloats []).
Proof.
  exists curve, (NewCharacteristicValues oneChar (Some (layoutOf curveWords))), (layoutOf curveWords),
    ["NoAxisPtsX"; "AxisPtsX"]%string, ["AxisPtsX"; "NoAxisPtsX"]%string. eexists. eexists.
  split; [vm_compute; reflexivity|].
  assert (E : map snd (fst (GetRecordLayoutRelativePositions (layoutOf curveWords))) = ["NoAxisPtsX"; "AxisPtsX"]%string) by (vm_compute; reflexivity).
  rewrite E. split; [apply Permutation_refl|]. split; [constructor|].
  split; [vm_compute; reflexivity|]. split; [vm_compute; reflexivity|]. split; vm_compute; reflexivity.
Qed.
Print Assumptions C61_order_refuted.

Example C61_single_example :
  let cd := oneLayout ["R"; "OFFSET_Z"; "1"; "SBYTE"; "/end RECORD_LAYOUT"]%string [(0x80000000, 0xFE)]%N in
  let rl := layoutOf ["R"; "OFFSET_Z"; "1"; "SBYTE"; "/end RECORD_LAYOUT"]%string in
  theModule cd = Some [("RecordLayouts", VMap [(b "R", VObj rl)])]%string /\
  typed rl "OffsetZ" (b (typeName SBYTE)) /\ In "OffsetZ"%string integers /\ valueField "OffsetZ" = "offsetZValue"%string /\
  ordered (contextOf cd [("RecordLayouts", VMap [(b "R", VObj rl)])]%string) true /\
  in_force (alignmentsOf rl) (cx_common (contextOf cd [])) SBYTE 1 /\
  bytes_at (cd_hex cd) 0x80000000 (encode true (size_bytes SBYTE) (twos (size_bytes SBYTE) (-2))) /\
  (exists v, valuesAlong getBytes_repaired cd (NewCharacteristicValues oneChar None) ["OffsetZ"]%string = Some v /\ vint "offsetZValue" v = (-2)%Z).
Proof.
  split; [vm_compute; reflexivity|]. split; [split; vm_compute; reflexivity|]. split; [vm_compute; tauto|]. split; [vm_compute; reflexivity|].
  split; [apply order_none; vm_compute; reflexivity|]. split; [eapply from_default; vm_compute; reflexivity|].
  split; [vm_compute; auto|]. eexists. split; vm_compute; reflexivity.
Qed.

(** The same with a misspelt address (80OOO000): the byte at address 0 is taken. And
    where the image has no byte at the address, the value is 0. *)
Example C61_silent_example :
  let w := ["R"; "OFFSET_Z"; "1"; "SBYTE"; "/end RECORD_LAYOUT"]%string in
  let rl := layoutOf w in
  let cd := oneLayout w [(0, 5); (0x80000000, 0xFE)]%N in
  let ch := [("DepositSet", VBool true); ("Deposit", VStr (b "R")); ("Address", VStr (b "80OOO000"))]%string in
  In "O"%char (fstr "Address" ch) /\ hex_any "O" = None /\
  bytes_at (cd_hex cd) 0 (encode true (size_bytes SBYTE) (twos (size_bytes SBYTE) 5)) /\
  (exists v, valuesAlong getBytes_repaired cd (NewCharacteristicValues ch None) ["OffsetZ"]%string = Some v /\ vint "offsetZValue" v = 5%Z) /\
  lookup ((0x80000001 + 0) mod 2 ^ 32)%N (cx_hex (contextOf cd [])) = None /\
  (exists v, readField getBytes_repaired (contextOf cd []) rl "OffsetZ" [] 0x80000001 = Some (v, 0x80000001%N) /\ vint "offsetZValue" v = 0%Z).
Proof.
  split; [vm_compute; tauto|]. split; [vm_compute; reflexivity|]. split; [vm_compute; auto|].
  split; [eexists; split; vm_compute; reflexivity|]. split; [vm_compute; reflexivity|]. eexists; split; vm_compute; reflexivity.
Qed.

(** ** C67 *)

(** False: the function values of a characteristic are never stored; the position is
    not moved past them. *)
Theorem C67_lost_refuted : forall gb cx rl v p v' q, readField gb cx rl "FncValues" v p = Some (v', q) ->
  vget "fncValues" v' = Some (CAny None) /\ q = p.
Proof.
  intros gb cx rl v p v' q. unfold readField. change (caseOf "FncValues" switch) with (AFnc "fncValues"). cbv iota.
  destruct (getFncValues gb cx rl p); intros H; inversion H; subst; (split; [apply vget_set|reflexivity]).
Qed.
Print Assumptions C67_lost_refuted.

(** False: for the address types DIRECT (also when none is given) and PBYTE the
    program crashes. *)
Theorem C67_direct_refuted : forall cx rl v p,
  ~ flag rl "FncValues" "AddresstypeSet" \/ text rl "FncValues" "Addresstype" = b "DIRECT" \/ text rl "FncValues" "Addresstype" = b "PBYTE" ->
  readField getBytes cx rl "FncValues" v p = None.
Proof.
  intros cx rl v p H. unfold readField. change (caseOf "FncValues" switch) with (AFnc "fncValues"). cbv iota. unfold getFncValues.
  rewrite pstr_text, getValue_panics by discriminate. rewrite <- (pbool_flag rl "FncValues" "AddresstypeSet") in H.
  destruct (pbool _ rl); [|reflexivity]. destruct H as [H|[-> | ->]]; [exfalso; apply H; reflexivity| |]; reflexivity.
Qed.
Print Assumptions C67_direct_refuted.

(** Values with a pointer of two bytes or more are passed over without an error. *)
Theorem C67_pointer_refuted : forall gb cx rl v p, flag rl "FncValues" "AddresstypeSet" ->
  text rl "FncValues" "Addresstype" = b "PWORD" \/ text rl "FncValues" "Addresstype" = b "PLONG" ->
  readField gb cx rl "FncValues" v p = Some (vset "fncValues" (CAny None) v, p).
Proof.
  intros gb cx rl v p F H. unfold readField. change (caseOf "FncValues" switch) with (AFnc "fncValues"). cbv iota. unfold getFncValues.
  rewrite (proj2 (pbool_flag rl "FncValues" "AddresstypeSet") F), pstr_text. destruct H as [-> | ->]; reflexivity.
Qed.
Print Assumptions C67_pointer_refuted.

(** False: getFncValues2D does not look at FNC_VALUES at all, neither at its data
    type nor whether it is given. *)
Theorem C67_type_ignored_refuted : forall gb cx rl w dim p,
  getFncValues2D gb cx (fset "FncValues" w rl) dim p = getFncValues2D gb cx rl dim p.
Proof.
  intros gb cx rl w dim p.
  assert (P : forall f, f <> "FncValues"%string -> A2lLayoutModel.part f (fset "FncValues" w rl) = A2lLayoutModel.part f rl).
  { intros f N. unfold A2lLayoutModel.part. rewrite fget_other by exact N. reflexivity. }
  unfold getFncValues2D, fixOf, componentOf, alignmentsOf, alignmentOf, pbool, pint, pstr. cbn [fst snd].
  rewrite !P by discriminate. reflexivity.
Qed.
Print Assumptions C67_type_ignored_refuted.

(** False: without FIX_NO_AXIS_PTS_X it returns no values, and no error if
    MATRIX_DIM is given. *)
Theorem C67_unfixed_refuted : forall gb cx rl dim p, ~ flag rl "FixNoAxisPtsX" "NumberOfAxisPointsSet" -> (0 < dim)%Z ->
  getFncValues2D gb cx rl dim p = (Ok [], p).
Proof.
  intros gb cx rl dim p H D. unfold getFncValues2D, fixOf. rewrite <- (pbool_flag rl "FixNoAxisPtsX" "NumberOfAxisPointsSet") in H.
  destruct (pbool _ rl); [exfalso; apply H; reflexivity|]. destruct (Z.leb_spec dim 0); [lia|reflexivity].
Qed.
Print Assumptions C67_unfixed_refuted.

(** A single value (getFncValues1D), with the byte access repaired: the number at
    an aligned position, in the data type of FNC_VALUES. *)
Theorem C67_value_guarded : forall cx rl d sg z big p bd,
  typed rl "FncValues" (b (typeName d)) -> d = UBYTE \/ d = SBYTE \/ d = AUint64 \/ d = AInt64 ->
  int_type d = Some sg -> ordered cx big -> in_range sg (size_bytes d) z -> (Z.abs z < 2 ^ 53)%Z ->
  in_force (alignmentsOf rl) (cx_common cx) d bd -> bd <> 0%N -> (bd | p)%N ->
  bytes_at (cx_hex cx) p (encode big (size_bytes d) (twos (size_bytes d) z)) ->
  exists f q, getFncValues1D getBytes_repaired cx (alignmentsOf rl) (c_type (componentOf rl "FncValues")) p = (Ok f, q) /\ exactly (z * unit1) f.
Proof.
  intros cx rl d sg z big p bd T D IT O R Z0 F B0 BD BA.
  assert (D0 : d <> DUndef) by (destruct D as [->|[->|[->| ->]]]; discriminate).
  rewrite (component_typed rl "FncValues" d eq_refl D0 T). cbn [c_type]. unfold getFncValues1D.
  rewrite (value_at cx rl d z big p bd D F B0 BD BA).
  destruct (C29_integers_guarded cx big d sg z O IT D R) as (f & CV & _ & EX). rewrite CV. eauto.
Qed.
Print Assumptions C67_value_guarded.

Example C67_example :
  let words := ["R"; "FNC_VALUES"; "1"; "UBYTE"; "COLUMN_DIR"; "DIRECT"; "AXIS_PTS_X"; "2"; "A_UINT64"; "INDEX_INCR"; "DIRECT";
                "FIX_NO_AXIS_PTS_X"; "1"; "/end RECORD_LAYOUT"]%string in
  let rl := layoutOf words in
  let cx := Ctx [(0, 1); (1, 2); (2, 3); (3, 4); (4, 5); (5, 6); (6, 7); (7, 8)]%N (alignmentsOf []) BUndef false in
  typed rl "FncValues" (b "UBYTE") /\ text rl "FncValues" "Addresstype" = b "DIRECT" /\
  flag rl "FixNoAxisPtsX" "NumberOfAxisPointsSet" /\
  readField getBytes cx rl "FncValues" [] 0 = None /\
  (* the one function value is the byte 1; eight bytes are read instead *)
  getFncValues2D getBytes_repaired cx rl 1 0 = (Ok [f_of_Z 0x0102030405060708], 64%N) /\
  getFncValues1D getBytes_repaired cx (alignmentsOf rl) (c_type (componentOf rl "FncValues")) 0 = (Ok (f_of_Z 1), 8%N).
Proof. vm_compute. repeat split; reflexivity. Qed.
