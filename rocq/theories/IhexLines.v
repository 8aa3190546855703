(** Arbitrary file content: when the checksum error occurs, where data comes
    from, independence of the number of CPUs. *)
From Coq Require Import String Ascii List Arith NArith Bool Lia.
From Verif Require Import GoBase GoStrings GoBaseFacts ConcModel IhexModel IhexOffsets IhexPhase2 IhexProofs
  HexSpec HexSpecFacts IhexSpec IhexEnc IhexMain.
Import ListNotations.

(** ** Digits *)

Definition all_ascii : list ascii := map ascii_of_N all256.
Lemma ascii_enum : forall (P : ascii -> bool), forallb P all_ascii = true -> forall c, P c = true.
Proof.
  intros P H c. rewrite forallb_forall in H. apply H. unfold all_ascii. apply in_map_iff.
  exists (N_of_ascii c). split; [apply ascii_N_embedding|]. apply all256_In, N_ascii_bounded.
Qed.

Definition inv_ok (f : ascii -> option N) (up : bool) (c : ascii) : bool :=
  match f c with Some x => (x <? 16)%N && Ascii.eqb c (digit up x) | None => true end.
Lemma hex_upper_inv : forall c x, hex_upper c = Some x -> (x < 16)%N /\ c = digit true x.
Proof.
  intros c x H. assert (E : inv_ok hex_upper true c = true) by (revert c H; intros c _; apply ascii_enum; vm_compute; reflexivity).
  unfold inv_ok in E. rewrite H in E. apply andb_true_iff in E. destruct E as [E1 E2].
  apply N.ltb_lt in E1. apply Ascii.eqb_eq in E2. auto.
Qed.
Lemma hex_lower_inv : forall c x, hex_lower c = Some x -> (x < 16)%N /\ c = digit false x.
Proof.
  intros c x H. assert (E : inv_ok hex_lower false c = true) by (revert c H; intros c _; apply ascii_enum; vm_compute; reflexivity).
  unfold inv_ok in E. rewrite H in E. apply andb_true_iff in E. destruct E as [E1 E2].
  apply N.ltb_lt in E1. apply Ascii.eqb_eq in E2. auto.
Qed.
Lemma hex_any_inv : forall c x, hex_any c = Some x -> (x < 16)%N /\ exists up, c = digit up x.
Proof.
  intros c x H. unfold hex_any in H. destruct (hex_upper c) as [y|] eqn:E.
  - inversion H; subst. destruct (hex_upper_inv _ _ E). eauto.
  - destruct (hex_lower_inv _ _ H). eauto.
Qed.

Lemma div16 : forall x y, (y < 16)%N -> ((16 * x + y) / 16 = x /\ (16 * x + y) mod 16 = y)%N.
Proof.
  intros x y Hy. split.
  - symmetry. apply (N.div_unique _ 16 x y); [exact Hy|reflexivity].
  - symmetry. apply (N.mod_unique _ 16 x y); [exact Hy|reflexivity].
Qed.

Lemma hexToByte_inv : forall s v, hexToByte s = Some v -> (v < 256)%N /\ exists up, s = hex2 up v.
Proof.
  intros [|c [|d [|e s]]] v H; try discriminate. cbn [hexToByte] in H.
  assert (Hu : forall x y, hex_upper c = Some x -> hex_upper d = Some y -> v = (16 * x + y)%N ->
            (v < 256)%N /\ exists up, [c; d] = hex2 up v).
  { intros x y Hc Hd ->. destruct (hex_upper_inv _ _ Hc) as [B1 E1]. destruct (hex_upper_inv _ _ Hd) as [B2 E2].
    split; [lia|]. exists true. unfold hex2. destruct (div16 x y B2) as [-> ->]. congruence. }
  assert (Hl : forall x y, hex_lower c = Some x -> hex_lower d = Some y -> v = (16 * x + y)%N ->
            (v < 256)%N /\ exists up, [c; d] = hex2 up v).
  { intros x y Hc Hd ->. destruct (hex_lower_inv _ _ Hc) as [B1 E1]. destruct (hex_lower_inv _ _ Hd) as [B2 E2].
    split; [lia|]. exists false. unfold hex2. destruct (div16 x y B2) as [-> ->]. congruence. }
  destruct (hex_upper c) as [x|] eqn:Ec; destruct (hex_upper d) as [y|] eqn:Ed;
    try (inversion H; subst; eapply Hu; eauto; fail);
    destruct (hex_lower c) as [x'|] eqn:Ec'; try discriminate;
    destruct (hex_lower d) as [y'|] eqn:Ed'; try discriminate;
    inversion H; subst; eapply Hl; eauto.
Qed.

Lemma hexToByte_any : forall s v, hexToByte s = Some v -> hex_text_any s [v].
Proof.
  intros s v H. destruct (hexToByte_inv _ _ H) as (Hv & up & ->).
  destruct (half_bounds v Hv) as [H1 H2]. unfold hex2. rewrite <- (hex_join v) at 3.
  constructor; [exact H1|exact H2|constructor].
Qed.

Lemma hex_decode_any : forall k s l, List.length s <= k -> hex_decode s = Some l -> hex_text_any s l.
Proof.
  induction k as [|k IH]; intros s l Hk H.
  - destruct s; cbn in Hk; [|lia]. inversion H. constructor.
  - destruct s as [|c [|d rest]]; cbn [hex_decode] in H; [inversion H; constructor|discriminate|].
    destruct (hex_any c) as [x|] eqn:Ec; [|discriminate]. destruct (hex_any d) as [y|] eqn:Ed; [|discriminate].
    destruct (hex_decode rest) as [r|] eqn:E; [|discriminate]. inversion H; subst.
    destruct (hex_any_inv _ _ Ec) as (Bx & u1 & ->). destruct (hex_any_inv _ _ Ed) as (By & u2 & ->).
    constructor; [exact Bx|exact By|]. apply IH; [cbn in Hk; lia|exact E].
Qed.

(** ** The checksum of an arbitrary line *)

Fixpoint pairs2 (l : bytes) : list bytes :=
  match l with x :: y :: rest => [x; y] :: pairs2 rest | _ => [] end.

Lemma dl_pairs2 : forall k l, List.length l = 2 * k + 2 -> dl l ++ [last2 l] = pairs2 l.
Proof.
  induction k as [|k IH]; intros l Hl.
  - destruct l as [|x [|y [|z l]]]; cbn in Hl; try lia. reflexivity.
  - destruct l as [|x [|y [|z [|w l]]]]; cbn in Hl; try lia.
    cbn [dl app pairs2]. f_equal. change ([z; w] :: pairs2 l) with (pairs2 (z :: w :: l)).
    rewrite <- IH by (cbn; lia). f_equal. f_equal. unfold last2. cbn [List.length].
    replace (S (S (S (S (List.length l)))) - 2) with (S (S (S (S (List.length l)) - 2))) by lia.
    reflexivity.
Qed.

Lemma sum_pairs_text : forall k tx acc, (acc < 256)%N -> List.length tx = 2 * k ->
    forall s, sum_pairs acc (pairs2 tx) = Some s <-> exists bs, hex_text tx bs /\ s = ((acc + nsum bs) mod 256)%N.
Proof.
  induction k as [|k IH]; intros tx acc Ha Hl s.
  - destruct tx; cbn in Hl; [|lia]. cbn [pairs2 sum_pairs]. split.
    + intros H. inversion H; subst. exists []. split; [constructor|].
      cbn [nsum]. rewrite N.add_0_r, N.mod_small by exact Ha. reflexivity.
    + intros (bs & H & ->). inversion H; subst.
      cbn [nsum]. rewrite N.add_0_r, N.mod_small by exact Ha. reflexivity.
  - destruct tx as [|c [|d tx]]; cbn in Hl; try lia. cbn [pairs2 sum_pairs]. split.
    + intros H. destruct (hexToByte [c; d]) as [v|] eqn:E; [|discriminate].
      destruct (hexToByte_inv _ _ E) as (Hv & up & Ev).
      apply (IH tx) in H; [|unfold u8; apply N.mod_lt; lia|lia]. destruct H as (bs & H1 & H2).
      exists (v :: bs). split.
      * change (c :: d :: tx) with ([c; d] ++ tx). rewrite Ev. constructor; assumption.
      * rewrite H2. unfold u8. rewrite N.add_mod_idemp_l by lia. cbn [nsum]. f_equal. lia.
    + intros (bs & H & ->). inversion H as [|up v tx' bs' Hv Ht E1 E2]; subst.
      change [digit up (v / 16); digit up (v mod 16)] with (hex2 up v).
      rewrite hexToByte_hex2 by exact Hv. apply IH; [unfold u8; apply N.mod_lt; lia|lia|].
      exists bs'. split; [exact Ht|]. unfold u8. rewrite N.add_mod_idemp_l by lia. cbn [nsum]. f_equal. lia.
Qed.

Lemma record_line_parse : forall l, record_line l -> exists r, parseLine l = Some r.
Proof.
  intros l (Hc & Hl & H4). destruct l as [|c0 l]; [discriminate|]. cbn in Hc. inversion Hc; subst.
  destruct l as [|c1 [|c2 [|a1 [|a2 [|a3 [|a4 [|t1 [|t2 rest]]]]]]]]; cbn [List.length] in Hl; try lia.
  cbn [parseLine]. change (Ascii.eqb ":" beginLineToken) with true.
  assert ((2 <=? List.length rest) = true) as -> by (apply Nat.leb_le; lia). cbn [andb].
  destruct (beqb [t1; t2] extendedLinearAddressRecordToken) eqn:T; [|eauto].
  apply beqb_eq in T. unfold line_type in H4. cbn [skipn firstn] in H4. specialize (H4 T).
  cbn [List.length] in H4. assert ((4 <=? List.length rest) = true) as -> by (apply Nat.leb_le; lia). eauto.
Qed.

Lemma parse_record_line : forall l r, parseLine l = Some r -> record_line l.
Proof.
  intros l r H.
  destruct l as [|c0 [|c1 [|c2 [|a1 [|a2 [|a3 [|a4 [|t1 [|t2 rest]]]]]]]]]; try discriminate.
  cbn [parseLine] in H. destruct (Ascii.eqb c0 beginLineToken) eqn:Ec; [|discriminate].
  apply Ascii.eqb_eq in Ec. subst. destruct (2 <=? List.length rest) eqn:El; [|discriminate].
  apply Nat.leb_le in El. cbn [andb] in H.
  split; [reflexivity|]. split; [cbn [List.length]; lia|].
  intros T. unfold line_type in T. cbn [skipn firstn] in T.
  change (b "04") with extendedLinearAddressRecordToken in T. rewrite T, beqb_refl in H.
  destruct (4 <=? List.length rest) eqn:E4; [|discriminate]. apply Nat.leb_le in E4. cbn [List.length]. lia.
Qed.

Lemma line_csum : forall l r, whole_bytes l -> parseLine l = Some r ->
    (csum_ok r = true <-> good_sum l).
Proof.
  intros l r Hw H. pose proof (parse_record_line l r H) as (_ & Hlen & _).
  destruct l as [|c0 [|c1 [|c2 [|a1 [|a2 [|a3 [|a4 [|t1 [|t2 rest]]]]]]]]]; try discriminate.
  assert (Hr : exists off, r = mkrec c1 c2 a1 a2 a3 a4 t1 t2 rest off /\ c0 = ":"%char).
  { cbn [parseLine] in H. destruct (Ascii.eqb c0 beginLineToken) eqn:Ec; [|discriminate].
    apply Ascii.eqb_eq in Ec. destruct (2 <=? List.length rest); [|discriminate]. cbn [andb] in H.
    destruct (beqb [t1; t2] extendedLinearAddressRecordToken).
    - destruct (4 <=? List.length rest); [|discriminate]. inversion H; subst. eauto.
    - inversion H; subst. eauto. }
  destruct Hr as (off & -> & ->). clear H.
  destruct Hw as (m & Hm). cbn [List.length] in Hm, Hlen.
  assert (Hrest : List.length rest = 2 * (m - 5) + 2) by lia.
  unfold csum_ok, validateChecksum, mkrec. cbn [addressField byteCount recordType data checksum].
  unfold slice. cbn [List.length Nat.leb andb firstn skipn Nat.sub obind app].
  rewrite (dl_pairs2 _ _ Hrest).
  change ([c1; c2] :: [a1; a2] :: [a3; a4] :: [t1; t2] :: pairs2 rest)
    with (pairs2 (c1 :: c2 :: a1 :: a2 :: a3 :: a4 :: t1 :: t2 :: rest)).
  set (tx := c1 :: c2 :: a1 :: a2 :: a3 :: a4 :: t1 :: t2 :: rest).
  assert (Htx : List.length tx = 2 * m) by (unfold tx; cbn [List.length]; lia).
  pose proof (sum_pairs_text m tx 0 eq_refl Htx) as HS. split.
  - intros H. destruct (sum_pairs 0 (pairs2 tx)) as [s|] eqn:E; [|discriminate].
    destruct (proj1 (HS s) eq_refl) as (bs & H1 & H2). exists tx, bs. split; [reflexivity|].
    split; [exact H1|]. rewrite N.add_0_l in H2. rewrite <- H2.
    destruct (N.eqb_spec s 0); [assumption|discriminate].
  - intros (tx' & bs & E & Ht & Hs). inversion E; subst tx'. fold tx in Ht.
    assert (E2 : sum_pairs 0 (pairs2 tx) = Some 0%N).
    { apply HS. exists bs. split; [exact Ht|]. rewrite N.add_0_l. congruence. }
    rewrite E2. reflexivity.
Qed.

(** ** Files of record lines *)


Lemma fine_line_fine : forall l, fine_line l -> line_fine l.
Proof. intros l [H|H]; [left; exact H|right; apply record_line_parse, H]. Qed.

Lemma parseFile_join : forall np t lines, lines <> [] -> Forall no_eol lines ->
    parseFileF np (join (term_bytes t) lines) = parseHexF np lines.
Proof. intros. unfold parseFileF. rewrite splitLines_join by assumption. reflexivity. Qed.

Lemma store_all_not_checksum : forall ds m, snd (store_all m ds) <> Some EChecksum.
Proof.
  induction ds as [|[a v] ds IH]; intros m; cbn [store_all]; [discriminate|].
  destruct (lookup a m); [discriminate|apply IH].
Qed.

Lemma checksum_error_iff : forall np lines, 0 < np -> Forall fine_line lines ->
    Forall (fun l => (11 <= List.length l)%nat -> whole_bytes l) lines ->
    (snd (parseHexF np lines) = Some EChecksum <->
     Exists (fun l => (11 <= List.length l)%nat /\ ~ good_sum l) lines).
Proof.
  intros np lines Hnp Hf Hw. unfold parseHexF.
  rewrite recsF_fine; [|exact Hnp|eapply Forall_impl; [|exact Hf]; apply fine_line_fine].
  assert (Hall : forallb csum_ok (flat_map lineRec lines) = true <->
                 forall l, In l lines -> (11 <= List.length l)%nat -> good_sum l).
  { rewrite forallb_forall. split.
    - intros H l Hl H11. rewrite Forall_forall in Hf, Hw. destruct (Hf l Hl) as [Hs|Hr]; [lia|].
      destruct (record_line_parse l Hr) as [r Hp]. apply (line_csum l r); [apply Hw; assumption|exact Hp|].
      apply H. apply in_flat_map. exists l. split; [exact Hl|]. unfold lineRec.
      apply Nat.leb_le in H11. rewrite H11, Hp. left; reflexivity.
    - intros H r Hr. apply in_flat_map in Hr. destruct Hr as (l & Hl & Hr). unfold lineRec in Hr.
      destruct (11 <=? List.length l) eqn:E; [|contradiction]. apply Nat.leb_le in E.
      destruct (parseLine l) as [r'|] eqn:Ep; [|contradiction]. destruct Hr as [->|[]].
      rewrite Forall_forall in Hw. apply (line_csum l r (Hw l Hl E) Ep). apply H; assumption. }
  destruct (forallb csum_ok (flat_map lineRec lines)) eqn:E.
  - split.
    + intros H. exfalso. exact (store_all_not_checksum _ _ H).
    + intros H. exfalso. apply Exists_exists in H. destruct H as (l & Hl & H11 & Hn).
      apply Hn. apply (proj1 Hall eq_refl); assumption.
  - split; [|reflexivity]. intros _.
    (* find the bad record *)
    assert (Hex : exists r, In r (flat_map lineRec lines) /\ csum_ok r = false).
    { clear - E. induction (flat_map lineRec lines) as [|r rs IH]; [discriminate|]. cbn [forallb] in E.
      destruct (csum_ok r) eqn:Er; [|exists r; split; [left; reflexivity|exact Er]].
      destruct (IH E) as (r' & Hi & Hr'). exists r'. split; [right; exact Hi|exact Hr']. }
    destruct Hex as (r & Hi & Hb). apply in_flat_map in Hi. destruct Hi as (l & Hl & Hr). unfold lineRec in Hr.
    destruct (11 <=? List.length l) eqn:E11; [|contradiction]. apply Nat.leb_le in E11.
    destruct (parseLine l) as [r'|] eqn:Ep; [|contradiction]. destruct Hr as [->|[]].
    apply Exists_exists. exists l. split; [exact Hl|]. split; [exact E11|].
    rewrite Forall_forall in Hw. intros Hg. apply (line_csum l r (Hw l Hl E11) Ep) in Hg. congruence.
Qed.

(** ** Independence of the number of CPUs *)


Lemma parse_zero_ela : forall l r, parseLine l = Some r ->
    recordType r = extendedLinearAddressRecordToken -> offset r = zeroOffset -> zero_ela l.
Proof.
  intros l r H Ht Ho.
  destruct l as [|c0 [|c1 [|c2 [|a1 [|a2 [|a3 [|a4 [|t1 [|t2 rest]]]]]]]]]; try discriminate.
  cbn [parseLine] in H. destruct (Ascii.eqb c0 beginLineToken && (2 <=? List.length rest)); [|discriminate].
  destruct (beqb [t1; t2] extendedLinearAddressRecordToken) eqn:T.
  - destruct (4 <=? List.length rest); [|discriminate]. inversion H; subst.
    apply beqb_eq in T. split; [exact T|exact Ho].
  - inversion H; subst. apply beqb_neq in T. contradiction.
Qed.

Lemma lines_nozero : forall lines, (forall l, In l lines -> ~ zero_ela l) -> nozero (flat_map lineRec lines).
Proof.
  intros lines H i k o _ _ _ _ (k' & d & _ & (r & Hr & Ht & Ho) & _).
  apply nth_error_In in Hr. apply in_flat_map in Hr. destruct Hr as (l & Hl & Hr). unfold lineRec in Hr.
  destruct (11 <=? List.length l); [|contradiction].
  destruct (parseLine l) as [r'|] eqn:Ep; [|contradiction]. destruct Hr as [->|[]].
  apply (H l Hl). eapply parse_zero_ela; eassumption.
Qed.

Lemma flat_lineRec_fresh : forall np lines, 0 < np -> Forall line_fine lines -> fresh (flat_map lineRec lines).
Proof. intros np lines Hnp Hf. rewrite <- (recsF_fine np lines Hnp Hf). apply recsF_fresh. Qed.

Lemma cpu_independent : forall np1 np2 lines, 0 < np1 -> 0 < np2 ->
    Forall fine_line lines -> (forall l, In l lines -> ~ zero_ela l) ->
    parseHexF np1 lines = parseHexF np2 lines.
Proof.
  intros np1 np2 lines H1 H2 Hf Hz.
  assert (Hf' : Forall line_fine lines) by (eapply Forall_impl; [|exact Hf]; apply fine_line_fine).
  unfold parseHexF. rewrite !recsF_fine by assumption.
  pose proof (flat_lineRec_fresh np1 lines H1 Hf') as Hfr. pose proof (lines_nozero lines Hz) as Hnz.
  rewrite !offsF_applyOff by assumption. reflexivity.
Qed.

(** ** Where data comes from *)

Inductive parsed_from : list record -> list bytes -> Prop :=
| PFnil : forall ls, parsed_from [] ls
| PFskip : forall rs l ls, parsed_from rs ls -> parsed_from rs (l :: ls)
| PFtake : forall r rs l ls, parseLine l = Some r -> parsed_from rs ls -> parsed_from (r :: rs) (l :: ls).

Lemma parseRecs_from : forall ls, parsed_from (parseRecs ls) ls.
Proof.
  induction ls as [|l ls IH]; [constructor|]. cbn [parseRecs].
  destruct (11 <=? List.length l); [|constructor; exact IH].
  destruct (parseLine l) as [r|] eqn:E; [constructor; assumption|constructor].
Qed.

Lemma parsed_from_app : forall rs1 ls1 rs2 ls2, parsed_from rs1 ls1 -> parsed_from rs2 ls2 ->
    parsed_from (rs1 ++ rs2) (ls1 ++ ls2).
Proof.
  intros rs1 ls1 rs2 ls2 H1 H2. induction H1 as [ls|rs l ls H IH|r rs l ls Hp H IH]; cbn [app].
  - induction ls as [|l ls IH]; [exact H2|]. cbn [app]. constructor. exact IH.
  - constructor. exact IH.
  - constructor; assumption.
Qed.

Lemma recsF_from : forall np lines, 0 < np -> parsed_from (recsF np lines) lines.
Proof.
  intros np lines Hnp. rewrite <- (@concat_chunks _ np lines Hnp) at 2. unfold recsF.
  induction (chunks np lines) as [|c cs IH]; [constructor|]. cbn [flat_map concat].
  apply parsed_from_app; [apply parseRecs_from|exact IH].
Qed.

Lemma parsed_from_one : forall rs ls i r, parsed_from rs ls -> nth_error rs i = Some r ->
    exists A l C, ls = A ++ l :: C /\ parseLine l = Some r.
Proof.
  intros rs ls i r H. revert i. induction H as [ls|rs l ls H IH|r0 rs l ls Hp H IH]; intros i Hi.
  - destruct i; discriminate.
  - destruct (IH i Hi) as (A & l' & C & -> & E). exists (l :: A), l', C. auto.
  - destruct i as [|i].
    + cbn in Hi. inversion Hi; subst. exists [], l, ls. auto.
    + destruct (IH i Hi) as (A & l' & C & -> & E). exists (l :: A), l', C. auto.
Qed.

Lemma parsed_from_two : forall rs ls k i r4 r, parsed_from rs ls -> k < i ->
    nth_error rs k = Some r4 -> nth_error rs i = Some r ->
    exists A l4 B l C, ls = A ++ l4 :: B ++ l :: C /\ parseLine l4 = Some r4 /\ parseLine l = Some r.
Proof.
  intros rs ls k i r4 r H. revert k i. induction H as [ls|rs l ls H IH|r0 rs l ls Hp H IH]; intros k i Hki Hk Hi.
  - destruct i; discriminate.
  - destruct (IH k i Hki Hk Hi) as (A & l4 & B & l' & C & -> & E). exists (l :: A), l4, B, l', C. auto.
  - destruct i as [|i]; [lia|]. destruct k as [|k].
    + cbn in Hk, Hi. inversion Hk; subst. destruct (parsed_from_one rs ls i r H Hi) as (A & l' & C & -> & E).
      exists [], l, A, l', C. auto.
    + cbn in Hk, Hi. assert (Hki' : k < i) by lia.
      destruct (IH k i Hki' Hk Hi) as (A & l4 & B & l' & C & -> & E).
      exists (l :: A), l4, B, l', C. auto.
Qed.

(** joining what was split *)
Lemma prefixb_skip : forall p s, prefixb p s = true -> s = p ++ skipn (List.length p) s.
Proof.
  induction p as [|c p IH]; intros s H; [reflexivity|]. destruct s as [|d s]; [discriminate|].
  cbn [prefixb] in H. apply andb_true_iff in H. destruct H as [E H]. apply Ascii.eqb_eq in E. subst.
  cbn [List.length skipn app]. f_equal. apply IH, H.
Qed.

Lemma join_cons : forall t l ls, ls <> [] -> join t (l :: ls) = l ++ t ++ join t ls.
Proof. intros t l [|l2 ls] H; [congruence|reflexivity]. Qed.

Lemma join_split_aux : forall sep s k cur, sep <> [] ->
    join sep (split_aux sep k cur s) = rev cur ++ skipn k s.
Proof.
  intros sep s. induction s as [|c s IH]; intros k cur Hs.
  - cbn [split_aux join]. rewrite skipn_nil, app_nil_r. reflexivity.
  - cbn [split_aux]. destruct k as [|k].
    + destruct (prefixb sep (c :: s)) eqn:E.
      * rewrite join_cons by apply split_aux_nonempty. rewrite IH by exact Hs. cbn [rev app skipn].
        f_equal. rewrite (prefixb_skip _ _ E). f_equal.
        destruct sep as [|d sep]; [congruence|]. cbn [List.length skipn Nat.sub].
        rewrite Nat.sub_0_r. reflexivity.
      * rewrite IH by exact Hs. cbn [rev skipn]. rewrite <- app_assoc. reflexivity.
    + rewrite IH by exact Hs. reflexivity.
Qed.

Lemma join_splitLines : forall text, exists t, join t (splitLines text) = text.
Proof.
  intros text. unfold splitLines.
  destruct (List.length (split crlf text) =? 1); [exists lf|exists crlf];
    unfold split; rewrite join_split_aux by discriminate; reflexivity.
Qed.

Lemma join_mid : forall t A l C, exists p q, join t (A ++ l :: C) = p ++ l ++ q.
Proof.
  intros t A l C. induction A as [|x A IH].
  - cbn [app]. exists []. destruct C as [|c C].
    + exists []. cbn [join app]. rewrite app_nil_r. reflexivity.
    + exists (t ++ join t (c :: C)). reflexivity.
  - destruct IH as (p & q & E). cbn [app]. rewrite join_cons by (destruct A; discriminate). rewrite E.
    exists (x ++ t ++ p), q. rewrite <- !app_assoc. reflexivity.
Qed.

Lemma join_mid2 : forall t A l4 B l C, exists p q r, join t (A ++ l4 :: B ++ l :: C) = p ++ l4 ++ q ++ l ++ r.
Proof.
  intros t A l4 B l C. induction A as [|x A IH].
  - cbn [app]. rewrite join_cons by (destruct B; discriminate).
    destruct (join_mid t B l C) as (p & q & E). rewrite E. exists [], (t ++ p), q.
    rewrite <- app_assoc. reflexivity.
  - destruct IH as (p & q & r & E). cbn [app]. rewrite join_cons by (destruct A; discriminate). rewrite E.
    exists (x ++ t ++ p), q, r. rewrite <- !app_assoc. reflexivity.
Qed.

Lemma ok_inj : forall E A (x y : A), @Ok E A x = Ok y -> x = y.
Proof. intros E A x y H. congruence. Qed.

Lemma calc_loop_In : forall ds i0 af off d a v, calc_loop i0 ds af off = Ok d -> In (a, v) (fst d) ->
    exists i s x y ox oy, nth_error ds i = Some s /\ hexToByte s = Some v
      /\ (exists r, hex_decode af = Some (x :: y :: r)) /\ (exists r, hex_decode off = Some (ox :: oy :: r))
      /\ (List.length off = 4 -> List.length af = 4 ->
          a = (65536 * (256 * ox + oy) + (256 * x + y + i0 + N.of_nat i) mod 65536)%N).
Proof.
  induction ds as [|s ds IH]; intros i0 af off d a v H Hi; cbn [calc_loop] in H.
  - inversion H; subst. contradiction.
  - destruct (hex_decode af) as [bs|] eqn:Eb; [|inversion H; subst; contradiction].
    destruct bs as [|x [|y bs]]; try discriminate. cbn [be16 obind] in H.
    destruct (hex_decode off) as [obs|] eqn:Eo; [|inversion H; subst; contradiction].
    destruct (hexToByte s) as [w|] eqn:Es; [|inversion H; subst; contradiction].
    destruct (be32 _) as [a0| |] eqn:E32; try discriminate. cbn [obind] in H.
    destruct (calc_loop (i0 + 1) ds af off) as [rest| |] eqn:Er; try discriminate. cbn [obind] in H.
    inversion H; subst. cbn [fst] in Hi. destruct Hi as [Hi|Hi].
    + inversion Hi; subst. exists 0, s, x, y.
      assert (Hobs : List.length off = 4 -> exists ox oy, obs = [ox; oy]).
      { intros Ho. apply hex_decode_length in Eo. destruct obs as [|ox [|oy [|oz obs]]]; cbn in Eo; try lia. eauto. }
      destruct obs as [|ox [|oy obs]].
      * cbn [app be32] in E32. discriminate.
      * cbn [app be32] in E32. discriminate.
      * exists ox, oy. split; [reflexivity|]. split; [exact Es|]. split; [rewrite <- Eb; eauto|]. split; [eauto|].
        intros Ho _. destruct (Hobs Ho) as (p & q & Epq). inversion Epq; subst.
        cbn [app be32] in E32. apply ok_inj in E32. rewrite <- E32. cbn [N.of_nat]. rewrite N.add_0_r.
        assert (Hu : u16 (256 * x + y + u16 i0) = ((256 * x + y + i0) mod 65536)%N).
        { unfold u16. rewrite N.add_mod_idemp_r by lia. reflexivity. }
        rewrite Hu. set (la := ((256 * x + y + i0) mod 65536)%N).
        pose proof (N.div_mod la 256). lia.
    + destruct (IH _ _ _ _ _ _ Er Hi) as (i & s' & x' & y' & ox & oy & H1 & H2 & (r1 & H3) & (r2 & H4) & H5).
      exists (S i), s', x', y', ox, oy. split; [exact H1|]. split; [exact H2|].
      split; [rewrite <- Eb; eauto|]. split; [rewrite <- Eo; eauto|].
      intros Ho Ha. rewrite (H5 Ho Ha). do 2 f_equal. lia.
Qed.

Lemma dl_nth : forall l i s, nth_error (dl l) i = Some s -> exists pre post, l = pre ++ s ++ post
    /\ List.length pre = 2 * i /\ (2 <= List.length post)%nat.
Proof.
  intros l. remember (List.length l) as n. revert l Heqn.
  induction n as [n IH] using lt_wf_ind. intros l Hn i s H.
  destruct l as [|x [|y [|z [|w l]]]]; cbn [dl] in H; try (destruct i; discriminate).
  destruct i as [|i].
  - cbn in H. inversion H; subst. exists [], (z :: w :: l). split; [reflexivity|]. cbn. lia.
  - cbn [nth_error] in H. change (match l with
        | [] => [] | x0 :: y0 => match y0 with | [] => [] | _ => [z; w] :: dl l end end) with (dl (z :: w :: l)) in H || idtac.
    destruct (IH (List.length (z :: w :: l))) with (l := z :: w :: l) (i := i) (s := s) as (pre & post & E & L1 & L2).
    + subst n. cbn. lia.
    + reflexivity.
    + exact H.
    + exists (x :: y :: pre), post. rewrite E. split; [reflexivity|]. cbn [List.length]. lia.
Qed.

Lemma parse_data_line : forall l r i s x y v r', parseLine l = Some r -> recordType r = dataRecordToken ->
    nth_error (data r) i = Some s -> hexToByte s = Some v -> hex_decode (addressField r) = Some (x :: y :: r') ->
    data_byte l (256 * x + y) i v.
Proof.
  intros l r i s x y v r' H Ht Hd Hs Ha.
  destruct l as [|c0 [|c1 [|c2 [|a1 [|a2 [|a3 [|a4 [|t1 [|t2 rest]]]]]]]]]; try discriminate.
  assert (Hr : exists off, r = mkrec c1 c2 a1 a2 a3 a4 t1 t2 rest off /\ c0 = ":"%char).
  { cbn [parseLine] in H. destruct (Ascii.eqb c0 beginLineToken) eqn:Ec; [|discriminate].
    apply Ascii.eqb_eq in Ec. destruct (2 <=? List.length rest); [|discriminate]. cbn [andb] in H.
    destruct (beqb [t1; t2] extendedLinearAddressRecordToken).
    - destruct (4 <=? List.length rest); [|discriminate]. inversion H; subst. eauto.
    - inversion H; subst. eauto. }
  destruct Hr as (off & -> & ->). cbn [mkrec recordType data addressField] in *.
  destruct (dl_nth _ _ _ Hd) as (pre & post & E & L1 & L2).
  exists c1, c2, [a1; a2; a3; a4], x, y, pre, s, post. rewrite E.
  inversion Ht; subst. split; [reflexivity|].
  pose proof (hex_decode_length _ Ha) as L. cbn in L. destruct r' as [|z r']; [|cbn in L; lia].
  split; [eapply hex_decode_any; [apply le_n|exact Ha]|]. split; [reflexivity|]. split; [exact L1|].
  split; [apply hexToByte_any, Hs|exact L2].
Qed.

Lemma parse_ela_line : forall l r x y r', parseLine l = Some r ->
    recordType r = extendedLinearAddressRecordToken -> hex_decode (offset r) = Some (x :: y :: r') ->
    ela_line l (256 * x + y).
Proof.
  intros l r x y r' H Ht Ho. destruct (parseLine_wf _ H) as [[_ Wo] _].
  destruct l as [|c0 [|c1 [|c2 [|a1 [|a2 [|a3 [|a4 [|t1 [|t2 rest]]]]]]]]]; try discriminate.
  cbn [parseLine] in H. destruct (Ascii.eqb c0 beginLineToken) eqn:Ec; [|discriminate].
  apply Ascii.eqb_eq in Ec. subst. destruct (2 <=? List.length rest); [|discriminate]. cbn [andb] in H.
  destruct (beqb [t1; t2] extendedLinearAddressRecordToken) eqn:T.
  - apply beqb_eq in T. destruct (4 <=? List.length rest); [|discriminate].
    inversion H; subst. unfold mkrec in *. 
    change (offset _) with (firstn 4 rest) in Ho, Wo.
    exists c1, c2, [a1; a2; a3; a4], (firstn 4 rest), x, y, (skipn 4 rest).
    inversion T; subst. split; [cbn [app]; rewrite firstn_skipn; reflexivity|]. split; [reflexivity|].
    pose proof (hex_decode_length _ Ho) as L. rewrite Wo in L. cbn in L. destruct r' as [|z r']; [|cbn in L; lia].
    split; [eapply hex_decode_any; [apply le_n|exact Ho]|reflexivity].
  - inversion H; subst. cbn [mkrec recordType] in Ht. rewrite Ht, beqb_refl in T. discriminate.
Qed.

Lemma hex_decode_bound : forall k s l, List.length s <= k -> hex_decode s = Some l -> Forall (fun v => v < 256)%N l.
Proof.
  induction k as [|k IH]; intros s l Hk H.
  - destruct s; cbn in Hk; [|lia]. inversion H. constructor.
  - destruct s as [|c [|d rest]]; cbn [hex_decode] in H; [inversion H; constructor|discriminate|].
    destruct (hex_any c) as [x|] eqn:Ec; [|discriminate]. destruct (hex_any d) as [y|] eqn:Ed; [|discriminate].
    destruct (hex_decode rest) as [r|] eqn:E; [|discriminate].
    assert (El : l = ((16 * x + y)%N :: r)) by congruence. rewrite El.
    destruct (hex_any_inv _ _ Ec) as (Bx & _). destruct (hex_any_inv _ _ Ed) as (By & _).
    constructor; [lia|]. eapply IH; [|exact E]. cbn in Hk; lia.
Qed.

(** every byte of the map is a data byte of the text *)
Theorem map_sound : forall np text a v, 0 < np -> lookup a (fst (parseFileF np text)) = Some v ->
    exists l addr i, data_byte l addr i v /\ (a mod 65536 = (addr + N.of_nat i) mod 65536)%N
      /\ ( ((a / 65536 = 0)%N /\ exists p q, text = p ++ l ++ q)
         \/ (exists l4 p q r, ela_line l4 (a / 65536) /\ text = p ++ l4 ++ q ++ l ++ r) ).
Proof.
  intros np text a v Hnp H. apply lookup_In in H. unfold parseFileF, parseHexF in H.
  set (R := recsF np (splitLines text)) in *.
  destruct (forallb csum_ok R); [|contradiction].
  apply (store_all_nodup _ [] (NoDup_nil _)) in H. destruct H as [[]|H].
  apply in_flat_map in H. destruct H as (r & Hr & He).
  assert (Hf : fresh R) by apply recsF_fresh.
  pose proof (offsF_final Hnp Hf) as Hfin.
  assert (HwR : Forall wf_rec R).
  { eapply Forall_impl; [|apply recsF_wf]. intros r0 [Hw _]; exact Hw. }
  pose proof (final_wf Hf HwR Hfin) as Hw. rewrite Forall_forall in Hw. destruct (Hw r Hr) as [Wa Wo].
  unfold entries in He. destruct (beqb (recordType r) dataRecordToken) eqn:T; [|contradiction]. apply beqb_eq in T.
  unfold calcDataEntries in He. destruct (calc_loop 0 (data r) (addressField r) (offset r)) as [d| |] eqn:Ec; try contradiction.
  destruct (calc_loop_In _ _ _ _ _ _ _ Ec He) as (i & s & x & y & ox & oy & H1 & H2 & (r1 & H3) & (r2 & H4) & H5).
  specialize (H5 Wo Wa). rewrite N.add_0_r in H5.
  pose proof (hex_decode_bound _ _ _ (le_n _) H4) as Bo. inversion Bo as [|? ? Bx B']; subst. inversion B' as [|? ? By _]; subst.
  assert (Hdiv : ((65536 * (256 * ox + oy) + (256 * x + y + N.of_nat i) mod 65536) / 65536 = 256 * ox + oy
               /\ (65536 * (256 * ox + oy) + (256 * x + y + N.of_nat i) mod 65536) mod 65536
                  = (256 * x + y + N.of_nat i) mod 65536)%N).
  { assert ((256 * x + y + N.of_nat i) mod 65536 < 65536)%N by (apply N.mod_lt; lia). split.
    - symmetry. apply (N.div_unique _ 65536 _ ((256 * x + y + N.of_nat i) mod 65536)); [assumption|reflexivity].
    - symmetry. apply (N.mod_unique _ 65536 (256 * ox + oy)); [assumption|reflexivity]. }
  destruct Hdiv as [Hdiv Hmod].
  apply In_nth_error in Hr. destruct Hr as [n Hn].
  destruct Hfin as (Hsh & Hsafe & _).
  destruct (shape_some _ Hsh Hn) as (r0 & En & Et & Er0).
  assert (Hdata : data r = data r0 /\ addressField r = addressField r0).
  { destruct Er0 as [->|[o ->]]; split; reflexivity. }
  destruct Hdata as [Hd1 Hd2]. rewrite Hd1 in H1. rewrite Hd2 in H3. rewrite T in Et. symmetry in Et.
  pose proof (recsF_from np (splitLines text) Hnp) as Hfrom. fold R in Hfrom.
  destruct (join_splitLines text) as (t & Ht).
  destruct (bytes_dec (offset r) zeroOffset) as [Ez|Ez].
  - destruct (parsed_from_one _ _ _ _ Hfrom En) as (A & l & C & El & Ep).
    exists l, (256 * x + y)%N, i. split; [eapply parse_data_line; eassumption|].
    split; [exact Hmod|]. left. rewrite Ez in H4. cbn in H4. inversion H4; subst ox oy.
    split; [rewrite Hdiv; reflexivity|].
    destruct (join_mid t A l C) as (p & q & E). exists p, q. rewrite <- Ht, El. exact E.
  - destruct (Hsafe n (offset r)) as (k & st & _ & _ & (Hk & _) & (r4 & E4 & T4 & O4) & _).
    + exists r0. auto.
    + exists r. auto.
    + exact Ez.
    + destruct (parsed_from_two _ _ _ _ _ _ Hfrom Hk E4 En) as (A & l4 & B & l & C & El & Ep4 & Ep).
      exists l, (256 * x + y)%N, i. split; [eapply parse_data_line; eassumption|].
      split; [exact Hmod|]. right.
      destruct (join_mid2 t A l4 B l C) as (p & q & rr & E). exists l4, p, q, rr.
      split; [|rewrite <- Ht, El; exact E]. rewrite Hdiv. rewrite <- O4 in H4.
      eapply parse_ela_line; eassumption.
Qed.
