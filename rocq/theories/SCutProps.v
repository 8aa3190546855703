(** C100 for S-record files: a file that breaks off. *)
From Coq Require Import String Ascii List Arith NArith Bool Lia.
From Verif Require Import GoBase GoBaseFacts GoStrings ConcModel ConcProofs HexSpec HexSpecFacts HexParts IhexSpec IhexModel IhexOffsets IhexPhase2 IhexProofs IhexEnc IhexMain IhexLines
  IhexThm IhexRead SrecModel SrecProofs SrecSpec SrecThm AnySpec IhexAny SrecAny CutProps.
Import ListNotations.

(** The bytes on a part of a record line: some of the record, the last one is
    arbitrary. *)
Lemma s_cut_bytes : forall r up p j bs, p = firstn j (s3line up r) -> 14 <= List.length p -> s3valid r -> s_says p bs ->
    exists k x, k <= List.length (s3_bytes r) /\ bs = (N.of_nat (List.length (s3_bytes r) + 5) :: abytes (s3_addr r)) ++ firstn k (s3_bytes r) ++ [x].
Proof.
  intros r up p j bs E L V (tx & W & H). set (hd := N.of_nat (List.length (s3_bytes r) + 5) :: abytes (s3_addr r)).
  assert (B : s3_all r = (hd ++ s3_bytes r) ++ [s3_check (s3_body r)]) by reflexivity.
  pose proof (s3_all_length r) as Lb.
  assert (Lp : List.length (s3line up r) = 2 * List.length (s3_all r) + 2) by (unfold s3line, s3line_of; cbn [List.length]; rewrite hexs_length; lia).
  assert (K : exists k, k + 1 <= List.length (s3_all r) /\ List.length bs = k + 1 /\ 5 <= k /\ firstn (2 * k) tx = hexs up (firstn k (s3_all r))).
  { pose proof (hex_text_len _ _ H) as Lt. assert (LW : List.length (s_whole p) = 2 * List.length bs + 2) by (rewrite W; cbn [List.length]; lia).
    assert (Pj : List.length p <= List.length (s3line up r)) by (rewrite E, firstn_length; lia).
    assert (F : forall i, i <= List.length p -> firstn i p = firstn i (s3line up r)).
    { intros i I. rewrite E, firstn_firstn. f_equal. rewrite E, firstn_length in I. lia. }
    assert (G : firstn (List.length (s_whole p) - 2) (s_whole p) = firstn (List.length (s_whole p) - 2) p /\ List.length (s_whole p) <= List.length p /\ 14 <= List.length (s_whole p)).
    { unfold s_whole. destruct (Nat.even (List.length p)) eqn:O; [split; [reflexivity|lia]|].
      assert (15 <= List.length p) by (destruct (Nat.eq_dec (List.length p) 14) as [Z|Z]; [rewrite Z in O; discriminate|lia]).
      assert (LL : List.length (without_third_last p) = List.length p - 1) by (unfold without_third_last; rewrite app_length, firstn_length, skipn_length; lia).
      rewrite LL. split; [|lia]. unfold without_third_last. rewrite firstn_app, firstn_firstn, firstn_length.
      replace (List.length p - 1 - 2 - Nat.min (List.length p - 3) (List.length p)) with 0 by lia. cbn [firstn]. rewrite app_nil_r. f_equal. lia. }
    destruct G as (G1 & G2 & G3). exists (List.length bs - 1). split; [lia|]. split; [lia|]. split; [lia|].
    replace (List.length (s_whole p) - 2) with (S (S (2 * (List.length bs - 1)))) in G1 by lia. rewrite F in G1 by lia. rewrite W in G1.
    unfold s3line, s3line_of in G1. cbn [firstn] in G1. injection G1 as G1. rewrite <- firstn_hexs. exact G1. }
  destruct K as (k & K1 & K2 & K3 & K4). pose proof (hex_text_part _ _ H k) as P. rewrite K4 in P.
  assert (EQ : firstn k bs = firstn k (s3_all r)).
  { apply (hex_text_fun _ _ _ P), hex_text_hexs, Forall_firstn, s3_all_byte, V. }
  destruct (exists_last (l := bs)) as (bs0 & x & EB); [intros Z; rewrite Z in K2; cbn in K2; lia|].
  assert (L0 : List.length bs0 = k) by (rewrite EB, app_length in K2; cbn in K2; lia).
  exists (k - 5), x. split; [lia|]. rewrite EB in EQ |- *. rewrite firstn_app, L0, Nat.sub_diag, firstn_all2 in EQ by lia. cbn [firstn] in EQ. rewrite app_nil_r in EQ.
  rewrite EQ, B, app_assoc. f_equal. rewrite firstn_app. replace (k - List.length (hd ++ s3_bytes r)) with 0 by (rewrite app_length; cbn; lia). cbn [firstn]. rewrite app_nil_r.
  rewrite firstn_app. replace (List.length hd) with 5 by reflexivity. f_equal. apply firstn_all2. cbn. lia.
Qed.

Lemma round32_placed : forall bs a, (a + N.of_nat (List.length bs) <= 4294967296)%N -> round32 a bs = placed a bs.
Proof.
  induction bs as [|v bs IH]; intros a H; [reflexivity|]. cbn [round32 placed List.length] in *. rewrite N.mod_small by lia. f_equal. apply IH. lia.
Qed.

Lemma s_puts_part : forall r k x, s3valid r -> k <= List.length (s3_bytes r) ->
    s3_puts ((N.of_nat (List.length (s3_bytes r) + 5) :: abytes (s3_addr r)) ++ firstn k (s3_bytes r) ++ [x]) = placed (s3_addr r) (firstn k (s3_bytes r)).
Proof.
  intros r k x (_ & _ & HS & HA) K. unfold abytes. cbn [app s3_puts]. rewrite removelast_last, abytes_value by exact HA. apply round32_placed. rewrite firstn_length. lia.
Qed.

(** A line of 12 or 13 characters has no data. *)
Lemma s_short_data : forall p x, sParse p = Some x -> List.length p < 14 -> s_entries x = [].
Proof.
  intros p x H L. do 12 (destruct p as [|? p]; [discriminate H|]). cbn [sParse] in H. destruct (_ && _); [|discriminate H]. injection H as <-.
  destruct p as [|? [|]]; cbn [List.length] in L; try lia; reflexivity.
Qed.

Lemma s_cr_adds_not : forall l, 14 <= List.length (l ++ [CR]) -> ~ s_adds_up (l ++ [CR]).
Proof.
  intros l L (bs & (tx & W & H) & _). pose proof (hex_text_len _ _ H) as LT.
  assert (E : exists w, s_whole (l ++ [CR]) = w ++ [CR] /\ 11 <= List.length w).
  { unfold s_whole. destruct (Nat.even (List.length (l ++ [CR]))) eqn:O; [exists l; split; [reflexivity|rewrite app_length in L; cbn in L; lia]|].
    destruct (s_third_last _ O ltac:(lia)) as (q & c & k & E & K & SW). unfold s_whole in SW. rewrite O in SW. rewrite SW. destruct k as [|k1 [|k2 [|]]]; try discriminate K.
    assert (LQ : List.length q + 3 = List.length (l ++ [CR])) by (rewrite E, app_length; cbn; lia).
    assert (X : (q ++ [c; k1]) ++ [k2] = l ++ [CR]) by (rewrite E, <- app_assoc; reflexivity). apply app_inj_tail in X. destruct X as [_ ->]. exists (q ++ [k1]). rewrite <- app_assoc, app_length. cbn [List.length]. split; [reflexivity|lia]. }
  destruct E as (w & E & LW). rewrite W in E. assert (I : In CR tx).
  { destruct w as [|c [|d w]]; cbn in LW; try lia. injection E as _ _ ->. apply in_or_app. right. left. reflexivity. }
  assert (NE : no_eol tx).
  { clear - H. induction H as [|up v tx bs V H [IH1 IH2]]; [split; intros []|]. pose proof (hexs_no_eol up [v] ltac:(repeat constructor; exact V)) as [N1 N2]. cbn [hexs flat_map] in N1, N2. rewrite app_nil_r in N1, N2.
    split; intros I; apply in_app_or in I; tauto. }
  destruct NE as [NE _]. contradiction.
Qed.

Lemma sitems_recs_app : forall x y, sitems_recs (x ++ y) = sitems_recs x ++ sitems_recs y.
Proof. induction x as [|[]]; intros y; cbn; [reflexivity|f_equal; auto|auto]. Qed.
Lemma s3image_app : forall x y, s3image (x ++ y) = s3image x ++ s3image y.
Proof. intros. unfold s3image. apply flat_map_app. Qed.

(** A part of a line that is no S3 record is none either. *)
Lemma s_tail_part : forall t l p, not_s3 l -> partOf t l p -> snone p.
Proof.
  intros t l p [_ N] P. unfold snone, slineRec. destruct (11 <=? List.length p) eqn:L; [|reflexivity]. apply Nat.leb_le in L.
  destruct (sParse p) as [x|] eqn:E; [|reflexivity]. exfalso. apply N. apply sParse_s3 in E. rewrite <- E. destruct P as [(j & ->)|(_ & ->)].
  - rewrite firstn_length in L. rewrite firstn_firstn. f_equal. lia.
  - rewrite app_length in L. cbn in L. rewrite firstn_app. replace (2 - List.length l) with 0 by lia. rewrite firstn_O, app_nil_r. reflexivity.
Qed.

(** A text of valid S3 records and other lines that breaks off anywhere is refused
    for a checksum, or the bytes read are the first ones of the file. *)
Theorem C100_srec_cut : forall np t items tail n, 0 < np -> Forall sitem_ok items -> Forall not_s3 tail ->
    NoDup (map fst (s3image (sitems_recs items))) ->
    always (s_parseFile_exec np (firstn n (sfile t items tail)))
      (fun r => r = Ok ([], Some EChecksum) \/ exists m img, r = Ok (m, None) /\ map_is m img /\ exists rest, s3image (sitems_recs items) = img ++ rest).
Proof.
  intros np t items tail n Hnp OK OT ND.
  destruct (list_eq_dec (list_eq_dec ascii_dec) (map sitem_line items ++ tail) []) as [Z|Z].
  { assert (E : firstn n (sfile t items tail) = sfile t items tail) by (unfold sfile; rewrite Z; apply firstn_nil). rewrite E. destruct (srec_round_trip np t items tail Hnp OK OT ND) as [X Y].
    split; [exact X|]. intros r R. right. destruct (Y r R) as (m & EM & M). exists m, (s3image (sitems_recs items)). split; [exact EM|]. split; [exact M|]. exists []. rewrite app_nil_r. reflexivity. }
  assert (NEi : Forall no_eol (map sitem_line items)).
  { apply Forall_forall. intros x I. apply in_map_iff in I. destruct I as (y & <- & I). apply sitem_no_eol. rewrite Forall_forall in OK. apply OK, I. }
  assert (NEt : Forall no_eol tail) by (eapply Forall_impl; [|exact OT]; intros x [H _]; exact H).
  destruct (cut_join t _ n Z) as (whl & l & rest & p & EL & P & EC). unfold sfile. rewrite EC. clear EC Z.
  assert (NEa : Forall no_eol (whl ++ l :: rest)) by (rewrite <- EL; apply Forall_app; auto). apply Forall_app in NEa. destruct NEa as [NEw NEl]. inversion NEl as [|? ? NEl0 NEr]; subst.
  pose proof (cut_lines t whl l p NEw NEl0 P) as LO. apply s_always_iff; [exact Hnp|]. unfold sFileF. rewrite (lines_split _ _ LO). unfold sHexF.
  (* the whole records before the cut, and what is left of one more *)
  assert (C : sRecsF np (whl ++ [p]) = flat_map slineRec (map sitem_line items)
           \/ exists done it rst, items = done ++ it :: rst /\ whl = map sitem_line done /\ l = sitem_line it).
  { destruct (Nat.le_gt_cases (List.length items) (List.length whl)) as [G|G].
    - left.
      assert (E1 : whl = map sitem_line items ++ skipn (List.length items) whl /\ tail = skipn (List.length items) whl ++ l :: rest).
      { pose proof (f_equal (firstn (List.length items)) EL) as F1. pose proof (f_equal (skipn (List.length items)) EL) as F2.
        rewrite firstn_app, map_length, Nat.sub_diag, firstn_all2 in F1 by (rewrite map_length; lia). rewrite firstn_O, app_nil_r in F1.
        rewrite firstn_app in F1. replace (List.length items - List.length whl) with 0 in F1 by lia. rewrite firstn_O, app_nil_r in F1.
        rewrite skipn_app, map_length, Nat.sub_diag, skipn_all2 in F2 by (rewrite map_length; lia). rewrite skipn_O in F2. cbn [app] in F2.
        rewrite skipn_app in F2. replace (List.length items - List.length whl) with 0 in F2 by lia. rewrite skipn_O in F2.
        split; [rewrite F1; symmetry; apply firstn_skipn|exact F2]. }
      destruct E1 as [E1 E2]. rewrite E1, <- app_assoc. apply sRecsF_tail; [exact Hnp| |].
      + apply Forall_forall. intros x I. apply in_map_iff in I. destruct I as (y & <- & I). apply sitem_fine. rewrite Forall_forall in OK. apply OK, I.
      + rewrite E2 in OT. apply Forall_app in OT. destruct OT as [O1 O2]. inversion O2 as [|? ? O3 _]; subst. apply Forall_app. split; [eapply Forall_impl; [|exact O1]; apply not_s3_none|]. constructor; [|constructor]. exact (s_tail_part t l p O3 P).
    - right. assert (E1 : exists z, map sitem_line items = whl ++ l :: z).
      { pose proof (f_equal (firstn (S (List.length whl))) EL) as F1. rewrite firstn_app, map_length in F1. replace (S (List.length whl) - List.length items) with 0 in F1 by lia. rewrite firstn_O, app_nil_r in F1.
        rewrite firstn_app in F1. replace (S (List.length whl) - List.length whl) with 1 in F1 by lia. change (firstn 1 (l :: rest)) with [l] in F1. rewrite (firstn_all2 whl) in F1 by lia.
        exists (skipn (S (List.length whl)) (map sitem_line items)). change (l :: skipn (S (List.length whl)) (map sitem_line items)) with ([l] ++ skipn (S (List.length whl)) (map sitem_line items)). rewrite app_assoc, <- F1. symmetry. apply firstn_skipn. }
      destruct E1 as (z & E1). apply map_eq_app in E1. destruct E1 as (done & tl_ & -> & <- & E1). apply map_eq_cons in E1. destruct E1 as (it & rst & -> & <- & _). exists done, it, rst. auto. }
  destruct C as [ER|(done & it & rst & -> & -> & ->)].
  { rewrite ER. destruct (sitems_spec items OK) as [S1 S2]. cbv zeta in S1, S2. rewrite S1, S2. right. rewrite store_all_ok; [|exact ND|intros a _ []].
    eexists _, (s3image (sitems_recs items)). split; [reflexivity|]. split; [apply map_is_rev, ND|]. exists []. rewrite app_nil_r. reflexivity. }
  apply Forall_app in OK. destruct OK as [OKd OKt]. inversion OKt as [|? ? OKi OKr]; subst. destruct (sitems_spec done OKd) as [S1 S2]. cbv zeta in S1, S2.
  assert (FD : Forall sfine (map sitem_line done)).
  { apply Forall_forall. intros x I. apply in_map_iff in I. destruct I as (y & <- & I). apply sitem_fine. rewrite Forall_forall in OKd. apply OKd, I. }
  rewrite sitems_recs_app, s3image_app in ND |- *.
  assert (QUIET : forall e R, flat_map s_entries R = s3image (sitems_recs done) ++ e -> beginning e (s3image (sitems_recs (it :: rst))) -> forallb s_csum_ok R = true ->
     Ok (if forallb s_csum_ok R then store_all [] (flat_map s_entries R) else ([], Some EChecksum)) = (Ok ([], Some EChecksum) : outcome herr hres)
     \/ exists m img, (Ok (if forallb s_csum_ok R then store_all [] (flat_map s_entries R) else ([], Some EChecksum)) : outcome herr hres) = Ok (m, None) /\ map_is m img /\ exists rest0, s3image (sitems_recs done) ++ s3image (sitems_recs (it :: rst)) = img ++ rest0).
  { intros e R E BE C. rewrite C, E. right. pose proof (beginning_app _ (s3image (sitems_recs done)) _ _ BE) as BA. pose proof (beginning_nodup _ _ BA ND) as ND'.
    rewrite store_all_ok; [|exact ND'|intros a _ []]. eexists _, (s3image (sitems_recs done) ++ e). split; [reflexivity|]. split; [apply map_is_rev, ND'|exact BA]. }
  destruct (slineRec p) as [|x xs] eqn:SL.
  { rewrite sRecsF_tail; [|exact Hnp|exact FD|constructor; [exact SL|constructor]]. apply (QUIET []); [rewrite S2, app_nil_r; reflexivity|eexists; reflexivity|exact S1]. }
  assert (PX : sParse p = Some x /\ xs = [] /\ 11 <= List.length p).
  { unfold slineRec in SL. destruct (11 <=? List.length p) eqn:L; [|discriminate SL]. apply Nat.leb_le in L. destruct (sParse p); [|discriminate SL]. injection SL as -> <-. auto. }
  destruct PX as (PX & -> & L11).
  assert (ER : sRecsF np (map sitem_line done ++ [p]) = flat_map slineRec (map sitem_line done) ++ [x]).
  { rewrite <- (app_nil_r (map sitem_line done ++ [p])). rewrite sRecsF_tail; [|exact Hnp| |constructor].
    - rewrite flat_map_app. cbn [flat_map]. rewrite SL. reflexivity.
    - apply Forall_app. split; [exact FD|]. constructor; [right; eauto|constructor]. }
  rewrite ER. destruct (s_csum_ok x) eqn:CX.
  2: { left. rewrite forallb_app. cbn [forallb]. rewrite CX, andb_false_r. reflexivity. }
  apply (QUIET (s_entries x)).
  - rewrite flat_map_app, S2. cbn [flat_map]. rewrite app_nil_r. reflexivity.
  - destruct (Nat.le_gt_cases 14 (List.length p)) as [L|L]; [|rewrite (s_short_data p x PX L); eexists; reflexivity].
    apply (s_csum_adds_up p x PX L) in CX. destruct P as [(j & EP)|(_ & ->)]; [|destruct (s_cr_adds_not _ L CX)].
    destruct it as [up r|l]; cbn [sitem_line sitem_ok] in *; [|exfalso; subst p; rewrite firstn_length in L; lia].
    destruct CX as (bs & SY & _). rewrite (s_says_puts p x bs PX L SY). destruct (s_cut_bytes r up p j bs EP L OKi SY) as (k & y & K & ->). rewrite s_puts_part by assumption.
    cbn [sitems_recs]. unfold s3image. cbn [flat_map]. destruct (placed_firstn k (s3_bytes r) (s3_addr r)) as (z & ->). rewrite <- app_assoc. eexists. reflexivity.
  - rewrite forallb_app, S1. cbn [forallb]. rewrite CX. reflexivity.
Qed.
Print Assumptions C100_srec_cut.

(** Where less than 11 characters of a record are left, nothing is noticed. *)
Theorem C100_srec_silent_refuted : forall np t before up r after tail j, 0 < np -> Forall sitem_ok (before ++ SItem up r :: after) -> j < 11 ->
    NoDup (map fst (s3image (sitems_recs before))) ->
    exists n, n < List.length (sfile t (before ++ SItem up r :: after) tail) /\
      firstn n (sfile t (before ++ SItem up r :: after) tail) = join (term_bytes t) (map sitem_line before ++ [firstn j (s3line up r)]) /\
      always (s_parseFile_exec np (firstn n (sfile t (before ++ SItem up r :: after) tail))) (fun x => exists m, x = Ok (m, None) /\ map_is m (s3image (sitems_recs before))).
Proof.
  intros np t before up r after tail j Hnp OK J ND. apply Forall_app in OK. destruct OK as [OKb OKr]. inversion OKr as [|? ? V OKa]; subst.
  assert (LS : 14 <= List.length (s3line up r)) by (unfold s3line, s3line_of; cbn [List.length]; rewrite hexs_length, s3_all_length; lia).
  destruct (cut_at t (map sitem_line before) (s3line up r) (map sitem_line after ++ tail) j) as [C1 C2]; [lia|].
  exists (startOf t (map sitem_line before) + j). unfold sfile. rewrite map_app, <- app_assoc. cbn [map sitem_line app].
  split; [apply C2; lia|]. rewrite C1. split; [reflexivity|]. set (l := firstn j (s3line up r)).
  assert (LN : List.length l < 11 /\ no_eol l).
  { split; [unfold l; rewrite firstn_length; lia|]. pose proof (sitem_no_eol (SItem up r) V) as [N1 N2]. cbn [sitem_line] in N1, N2. split; intros I; apply firstn_in in I; contradiction. }
  pose proof (srec_round_trip np t (before ++ [SBlank l]) [] Hnp) as RT. unfold sfile in RT. rewrite app_nil_r, map_app, sitems_recs_app in RT. cbn [map sitem_line sitems_recs] in RT. rewrite app_nil_r in RT. apply RT.
  - apply Forall_app. split; [exact OKb|]. constructor; [exact LN|constructor].
  - constructor.
  - exact ND.
Qed.
Print Assumptions C100_srec_silent_refuted.

(** Inside a record, after whole bytes: noticed exactly if the bytes that are left do
    not happen to add up. *)
Theorem C100_srec_inside : forall np t before up r after tail k, 0 < np -> Forall sitem_ok (before ++ SItem up r :: after) -> 6 <= k < List.length (s3_all r) ->
    exists n, firstn n (sfile t (before ++ SItem up r :: after) tail) = join (term_bytes t) (map sitem_line before ++ [s3line_of up (firstn k (s3_all r))]) /\
      always (s_parseFile_exec np (firstn n (sfile t (before ++ SItem up r :: after) tail))) (fun x => x = Ok ([], Some EChecksum) <-> (nsum (firstn k (s3_all r)) mod 256 <> 255)%N).
Proof.
  intros np t before up r after tail k Hnp OK K. apply Forall_app in OK. destruct OK as [OKb OKr]. inversion OKr as [|? ? V OKa]; subst. cbn [sitem_ok] in V.
  assert (LS : List.length (s3line up r) = 2 * List.length (s3_all r) + 2) by (unfold s3line, s3line_of; cbn [List.length]; rewrite hexs_length; lia).
  destruct (cut_at t (map sitem_line before) (s3line up r) (map sitem_line after ++ tail) (2 * k + 2)) as [C1 _]; [lia|].
  set (l := firstn (2 * k + 2) (s3line up r)) in *.
  assert (EL : l = s3line_of up (firstn k (s3_all r))) by (unfold l, s3line, s3line_of; replace (2 * k + 2) with (S (S (2 * k))) by lia; cbn [firstn]; rewrite firstn_hexs; reflexivity).
  exists (startOf t (map sitem_line before) + (2 * k + 2)). unfold sfile. rewrite map_app, <- app_assoc. cbn [map sitem_line app]. rewrite C1. split; [rewrite EL; reflexivity|].
  assert (NE : no_eol l).
  { pose proof (sitem_no_eol (SItem up r) V) as [N1 N2]. cbn [sitem_line] in N1, N2. split; intros I; apply firstn_in in I; contradiction. }
  assert (LO : lines_of (join (term_bytes t) (map sitem_line before ++ [l])) (map sitem_line before ++ [l])).
  { apply (cut_lines t _ (s3line up r)); [|exact (sitem_no_eol (SItem up r) V)|left; exists (2 * k + 2); reflexivity]. apply Forall_forall. intros x I. apply in_map_iff in I. destruct I as (y & <- & I). apply sitem_no_eol. rewrite Forall_forall in OKb. apply OKb, I. }
  assert (SH : s3_shape l) by (rewrite EL; apply s3line_shape; rewrite firstn_length; lia). destruct (shape_parse l SH) as (x & PX).
  assert (SL : slineRec l = [x]) by (unfold slineRec; destruct SH as (_ & L14 & _); replace (11 <=? List.length l) with true by (symmetry; apply Nat.leb_le; lia); rewrite PX; reflexivity).
  assert (GS : s_csum_ok x = true <-> (nsum (firstn k (s3_all r)) mod 256 = 255)%N).
  { rewrite (shape_csum l x SH PX), EL. apply good_text, hex_text_hexs, Forall_firstn, s3_all_byte, V. }
  apply s_always_iff; [exact Hnp|]. unfold sFileF. rewrite (lines_split _ _ LO). unfold sHexF. destruct (sitems_spec before OKb) as [S1 _]. cbv zeta in S1.
  rewrite <- (app_nil_r (map sitem_line before ++ [l])), sRecsF_tail; [|exact Hnp| |constructor].
  2: { apply Forall_app. split; [|constructor; [right; eauto|constructor]]. apply Forall_forall. intros y I. apply in_map_iff in I. destruct I as (z & <- & I). apply sitem_fine. rewrite Forall_forall in OKb. apply OKb, I. }
  rewrite flat_map_app. cbn [flat_map]. rewrite SL, forallb_app, S1. cbn [forallb app andb]. destruct (s_csum_ok x).
  - split; [|intros H; destruct H; apply GS; reflexivity]. intros H. exfalso. eapply store_all_not_checksum. assert (H' := f_equal (fun o => match o with Ok y => snd y | _ => None end) H). exact H'.
  - split; [intros _ H; apply GS in H; discriminate H|reflexivity].
Qed.
Print Assumptions C100_srec_inside.

(** After the first record and one data byte of the second: refused.  After five
    bytes of the second (12 characters, no data): refused, too.  After the line end:
    not noticed. *)
Example C100_srec_example :
  let items := [SItem true (SD 0 [7]%N); SItem true (SD 16 [3; 235]%N)] in
  let text := sfile Unix items [s7line 0] in
  Forall sitem_ok items /\ NoDup (map fst (s3image (sitems_recs items))) /\ Forall not_s3 [s7line 0]
  /\ s3image (sitems_recs items) = [(0, 7); (16, 3); (17, 235)]%N
  /\ firstn 33 text = join [LF] [b "S3060000000007F2"; b "S3070000001003EB"]
  /\ sFileF 2 (firstn 33 text) = ([], Some EChecksum)
  /\ sFileF 2 (firstn 29 text) = ([], Some EChecksum)
  /\ sFileF 2 (firstn 17 text) = ([(0, 7)]%N, None).
Proof.
  cbv zeta. split; [repeat (constructor; [vm_compute; repeat split; repeat constructor; discriminate|]); constructor|].
  split; [apply nodupb_ok; vm_compute; reflexivity|]. split; [constructor; [|constructor]; split; [apply no_eolb_ok; vm_compute; reflexivity|vm_compute; discriminate]|].
  repeat split; vm_compute; reflexivity.
Qed.
