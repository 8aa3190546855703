From Coq Require Import String Ascii List Arith NArith Bool Lia ZArith.
From Verif Require Import GoBase GoBaseFacts GoStrings ConcModel ConcProofs HexSpec HexSpecFacts HexParts IhexSpec IhexModel
  IhexPhase2 IhexProofs IhexEnc IhexMain IhexLines IhexThm SrecModel SrecProofs SrecSpec.
Import ListNotations.

Local Notation byte_list l := (Forall (fun v => v < 256)%N l).

(** ** Lists of lines *)

Definition sfine (l : bytes) : Prop := List.length l < 11 \/ exists r, sParse l = Some r.
Definition slineRec (l : bytes) : list srecord :=
  if 11 <=? List.length l then match sParse l with Some r => [r] | None => [] end else [].
Definition snone (l : bytes) : Prop := slineRec l = [].

Lemma sRecs_none : forall ls, Forall snone ls -> sRecs ls = [].
Proof.
  intros ls H. induction H as [|l ls Hl Hls IH]; [reflexivity|]. cbn [sRecs]. unfold snone, slineRec in Hl.
  destruct (11 <=? List.length l); [|exact IH]. destruct (sParse l); [discriminate|reflexivity].
Qed.

Lemma sRecs_tail : forall A B, Forall sfine A -> Forall snone B -> sRecs (A ++ B) = flat_map slineRec (A ++ B).
Proof.
  intros A B HA HB. induction HA as [|l A Hl HA IH].
  - cbn [app]. rewrite sRecs_none by exact HB.
    induction HB as [|l B Hl HB IH]; [reflexivity|]. cbn [flat_map]. rewrite Hl. exact IH.
  - cbn [app sRecs flat_map]. unfold slineRec at 1. destruct (11 <=? List.length l) eqn:E; [|exact IH].
    destruct Hl as [Hl|[r Hr]]; [apply Nat.leb_le in E; lia|]. rewrite Hr. cbn [app]. f_equal. exact IH.
Qed.

Lemma Forall_firstn : forall A (P : A -> Prop) n l, Forall P l -> Forall P (firstn n l).
Proof.
  intros A P n l H. rewrite Forall_forall in *. intros x Hx. apply H. rewrite <- (firstn_skipn n l).
  apply in_or_app; auto.
Qed.
Lemma Forall_skipn : forall A (P : A -> Prop) n l, Forall P l -> Forall P (skipn n l).
Proof.
  intros A P n l H. rewrite Forall_forall in *. intros x Hx. apply H. rewrite <- (firstn_skipn n l).
  apply in_or_app; auto.
Qed.

Lemma sRecsF_tail : forall np A B, 0 < np -> Forall sfine A -> Forall snone B ->
    sRecsF np (A ++ B) = flat_map slineRec A.
Proof.
  intros np A B Hnp HA HB. unfold sRecsF.
  assert (E : flat_map slineRec (A ++ B) = flat_map slineRec A).
  { rewrite flat_map_app. replace (flat_map slineRec B) with (@nil srecord); [apply app_nil_r|].
    clear - HB. induction HB as [|l B Hl HB IH]; [reflexivity|]. cbn [flat_map]. rewrite Hl. exact IH. }
  rewrite <- E. rewrite <- (@concat_chunks _ np (A ++ B) Hnp) at 2. rewrite flat_map_concat.
  assert (Hc : forall c, In c (chunks np (A ++ B)) -> sRecs c = flat_map slineRec c).
  { intros c Hc. unfold chunks in Hc. apply in_map_iff in Hc. destruct Hc as (i & <- & _). unfold chunk.
    rewrite skipn_app, firstn_app. apply sRecs_tail; [apply Forall_firstn, Forall_skipn, HA|apply Forall_firstn, Forall_skipn, HB]. }
  clear E. induction (chunks np (A ++ B)) as [|c cs IH]; [reflexivity|]. cbn [flat_map].
  rewrite Hc by (left; reflexivity). f_equal. apply IH. intros c' Hc'. apply Hc. right; exact Hc'.
Qed.

Lemma sParse_s3 : forall l r, sParse l = Some r -> firstn 2 l = b "S3".
Proof.
  intros l r H.
  destruct l as [|c0 [|t [|c1 [|c2 [|a1 [|a2 [|a3 [|a4 [|a5 [|a6 [|a7 [|a8 rest]]]]]]]]]]]]; try discriminate.
  cbn [sParse] in H. destruct (Ascii.eqb c0 s_beginLineToken) eqn:E1; [|discriminate].
  destruct (Ascii.eqb t "3"%char) eqn:E2; [|discriminate]. apply Ascii.eqb_eq in E1, E2. subst. reflexivity.
Qed.

Lemma not_s3_none : forall l, not_s3 l -> snone l.
Proof.
  intros l [_ H]. unfold snone, slineRec. destruct (11 <=? List.length l); [|reflexivity].
  destruct (sParse l) as [r|] eqn:E; [|reflexivity]. exfalso. apply H. eapply sParse_s3, E.
Qed.

(** ** Checksums *)

Lemma shape_text : forall l, s3_shape l -> exists tx k, l = "S"%char :: "3"%char :: tx
    /\ List.length tx = 2 * k /\ 6 <= k.
Proof.
  intros l (Hp & Hl & [k Hk]). destruct l as [|c0 [|t tx]]; try (cbn in Hl; lia).
  exists tx, (k - 1). assert (E : [c0; t] = b "S3") by exact Hp. vm_compute in E. inversion E; subst.
  split; [reflexivity|]. cbn [List.length] in Hk, Hl. lia.
Qed.

Lemma shape_parse : forall l, s3_shape l -> exists r, sParse l = Some r.
Proof.
  intros l H. destruct (shape_text l H) as (tx & k & -> & Hl & Hk).
  destruct tx as [|c1 [|c2 [|a1 [|a2 [|a3 [|a4 [|a5 [|a6 [|a7 [|a8 rest]]]]]]]]]]; try (cbn in Hl; lia).
  cbn [sParse]. change (Ascii.eqb "S" s_beginLineToken && Ascii.eqb "3" "3") with true. eauto.
Qed.

Lemma last2_suffix : forall p l, 2 <= List.length l -> last2 (p ++ l) = last2 l.
Proof.
  intros p l H. unfold last2. rewrite app_length, skipn_app.
  rewrite skipn_all2 by lia. cbn [app]. f_equal. lia.
Qed.

Lemma shape_csum : forall l r, s3_shape l -> sParse l = Some r -> (s_csum_ok r = true <-> s3_good l).
Proof.
  intros l r Hs H. destruct (shape_text l Hs) as (tx & k & -> & Hl & Hk).
  destruct tx as [|c1 [|c2 [|a1 [|a2 [|a3 [|a4 [|a5 [|a6 [|a7 [|a8 rest]]]]]]]]]]; try (cbn in Hl; lia).
  cbn [sParse] in H. change (Ascii.eqb "S" s_beginLineToken && Ascii.eqb "3" "3") with true in H. cbv iota in H.
  assert (Er : List.length rest = 2 * (k - 6) + 2) by (cbn [List.length] in Hl; lia).
  set (r0 := SRec _ _ _ _ _) in H. assert (r = r0) by congruence. subst r. unfold r0. clear H r0.
  set (tx := c1 :: c2 :: a1 :: a2 :: a3 :: a4 :: a5 :: a6 :: a7 :: a8 :: rest) in *.
  assert (El : last2 ("S"%char :: "3"%char :: tx) = last2 rest).
  { change ("S"%char :: "3"%char :: tx) with (["S"; "3"; c1; c2; a1; a2; a3; a4; a5; a6; a7; a8]%char ++ rest).
    apply last2_suffix. lia. }
  rewrite El. rewrite s_csum_ok_true. unfold s_validateChecksum.
  cbn [s_addressField s_byteCount s_data s_checksum].
  unfold slice. cbn [List.length Nat.leb andb firstn skipn Nat.sub obind].
  assert (Ep : [[c1; c2]; [a1; a2]; [a3; a4]; [a5; a6]; [a7; a8]] ++ dl rest ++ [last2 rest] = pairs2 tx).
  { rewrite (dl_pairs2 (k - 6) rest Er). reflexivity. }
  match goal with |- context [sum_pairs 0 ?p] => change p with ([[c1; c2]; [a1; a2]; [a3; a4]; [a5; a6]; [a7; a8]] ++ dl rest ++ [last2 rest]) end.
  rewrite Ep. pose proof (sum_pairs_text k tx 0 ltac:(lia) Hl) as HS. unfold s3_good. split.
  - intros H. destruct (sum_pairs 0 (pairs2 tx)) as [s|] eqn:E; [|discriminate].
    destruct (proj1 (HS s) eq_refl) as (bs & Hb & Es). exists tx, bs. split; [reflexivity|]. split; [exact Hb|].
    assert ((s =? 255)%N = true) by congruence. apply N.eqb_eq in H0. rewrite N.add_0_l in Es. congruence.
  - intros (tx' & bs & Et & Hb & Es). assert (tx' = tx) by congruence. subst tx'.
    rewrite (proj2 (HS (nsum bs mod 256)%N)) by (exists bs; split; [exact Hb|rewrite N.add_0_l; reflexivity]).
    rewrite Es. reflexivity.
Qed.

Lemma good_text : forall tx bs, hex_text tx bs ->
    (s3_good ("S"%char :: "3"%char :: tx) <-> (nsum bs mod 256 = 255)%N).
Proof.
  intros tx bs H. split.
  - intros (tx' & bs' & E & H' & Hs). assert (tx' = tx) by congruence. subst tx'.
    apply hex_text_decode in H, H'. assert (bs' = bs) by congruence. subst. exact Hs.
  - intros Hs. exists tx, bs. auto.
Qed.

Lemma s3_check_sum : forall l, (nsum (l ++ [s3_check l]) mod 256 = 255)%N.
Proof.
  intros l. rewrite nsum_app. cbn [nsum]. rewrite N.add_0_r. unfold s3_check.
  pose proof (N.mod_lt (nsum l) 256 ltac:(lia)) as H.
  rewrite <- N.add_mod_idemp_l by lia.
  replace (nsum l mod 256 + (255 - nsum l mod 256))%N with 255%N by lia. reflexivity.
Qed.

Lemma abytes_byte : forall a, (a < 4294967296)%N -> byte_list (abytes a).
Proof.
  intros a H. unfold abytes. repeat constructor; try (apply N.mod_lt; lia).
  apply N.div_lt_upper_bound; lia.
Qed.

Lemma abytes_value : forall a, (a < 4294967296)%N ->
    (16777216 * (a / 16777216) + 65536 * (a / 65536 mod 256) + 256 * (a / 256 mod 256) + a mod 256 = a)%N.
Proof.
  intros a H.
  pose proof (N.div_mod a 256 ltac:(lia)) as E1.
  pose proof (N.div_mod (a / 256) 256 ltac:(lia)) as E2. rewrite N.div_div in E2 by lia.
  pose proof (N.div_mod (a / 65536) 256 ltac:(lia)) as E3. rewrite N.div_div in E3 by lia.
  change (256 * 256)%N with 65536%N in E2. change (65536 * 256)%N with 16777216%N in E3.
  set (x1 := (a/256)%N) in *. set (x2 := (a/65536)%N) in *. set (x3 := (a/16777216)%N) in *.
  set (y1 := (a mod 256)%N) in *. set (y2 := (x1 mod 256)%N) in *. set (y3 := (x2 mod 256)%N) in *.
  clearbody x1 x2 x3 y1 y2 y3. lia.
Qed.

Lemma s3_all_byte : forall r, s3valid r -> byte_list (s3_all r).
Proof.
  intros r (Hb & Hl & _ & Ha). unfold s3_all, s3_body. apply Forall_app. split.
  - constructor; [lia|]. apply Forall_app. split; [apply abytes_byte, Ha|exact Hb].
  - constructor; [|constructor]. unfold s3_check.
    generalize (nsum (N.of_nat (List.length (s3_bytes r) + 5) :: abytes (s3_addr r) ++ s3_bytes r) mod 256)%N.
    intros n. lia.
Qed.

Lemma s3_all_length : forall r, List.length (s3_all r) = 6 + List.length (s3_bytes r).
Proof. intros r. unfold s3_all, s3_body. rewrite app_length. cbn [List.length]. rewrite app_length. cbn [List.length abytes]. lia. Qed.

Lemma s3line_shape : forall up l, 6 <= List.length l -> s3_shape (s3line_of up l).
Proof.
  intros up l H. unfold s3line_of. split; [reflexivity|]. cbn [List.length]. rewrite hexs_length.
  split; [lia|]. exists (S (List.length l)). lia.
Qed.

(** ** Encoded records *)

Definition s3Rec (up : bool) (r : s3rec) : srecord :=
  SRec (hex2 up (N.of_nat (List.length (s3_bytes r) + 5))) (hexs up (abytes (s3_addr r))) (b "3")
       (map (hex2 up) (s3_bytes r)) (hex2 up (s3_check (s3_body r))).

Lemma sParse_enc : forall up r, sParse (s3line up r) = Some (s3Rec up r).
Proof.
  intros up r. unfold s3line, s3line_of, s3_all, s3_body. cbn [app]. rewrite <- app_assoc.
  set (c := s3_check _). unfold abytes. cbn [app]. unfold hexs. cbn [flat_map].
  change (flat_map (hex2 up) (s3_bytes r ++ [c])) with (hexs up (s3_bytes r ++ [c])).
  unfold hex2 at 1 2 3 4 5. cbn [app sParse].
  change (Ascii.eqb "S" s_beginLineToken && Ascii.eqb "3" "3") with true. cbv iota.
  rewrite dl_hexs. f_equal. unfold s3Rec. f_equal.
  set (p := hexs up (s3_bytes r ++ [c])).
  match goal with |- last2 (?a1 :: ?a2 :: ?a3 :: ?a4 :: ?a5 :: ?a6 :: ?a7 :: ?a8 :: ?a9 :: ?a10 :: ?a11 :: ?a12 :: p) = _ =>
    change (a1 :: a2 :: a3 :: a4 :: a5 :: a6 :: a7 :: a8 :: a9 :: a10 :: a11 :: a12 :: p)
      with ([a1; a2; a3; a4; a5; a6; a7; a8; a9; a10; a11; a12] ++ p) end.
  rewrite last2_suffix.
  - unfold p. rewrite last2_hexs. reflexivity.
  - unfold p. rewrite hexs_length, app_length. cbn [List.length]. lia.
Qed.

Lemma s_csum_enc : forall up r, s3valid r -> s_csum_ok (s3Rec up r) = true.
Proof.
  intros up r Hv. apply (shape_csum (s3line up r)).
  - apply s3line_shape. rewrite s3_all_length. lia.
  - apply sParse_enc.
  - unfold s3line, s3line_of. apply (good_text _ (s3_all r)); [apply hex_text_hexs, s3_all_byte, Hv|apply s3_check_sum].
Qed.

Lemma s_calc_enc : forall up bs i a, byte_list bs -> (a < 4294967296)%N ->
    (a + i + N.of_nat (List.length bs) <= 4294967296)%N ->
    s_calc_loop i (map (hex2 up) bs) (hexs up (abytes a)) = Ok (placed (a + i) bs, false).
Proof.
  intros up bs i a H. revert i. induction H as [|v bs Hv Hb IH]; intros i Ha Hl; [reflexivity|].
  cbn [map s_calc_loop]. rewrite hexToByte_hex2 by exact Hv.
  rewrite hex_decode_hexs by (apply abytes_byte, Ha).
  unfold abytes at 1. cbn [be32 obind]. rewrite abytes_value by exact Ha.
  cbn [List.length] in Hl. rewrite IH by (assumption || lia). cbn [obind fst snd placed].
  unfold u32 at 2. rewrite N.mod_small by lia. unfold u32. rewrite N.mod_small by lia.
  f_equal. f_equal. f_equal. f_equal. lia.
Qed.

Lemma s_entries_enc : forall up r, s3valid r -> s_entries (s3Rec up r) = placed (s3_addr r) (s3_bytes r).
Proof.
  intros up r (Hb & Hl & Hs & Ha). unfold s_entries, s_calcDataEntries, s3Rec. cbn [s_data s_addressField].
  rewrite s_calc_enc by (assumption || lia). rewrite N.add_0_r. reflexivity.
Qed.

(** ** Encoded files *)

Lemma sitem_no_eol : forall x, sitem_ok x -> no_eol (sitem_line x).
Proof.
  intros [up r|l] H; cbn [sitem_line]; [|apply H]. unfold s3line, s3line_of.
  destruct (hexs_no_eol up (s3_all r) (s3_all_byte r H)) as [H1 H2].
  split; intros [E|[E|E]]; try discriminate E; contradiction.
Qed.

Lemma sitem_fine : forall x, sitem_ok x -> sfine (sitem_line x).
Proof. intros [up r|l] H; cbn [sitem_line]; [right; eexists; apply sParse_enc|left; apply H]. Qed.

Lemma sitems_spec : forall items, Forall sitem_ok items ->
    let R := flat_map slineRec (map sitem_line items) in
    forallb s_csum_ok R = true /\ flat_map s_entries R = s3image (sitems_recs items).
Proof.
  intros items H. cbv zeta. induction H as [|x items Hx H IH]; [split; reflexivity|].
  destruct x as [up r|l]; cbn [map sitem_line flat_map sitems_recs sitem_ok] in *.
  - unfold slineRec at 1 3. rewrite sParse_enc.
    assert ((11 <=? List.length (s3line up r)) = true) as ->.
    { apply Nat.leb_le. unfold s3line, s3line_of. cbn [List.length]. rewrite hexs_length, s3_all_length. lia. }
    cbn [app forallb flat_map]. destruct IH as [I1 I2].
    split; [rewrite s_csum_enc by exact Hx; exact I1|].
    cbn [s3image flat_map]. rewrite s_entries_enc by exact Hx. rewrite I2. reflexivity.
  - unfold slineRec at 1 3. assert ((11 <=? List.length l) = false) as -> by (apply Nat.leb_gt; lia). exact IH.
Qed.

Lemma sFile_join : forall np t lines, Forall no_eol lines -> 0 < np ->
    sFileF np (join (term_bytes t) lines) = sHexF np lines.
Proof.
  intros np t lines H Hnp. unfold sFileF. destruct lines as [|l lines].
  - cbn [join]. rewrite splitLines_nil. unfold sHexF, sRecsF.
    assert (E : forall l : list bytes, (forall x, In x l -> List.length x < 11) -> flat_map sRecs (chunks np l) = []).
    { intros l Hl. assert (forall c, In c (chunks np l) -> sRecs c = []).
      { intros c Hc. apply sRecs_none. apply Forall_forall. intros x Hx. unfold snone, slineRec.
        assert ((11 <=? List.length x) = false) as ->; [|reflexivity].
        apply Nat.leb_gt, Hl. eapply In_chunk; eassumption. }
      induction (chunks np l) as [|c cs IH]; [reflexivity|]. cbn [flat_map].
      rewrite H0 by (left; reflexivity). apply IH. intros c' Hc'. apply H0. right; exact Hc'. }
    rewrite !E; [reflexivity| |].
    + intros x [].
    + intros x [<-|[]]. cbn; lia.
  - rewrite splitLines_join by (discriminate || exact H). reflexivity.
Qed.

Theorem srec_encoded : forall np t items tail, 0 < np -> Forall sitem_ok items -> Forall not_s3 tail ->
    sFileF np (sfile t items tail) = store_all [] (s3image (sitems_recs items)).
Proof.
  intros np t items tail Hnp Hok Ht. unfold sfile. rewrite sFile_join; [|apply Forall_app; split|exact Hnp].
  - unfold sHexF. rewrite sRecsF_tail; [|exact Hnp| |].
    + destruct (sitems_spec items Hok) as [E1 E2]. rewrite E1, E2. reflexivity.
    + apply Forall_map. eapply Forall_impl; [|exact Hok]. apply sitem_fine.
    + eapply Forall_impl; [|exact Ht]. apply not_s3_none.
  - apply Forall_map. eapply Forall_impl; [|exact Hok]. apply sitem_no_eol.
  - eapply Forall_impl; [|exact Ht]. intros l [H _]. exact H.
Qed.

Lemma store_collision_spec : forall im, ~ NoDup (map fst im) ->
    exists m a v0 v pre post, store_all [] im = (m, Some (ECollision a v0 v))
      /\ im = pre ++ (a, v) :: post /\ In (a, v0) pre /\ map_is m pre.
Proof.
  intros im Hn. destruct (store_all_collision im []) as (pre & a & v & v0 & post & E & Hin & Es).
  - constructor.
  - rewrite app_nil_r. exact Hn.
  - assert (Hp : NoDup (map fst pre)).
    { destruct (ListDec.NoDup_dec N.eq_dec (map fst pre)) as [Hd|Hd]; [exact Hd|exfalso].
      destruct (store_all_collision pre []) as (p2 & a2 & v2 & v3 & q2 & E2 & _ & Es2);
        [constructor|rewrite app_nil_r; exact Hd|].
      rewrite E, store_all_app, Es2 in Es. apply (f_equal (fun x => List.length (fst x))) in Es. cbn [fst] in Es.
      rewrite !app_nil_r, !rev_length in Es. rewrite E2, app_length in Es. cbn in Es. lia. }
    exists (rev pre ++ []), a, v0, v, pre, post. rewrite Es.
    split; [reflexivity|]. split; [exact E|]. split; [exact Hin|apply map_is_rev, Hp].
Qed.

Lemma srec_round_trip : forall np t items tail, (0 < np)%nat -> Forall sitem_ok items -> Forall not_s3 tail ->
    NoDup (map fst (s3image (sitems_recs items))) ->
    always (s_parseFile_exec np (sfile t items tail))
      (fun r => exists m, r = Ok (m, None) /\ map_is m (s3image (sitems_recs items))).
Proof.
  intros np t items tail Hnp Hok Ht Hn. apply s_always_iff; [exact Hnp|].
  rewrite srec_encoded by assumption. eexists. split.
  - f_equal. apply store_all_ok; [exact Hn|]. intros a _ [].
  - apply map_is_rev, Hn.
Qed.

Lemma srec_collisions : forall np t items tail, (0 < np)%nat -> Forall sitem_ok items -> Forall not_s3 tail ->
    always (s_parseFile_exec np (sfile t items tail))
      (fun r => (NoDup (map fst (s3image (sitems_recs items))) -> exists m, r = Ok (m, None))
        /\ (~ NoDup (map fst (s3image (sitems_recs items))) ->
            exists m a v0 v pre post, r = Ok (m, Some (ECollision a v0 v))
              /\ s3image (sitems_recs items) = pre ++ (a, v) :: post /\ In (a, v0) pre /\ map_is m pre)).
Proof.
  intros np t items tail Hnp Hok Ht. apply s_always_iff; [exact Hnp|].
  rewrite srec_encoded by assumption. split.
  - intros Hn. rewrite store_all_ok; [eauto|exact Hn|intros a _ []].
  - intros Hn. destruct (store_collision_spec _ Hn) as (m & a & v0 & v & pre & post & E & H).
    exists m, a, v0, v, pre, post. rewrite E. split; [reflexivity|exact H].
Qed.

(** ** Checksum errors *)

Definition s3_fine (l : bytes) : Prop := (List.length l < 11)%nat \/ s3_shape l.

Lemma srec_checksum_error : forall np t lines tail, (0 < np)%nat -> Forall no_eol lines ->
    Forall s3_fine lines -> Forall not_s3 tail ->
    always (s_parseFile_exec np (join (term_bytes t) (lines ++ tail)))
      (fun r => r = Ok ([], Some EChecksum) <->
                exists l, In l lines /\ (11 <= List.length l)%nat /\ ~ s3_good l).
Proof.
  intros np t lines tail Hnp He Hf Ht. apply s_always_iff; [exact Hnp|].
  rewrite sFile_join; [|apply Forall_app; split; [exact He|]|exact Hnp].
  2:{ eapply Forall_impl; [|exact Ht]. intros l [H _]. exact H. }
  unfold sHexF. rewrite sRecsF_tail; [|exact Hnp| |].
  2:{ eapply Forall_impl; [|exact Hf]. intros l [H|H]; [left; exact H|right; apply shape_parse, H]. }
  2:{ eapply Forall_impl; [|exact Ht]. apply not_s3_none. }
  assert (HR : forallb s_csum_ok (flat_map slineRec lines) = false <->
               exists l, In l lines /\ (11 <= List.length l)%nat /\ ~ s3_good l).
  { clear He Ht. induction Hf as [|l lines Hl Hf IH].
    - cbn. split; [discriminate|]. intros (l & [] & _).
    - cbn [flat_map]. rewrite forallb_app, andb_false_iff, IH. clear IH. split.
      + intros [H|(l' & H1 & H2)]; [|exists l'; split; [right; exact H1|exact H2]].
        unfold slineRec in H. destruct (11 <=? List.length l) eqn:E; [|discriminate]. apply Nat.leb_le in E.
        destruct (sParse l) as [r|] eqn:Ep; [|discriminate]. cbn [forallb] in H. rewrite andb_true_r in H.
        exists l. split; [left; reflexivity|]. split; [exact E|].
        destruct Hl as [Hl|Hl]; [lia|]. rewrite <- (shape_csum l r Hl Ep). congruence.
      + intros (l' & [<-|H1] & H2 & H3); [left|right; exists l'; auto].
        unfold slineRec. assert ((11 <=? List.length l) = true) as -> by (apply Nat.leb_le; exact H2).
        destruct Hl as [Hl|Hl]; [lia|]. destruct (shape_parse l Hl) as [r Ep]. rewrite Ep. cbn [forallb].
        rewrite andb_true_r. destruct (s_csum_ok r) eqn:Ec; [|reflexivity].
        exfalso. apply H3. apply (shape_csum l r Hl Ep), Ec. }
  rewrite <- HR. destruct (forallb s_csum_ok (flat_map slineRec lines)).
  - split; [|discriminate]. intros E. exfalso.
    apply (store_all_not_checksum (flat_map s_entries (flat_map slineRec lines)) []).
    assert (store_all [] (flat_map s_entries (flat_map slineRec lines)) = ([], Some EChecksum)) as -> by congruence.
    reflexivity.
  - split; reflexivity.
Qed.

(** ** Corruption of one byte *)

Lemma corrupt_mod_255 : forall s x v : N, (x < 256)%N -> (v < 256)%N -> x <> v ->
    ((s + x) mod 256 = 255)%N -> ((s + v) mod 256 <> 255)%N.
Proof.
  intros s x v Hx Hv Hne H1 H2. apply Hne.
  pose proof (N.div_mod (s + x) 256 ltac:(lia)) as E1. pose proof (N.div_mod (s + v) 256 ltac:(lia)) as E2.
  rewrite H1 in E1. rewrite H2 in E2. lia.
Qed.

Lemma s3corrupted_bad : forall up up' r k x v, s3valid r -> nth_error (s3_all r) k = Some x -> (v < 256)%N -> x <> v ->
    ~ s3_good (s3corrupted up up' (s3_all r) k v).
Proof.
  intros up up' r k x v Hr Hk Hv Hne. pose proof (s3_all_byte r Hr) as Hb. unfold s3corrupted.
  rewrite (good_text _ _ (corrupted_text up up' (s3_all r) k v Hb Hv)).
  rewrite nsum_app. cbn [nsum].
  assert (Hx : (x < 256)%N) by (rewrite Forall_forall in Hb; apply Hb; eapply nth_error_In, Hk).
  pose proof (s3_check_sum (s3_body r)) as H0. fold (s3_all r) in H0. rewrite (nsum_split _ _ _ Hk) in H0.
  replace (nsum (firstn k (s3_all r)) + (v + nsum (skipn (S k) (s3_all r))))%N
    with (nsum (firstn k (s3_all r)) + nsum (skipn (S k) (s3_all r)) + v)%N by lia.
  apply (corrupt_mod_255 _ x); try assumption. rewrite <- H0. f_equal. lia.
Qed.

Lemma s3corrupted_shape : forall up up' r k v, (k < List.length (s3_all r))%nat ->
    s3_shape (s3corrupted up up' (s3_all r) k v).
Proof.
  intros up up' r k v Hk. unfold s3corrupted. split; [reflexivity|].
  cbn [List.length]. rewrite !app_length, !hexs_length, hex2_length, firstn_length, skipn_length.
  pose proof (s3_all_length r). split; [lia|]. exists (S (List.length (s3_all r))). lia.
Qed.

Lemma s3corrupted_no_eol : forall up up' l k v, byte_list l -> (v < 256)%N -> no_eol (s3corrupted up up' l k v).
Proof.
  intros up up' l k v Hl Hv. destruct (corrupted_no_eol up up' l k v Hl Hv) as [H1 H2].
  unfold corrupted in *. unfold s3corrupted.
  split; intros [E|[E|E]]; try discriminate E; [apply H1|apply H2]; right; exact E.
Qed.

Lemma srec_corruption_detected : forall np t before up r after tail k x v up', (0 < np)%nat ->
    Forall sitem_ok before -> s3valid r -> Forall sitem_ok after -> Forall not_s3 tail ->
    nth_error (s3_all r) k = Some x -> (v < 256)%N -> v <> x ->
    always (s_parseFile_exec np (join (term_bytes t)
              (map sitem_line before ++ s3corrupted up up' (s3_all r) k v :: map sitem_line after ++ tail)))
      (fun res => res = Ok ([], Some EChecksum)).
Proof.
  intros np t before up r after tail k x v up' Hnp Hb Hr Ha Ht Hk Hv Hne.
  assert (Hlt : (k < List.length (s3_all r))%nat) by (eapply nth_error_lt, Hk).
  pose proof (s3corrupted_shape up up' r k v Hlt) as Cs.
  assert (Hbi : forall items, Forall sitem_ok items -> Forall (fun l => no_eol l /\ s3_fine l) (map sitem_line items)).
  { intros items Hi. apply Forall_map. eapply Forall_impl; [|exact Hi]. intros i Hi'.
    split; [apply sitem_no_eol, Hi'|]. destruct i as [up0 r0|l]; cbn [sitem_line]; [right|left; apply Hi'].
    apply s3line_shape. rewrite s3_all_length. lia. }
  set (lines := map sitem_line before ++ s3corrupted up up' (s3_all r) k v :: map sitem_line after).
  assert (HF : Forall (fun l => no_eol l /\ s3_fine l) lines).
  { apply Forall_app. split; [apply Hbi, Hb|]. constructor; [|apply Hbi, Ha].
    split; [apply s3corrupted_no_eol; [apply s3_all_byte, Hr|exact Hv]|right; exact Cs]. }
  replace (map sitem_line before ++ s3corrupted up up' (s3_all r) k v :: map sitem_line after ++ tail)
    with (lines ++ tail) by (unfold lines; rewrite <- app_assoc; reflexivity).
  destruct (srec_checksum_error np t lines tail Hnp) as [H1 H2].
  - eapply Forall_impl; [|exact HF]. intros l0 [? ?]; assumption.
  - eapply Forall_impl; [|exact HF]. intros l0 [? ?]; assumption.
  - exact Ht.
  - split; [exact H1|]. intros res Hres. apply (H2 res Hres).
    exists (s3corrupted up up' (s3_all r) k v). split; [unfold lines; apply in_or_app; right; left; reflexivity|].
    split; [destruct Cs as (_ & Cs & _); lia|]. apply (s3corrupted_bad up up' r k x v); auto.
Qed.

(** ** Lines of other types *)

Lemma srec_other_line : forall t before bad after,
    Forall no_eol (before ++ bad :: after) -> (11 <= List.length bad)%nat -> firstn 2 bad <> b "S3" ->
    forall r, s_parseFile_exec 1 (join (term_bytes t) (before ++ bad :: after)) r
      <-> s_parseFile_exec 1 (join (term_bytes t) before) r.
Proof.
  intros t before bad after He Hl Hb r. rewrite !s_parseFile_exec_iff by lia.
  rewrite !sFile_join; [|apply Forall_app in He; apply He|lia|exact He|lia].
  assert (E : sRecs (before ++ bad :: after) = sRecs before).
  { clear He. induction before as [|l before IH]; cbn [app sRecs].
    - destruct (11 <=? List.length bad)%nat eqn:El; [|apply Nat.leb_gt in El; lia].
      destruct (sParse bad) as [x|] eqn:Ep; [|reflexivity].
      exfalso. apply Hb. eapply sParse_s3, Ep.
    - rewrite IH. reflexivity. }
  unfold sHexF, sRecsF. rewrite !chunks_one. cbn [flat_map]. rewrite !app_nil_r, E. reflexivity.
Qed.

Lemma srec_nothing : forall t, always (s_parseFile_exec 1 (join (term_bytes t) [])) (fun r => r = Ok ([], None)).
Proof. intros t. apply s_run_is; reflexivity. Qed.

(** ** Agreement of the formats *)

Lemma formats_agree : forall np1 np2 t1 t2 items sitems tail, (0 < np1)%nat -> (0 < np2)%nat ->
    Forall item_ok items -> zero_upper_last (items_recs items) ->
    Forall sitem_ok sitems -> Forall not_s3 tail ->
    NoDup (map fst (image (items_recs items))) -> NoDup (map fst (s3image (sitems_recs sitems))) ->
    (forall x, In x (image (items_recs items)) <-> In x (s3image (sitems_recs sitems))) ->
    exists m1 m2, always (parseFile_exec np1 (ifile t1 items)) (fun r => r = Ok (m1, None))
      /\ always (s_parseFile_exec np2 (sfile t2 sitems tail)) (fun r => r = Ok (m2, None))
      /\ (forall a, lookup a m1 = lookup a m2)
      /\ map_is m1 (image (items_recs items)).
Proof.
  intros np1 np2 t1 t2 items sitems tail Hn1 Hn2 Hi Hz Hs Ht D1 D2 Heq.
  exists (rev (image (items_recs items)) ++ []), (rev (s3image (sitems_recs sitems)) ++ []).
  pose proof (map_is_rev _ D1) as M1. pose proof (map_is_rev _ D2) as M2.
  split; [apply always_iff; [exact Hn1|]; rewrite ihex_encoded by assumption; f_equal; apply store_all_ok; [exact D1|intros ? _ []]|].
  split; [apply s_always_iff; [exact Hn2|]; rewrite srec_encoded by assumption; f_equal; apply store_all_ok; [exact D2|intros ? _ []]|].
  split; [|exact M1]. intros a.
  destruct (lookup a (rev (image (items_recs items)) ++ [])) as [v|] eqn:E1.
  - symmetry. apply M2, Heq, M1, E1.
  - destruct (lookup a (rev (s3image (sitems_recs sitems)) ++ [])) as [v|] eqn:E2; [|reflexivity].
    apply M2, Heq, M1 in E2. congruence.
Qed.

(** A list of blocks written in both formats. *)
Definition blocks_ihex (bl : list (N * list N)) : list iitem :=
  flat_map (fun x => [IRec true (IEla (fst x / 65536)); IRec true (IData (fst x mod 65536) (snd x))]) bl ++ [IRec true iend].
Definition blocks_srec (bl : list (N * list N)) : list sitem := map (fun x => SItem true (SD (fst x) (snd x))) bl.

Lemma image_from_app : forall rs1 rs2 u, exists u', image_from u (rs1 ++ rs2) = image_from u rs1 ++ image_from u' rs2.
Proof.
  induction rs1 as [|r rs1 IH]; intros rs2 u; [exists u; reflexivity|].
  destruct r as [a bs|u1|t a bs]; cbn [app image_from].
  - destruct (IH rs2 u) as [u' E]. exists u'. rewrite E, app_assoc. reflexivity.
  - apply IH.
  - apply IH.
Qed.

Lemma items_recs_app : forall l1 l2, items_recs (l1 ++ l2) = items_recs l1 ++ items_recs l2.
Proof. induction l1 as [|[up r|l] l1 IH]; intros l2; cbn [app items_recs]; rewrite ?IH; reflexivity. Qed.

Lemma blocks_images : forall bl, image (items_recs (blocks_ihex bl)) = s3image (sitems_recs (blocks_srec bl)).
Proof.
  intros bl. unfold image, blocks_ihex. generalize 0%N. rewrite items_recs_app. cbn [items_recs].
  induction bl as [|[a bs] bl IH]; intros u; [reflexivity|].
  cbn [flat_map items_recs app fst snd image_from map blocks_srec sitems_recs s3image].
  rewrite IH. unfold blocks_srec. cbn [s3_addr s3_bytes].
  rewrite <- (N.div_mod a 65536) by lia. reflexivity.
Qed.

(** ** Checkers for the examples *)

Definition bytesb (l : list N) : bool := forallb (fun v => (v <? 256)%N) l.
Lemma bytesb_ok : forall l, bytesb l = true -> byte_list l.
Proof. intros l H. apply Forall_forall. intros x Hx. unfold bytesb in H. rewrite forallb_forall in H. apply N.ltb_lt, H, Hx. Qed.
Definition s3validb (r : s3rec) : bool :=
  bytesb (s3_bytes r) && (List.length (s3_bytes r) <=? 250)
  && (s3_addr r + N.of_nat (List.length (s3_bytes r)) <=? 4294967296)%N && (s3_addr r <? 4294967296)%N.
Lemma s3validb_ok : forall r, s3validb r = true -> s3valid r.
Proof.
  intros r H. unfold s3validb in H. rewrite !andb_true_iff in H. destruct H as (((H1 & H2) & H3) & H4).
  split; [apply bytesb_ok, H1|]. apply Nat.leb_le in H2. apply N.leb_le in H3. apply N.ltb_lt in H4. auto.
Qed.
Definition sitem_okb (x : sitem) : bool :=
  match x with SItem _ r => s3validb r | SBlank l => (List.length l <? 11) && no_eolb l end.
Lemma sitems_okb_ok : forall l, forallb sitem_okb l = true -> Forall sitem_ok l.
Proof.
  intros l H. apply Forall_forall. intros x Hx. rewrite forallb_forall in H. specialize (H x Hx).
  destruct x as [up r|s]; cbn [sitem_okb sitem_ok] in *; [apply s3validb_ok, H|]. apply andb_true_iff in H.
  destruct H as [H1 H2]. apply Nat.ltb_lt in H1. split; [exact H1|apply no_eolb_ok, H2].
Qed.
Definition s3_shapeb (l : bytes) : bool :=
  beqb (firstn 2 l) (b "S3") && (14 <=? List.length l) && Nat.even (List.length l).
Lemma s3_shapeb_ok : forall l, s3_shapeb l = true -> s3_shape l.
Proof.
  intros l H. unfold s3_shapeb in H. rewrite !andb_true_iff in H. destruct H as ((H1 & H2) & H3).
  split; [apply beqb_eq, H1|]. split; [apply Nat.leb_le, H2|apply Nat.even_spec, H3].
Qed.


Lemma srec_schedule_independent : forall np text, (0 < np)%nat ->
    exists r0, always (s_parseFile_exec np text) (fun r => r = r0).
Proof. intros np text Hnp. eexists. apply s_always_iff; [exact Hnp|reflexivity]. Qed.

(** Number of CPUs: equal results if only short lines and S3 lines occur before a tail without S3 lines. *)
Lemma srec_cpu_independent : forall np1 np2 t lines tail, (0 < np1)%nat -> (0 < np2)%nat -> Forall no_eol lines ->
    Forall s3_fine lines -> Forall not_s3 tail ->
    forall r, s_parseFile_exec np1 (join (term_bytes t) (lines ++ tail)) r
      <-> s_parseFile_exec np2 (join (term_bytes t) (lines ++ tail)) r.
Proof.
  intros np1 np2 t lines tail H1 H2 He Hf Ht r. rewrite !s_parseFile_exec_iff by assumption.
  assert (HE : Forall no_eol (lines ++ tail)).
  { apply Forall_app; split; [exact He|]. eapply Forall_impl; [|exact Ht]. intros l [H _]. exact H. }
  rewrite !sFile_join by assumption. unfold sHexF.
  assert (F1 : Forall sfine lines).
  { eapply Forall_impl; [|exact Hf]. intros l [H|H]; [left; exact H|right; apply shape_parse, H]. }
  assert (F2 : Forall snone tail) by (eapply Forall_impl; [|exact Ht]; apply not_s3_none).
  rewrite !sRecsF_tail by assumption. reflexivity.
Qed.

(** ** Any lines *)

Lemma s3b_parse : forall l, s3_lineb l = true -> sfine l.
Proof.
  intros l H. apply orb_true_iff in H. destruct H as [H|H]; [left; apply Nat.ltb_lt, H|].
  apply andb_true_iff in H. destruct H as [H1 H2]. apply beqb_eq in H1. apply Nat.leb_le in H2. right.
  destruct l as [|c0 [|t [|c1 [|c2 [|a1 [|a2 [|a3 [|a4 [|a5 [|a6 [|a7 [|a8 rest]]]]]]]]]]]]; cbn [List.length] in H2; try lia.
  cbn in H1. inversion H1; subst. eexists. reflexivity.
Qed.

Lemma sParse_lineb : forall l r, sParse l = Some r -> s3_lineb l = true.
Proof.
  intros l r H. pose proof (sParse_s3 l r H) as E. unfold s3_lineb. rewrite E, beqb_refl.
  destruct l as [|c0 [|t [|c1 [|c2 [|a1 [|a2 [|a3 [|a4 [|a5 [|a6 [|a7 [|a8 rest]]]]]]]]]]]]; try discriminate.
  cbn [List.length]. apply orb_true_r.
Qed.

Lemma sRecsF_kept : forall np ls, sRecsF np ls = flat_map slineRec (kept s3_lineb np ls).
Proof.
  intros np ls. unfold sRecsF. apply stops_kept; [| |reflexivity].
  - intros l c H. cbn [sRecs]. unfold slineRec. destruct (11 <=? List.length l) eqn:E; [|reflexivity].
    destruct (s3b_parse l H) as [H'|[r ->]]; [apply Nat.leb_le in E; lia|reflexivity].
  - intros l c H. cbn [sRecs].
    assert ((11 <=? List.length l) = true) as ->.
    { apply orb_false_iff in H. destruct H as [H1 _]. apply Nat.leb_le. apply Nat.ltb_ge in H1. exact H1. }
    destruct (sParse l) as [r|] eqn:E; [|reflexivity].
    apply sParse_lineb in E. congruence.
Qed.

Lemma srec_kept : forall np np' t lines, (0 < np)%nat -> (0 < np')%nat -> Forall no_eol lines ->
    forall r, s_parseFile_exec np (join (term_bytes t) lines) r
      <-> s_parseFile_exec np' (join (term_bytes t) (kept s3_lineb np lines)) r.
Proof.
  intros np np' t lines Hnp Hnp' He r. rewrite !s_parseFile_exec_iff by assumption.
  assert (Hk : Forall no_eol (kept s3_lineb np lines)).
  { apply Forall_forall. intros x Hx. rewrite Forall_forall in He. apply He. eapply kept_In, Hx. }
  rewrite !sFile_join by assumption. unfold sHexF. rewrite (sRecsF_kept np lines).
  assert (sRecsF np' (kept s3_lineb np lines) = flat_map slineRec (kept s3_lineb np lines)) as ->; [|reflexivity].
  rewrite <- (app_nil_r (kept s3_lineb np lines)) at 1. apply sRecsF_tail; [exact Hnp'| |constructor].
  eapply Forall_impl; [|apply kept_ok]. exact s3b_parse.
Qed.

(** ** Nothing but bytes of the file *)

Lemma s_calc_In : forall ds i0 af d a v, s_calc_loop i0 ds af = Ok d -> In (a, v) (fst d) -> List.length af = 8 ->
    exists i s x y z w, nth_error ds i = Some s /\ hexToByte s = Some v /\ hex_decode af = Some [x; y; z; w]
      /\ a = ((16777216 * x + 65536 * y + 256 * z + w + i0 + N.of_nat i) mod 4294967296)%N.
Proof.
  induction ds as [|s ds IH]; intros i0 af d a v H Hi Hl; cbn [s_calc_loop] in H.
  - inversion H; subst. contradiction.
  - destruct (hexToByte s) as [w0|] eqn:Es; [|inversion H; subst; contradiction].
    destruct (hex_decode af) as [bs|] eqn:Eb; [|inversion H; subst; contradiction].
    pose proof (hex_decode_length _ Eb) as L. rewrite Hl in L.
    destruct bs as [|x [|y [|z [|w [|q bs]]]]]; cbn [List.length] in L; try lia.
    cbn [be32 obind] in H.
    destruct (s_calc_loop (i0 + 1) ds af) as [rest| |] eqn:Er; try discriminate. cbn [obind] in H.
    inversion H; subst. cbn [fst] in Hi. destruct Hi as [Hi|Hi].
    + inversion Hi; subst. exists 0, s, x, y, z, w. split; [reflexivity|]. split; [exact Es|]. split; [reflexivity|].
      unfold u32. rewrite N.add_mod_idemp_r by lia. cbn [N.of_nat]. rewrite N.add_0_r. reflexivity.
    + destruct (IH _ _ _ _ _ Er Hi Hl) as (i & s' & x' & y' & z' & w' & H1 & H2 & H3 & H4).
      rewrite Eb in H3. inversion H3; subst. exists (S i), s', x', y', z', w'. split; [exact H1|]. split; [exact H2|].
      split; [reflexivity|]. f_equal. lia.
Qed.

Lemma srec_map_sound : forall np text, (0 < np)%nat ->
    always (s_parseFile_exec np text) (fun r => exists m e, r = Ok (m, e) /\
      forall a v, lookup a m = Some v ->
        exists l addr i p q, s3_byte l addr i v /\ a = ((addr + N.of_nat i) mod 4294967296)%N /\ text = p ++ l ++ q).
Proof.
  intros np text Hnp. apply s_always_iff; [exact Hnp|].
  exists (fst (sFileF np text)), (snd (sFileF np text)). split; [rewrite <- surjective_pairing; reflexivity|].
  intros a v H. apply lookup_In in H. unfold sFileF, sHexF in H.
  destruct (forallb s_csum_ok (sRecsF np (splitLines text))); [|contradiction].
  apply (store_all_nodup _ [] (NoDup_nil _)) in H. destruct H as [[]|H].
  apply in_flat_map in H. destruct H as (r & Hr & He).
  rewrite sRecsF_kept in Hr. apply in_flat_map in Hr. destruct Hr as (l & Hl & Hr).
  apply kept_In in Hl. unfold slineRec in Hr. destruct (11 <=? List.length l); [|contradiction].
  destruct (sParse l) as [r'|] eqn:Ep; [|contradiction]. destruct Hr as [<-|[]].
  pose proof (sParse_wf _ _ Ep) as [Wa _].
  unfold s_entries in He. destruct (s_calcDataEntries r') as [d| |] eqn:Ed; try contradiction.
  destruct (s_calc_In _ _ _ _ _ _ Ed He Wa) as (i & s & x & y & z & w & H1 & H2 & H3 & H4).
  destruct (join_splitLines text) as (t & Ht).
  apply in_split in Hl. destruct Hl as (A & C & El).
  destruct (join_mid t A l C) as (p & q & E).
  exists l, (16777216 * x + 65536 * y + 256 * z + w)%N, i, p, q.
  split; [|split; [rewrite H4; f_equal; lia|rewrite <- Ht, El; exact E]].
  destruct l as [|c0 [|t0 [|c1 [|c2 [|a1 [|a2 [|a3 [|a4 [|a5 [|a6 [|a7 [|a8 rest]]]]]]]]]]]]; try discriminate.
  cbn [sParse] in Ep. destruct (Ascii.eqb c0 s_beginLineToken && Ascii.eqb t0 "3"%char) eqn:Ec; [|discriminate].
  apply andb_true_iff in Ec. destruct Ec as [E0 E3]. apply Ascii.eqb_eq in E0, E3. subst c0 t0.
  inversion Ep; subst r'. cbn [s_data s_addressField] in *.
  destruct (dl_nth _ _ _ H1) as (pre & post & E1 & L1 & L2).
  exists c1, c2, [a1; a2; a3; a4; a5; a6; a7; a8], x, y, z, w, pre, s, post. rewrite <- E1.
  split; [reflexivity|]. split; [eapply hex_decode_any; [apply le_n|exact H3]|]. split; [reflexivity|].
  split; [exact L1|]. split; [apply hexToByte_any, H2|exact L2].
Qed.

(** ** Line ends, blank lines *)

Lemma slineRec_filter : forall lines,
    flat_map slineRec (filter (fun l => 11 <=? List.length l) lines) = flat_map slineRec lines.
Proof.
  induction lines as [|l lines IH]; [reflexivity|]. cbn [filter flat_map].
  destruct (11 <=? List.length l) eqn:E; cbn [flat_map]; [rewrite IH; reflexivity|].
  unfold slineRec at 2. rewrite E. exact IH.
Qed.

Lemma srec_layout : forall np1 np2 t1 t2 lines1 lines2 tail1 tail2, (0 < np1)%nat -> (0 < np2)%nat ->
    Forall no_eol lines1 -> Forall no_eol lines2 -> Forall s3_fine lines1 -> Forall s3_fine lines2 ->
    Forall not_s3 tail1 -> Forall not_s3 tail2 ->
    filter (fun l => 11 <=? List.length l) lines1 = filter (fun l => 11 <=? List.length l) lines2 ->
    forall r, s_parseFile_exec np1 (join (term_bytes t1) (lines1 ++ tail1)) r
      <-> s_parseFile_exec np2 (join (term_bytes t2) (lines2 ++ tail2)) r.
Proof.
  intros np1 np2 t1 t2 lines1 lines2 tail1 tail2 H1 H2 E1 E2 F1 F2 T1 T2 HF r.
  assert (G : forall np t lines tail, (0 < np)%nat -> Forall no_eol lines -> Forall s3_fine lines -> Forall not_s3 tail ->
            s_parseFile_exec np (join (term_bytes t) (lines ++ tail)) r <->
            r = Ok (if forallb s_csum_ok (flat_map slineRec lines)
                    then store_all [] (flat_map s_entries (flat_map slineRec lines)) else ([], Some EChecksum))).
  { intros np t lines tail Hnp He Hf Ht. rewrite s_parseFile_exec_iff by exact Hnp.
    rewrite sFile_join; [|apply Forall_app; split; [exact He|]|exact Hnp].
    - unfold sHexF. rewrite sRecsF_tail; [reflexivity|exact Hnp| |].
      + eapply Forall_impl; [|exact Hf]. intros l [H|H]; [left; exact H|right; apply shape_parse, H].
      + eapply Forall_impl; [|exact Ht]. apply not_s3_none.
    - eapply Forall_impl; [|exact Ht]. intros l [H _]. exact H. }
  rewrite !G by assumption. rewrite <- (slineRec_filter lines1), <- (slineRec_filter lines2), HF. reflexivity.
Qed.
