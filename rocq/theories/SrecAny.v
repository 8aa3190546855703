(** What is read from an S-record file with any content. *)
From Coq Require Import String Ascii List Arith NArith Bool Lia.
From Verif Require Import GoBase GoBaseFacts GoStrings ConcModel ConcProofs HexSpec HexSpecFacts HexParts IhexSpec
  IhexModel IhexProofs IhexEnc IhexMain IhexThm SrecSpec SrecModel SrecProofs SrecThm CountProps AnySpec IhexAny.
Import ListNotations.

Lemma s_third_last : forall l, Nat.even (List.length l) = false -> 12 <= List.length l ->
    exists p c k, l = p ++ c :: k /\ List.length k = 2 /\ s_whole l = p ++ k.
Proof.
  intros l H L. unfold s_whole. rewrite H. unfold without_third_last.
  exists (firstn (List.length l - 3) l). destruct (skipn (List.length l - 3) l) as [|c k] eqn:E.
  - apply (f_equal (@List.length _)) in E. rewrite skipn_length in E. cbn in E. lia.
  - exists c, k. split; [rewrite <- E, firstn_skipn; reflexivity|].
    assert (K : List.length (c :: k) = 3) by (rewrite <- E, skipn_length; lia). split; [cbn in K; lia|].
    f_equal. replace (List.length l - 2) with (1 + (List.length l - 3)) by lia.
    rewrite <- (firstn_skipn (List.length l - 3) l) at 2. rewrite E.
    rewrite skipn_app, firstn_length_le by lia.
    rewrite skipn_all2 by (rewrite firstn_length_le; lia).
    replace (1 + (List.length l - 3) - (List.length l - 3)) with 1 by lia. reflexivity.
Qed.

Lemma s_parse_prefix : forall l r, sParse l = Some r -> firstn 2 l = b "S3".
Proof.
  intros l r H. unfold sParse in H.
  destruct l as [|c0 [|t [|c1 [|c2 [|a1 [|a2 [|a3 [|a4 [|a5 [|a6 [|a7 [|a8 rest]]]]]]]]]]]]; try discriminate H.
  destruct (Ascii.eqb c0 s_beginLineToken && Ascii.eqb t "3"%char) eqn:E; [|discriminate H].
  apply andb_true_iff in E. destruct E as [E1 E2]. apply Ascii.eqb_eq in E1, E2. subst. reflexivity.
Qed.

Lemma s_whole_parse : forall l r, sParse l = Some r -> 14 <= List.length l ->
    sParse (s_whole l) = Some r /\ s3_shape (s_whole l).
Proof.
  intros l r H L. destruct (Nat.even (List.length l)) eqn:O.
  - unfold s_whole. rewrite O. split; [exact H|]. split; [eapply s_parse_prefix, H|]. split; [exact L|].
    apply Nat.even_spec, O.
  - destruct (s_third_last l O ltac:(lia)) as (p & c & k & E & K & W). rewrite W.
    assert (Lp : List.length l = List.length p + 3) by (rewrite E, app_length; cbn; lia).
    assert (L15 : List.length l <> 14) by (intros X; rewrite X in O; discriminate O).
    destruct p as [|c0 [|t [|c1 [|c2 [|a1 [|a2 [|a3 [|a4 [|a5 [|a6 [|a7 [|a8 p]]]]]]]]]]]]; cbn [List.length] in Lp; try lia.
    assert (Ev : Nat.even (List.length p) = true).
    { rewrite Lp in O. rewrite <- Nat.negb_odd in O. apply negb_false_iff in O.
      replace (S (S (S (S (S (S (S (S (S (S (S (S (List.length p)))))))))))) + 3) with (15 + List.length p) in O by lia.
      rewrite Nat.odd_add in O. rewrite <- (Nat.negb_even (List.length p)) in O.
      destruct (Nat.even (List.length p)); [reflexivity|discriminate O]. }
    assert (Ep : sParse (s_whole l) = Some r).
    { rewrite W, <- H, E. cbn [app sParse]. destruct (Ascii.eqb c0 s_beginLineToken && Ascii.eqb t "3"%char); [|reflexivity].
      f_equal. rewrite (dl_stray _ p c k (le_n _) Ev K). f_equal.
      change (c0 :: t :: c1 :: c2 :: a1 :: a2 :: a3 :: a4 :: a5 :: a6 :: a7 :: a8 :: p ++ k)
        with ((c0 :: t :: c1 :: c2 :: a1 :: a2 :: a3 :: a4 :: a5 :: a6 :: a7 :: a8 :: p) ++ k).
      change (c0 :: t :: c1 :: c2 :: a1 :: a2 :: a3 :: a4 :: a5 :: a6 :: a7 :: a8 :: p ++ c :: k)
        with ((c0 :: t :: c1 :: c2 :: a1 :: a2 :: a3 :: a4 :: a5 :: a6 :: a7 :: a8 :: p) ++ [c] ++ k).
      rewrite app_assoc, !last2_app by exact K. reflexivity. }
    rewrite W in Ep. split; [exact Ep|]. split; [exact (s_parse_prefix _ _ Ep)|].
    rewrite app_length, K. cbn [List.length]. split; [lia|]. apply Nat.even_spec.
    replace (S (S (S (S (S (S (S (S (S (S (S (S (List.length p)))))))))))) + 2) with (14 + List.length p) by lia.
    rewrite Nat.even_add, Ev. reflexivity.
Qed.

Lemma s_csum_adds_up : forall l r, sParse l = Some r -> 14 <= List.length l -> (s_csum_ok r = true <-> s_adds_up l).
Proof.
  intros l r H L. destruct (s_whole_parse l r H L) as [P W]. rewrite (shape_csum _ _ W P).
  unfold s_adds_up, s_says, s3_good. split.
  - intros (tx & bs & E & H1 & H2). exists bs. split; [exists tx; auto|exact H2].
  - intros (bs & (tx & E & H1) & H2). exists tx, bs. auto.
Qed.

Lemma s_calc_text : forall ds bs i addr x y z w, Forall2 (fun s v => hexToByte s = Some v) ds bs ->
    hex_decode addr = Some [x; y; z; w] ->
    s_calc_loop i ds addr = Ok (round32 (16777216 * x + 65536 * y + 256 * z + w + i) bs, false).
Proof.
  intros ds bs i addr x y z w Hb Hd. revert i.
  induction Hb as [|s v ds bs Hv Hbs IH]; intros i; [reflexivity|].
  cbn [s_calc_loop]. rewrite Hv, Hd. cbn [be32 obind]. rewrite IH. cbn [obind fst snd round32].
  unfold u32. rewrite N.add_mod_idemp_r by lia. rewrite N.add_assoc. reflexivity.
Qed.

Lemma s_says_puts : forall l r bs, sParse l = Some r -> 14 <= List.length l -> s_says l bs ->
    s_entries r = s3_puts bs.
Proof.
  intros l r bs H L (tx & E & Ht). destruct (s_whole_parse l r H L) as [P (_ & L14 & _)]. rewrite E in P, L14.
  pose proof (hex_text_len _ _ Ht) as Lt. cbn [List.length] in L14. clear H L E l.
  destruct bs as [|n [|x [|y [|z [|w rest]]]]]; cbn [List.length] in Lt; try lia.
  inversion Ht as [|un ? tx1 ? Hn Ht1 E1 E2]; subst. inversion Ht1 as [|ux ? tx2 ? Hx Ht2 E1 E2]; subst.
  inversion Ht2 as [|uy ? tx3 ? Hy Ht3 E1 E2]; subst. inversion Ht3 as [|uz ? tx4 ? Hz Ht4 E1 E2]; subst.
  inversion Ht4 as [|uw ? rt ? Hw Hr E1 E2]; subst.
  assert (HA : hex_decode (hex2 ux x ++ hex2 uy y ++ hex2 uz z ++ hex2 uw w) = Some [x; y; z; w]).
  { apply hex_text_decode. rewrite <- (app_nil_r (hex2 uw w)). repeat (constructor; [assumption|]). constructor. }
  cbn [app hex2 sParse] in P. change (Ascii.eqb "S" s_beginLineToken && Ascii.eqb "3" "3") with true in P. cbv iota in P.
  unfold s_entries. set (r0 := SRec _ _ _ _ _) in P. assert (r = r0) by congruence. subst r. unfold r0. clear P r0.
  unfold s_calcDataEntries. cbn [s_data s_addressField].
  match goal with |- context [s_calc_loop _ _ ?a] => change a with (hex2 ux x ++ hex2 uy y ++ hex2 uz z ++ hex2 uw w) end.
  rewrite (s_calc_text _ (removelast rest) 0 _ x y z w); [|apply dl_text, Hr|exact HA]. cbn [fst s3_puts].
  rewrite N.add_0_r. reflexivity.
Qed.

(** ** Files *)

Lemma s_read_recs : forall np ls, Forall2 (fun l r => sParse l = Some r) (s_read_lines np ls) (sRecsF np ls).
Proof.
  intros np ls. rewrite sRecsF_kept. unfold s_read_lines.
  assert (F : Forall (fun l => s3_lineb l = true) (kept s3_lineb np ls)) by apply kept_ok.
  induction F as [|l ls' Hl F IH]; [constructor|]. cbn [filter flat_map]. unfold long at 1, slineRec at 1.
  destruct (11 <=? List.length l) eqn:E; [|exact IH].
  destruct (s3b_parse l Hl) as [H|[r H]]; [apply Nat.leb_le in E; lia|]. rewrite H. constructor; [exact H|exact IH].
Qed.

Lemma s_all_add_up : forall K recs, Forall2 (fun l r => sParse l = Some r) K recs ->
    Forall (fun l => 14 <= List.length l) K -> (forallb s_csum_ok recs = true <-> Forall s_adds_up K).
Proof.
  intros K recs H. induction H as [|l r K recs Hl H IH]; intros L; [split; [constructor|reflexivity]|].
  inversion L; subst. cbn [forallb]. rewrite andb_true_iff, IH by assumption. rewrite (s_csum_adds_up l r Hl) by assumption. split.
  - intros [? ?]. constructor; assumption.
  - intros X. inversion X; auto.
Qed.

Lemma s_any_checksum : forall np text lines, (0 < np)%nat -> lines_of text lines ->
    Forall (fun l => 14 <= List.length l) (s_read_lines np lines) -> ~ Forall s_adds_up (s_read_lines np lines) ->
    always (s_parseFile_exec np text) (fun r => r = Ok ([], Some EChecksum)).
Proof.
  intros np text lines Hnp HL H14 HN. apply s_always_iff; [exact Hnp|]. unfold sFileF. rewrite (lines_split _ _ HL).
  unfold sHexF. pose proof (s_read_recs np lines) as F.
  destruct (forallb s_csum_ok (sRecsF np lines)) eqn:E; [|reflexivity]. apply (s_all_add_up _ _ F H14) in E. contradiction.
Qed.

Lemma s_any_read : forall np text lines bss, (0 < np)%nat -> lines_of text lines ->
    Forall (fun l => 14 <= List.length l) (s_read_lines np lines) ->
    Forall2 s_says (s_read_lines np lines) bss -> Forall (fun bs => nsum bs mod 256 = 255)%N bss ->
    let img := flat_map s3_puts bss in
    always (s_parseFile_exec np text)
      (fun r => (NoDup (map fst img) -> exists m, r = Ok (m, None) /\ map_is m img)
        /\ (~ NoDup (map fst img) -> exists m a v0 v pre post, r = Ok (m, Some (ECollision a v0 v))
              /\ img = pre ++ (a, v) :: post /\ In (a, v0) pre /\ map_is m pre)).
Proof.
  intros np text lines bss Hnp HL H14 Hs Hz img.
  pose proof (s_read_recs np lines) as F. set (K := s_read_lines np lines) in *. set (recs := sRecsF np lines) in *.
  assert (A : Forall s_adds_up K).
  { clear F H14. revert Hz. induction Hs as [|l bs K bss Hl Hs IH]; intros Hz; [constructor|].
    inversion Hz; subst. constructor; [|apply IH; assumption]. exists bs. auto. }
  assert (W : flat_map s_entries recs = img).
  { subst img. clear Hz A. clearbody K recs. revert bss Hs H14. induction F as [|l r K recs Hl F IH]; intros bss Hs H14.
    - inversion Hs. reflexivity.
    - inversion Hs as [|? bs ? bss' Hb Hs' E1 E2]; subst. inversion H14; subst. cbn [flat_map].
      rewrite (IH bss') by assumption. rewrite (s_says_puts l r bs) by assumption. reflexivity. }
  apply s_always_iff; [exact Hnp|]. unfold sFileF. rewrite (lines_split _ _ HL).
  unfold sHexF. fold recs. rewrite (proj2 (s_all_add_up _ _ F H14) A), W. split.
  - intros Hn. rewrite store_all_ok; [|exact Hn|intros a _ []]. eexists. split; [reflexivity|].
    apply map_is_rev, Hn.
  - intros Hn. destruct (store_all_clash _ Hn) as (m & a & v0 & v & pre & post & E & H).
    rewrite E. exists m, a, v0, v, pre, post. split; [reflexivity|exact H].
Qed.
