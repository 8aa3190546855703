(** The byte count plays no role (C13). *)
From Coq Require Import String Ascii List Arith NArith Bool Lia.
From Verif Require Import GoBase GoStrings GoBaseFacts ConcModel HexSpec IhexModel IhexOffsets IhexPhase2 IhexProofs IhexSpec IhexEnc IhexMain IhexLines IhexThm IhexRead
  SrecModel SrecSpec SrecProofs SrecThm CountSpec.
Import ListNotations.

(** ** Intel HEX *)

Definition uncounted (r : record) : record := Rec [] (addressField r) (recordType r) (data r) [] (offset r).

Lemma set_rec_map : forall l i r, map uncounted (set_rec l i r) = set_rec (map uncounted l) i (uncounted r).
Proof. intros l i r. unfold set_rec. rewrite map_app, firstn_map. cbn [map]. rewrite skipn_map. reflexivity. Qed.

Lemma offset_step_un : forall recs w, offset_step (map uncounted recs) w =
    (map uncounted (fst (offset_step recs w)), snd (offset_step recs w)).
Proof.
  intros recs w. unfold offset_step. rewrite nth_error_map.
  destruct (nth_error recs (ow_idx w)) as [r|]; cbn [option_map]; [|reflexivity].
  change (recordType (uncounted r)) with (recordType r). change (offset (uncounted r)) with (offset r).
  assert (E : forall o, set_offset (uncounted r) o = uncounted (set_offset r o)) by reflexivity.
  rewrite E, <- set_rec_map. repeat match goal with |- context [if ?c then _ else _] => destruct c end; reflexivity.
Qed.

Lemma walk_un : forall fuel recs w, walk fuel (map uncounted recs) w = map uncounted (walk fuel recs w).
Proof.
  induction fuel as [|fuel IH]; intros recs w; cbn [walk]; [reflexivity|].
  destruct (ow_done w); [reflexivity|]. rewrite offset_step_un. cbn [fst snd]. apply IH.
Qed.

Lemma offsF_un : forall np R, offsF np (map uncounted R) = map uncounted (offsF np R).
Proof.
  intros np R. unfold offsF. rewrite map_length. generalize (starts_of np (List.length R)). intros ss.
  generalize (S (S (List.length R))). intros n. revert R.
  induction ss as [|s ss IH]; intros R; cbn [fold_left]; [reflexivity|]. rewrite walk_un. apply IH.
Qed.

Lemma entries_un : forall l, flat_map entries (map uncounted l) = flat_map entries l.
Proof. induction l as [|r l IH]; [reflexivity|]. cbn [map flat_map]. rewrite IH. reflexivity. Qed.

(** Two lines give the same record up to count and checksum, or none. *)
Definition likeLine (l l' : bytes) : Prop :=
  (11 <=? List.length l) = (11 <=? List.length l')
  /\ option_map uncounted (parseLine l) = option_map uncounted (parseLine l')
  /\ option_map csum_ok (parseLine l) = option_map csum_ok (parseLine l').

Lemma likeLine_recs : forall ls ls', Forall2 likeLine ls ls' ->
    map uncounted (parseRecs ls) = map uncounted (parseRecs ls')
    /\ forallb csum_ok (parseRecs ls) = forallb csum_ok (parseRecs ls').
Proof.
  intros ls ls' H. induction H as [|l l' ls ls' (L & U & C) H IH]; [split; reflexivity|]. cbn [parseRecs].
  rewrite L. destruct (11 <=? List.length l'); [|exact IH].
  destruct (parseLine l), (parseLine l'); try discriminate U; [|split; reflexivity].
  cbn [option_map] in U, C. cbn [map forallb]. destruct IH as [I1 I2]. rewrite I1, I2.
  split; congruence.
Qed.

Lemma Forall2_firstn : forall A (P : A -> A -> Prop) n l l', Forall2 P l l' -> Forall2 P (firstn n l) (firstn n l').
Proof.
  intros A P n l l' H. revert n. induction H as [|x y l l' Hx H IH]; intros [|n]; cbn; constructor; auto.
Qed.
Lemma Forall2_skipn : forall A (P : A -> A -> Prop) n l l', Forall2 P l l' -> Forall2 P (skipn n l) (skipn n l').
Proof.
  intros A P n l l' H. revert n. induction H as [|x y l l' Hx H IH]; intros [|n]; cbn; auto; constructor; auto.
Qed.
Lemma Forall2_chunks : forall A (P : A -> A -> Prop) np l l', Forall2 P l l' ->
    Forall2 (Forall2 P) (chunks np l) (chunks np l').
Proof.
  intros A P np l l' H. unfold chunks. generalize (seq 0 np). intros s.
  induction s as [|i s IH]; cbn [map]; constructor; [|exact IH].
  unfold chunk. assert (E : List.length l = List.length l').
  { clear - H. induction H; cbn; congruence. }
  rewrite E. apply Forall2_firstn, Forall2_skipn, H.
Qed.

Lemma dl_end : forall n m k k', List.length m <= n -> List.length k = 2 -> List.length k' = 2 -> dl (m ++ k) = dl (m ++ k').
Proof.
  induction n as [|n IH]; intros m k k' L K K';
    destruct k as [|a [|a2 [|]]]; try discriminate K; destruct k' as [|a' [|a2' [|]]]; try discriminate K'.
  - destruct m; [reflexivity|cbn in L; lia].
  - destruct m as [|x [|y m]]; [reflexivity|reflexivity|]. cbn [app dl].
    assert (E : forall u v, exists p q, m ++ [u; v] = p :: q /\ exists p' q', q = p' :: q').
    { intros u v. destruct m as [|p [|p' m]]; cbn; eauto 6. }
    destruct (E a a2) as (p & q & E1 & p1 & q1 & ->). destruct (E a' a2') as (p' & q' & E2 & p2 & q2 & ->).
    rewrite E1, E2. f_equal. rewrite <- E1, <- E2. apply IH; [cbn in L; lia|reflexivity|reflexivity].
Qed.

Lemma recounted_len : forall h n good l l', recounted h n good l l' -> List.length l = List.length l'.
Proof.
  intros h n good l l' [->|(c & c' & mid & k & k' & -> & -> & C & C' & K & K' & _)]; [reflexivity|].
  rewrite !app_length. lia.
Qed.

Lemma good_sum_whole : forall l, good_sum l -> whole_bytes l.
Proof.
  intros l (tx & bs & -> & H & _). exists (List.length bs). cbn [List.length].
  assert (List.length tx = 2 * List.length bs); [|lia].
  clear - H. induction H as [|up v tx bs Hv H IH]; [reflexivity|]. rewrite app_length. cbn. lia.
Qed.

Lemma firstn_app_le : forall A n (x y : list A), n <= List.length x -> firstn n (x ++ y) = firstn n x.
Proof.
  intros A n x y H. rewrite firstn_app. replace (n - List.length x) with 0 by lia. cbn. apply app_nil_r.
Qed.

Lemma recounted_line : forall l l', recounted (b ":") imiddle good_sum l l' -> likeLine l l'.
Proof.
  intros l l' H. pose proof (recounted_len _ _ _ _ _ H) as EL.
  destruct H as [->|(c & c' & mid & k & k' & El & El' & C & C' & K & K' & L & G & G')]; [repeat split|].
  split; [rewrite EL; reflexivity|].
  pose proof (good_sum_whole _ G) as W. pose proof (good_sum_whole _ G') as W'.
  destruct c as [|c1 [|c2 [|]]]; try discriminate C. destruct c' as [|c1' [|c2' [|]]]; try discriminate C'.
  assert (L6 : 6 <= List.length mid).
  { revert L. unfold imiddle. destruct (beqb _ _); lia. }
  destruct mid as [|a1 [|a2 [|a3 [|a4 [|t1 [|t2 rest]]]]]]; try (cbn in L6; lia).
  unfold imiddle in L. change (firstn 2 (skipn 4 (a1 :: a2 :: a3 :: a4 :: t1 :: t2 :: rest))) with [t1; t2] in L.
  change (b ":") with [":"%char] in El, El'. cbn [app] in El, El'.
  assert (E : exists o, parseLine l = Some (mkrec c1 c2 a1 a2 a3 a4 t1 t2 (rest ++ k) o)
                     /\ parseLine l' = Some (mkrec c1' c2' a1 a2 a3 a4 t1 t2 (rest ++ k') o)).
  { rewrite El, El'. cbn [parseLine]. change (Ascii.eqb ":" beginLineToken) with true. rewrite !app_length, K, K'.
    replace (2 <=? List.length rest + 2) with true by (symmetry; apply Nat.leb_le; lia). cbn [andb].
    change extendedLinearAddressRecordToken with (b "04"). destruct (beqb [t1; t2] (b "04")).
    - cbn [List.length] in L. replace (4 <=? List.length rest + 2) with true by (symmetry; apply Nat.leb_le; lia).
      rewrite !firstn_app_le by lia. eauto.
    - eauto. }
  destruct E as (o & P & P'). split.
  - rewrite P, P'. cbn [option_map]. unfold uncounted, mkrec. cbn [addressField recordType data offset].
    rewrite (dl_end _ rest k k' (le_n _) K K'). reflexivity.
  - assert (S1 : csum_ok (mkrec c1 c2 a1 a2 a3 a4 t1 t2 (rest ++ k) o) = true) by (apply (line_csum _ _ W P), G).
    assert (S2 : csum_ok (mkrec c1' c2' a1 a2 a3 a4 t1 t2 (rest ++ k') o) = true) by (apply (line_csum _ _ W' P'), G').
    rewrite P, P'. cbn [option_map]. rewrite S1, S2. reflexivity.
Qed.

Lemma Forall2_flat : forall ch ch', Forall2 (Forall2 likeLine) ch ch' ->
    map uncounted (flat_map parseRecs ch) = map uncounted (flat_map parseRecs ch')
    /\ forallb csum_ok (flat_map parseRecs ch) = forallb csum_ok (flat_map parseRecs ch').
Proof.
  intros ch ch' H. induction H as [|c c' ch ch' Hc H [I1 I2]]; [split; reflexivity|]. cbn [flat_map].
  destruct (likeLine_recs c c' Hc) as [H1 H2]. rewrite !map_app, !forallb_app, I1, I2, H1, H2. split; reflexivity.
Qed.

Lemma parseHexF_like : forall np ls ls', Forall2 likeLine ls ls' -> parseHexF np ls = parseHexF np ls'.
Proof.
  intros np ls ls' H. unfold parseHexF, recsF.
  destruct (Forall2_flat _ _ (Forall2_chunks _ _ np _ _ H)) as [H1 H2]. rewrite H2.
  rewrite <- (entries_un (offsF np (flat_map parseRecs (chunks np ls)))), <- offsF_un, H1, offsF_un, entries_un.
  reflexivity.
Qed.

(** For any lines at all, any number of CPUs and any schedule. *)
Theorem C13_count_ignored : forall np t lines lines', (0 < np)%nat -> Forall no_eol lines -> Forall no_eol lines' ->
    Forall2 (recounted (b ":") imiddle good_sum) lines lines' ->
    forall r, parseFile_exec np (join (term_bytes t) lines) r <-> parseFile_exec np (join (term_bytes t) lines') r.
Proof.
  intros np t lines lines' Hnp He He' H r. rewrite !parseFile_exec_iff by exact Hnp.
  destruct lines as [|l lines]; [inversion H; subst; reflexivity|].
  assert (lines' <> []) by (inversion H; discriminate).
  rewrite !parseFile_join by (assumption || discriminate). rewrite (parseHexF_like np (l :: lines) lines'); [reflexivity|].
  clear - H. induction H as [|x y ls ls' Hx H IH]; constructor; [apply recounted_line, Hx|exact IH].
Qed.
Print Assumptions C13_count_ignored.

(** Counts 01 and FF, a count that is right, and a line that is no record. *)
Example C13_count_example : let l1 := [b ":0100000001FE"; b ":02000004ABCD82"; b "? garbage ?"] in
  let l2 := [b ":FF0000000100"; b ":00000004ABCD84"; b "? garbage ?"] in
  Forall no_eol l1 /\ Forall no_eol l2 /\ Forall2 (recounted (b ":") imiddle good_sum) l1 l2
  /\ parseFile_exec 1 (join [LF] l2) (Ok ([(0, 1)]%N, None)).
Proof.
  cbv zeta. split; [apply no_eolb_all; vm_compute; reflexivity|]. split; [apply no_eolb_all; vm_compute; reflexivity|].
  split.
  - assert (G : forall up l, Forall (fun v => v < 256)%N l -> (nsum l mod 256 = 0)%N -> good_sum (iline_of up l)).
    { intros up l Hl Hs. exists (hexs up l), l. split; [reflexivity|]. split; [apply hex_text_hexs, Hl|exact Hs]. }
    constructor; [|constructor; [|constructor; [left; reflexivity|constructor]]].
    + right. exists (b "01"), (b "FF"), (b "00000001"), (b "FE"), (b "00"). do 6 (split; [reflexivity|]).
      split; [apply Nat.leb_le; vm_compute; reflexivity|]. split.
      * apply (G true [1; 0; 0; 0; 1; 254]%N); [repeat constructor|reflexivity].
      * apply (G true [255; 0; 0; 0; 1; 0]%N); [repeat constructor|reflexivity].
    + right. exists (b "02"), (b "00"), (b "000004ABCD"), (b "82"), (b "84"). do 6 (split; [reflexivity|]).
      split; [apply Nat.leb_le; vm_compute; reflexivity|]. split.
      * apply (G true [2; 0; 0; 4; 171; 205; 130]%N); [repeat constructor|reflexivity].
      * apply (G true [0; 0; 0; 4; 171; 205; 132]%N); [repeat constructor|reflexivity].
  - apply parseFile_exec_iff; [lia|]. vm_compute. reflexivity.
Qed.

(** An extended linear address record with one data byte: its checksum EB is
    taken as the lower byte of the upper half. *)
Theorem C13_upper_half_refuted : exists np t l,
    good_sum l /\ l = b ":0100000410EB"
    /\ always (parseFile_exec np (join (term_bytes t) [l; b ":0100000001FE"]))
         (fun r => r = Ok ([(65536 * (256 * 16 + 235), 1)]%N, None)).
Proof.
  exists 1%nat, Unix, (b ":0100000410EB"). split.
  - exists (hexs true [1; 0; 0; 4; 16; 235]%N), [1; 0; 0; 4; 16; 235]%N. split; [reflexivity|].
    split; [apply hex_text_hexs; repeat constructor|reflexivity].
  - split; [reflexivity|]. apply run_is; vm_compute; reflexivity.
Qed.
Print Assumptions C13_upper_half_refuted.

(** ** S-records *)

Definition slikeLine (l l' : bytes) : Prop :=
  (11 <=? List.length l) = (11 <=? List.length l')
  /\ option_map s_entries (sParse l) = option_map s_entries (sParse l')
  /\ option_map s_csum_ok (sParse l) = option_map s_csum_ok (sParse l').

Lemma slikeLine_recs : forall ls ls', Forall2 slikeLine ls ls' ->
    flat_map s_entries (sRecs ls) = flat_map s_entries (sRecs ls')
    /\ forallb s_csum_ok (sRecs ls) = forallb s_csum_ok (sRecs ls').
Proof.
  intros ls ls' H. induction H as [|l l' ls ls' (L & U & C) H IH]; [split; reflexivity|]. cbn [sRecs].
  rewrite L. destruct (11 <=? List.length l'); [|exact IH].
  destruct (sParse l), (sParse l'); try discriminate U; [|split; reflexivity].
  cbn [option_map] in U, C. cbn [flat_map forallb]. destruct IH as [I1 I2]. rewrite I1, I2.
  split; congruence.
Qed.

Lemma s3_good_even : forall l, s3_good l -> Nat.Even (List.length l).
Proof.
  intros l (tx & bs & -> & H & _). exists (S (List.length bs)). cbn [List.length].
  assert (List.length tx = 2 * List.length bs); [|lia].
  clear - H. induction H as [|up v tx bs Hv H IH]; [reflexivity|]. rewrite app_length. cbn. lia.
Qed.

Lemma recounted_s3 : forall l l', recounted (b "S3") smiddle s3_good l l' -> slikeLine l l'.
Proof.
  intros l l' H. pose proof (recounted_len _ _ _ _ _ H) as EL.
  destruct H as [->|(c & c' & mid & k & k' & El & El' & C & C' & K & K' & L & G & G')]; [repeat split|].
  split; [rewrite EL; reflexivity|]. unfold smiddle in L.
  assert (Hs : forall x, l = x \/ l' = x -> s3_good x -> s3_shape x).
  { intros x Hx Gx. split; [destruct Hx; subst x; subst; reflexivity|]. split; [|apply s3_good_even, Gx].
    assert (E : List.length x = List.length l) by (destruct Hx; subst x; auto).
    rewrite E, El, !app_length. cbn [List.length b list_ascii_of_string]. lia. }
  pose proof (Hs l (or_introl eq_refl) G) as W. pose proof (Hs l' (or_intror eq_refl) G') as W'. clear Hs.
  destruct c as [|c1 [|c2 [|]]]; try discriminate C. destruct c' as [|c1' [|c2' [|]]]; try discriminate C'.
  destruct mid as [|a1 [|a2 [|a3 [|a4 [|a5 [|a6 [|a7 [|a8 rest]]]]]]]]; try (cbn in L; lia).
  change (b "S3") with ["S"%char; "3"%char] in El, El'. cbn [app] in El, El'.
  assert (P : sParse l = Some (SRec [c1; c2] [a1; a2; a3; a4; a5; a6; a7; a8] (b "3") (dl (rest ++ k)) (last2 l)))
    by (rewrite El; reflexivity).
  assert (P' : sParse l' = Some (SRec [c1'; c2'] [a1; a2; a3; a4; a5; a6; a7; a8] (b "3") (dl (rest ++ k')) (last2 l')))
    by (rewrite El'; reflexivity).
  split.
  - rewrite P, P'. cbn [option_map]. rewrite (dl_end _ rest k k' (le_n _) K K'). reflexivity.
  - pose proof (proj2 (shape_csum _ _ W P) G) as S1. pose proof (proj2 (shape_csum _ _ W' P') G') as S2.
    rewrite P, P'. cbn [option_map]. rewrite S1, S2. reflexivity.
Qed.

Lemma sHexF_like : forall np ls ls', Forall2 slikeLine ls ls' -> sHexF np ls = sHexF np ls'.
Proof.
  intros np ls ls' H. unfold sHexF, sRecsF.
  assert (E : flat_map s_entries (flat_map sRecs (chunks np ls)) = flat_map s_entries (flat_map sRecs (chunks np ls'))
              /\ forallb s_csum_ok (flat_map sRecs (chunks np ls)) = forallb s_csum_ok (flat_map sRecs (chunks np ls'))).
  { pose proof (Forall2_chunks _ _ np _ _ H) as F. clear H.
    induction F as [|c c' ch ch' Hc F [I1 I2]]; [split; reflexivity|]. cbn [flat_map].
    destruct (slikeLine_recs c c' Hc) as [H1 H2]. rewrite !flat_map_app, !forallb_app, I1, I2, H1, H2. split; reflexivity. }
  destruct E as [-> ->]. reflexivity.
Qed.

Theorem C13_srec_count_ignored : forall np t lines lines', (0 < np)%nat -> Forall no_eol lines -> Forall no_eol lines' ->
    Forall2 (recounted (b "S3") smiddle s3_good) lines lines' ->
    forall r, s_parseFile_exec np (join (term_bytes t) lines) r <-> s_parseFile_exec np (join (term_bytes t) lines') r.
Proof.
  intros np t lines lines' Hnp He He' H r. rewrite !s_parseFile_exec_iff by exact Hnp.
  destruct lines as [|l lines]; [inversion H; subst; reflexivity|].
  assert (lines' <> []) by (inversion H; discriminate). unfold sFileF.
  rewrite !splitLines_join by (assumption || discriminate). rewrite (sHexF_like np (l :: lines) lines'); [reflexivity|].
  clear - H. induction H as [|x y ls ls' Hx H IH]; constructor; [apply recounted_s3, Hx|exact IH].
Qed.
Print Assumptions C13_srec_count_ignored.

Example C13_srec_count_example : let l1 := [b "S306000000100ADF"] in let l2 := [b "S300000000100AE5"] in
  Forall no_eol l1 /\ Forall no_eol l2 /\ Forall2 (recounted (b "S3") smiddle s3_good) l1 l2
  /\ s_parseFile_exec 1 (join [LF] l2) (Ok ([(16, 10)]%N, None)).
Proof.
  cbv zeta. split; [apply no_eolb_all; vm_compute; reflexivity|]. split; [apply no_eolb_all; vm_compute; reflexivity|].
  split.
  - assert (G : forall up l, Forall (fun v => v < 256)%N l -> (nsum l mod 256 = 255)%N -> s3_good (s3line_of up l)).
    { intros up l Hl Hs. exists (hexs up l), l. split; [reflexivity|]. split; [apply hex_text_hexs, Hl|exact Hs]. }
    constructor; [|constructor].
    right. exists (b "06"), (b "00"), (b "000000100A"), (b "DF"), (b "E5"). do 6 (split; [reflexivity|]).
    split; [apply Nat.leb_le; vm_compute; reflexivity|]. split.
    + apply (G true [6; 0; 0; 0; 16; 10; 223]%N); [repeat constructor|reflexivity].
    + apply (G true [0; 0; 0; 0; 16; 10; 229]%N); [repeat constructor|reflexivity].
  - apply s_parseFile_exec_iff; [lia|]. vm_compute. reflexivity.
Qed.
