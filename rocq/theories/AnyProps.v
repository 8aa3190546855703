(** Files with any content (C81, C82). *)
From Coq Require Import String Ascii List Arith NArith Bool Lia.
From Verif Require Import GoBase GoBaseFacts GoStrings ConcModel HexSpec HexSpecFacts IhexSpec IhexModel IhexOffsets IhexPhase2 IhexProofs IhexEnc IhexMain IhexLines
  IhexThm IhexRead SrecSpec SrecModel SrecProofs SrecThm CountProps AnySpec IhexAny SrecAny.
Import ListNotations.

Lemma F2_impl : forall A B (P Q : A -> B -> Prop) l l', (forall x y, P x y -> Q x y) -> Forall2 P l l' -> Forall2 Q l l'.
Proof. intros A B P Q l l' H F. induction F; constructor; auto. Qed.

(** ** C81 Intel HEX *)

(** Every text has its lines, and no others. *)
Theorem C81_lines : forall text, exists lines, lines_of text lines /\ forall lines', lines_of text lines' -> lines' = lines.
Proof.
  intros text. destruct (lines_of_exist text) as [lines H]. exists lines. split; [exact H|].
  intros lines' H'. rewrite <- (lines_split _ _ H), <- (lines_split _ _ H'). reflexivity.
Qed.
Print Assumptions C81_lines.

(** The file is refused for its checksums exactly if the bytes of some line that
    is read do not add up (or are no bytes). *)
Theorem C81_checksum : forall np text lines, (0 < np)%nat -> lines_of text lines ->
    ~ Forall adds_up (read_lines np lines) ->
    always (parseFile_exec np text) (fun r => r = Ok ([], Some EChecksum)).
Proof. exact any_checksum. Qed.
Print Assumptions C81_checksum.

(** Otherwise exactly the bytes of these lines are read. *)
Theorem C81_as_read : forall np text lines bss, (0 < np)%nat -> lines_of text lines ->
    Forall (fun l => line_type l = b "04" -> List.length l <> 14) (read_lines np lines) ->
    Forall2 says (read_lines np lines) bss -> Forall (fun bs => nsum bs mod 256 = 0)%N bss ->
    exists img, image_read np (map irec_of bss) img
    /\ (forall img', image_read np (map irec_of bss) img' -> img' = img)
    /\ always (parseFile_exec np text)
        (fun r => (NoDup (map fst img) -> exists m, r = Ok (m, None) /\ map_is m img)
          /\ (~ NoDup (map fst img) -> exists m a v0 v pre post, r = Ok (m, Some (ECollision a v0 v))
                /\ img = pre ++ (a, v) :: post /\ In (a, v0) pre /\ map_is m pre)).
Proof.
  intros np text lines bss Hnp HL H14 Hs Hz. destruct (any_read np text lines bss Hnp HL H14 Hs Hz) as (img & HI & H).
  exists img. split; [exact HI|]. split; [|exact H]. intros img' HI'. exact (image_read_unique _ _ _ _ HI' HI).
Qed.
Print Assumptions C81_as_read.

(** Either of the two holds. *)
Theorem C81_either : forall np lines, Forall adds_up (read_lines np lines) \/ ~ Forall adds_up (read_lines np lines).
Proof.
  intros np lines. destruct (read_recs np lines) as (recs & _ & F).
  destruct (forallb csum_ok recs) eqn:E; [left; apply (all_add_up _ _ F), E|right].
  intros H. apply (all_add_up _ _ F) in H. congruence.
Qed.
Print Assumptions C81_either.

(** A character that belongs to no byte is ignored, whatever it is. *)
Lemma stray_line : forall l l', same_but_stray before_stray l l' -> likeLine l l'.
Proof.
  intros l l' [->|(p & c & c' & k & El & El' & K & O & L & L4)]; [repeat split|].
  assert (E : List.length l = List.length p + 3) by (rewrite El, app_length; cbn; lia).
  assert (E' : List.length l' = List.length p + 3) by (rewrite El', app_length; cbn; lia).
  split; [rewrite E, E'; reflexivity|].
  assert (T : line_type l = line_type p /\ line_type l' = line_type p).
  { rewrite El, El'. destruct p as [|c0 [|c1 [|c2 [|a1 [|a2 [|a3 [|a4 [|t1 [|t2 p]]]]]]]]]; cbn [List.length] in L; try lia.
    split; reflexivity. }
  destruct T as [T T'].
  assert (Ev : Nat.odd (List.length p + 3) = false).
  { rewrite Nat.odd_add, O. reflexivity. }
  assert (W : whole l = whole l').
  { assert (G : forall x d, x = p ++ d :: k -> whole x = p ++ k).
    { intros x d ->. unfold whole, without_third_last.
      assert (X : List.length (p ++ d :: k) = List.length p + 3) by (rewrite app_length; cbn; lia).
      rewrite X, Ev. replace (List.length p + 3 - 3) with (List.length p) by lia.
      replace (List.length p + 3 - 2) with (List.length p + 1) by lia.
      rewrite firstn_app, Nat.sub_diag, firstn_all, app_nil_r. f_equal.
      rewrite skipn_app, skipn_all2 by lia. replace (List.length p + 1 - List.length p) with 1 by lia. reflexivity. }
    rewrite (G l c El), (G l' c' El'). reflexivity. }
  assert (P : parseLine l = parseLine l').
  { destruct (parseLine l) as [r|] eqn:P; destruct (parseLine l') as [r'|] eqn:P'; [| | |reflexivity].
    - destruct (whole_parse l r P) as (x & X & _ & _ & _ & _ & _ & Y & _).
      destruct (whole_parse l' r' P') as (x' & X' & _ & _ & _ & _ & _ & Y' & _).
      rewrite Y in X; [|intros Z; rewrite T in Z; specialize (L4 Z); lia].
      rewrite Y' in X'; [|intros Z; rewrite T' in Z; specialize (L4 Z); lia]. congruence.
    - exfalso. destruct (record_line_parse l') as [r' R]; [|congruence]. apply parse_record_line in P.
      destruct P as (H1 & H2 & H3). split; [|rewrite E', <- E; split; [exact H2|rewrite T', <- T; exact H3]].
      rewrite <- H1, El, El'. destruct p; [cbn in L; lia|reflexivity].
    - exfalso. destruct (record_line_parse l) as [r R]; [|congruence]. apply parse_record_line in P'.
      destruct P' as (H1 & H2 & H3). split; [|rewrite E, <- E'; split; [exact H2|rewrite T, <- T'; exact H3]].
      rewrite <- H1, El, El'. destruct p; [cbn in L; lia|reflexivity]. }
  rewrite P. split; reflexivity.
Qed.

Theorem C81_stray_ignored : forall np text text' lines lines', (0 < np)%nat -> lines_of text lines -> lines_of text' lines' ->
    Forall2 (same_but_stray before_stray) lines lines' ->
    forall r, parseFile_exec np text r <-> parseFile_exec np text' r.
Proof.
  intros np text text' lines lines' Hnp HL HL' H r. rewrite !parseFile_exec_iff by exact Hnp.
  unfold parseFileF. rewrite (lines_split _ _ HL), (lines_split _ _ HL').
  rewrite (parseHexF_like np lines lines'); [reflexivity|].
  eapply F2_impl; [exact stray_line|exact H].
Qed.
Print Assumptions C81_stray_ignored.

(** So a file can be accepted although it has characters that are no digits. *)
Theorem C81_stray_refuted : exists np l, l = b ":0100000001?FE" /\ read_lines np [l] = [l]
    /\ (forall tx bs, l = ":"%char :: tx -> ~ hex_text tx bs)
    /\ always (parseFile_exec np l) (fun r => r = Ok ([(0, 1)]%N, None)).
Proof.
  exists 1%nat, (b ":0100000001?FE"). split; [reflexivity|]. split; [reflexivity|]. split.
  - intros tx bs E H. apply hex_text_len in H. assert (tx = b "0100000001?FE") by (vm_compute in E |- *; congruence).
    subst tx. cbn in H. lia.
  - apply run_is; vm_compute; reflexivity.
Qed.
Print Assumptions C81_stray_refuted.

(** In an address line of that kind with a single byte the upper half ends with
    the character that belongs to no byte and the first digit of the checksum. *)
Theorem C81_upper_half_refuted : exists np l l', l = b ":0000000480F7C" /\ l' = b ":000000048027C"
    /\ whole l = whole l' /\ adds_up l
    /\ always (parseFile_exec np (join [LF] [l; b ":0100000001FE"])) (fun r => r = Ok ([(65536 * 33015, 1)]%N, None))
    /\ always (parseFile_exec np (join [LF] [l'; b ":0100000001FE"])) (fun r => r = Ok ([(65536 * 32807, 1)]%N, None)).
Proof.
  exists 1%nat, (b ":0000000480F7C"), (b ":000000048027C"). split; [reflexivity|]. split; [reflexivity|]. split; [reflexivity|].
  split.
  - exists [0; 0; 0; 4; 128; 124]%N. split; [|reflexivity]. exists (hexs true [0; 0; 0; 4; 128; 124]%N). split; [reflexivity|].
    apply hex_text_hexs; repeat constructor.
  - split; apply run_is; vm_compute; reflexivity.
Qed.
Print Assumptions C81_upper_half_refuted.

(** A file with a short line, an address record, two data records (one with a
    stray character and a wrong byte count) and an end record. *)
Definition any_lines : list bytes :=
  [b ":0200000480007A"; b "; none"; b ":02001000aabb89"; b ":070000000102XF6"; b ":00000001FF"].
Definition any_said : list (list N) :=
  [[2; 0; 0; 4; 128; 0; 122]; [2; 0; 16; 0; 170; 187; 137]; [7; 0; 0; 0; 1; 2; 246]; [0; 0; 0; 1; 255]]%N.

Example C81_example :
  lines_of (join [LF] any_lines) any_lines
  /\ Forall (fun l => line_type l = b "04" -> List.length l <> 14) (read_lines 2 any_lines)
  /\ Forall2 says (read_lines 2 any_lines) any_said /\ Forall (fun bs => nsum bs mod 256 = 0)%N any_said
  /\ map irec_of any_said = [IEla 32768; IData 16 [170; 187]; IData 0 [1; 2]; IOther 1 0 []]%N
  /\ always (parseFile_exec 2 (join [LF] any_lines))
       (fun r => r = Ok ([(2147483649, 2); (2147483648, 1); (2147483665, 187); (2147483664, 170)]%N, None)).
Proof.
  split.
  { split; [discriminate|]. right. split; [|split; [reflexivity|]].
    - intros (p & q & E). assert (H : In CR (join [LF] any_lines)) by (rewrite E; apply in_or_app; right; left; reflexivity).
      revert H. vm_compute. intuition discriminate.
    - unfold any_lines. repeat (constructor; [vm_compute; intuition discriminate|]). constructor. }
  split.
  { change (read_lines 2 any_lines) with [b ":0200000480007A"; b ":02001000aabb89"; b ":070000000102XF6"; b ":00000001FF"].
    repeat (constructor; [intros _; cbn; lia|]). constructor. }
  split.
  { change (read_lines 2 any_lines) with [b ":0200000480007A"; b ":02001000aabb89"; b ":070000000102XF6"; b ":00000001FF"].
    unfold any_said. repeat match goal with |- Forall2 _ (_ :: _) (?bs :: _) =>
      constructor; [first [exists (hexs true bs); split; [reflexivity|apply hex_text_hexs; repeat constructor]
                          |exists (hexs false bs); split; [reflexivity|apply hex_text_hexs; repeat constructor]]|] end.
    constructor. }
  split; [repeat (constructor; [reflexivity|]); constructor|]. split; [reflexivity|].
  apply run_is; vm_compute; reflexivity.
Qed.

(** One changed digit. *)
Example C81_checksum_example :
  ~ Forall adds_up (read_lines 2 [b ":02001000aabb89"; b ":070000000103XF6"])
  /\ lines_of (join [LF] [b ":02001000aabb89"; b ":070000000103XF6"]) [b ":02001000aabb89"; b ":070000000103XF6"].
Proof.
  split.
  - intros H. change (read_lines 2 _) with [b ":02001000aabb89"; b ":070000000103XF6"] in H.
    inversion H as [|? ? _ H1]; subst. inversion H1 as [|? ? H2 _]; subst.
    destruct (parseLine (b ":070000000103XF6")) as [r|] eqn:E; [|vm_compute in E; discriminate E].
    apply (csum_adds_up _ r E) in H2. vm_compute in E. inversion E; subst r. vm_compute in H2. discriminate H2.
  - split; [discriminate|]. right. split; [|split; [reflexivity|]].
    + intros (p & q & E). assert (H : In CR (join [LF] [b ":02001000aabb89"; b ":070000000103XF6"]))
        by (rewrite E; apply in_or_app; right; left; reflexivity).
      revert H. vm_compute. intuition discriminate.
    + repeat (constructor; [vm_compute; intuition discriminate|]). constructor.
Qed.

(** ** C82 S-records *)

Theorem C82_checksum : forall np text lines, (0 < np)%nat -> lines_of text lines ->
    Forall (fun l => 14 <= List.length l) (s_read_lines np lines) -> ~ Forall s_adds_up (s_read_lines np lines) ->
    always (s_parseFile_exec np text) (fun r => r = Ok ([], Some EChecksum)).
Proof. exact s_any_checksum. Qed.
Print Assumptions C82_checksum.

Theorem C82_as_read : forall np text lines bss, (0 < np)%nat -> lines_of text lines ->
    Forall (fun l => 14 <= List.length l) (s_read_lines np lines) ->
    Forall2 s_says (s_read_lines np lines) bss -> Forall (fun bs => nsum bs mod 256 = 255)%N bss ->
    let img := flat_map s3_puts bss in
    always (s_parseFile_exec np text)
      (fun r => (NoDup (map fst img) -> exists m, r = Ok (m, None) /\ map_is m img)
        /\ (~ NoDup (map fst img) -> exists m a v0 v pre post, r = Ok (m, Some (ECollision a v0 v))
              /\ img = pre ++ (a, v) :: post /\ In (a, v0) pre /\ map_is m pre)).
Proof. exact s_any_read. Qed.
Print Assumptions C82_as_read.

Theorem C82_either : forall np lines, Forall (fun l => 14 <= List.length l) (s_read_lines np lines) ->
    Forall s_adds_up (s_read_lines np lines) \/ ~ Forall s_adds_up (s_read_lines np lines).
Proof.
  intros np lines L. pose proof (s_read_recs np lines) as F.
  destruct (forallb s_csum_ok (sRecsF np lines)) eqn:E; [left; apply (s_all_add_up _ _ F L), E|right].
  intros H. apply (s_all_add_up _ _ F L) in H. congruence.
Qed.
Print Assumptions C82_either.

Lemma s_stray_line : forall l l', same_but_stray s_before_stray l l' -> slikeLine l l'.
Proof.
  intros l l' [->|(p & c & c' & k & El & El' & K & O & L)]; [repeat split|].
  assert (E : List.length l = List.length p + 3) by (rewrite El, app_length; cbn; lia).
  assert (E' : List.length l' = List.length p + 3) by (rewrite El', app_length; cbn; lia).
  split; [rewrite E, E'; reflexivity|].
  assert (P : sParse l = sParse l').
  { rewrite El, El'.
    destruct p as [|c0 [|t [|c1 [|c2 [|a1 [|a2 [|a3 [|a4 [|a5 [|a6 [|a7 [|a8 p]]]]]]]]]]]]; cbn [List.length] in L; try lia.
    assert (Ev : Nat.even (List.length p) = true) by exact O.
    cbn [app sParse]. destruct (Ascii.eqb c0 s_beginLineToken && Ascii.eqb t "3"%char); [|reflexivity].
    f_equal. rewrite (dl_stray _ p c k (le_n _) Ev K), (dl_stray _ p c' k (le_n _) Ev K). f_equal.
    set (q := c0 :: t :: c1 :: c2 :: a1 :: a2 :: a3 :: a4 :: a5 :: a6 :: a7 :: a8 :: p).
    change (last2 (q ++ c :: k) = last2 (q ++ c' :: k)).
    change (last2 (q ++ [c] ++ k) = last2 (q ++ [c'] ++ k)). rewrite !app_assoc, !last2_app by exact K. reflexivity. }
  rewrite P. split; reflexivity.
Qed.

Theorem C82_stray_ignored : forall np text text' lines lines', (0 < np)%nat -> lines_of text lines -> lines_of text' lines' ->
    Forall2 (same_but_stray s_before_stray) lines lines' ->
    forall r, s_parseFile_exec np text r <-> s_parseFile_exec np text' r.
Proof.
  intros np text text' lines lines' Hnp HL HL' H r. rewrite !s_parseFile_exec_iff by exact Hnp.
  unfold sFileF. rewrite (lines_split _ _ HL), (lines_split _ _ HL').
  rewrite (sHexF_like np lines lines'); [reflexivity|].
  eapply F2_impl; [exact s_stray_line|exact H].
Qed.
Print Assumptions C82_stray_ignored.

Theorem C82_stray_refuted : exists np l, l = b "S30600000010AA!3F" /\ s_read_lines np [l] = [l]
    /\ (forall tx bs, l = "S"%char :: "3"%char :: tx -> ~ hex_text tx bs)
    /\ always (s_parseFile_exec np l) (fun r => r = Ok ([(16, 170)]%N, None)).
Proof.
  exists 1%nat, (b "S30600000010AA!3F"). split; [reflexivity|]. split; [reflexivity|]. split.
  - intros tx bs E H. apply hex_text_len in H. assert (tx = b "0600000010AA!3F") by (vm_compute in E |- *; congruence).
    subst tx. cbn in H. lia.
  - apply s_run_is; vm_compute; reflexivity.
Qed.
Print Assumptions C82_stray_refuted.

(** A line without checksum: the last byte of the address is taken for it. *)
Theorem C82_no_checksum_refuted : exists np l, l = b "S3010000007F" /\ s_read_lines np [l] = [l] /\ ~ s_adds_up l
    /\ always (s_parseFile_exec np l) (fun r => r = Ok ([], None)).
Proof.
  exists 1%nat, (b "S3010000007F"). split; [reflexivity|]. split; [reflexivity|]. split.
  - intros (bs & (tx & E & H) & Z). assert (tx = hexs true [1; 0; 0; 0; 127]%N) by (vm_compute in E |- *; congruence). subst tx.
    apply hex_text_decode in H.
    assert (H' : hex_text (hexs true [1; 0; 0; 0; 127]%N) [1; 0; 0; 0; 127]%N) by (apply hex_text_hexs; repeat constructor).
    apply hex_text_decode in H'. assert (bs = [1; 0; 0; 0; 127]%N) by congruence. subst bs. discriminate Z.
  - apply s_run_is; vm_compute; reflexivity.
Qed.
Print Assumptions C82_no_checksum_refuted.

Definition s_any_lines : list bytes := [b "S30600000010AA3F"; b "short"; b "S307FFFFFFFF0102*F9"; b "S70500000000FA"].
Definition s_any_said : list (list N) := [[6; 0; 0; 0; 16; 170; 63]; [7; 255; 255; 255; 255; 1; 2; 249]]%N.
Example C82_example :
  lines_of (join [CR; LF] s_any_lines) s_any_lines
  /\ Forall (fun l => 14 <= List.length l) (s_read_lines 1 s_any_lines)
  /\ Forall2 s_says (s_read_lines 1 s_any_lines) s_any_said /\ Forall (fun bs => nsum bs mod 256 = 255)%N s_any_said
  /\ flat_map s3_puts s_any_said = [(16, 170); (4294967295, 1); (0, 2)]%N.
Proof.
  split.
  { split; [discriminate|]. left. split; [|split; [reflexivity|]].
    - exists (b "S30600000010AA3F"), (join [CR; LF] [b "short"; b "S307FFFFFFFF0102*F9"; b "S70500000000FA"]). reflexivity.
    - assert (N : Forall (fun l => ~ In CR l) s_any_lines)
        by (unfold s_any_lines; repeat (constructor; [vm_compute; intuition discriminate|]); constructor).
      eapply Forall_impl; [|exact N]. intros l H (p & q & ->). apply H. apply in_or_app. right; left; reflexivity. }
  assert (K : s_read_lines 1 s_any_lines = [b "S30600000010AA3F"; b "S307FFFFFFFF0102*F9"]) by reflexivity.
  rewrite K. split; [repeat (constructor; [cbn; lia|]); constructor|]. split.
  { unfold s_any_said. repeat match goal with |- Forall2 _ (_ :: _) (?bs :: _) =>
      constructor; [exists (hexs true bs); split; [reflexivity|apply hex_text_hexs; repeat constructor]|] end.
    constructor. }
  split; [repeat (constructor; [reflexivity|]); constructor|]. reflexivity.
Qed.
