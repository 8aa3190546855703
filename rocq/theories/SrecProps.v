(** Properties of the S-record reader (srec19); [s_parseFile_exec np text r]
    holds of every result [r] that some schedule of the goroutines produces on
    a machine with [np] CPUs for a file with content [text]. *)
From Coq Require Import String Ascii List Arith NArith Bool Lia.
From Verif Require Import GoBase ConcModel HexSpec HexParts IhexSpec IhexModel IhexThm SrecModel SrecProofs SrecSpec SrecThm.
Import ListNotations.

(** ** C14 the S-record reader returns *)

Theorem C14_srec_completes : forall np text, (0 < np)%nat ->
    (exists m e, always (s_parseFile_exec np text) (fun r => r = Ok (m, e)))
    /\ exists ms, s_parse_msgs np (splitLines text) = Ok ms
       /\ completes (cstep s_absorb_recs (List.length (splitLines text))) (fun s => c_done s = true) (cinit ms [])
       /\ forall recs, crun s_absorb_recs (List.length (splitLines text)) ms [] recs ->
            completes (q2step np recs) q2done (q2init np recs)
            /\ exists dms, s_data_msgs np recs = Ok dms
               /\ completes (cstep absorb_data 1) (fun s => c_done s = true) (cinit dms ([], None)).
Proof. exact srec_completes. Qed.
Print Assumptions C14_srec_completes.

Example C14_srec_example : always (s_parseFile_exec 3 (b "S3" ++ [LF] ++ b "S3zzzzzzzzzzzz" ++ [LF] ++ b "S7"))
  (fun r => r = Ok ([], Some EChecksum)).
Proof. apply s_run_is; vm_compute; reflexivity. Qed.

(** ** C15 round trip *)

Theorem C15_srec_round_trip : forall np t items tail, (0 < np)%nat -> Forall sitem_ok items -> Forall not_s3 tail ->
    NoDup (map fst (s3image (sitems_recs items))) ->
    always (s_parseFile_exec np (sfile t items tail))
      (fun r => exists m, r = Ok (m, None) /\ map_is m (s3image (sitems_recs items))).
Proof. exact srec_round_trip. Qed.
Print Assumptions C15_srec_round_trip.

Definition ex_sitems : list sitem :=
  [SBlank (b "S0030000FC"); SItem true (SD 2147483648 [222; 173; 190; 239]%N); SBlank [];
   SItem false (SD 4294967294 [1; 250]%N); SItem true (SD 16 []%N)].
Example C15_example : Forall sitem_ok ex_sitems /\ Forall not_s3 [s7line 2147483648; b ""]
  /\ NoDup (map fst (s3image (sitems_recs ex_sitems)))
  /\ s3image (sitems_recs ex_sitems) =
       [(2147483648, 222); (2147483649, 173); (2147483650, 190); (2147483651, 239);
        (4294967294, 1); (4294967295, 250)]%N
  /\ sfile Unix ex_sitems [s7line 2147483648; b ""] =
       b "S0030000FC" ++ [LF] ++ b "S30980000000DEADBEEF3E" ++ [LF] ++ [LF] ++ b "S307fffffffe01fa02" ++ [LF]
       ++ b "S30500000010EA" ++ [LF] ++ b "S705800000007A" ++ [LF].
Proof.
  split; [apply sitems_okb_ok; vm_compute; reflexivity|].
  split; [repeat constructor; try (apply no_eolb_ok; vm_compute; reflexivity); vm_compute; discriminate|].
  split; [apply nodupb_ok; vm_compute; reflexivity|]. split; vm_compute; reflexivity.
Qed.

(** ** C16 header record *)

(** A header record of 11 or more characters (one with a non-empty name) hides,
    on one CPU, the whole file: no data, no error. *)
Theorem C16_header_hides_file : forall t hdr lines, Forall no_eol (hdr :: lines) ->
    (11 <= List.length hdr)%nat -> firstn 2 hdr = b "S0" ->
    always (s_parseFile_exec 1 (join (term_bytes t) (hdr :: lines))) (fun r => r = Ok ([], None)).
Proof.
  intros t hdr lines He Hl Hs. destruct (srec_nothing t) as [H1 H2].
  assert (E : forall r, s_parseFile_exec 1 (join (term_bytes t) (hdr :: lines)) r
                        <-> s_parseFile_exec 1 (join (term_bytes t) []) r).
  { apply (srec_other_line t [] hdr lines); [exact He|exact Hl|rewrite Hs; discriminate]. }
  split; [destruct H1 as [r H1]; exists r; apply E, H1|intros r Hr; apply H2, E, Hr].
Qed.
Print Assumptions C16_header_hides_file.

(** In general: the header hides the records of the first goroutine's part; all
    others are read. *)
Theorem C16_header_hides_part : forall np np' t hdr lines, (0 < np)%nat -> (0 < np')%nat -> Forall no_eol (hdr :: lines) ->
    (11 <= List.length hdr)%nat -> firstn 2 hdr = b "S0" -> Forall (fun l => s3_lineb l = true) lines ->
    forall r, s_parseFile_exec np (join (term_bytes t) (hdr :: lines)) r
      <-> s_parseFile_exec np' (join (term_bytes t) (after_part np (hdr :: lines))) r.
Proof.
  intros np np' t hdr lines Hnp Hnp' He Hl Hs Hf r.
  rewrite (srec_kept np np' t (hdr :: lines) Hnp Hnp' He r), (kept_first s3_lineb np hdr lines Hnp); [reflexivity| |exact Hf].
  unfold s3_lineb. rewrite Hs. destruct (Nat.ltb_spec (List.length hdr) 11); [lia|reflexivity].
Qed.
Print Assumptions C16_header_hides_part.

Example C16_part_example :
  let lines := [b "S30600000010AA3F"; b "S30600000020BB1E"; b "S30600000030CCFD"] in
  Forall (fun l => s3_lineb l = true) lines
  /\ after_part 2 (b "S00F000068656C6C6F202020202000003C" :: lines) = [b "S30600000020BB1E"; b "S30600000030CCFD"]
  /\ after_part 8 (b "S00F000068656C6C6F202020202000003C" :: lines) = [].
Proof. cbv zeta. split; [repeat constructor|]. split; vm_compute; reflexivity. Qed.

Theorem C16_header_refuted : exists np t hdr items, firstn 2 hdr = b "S0" /\ Forall sitem_ok items
    /\ NoDup (map fst (s3image (sitems_recs items))) /\ In (268435456, 7)%N (s3image (sitems_recs items))
    /\ always (s_parseFile_exec np (join (term_bytes t) (hdr :: map sitem_line items))) (fun r => r = Ok ([], None)).
Proof.
  exists 1%nat, Dos, (b "S00F000068656C6C6F202020202000003C"), [SItem true (SD 268435456 [7]%N)].
  split; [reflexivity|]. split; [apply sitems_okb_ok; vm_compute; reflexivity|].
  split; [apply nodupb_ok; vm_compute; reflexivity|]. split; [vm_compute; auto|].
  apply s_run_is; vm_compute; reflexivity.
Qed.
Print Assumptions C16_header_refuted.

(** Guarded: an empty header record (10 characters) is skipped. *)
Theorem C16_short_header_guarded : forall np t hdr items tail, (0 < np)%nat -> Forall sitem_ok items -> Forall not_s3 tail ->
    no_eol hdr -> (List.length hdr < 11)%nat -> NoDup (map fst (s3image (sitems_recs items))) ->
    always (s_parseFile_exec np (join (term_bytes t) (hdr :: map sitem_line items ++ tail)))
      (fun r => exists m, r = Ok (m, None) /\ map_is m (s3image (sitems_recs items))).
Proof.
  intros np t hdr items tail Hnp Hok Ht He Hl Hn.
  apply (srec_round_trip np t (SBlank hdr :: items) tail Hnp); [constructor; [split; assumption|exact Hok]|exact Ht|exact Hn].
Qed.
Print Assumptions C16_short_header_guarded.
Example C16_example : (List.length (b "S0030000FC") < 11)%nat.
Proof. cbn; lia. Qed.

(** ** C17 checksum error *)

Theorem C17_checksum_error_iff : forall np t lines tail, (0 < np)%nat -> Forall no_eol lines ->
    Forall s3_fine lines -> Forall not_s3 tail ->
    always (s_parseFile_exec np (join (term_bytes t) (lines ++ tail)))
      (fun r => r = Ok ([], Some EChecksum) <->
                exists l, In l lines /\ (11 <= List.length l)%nat /\ ~ s3_good l).
Proof. exact srec_checksum_error. Qed.
Print Assumptions C17_checksum_error_iff.

Example C17_example : let lines := [b "S30980000000DEADBEEF3E"; b ""; b "S30500000010EB"] in
  Forall no_eol lines /\ Forall s3_fine lines
  /\ always (s_parseFile_exec 2 (join (term_bytes Dos) (lines ++ [s7line 0]))) (fun r => r = Ok ([], Some EChecksum)).
Proof.
  cbv zeta. split; [apply no_eolb_all; vm_compute; reflexivity|].
  split; [constructor; [right; apply s3_shapeb_ok; reflexivity|]; constructor; [left; cbn; lia|];
          constructor; [right; apply s3_shapeb_ok; reflexivity|constructor]|].
  apply s_run_is; vm_compute; reflexivity.
Qed.

(** ** C18 collisions *)

Theorem C18_collisions : forall np t items tail, (0 < np)%nat -> Forall sitem_ok items -> Forall not_s3 tail ->
    always (s_parseFile_exec np (sfile t items tail))
      (fun r => (NoDup (map fst (s3image (sitems_recs items))) -> exists m, r = Ok (m, None))
        /\ (~ NoDup (map fst (s3image (sitems_recs items))) ->
            exists m a v0 v pre post, r = Ok (m, Some (ECollision a v0 v))
              /\ s3image (sitems_recs items) = pre ++ (a, v) :: post /\ In (a, v0) pre /\ map_is m pre)).
Proof. exact srec_collisions. Qed.
Print Assumptions C18_collisions.

Definition ex_scollide : list sitem := [SItem true (SD 65536 [1; 2; 3]%N); SItem false (SD 65538 [4]%N)].
Example C18_example : Forall sitem_ok ex_scollide /\ ~ NoDup (map fst (s3image (sitems_recs ex_scollide)))
  /\ always (s_parseFile_exec 2 (sfile Unix ex_scollide [s7line 0]))
       (fun r => r = Ok ([(65538, 3); (65537, 2); (65536, 1)]%N, Some (ECollision 65538 3 4))).
Proof.
  split; [apply sitems_okb_ok; vm_compute; reflexivity|].
  split; [|apply s_run_is; vm_compute; reflexivity].
  intros H. vm_compute in H. inversion H as [|x l _ H2]; subst. inversion H2 as [|x l _ H3]; subst.
  inversion H3 as [|x l H4 _]; subst. apply H4. left; reflexivity.
Qed.

(** ** C19 other record types *)

(** On one CPU a line of 11 or more characters that does not start with S3
    ends the reading: the file reads like the part before that line. *)
Theorem C19_other_line_truncates : forall t before bad after,
    Forall no_eol (before ++ bad :: after) -> (11 <= List.length bad)%nat -> firstn 2 bad <> b "S3" ->
    forall r, s_parseFile_exec 1 (join (term_bytes t) (before ++ bad :: after)) r
      <-> s_parseFile_exec 1 (join (term_bytes t) before) r.
Proof. exact srec_other_line. Qed.
Print Assumptions C19_other_line_truncates.

Example C19_example : let ls := [b "S30600000010AA3F"] ++ b "S1050000AABB95" :: [b "S30600000020BB1E"] in
  Forall no_eol ls /\ (11 <= List.length (b "S1050000AABB95"))%nat
  /\ always (s_parseFile_exec 1 (join (term_bytes Unix) ls)) (fun r => r = Ok ([(16, 170)]%N, None)).
Proof.
  cbv zeta. split; [apply no_eolb_all; vm_compute; reflexivity|]. split; [cbn; lia|].
  apply s_run_is; vm_compute; reflexivity.
Qed.

(** A file of one S1 (or S2) data record: no data and no error. *)
Theorem C19_short_addresses_refuted : exists np t,
    always (s_parseFile_exec np (join (term_bytes t) [b "S1050000AABB95"])) (fun r => r = Ok ([], None))
    /\ always (s_parseFile_exec np (join (term_bytes t) [b "S206000000AABB94"])) (fun r => r = Ok ([], None)).
Proof. exists 1%nat, Unix. split; apply s_run_is; vm_compute; reflexivity. Qed.
Print Assumptions C19_short_addresses_refuted.

(** In general, for any lines and any number of CPUs: the lines of each
    goroutine's part from its first line of another type on are ignored without
    a report; what is left is read the same on every number of CPUs. *)
Theorem C19_other_lines_dropped : forall np np' t lines, (0 < np)%nat -> (0 < np')%nat -> Forall no_eol lines ->
    forall r, s_parseFile_exec np (join (term_bytes t) lines) r
      <-> s_parseFile_exec np' (join (term_bytes t) (kept s3_lineb np lines)) r.
Proof. exact srec_kept. Qed.
Print Assumptions C19_other_lines_dropped.

(** The header hides the records of the first part, the other parts are read. *)
Example C19_dropped_example :
  let lines := [b "S00F000068656C6C6F202020202000003C"; b "S30600000010AA3F"; b "S30600000020BB1E"; b "S70500000000FA"] in
  Forall no_eol lines /\ kept s3_lineb 1 lines = [] /\ kept s3_lineb 2 lines = [b "S30600000020BB1E"].
Proof. cbv zeta. split; [apply no_eolb_all; vm_compute; reflexivity|]. split; vm_compute; reflexivity. Qed.

(** ** C20 corruption of one byte *)

Theorem C20_corruption_detected : forall np t before up r after tail k x v up', (0 < np)%nat ->
    Forall sitem_ok before -> s3valid r -> Forall sitem_ok after -> Forall not_s3 tail ->
    nth_error (s3_all r) k = Some x -> (v < 256)%N -> v <> x ->
    always (s_parseFile_exec np (join (term_bytes t)
              (map sitem_line before ++ s3corrupted up up' (s3_all r) k v :: map sitem_line after ++ tail)))
      (fun res => res = Ok ([], Some EChecksum)).
Proof. exact srec_corruption_detected. Qed.
Print Assumptions C20_corruption_detected.

Example C20_example : let r := SD 4294967294 [1; 250]%N in
  s3valid r /\ nth_error (s3_all r) 6 = Some 250%N /\ s3corrupted true false (s3_all r) 6 171 = b "S307FFFFFFFE01ab02".
Proof. cbv zeta. split; [apply s3validb_ok; vm_compute; reflexivity|]. split; vm_compute; reflexivity. Qed.

(** ** C21 both formats agree *)

Theorem C21_formats_agree_guarded : forall np1 np2 t1 t2 items sitems tail, (0 < np1)%nat -> (0 < np2)%nat ->
    Forall item_ok items -> zero_upper_last (items_recs items) ->
    Forall sitem_ok sitems -> Forall not_s3 tail ->
    NoDup (map fst (image (items_recs items))) -> NoDup (map fst (s3image (sitems_recs sitems))) ->
    (forall x, In x (image (items_recs items)) <-> In x (s3image (sitems_recs sitems))) ->
    exists m1 m2, always (parseFile_exec np1 (ifile t1 items)) (fun r => r = Ok (m1, None))
      /\ always (s_parseFile_exec np2 (sfile t2 sitems tail)) (fun r => r = Ok (m2, None))
      /\ (forall a, lookup a m1 = lookup a m2)
      /\ map_is m1 (image (items_recs items)).
Proof. exact formats_agree. Qed.
Print Assumptions C21_formats_agree_guarded.

Definition ex_blocks : list (N * list N) := [(65536, [1; 2; 3]); (2147483648, [7]); (131072, [])]%N.
Example C21_example : Forall item_ok (blocks_ihex ex_blocks) /\ zero_upper_last (items_recs (blocks_ihex ex_blocks))
  /\ Forall sitem_ok (blocks_srec ex_blocks)
  /\ NoDup (map fst (image (items_recs (blocks_ihex ex_blocks))))
  /\ image (items_recs (blocks_ihex ex_blocks)) = s3image (sitems_recs (blocks_srec ex_blocks)).
Proof.
  split; [apply items_okb_ok; vm_compute; reflexivity|].
  split; [apply nonzero_upper_last; intros u H; vm_compute in H; repeat (destruct H as [H|H]; [congruence|]); contradiction|].
  split; [apply sitems_okb_ok; vm_compute; reflexivity|].
  split; [apply nodupb_ok; vm_compute; reflexivity|]. apply blocks_images.
Qed.

(** Without the guard on upper half 0000 (C02): one image, two maps. *)
Theorem C21_formats_refuted : exists items sitems m1 m2, Forall item_ok items /\ Forall sitem_ok sitems
    /\ NoDup (map fst (image (items_recs items)))
    /\ image (items_recs items) = s3image (sitems_recs sitems)
    /\ always (parseFile_exec 1 (ifile Unix items)) (fun r => r = Ok (m1, None))
    /\ always (s_parseFile_exec 1 (sfile Unix sitems [])) (fun r => r = Ok (m2, None))
    /\ lookup 65552 m1 <> lookup 65552 m2.
Proof.
  exists [IRec true (IEla 0); IRec true (IData 0 [1]%N); IRec true (IEla 1); IRec true (IData 16 [2]%N); IRec true iend],
    [SItem true (SD 0 [1]%N); SItem true (SD 65552 [2]%N)]. eexists. eexists.
  split; [apply items_okb_ok; vm_compute; reflexivity|]. split; [apply sitems_okb_ok; vm_compute; reflexivity|].
  split; [apply nodupb_ok; vm_compute; reflexivity|]. split; [vm_compute; reflexivity|].
  split; [apply run_is; vm_compute; reflexivity|]. split; [apply s_run_is; vm_compute; reflexivity|].
  vm_compute. discriminate.
Qed.
Print Assumptions C21_formats_refuted.

(** ** C76 nothing but bytes of the file *)

Theorem C76_srec_map_sound : forall np text, (0 < np)%nat ->
    always (s_parseFile_exec np text) (fun r => exists m e, r = Ok (m, e) /\
      forall a v, lookup a m = Some v ->
        exists l addr i p q, s3_byte l addr i v /\ a = ((addr + N.of_nat i) mod 4294967296)%N /\ text = p ++ l ++ q).
Proof. exact srec_map_sound. Qed.
Print Assumptions C76_srec_map_sound.

Example C76_example : always (s_parseFile_exec 2 (b "S30700000010AABB83" ++ [LF] ++ [LF] ++ b "garbage garbage"))
  (fun r => r = Ok ([(17, 187); (16, 170)]%N, None)).
Proof. apply s_run_is; vm_compute; reflexivity. Qed.

(** ** C77 schedule, number of CPUs, line ends, blank lines *)

Theorem C77_srec_schedule_independent : forall np text, (0 < np)%nat ->
    exists r0, always (s_parseFile_exec np text) (fun r => r = r0).
Proof. exact srec_schedule_independent. Qed.
Print Assumptions C77_srec_schedule_independent.

Theorem C77_srec_layout_guarded : forall np1 np2 t1 t2 lines1 lines2 tail1 tail2, (0 < np1)%nat -> (0 < np2)%nat ->
    Forall no_eol lines1 -> Forall no_eol lines2 -> Forall s3_fine lines1 -> Forall s3_fine lines2 ->
    Forall not_s3 tail1 -> Forall not_s3 tail2 ->
    filter (fun l => 11 <=? List.length l)%nat lines1 = filter (fun l => 11 <=? List.length l)%nat lines2 ->
    forall r, s_parseFile_exec np1 (join (term_bytes t1) (lines1 ++ tail1)) r
      <-> s_parseFile_exec np2 (join (term_bytes t2) (lines2 ++ tail2)) r.
Proof. exact srec_layout. Qed.
Print Assumptions C77_srec_layout_guarded.

Example C77_example : let l1 := [b "S30600000010AA3F"; b "S30600000020BB1E"] in
  let l2 := [b ""; b "S0"; b "S30600000010AA3F"; b " "; b "S30600000020BB1E"; b ""] in
  Forall no_eol l1 /\ Forall no_eol l2 /\ Forall s3_fine l1 /\ Forall s3_fine l2
  /\ Forall not_s3 [b "S70500000000FA"; []]
  /\ filter (fun l => 11 <=? List.length l)%nat l1 = filter (fun l => 11 <=? List.length l)%nat l2.
Proof.
  cbv zeta. split; [apply no_eolb_all; vm_compute; reflexivity|]. split; [apply no_eolb_all; vm_compute; reflexivity|].
  split; [repeat (apply Forall_cons; [right; apply s3_shapeb_ok; reflexivity|]); constructor|].
  split; [repeat (apply Forall_cons; [first [left; cbn; lia|right; apply s3_shapeb_ok; reflexivity]|]); constructor|].
  split; [|vm_compute; reflexivity].
  repeat (apply Forall_cons; [split; [apply no_eolb_ok; vm_compute; reflexivity|vm_compute; discriminate]|]). constructor.
Qed.

(** Other lines in between make the result depend on the number of CPUs. *)
Theorem C77_srec_cpus_refuted : exists t lines, Forall no_eol lines
    /\ always (s_parseFile_exec 1 (join (term_bytes t) lines)) (fun r => r = Ok ([], None))
    /\ always (s_parseFile_exec 2 (join (term_bytes t) lines)) (fun r => r = Ok ([(32, 187)]%N, None)).
Proof.
  exists Unix, [b "S00F000068656C6C6F202020202000003C"; b "S30600000010AA3F"; b "S30600000020BB1E"; b "S70500000000FA"].
  split; [apply no_eolb_all; vm_compute; reflexivity|]. split; apply s_run_is; vm_compute; reflexivity.
Qed.
Print Assumptions C77_srec_cpus_refuted.
