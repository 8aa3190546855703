(** Properties of the Intel HEX reader (ihex32).  [parseFile_exec np text r]
    holds of every result [r] that some schedule of the goroutines produces on
    a machine with [np] CPUs for a file with content [text]; [always runs P]
    says that there is a result and that every result satisfies [P]. *)
From Coq Require Import String Ascii List Arith NArith Bool Lia.
From Verif Require Import GoBase ConcModel HexSpec IhexSpec IhexModel IhexMain IhexThm IhexRead.
Import ListNotations.

(** ** C01 round trip *)

Theorem C01_ihex_round_trip : forall np t items, (0 < np)%nat -> Forall item_ok items ->
    (forall u, In (IEla u) (items_recs items) -> u <> 0%N) ->
    NoDup (map fst (image (items_recs items))) ->
    always (parseFile_exec np (ifile t items))
      (fun r => exists m, r = Ok (m, None) /\ map_is m (image (items_recs items))).
Proof. exact (fun np t items Hnp Hok Hu Hn => ihex_round_trip np t items Hnp Hok (nonzero_upper_last _ Hu) Hn). Qed.
Print Assumptions C01_ihex_round_trip.

Definition ex_items : list iitem :=
  [IRec true (IEla 32768); IRec true (IData 65280 [222; 173; 190; 239]%N); IBlank []; IRec false (IData 0 [1; 2]%N);
   IRec true (IEla 40960); IRec true (IData 256 [255]%N); IRec true iend; IBlank []].

Example C01_example : Forall item_ok ex_items
  /\ (forall u, In (IEla u) (items_recs ex_items) -> u <> 0%N)
  /\ NoDup (map fst (image (items_recs ex_items)))
  /\ image (items_recs ex_items) =
       [(2147548928, 222); (2147548929, 173); (2147548930, 190); (2147548931, 239);
        (2147483648, 1); (2147483649, 2); (2684354816, 255)]%N
  /\ ifile Unix ex_items =
       b ":0200000480007A" ++ [LF] ++ b ":04FF0000DEADBEEFC5" ++ [LF] ++ [LF]
       ++ b ":020000000102fb" ++ [LF] ++ b ":02000004A0005A" ++ [LF] ++ b ":01010000FFFF" ++ [LF]
       ++ b ":00000001FF" ++ [LF].
Proof.
  split; [apply items_okb_ok; vm_compute; reflexivity|]. split.
  { intros u H. vm_compute in H. repeat (destruct H as [H|H]; [congruence|]). contradiction. }
  split; [apply nodupb_ok; vm_compute; reflexivity|]. split; vm_compute; reflexivity.
Qed.

(** ** C02 upper address half *)

(** With 0000 upper halves allowed, as long as no data under an explicit 0000
    precedes data under a nonzero upper half. *)
Theorem C02_upper_half_guarded : forall np t items, (0 < np)%nat -> Forall item_ok items ->
    zero_upper_last (items_recs items) -> NoDup (map fst (image (items_recs items))) ->
    always (parseFile_exec np (ifile t items))
      (fun r => exists m, r = Ok (m, None) /\ map_is m (image (items_recs items))).
Proof. exact ihex_round_trip. Qed.
Print Assumptions C02_upper_half_guarded.

Definition ex_zero_last : list iitem :=
  [IRec true (IData 16 [9]%N); IRec true (IEla 1); IRec true (IData 0 [1]%N); IRec true (IEla 0); IRec true (IData 0 [2]%N)].
Example C02_example : Forall item_ok ex_zero_last /\ zero_upper_last (items_recs ex_zero_last)
  /\ NoDup (map fst (image (items_recs ex_zero_last)))
  /\ image (items_recs ex_zero_last) = [(16, 9); (65536, 1); (0, 2)]%N.
Proof.
  split; [apply items_okb_ok; vm_compute; reflexivity|]. split.
  { intros i j a1 b1 a2 b2 u Hij Hi Hui Hj Huj.
    destruct i as [|[|[|[|[|i]]]]]; cbn in Hi, Hui; try discriminate; [|destruct i; discriminate].
    destruct j as [|[|[|[|[|j]]]]]; try lia; cbn in Hj; try discriminate. destruct j; discriminate. }
  split; [apply nodupb_ok; vm_compute; reflexivity|vm_compute; reflexivity].
Qed.

(** Without the guard: a valid file, read without error, in which a data byte
    under upper half 0001 is returned at the address with upper half 0000. *)
Definition zero_first : list iitem :=
  [IRec true (IEla 0); IRec true (IData 0 [1]%N); IRec true (IEla 1); IRec true (IData 16 [2]%N); IRec true iend].
Theorem C02_upper_half_refuted : exists np t items,
    (0 < np)%nat /\ Forall item_ok items /\ NoDup (map fst (image (items_recs items)))
    /\ In (65552, 2)%N (image (items_recs items))
    /\ always (parseFile_exec np (ifile t items))
         (fun r => exists m, r = Ok (m, None) /\ lookup 65552%N m = None /\ lookup 16%N m = Some 2%N).
Proof.
  exists 1%nat, Unix, zero_first. split; [lia|]. split; [apply items_okb_ok; vm_compute; reflexivity|].
  split; [apply nodupb_ok; vm_compute; reflexivity|]. split; [vm_compute; auto|].
  apply always_iff; [lia|]. eexists. split; [vm_compute; reflexivity|]. split; reflexivity.
Qed.
Print Assumptions C02_upper_half_refuted.

(** In general, for every file and every number of CPUs: exactly which upper
    half each data record gets.  No guard on the upper halves, no bound at the
    64 KiB borders. *)
Theorem C02_as_read : forall np t items, (0 < np)%nat -> Forall item_form items ->
    exists img, image_read np (items_recs items) img
    /\ (forall img', image_read np (items_recs items) img' -> img' = img)
    /\ always (parseFile_exec np (ifile t items))
        (fun r => (NoDup (map fst img) -> exists m, r = Ok (m, None) /\ map_is m img)
          /\ (~ NoDup (map fst img) -> exists m a v0 v pre post, r = Ok (m, Some (ECollision a v0 v))
                /\ img = pre ++ (a, v) :: post /\ In (a, v0) pre /\ map_is m pre)).
Proof.
  intros np t items Hnp Hok. destruct (ihex_read np t items Hnp Hok) as (img & HI & H).
  exists img. split; [exact HI|]. split; [|exact H].
  intros img' HI'. exact (image_read_unique _ _ _ _ HI' HI).
Qed.
Print Assumptions C02_as_read.

(** With one CPU the byte 2 lands in the lowest 64 KiB, with two the second
    reader starts at the second address record and finds its upper half. *)
Example C02_as_read_example : Forall item_form zero_first
  /\ image_read 1 (items_recs zero_first) [(0, 1); (16, 2)]%N
  /\ image_read 2 (items_recs zero_first) [(0, 1); (65552, 2)]%N.
Proof.
  assert (H : Forall item_form zero_first) by (apply item_ok_form, items_okb_ok; vm_compute; reflexivity).
  split; [exact H|]. split.
  - apply (items_read 1 Unix); [lia|exact H|vm_compute; reflexivity].
  - apply (items_read 2 Unix); [lia|exact H|vm_compute; reflexivity].
Qed.

(** ** C03 no dependence on the schedule *)

Theorem C03_schedule_independent : forall np text, (0 < np)%nat ->
    exists r0, always (parseFile_exec np text) (fun r => r = r0).
Proof. exact schedule_independent. Qed.
Print Assumptions C03_schedule_independent.

Example C03_example :
  always (parseFile_exec 3 (ifile Dos ex_items))
    (fun r => r = Ok ([(2684354816, 255); (2147483649, 2); (2147483648, 1); (2147548931, 239);
                       (2147548930, 190); (2147548929, 173); (2147548928, 222)]%N, None)).
Proof. apply run_is; vm_compute; reflexivity. Qed.

(** ** C04 dependence on the number of CPUs *)

Theorem C04_cpu_independent_guarded : forall np1 np2 t lines, (0 < np1)%nat -> (0 < np2)%nat ->
    lines <> [] -> Forall no_eol lines -> Forall fine_line lines -> (forall l, In l lines -> ~ zero_ela l) ->
    forall r, parseFile_exec np1 (join (term_bytes t) lines) r <-> parseFile_exec np2 (join (term_bytes t) lines) r.
Proof. exact cpu_independent_runs. Qed.
Print Assumptions C04_cpu_independent_guarded.

Example C04_example : let lines := map item_line ex_items ++ [b ":0100000002FE"] in
  Forall no_eol lines /\ Forall fine_line lines /\ (forall l, In l lines -> ~ zero_ela l).
Proof.
  cbv zeta. split; [apply no_eolb_all; vm_compute; reflexivity|]. split; [apply fine_linesb_ok; vm_compute; reflexivity|].
  intros l H [H1 H2]. cbn [map item_line ex_items app In] in H.
  repeat (destruct H as [H|H]; [subst l; vm_compute in H1, H2; discriminate|]). contradiction.
Qed.

(** A valid file without an error on any machine, but with different maps. *)
Theorem C04_cpu_dependent_refuted : exists np1 np2 t items m1 m2,
    (0 < np1)%nat /\ (0 < np2)%nat /\ Forall item_ok items /\ NoDup (map fst (image (items_recs items)))
    /\ always (parseFile_exec np1 (ifile t items)) (fun r => r = Ok (m1, None))
    /\ always (parseFile_exec np2 (ifile t items)) (fun r => r = Ok (m2, None))
    /\ lookup 65552%N m1 = None /\ lookup 65552%N m2 = Some 2%N.
Proof.
  exists 1%nat, 2%nat, Unix, zero_first. eexists. eexists. split; [lia|]. split; [lia|].
  split; [apply items_okb_ok; vm_compute; reflexivity|].
  split; [apply nodupb_ok; vm_compute; reflexivity|].
  split; [apply run_is; vm_compute; reflexivity|]. split; [apply run_is; vm_compute; reflexivity|].
  split; reflexivity.
Qed.
Print Assumptions C04_cpu_dependent_refuted.

(** ** C05 checksum error *)

Theorem C05_checksum_error_iff : forall np t lines, (0 < np)%nat -> lines <> [] -> Forall no_eol lines ->
    Forall fine_line lines -> Forall (fun l => (11 <= List.length l)%nat -> whole_bytes l) lines ->
    always (parseFile_exec np (join (term_bytes t) lines))
      (fun r => r = Ok ([], Some EChecksum) <->
                exists l, In l lines /\ (11 <= List.length l)%nat /\ ~ good_sum l).
Proof. exact checksum_error. Qed.
Print Assumptions C05_checksum_error_iff.

Example C05_example : let lines := [b ":0200000001fBFD"; b ""; b ":02000000010XFB"; b ":00000001FF"] in
  lines <> [] /\ Forall no_eol lines /\ Forall fine_line lines
  /\ Forall (fun l => (11 <= List.length l)%nat -> whole_bytes l) lines
  /\ always (parseFile_exec 2 (join (term_bytes Dos) lines)) (fun r => r = Ok ([], Some EChecksum)).
Proof.
  cbv zeta. split; [discriminate|]. split; [apply no_eolb_all; vm_compute; reflexivity|].
  split; [apply fine_linesb_ok; vm_compute; reflexivity|]. split; [apply wholeb_ok; vm_compute; reflexivity|].
  apply run_is; vm_compute; reflexivity.
Qed.

(** ** C06 corruption of one byte *)

(** [k] is the byte position in the record (count, address, type, data,
    checksum).  The excluded case: a record without payload whose type is
    overwritten with 04. *)
Theorem C06_corruption_detected : forall np t before up r after k x v up', (0 < np)%nat ->
    Forall item_ok before -> ivalid r -> Forall item_ok after ->
    nth_error (ibytes r) k = Some x -> (v < 256)%N -> v <> x ->
    (ipayload r <> [] \/ k <> 3%nat \/ v <> 4%N) ->
    always (parseFile_exec np (join (term_bytes t)
              (map item_line before ++ corrupted up up' (ibytes r) k v :: map item_line after)))
      (fun res => res = Ok ([], Some EChecksum)).
Proof. exact corruption_detected. Qed.
Print Assumptions C06_corruption_detected.

Example C06_example : let r := IData 65280 [222; 173]%N in
  ivalid r /\ nth_error (ibytes r) 5 = Some 173%N /\ ipayload r <> []
  /\ corrupted true false (ibytes r) 5 254 = b ":02FF0000DEfe74".
Proof.
  cbv zeta. split; [apply ivalidb_ok; vm_compute; reflexivity|]. split; [reflexivity|].
  split; [discriminate|vm_compute; reflexivity].
Qed.

(** The excluded case really goes unnoticed: the end-of-file record with its
    type changed to 04 silently ends the reading of its part of the file. *)
Theorem C06_empty_record_refuted : exists np t before r after,
    Forall item_ok before /\ ivalid r /\ Forall item_ok after /\ nth_error (ibytes r) 3 = Some 1%N
    /\ In (16, 7)%N (image (items_recs after))
    /\ always (parseFile_exec np (join (term_bytes t)
              (map item_line before ++ corrupted true true (ibytes r) 3 4 :: map item_line after)))
         (fun res => res = Ok ([(0, 1)]%N, None)).
Proof.
  exists 1%nat, Unix, [IRec true (IData 0 [1]%N)], iend, [IRec true (IData 16 [7]%N)].
  split; [apply items_okb_ok; reflexivity|]. split; [apply ivalidb_ok; reflexivity|].
  split; [apply items_okb_ok; reflexivity|]. split; [reflexivity|]. split; [vm_compute; auto|].
  apply run_is; vm_compute; reflexivity.
Qed.
Print Assumptions C06_empty_record_refuted.

(** ** C07 damaged lines *)

(** On one CPU everything from the first damaged line on is ignored without a
    report: the file reads like the part before it. *)
Theorem C07_damaged_line_truncates : forall t before bad after,
    before <> [] -> Forall no_eol (before ++ bad :: after) ->
    (11 <= List.length bad)%nat -> ~ record_line bad ->
    forall r, parseFile_exec 1 (join (term_bytes t) (before ++ bad :: after)) r
      <-> parseFile_exec 1 (join (term_bytes t) before) r.
Proof. exact damaged_line. Qed.
Print Assumptions C07_damaged_line_truncates.

Definition ex_before := map item_line [IRec true (IEla 1); IRec true (IData 0 [1]%N)].
Definition ex_after := map item_line [IRec true (IData 16 [3]%N); IRec true iend].
Example C07_example : let bad := b "0100000002FDxx" in
  Forall no_eol (ex_before ++ bad :: ex_after) /\ (11 <= List.length bad)%nat /\ ~ record_line bad.
Proof.
  cbv zeta. split; [apply no_eolb_all; vm_compute; reflexivity|]. split; [cbn; lia|].
  rewrite <- record_lineb_ok; vm_compute; discriminate.
Qed.

(** A record whose colon was destroyed: its byte and the one after it are
    missing, no error is reported. *)
Theorem C07_damaged_line_refuted : exists np t before r after,
    Forall item_ok (before ++ IRec true r :: after)
    /\ image (items_recs (before ++ IRec true r :: after)) = [(65536, 1); (65544, 2); (65552, 3)]%N
    /\ always (parseFile_exec np (join (term_bytes t)
         (map item_line before ++ ("?"%char :: tl (item_line (IRec true r))) :: map item_line after)))
         (fun res => res = Ok ([(65536, 1)]%N, None)).
Proof.
  exists 1%nat, Dos, [IRec true (IEla 1); IRec true (IData 0 [1]%N)], (IData 8 [2]%N),
    [IRec true (IData 16 [3]%N); IRec true iend].
  split; [apply items_okb_ok; vm_compute; reflexivity|]. split; [vm_compute; reflexivity|].
  apply run_is; vm_compute; reflexivity.
Qed.
Print Assumptions C07_damaged_line_refuted.

(** In general, for any lines and any number of CPUs: the lines of each
    goroutine's part from its first damaged line on are ignored without a
    report. *)
Theorem C07_damaged_lines_dropped : forall np t lines, (0 < np)%nat -> lines <> [] -> Forall no_eol lines ->
    forall r, parseFile_exec np (join (term_bytes t) lines) r
      <-> parseFile_exec np (join (term_bytes t) (kept fine_lineb np lines)) r.
Proof. exact ihex_kept. Qed.
Print Assumptions C07_damaged_lines_dropped.

Example C07_dropped_example : let bad := b "0100000002FDxx" in
  let lines := ex_before ++ bad :: ex_after ++ [[]] in
  Forall no_eol lines /\ kept fine_lineb 1 lines = ex_before /\ kept fine_lineb 2 lines = ex_before ++ ex_after ++ [[]].
Proof. cbv zeta. split; [apply no_eolb_all; vm_compute; reflexivity|]. split; vm_compute; reflexivity. Qed.

(** ** C08 collisions *)

(** [pre] is everything before the first byte whose address was already used. *)
Theorem C08_collisions_guarded : forall np t items, (0 < np)%nat -> Forall item_ok items ->
    zero_upper_last (items_recs items) ->
    always (parseFile_exec np (ifile t items))
      (fun r => (NoDup (map fst (image (items_recs items))) -> exists m, r = Ok (m, None))
        /\ (~ NoDup (map fst (image (items_recs items))) ->
            exists m a v0 v pre post, r = Ok (m, Some (ECollision a v0 v))
              /\ image (items_recs items) = pre ++ (a, v) :: post /\ In (a, v0) pre /\ map_is m pre)).
Proof. exact ihex_collisions. Qed.
Print Assumptions C08_collisions_guarded.

Definition ex_collide : list iitem :=
  [IRec true (IEla 1); IRec true (IData 0 [1; 2; 3]%N); IRec true (IData 2 [4]%N)].
Example C08_example : Forall item_ok ex_collide /\ zero_upper_last (items_recs ex_collide)
  /\ ~ NoDup (map fst (image (items_recs ex_collide)))
  /\ always (parseFile_exec 2 (ifile Unix ex_collide))
       (fun r => r = Ok ([(65538, 3); (65537, 2); (65536, 1)]%N, Some (ECollision 65538 3 4))).
Proof.
  split; [apply items_okb_ok; vm_compute; reflexivity|].
  split; [apply nonzero_upper_last; intros u H; cbn in H; repeat (destruct H as [H|H]; [congruence|]); contradiction|].
  split; [|apply run_is; vm_compute; reflexivity].
  intros H. vm_compute in H. inversion H as [|x l _ H2]; subst. inversion H2 as [|x l _ H3]; subst.
  inversion H3 as [|x l H4 _]; subst. apply H4. left; reflexivity.
Qed.

(** Without the guard: all addresses differ, and yet a collision is reported. *)
Theorem C08_false_collision_refuted : exists np t items,
    Forall item_ok items /\ NoDup (map fst (image (items_recs items)))
    /\ always (parseFile_exec np (ifile t items)) (fun r => r = Ok ([(0, 1)]%N, Some (ECollision 0 1 2))).
Proof.
  exists 1%nat, Unix, [IRec true (IEla 0); IRec true (IData 0 [1]%N); IRec true (IEla 1); IRec true (IData 0 [2]%N)].
  split; [apply items_okb_ok; reflexivity|]. split; [apply nodupb_ok; vm_compute; reflexivity|].
  apply run_is; vm_compute; reflexivity.
Qed.
Print Assumptions C08_false_collision_refuted.

(** ** C09 nothing but bytes of the file *)

(** The low half of the address is that of the record plus the position of the
    byte (modulo 2^16), the upper half is zero or comes from an extended linear
    address line further up. *)
Theorem C09_map_sound : forall np text, (0 < np)%nat ->
    always (parseFile_exec np text) (fun r => exists m e, r = Ok (m, e) /\
      forall a v, lookup a m = Some v ->
        exists l addr i, data_byte l addr i v /\ (a mod 65536 = (addr + N.of_nat i) mod 65536)%N
          /\ ( ((a / 65536 = 0)%N /\ exists p q, text = p ++ l ++ q)
             \/ (exists l4 p q r, ela_line l4 (a / 65536) /\ text = p ++ l4 ++ q ++ l ++ r) )).
Proof. exact map_sound_runs. Qed.
Print Assumptions C09_map_sound.

Example C09_example : always (parseFile_exec 2 (b ":020000041000EA" ++ [LF] ++ b ":020000000102FB" ++ [LF] ++ b "garbage garbage"))
  (fun r => r = Ok ([(268435457, 2); (268435456, 1)]%N, None)).
Proof. apply run_is; vm_compute; reflexivity. Qed.

(** ** C10 terminators and blank lines *)

Theorem C10_terminators_blank_lines : forall np t1 t2 lines1 lines2, (0 < np)%nat ->
    Forall no_eol lines1 -> Forall no_eol lines2 -> Forall fine_line lines1 -> Forall fine_line lines2 ->
    filter (fun l => (11 <=? List.length l)%nat) lines1 = filter (fun l => (11 <=? List.length l)%nat) lines2 ->
    forall r, parseFile_exec np (join (term_bytes t1) lines1) r <-> parseFile_exec np (join (term_bytes t2) lines2) r.
Proof. exact blank_lines. Qed.
Print Assumptions C10_terminators_blank_lines.

Example C10_example : let l1 := [b ":020000041000EA"; b ":020000000102FB"] in
  let l2 := [b ""; b ":020000041000EA"; b ""; b "  "; b ":020000000102FB"; b ""] in
  Forall no_eol l1 /\ Forall no_eol l2 /\ Forall fine_line l1 /\ Forall fine_line l2
  /\ filter (fun l => (11 <=? List.length l)%nat) l1 = filter (fun l => (11 <=? List.length l)%nat) l2.
Proof.
  cbv zeta. split; [apply no_eolb_all; vm_compute; reflexivity|]. split; [apply no_eolb_all; vm_compute; reflexivity|].
  split; [apply fine_linesb_ok; vm_compute; reflexivity|]. split; [apply fine_linesb_ok; vm_compute; reflexivity|].
  reflexivity.
Qed.

(** ** C11 crossing a 64 KiB border *)

(** Guarded: C02_upper_half_guarded ([ivalid] keeps records inside). *)
Theorem C11_border_refuted : exists np t up a bs u,
    ifits (IData a bs) /\ In (131072, 2)%N (image [IEla u; IData a bs])
    /\ always (parseFile_exec np (join (term_bytes t) [iline (up, IEla u); iline (up, IData a bs); iline (up, iend)]))
         (fun r => exists m, r = Ok (m, None) /\ lookup 131072%N m = None /\ lookup 65536%N m = Some 2%N).
Proof.
  exists 1%nat, Unix, true, 65535%N, [1; 2]%N, 1%N.
  split; [vm_compute; repeat split; repeat constructor|]. split; [vm_compute; auto|].
  apply always_iff; [lia|]. eexists. split; [vm_compute; reflexivity|]. split; reflexivity.
Qed.
Print Assumptions C11_border_refuted.

(** In general: data past the border starts again at the beginning of the same
    64 KiB. *)
Theorem C11_wraps : forall np t items, (0 < np)%nat -> Forall item_form items ->
    (forall u, In (IEla u) (items_recs items) -> u <> 0%N) ->
    NoDup (map fst (wrapped_image 0 (items_recs items))) ->
    always (parseFile_exec np (ifile t items))
      (fun r => exists m, r = Ok (m, None) /\ map_is m (wrapped_image 0 (items_recs items))).
Proof. exact ihex_wraps. Qed.
Print Assumptions C11_wraps.

Definition ex_border : list iitem :=
  [IRec true (IEla 1); IRec true (IData 65534 [1; 2; 3]%N); IRec true (IEla 2); IRec true (IData 0 [4]%N); IRec true iend].
Example C11_wraps_example : Forall item_form ex_border
  /\ (forall u, In (IEla u) (items_recs ex_border) -> u <> 0%N)
  /\ NoDup (map fst (wrapped_image 0 (items_recs ex_border)))
  /\ wrapped_image 0 (items_recs ex_border) = [(131070, 1); (131071, 2); (65536, 3); (131072, 4)]%N
  /\ image (items_recs ex_border) = [(131070, 1); (131071, 2); (131072, 3); (131072, 4)]%N.
Proof.
  split.
  { repeat constructor; cbn; auto; try lia; try discriminate. }
  split.
  { intros u H. vm_compute in H. repeat (destruct H as [H|H]; [congruence|]). contradiction. }
  split; [apply nodupb_ok; vm_compute; reflexivity|]. split; vm_compute; reflexivity.
Qed.

(** ** C12 other record types *)

(** A segment address record (type 02, segment 1000 hex: base 10000 hex) is
    ignored without an error; so is the end of the file. *)
Theorem C12_segment_ignored_refuted : exists np t, 
    always (parseFile_exec np (ifile t [IRec true (IOther 2 0 [16; 0]%N); IRec true (IData 0 [1]%N); IRec true iend]))
      (fun r => r = Ok ([(0, 1)]%N, None)).
Proof. exists 1%nat, Unix. apply run_is; vm_compute; reflexivity. Qed.
Print Assumptions C12_segment_ignored_refuted.

Theorem C12_after_end_refuted : exists np t,
    always (parseFile_exec np (ifile t [IRec true (IData 0 [1]%N); IRec true iend; IRec true (IData 16 [2]%N)]))
      (fun r => r = Ok ([(16, 2); (0, 1)]%N, None)).
Proof. exists 1%nat, Unix. apply run_is; vm_compute; reflexivity. Qed.
Print Assumptions C12_after_end_refuted.

(** In general: records of other types never matter, wherever they are. *)
Theorem C12_other_types_ignored : forall np t items, (0 < np)%nat -> Forall item_ok items ->
    zero_upper_last (items_recs items) ->
    forall r, parseFile_exec np (ifile t items) r <-> parseFile_exec np (ifile t (filter is_data_or_ela items)) r.
Proof. exact other_types_ignored. Qed.
Print Assumptions C12_other_types_ignored.

(** ** C13 byte count *)

Theorem C13_byte_count_refuted : exists np t bs,
    nth_error bs 0 = Some 5%N /\ List.length bs = 6%nat /\ (nsum bs mod 256 = 0)%N
    /\ always (parseFile_exec np (join (term_bytes t) [iline_of true bs])) (fun r => r = Ok ([(16, 1)]%N, None)).
Proof.
  exists 1%nat, Unix, [5; 0; 16; 0; 1; 234]%N. split; [reflexivity|]. split; [reflexivity|]. split; [reflexivity|].
  apply run_is; vm_compute; reflexivity.
Qed.
Print Assumptions C13_byte_count_refuted.

(** ** C14 no panic, no deadlock *)

(** For arbitrary file content: the result is a map and possibly an error
    (never a panic); each of the three phases goes on until it is done and
    takes finitely many steps, under every schedule. *)
Theorem C14_ihex_completes : forall np text, (0 < np)%nat ->
    (exists m e, always (parseFile_exec np text) (fun r => r = Ok (m, e)))
    /\ exists ms, parse_msgs np (splitLines text) = Ok ms
       /\ completes (cstep absorb_recs (List.length (splitLines text))) (fun s => c_done s = true) (cinit ms [])
       /\ forall recs, crun absorb_recs (List.length (splitLines text)) ms [] recs ->
            completes (p2step np) p2done (p2init np recs)
            /\ forall recs', p2run np recs (P2Good recs') ->
                 exists dms, data_msgs np recs' = Ok dms
                   /\ completes (cstep absorb_data 1) (fun s => c_done s = true) (cinit dms ([], None)).
Proof. exact ihex_completes. Qed.
Print Assumptions C14_ihex_completes.
