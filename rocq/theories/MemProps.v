(** Properties of the access to the memory image. *)
From Coq Require Import String Ascii List Arith NArith ZArith Bool Lia Floats.SpecFloat.
From Verif Require Import GoBase GoStrings HexSpec FloatModel FloatSpec FloatProofs MemModel MemSpec MemThm.
Import ListNotations.

Definition noAlign : alignment := Align 0 false.
Definition noAligns : alignments := Aligns noAlign noAlign noAlign noAlign noAlign noAlign noAlign.
(** an image of 16 bytes at 0x80000000 *)
Definition img : gomap := placed 0x80000000 [0x12; 0x34; 0x56; 0x78; 0x9A; 0xBC; 0xDE; 0xF0; 1; 2; 3; 4; 5; 6; 7; 8]%N.
Definition bigCtx : memctx := Ctx img noAligns MsbFirst true.
Definition littleCtx : memctx := Ctx img noAligns MsbLast true.

(** ** C26 reading bytes *)

(** The function panics for every length of a byte or more, whatever the image. *)
Theorem C26_reading_refuted : forall cx a len, (8 <= len)%N -> getBytes cx a len = Panic.
Proof. exact getBytes_panics. Qed.
Print Assumptions C26_reading_refuted.

(** For the remaining lengths it behaves as documented. *)
Theorem C26_no_bytes_guarded : forall cx a len, (len < 8)%N ->
    (len = 0%N -> getBytes cx a len = Ok []) /\ (len <> 0%N -> getBytes cx a len = Err MLen).
Proof.
  intros cx a len H. rewrite getBytes_short by exact H.
  destruct (N.eqb_spec len 0); split; intros; congruence.
Qed.
Print Assumptions C26_no_bytes_guarded.

(** With the slice allocated as intended, the loop is right: the consecutive
    bytes when all are present, an error otherwise. *)
Theorem C26_loop_guarded : forall cx a n, (8 * n < 2 ^ 32)%N ->
    (exists bs, N.of_nat (length bs) = n /\ bytes_at (cx_hex cx) a bs /\ getBytes_repaired cx a (8 * n) = Ok bs)
    \/ ((exists j, (j < n)%N /\ lookup ((a + j) mod 2 ^ 32) (cx_hex cx) = None)
        /\ getBytes_repaired cx a (8 * n) = Err MAddr).
Proof. exact repaired_spec. Qed.
Print Assumptions C26_loop_guarded.

Example C26_example :
  getBytes bigCtx 0x80000000 32 = Panic
  /\ getBytes_repaired bigCtx 0x80000002 32 = Ok [0x56; 0x78; 0x9A; 0xBC]%N
  /\ getBytes_repaired bigCtx 0x8000000E 32 = Err MAddr.
Proof. vm_compute. auto. Qed.

(** ** C27 next aligned address *)

(** The computed address is the next aligned one exactly when the address is
    aligned already or lies exactly in the middle between two aligned ones. *)
Theorem C27_alignment_guarded : forall rl cx d a bd r, (a < 2 ^ 32)%N -> bd <> 0%N ->
    in_force rl (cx_common cx) d bd -> getNextAlignedAddress cx a d rl = Ok r ->
    (aligned_up a bd r <->
       (a mod bd = 0)%N \/ ((2 * (a mod bd) = bd)%N /\ (a + a mod bd < 2 ^ 32)%N)).
Proof. exact align_right_iff. Qed.
Print Assumptions C27_alignment_guarded.

(** With the borders 1 and 2 it is always right. *)
Theorem C27_borders_1_2_guarded : forall rl cx d a bd, (a + 1 < 2 ^ 32)%N -> bd = 1%N \/ bd = 2%N ->
    in_force rl (cx_common cx) d bd ->
    exists r, getNextAlignedAddress cx a d rl = Ok r /\ aligned_up a bd r.
Proof.
  intros rl cx d a bd Ha Hb HF.
  assert (N0 : bd <> 0%N) by (destruct Hb; subst; lia).
  assert (R : exists r, getNextAlignedAddress cx a d rl = Ok r).
  { rewrite (align_value rl cx d a bd HF). destruct (N.eqb_spec bd 0); [contradiction|].
    destruct (a mod bd =? 0)%N; eauto. }
  destruct R as [r R]. exists r. split; [exact R|].
  apply (align_right_iff rl cx d a bd r); auto; [lia|].
  pose proof (N.mod_lt a bd N0) as L. set (m := (a mod bd)%N) in *. clearbody m. destruct Hb; subst; lia.
Qed.
Print Assumptions C27_borders_1_2_guarded.

(** ULONG at address 5 with the default border 4: 6 instead of 8. *)
Theorem C27_alignment_refuted : exists cx rl a d bd r,
    (a < 2 ^ 32)%N /\ in_force rl (cx_common cx) d bd /\ bd <> 0%N /\
    getNextAlignedAddress cx a d rl = Ok r /\ ~ aligned_up a bd r /\ aligned_up a bd 8.
Proof.
  exists bigCtx, noAligns, 5%N, ULONG, 4%N, 6%N.
  assert (F : in_force noAligns (cx_common bigCtx) ULONG 4) by (eapply from_default; reflexivity).
  split; [reflexivity|]. split; [exact F|]. split; [discriminate|]. split; [reflexivity|]. split.
  - intros H. apply aligned_up_val in H; vm_compute; discriminate.
  - apply aligned_up_val; [discriminate|vm_compute; discriminate|reflexivity].
Qed.
Print Assumptions C27_alignment_refuted.

(** An alignment border 0 crashes the program. *)
Theorem C27_border_zero_refuted : forall rl cx d a, in_force rl (cx_common cx) d 0 ->
    getNextAlignedAddress cx a d rl = Panic.
Proof. intros rl cx d a H. rewrite (align_value rl cx d a 0 H). reflexivity. Qed.
Print Assumptions C27_border_zero_refuted.

Example C27_example :
  let al := Aligns noAlign (Align 4 true) (Align 0 true) noAlign noAlign noAlign noAlign in
  let cx := Ctx [] al MsbFirst true in
  getNextAlignedAddress cx 6 UWORD noAligns = Ok 8%N /\ getNextAlignedAddress cx 5 UWORD noAligns = Ok 6%N
  /\ getNextAlignedAddress cx 6 ULONG noAligns = Panic.
Proof. vm_compute. auto. Qed.

(** ** C28 precedence *)

(** Only the border in force matters, with this result. *)
Theorem C28_precedence : forall rl cx d a bd, in_force rl (cx_common cx) d bd ->
    (bd = 0%N -> getNextAlignedAddress cx a d rl = Panic)
    /\ (bd <> 0%N -> (bd | a)%N -> getNextAlignedAddress cx a d rl = Ok a)
    /\ (bd <> 0%N -> ~ (bd | a)%N -> getNextAlignedAddress cx a d rl = Ok ((a + a mod bd) mod 2 ^ 32)%N).
Proof.
  intros rl cx d a bd H. rewrite (align_value rl cx d a bd H). split; [intros ->; reflexivity|].
  split; intros N0 D; (destruct (N.eqb_spec bd 0) as [E|_]; [contradiction|]);
    destruct (N.eqb_spec (a mod bd) 0) as [E|E]; try reflexivity;
    exfalso; [apply E, N.mod_divide; assumption|apply D, N.mod_divide; assumption].
Qed.
Print Assumptions C28_precedence.

(** Every data type has exactly one border in force. *)
Theorem C28_in_force : forall rl mc d, d <> DUndef -> exists! bd, in_force rl mc d bd.
Proof.
  intros rl mc d H. destruct (in_force_exists rl mc d H) as [bd F]. exists bd. split; [exact F|].
  intros b2 F2. eapply in_force_fun; eauto.
Qed.
Print Assumptions C28_in_force.

(** An unknown data type is not aligned. *)
Theorem C28_unknown_type : forall rl cx a, getNextAlignedAddress cx a DUndef rl = Ok a.
Proof. reflexivity. Qed.
Print Assumptions C28_unknown_type.

Example C28_example :
  let rl := Aligns noAlign (Align 4 true) noAlign noAlign noAlign noAlign noAlign in
  let mc := Aligns noAlign (Align 8 true) (Align 8 true) noAlign noAlign noAlign noAlign in
  in_force rl mc UWORD 4 /\ in_force rl mc ULONG 8 /\ in_force rl mc UBYTE 1
  /\ getNextAlignedAddress (Ctx [] mc MsbFirst true) 12 UWORD rl = Ok 12%N
  /\ getNextAlignedAddress (Ctx [] mc MsbFirst true) 12 ULONG rl = Ok 16%N.
Proof.
  intros rl mc. split; [exact (from_layout rl mc UWORD AlignmentWord 2 eq_refl eq_refl)|].
  split; [exact (from_common rl mc ULONG AlignmentLong 4 eq_refl eq_refl eq_refl)|].
  split; [eapply from_default; reflexivity|]. vm_compute. auto.
Qed.

(** ** C29 integers *)

(** One byte and eight byte integers are converted correctly: rounded to the
    nearest float64, exactly below 2^53. *)
Theorem C29_integers_guarded : forall cx big d sg z, ordered cx big -> int_type d = Some sg ->
    d = UBYTE \/ d = SBYTE \/ d = AUint64 \/ d = AInt64 -> in_range sg (size_bytes d) z ->
    exists f, convertByteSliceToDatatype cx (encode big (size_bytes d) (twos (size_bytes d) z)) d = Ok f
      /\ nearest (z * unit1) f /\ ((Z.abs z < 2 ^ 53)%Z -> exactly (z * unit1) f).
Proof.
  intros cx big d sg z Ho Ht Hd Hr. exists (f_of_Z z).
  assert (W : size_bytes d = code_width d) by (destruct Hd as [->|[->|[->| ->]]]; reflexivity).
  rewrite W in *. split; [apply convert_int with sg; assumption|].
  split; [|apply f_of_Z_exact]. apply f_of_Z_nearest.
  apply Z.lt_le_trans with (2 ^ 64)%Z; [|apply Z.pow_le_mono_r; lia].
  destruct Hd as [->|[->|[->| ->]]]; cbn in Ht; injection Ht as <-; cbn in Hr; lia.
Qed.
Print Assumptions C29_integers_guarded.

(** Two byte words are never converted. *)
Theorem C29_words_refuted : forall cx bs d, d = UWORD \/ d = SWORD -> length bs = size_bytes d ->
    convertByteSliceToDatatype cx bs d = Err MShort.
Proof. intros cx bs d H L. apply convert_short. destruct H; subst; rewrite L; reflexivity. Qed.
Print Assumptions C29_words_refuted.

(** Four byte longs crash the program. *)
Theorem C29_longs_refuted : forall cx big bs d, ordered cx big -> d = ULONG \/ d = SLONG -> length bs = size_bytes d ->
    convertByteSliceToDatatype cx bs d = Panic.
Proof.
  intros cx big bs d Ho H L. apply convert_panic_iff. split; [exact H|].
  split; [destruct H; subst; rewrite L; cbn; lia|eapply ordered_usable; eauto].
Qed.
Print Assumptions C29_longs_refuted.

(** What is converted: words of four and longs of eight bytes. *)
Theorem C29_widths : forall cx big d sg z, ordered cx big -> int_type d = Some sg -> d <> DUndef ->
    in_range sg (match d with UBYTE | SBYTE => 1 | UWORD | SWORD => 4 | _ => 8 end) z ->
    exists f, nearest (z * unit1) f /\
      convertByteSliceToDatatype cx
        (encode big (match d with UBYTE | SBYTE => 1 | UWORD | SWORD => 4 | _ => 8 end)
           (twos (match d with UBYTE | SBYTE => 1 | UWORD | SWORD => 4 | _ => 8 end) z)) d = Ok f.
Proof.
  intros cx big d sg z Ho Ht _ Hr. exists (f_of_Z z). split; [|apply convert_int with sg; assumption].
  apply f_of_Z_nearest. apply Z.lt_le_trans with (2 ^ 64)%Z; [|apply Z.pow_le_mono_r; lia].
  destruct d; cbn in Ht; try discriminate; injection Ht as <-; cbn in Hr; lia.
Qed.
Print Assumptions C29_widths.

Example C29_example :
  ordered bigCtx true /\ ordered littleCtx false
  /\ encode true 8 (twos 8 (-2)) = [255; 255; 255; 255; 255; 255; 255; 254]%N
  /\ in_range true 8 (-2)
  /\ (exists f, convertByteSliceToDatatype bigCtx [255; 255; 255; 255; 255; 255; 255; 254]%N AInt64 = Ok f
        /\ fval f = Some (-2 * unit1)%Z)
  /\ convertByteSliceToDatatype littleCtx [1; 2]%N UWORD = Err MShort
  /\ convertByteSliceToDatatype littleCtx [1; 2; 3; 4]%N ULONG = Panic.
Proof.
  split; [apply order_big; cbn; auto|]. split; [apply order_little; cbn; auto|].
  split; [vm_compute; reflexivity|]. split; [cbn; lia|].
  split; [eexists; split; vm_compute; reflexivity|]. vm_compute. auto.
Qed.

(** ** C30 panics *)

(** The conversion panics exactly for ULONG and SLONG with four to seven bytes. *)
Theorem C30_panic_iff : forall cx bs d,
    convertByteSliceToDatatype cx bs d = Panic <->
      (d = ULONG \/ d = SLONG) /\ (4 <= length bs < 8)%nat
      /\ cx_order cx <> MsbFirstMswLast /\ cx_order cx <> MsbLastMswFirst
      /\ (cx_orderSet cx = true -> cx_order cx <> BUndef).
Proof.
  intros cx bs d. rewrite convert_panic_iff. unfold order_usable.
  destruct cx as [h al o s]. cbn [cx_order cx_orderSet].
  split; intros (H1 & H2 & H3); (split; [exact H1|]); (split; [exact H2|]).
  - destruct o, s; cbn in H3; try discriminate; repeat split; intros; discriminate.
  - destruct H3 as (K1 & K2 & K3). destruct o, s; cbn; try reflexivity; try congruence.
    exfalso. apply K3; reflexivity.
Qed.
Print Assumptions C30_panic_iff.

Theorem C30_never_panics_guarded : forall cx bs d, (d <> ULONG /\ d <> SLONG) \/ (8 <= length bs)%nat ->
    convertByteSliceToDatatype cx bs d <> Panic.
Proof. intros cx bs d H E. apply convert_panic_iff in E. destruct E as ([E|E] & L & _), H as [[? ?]|?]; try congruence; lia. Qed.
Print Assumptions C30_never_panics_guarded.

Theorem C30_panic_refuted : exists cx bs d, ordered cx true /\ convertByteSliceToDatatype cx bs d = Panic.
Proof. exists bigCtx, [0x12; 0x34; 0x56; 0x78]%N, ULONG. split; [apply order_big; cbn; auto|reflexivity]. Qed.
Print Assumptions C30_panic_refuted.

(** ** C31 floats *)

Theorem C31_float32 : forall cx big s ex m, ordered cx big -> (m < 2 ^ 23)%N -> (ex < 255)%N ->
    exists f, convertByteSliceToDatatype cx (encode big 4 (ieee_bits 23 8 s ex m)) Float32Ieee = Ok f
      /\ exactly (ieee_value 23 8 s ex m) f.
Proof.
  intros cx big s ex m Ho Hm He. eexists. split; [|apply float32_value; assumption].
  apply convert_float32; [exact Ho|].
  pose proof (bits_bound 23 8 s ex m Hm) as B. apply B. change (2 ^ 8)%N with 256%N. lia.
Qed.
Print Assumptions C31_float32.

Theorem C31_float64 : forall cx big s ex m, ordered cx big -> (m < 2 ^ 52)%N -> (ex < 2047)%N ->
    exists f, convertByteSliceToDatatype cx (encode big 8 (ieee_bits 52 11 s ex m)) Float64Ieee = Ok f
      /\ exactly (ieee_value 52 11 s ex m) f.
Proof.
  intros cx big s ex m Ho Hm He. eexists. split; [|apply float64_value; assumption].
  apply convert_float64; [exact Ho|].
  pose proof (bits_bound 52 11 s ex m Hm) as B. apply B. change (2 ^ 11)%N with 2048%N. lia.
Qed.
Print Assumptions C31_float64.

(** Infinities and NaN *)
Theorem C31_special : forall cx big s, ordered cx big ->
    (forall m, (m < 2 ^ 23)%N ->
       convertByteSliceToDatatype cx (encode big 4 (ieee_bits 23 8 s 255 m)) Float32Ieee
         = Ok (if (m =? 0)%N then S754_infinity s else S754_nan))
    /\ (forall m, (m < 2 ^ 52)%N ->
       convertByteSliceToDatatype cx (encode big 8 (ieee_bits 52 11 s 2047 m)) Float64Ieee
         = Ok (if (m =? 0)%N then S754_infinity s else S754_nan)).
Proof.
  intros cx big s Ho. split; intros m Hm.
  - rewrite (convert_float32 cx big _ Ho); [rewrite float32_special by exact Hm; reflexivity|].
    apply (bits_bound 23 8 s 255 m Hm). reflexivity.
  - rewrite (convert_float64 cx big _ Ho); [rewrite float64_special by exact Hm; reflexivity|].
    apply (bits_bound 52 11 s 2047 m Hm). reflexivity.
Qed.
Print Assumptions C31_special.

Lemma half_value : forall s ex m, (m < 1024)%N -> (ex < 31)%N -> ~ (s = false /\ ex = 0 /\ m = 0)%N ->
    ieee_value 10 5 s ex m <> (Z.of_N (ieee_bits 10 5 s ex m) * unit1)%Z.
Proof.
  intros s ex m Hm He Hz E.
  set (k := (if (ex =? 0)%N then 0 else Z.of_N ex - 1)%Z).
  assert (V : ieee_value 10 5 s ex m =
    ((if s then -1 else 1) * (if (ex =? 0)%N then Z.of_N m else 1024 + Z.of_N m) * 2 ^ k * 2 ^ 1050)%Z).
  { unfold ieee_value, k. change (2 ^ (Z.of_N 5 - 1) - 1)%Z with 15%Z. change (Z.of_N 10) with 10%Z.
    destruct (N.eqb_spec ex 0) as [->|N0].
    - change (1 - 15 - 10 + 1074)%Z with 1050%Z. rewrite Z.pow_0_r. lia.
    - replace (Z.of_N ex - 15 - 10 + 1074)%Z with (Z.of_N ex - 1 + 1050)%Z by lia.
      rewrite Z.pow_add_r by lia. change (2 ^ 10)%Z with 1024%Z. rewrite !Z.mul_assoc. reflexivity. }
  assert (D : unit1 = (2 ^ 24 * 2 ^ 1050)%Z) by (unfold unit1; rewrite <- Z.pow_add_r by lia; reflexivity).
  rewrite V, D, (Z.mul_assoc (Z.of_N _)) in E.
  assert (N0 : (2 ^ 1050 <> 0)%Z) by (apply Z.pow_nonzero; lia).
  apply (proj1 (Z.mul_cancel_r _ _ _ N0)) in E. clear V D N0.
  unfold ieee_bits in E. change (2 ^ (10 + 5))%N with 32768%N in E. change (2 ^ 10)%N with 1024%N in E.
  assert (P : (0 < 2 ^ k)%Z) by (apply Z.pow_pos_nonneg; [lia|]; unfold k; destruct (N.eqb_spec ex 0); lia).
  destruct s.
  - assert (0 <= (if (ex =? 0)%N then Z.of_N m else 1024 + Z.of_N m))%Z by (destruct (ex =? 0)%N; lia). nia.
  - assert (C : In ex (map N.of_nat (seq 0 31))).
    { rewrite <- (N2Nat.id ex). apply in_map, in_seq. lia. }
    cbn in C. repeat (destruct C as [<-|C]; [vm_compute in k; subst k; cbn [N.eqb] in *; lia|]).
    destruct C.
Qed.

(** Half precision numbers: every pattern of a number except that of zero is
    converted to another number, namely to the bit pattern as an integer. *)
Theorem C31_float16_refuted : forall cx big s ex m, ordered cx big -> (m < 1024)%N -> (ex < 31)%N ->
    ~ (s = false /\ ex = 0 /\ m = 0)%N ->
    exists f, convertByteSliceToDatatype cx (encode big 2 (ieee_bits 10 5 s ex m)) Float16Ieee = Ok f
      /\ fval f = Some (Z.of_N (ieee_bits 10 5 s ex m) * unit1)%Z
      /\ ~ exactly (ieee_value 10 5 s ex m) f.
Proof.
  intros cx big s ex m Ho Hm He Hz. exists (f_of_Z (Z.of_N (ieee_bits 10 5 s ex m))).
  assert (B : (ieee_bits 10 5 s ex m < 65536)%N).
  { apply (bits_bound 10 5 s ex m Hm). change (2 ^ 5)%N with 32%N. lia. }
  split; [apply convert_float16; [exact Ho|exact B]|].
  destruct (f_of_Z_exact (Z.of_N (ieee_bits 10 5 s ex m))) as [_ E]; [lia|]. split; [exact E|].
  intros [_ E2]. rewrite E in E2. apply (f_equal (fun o => match o with Some x => x | None => 0%Z end)) in E2. cbn in E2.
  symmetry in E2. revert E2. apply half_value; assumption.
Qed.
Print Assumptions C31_float16_refuted.

Example C31_example :
  (* 1.5 = 0x3FC00000; 2.0 in half precision = 0x4000 *)
  convertByteSliceToDatatype littleCtx [0; 0; 0xC0; 0x3F]%N Float32Ieee = Ok (S754_finite false 6755399441055744 (-52))
  /\ fval (S754_finite false 6755399441055744 (-52)) = Some (3 * 2 ^ 1073)%Z
  /\ ieee_value 10 5 false 16 0 = (2 * unit1)%Z
  /\ convertByteSliceToDatatype bigCtx [0x40; 0]%N Float16Ieee = Ok (f_of_Z 16384).
Proof. vm_compute. auto. Qed.

(** ** C32 address texts *)

(** Eight digits, with or without prefix, in a big endian module *)
Theorem C32_address_guarded : forall cx pre t bs, ordered cx true -> pre = b "0x" \/ pre = [] ->
    hex_text_any t bs -> length bs = 4 ->
    convertStringToUint32Address cx (pre ++ t) = Ok (number bs).
Proof.
  intros cx pre t bs Ho Hp Ht L. rewrite (address_text cx true pre t bs Ho Ht Hp).
  unfold U, beUint. rewrite L. cbn [Nat.ltb Nat.leb]. rewrite firstn_all2 by lia. rewrite number_be. reflexivity.
Qed.
Print Assumptions C32_address_guarded.

(** In a little endian module the bytes are swapped. *)
Theorem C32_byte_order_refuted : forall cx pre t bs, ordered cx false -> pre = b "0x" \/ pre = [] ->
    hex_text_any t bs -> length bs = 4 ->
    convertStringToUint32Address cx (pre ++ t) = Ok (number (rev bs)).
Proof.
  intros cx pre t bs Ho Hp Ht L. rewrite (address_text cx false pre t bs Ho Ht Hp).
  unfold U, leUint. rewrite L. cbn [Nat.ltb Nat.leb]. rewrite firstn_all2 by lia. rewrite number_be. reflexivity.
Qed.
Print Assumptions C32_byte_order_refuted.

(** Fewer than eight digits (an even number) crash the program, in any order. *)
Theorem C32_short_refuted : forall cx big pre t bs, ordered cx big -> pre = b "0x" \/ pre = [] ->
    hex_text_any t bs -> (length bs < 4)%nat ->
    convertStringToUint32Address cx (pre ++ t) = Panic.
Proof.
  intros cx big pre t bs Ho Hp Ht L. rewrite (address_text cx big pre t bs Ho Ht Hp). apply U_short. exact L.
Qed.
Print Assumptions C32_short_refuted.

(** Digits after the eighth are ignored, and a prefix in the middle too. *)
Theorem C32_malformed_refuted : forall cx t1 t2 bs, ordered cx true ->
    hex_text_any (t1 ++ t2) bs -> (4 <= length bs)%nat ->
    convertStringToUint32Address cx (t1 ++ b "0x" ++ t2) = Ok (number (firstn 4 bs)).
Proof.
  intros cx t1 t2 bs Ho Ht L. rewrite (address_inner cx true t1 t2 bs Ho Ht).
  unfold U, beUint. assert ((length bs <? 4) = false) as -> by (apply Nat.ltb_ge; lia).
  rewrite number_be. reflexivity.
Qed.
Print Assumptions C32_malformed_refuted.

(** Texts with a character that is no digit and not the letter x are errors. *)
Theorem C32_foreign_character : forall cx t c, In c t -> hex_any c = None -> c <> "x"%char ->
    convertStringToUint32Address cx t = Err MText.
Proof. intros cx t c H1 H2 H3. apply address_malformed with c; assumption. Qed.
Print Assumptions C32_foreign_character.

Example C32_example :
  convertStringToUint32Address bigCtx (b "0x80012aFc") = Ok 0x80012AFC%N
  /\ convertStringToUint32Address littleCtx (b "0x80012aFc") = Ok 0xFC2A0180%N
  /\ convertStringToUint32Address bigCtx (b "0x1234") = Panic
  /\ convertStringToUint32Address bigCtx (b "0x1234567") = Err MText
  /\ convertStringToUint32Address bigCtx (b "80010x2aFCFF") = Ok 0x80012AFC%N
  /\ convertStringToUint32Address bigCtx (b "0X80012aFc") = Err MText.
Proof. vm_compute. repeat split; reflexivity. Qed.

(** ** C60 read positions *)

(** Reading a component of a known type panics (see C26). *)
Theorem C60_components_refuted : forall cx rl d a, d <> DUndef ->
    getInt getBytes cx rl (Comp d true) a = (Panic, a)
    /\ getIdentification getBytes cx rl (Comp d true) a = (Panic, a)
    /\ (forall no, (0 < no)%Z -> getAxisPoints getBytes cx rl None no d a = (Panic, a))
    /\ (forall n, (0 < n)%N -> forall no, getAxisPoints getBytes cx rl (Some n) no d a = (Panic, a))
    /\ getFncValues1D getBytes cx rl d a = (Panic, a).
Proof.
  intros cx rl d a H. split; [apply getInt_panics; exact H|]. split; [apply getIdent_panics; exact H|].
  split; [|split].
  - intros no Hn. unfold getAxisPoints. assert ((no <=? 0)%Z = false) as -> by (apply Z.leb_gt; lia).
    apply getAxis_panics; [exact H|lia].
  - intros n Hn no. unfold getAxisPoints. apply getAxis_panics; [exact H|lia].
  - unfold getFncValues1D. rewrite getValue_panics by exact H. reflexivity.
Qed.
Print Assumptions C60_components_refuted.

(** Were it not for that, the position would advance by eight times the number
    of bytes read, and without regard to the alignment of what was read. *)
Theorem C60_position_refuted : forall cx rl c a v p, getInt getBytes_repaired cx rl c a = (Ok v, p) ->
    exists r bs, getNextAlignedAddress cx a (c_type c) rl = Ok r /\ bytes_at (cx_hex cx) r bs /\ (0 < length bs)%nat /\
      p = ((a + 8 * N.of_nat (length bs)) mod 2 ^ 32)%N.
Proof. exact repaired_position. Qed.
Print Assumptions C60_position_refuted.

(** The points of an axis are delivered in the order of their places; the
    place of point [k] is [k] times eight times the width behind the first. *)
Theorem C60_axis_refuted : forall cx rl fix_ no d a vs p, (a < 2 ^ 32)%N ->
    getAxisPoints getBytes_repaired cx rl fix_ no d a = (Ok vs, p) ->
    exists w : N,
      Z.of_nat (length vs) = match fix_ with Some n => Z.of_N n | None => no end
      /\ p = ((a + N.of_nat (length vs) * (8 * w)) mod 2 ^ 32)%N
      /\ forall k v, nth_error vs k = Some v ->
           exists r bs, getNextAlignedAddress cx ((a + N.of_nat k * (8 * w)) mod 2 ^ 32) d rl = Ok r
             /\ bytes_at (cx_hex cx) r bs /\ N.of_nat (length bs) = w
             /\ convertByteSliceToDatatype cx bs d = Ok v.
Proof.
  intros cx rl fix_ no d a vs p Ha H. exists (GetDatatypeLength d / 8)%N.
  destruct (type_bits d) as [T _]. rewrite <- T.
  assert (G : forall n, axisLoop getBytes_repaired cx rl n d [] a = (Ok vs, p) ->
    length vs = n /\ p = ((a + N.of_nat n * GetDatatypeLength d) mod 2 ^ 32)%N /\
    forall k v, nth_error vs k = Some v ->
      exists r bs, getNextAlignedAddress cx ((a + N.of_nat k * GetDatatypeLength d) mod 2 ^ 32) d rl = Ok r
        /\ bytes_at (cx_hex cx) r bs /\ N.of_nat (length bs) = (GetDatatypeLength d / 8)%N
        /\ convertByteSliceToDatatype cx bs d = Ok v).
  { intros n E. apply repaired_axis in E; [|exact Ha]. destruct E as (P & vs' & -> & L & K). cbn [app].
    split; [exact L|]. split; [exact P|]. intros k v Hv. destruct (K k v Hv) as (r & bs & R1 & R2 & R3 & R4).
    exists r, bs. repeat split; try assumption. lia. }
  unfold getAxisPoints in H. destruct fix_ as [n|].
  - apply G in H. destruct H as (L & P & K). split; [lia|]. split; [rewrite L; exact P|exact K].
  - destruct (no <=? 0)%Z eqn:E; [discriminate|]. apply Z.leb_gt in E.
    apply G in H. destruct H as (L & P & K). split; [lia|]. split; [rewrite L; exact P|exact K].
Qed.
Print Assumptions C60_axis_refuted.

(** RESERVED is skipped by 8, 32 or 64 addresses for 1, 2 or 4 bytes (this
    function does read nothing, so it is reached in the program as it is). *)
Theorem C60_reserved_refuted : forall a, (a + 64 < 2 ^ 32)%N ->
    getReserved BYTE true a = (Ok tt, a + 8)%N
    /\ getReserved WORD true a = (Ok tt, a + 32)%N
    /\ getReserved LONG true a = (Ok tt, a + 64)%N.
Proof.
  intros a H. unfold getReserved. cbn [negb GetDataSizeLength].
  change (2 ^ 32)%N with 4294967296%N in H. rewrite !u32_small by lia. auto.
Qed.
Print Assumptions C60_reserved_refuted.

(** An unset component is an error and does not move the position. *)
Theorem C60_unset_guarded : forall gb cx rl d a,
    getInt gb cx rl (Comp d false) a = (Err MUnset, a) /\ getIdentification gb cx rl (Comp d false) a = (Err MUnset, a).
Proof. intros. split; reflexivity. Qed.
Print Assumptions C60_unset_guarded.

Lemma truncated : forall s m e, (-1074 <= e)%Z ->
    SpecFloat.cond_Zopp s (if (0 <=? e)%Z then Z.pos m * 2 ^ e else Z.pos m / 2 ^ (- e))%Z
    = Z.quot ((if s then -1 else 1) * Z.pos m * 2 ^ (e + 1074)) unit1.
Proof.
  intros s m e F2. assert (U : unit1 = (2 ^ 1074)%Z) by reflexivity.
  assert (T' : (if (0 <=? e)%Z then Z.pos m * 2 ^ e else Z.pos m / 2 ^ (- e))%Z
              = Z.quot (Z.pos m * 2 ^ (e + 1074)) unit1).
  { rewrite U. rewrite Z.quot_div_nonneg by (try apply Z.mul_nonneg_nonneg; try (apply Z.pow_pos_nonneg; lia); try apply Z.pow_nonneg; lia).
    destruct (Z.leb_spec 0 e).
    - rewrite Z.pow_add_r by lia. rewrite Z.mul_assoc, Z.div_mul; [reflexivity|]. apply Z.pow_nonzero; lia.
    - replace (2 ^ 1074)%Z with (2 ^ (- e) * 2 ^ (e + 1074))%Z by (rewrite <- Z.pow_add_r by lia; f_equal; lia).
      rewrite Z.div_mul_cancel_r; [reflexivity| |]; apply Z.pow_nonzero; lia. }
  rewrite T'. destruct s; cbn [SpecFloat.cond_Zopp].
  - rewrite <- Z.quot_opp_l by (rewrite U; apply Z.pow_nonzero; lia). f_equal; ring.
  - f_equal; ring.
Qed.

(** A component that is a float is cut off towards zero. *)
Theorem C60_truncation : forall f v, is_float64 f -> fval f = Some v ->
    (- 2 ^ 63 <= Z.quot v unit1 < 2 ^ 63)%Z -> int64_of f = Z.quot v unit1.
Proof.
  intros f v F V R. destruct f as [s|s| |s m e]; cbn [fval] in V; try discriminate.
  - injection V as <-. reflexivity.
  - injection V as <-. destruct F as (F1 & F2 & F3). unfold int64_of. cbv zeta.
    rewrite truncated by lia. change (2 ^ 63)%Z with 9223372036854775808%Z in R.
    destruct (Z.leb_spec (-9223372036854775808) (Z.quot ((if s then -1 else 1) * Z.pos m * 2 ^ (e + 1074)) unit1)); [|lia].
    destruct (Z.leb_spec (Z.quot ((if s then -1 else 1) * Z.pos m * 2 ^ (e + 1074)) unit1) 9223372036854775807); [reflexivity|lia].
Qed.
Print Assumptions C60_truncation.

(** Infinite values, no numbers and values out of range are the least integer (on
    amd64; the language leaves it open). *)
Theorem C60_out_of_range : forall f, is_float64 f ->
    (fval f = None \/ exists v, fval f = Some v /\ ~ (- 2 ^ 63 <= Z.quot v unit1 < 2 ^ 63)%Z) -> int64_of f = (- 2 ^ 63)%Z.
Proof.
  intros f F V. destruct f as [s|s| |s m e]; cbn [fval] in V; try reflexivity.
  - destruct V as [V|(v & V & R)]; [discriminate|]. injection V as <-. destruct R. rewrite Z.quot_0_l by (intros K; discriminate K). split; [discriminate|reflexivity].
  - destruct V as [V|(v & V & R)]; [discriminate|]. injection V as <-. destruct F as (F1 & F2 & F3). unfold int64_of. cbv zeta.
    rewrite truncated by lia. change (2 ^ 63)%Z with 9223372036854775808%Z in *.
    destruct (Z.leb_spec (-9223372036854775808) (Z.quot ((if s then -1 else 1) * Z.pos m * 2 ^ (e + 1074)) unit1)); [|reflexivity].
    destruct (Z.leb_spec (Z.quot ((if s then -1 else 1) * Z.pos m * 2 ^ (e + 1074)) unit1) 9223372036854775807); [destruct R; lia|reflexivity].
Qed.
Print Assumptions C60_out_of_range.
Example C60_out_of_range_example : int64_of (SpecFloat.S754_finite false (2 ^ 52) 11) = (- 2 ^ 63)%Z /\ int64_of (SpecFloat.S754_finite true (2 ^ 52 + 1) 11) = (- 2 ^ 63)%Z
  /\ int64_of (SpecFloat.S754_finite false (2 ^ 53 - 1) 10) = (2 ^ 63 - 2 ^ 10)%Z.
Proof. repeat split; vm_compute; reflexivity. Qed.

Example C60_example :
  getInt getBytes bigCtx noAligns (Comp UBYTE true) 0x80000001 = (Panic, 0x80000001%N)
  /\ getInt getBytes_repaired bigCtx noAligns (Comp UBYTE true) 0x80000001 = (Ok 0x34%Z, 0x80000009%N)
  /\ snd (getAxisPoints getBytes_repaired bigCtx noAligns (Some 2%N) 0 UBYTE 0x80000000) = 0x80000010%N
  /\ (exists x y p, getAxisPoints getBytes_repaired bigCtx noAligns (Some 2%N) 0 UBYTE 0x80000000 = (Ok [x; y], p)).
Proof. split; [|split; [|split]]; [..|do 3 eexists]; vm_compute; reflexivity. Qed.
