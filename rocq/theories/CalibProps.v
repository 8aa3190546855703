(** Properties of ReadCalibration.  [readCalibration RA RH log r]: some schedule
    of the caller and its two reader goroutines gives [r], where [RA], [RH] are
    the sets of outcomes of the A2L and of the hex reader. *)
From Coq Require Import String Ascii List Arith NArith Bool Lia.
From Verif Require Import GoBase HexSpec IhexSpec IhexModel IhexThm SrecModel SrecSpec SrecThm
  CalibModel CalibProofs CalibSpec CalibThm IhexProps.
Import ListNotations.

(** ** C22 result *)

(** Exactly these results are possible. *)
Theorem C22_results : forall A H E (RA : outcome E A -> Prop) (RH : outcome E H -> Prop) r,
    readCalibration RA RH None r <->
      (exists a m, RA (Ok a) /\ RH (Ok m) /\ r = RReturned (CD (Some a) (Some m)) None)
      \/ (exists e o, RA (Err e) /\ RH o /\ o <> Panic /\ r = RReturned (CD None None) (Some e))
      \/ (exists e o, RH (Err e) /\ RA o /\ o <> Panic /\ r = RReturned (CD None None) (Some e))
      \/ ((RA Panic \/ RH Panic) /\ r = RCrashed).
Proof.
  intros A H E RA RH r. rewrite rc_results. split.
  - intros [K|[(e & [[K1 [o K2]]|[K1 [o K2]]] & ->)|K]]; [left; exact K| | |tauto].
    + right; left. destruct o as [m|e2]; [exists e, (Ok m)|exists e, (Err e2)]; repeat split; auto; discriminate.
    + right; right; left. destruct o as [m|e2]; [exists e, (Ok m)|exists e, (Err e2)]; repeat split; auto; discriminate.
  - intros [K|[(e & o & K1 & K2 & K3 & ->)|[(e & o & K1 & K2 & K3 & ->)|K]]]; [left; exact K| | |tauto].
    + right; left. exists e. split; [left; split; [exact K1|]|reflexivity].
      destruct o as [m|e2|]; [exists (inl m)|exists (inr e2)|congruence]; exact K2.
    + right; left. exists e. split; [right; split; [exact K1|]|reflexivity].
      destruct o as [m|e2|]; [exists (inl m)|exists (inr e2)|congruence]; exact K2.
Qed.
Print Assumptions C22_results.

Theorem C22_no_error_iff : forall A H E (oa : outcome E A) (oh : outcome E H), oa <> Panic -> oh <> Panic ->
    always (readCalibration (fun r => r = oa) (fun r => r = oh) None)
      (fun r => match oa, oh with
                | Ok a, Ok m => r = RReturned (CD (Some a) (Some m)) None
                | Err e, Ok _ | Ok _, Err e => r = RReturned (CD None None) (Some e)
                | Err e1, Err e2 => r = RReturned (CD None None) (Some e1) \/ r = RReturned (CD None None) (Some e2)
                | _, _ => False
                end).
Proof. exact rc_det. Qed.
Print Assumptions C22_no_error_iff.

(** From the bytes of the hex file to the map handed to the user. *)
Theorem C22_intel_hex_file : forall EA A np RA (PA : A -> Prop) path t items, (0 < np)%nat ->
    hexKindOf path = KIhex -> always RA (fun r => exists a, r = Ok a /\ PA a) ->
    Forall item_ok items -> zero_upper_last (items_recs items) -> NoDup (map fst (image (items_recs items))) ->
    always (@readCalibrationFiles EA A np true RA path (Some (ifile t items)))
      (fun r => exists a m, r = RReturned (CD (Some a) (Some m)) None /\ PA a /\ map_is m (image (items_recs items))).
Proof. exact read_ihex. Qed.
Print Assumptions C22_intel_hex_file.

Theorem C22_s19_file : forall EA A np RA (PA : A -> Prop) path t items tail, (0 < np)%nat ->
    hexKindOf path = KSrec -> always RA (fun r => exists a, r = Ok a /\ PA a) ->
    Forall sitem_ok items -> Forall not_s3 tail -> NoDup (map fst (s3image (sitems_recs items))) ->
    always (@readCalibrationFiles EA A np true RA path (Some (sfile t items tail)))
      (fun r => exists a m, r = RReturned (CD (Some a) (Some m)) None /\ PA a /\ map_is m (s3image (sitems_recs items))).
Proof. exact read_srec. Qed.
Print Assumptions C22_s19_file.

(** The errors of the hex reader reach the user, without data, under every
    schedule: a missing file, a path of no known kind, a wrong checksum, two
    values for one address. *)
Theorem C22_unreadable : forall EA A np RA path file, always RA (fun r => exists a : A, r = Ok a) ->
    (hexKindOf path = KNone ->
       always (@readCalibrationFiles EA A np true RA path file) (fun r => r = RReturned (CD None None) (Some CEType)))
    /\ (hexKindOf path <> KNone ->
       always (@readCalibrationFiles EA A np true RA path None) (fun r => r = RReturned (CD None None) (Some (CEHex EFile)))).
Proof.
  intros EA A np RA path file Ha. split; intros Hk.
  - eapply always_impl; [|apply (read_err _ _ _ RA _ (fun e => e = CEType) Ha)].
    + intros r (e & -> & ->). reflexivity.
    + unfold hexOut. rewrite Hk. split; [eauto|]. intros r ->. eauto.
  - eapply always_impl; [|apply (read_err _ _ _ RA _ (fun e => e = CEHex EFile) Ha)].
    + intros r (e & -> & ->). reflexivity.
    + unfold hexOut. destruct (hexKindOf path); [| |congruence]; (split; [eauto|]; intros r ->; eauto).
Qed.
Print Assumptions C22_unreadable.

Theorem C22_intel_hex_error : forall EA A np RA path t lines, (0 < np)%nat -> hexKindOf path = KIhex ->
    always RA (fun r => exists a : A, r = Ok a) ->
    lines <> [] -> Forall no_eol lines -> Forall fine_line lines ->
    Forall (fun l => (11 <= List.length l)%nat -> whole_bytes l) lines ->
    (exists l, In l lines /\ (11 <= List.length l)%nat /\ ~ good_sum l) ->
    always (@readCalibrationFiles EA A np true RA path (Some (join (term_bytes t) lines)))
      (fun r => r = RReturned (CD None None) (Some (CEHex EChecksum))).
Proof.
  intros EA A np RA path t lines Hnp Hk Ha H1 H2 H3 H4 H5.
  eapply always_impl; [|apply (read_err _ _ _ RA _ (fun e => e = CEHex EChecksum) Ha)].
  - intros r (e & -> & ->). reflexivity.
  - eapply always_impl; [|apply (hexOut_ihex_err EA np path (join (term_bytes t) lines) (fun e => e = EChecksum) Hk)].
    + intros r (e & -> & ->). eauto.
    + eapply always_impl; [|exact (checksum_error np t lines Hnp H1 H2 H3 H4)].
      intros r Hr. apply (proj2 Hr) in H5. subst r. eauto.
Qed.
Print Assumptions C22_intel_hex_error.

Theorem C22_s19_error : forall EA A np RA path t lines tail, (0 < np)%nat -> hexKindOf path = KSrec ->
    always RA (fun r => exists a : A, r = Ok a) ->
    Forall no_eol lines -> Forall s3_fine lines -> Forall not_s3 tail ->
    (exists l, In l lines /\ (11 <= List.length l)%nat /\ ~ s3_good l) ->
    always (@readCalibrationFiles EA A np true RA path (Some (join (term_bytes t) (lines ++ tail))))
      (fun r => r = RReturned (CD None None) (Some (CEHex EChecksum))).
Proof.
  intros EA A np RA path t lines tail Hnp Hk Ha H2 H3 H4 H5.
  eapply always_impl; [|apply (read_err _ _ _ RA _ (fun e => e = CEHex EChecksum) Ha)].
  - intros r (e & -> & ->). reflexivity.
  - eapply always_impl; [|apply (hexOut_srec_err EA np path (join (term_bytes t) (lines ++ tail)) (fun e => e = EChecksum) Hk)].
    + intros r (e & -> & ->). eauto.
    + eapply always_impl; [|exact (srec_checksum_error np t lines tail Hnp H2 H3 H4)].
      intros r Hr. apply (proj2 Hr) in H5. subst r. eauto.
Qed.
Print Assumptions C22_s19_error.

Theorem C22_collision_error : forall EA A np RA path t items sitems tail, (0 < np)%nat ->
    always RA (fun r => exists a : A, r = Ok a) ->
    (hexKindOf path = KIhex -> Forall item_ok items -> zero_upper_last (items_recs items) ->
     ~ NoDup (map fst (image (items_recs items))) ->
       always (@readCalibrationFiles EA A np true RA path (Some (ifile t items)))
         (fun r => exists a v0 v, r = RReturned (CD None None) (Some (CEHex (ECollision a v0 v)))
            /\ exists pre post, image (items_recs items) = pre ++ (a, v) :: post /\ In (a, v0) pre))
    /\ (hexKindOf path = KSrec -> Forall sitem_ok sitems -> Forall not_s3 tail ->
     ~ NoDup (map fst (s3image (sitems_recs sitems))) ->
       always (@readCalibrationFiles EA A np true RA path (Some (sfile t sitems tail)))
         (fun r => exists a v0 v, r = RReturned (CD None None) (Some (CEHex (ECollision a v0 v)))
            /\ exists pre post, s3image (sitems_recs sitems) = pre ++ (a, v) :: post /\ In (a, v0) pre)).
Proof.
  intros EA A np RA path t items sitems tail Hnp Ha. split; intros Hk H1 H2 H3.
  - set (P := fun e => exists a v0 v, e = ECollision a v0 v /\ exists pre post, image (items_recs items) = pre ++ (a, v) :: post /\ In (a, v0) pre).
    eapply always_impl; [|apply (read_err _ _ _ RA _ (fun e => exists e', e = CEHex e' /\ P e') Ha)].
    + intros r (e & -> & e' & -> & a & v0 & v & -> & K). eauto 6.
    + eapply always_impl; [|apply (hexOut_ihex_err EA np path (ifile t items) P Hk)].
      * intros r (e & -> & K). eauto.
      * eapply always_impl; [|exact (ihex_collisions np t items Hnp H1 H2)].
        intros r [_ Hr]. destruct (Hr H3) as (m & a & v0 & v & pre & post & -> & K1 & K2 & _). exists m, (ECollision a v0 v). split; [reflexivity|]. exists a, v0, v. eauto.
  - set (P := fun e => exists a v0 v, e = ECollision a v0 v /\ exists pre post, s3image (sitems_recs sitems) = pre ++ (a, v) :: post /\ In (a, v0) pre).
    eapply always_impl; [|apply (read_err _ _ _ RA _ (fun e => exists e', e = CEHex e' /\ P e') Ha)].
    + intros r (e & -> & e' & -> & a & v0 & v & -> & K). eauto 6.
    + eapply always_impl; [|apply (hexOut_srec_err EA np path (sfile t sitems tail) P Hk)].
      * intros r (e & -> & K). eauto.
      * eapply always_impl; [|exact (srec_collisions np t sitems tail Hnp H1 H2)].
        intros r [_ Hr]. destruct (Hr H3) as (m & a & v0 & v & pre & post & -> & K1 & K2 & _). exists m, (ECollision a v0 v). split; [reflexivity|]. exists a, v0, v. eauto.
Qed.
Print Assumptions C22_collision_error.

Example C22_example : hexKindOf (b "C:\tmp\Motor.HEX") = KIhex /\ hexKindOf (b "data/motor.S19") = KSrec
  /\ readCalibration (fun r => r = Ok 1) (fun r => r = Ok [2]) None (@RReturned nat (list nat) bool (CD (Some 1) (Some [2])) None).
Proof. split; [reflexivity|]. split; [reflexivity|]. apply C22_results. left. eauto. Qed.

(** Two such files, read through ReadCalibration. *)
Example C22_error_example :
  always (@readCalibrationFiles unit nat 2 true (fun r => r = Ok 7) (b "a.hex")
            (Some (join (term_bytes Dos) [b ":0200000001fBFD"; b ""; b ":02000000010XFB"; b ":00000001FF"])))
    (fun r => r = RReturned (CD None None) (Some (CEHex EChecksum)))
  /\ always (@readCalibrationFiles unit nat 3 true (fun r => r = Ok 7) (b "a.hex") (Some (ifile Unix ex_collide)))
    (fun r => exists a v0 v, r = RReturned (CD None None) (Some (CEHex (ECollision a v0 v)))
       /\ exists pre post, image (items_recs ex_collide) = pre ++ (a, v) :: post /\ In (a, v0) pre).
Proof.
  assert (Ha : always (fun r : outcome (cerr unit) nat => r = Ok 7) (fun r => exists a, r = Ok a))
    by (split; [eauto|intros r ->; eauto]).
  split.
  - destruct C05_example as (L1 & L2 & L3 & L4 & [[r Hr] Hall]).
    apply C22_intel_hex_error; try assumption; [lia|reflexivity|].
    destruct (C05_checksum_error_iff 2 Dos _ ltac:(lia) L1 L2 L3 L4) as [_ K]. exact (proj1 (K r Hr) (Hall r Hr)).
  - destruct C08_example as (L1 & L2 & L3 & _).
    apply (proj1 (C22_collision_error unit nat 3 _ (b "a.hex") Unix ex_collide [] [] ltac:(lia) Ha)); try assumption; reflexivity.
Qed.

(** ** C23 the call returns and leaves nothing behind *)

Theorem C23_completes : forall A H E (RA : outcome E A -> Prop) (RH : outcome E H -> Prop),
    (exists r, RA r) -> (exists r, RH r) ->
    completes (rstep RA RH) (fun s => match rc_main s with MRet _ _ | MCrash => True | _ => False end) (rinit A H E).
Proof. exact rc_completes. Qed.
Print Assumptions C23_completes.

Theorem C23_no_leak : forall A H E (RA : outcome E A -> Prop) (RH : outcome E H -> Prop) s cd err,
    reach (rstep RA RH) (rinit A H E) s -> rc_main s = MRet cd err ->
    exists ra rh, rc_a s = PEnd ra /\ rc_h s = PEnd rh.
Proof. exact rc_no_leak. Qed.
Print Assumptions C23_no_leak.

(** The modelled hex readers always have an outcome and never panic, whatever
    the path and the file. *)
Theorem C23_hex_side : forall EA np path file, (0 < np)%nat ->
    (exists r, @hexOut EA np path file r) /\ forall r, @hexOut EA np path file r -> r <> Panic.
Proof. exact hexOut_total. Qed.
Print Assumptions C23_hex_side.

Example C23_example : (exists r, (fun r : outcome bool nat => r = Ok 1 \/ r = Err true) r).
Proof. exists (Ok 1). left; reflexivity. Qed.

(** ** C24 which error is returned *)

(** Guarded: with at most one failing reader there is one result. *)
Theorem C24_one_error_guarded : forall A H E (oa : outcome E A) (oh : outcome E H), oa <> Panic -> oh <> Panic ->
    (exists a, oa = Ok a) \/ (exists m, oh = Ok m) ->
    exists r0, always (readCalibration (fun r => r = oa) (fun r => r = oh) None) (fun r => r = r0).
Proof.
  intros A H E oa oh Ha Hh Hd. pose proof (rc_det _ _ _ oa oh Ha Hh) as K.
  destruct oa as [a|e|]; [| |congruence]; (destruct oh as [m|e2|]; [| |congruence]);
    try (eexists; exact K).
  exfalso. destruct Hd as [[? Hd]|[? Hd]]; discriminate.
Qed.
Print Assumptions C24_one_error_guarded.
Example C24_example : exists a, @Ok bool nat 3 = Ok a.
Proof. eauto. Qed.

(** Two failing readers: for every pair of different errors two schedules
    return different errors. *)
Theorem C24_two_errors_refuted : forall A H E (e1 e2 : E), e1 <> e2 ->
    let runs := readCalibration (fun r => r = @Err E A e1) (fun r => r = @Err E H e2) None in
    exists r1 r2, runs r1 /\ runs r2 /\ r1 <> r2.
Proof.
  intros A H E e1 e2 Hne. cbv zeta. destruct (rc_err_both A H E e1 e2) as [K1 K2].
  do 2 eexists. split; [exact K1|]. split; [exact K2|]. congruence.
Qed.
Print Assumptions C24_two_errors_refuted.

(** The error returned is the last one sent, not the first. *)
Theorem C24_last_error_refuted : exists s1 s2 : rcs nat nat bool,
    reach (rstep (fun r => r = Err true) (fun r => r = Err false)) (rinit _ _ _) s1
    /\ rc_err s1 = [true] /\ rc_h s1 = PRead
    /\ reach (rstep (fun r => r = Err true) (fun r => r = Err false)) s1 s2
    /\ rc_main s2 = MRet (CD None None) (Some false).
Proof.
  exists (RC (PClose (inr true)) PRead 2 [true] false [] false [] false MWait).
  eexists. split; [|split; [reflexivity|split; [reflexivity|split]]].
  - eapply reach_step; [eapply RAErr; [reflexivity|discriminate]|].
    eapply reach_step; [eapply RASendErr; [cbn; lia|discriminate]|]. constructor.
  - eapply reach_step; [eapply RAClose; discriminate|]. eapply reach_step; [eapply RADone; discriminate|].
    eapply reach_step; [eapply RHErr; [reflexivity|discriminate]|].
    eapply reach_step; [eapply RHSendErr; [cbn; lia|discriminate]|].
    eapply reach_step; [eapply RHClose; discriminate|]. eapply reach_step; [eapply RHDone; discriminate|].
    eapply reach_step; [eapply RWait|]. eapply reach_step; [eapply RCheck|]. cbn.
    eapply reach_step; [eapply RDrain|]. eapply reach_step; [eapply RDrain|]. eapply reach_step; [eapply RDrained|]. constructor.
  - reflexivity.
Qed.
Print Assumptions C24_last_error_refuted.

(** ** C25 choice of the reader *)

(** What the code decides by: an occurrence anywhere in the path. *)
Theorem C25_selection : forall path low, lowered path low ->
    (hexKindOf path = KIhex <-> occurs (b ".hex") low)
    /\ (hexKindOf path = KSrec <-> ~ occurs (b ".hex") low /\ occurs (b ".s19") low)
    /\ (hexKindOf path = KNone <-> ~ occurs (b ".hex") low /\ ~ occurs (b ".s19") low).
Proof. exact hexKind_spec. Qed.
Print Assumptions C25_selection.

(** Guarded: one dot in the path and an extension of three characters. *)
Theorem C25_extension_guarded : forall stem x low,
    ~ In "."%char stem -> ~ In "."%char x -> List.length x = 3%nat -> lowered x low ->
    hexKindOf (stem ++ "."%char :: x) =
      (if list_eq_dec ascii_dec low (b "hex") then KIhex
       else if list_eq_dec ascii_dec low (b "s19") then KSrec else KNone).
Proof. exact ext_guarded. Qed.
Print Assumptions C25_extension_guarded.

Example C25_example : lowered (b "HeX") (b "hex") /\ hexKindOf (b "/data/a" ++ "."%char :: b "HeX") = KIhex
  /\ hexKindOf (b "/data/a" ++ "."%char :: b "mot") = KNone.
Proof. split; [apply to_lower_spec; reflexivity|]. split; reflexivity. Qed.

(** An S19 file in a directory whose name contains .hex goes to the Intel HEX
    reader; a file with another extension is not rejected. *)
Theorem C25_extension_refuted : exists p1 p2,
    has_ext p1 (b "s19") /\ hexKindOf p1 = KIhex /\ has_ext p2 (b "txt") /\ hexKindOf p2 = KIhex.
Proof.
  exists (b "release.hex/motor.s19"), (b "motor.hex.txt").
  split; [exists (b "release.hex/motor"); split; [reflexivity|split; vm_compute; intuition discriminate]|].
  split; [reflexivity|].
  split; [exists (b "motor.hex"); split; [reflexivity|split; vm_compute; intuition discriminate]|reflexivity].
Qed.
Print Assumptions C25_extension_refuted.
