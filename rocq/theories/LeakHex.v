(** The messages of the data goroutines of the two hex readers: how many each sends. *)
From Coq Require Import List Arith Lia Bool NArith Ascii.
From Verif Require Import GoBase GoBaseFacts ConcModel ConcProofs HexSpec IhexModel IhexOffsets IhexPhase2 IhexProofs IhexThm SrecModel SrecProofs LockModel LockSpec LockThm LeakSpec LeakThm.
Import ListNotations.

Lemma pair_hex : forall p v, hexToByte p = Some v -> exists c d, p = [c; d] /\ hex_any c <> None /\ hex_any d <> None.
Proof.
  intros p v H. destruct p as [|c [|d [|e p]]]; cbn in H; try discriminate. exists c, d. split; [reflexivity|]. unfold hex_any.
  destruct (hex_upper c), (hex_upper d), (hex_lower c), (hex_lower d); try discriminate; split; discriminate.
Qed.
Lemma sum_pairs_in : forall l acc v p, sum_pairs acc l = Some v -> In p l -> exists u, hexToByte p = Some u.
Proof. induction l as [|q l IH]; intros acc v p H I0; cbn in *; [contradiction|]. destruct (hexToByte q) as [u|] eqn:E; [|discriminate]. destruct I0 as [->|I0]; [eauto|eapply IH; eassumption]. Qed.
Lemma decode_two : forall p q, (exists u, hexToByte p = Some u) -> (exists u, hexToByte q = Some u) -> hex_decode (p ++ q) <> None.
Proof.
  intros p q [u P] [v Q]. destruct (pair_hex _ _ P) as (c & d & -> & H1 & H2). destruct (pair_hex _ _ Q) as (e & f & -> & H3 & H4). cbn.
  destruct (hex_any c), (hex_any d), (hex_any e), (hex_any f); congruence.
Qed.
Lemma decode_app : forall n p q, length p = 2 * n -> hex_decode p <> None -> hex_decode q <> None -> hex_decode (p ++ q) <> None.
Proof.
  induction n as [|n IH]; intros p q L P Q; [destruct p; [exact Q|discriminate]|]. destruct p as [|c [|d p]]; cbn in L; try lia. cbn in *.
  destruct (hex_any c); [|contradiction]. destruct (hex_any d); [|contradiction]. specialize (IH p q ltac:(lia)). destruct (hex_decode p); [|contradiction]. specialize (IH ltac:(discriminate) Q). destruct (hex_decode (p ++ q)); [discriminate|contradiction].
Qed.

(** ** Intel HEX *)
Definition decodes (r : record) : Prop := hex_decode (addressField r) <> None /\ hex_decode (offset r) <> None /\ forall p, In p (data r) -> exists u, hexToByte p = Some u.
Lemma calc_total : forall ds i addr off d, hex_decode addr <> None -> hex_decode off <> None -> (forall p, In p ds -> exists u, hexToByte p = Some u) -> calc_loop i ds addr off = Ok d -> snd d = false.
Proof.
  induction ds as [|s ds IH]; intros i addr off d HA HO HD H; cbn [calc_loop] in H; [injection H as <-; reflexivity|].
  destruct (hex_decode addr) as [bs|] eqn:EA; [|contradiction]. destruct (be16 bs) as [la| |]; cbn [obind] in H; try discriminate. destruct (hex_decode off) as [obs|] eqn:EO; [|contradiction]. destruct (HD s (or_introl eq_refl)) as (u & EU). rewrite EU in H.
  match type of H with context [be32 ?l] => destruct (be32 l) as [a| |]; cbn [obind] in H; try discriminate end.
  destruct (calc_loop (i + 1) ds addr off) as [d'| |] eqn:EC; cbn [obind] in H; try discriminate. injection H as <-. cbn.
  apply (IH (i + 1)%N addr off d'); [congruence|congruence|intros p I0; apply HD; right; exact I0|exact EC].
Qed.
Lemma calcData_one : forall recs ds, Forall wf_rec recs -> Forall decodes recs -> exists d, calcData_msgs recs ds = Ok [d].
Proof.
  induction recs as [|r recs IH]; intros ds W D; cbn [calcData_msgs]; [eauto|]. inversion W as [|? ? [Wa Wo] W']; subst. inversion D as [|? ? (D1 & D2 & D3) D']; subst. destruct (beqb (recordType r) dataRecordToken); [|apply IH; assumption].
  unfold calcDataEntries. destruct (calc_loop_ok (data r) 0 _ _ Wa Wo) as [d E]. rewrite E. cbn [obind]. rewrite (calc_total _ _ _ _ _ D1 D2 D3 E). apply IH; assumption.
Qed.
Lemma mapO_len1 : forall (X Y : Type) (f : X -> outcome herr (list Y)) l r, (forall x, In x l -> exists d, f x = Ok [d]) -> mapO f l = Ok r -> Forall (fun ms => length ms = 1) r.
Proof.
  intros X Y f. induction l as [|x l IH]; intros r H E; cbn in E; [injection E as <-; constructor|]. destruct (H x (or_introl eq_refl)) as (d & ED). rewrite ED in E. cbn in E. destruct (mapO f l) as [r'| |] eqn:EL; cbn in E; try discriminate. injection E as <-. constructor; [reflexivity|]. apply IH; [intros y I0; apply H; right; exact I0|reflexivity].
Qed.
Lemma data_msgs_one : forall np recs dms, Forall wf_rec recs -> Forall decodes recs -> data_msgs np recs = Ok dms -> Forall (fun ms => length ms = 1) dms.
Proof.
  intros np recs dms W D E. eapply mapO_len1; [|exact E]. intros c IC. apply calcData_one; rewrite Forall_forall in *; intros x IX; [apply W|apply D]; eapply In_chunk; eassumption.
Qed.

(** a record from a line with a valid checksum *)
Lemma line_decodes : forall l r, parseLine l = Some r -> csum_ok r = true -> ~ shortEla l -> decodes r.
Proof.
  intros l r H C N. apply csum_ok_true in C.
  destruct l as [|c0 [|c1 [|c2 [|a1 [|a2 [|a3 [|a4 [|t1 [|t2 rest]]]]]]]]]; cbn [parseLine] in H; try discriminate.
  assert (V : exists off, r = mkrec c1 c2 a1 a2 a3 a4 t1 t2 rest off /\ (off = zeroOffset \/ beqb [t1; t2] extendedLinearAddressRecordToken = true /\ 4 <= length rest /\ off = firstn 4 rest)).
  { destruct (Ascii.eqb c0 beginLineToken && (2 <=? length rest)); [|discriminate]. destruct (beqb [t1; t2] extendedLinearAddressRecordToken).
    - destruct (4 <=? length rest) eqn:E; [|discriminate]. apply Nat.leb_le in E. injection H as <-. eauto 8.
    - injection H as <-. eauto. }
  clear H. destruct V as (off & -> & OFF). unfold validateChecksum, mkrec in C. cbn [addressField byteCount recordType data checksum] in C. rewrite !slice_ok in C by (cbn; lia). cbn [obind skipn firstn Nat.sub] in C.
  match type of C with match ?x with _ => _ end = _ => destruct x as [v|] eqn:S0; [|discriminate] end.
  assert (IN : forall p, In p ([[c1; c2]; [a1; a2]; [a3; a4]; [t1; t2]] ++ dl rest ++ [last2 rest]) -> exists u, hexToByte p = Some u) by (intros p; eapply sum_pairs_in; exact S0).
  split; [|split].
  - cbn [addressField mkrec]. change [a1; a2; a3; a4] with ([a1; a2] ++ [a3; a4]). apply decode_two; apply IN; cbn; auto.
  - cbn [offset mkrec]. destruct OFF as [->|(T & L & ->)]; [vm_compute; discriminate|].
    assert (NL : length rest <> 5). { intros E. apply N. split; [cbn; lia|]. cbn [skipn firstn]. apply beqb_eq. exact T. }
    destruct rest as [|x1 [|x2 [|x3 [|x4 rest]]]]; cbn in L; try lia. cbn [firstn]. change [x1; x2; x3; x4] with ([x1; x2] ++ [x3; x4]). apply decode_two; apply IN.
    + cbn. right. right. right. right. left. reflexivity.
    + destruct rest as [|x5 [|x6 rest]].
      * cbn. do 5 right. left. reflexivity.
      * cbn in NL. lia.
      * cbn. do 5 right. left. reflexivity.
  - intros p I0. apply IN. cbn [data mkrec] in I0. rewrite !in_app_iff. auto.
Qed.
Lemma recs_line : forall ls r, In r (parseRecs ls) -> exists l, In l ls /\ parseLine l = Some r.
Proof.
  induction ls as [|l ls IH]; intros r H; cbn [parseRecs] in H; [contradiction|]. destruct (11 <=? length l); [|destruct (IH r H) as (x & ? & ?); exists x; cbn; auto].
  destruct (parseLine l) as [r0|] eqn:E; [|contradiction]. destruct H as [->|H]; [exists l; cbn; auto|]. destruct (IH r H) as (x & ? & ?). exists x. cbn. auto.
Qed.
Lemma final_decodes : forall R starts recs, fresh R -> Forall decodes R -> offsets_final R starts recs -> Forall decodes recs.
Proof.
  intros R starts recs Hf Hw (Hsh & Hsafe & _). rewrite Forall_forall in *. intros r Hr.
  apply In_nth_error in Hr. destruct Hr as [i Hi].
  destruct (shape_some _ Hsh Hi) as (r0 & E0 & Et & Hcase).
  pose proof (Hw r0 (nth_error_In _ _ E0)) as (Wa & Wo & Wd).
  destruct Hsh as [Hlen Hsh]. destruct (Hsh _ _ E0) as [E1|[Td [o E1]]].
  - rewrite Hi in E1. inversion E1; subst. repeat split; assumption.
  - rewrite Hi in E1. inversion E1; subst. split; [exact Wa|]. split; [|exact Wd]. cbn [offset set_offset].
    destruct (bytes_dec o zeroOffset) as [->|Hne]; [vm_compute; discriminate|].
    destruct (Hsafe i o) as (k & s & _ & _ & _ & (r4 & E4 & _ & O4) & _).
    + exists r0. auto.
    + exists (set_offset r0 o). auto.
    + exact Hne.
    + rewrite <- O4. destruct (Hw r4 (nth_error_In _ _ E4)) as (_ & W & _). exact W.
Qed.

(** ** S-records *)
Definition sDecodes (r : srecord) : Prop := hex_decode (s_addressField r) <> None /\ forall p, In p (s_data r) -> exists u, hexToByte p = Some u.
Lemma s_calc_total : forall ds i addr d, hex_decode addr <> None -> (forall p, In p ds -> exists u, hexToByte p = Some u) -> s_calc_loop i ds addr = Ok d -> snd d = false.
Proof.
  induction ds as [|s ds IH]; intros i addr d HA HD H; cbn [s_calc_loop] in H; [injection H as <-; reflexivity|].
  destruct (HD s (or_introl eq_refl)) as (u & EU). rewrite EU in H. destruct (hex_decode addr) as [bs|] eqn:EA; [|contradiction]. destruct (be32 bs) as [la| |]; cbn [obind] in H; try discriminate.
  destruct (s_calc_loop (i + 1) ds addr) as [d'| |] eqn:EC; cbn [obind] in H; try discriminate. injection H as <-. cbn.
  apply (IH (i + 1)%N addr d'); [congruence|intros p I0; apply HD; right; exact I0|exact EC].
Qed.
Lemma s_calcData_one : forall recs ds, Forall swf recs -> Forall sDecodes recs -> exists d, s_calcData_msgs recs ds = Ok [d].
Proof.
  induction recs as [|r recs IH]; intros ds W D; cbn [s_calcData_msgs]; [eauto|]. inversion W as [|? ? [Wa Wo] W']; subst. inversion D as [|? ? (D1 & D3) D']; subst. destruct (beqb (s_recordType r) s_dataRecordToken); [|apply IH; assumption].
  unfold s_calcDataEntries. destruct (s_calc_loop_ok (s_data r) 0 _ Wa) as [d E]. rewrite E. cbn [obind]. rewrite (s_calc_total _ _ _ _ D1 D3 E). apply IH; assumption.
Qed.
Lemma s_data_msgs_one : forall np recs dms, Forall swf recs -> Forall sDecodes recs -> s_data_msgs np recs = Ok dms -> Forall (fun ms => length ms = 1) dms.
Proof.
  intros np recs dms W D E. eapply mapO_len1; [|exact E]. intros c IC. apply s_calcData_one; rewrite Forall_forall in *; intros x IX; [apply W|apply D]; eapply In_chunk; eassumption.
Qed.
Lemma s_rec_decodes : forall r, swf r -> s_csum_ok r = true -> sDecodes r.
Proof.
  intros r [L _] C. apply s_csum_ok_true in C. unfold s_validateChecksum in C. destruct r as [bc af rt ds cs]. cbn [s_addressField s_byteCount s_data s_checksum] in *.
  destruct af as [|a1 [|a2 [|a3 [|a4 [|a5 [|a6 [|a7 [|a8 [|]]]]]]]]]; cbn in L; try lia. rewrite !slice_ok in C by (cbn; lia). cbn [obind skipn firstn Nat.sub] in C.
  match type of C with match ?x with _ => _ end = _ => destruct x as [v|] eqn:S0; [|discriminate] end.
  assert (IN : forall p, In p ([bc; [a1; a2]; [a3; a4]; [a5; a6]; [a7; a8]] ++ ds ++ [cs]) -> exists u, hexToByte p = Some u) by (intros p; eapply sum_pairs_in; exact S0).
  split; cbn [s_addressField s_data].
  - change [a1; a2; a3; a4; a5; a6; a7; a8] with (([a1; a2] ++ [a3; a4]) ++ [a5; a6] ++ [a7; a8]). apply (decode_app 2); [reflexivity| |]; apply decode_two; apply IN; cbn; auto 8.
  - intros p I0. apply IN. rewrite !in_app_iff. auto.
Qed.

(** ** Ends *)
Section Ends.
  Variables M A : Type.
  Variable absorb : A -> M -> A * bool.
  Lemma reads_fold : forall l a a' st, reads absorb a l a' st -> forall r, fold_stop absorb a (l ++ r) = if st then (a', true) else fold_stop absorb a' r.
  Proof.
    intros l a a' st H. induction H as [a|a l a1 m a2 st R IH AB]; intros r; [reflexivity|]. rewrite <- app_assoc, IH. cbn. rewrite AB. reflexivity.
  Qed.
  Lemma stops_fold : forall a0 msgs k p, stopsAt absorb a0 msgs k p -> snd (fold_stop absorb a0 (concat msgs)) = true.
  Proof.
    intros a0 msgs k p (ms & r & a & HK & -> & _ & R). rewrite (concat_split _ msgs k _ HK), <- app_assoc, app_assoc. rewrite (reads_fold _ _ _ _ R). reflexivity.
  Qed.
  Lemma ends_one : forall a0 msgs, Forall (fun ms => length ms = 1) msgs -> completes (cstep absorb 1) (fun s => c_done s = true /\ Forall finished (c_ws s)) (cinit msgs a0).
  Proof.
    intros a0 msgs F. apply all_finished; [lia|]. rewrite Forall_forall in F. intros k p ms _ HK. split; [rewrite (F ms (nth_error_In _ _ HK)); lia|]. intros j mj _ HJ. rewrite (F mj (nth_error_In _ _ HJ)). lia.
  Qed.
  Lemma ends_nostop : forall cap a0 msgs, 0 < cap -> snd (fold_stop absorb a0 (concat msgs)) = false -> completes (cstep absorb cap) (fun s => c_done s = true /\ Forall finished (c_ws s)) (cinit msgs a0).
  Proof. intros cap a0 msgs CP F. apply all_finished; [exact CP|]. intros k p ms SA _. apply stops_fold in SA. congruence. Qed.
End Ends.
