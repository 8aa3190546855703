(** [ihex32.parseHex]: no panic; every schedule gives the result of a
    sequential function. *)
From Coq Require Import String Ascii List Arith NArith Bool Lia.
From Verif Require Import GoBase GoStrings GoBaseFacts ConcModel ConcProofs IhexModel IhexOffsets IhexPhase2.
Import ListNotations.
Set Implicit Arguments.

Local Arguments parseRecord : simpl never.

(** ** Parsing one line *)

Fixpoint dl (l : bytes) : list bytes :=
  match l with
  | x :: y :: ((_ :: _ :: _) as rest) => [x; y] :: dl rest
  | _ => []
  end.

Definition last2 (l : bytes) : bytes := skipn (length l - 2) l.

Definition mkrec (c1 c2 a1 a2 a3 a4 t1 t2 : ascii) (rest off : bytes) : record :=
  Rec [c1; c2] [a1; a2; a3; a4] [t1; t2] (dl rest) (last2 rest) off.

Definition parseLine (line : bytes) : option record :=
  match line with
  | c0 :: c1 :: c2 :: a1 :: a2 :: a3 :: a4 :: t1 :: t2 :: rest =>
      if Ascii.eqb c0 beginLineToken && (2 <=? length rest) then
        if beqb [t1; t2] extendedLinearAddressRecordToken then
          if 4 <=? length rest then Some (mkrec c1 c2 a1 a2 a3 a4 t1 t2 rest (firstn 4 rest)) else None
        else Some (mkrec c1 c2 a1 a2 a3 a4 t1 t2 rest zeroOffset)
      else None
  | _ => None
  end.

Lemma data_loop_ok : forall n fuel line i, length line - i <= n -> n < fuel ->
    data_loop fuel i line = Ok (dl (skipn i line)).
Proof.
  induction n as [n IH] using lt_wf_ind. intros fuel line i Hn Hf.
  destruct fuel as [|fuel]; [lia|]. cbn [data_loop].
  destruct (i + 3 <? length line) eqn:E.
  - apply Nat.ltb_lt in E. rewrite slice_ok by lia. cbn [obind].
    rewrite (IH (n - 2)) by lia. cbn [obind].
    replace (i + 2 - i) with 2 by lia.
    replace (i + 2) with (i + 1 + 1) by lia.
    assert (L : length (skipn i line) = length line - i) by apply skipn_length.
    assert (S2 : skipn (i + 1 + 1) line = skipn 2 (skipn i line)).
    { rewrite skipn_skipn_add. f_equal. lia. }
    rewrite S2. destruct (skipn i line) as [|x [|y [|z [|w rest]]]]; cbn in L; try lia.
    reflexivity.
  - apply Nat.ltb_ge in E.
    assert (L : length (skipn i line) = length line - i) by apply skipn_length.
    destruct (skipn i line) as [|x [|y [|z [|w rest]]]]; cbn in L; try lia; reflexivity.
Qed.

Lemma parseRecord_ok : forall line, line <> [] ->
    parseRecord line = match parseLine line with Some r => Ok r | None => Err ELine end.
Proof.
  intros line Hne. unfold parseRecord.
  destruct line as [|c0 line]; [congruence|]. cbn [index nth_error obind].
  unfold index; cbn [nth_error obind].
  destruct (11 <=? length (c0 :: line)) eqn:L.
  2:{ rewrite andb_false_r. apply Nat.leb_gt in L. cbn [length] in L.
      destruct line as [|c1 [|c2 [|a1 [|a2 [|a3 [|a4 [|t1 [|t2 rest]]]]]]]]; try reflexivity.
      cbn [length] in L. unfold parseLine.
      assert ((2 <=? length rest) = false) as -> by (apply Nat.leb_gt; lia).
      rewrite andb_false_r. reflexivity. }
  apply Nat.leb_le in L. rewrite andb_true_r.
  destruct line as [|c1 [|c2 [|a1 [|a2 [|a3 [|a4 [|t1 [|t2 rest]]]]]]]]; cbn [length] in L; try lia.
  unfold parseLine.
  assert (Hr : (2 <=? length rest) = true) by (apply Nat.leb_le; lia). rewrite Hr, andb_true_r.
  destruct (Ascii.eqb c0 beginLineToken); [|reflexivity].
  rewrite !slice_ok by (cbn [length]; lia). cbn [obind].
  change (firstn (3 - 1) (skipn 1 (c0 :: c1 :: c2 :: a1 :: a2 :: a3 :: a4 :: t1 :: t2 :: rest))) with [c1; c2].
  change (firstn (7 - 3) (skipn 3 (c0 :: c1 :: c2 :: a1 :: a2 :: a3 :: a4 :: t1 :: t2 :: rest))) with [a1; a2; a3; a4].
  change (firstn (9 - 7) (skipn 7 (c0 :: c1 :: c2 :: a1 :: a2 :: a3 :: a4 :: t1 :: t2 :: rest))) with [t1; t2].
  rewrite (@data_loop_ok (length (c0 :: c1 :: c2 :: a1 :: a2 :: a3 :: a4 :: t1 :: t2 :: rest))) by lia.
  cbn [obind].
  change (skipn 9 (c0 :: c1 :: c2 :: a1 :: a2 :: a3 :: a4 :: t1 :: t2 :: rest)) with rest.
  assert (Hcs : forall E, @slice E _ (c0 :: c1 :: c2 :: a1 :: a2 :: a3 :: a4 :: t1 :: t2 :: rest)
       (length (c0 :: c1 :: c2 :: a1 :: a2 :: a3 :: a4 :: t1 :: t2 :: rest) - 2)
       (length (c0 :: c1 :: c2 :: a1 :: a2 :: a3 :: a4 :: t1 :: t2 :: rest)) = Ok (last2 rest)).
  { intros E. rewrite slice_ok by (cbn [length]; lia). cbn [length]. unfold last2.
    replace (S (S (S (S (S (S (S (S (S (length rest))))))))) - 2) with (9 + (length rest - 2)) by lia.
    cbn [skipn plus]. f_equal. apply firstn_all2. rewrite skipn_length. lia. }
  destruct (beqb [t1; t2] extendedLinearAddressRecordToken).
  - destruct (13 <=? length (c0 :: c1 :: c2 :: a1 :: a2 :: a3 :: a4 :: t1 :: t2 :: rest)) eqn:E.
    + apply Nat.leb_le in E. rewrite slice_ok by lia. cbn [obind]. rewrite Hcs. cbn [obind].
      cbn [length] in E. assert ((4 <=? length rest) = true) as -> by (apply Nat.leb_le; lia).
      reflexivity.
    + apply Nat.leb_gt in E. cbn [length] in E.
      assert ((4 <=? length rest) = false) as -> by (apply Nat.leb_gt; lia). reflexivity.
  - cbn [obind]. rewrite Hcs. reflexivity.
Qed.

Fixpoint parseRecs (lines : list bytes) : list record :=
  match lines with
  | [] => []
  | l :: ls =>
      if 11 <=? length l then
        match parseLine l with
        | Some r => r :: parseRecs ls
        | None => []
        end
      else parseRecs ls
  end.

Lemma parseRecordRoutine_ok : forall ls, parseRecordRoutine ls = Ok (parseRecs ls).
Proof.
  induction ls as [|l ls IH]; [reflexivity|]. cbn [parseRecordRoutine parseRecs].
  destruct (11 <=? length l) eqn:E; [|exact IH].
  apply Nat.leb_le in E. rewrite parseRecord_ok by (destruct l; cbn in E; [lia|congruence]).
  destruct (parseLine l) as [r|]; [|reflexivity]. rewrite IH. reflexivity.
Qed.

(** ** Well-formed records *)

Definition wf_rec (r : record) : Prop :=
  length (addressField r) = 4 /\ length (offset r) = 4.

Lemma parseLine_wf : forall l r, parseLine l = Some r ->
    wf_rec r /\ (recordType r = dataRecordToken -> offset r = zeroOffset).
Proof.
  intros l r H.
  destruct l as [|c0 [|c1 [|c2 [|a1 [|a2 [|a3 [|a4 [|t1 [|t2 rest]]]]]]]]]; cbn [parseLine] in H; try discriminate.
  destruct (Ascii.eqb c0 beginLineToken && (2 <=? length rest)); [|discriminate].
  destruct (beqb [t1; t2] extendedLinearAddressRecordToken) eqn:T.
  - destruct (4 <=? length rest) eqn:E; [|discriminate]. apply Nat.leb_le in E.
    inversion H; subst. apply beqb_eq in T. split.
    + split; [reflexivity|]. change (length (firstn 4 rest) = 4). rewrite firstn_length. lia.
    + unfold mkrec; cbn [recordType]. intros E2. rewrite E2 in T. discriminate.
  - inversion H; subst. split; [split; reflexivity|reflexivity].
Qed.

Lemma parseRecs_wf : forall ls r, In r (parseRecs ls) ->
    wf_rec r /\ (recordType r = dataRecordToken -> offset r = zeroOffset).
Proof.
  induction ls as [|l ls IH]; intros r H; cbn [parseRecs] in H; [contradiction|].
  destruct (11 <=? length l); [|apply IH, H].
  destruct (parseLine l) as [r0|] eqn:E; [|contradiction].
  destruct H as [->|H]; [eapply parseLine_wf; exact E|apply IH, H].
Qed.

Lemma wf_validate : forall r, wf_rec r -> validateChecksum r <> Panic.
Proof.
  intros r [H _]. unfold validateChecksum.
  rewrite !slice_ok by lia. cbn [obind]. destruct (sum_pairs _ _); discriminate.
Qed.

Lemma hex_decode_length_k : forall k s l, length s <= k -> hex_decode s = Some l -> length s = 2 * length l.
Proof.
  induction k as [|k IH]; intros s l Hk H.
  - destruct s; cbn in Hk; [|lia]. inversion H; reflexivity.
  - destruct s as [|c [|d rest]]; cbn [hex_decode] in H; [inversion H; reflexivity|discriminate|].
    destruct (hex_any c); [|discriminate]. destruct (hex_any d); [|discriminate].
    destruct (hex_decode rest) as [r|] eqn:E; [|discriminate]. inversion H; subst.
    cbn [length] in *. rewrite (IH rest r); [lia|lia|exact E].
Qed.
Lemma hex_decode_length : forall s l, hex_decode s = Some l -> length s = 2 * length l.
Proof. intros s l. eapply hex_decode_length_k. apply le_n. Qed.

Lemma calc_loop_ok : forall ds i af off, length af = 4 -> length off = 4 ->
    exists d, calc_loop i ds af off = Ok d.
Proof.
  induction ds as [|s ds IH]; intros i af off Ha Ho; cbn [calc_loop]; [eauto|].
  destruct (hex_decode af) as [bs|] eqn:Eb; [|eauto].
  apply hex_decode_length in Eb. destruct bs as [|x [|y [|z bs]]]; cbn [length] in Eb; try lia.
  cbn [be16 obind].
  destruct (hex_decode off) as [obs|] eqn:Eo; [|eauto].
  apply hex_decode_length in Eo. destruct obs as [|ox [|oy [|oz obs]]]; cbn [length] in Eo; try lia.
  destruct (hexToByte s) as [v|]; [|eauto]. cbn [app be32 obind].
  destruct (IH (i + 1)%N af off Ha Ho) as [d ->]. cbn [obind]. eauto.
Qed.

Definition entries (r : record) : list (N * N) :=
  if beqb (recordType r) dataRecordToken then
    match calcDataEntries r with Ok d => fst d | _ => [] end
  else [].

Lemma calcData_msgs_ok : forall recs ds, Forall wf_rec recs ->
    exists ms, calcData_msgs recs ds = Ok ms /\ concat ms = ds ++ flat_map entries recs.
Proof.
  induction recs as [|r recs IH]; intros ds Hwf; cbn [calcData_msgs flat_map].
  - exists [ds]. split; [reflexivity|]. cbn [concat]. reflexivity.
  - inversion Hwf as [|x l [Ha Ho] Hl]; subst. unfold entries at 1.
    destruct (beqb (recordType r) dataRecordToken).
    + unfold calcDataEntries. destruct (calc_loop_ok (data r) 0 _ _ Ha Ho) as [d Hd]. rewrite Hd.
      cbn [obind]. destruct (snd d).
      * destruct (IH (ds ++ fst d) Hl) as (ms & -> & Hc). cbn [obind].
        exists ([] :: ms). split; [reflexivity|]. cbn [concat app]. rewrite Hc, app_assoc. reflexivity.
      * destruct (IH (ds ++ fst d) Hl) as (ms & -> & Hc).
        exists ms. split; [reflexivity|]. rewrite Hc, app_assoc. reflexivity.
    + apply IH, Hl.
Qed.

(** ** Collecting *)

Lemma mapO_ok : forall A B (f : A -> outcome herr B) g l, (forall x, In x l -> f x = Ok (g x)) ->
    mapO f l = Ok (map g l).
Proof.
  intros A B f g l. induction l as [|x l IH]; intros H; [reflexivity|]. cbn [mapO map].
  rewrite (H x) by (left; reflexivity). cbn [obind]. rewrite IH; [reflexivity|].
  intros y Hy. apply H. right; exact Hy.
Qed.

Lemma fold_recs : forall ms acc, fold_stop absorb_recs acc ms = (acc ++ concat ms, false).
Proof.
  induction ms as [|m ms IH]; intros acc; cbn [fold_stop concat].
  - rewrite app_nil_r. reflexivity.
  - unfold absorb_recs at 1. rewrite IH, app_assoc. reflexivity.
Qed.

Lemma store_all_app : forall d1 d2 m, store_all m (d1 ++ d2) =
    match store_all m d1 with (m', Some e) => (m', Some e) | (m', None) => store_all m' d2 end.
Proof.
  induction d1 as [|[a v] d1 IH]; intros d2 m; [reflexivity|].
  cbn [app store_all]. destruct (lookup a m); [reflexivity|]. apply IH.
Qed.

Lemma fold_data : forall ms m, fst (fold_stop absorb_data (m, None) ms) = store_all m (concat ms).
Proof.
  induction ms as [|d ms IH]; intros m; [reflexivity|]. cbn [fold_stop concat].
  unfold absorb_data at 1. cbn [fst]. rewrite store_all_app.
  destruct (store_all m d) as [m' [e|]] eqn:E; cbn [fst snd]; [reflexivity|]. apply IH.
Qed.

(** ** The sequential reference for [parseHex] *)

Definition recsF (np : nat) (lines : list bytes) : list record :=
  flat_map parseRecs (chunks np lines).
Definition parseHexF (np : nat) (lines : list bytes) : hres :=
  let recs := recsF np lines in
  if forallb csum_ok recs
  then store_all [] (flat_map entries (offsF np recs))
  else ([], Some EChecksum).

Lemma parse_msgs_ok : forall np lines,
    parse_msgs np lines = Ok (map (fun c => [parseRecs c]) (chunks np lines)).
Proof.
  intros np lines. unfold parse_msgs. apply mapO_ok. intros c _.
  rewrite parseRecordRoutine_ok. reflexivity.
Qed.

Lemma concat_single : forall A B (f : A -> list B) l,
    concat (concat (map (fun c => [f c]) l)) = flat_map f l.
Proof.
  intros A B f l. induction l as [|x l IH]; [reflexivity|]. cbn [map concat app flat_map].
  cbn [concat]. rewrite IH. reflexivity.
Qed.

Lemma recs_collected : forall np lines recs, lines <> [] ->
    crun absorb_recs (length lines) (map (fun c => [parseRecs c]) (chunks np lines)) [] recs
    <-> recs = recsF np lines.
Proof.
  intros np lines recs Hl. rewrite crun_iff by (destruct lines; cbn; [congruence|lia]).
  rewrite fold_recs. cbn [fst app]. rewrite concat_single. reflexivity.
Qed.

Lemma recsF_wf : forall np lines, Forall (fun r => wf_rec r /\ (recordType r = dataRecordToken -> offset r = zeroOffset)) (recsF np lines).
Proof.
  intros np lines. apply Forall_forall. intros r Hr. apply in_flat_map in Hr.
  destruct Hr as (c & _ & Hr). eapply parseRecs_wf; exact Hr.
Qed.

Lemma recsF_fresh : forall np lines, fresh (recsF np lines).
Proof.
  intros np lines i (r & Hr & Ht). exists r. split; [exact Hr|].
  pose proof (recsF_wf np lines) as Hw. rewrite Forall_forall in Hw.
  apply (Hw r); [eapply nth_error_In; exact Hr|exact Ht].
Qed.

Lemma recsF_nopanic : forall np lines, Forall (fun r => validateChecksum r <> Panic) (recsF np lines).
Proof.
  intros. eapply Forall_impl; [|apply recsF_wf]. intros r [H _]. apply wf_validate, H.
Qed.

Lemma final_wf : forall R starts recs, fresh R -> Forall wf_rec R -> offsets_final R starts recs -> Forall wf_rec recs.
Proof.
  intros R starts recs Hf Hw (Hsh & Hsafe & _). rewrite Forall_forall in *. intros r Hr.
  apply In_nth_error in Hr. destruct Hr as [i Hi].
  destruct (shape_some _ Hsh Hi) as (r0 & E0 & Et & Hcase).
  pose proof (Hw r0 (nth_error_In _ _ E0)) as [Wa Wo].
  destruct Hsh as [Hlen Hsh]. destruct (Hsh _ _ E0) as [E1|[Td [o E1]]].
  - rewrite Hi in E1. inversion E1; subst. split; assumption.
  - rewrite Hi in E1. inversion E1; subst. split; [exact Wa|]. cbn [offset set_offset].
    destruct (bytes_dec o zeroOffset) as [->|Hne]; [reflexivity|].
    destruct (Hsafe i o) as (k & s & _ & _ & _ & (r4 & E4 & _ & O4) & _).
    + exists r0. auto.
    + exists (set_offset r0 o). auto.
    + exact Hne.
    + rewrite <- O4. destruct (Hw r4 (nth_error_In _ _ E4)) as [_ W]. exact W.
Qed.

Lemma In_chunk : forall A np (l : list A) c x, In c (chunks np l) -> In x c -> In x l.
Proof.
  intros A np l c x Hc Hx. unfold chunks in Hc. apply in_map_iff in Hc.
  destruct Hc as (i & <- & _). unfold chunk in Hx.
  set (sk := skipn (chunk_start (length l) np i) l) in *.
  assert (In x sk).
  { rewrite <- (firstn_skipn (chunk_end (length l) np i - chunk_start (length l) np i) sk).
    apply in_or_app. left; exact Hx. }
  rewrite <- (firstn_skipn (chunk_start (length l) np i) l). apply in_or_app. right. exact H.
Qed.

Lemma data_msgs_ok : forall np recs, 0 < np -> Forall wf_rec recs ->
    exists dms, data_msgs np recs = Ok dms /\ concat (concat dms) = flat_map entries recs.
Proof.
  intros np recs Hnp Hwf. unfold data_msgs.
  assert (H : forall cs, (forall c, In c cs -> Forall wf_rec c) ->
            exists dms, mapO calcDataRoutine cs = Ok dms /\ concat (concat dms) = flat_map entries (concat cs)).
  { induction cs as [|c cs IH]; intros Hc.
    - exists []. split; reflexivity.
    - cbn [mapO]. unfold calcDataRoutine at 1.
      destruct (calcData_msgs_ok [] (Hc c (or_introl eq_refl))) as (ms & -> & Em). cbn [obind].
      destruct IH as (dms & -> & Ed); [intros c' Hc'; apply Hc; right; exact Hc'|]. cbn [obind].
      exists (ms :: dms). split; [reflexivity|]. cbn [concat].
      rewrite concat_app, Em, Ed. cbn [app]. rewrite flat_map_app. reflexivity. }
  destruct (H (chunks np recs)) as (dms & E1 & E2).
  - intros c Hc. rewrite Forall_forall in *. intros x Hx. apply Hwf. eapply In_chunk; eassumption.
  - rewrite concat_chunks in E2 by exact Hnp. eauto.
Qed.

(** ** Main theorem: the result of every schedule *)
Theorem parseHex_exec_iff : forall np lines res, 0 < np -> lines <> [] ->
    parseHex_exec np lines res <-> res = Ok (parseHexF np lines).
Proof.
  intros np lines res Hnp Hl.
  pose proof (p2run_result Hnp (@recsF_fresh np lines) (@recsF_nopanic np lines)) as HP.
  pose proof (@parse_msgs_ok np lines) as Hpm.
  assert (Hwf : Forall wf_rec (offsF np (recsF np lines))).
  { eapply (@final_wf (recsF np lines)); [apply recsF_fresh| |].
    - eapply Forall_impl; [|apply recsF_wf]. intros r [H _]; exact H.
    - apply offsF_final; [exact Hnp|apply recsF_fresh]. }
  destruct (data_msgs_ok Hnp Hwf) as (dms & Ed & Ec).
  split.
  - intros H. inversion H as [E|ms recs E C P|ms recs E C P|ms recs recs' E C P D|ms recs recs' dm r E C P D F]; subst;
      rewrite Hpm in E; inversion E; subst; apply (proj1 (recs_collected _ _ Hl)) in C; subst;
      apply HP in P; unfold parseHexF; destruct (forallb csum_ok (recsF np lines)); try discriminate.
    + reflexivity.
    + inversion P; subst. congruence.
    + inversion P; subst. rewrite Ed in D. inversion D; subst.
      apply crun_iff in F; [|lia]. rewrite fold_data, Ec in F. subst. reflexivity.
  - intros ->. unfold parseHexF. destruct (forallb csum_ok (recsF np lines)) eqn:E.
    + eapply XData; [exact Hpm| | |exact Ed|].
      * apply recs_collected; [exact Hl|reflexivity].
      * apply HP. reflexivity.
      * apply crun_iff; [lia|]. rewrite fold_data, Ec. reflexivity.
    + eapply XBad; [exact Hpm| |].
      * apply recs_collected; [exact Hl|reflexivity].
      * apply HP. reflexivity.
Qed.

(** [strings.Split] never gives an empty slice. *)
Lemma split_aux_nonempty : forall sep s skip cur, split_aux sep skip cur s <> [].
Proof.
  intros sep s. induction s as [|c s IH]; intros skip cur; cbn [split_aux]; [discriminate|].
  destruct skip; [|apply IH]. destruct (prefixb sep (c :: s)); [discriminate|apply IH].
Qed.
Lemma splitLines_nonempty : forall t, splitLines t <> [].
Proof.
  intros t. unfold splitLines, split.
  destruct (length (split_aux crlf 0 [] t) =? 1); apply split_aux_nonempty.
Qed.

Definition parseFileF (np : nat) (text : bytes) : hres := parseHexF np (splitLines text).

Theorem parseFile_exec_iff : forall np text res, 0 < np ->
    parseFile_exec np text res <-> res = Ok (parseFileF np text).
Proof.
  intros np text res Hnp. apply parseHex_exec_iff; [exact Hnp|apply splitLines_nonempty].
Qed.
