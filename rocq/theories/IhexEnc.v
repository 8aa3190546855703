(** Parsing of encoded Intel HEX records. *)
From Coq Require Import String Ascii List Arith NArith Bool Lia.
From Verif Require Import GoBase GoStrings GoBaseFacts ConcModel IhexModel IhexOffsets IhexPhase2 IhexProofs
  HexSpec HexSpecFacts IhexSpec.
Import ListNotations.

Local Notation byte_list l := (Forall (fun v => v < 256)%N l).

Lemma hexToByte_hex2 : forall up v, (v < 256)%N -> hexToByte (hex2 up v) = Some v.
Proof.
  intros up v Hv.
  assert (E : forall up, forallb (fun v => match hexToByte (hex2 up v) with Some x => (x =? v)%N | None => false end) all256 = true).
  { intros []; vm_compute; reflexivity. }
  pose proof (byte_enum _ (E up) v Hv) as Hb. cbv beta in Hb.
  destruct (hexToByte (hex2 up v)); [|discriminate]. apply N.eqb_eq in Hb. congruence.
Qed.

Lemma hex2_inj : forall up1 up2 v w, (v < 256)%N -> (w < 256)%N -> hex2 up1 v = hex2 up2 w -> v = w.
Proof.
  intros up1 up2 v w Hv Hw E. pose proof (hexToByte_hex2 up1 v Hv) as H1.
  rewrite E, (hexToByte_hex2 up2 w Hw) in H1. congruence.
Qed.

Lemma hex2_type : forall up t, (t < 256)%N ->
    beqb (hex2 up t) extendedLinearAddressRecordToken = (t =? 4)%N
    /\ beqb (hex2 up t) dataRecordToken = (t =? 0)%N.
Proof.
  intros up t Ht.
  assert (E : forall up, forallb (fun t => Bool.eqb (beqb (hex2 up t) extendedLinearAddressRecordToken) (t =? 4)%N
              && Bool.eqb (beqb (hex2 up t) dataRecordToken) (t =? 0)%N) all256 = true).
  { intros []; vm_compute; reflexivity. }
  pose proof (byte_enum _ (E up) t Ht) as Hb. cbv beta in Hb.
  apply andb_true_iff in Hb. destruct Hb as [H1 H2].
  split; apply Bool.eqb_prop; assumption.
Qed.

Lemma dl_hexs : forall up p c, dl (hexs up (p ++ [c])) = map (hex2 up) p.
Proof.
  intros up p c. induction p as [|v p IH]; [reflexivity|].
  cbn [app hexs flat_map map]. unfold hex2 at 1. cbn [app].
  destruct (flat_map (hex2 up) (p ++ [c])) as [|x [|y rest]] eqn:E.
  - exfalso. apply (f_equal (@List.length _)) in E. change (flat_map (hex2 up) (p ++ [c])) with (hexs up (p ++ [c])) in E.
    rewrite hexs_length, app_length in E. cbn in E. lia.
  - exfalso. apply (f_equal (@List.length _)) in E. change (flat_map (hex2 up) (p ++ [c])) with (hexs up (p ++ [c])) in E.
    rewrite hexs_length, app_length in E. cbn in E. lia.
  - change (hexs up (p ++ [c])) with (flat_map (hex2 up) (p ++ [c])) in IH. rewrite E in IH.
    cbn [dl]. rewrite <- IH. reflexivity.
Qed.

Lemma last2_hexs : forall up p c, last2 (hexs up (p ++ [c])) = hex2 up c.
Proof.
  intros up p c. unfold last2. rewrite hexs_app, app_length, !hexs_length. cbn [List.length].
  replace (2 * List.length p + 2 * 1 - 2) with (List.length (hexs up p)) by (rewrite hexs_length; lia).
  rewrite skipn_app, skipn_all, Nat.sub_diag. reflexivity.
Qed.

Definition brec (up : bool) (n x y t : N) (p : list N) (c : N) (off : bytes) : record :=
  Rec (hex2 up n) (hexs up [x; y]) (hex2 up t) (map (hex2 up) p) (hex2 up c) off.

Lemma parseLine_bytes : forall up n x y t p c, (t < 256)%N ->
    parseLine (iline_of up (n :: x :: y :: t :: p ++ [c])) =
    if (t =? 4)%N
    then if 1 <=? List.length p then Some (brec up n x y t p c (firstn 4 (hexs up (p ++ [c])))) else None
    else Some (brec up n x y t p c zeroOffset).
Proof.
  intros up n x y t p c Ht. unfold iline_of. unfold hexs. cbn [flat_map].
  unfold hex2 at 1 2 3 4. cbn [app]. unfold parseLine.
  change (flat_map (hex2 up) (p ++ [c])) with (hexs up (p ++ [c])).
  change [digit up (t / 16); digit up (t mod 16)] with (hex2 up t).
  destruct (hex2_type up t Ht) as [-> _].
  assert (L : List.length (hexs up (p ++ [c])) = 2 * List.length p + 2).
  { rewrite hexs_length, app_length. cbn. lia. }
  assert ((2 <=? List.length (hexs up (p ++ [c]))) = true) as -> by (apply Nat.leb_le; lia).
  change (Ascii.eqb ":" beginLineToken) with true. cbn [andb].
  unfold mkrec, brec. rewrite dl_hexs, last2_hexs.
  destruct (t =? 4)%N; [|reflexivity].
  assert ((4 <=? List.length (hexs up (p ++ [c]))) = (1 <=? List.length p)) as ->.
  { rewrite L. destruct (1 <=? List.length p) eqn:E.
    - apply Nat.leb_le in E. apply Nat.leb_le. lia.
    - apply Nat.leb_gt in E. apply Nat.leb_gt. lia. }
  reflexivity.
Qed.

Lemma sum_pairs_hex2 : forall up l acc, byte_list l -> (acc < 256)%N ->
    sum_pairs acc (map (hex2 up) l) = Some ((acc + nsum l) mod 256)%N.
Proof.
  intros up l acc H. revert acc. induction H as [|v l Hv Hl IH]; intros acc Ha.
  - cbn [map sum_pairs nsum]. rewrite N.add_0_r, N.mod_small by exact Ha. reflexivity.
  - cbn [map sum_pairs nsum]. rewrite hexToByte_hex2 by exact Hv.
    rewrite IH by (unfold u8; apply N.mod_lt; lia). f_equal. unfold u8.
    rewrite N.add_mod_idemp_l by lia. f_equal. lia.
Qed.

Lemma csum_ok_bytes : forall up n x y t p c off, byte_list (n :: x :: y :: t :: p ++ [c]) ->
    csum_ok (brec up n x y t p c off) = (nsum (n :: x :: y :: t :: p ++ [c]) mod 256 =? 0)%N.
Proof.
  intros up n x y t p c off H. unfold csum_ok, validateChecksum, brec.
  cbn [addressField byteCount recordType data checksum].
  unfold hexs at 1 2. cbn [flat_map]. unfold hex2 at 1 2 3 4. cbn [app].
  unfold slice. cbn [List.length Nat.leb andb firstn skipn Nat.sub obind].
  change [digit up (x / 16); digit up (x mod 16)] with (hex2 up x).
  change [digit up (y / 16); digit up (y mod 16)] with (hex2 up y).
  change (hex2 up n :: hex2 up x :: hex2 up y :: hex2 up t :: map (hex2 up) p ++ [hex2 up c])
    with (hex2 up n :: hex2 up x :: hex2 up y :: hex2 up t :: map (hex2 up) p ++ map (hex2 up) [c]).
  rewrite <- map_app.
  change (hex2 up n :: hex2 up x :: hex2 up y :: hex2 up t :: map (hex2 up) (p ++ [c]))
    with (map (hex2 up) (n :: x :: y :: t :: p ++ [c])).
  rewrite sum_pairs_hex2 by (exact H || lia). rewrite N.add_0_l.
  destruct (nsum (n :: x :: y :: t :: p ++ [c]) mod 256 =? 0)%N; reflexivity.
Qed.

(** ** Encoded records *)

Definition ioff (up : bool) (r : irec) : bytes :=
  match r with IEla _ => hexs up (ipayload r) | _ => zeroOffset end.
Definition toRec (up : bool) (r : irec) (off : bytes) : record :=
  brec up (N.of_nat (List.length (ipayload r))) (iaddr r / 256) (iaddr r mod 256) (itype r)
       (ipayload r) (icheck (ibody r)) off.

Lemma icheck_byte : forall l, (icheck l < 256)%N.
Proof. intros. unfold icheck. apply N.mod_lt. lia. Qed.

Lemma icheck_sum : forall l, (nsum (l ++ [icheck l]) mod 256 = 0)%N.
Proof.
  intros l. rewrite nsum_app. cbn [nsum]. rewrite N.add_0_r. unfold icheck.
  rewrite N.add_mod_idemp_r by lia.
  rewrite <- N.add_mod_idemp_l by lia.
  assert (nsum l mod 256 < 256)%N by (apply N.mod_lt; lia).
  replace (nsum l mod 256 + (256 - nsum l mod 256))%N with 256%N by lia. reflexivity.
Qed.

Lemma ivalid_form : forall r, ivalid r -> iform r.
Proof. intros r (Ha & Ht & Hp & Hl & Hk). unfold iform. destruct r; auto. Qed.

Lemma ibytes_byte : forall r, iform r -> byte_list (ibytes r).
Proof.
  intros r (Ha & Ht & Hp & Hl & _). unfold ibytes, ibody.
  apply Forall_app. split; [|constructor; [apply icheck_byte|constructor]].
  apply Forall_app. split; [|exact Hp].
  repeat constructor.
  - lia.
  - apply N.div_lt_upper_bound; lia.
  - apply N.mod_lt; lia.
  - exact Ht.
Qed.

Lemma ibytes_eq : forall r, ibytes r =
    (N.of_nat (List.length (ipayload r)) :: iaddr r / 256 :: iaddr r mod 256 :: itype r :: ipayload r ++ [icheck (ibody r)])%N.
Proof. intros r. unfold ibytes, ibody. rewrite <- app_assoc. reflexivity. Qed.

Lemma parseLine_rec : forall up r, iform r ->
    parseLine (iline (up, r)) = Some (toRec up r (ioff up r)).
Proof.
  intros up r Hv. unfold iline. cbn [fst snd]. rewrite ibytes_eq.
  destruct Hv as (Ha & Ht & Hp & Hl & Hk). rewrite parseLine_bytes by exact Ht.
  destruct r as [a bs|u|t a bs]; cbn [itype ipayload].
  - reflexivity.
  - change ((4 =? 4)%N) with true. cbv iota. cbn [List.length Nat.leb].
    unfold toRec. cbn [ipayload itype ioff]. f_equal.
  - destruct Hk as [_ Hk]. apply N.eqb_neq in Hk. rewrite Hk. reflexivity.
Qed.

Lemma csum_ok_rec : forall up r off, iform r -> csum_ok (toRec up r off) = true.
Proof.
  intros up r off Hv. unfold toRec. rewrite csum_ok_bytes.
  - rewrite <- ibytes_eq. unfold ibytes. rewrite icheck_sum. reflexivity.
  - rewrite <- ibytes_eq. apply ibytes_byte, Hv.
Qed.

Lemma iline_long : forall x, 11 <= List.length (iline x).
Proof.
  intros [up r]. unfold iline, iline_of. cbn [fst snd List.length].
  rewrite ibytes_eq, hexs_length. cbn [List.length]. rewrite app_length. cbn. lia.
Qed.

(** ** Well-formed lists of lines: the goroutine partition does not matter *)

Definition line_fine (l : bytes) : Prop := List.length l < 11 \/ exists r, parseLine l = Some r.
Definition lineRec (l : bytes) : list record :=
  if 11 <=? List.length l then match parseLine l with Some r => [r] | None => [] end else [].

Lemma parseRecs_fine : forall ls, Forall line_fine ls -> parseRecs ls = flat_map lineRec ls.
Proof.
  intros ls H. induction H as [|l ls Hl Hls IH]; [reflexivity|].
  cbn [parseRecs flat_map]. unfold lineRec at 1. destruct (11 <=? List.length l) eqn:E.
  - destruct Hl as [Hl|[r Hr]].
    + apply Nat.leb_le in E. lia.
    + rewrite Hr, IH. reflexivity.
  - exact IH.
Qed.

Lemma flat_map_concat : forall A B (f : A -> list B) ls, flat_map f (concat ls) = flat_map (flat_map f) ls.
Proof.
  intros A B f ls. induction ls as [|l ls IH]; [reflexivity|]. cbn [concat flat_map].
  rewrite flat_map_app, IH. reflexivity.
Qed.

Lemma recsF_fine : forall np ls, 0 < np -> Forall line_fine ls -> recsF np ls = flat_map lineRec ls.
Proof.
  intros np ls Hnp H. unfold recsF.
  rewrite <- (@concat_chunks _ np ls Hnp) at 2.
  rewrite flat_map_concat. 
  assert (Hc : forall cs, (forall c, In c cs -> Forall line_fine c) -> flat_map parseRecs cs = flat_map (flat_map lineRec) cs).
  { induction cs as [|c cs IH]; intros Hc; [reflexivity|]. cbn [flat_map].
    rewrite parseRecs_fine by (apply Hc; left; reflexivity).
    rewrite IH by (intros c' Hc'; apply Hc; right; exact Hc'). reflexivity. }
  apply Hc. intros c Hi. rewrite Forall_forall in *. intros x Hx. apply H. eapply In_chunk; eassumption.
Qed.

(** ** Offsets: the sequential reading *)

Fixpoint applyOff (cur : bytes) (R : list record) : list record :=
  match R with
  | [] => []
  | r :: R' =>
      if beqb (recordType r) extendedLinearAddressRecordToken then r :: applyOff (offset r) R'
      else if beqb (recordType r) dataRecordToken then set_offset r cur :: applyOff cur R'
      else r :: applyOff cur R'
  end.

(** Records whose governing address record counts are read by some goroutine. *)
Definition nozero (R : list record) : Prop :=
  forall i k o, isData R i -> governs R k i -> is04 R k o -> o <> zeroOffset -> ~ zero_block R 0 k.

Lemma applyOff_length : forall R cur, List.length (applyOff cur R) = List.length R.
Proof.
  induction R as [|r R IH]; intros cur; [reflexivity|]. cbn [applyOff].
  destruct (beqb _ _); [|destruct (beqb _ _)]; cbn [List.length]; rewrite IH; reflexivity.
Qed.

Lemma governs_exists : forall R i j o, is04 R j o -> j < i -> exists k, governs R k i.
Proof.
  intros R i. induction i as [|i IH]; intros j o A Hj; [lia|].
  assert (D : (exists o', is04 R i o') \/ forall o', ~ is04 R i o').
  { destruct (nth_error R i) as [ri|] eqn:Ei.
    - destruct (beqb (recordType ri) extendedLinearAddressRecordToken) eqn:Ti.
      + apply beqb_eq in Ti. left. exists (offset ri), ri. auto.
      + right. intros o' (r1 & E1 & T1 & _). rewrite Ei in E1. inversion E1; subst.
        apply beqb_neq in Ti. contradiction.
    - right. intros o' (r1 & E1 & _). congruence. }
  destruct D as [D|D].
  - exists i. split; [lia|]. split; [exact D|]. intros; lia.
  - assert (Hji : j < i).
    { destruct (Nat.eq_dec j i) as [->|]; [exfalso; exact (D o A)|lia]. }
    destruct (IH j o A Hji) as (k & G1 & G2 & G3). exists k. split; [lia|]. split; [exact G2|].
    intros j1 o1 Hj1. destruct (Nat.eq_dec j1 i) as [->|]; [apply D|apply G3; lia].
Qed.

(** What [applyOff] leaves at position [i]. *)
Lemma applyOff_nth : forall R cur i r, nth_error R i = Some r ->
    (recordType r <> dataRecordToken -> nth_error (applyOff cur R) i = Some r)
    /\ (recordType r = dataRecordToken ->
         (exists k o, governs R k i /\ is04 R k o /\ nth_error (applyOff cur R) i = Some (set_offset r o))
         \/ ((forall k, ~ governs R k i) /\ nth_error (applyOff cur R) i = Some (set_offset r cur))).
Proof.
  induction R as [|r0 R IH]; intros cur i r H; [destruct i; discriminate|].
  assert (Sh4 : forall k o, is04 (r0 :: R) (S k) o <-> is04 R k o) by (intros; reflexivity).
  assert (ShG : forall k i, governs R k i -> governs (r0 :: R) (S k) (S i)).
  { intros k i0 (G1 & (o & G2) & G3). split; [lia|]. split; [exists o; exact G2|].
    intros [|j] o' Hj; [lia|]. intros H4. apply (G3 j o'); [lia|exact H4]. }
  assert (ShG' : forall k i, governs (r0 :: R) (S k) (S i) -> governs R k i).
  { intros k i0 (G1 & (o & G2) & G3). split; [lia|]. split; [exists o; exact G2|].
    intros j o' Hj H4. apply (G3 (S j) o'); [lia|exact H4]. }
  destruct i as [|i].
  - cbn in H. inversion H; subst r0. cbn [applyOff]. split.
    + intros Hnd. destruct (beqb (recordType r) extendedLinearAddressRecordToken); [reflexivity|].
      apply beqb_neq in Hnd. rewrite Hnd. reflexivity.
    + intros Hd. right. split.
      * intros k (Hk & _). lia.
      * assert (beqb (recordType r) extendedLinearAddressRecordToken = false) as ->.
        { apply beqb_neq. rewrite Hd. exact dr_ne_ela. }
        rewrite Hd. reflexivity.
  - cbn in H. cbn [applyOff].
    destruct (beqb (recordType r0) extendedLinearAddressRecordToken) eqn:T4.
    + destruct (IH (offset r0) i r H) as [IH1 IH2]. cbn [nth_error]. split; [exact IH1|].
      intros Hd. destruct (IH2 Hd) as [(k & o & G & A & E)|(Ng & E)].
      * left. exists (S k), o. split; [apply ShG, G|]. split; [exact A|exact E].
      * left. exists 0, (offset r0). apply beqb_eq in T4.
        assert (A : is04 (r0 :: R) 0 (offset r0)) by (exists r0; auto).
        split; [|split; [exact A|exact E]]. split; [lia|]. split; [eauto|].
        intros [|j] o Hj H4; [lia|].
        (* a later address record would govern i in R *)
        assert (Hj2 : j < i) by lia. destruct (governs_exists R i j o H4 Hj2) as (k & G).
        exact (Ng k G).
    + assert (Ng0 : forall k, governs (r0 :: R) k (S i) -> exists k', k = S k' /\ governs R k' i).
      { intros [|k] G; [|exists k; split; [reflexivity|apply ShG', G]].
        destruct G as (_ & (o & (r1 & E1 & T1 & _)) & _). cbn in E1. inversion E1; subst.
        apply beqb_neq in T4. contradiction. }
      assert (Hgen : forall L, (exists x, L = x :: applyOff cur R) ->
        (recordType r <> dataRecordToken -> nth_error L (S i) = Some r)
        /\ (recordType r = dataRecordToken ->
           (exists k o, governs (r0 :: R) k (S i) /\ is04 (r0 :: R) k o /\ nth_error L (S i) = Some (set_offset r o))
           \/ ((forall k, ~ governs (r0 :: R) k (S i)) /\ nth_error L (S i) = Some (set_offset r cur)))).
      { intros L (x & ->). cbn [nth_error]. destruct (IH cur i r H) as [IH1 IH2]. split; [exact IH1|].
        intros Hd. destruct (IH2 Hd) as [(k & o & G & A & E)|(Ng & E)].
        - left. exists (S k), o. split; [apply ShG, G|]. split; [exact A|exact E].
        - right. split; [|exact E]. intros k G. destruct (Ng0 k G) as (k' & _ & G'). exact (Ng k' G'). }
      destruct (beqb (recordType r0) dataRecordToken); apply Hgen; eauto.
Qed.

Lemma applyOff_final : forall R starts, fresh R -> In 0 starts -> nozero R ->
    offsets_final R starts (applyOff zeroOffset R).
Proof.
  intros R starts Hf H0 Hz. split; [|split].
  - split; [apply applyOff_length|]. intros i r Hr.
    destruct (applyOff_nth R zeroOffset i r Hr) as [H1 H2].
    destruct (bytes_dec (recordType r) dataRecordToken) as [E|E].
    + right. split; [exact E|]. destruct (H2 E) as [(k & o & _ & _ & E1)|(_ & E1)]; eauto.
    + left. exact (H1 E).
  - intros i o (r & Hr & Ht) (r' & Hr' & Ho) Hnz.
    destruct (applyOff_nth R zeroOffset i r Hr) as [_ H2].
    destruct (H2 Ht) as [(k & o' & G & A & E1)|(_ & E1)].
    + rewrite Hr' in E1. inversion E1; subst. cbn [offset set_offset] in *.
      exists k, 0. split; [exact H0|]. split; [lia|]. split; [exact G|]. split; [exact A|].
      apply (Hz i k o'); try assumption. exists r; auto.
    + rewrite Hr' in E1. inversion E1; subst. cbn [offset set_offset] in Hnz. congruence.
  - intros i o (r & Hr & Ht) (k & s & _ & _ & G & A & _).
    destruct (applyOff_nth R zeroOffset i r Hr) as [_ H2].
    destruct (H2 Ht) as [(k' & o' & G' & A' & E1)|(Ng & _)].
    + pose proof (governs_fun G G'). subst k'. pose proof (is04_fun A A'). subst o'.
      exists (set_offset r o). auto.
    + exfalso. exact (Ng k G).
Qed.

Lemma starts_0 : forall np len, 0 < np -> In 0 (starts_of np len).
Proof.
  intros np len H. unfold starts_of. apply in_map_iff. exists 0.
  split; [apply chunk_start_0|]. apply in_seq. lia.
Qed.

Lemma offsF_applyOff : forall np R, 0 < np -> fresh R -> nozero R -> offsF np R = applyOff zeroOffset R.
Proof.
  intros np R Hnp Hf Hz. eapply offsets_final_unique.
  - apply offsF_final; assumption.
  - apply applyOff_final; [exact Hf|apply starts_0, Hnp|exact Hz].
Qed.

(** With one goroutine, the guard is also necessary. *)
Lemma offsF_applyOff_one : forall R, fresh R -> offsF 1 R = applyOff zeroOffset R -> nozero R.
Proof.
  intros R Hf E i k o Hd G A Hnz Hzb.
  pose proof (offsF_final (np := 1) (Nat.lt_0_1) Hf) as (Hsh & Hsafe & _).
  rewrite E in Hsafe. pose proof Hd as (r & Hr & Ht).
  destruct (applyOff_nth R zeroOffset i r Hr) as [_ H2].
  destruct (H2 Ht) as [(k' & o' & G' & A' & E1)|(Ng & _)]; [|exact (Ng k G)].
  pose proof (governs_fun G G'). subst k'. pose proof (is04_fun A A'). subst o'.
  destruct (Hsafe i o Hd) as (k2 & s & Hs & Hsk & G2 & _ & Hnz2).
  - exists (set_offset r o). auto.
  - exact Hnz.
  - pose proof (governs_fun G G2). subst k2. apply Hnz2.
    unfold starts_of in Hs. cbn [seq map] in Hs. destruct Hs as [Hs|[]].
    rewrite chunk_start_0 in Hs. subst s. exact Hzb.
Qed.
