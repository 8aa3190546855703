(** What is read from an Intel HEX file with any content. *)
From Coq Require Import String Ascii List Arith NArith Bool Lia.
From Verif Require Import GoBase GoBaseFacts GoStrings ConcModel ConcProofs HexSpec HexSpecFacts HexParts IhexSpec
  IhexModel IhexOffsets IhexPhase2 IhexProofs IhexEnc IhexMain IhexLines IhexThm IhexRead CountProps AnySpec.
Import ListNotations.

Local Notation byte_list l := (Forall (fun v => v < 256)%N l).

(** ** Lines of a text *)

Lemma prefixb_iff : forall p s, prefixb p s = true <-> exists q, s = p ++ q.
Proof.
  induction p as [|c p IH]; intros s; cbn [prefixb].
  - split; [intros _; exists s; reflexivity|reflexivity].
  - destruct s as [|d s]; [split; [discriminate|intros (q & E); discriminate]|].
    rewrite andb_true_iff, Ascii.eqb_eq, IH. split.
    + intros [-> (q & ->)]. exists q. reflexivity.
    + intros (q & E). cbn in E. inversion E; subst. split; [reflexivity|eauto].
Qed.

Lemma contains_cons : forall c s x, contains (c :: s) x <-> prefixb x (c :: s) = true \/ contains s x.
Proof.
  intros c s x. rewrite prefixb_iff. split.
  - intros ([|d p] & q & E); [left; exists q; exact E|]. cbn in E. inversion E; subst. right. exists p, q. reflexivity.
  - intros [(q & E)|(p & q & E)]; [exists [], q; exact E|]. exists (c :: p), q. cbn. rewrite E. reflexivity.
Qed.

(** No occurrence: nothing is split. *)
Lemma split_none : forall sep s cur, sep <> [] -> ~ contains s sep -> split_aux sep 0 cur s = [rev cur ++ s].
Proof.
  intros sep s. induction s as [|c s IH]; intros cur Hs H; cbn [split_aux].
  - rewrite app_nil_r. reflexivity.
  - destruct (prefixb sep (c :: s)) eqn:E.
    + destruct H. apply contains_cons. left. exact E.
    + rewrite IH; [|exact Hs|intros C; apply H, contains_cons; right; exact C]. cbn [rev]. rewrite <- app_assoc. reflexivity.
Qed.

Lemma split_some : forall sep s k cur, sep <> [] -> contains (skipn k s) sep -> 2 <= List.length (split_aux sep k cur s).
Proof.
  intros sep s. induction s as [|c s IH]; intros k cur Hs H.
  - rewrite skipn_nil in H. destruct H as ([|] & q & E); [|discriminate]. destruct sep; [congruence|discriminate].
  - cbn [split_aux]. destruct k as [|k].
    + destruct (prefixb sep (c :: s)) eqn:E.
      * cbn [List.length]. pose proof (split_aux_nonempty sep s (List.length sep - 1) []) as N.
        destruct (split_aux _ _ _ _); [congruence|cbn; lia].
      * apply IH; [exact Hs|]. cbn [skipn] in *. apply contains_cons in H. destruct H; [congruence|assumption].
    + apply IH; [exact Hs|]. exact H.
Qed.

(** Lines without CR LF give themselves. *)
Lemma crlf_line : forall l rest cur, ~ contains l [CR; LF] ->
    split_aux [CR; LF] 0 cur (l ++ [CR; LF] ++ rest) = (rev cur ++ l) :: split_aux [CR; LF] 0 [] rest.
Proof.
  induction l as [|c l IH]; intros rest cur H.
  - cbn [app split_aux]. rewrite app_nil_r. reflexivity.
  - cbn [app split_aux]. destruct (prefixb [CR; LF] (c :: l ++ CR :: LF :: rest)) eqn:E.
    + exfalso. apply prefixb_iff in E. destruct E as (q & E). cbn in E. inversion E as [[E1 E2]].
      destruct l as [|d l]; [discriminate E2|]. cbn in E2. inversion E2; subst.
      apply H. exists [], l. reflexivity.
    + change (l ++ CR :: LF :: rest) with (l ++ [CR; LF] ++ rest). rewrite IH.
      * cbn [rev]. rewrite <- app_assoc. reflexivity.
      * intros C. apply H, contains_cons. right. exact C.
Qed.

Lemma split_crlf : forall lines, lines <> [] -> Forall (fun l => ~ contains l [CR; LF]) lines ->
    split [CR; LF] (join [CR; LF] lines) = lines.
Proof.
  intros lines Hne H. unfold split. induction H as [|l ls Hl Hls IH]; [congruence|].
  destruct ls as [|l2 ls].
  - cbn [join]. rewrite split_none by (discriminate || exact Hl). reflexivity.
  - change (join [CR; LF] (l :: l2 :: ls)) with (l ++ [CR; LF] ++ join [CR; LF] (l2 :: ls)).
    rewrite crlf_line by exact Hl. cbn [rev app]. f_equal. apply IH. discriminate.
Qed.

Lemma lines_split : forall text lines, lines_of text lines -> splitLines text = lines.
Proof.
  intros text lines (Hne & [(C & E & F)|(C & E & F)]); unfold splitLines; change crlf with [CR; LF]; change lf with [LF].
  - pose proof (split_some [CR; LF] text 0 [] ltac:(discriminate) C) as L. fold (split [CR; LF] text) in L.
    destruct (List.length (split [CR; LF] text) =? 1) eqn:E1; [apply Nat.eqb_eq in E1; lia|].
    rewrite E. apply split_crlf; assumption.
  - unfold split at 1 2. rewrite (split_none [CR; LF] text [] ltac:(discriminate) C). cbn [rev app List.length Nat.eqb].
    rewrite E. apply (split_join LF []); assumption.
Qed.

(** Each text has such lines. *)
Lemma contains_dec : forall s x, contains s x \/ ~ contains s x.
Proof.
  induction s as [|c s IH]; intros x.
  - destruct x as [|d x]; [left; exists [], []; reflexivity|right; intros ([|] & q & E); discriminate].
  - destruct (prefixb x (c :: s)) eqn:E; [left; apply contains_cons; left; exact E|].
    destruct (IH x) as [H|H]; [left; apply contains_cons; right; exact H|].
    right. intros C. apply contains_cons in C. destruct C; [congruence|contradiction].
Qed.

Lemma first_occurrence : forall x s, x <> [] -> contains s x -> exists p q, s = p ++ x ++ q /\ ~ contains p x.
Proof.
  intros x s Hx. induction s as [|c s IH]; intros H.
  - destruct H as ([|] & q & E); [|discriminate]. destruct x; [congruence|discriminate].
  - destruct (prefixb x (c :: s)) eqn:E.
    + apply prefixb_iff in E. destruct E as (q & E). exists [], q. split; [exact E|].
      intros ([|] & q' & E'); [|discriminate]. destruct x; [congruence|discriminate].
    + apply contains_cons in H. destruct H as [H|H]; [congruence|].
      destruct (IH H) as (p & q & E1 & H1). exists (c :: p), q. split; [rewrite E1; reflexivity|].
      intros C. apply contains_cons in C. destruct C as [C|C]; [|contradiction].
      apply prefixb_iff in C. destruct C as (r & C).
      assert (prefixb x (c :: s) = true); [|congruence].
      apply prefixb_iff. exists (r ++ x ++ q). rewrite E1, app_comm_cons, C, <- app_assoc. reflexivity.
Qed.

Lemma lines_exist : forall x, x <> [] -> forall n s, List.length s <= n ->
    exists lines, lines <> [] /\ s = join x lines /\ Forall (fun l => ~ contains l x) lines.
Proof.
  intros x Hx. induction n as [|n IH]; intros s L.
  - exists [s]. split; [discriminate|]. split; [reflexivity|]. constructor; [|constructor].
    destruct s; [|cbn in L; lia]. intros ([|] & q & E); [|discriminate]. destruct x; [congruence|discriminate].
  - destruct (contains_dec s x) as [C|C].
    + destruct (first_occurrence x s Hx C) as (p & q & E & H).
      destruct (IH q) as (ls & N & Eq & F).
      { rewrite E, !app_length in L. destruct x; [congruence|cbn in L; lia]. }
      exists (p :: ls). split; [discriminate|]. split; [|constructor; assumption].
      rewrite E. destruct ls; [congruence|]. rewrite Eq. reflexivity.
    + exists [s]. split; [discriminate|]. split; [reflexivity|]. constructor; [exact C|constructor].
Qed.

Lemma lines_of_exist : forall text, exists lines, lines_of text lines.
Proof.
  intros text. destruct (contains_dec text [CR; LF]) as [C|C].
  - destruct (lines_exist [CR; LF] ltac:(discriminate) _ text (le_n _)) as (ls & N & E & F).
    exists ls. split; [exact N|]. left. auto.
  - destruct (lines_exist [LF] ltac:(discriminate) _ text (le_n _)) as (ls & N & E & F).
    exists ls. split; [exact N|]. right. split; [exact C|]. split; [exact E|].
    eapply Forall_impl; [|exact F]. intros l H Hi. apply H. apply in_split in Hi. destruct Hi as (p & q & ->).
    exists p, q. reflexivity.
Qed.

(** ** Upper halves, for records with any text *)

Definition wr (r : record) (x : irec) : Prop :=
  match x with
  | IData a bs => recordType r = dataRecordToken
      /\ forall o u, hex_decode o = Some [u / 256; u mod 256]%N -> entries (set_offset r o) = wrapped u a bs
  | IEla u => recordType r = extendedLinearAddressRecordToken
      /\ (u < 65536)%N /\ hex_decode (offset r) = Some [u / 256; u mod 256]%N /\ (u = 0%N -> offset r = zeroOffset)
  | IOther _ _ _ => recordType r <> dataRecordToken /\ recordType r <> extendedLinearAddressRecordToken
  end.

Lemma Forall2_nth1 : forall A B (P : A -> B -> Prop) l1 l2 i x, Forall2 P l1 l2 -> nth_error l1 i = Some x ->
    exists y, nth_error l2 i = Some y /\ P x y.
Proof.
  intros A B P l1 l2 i x H. revert i. induction H as [|a c l1 l2 Ha H IH]; intros [|i] E; cbn in *; try discriminate.
  - inversion E; subst. eauto.
  - apply IH, E.
Qed.
Lemma Forall2_nth2 : forall A B (P : A -> B -> Prop) l1 l2 i y, Forall2 P l1 l2 -> nth_error l2 i = Some y ->
    exists x, nth_error l1 i = Some x /\ P x y.
Proof.
  intros A B P l1 l2 i y H. revert i. induction H as [|a c l1 l2 Ha H IH]; intros [|i] E; cbn in *; try discriminate.
  - inversion E; subst. eauto.
  - apply IH, E.
Qed.
Lemma Forall2_len : forall A B (P : A -> B -> Prop) l1 l2, Forall2 P l1 l2 -> List.length l1 = List.length l2.
Proof. intros A B P l1 l2 H. induction H; cbn; congruence. Qed.

Lemma dec_of : forall o u, (u < 65536)%N -> hex_decode o = Some [u / 256; u mod 256]%N -> dec o = u.
Proof. intros o u Hu E. unfold dec. rewrite E. pose proof (N.div_mod u 256). lia. Qed.

Section Uppers.
  Variable R : list record.
  Variable rs : list irec.
  Hypothesis Hw : Forall2 wr R rs.

  Lemma w_ela : forall k o, is04 R k o -> exists u, nth_error rs k = Some (IEla u) /\ (u < 65536)%N
      /\ hex_decode o = Some [u / 256; u mod 256]%N /\ (u = 0%N -> o = zeroOffset).
  Proof.
    intros k o (r & Hr & Ht & Ho). destruct (Forall2_nth1 _ _ _ _ _ _ _ Hw Hr) as (x & Ex & W). subst o.
    destruct x as [a bs|u|t a bs]; cbn [wr] in W.
    - destruct W as [W _]. exfalso. rewrite Ht in W. discriminate W.
    - exists u. destruct W as (_ & W1 & W2 & W3). auto.
    - destruct W as [_ W]. contradiction.
  Qed.

  Lemma w_ela_conv : forall k u, nth_error rs k = Some (IEla u) -> exists o, is04 R k o.
  Proof.
    intros k u H. destruct (Forall2_nth2 _ _ _ _ _ _ _ Hw H) as (r & Er & W & _). exists (offset r), r. auto.
  Qed.

  Lemma w_zero : forall k o, is04 R k o -> (o = zeroOffset <-> nth_error rs k = Some (IEla 0)).
  Proof.
    intros k o A. destruct (w_ela k o A) as (u & E & Hu & D & Z). split; intros H.
    - rewrite E. f_equal. f_equal. rewrite <- (dec_of o u Hu D), H. reflexivity.
    - rewrite E in H. inversion H; subst. auto.
  Qed.

  Lemma w_data : forall i, isData R i <-> exists a bs, nth_error rs i = Some (IData a bs).
  Proof.
    intros i. split.
    - intros (r & Er & Ht). destruct (Forall2_nth1 _ _ _ _ _ _ _ Hw Er) as (x & Ex & W).
      destruct x as [a bs|u|t a bs]; cbn [wr] in W; [eauto| |destruct W; contradiction].
      destruct W as [W _]. rewrite Ht in W. discriminate W.
    - intros (a & bs & E). destruct (Forall2_nth2 _ _ _ _ _ _ _ Hw E) as (r & Er & W & _). exists r. auto.
  Qed.

  Lemma w_no_ela : forall j, (forall u, nth_error rs j <> Some (IEla u)) <-> (forall o, ~ is04 R j o).
  Proof.
    intros j. split.
    - intros H o A. destruct (w_ela j o A) as (u & E & _). exact (H u E).
    - intros H u E. destruct (w_ela_conv j u E) as [o A]. exact (H o A).
  Qed.

  Lemma w_governs_closest : forall k i, governs R k i -> exists u, closest rs k i u.
  Proof.
    intros k i (L & (o & A) & N). destruct (w_ela k o A) as (u & E & _).
    exists u. split; [exact L|]. split; [exact E|]. intros j u' Hj.
    apply (proj2 (w_no_ela j)). intros o' A'. exact (N j o' Hj A').
  Qed.

  Lemma w_closest_governs : forall k i u, closest rs k i u -> governs R k i.
  Proof.
    intros k i u (L & E & N). split; [exact L|]. split; [exact (w_ela_conv k u E)|].
    intros j o Hj. apply (proj1 (w_no_ela j)). intros u'. exact (N j u' Hj).
  Qed.

  Lemma w_zero_used : forall s k, zero_used rs s k <-> zero_block R s k.
  Proof.
    intros s k. split.
    - intros (k' & d & a & bs & Hk & Ed & C). exists k', d. split; [exact Hk|].
      pose proof (w_closest_governs _ _ _ C) as G. destruct G as (L & (o & A) & N).
      destruct C as (_ & E & _). split; [|split; [apply w_data; eauto|split; [exact L|split; [eauto|exact N]]]].
      replace zeroOffset with o; [exact A|]. apply (w_zero k' o A), E.
    - intros (k' & d & Hk & A & D & G). apply w_data in D. destruct D as (a & bs & Ed).
      destruct (w_governs_closest _ _ G) as (u & C). exists k', d, a, bs. split; [exact Hk|]. split; [exact Ed|].
      pose proof (proj1 (w_zero k' _ A) eq_refl) as E0. destruct C as (L & E & N).
      rewrite E0 in E. inversion E; subst. split; [exact L|]. split; [exact E0|exact N].
  Qed.

  Variable np : nat.

  Lemma w_starts : forall s, In s (starts_of np (List.length R)) <->
      exists g, g < np /\ s = g * (List.length rs / np).
  Proof.
    intros s. unfold starts_of, chunk_start. rewrite in_map_iff.
    rewrite (Forall2_len _ _ _ _ _ Hw). split.
    - intros (g & <- & Hg). apply in_seq in Hg. exists g. split; [lia|apply Nat.mul_comm].
    - intros (g & Hg & ->). exists g. split; [apply Nat.mul_comm|apply in_seq; lia].
  Qed.

  Lemma w_reached_taken : forall i o, reached R (starts_of np (List.length R)) i o ->
      taken np rs i (dec o) /\ exists u, (u < 65536)%N /\ hex_decode o = Some [u / 256; u mod 256]%N.
  Proof.
    intros i o (k & s & Hs & Hk & G & A & Z). apply w_starts in Hs. destruct Hs as (g & Hg & ->).
    destruct (w_ela k o A) as (u & E & Hu & D & _). split; [|eauto].
    rewrite (dec_of o u Hu D). destruct (w_governs_closest _ _ G) as (u' & L & E' & N).
    exists g, k. split; [exact Hg|]. split; [exact Hk|]. split; [|rewrite w_zero_used; exact Z].
    split; [exact L|]. split; [exact E|exact N].
  Qed.

  Lemma w_taken_reached : forall i u, taken np rs i u ->
      exists o, reached R (starts_of np (List.length R)) i o /\ dec o = u.
  Proof.
    intros i u (g & k & Hg & Hk & C & Z). pose proof (w_closest_governs _ _ _ C) as G.
    destruct C as (_ & E & _). destruct (w_ela_conv k u E) as (o & A).
    exists o. destruct (w_ela k o A) as (u' & E' & Hu & D & _). split.
    - exists k, (g * (List.length rs / np)). split; [apply w_starts; eauto|].
      split; [exact Hk|]. split; [exact G|]. split; [exact A|]. rewrite <- w_zero_used. exact Z.
    - rewrite (dec_of o u' Hu D). rewrite E in E'. inversion E'. reflexivity.
  Qed.

  Lemma w_offsets_read : (0 < np)%nat -> fresh R -> image_read np rs (flat_map entries (offsF np R)).
  Proof.
    intros Hnp Hf. pose proof (offsF_final Hnp Hf) as ((L & Hsh) & Hsafe & Hlive).
    set (F := offsF np R) in *.
    assert (Hlen : List.length F = List.length rs) by (rewrite L; apply (Forall2_len _ _ _ _ _ Hw)).
    assert (Hd : forall i f, isData R i -> nth_error F i = Some f ->
              upper_read np rs i (dec (offset f))
              /\ exists u, (u < 65536)%N /\ hex_decode (offset f) = Some [u / 256; u mod 256]%N).
    { intros i f D Ef. assert (O : offset_at F i (offset f)) by (exists f; auto).
      assert (T : forall u', taken np rs i u' -> u' = dec (offset f)).
      { intros u' H. destruct (w_taken_reached i u' H) as (o & Ho & <-).
        rewrite (offset_at_fun O (Hlive i o D Ho)). reflexivity. }
      destruct (beqb (offset f) zeroOffset) eqn:Z.
      - apply beqb_eq in Z. split; [split; [|exact T]|].
        + rewrite Z, dec_zero. intros H. destruct (H eq_refl).
        + exists 0%N. split; [lia|]. rewrite Z. reflexivity.
      - apply beqb_neq in Z. destruct (w_reached_taken i _ (Hsafe i _ D O Z)) as [H1 H2].
        split; [split; [intros _; exact H1|exact T]|exact H2]. }
    exists (map (fun f => dec (offset f)) F). split; [rewrite map_length; exact Hlen|]. split.
    - intros i a bs u Er Eu. rewrite nth_error_map in Eu. destruct (nth_error F i) as [f|] eqn:Ef; [|discriminate].
      cbn in Eu. inversion Eu; subst. apply Hd; [|exact Ef]. apply w_data; eauto.
    - unfold image_with. apply image_of. apply Forall2_nth; [symmetry; exact Hlen|].
      intros i x f Ex Ef. cbn [fst snd].
      destruct (Forall2_nth2 _ _ _ _ _ _ _ Hw Ex) as (r & Er & W).
      destruct x as [a bs|u|t a bs]; cbn [wr] in W.
      + assert (D : isData R i) by (apply w_data; eauto).
        destruct (Hd i f D Ef) as (_ & u & Hu & Eo). destruct W as [T W].
        assert (Es : f = set_offset r (offset f)).
        { destruct (Hsh i _ Er) as [E|[_ [o E]]]; rewrite Ef in E; inversion E; [destruct r|]; reflexivity. }
        rewrite Es at 1. rewrite (dec_of _ u Hu Eo). apply W, Eo.
      + destruct W as (T & _). destruct (Hsh i _ Er) as [E|[T' _]]; [|rewrite T in T'; discriminate T'].
        rewrite Ef in E. inversion E; subst. unfold entries. rewrite T. reflexivity.
      + destruct W as (T & _). destruct (Hsh i _ Er) as [E|[T' _]]; [|contradiction].
        rewrite Ef in E. inversion E; subst. unfold entries. apply beqb_neq in T. rewrite T. reflexivity.
  Qed.
End Uppers.

(** ** Lines *)

Lemma whole_odd : forall l, Nat.odd (List.length l) = true -> whole l = l.
Proof. intros l H. unfold whole. rewrite H. reflexivity. Qed.

(** The third last character of a line with an odd number of digits is not read. *)
Lemma third_last : forall l, Nat.odd (List.length l) = false -> 12 <= List.length l ->
    exists p c k, l = p ++ c :: k /\ List.length k = 2 /\ whole l = p ++ k.
Proof.
  intros l H L. unfold whole. rewrite H. unfold without_third_last.
  exists (firstn (List.length l - 3) l). destruct (skipn (List.length l - 3) l) as [|c k] eqn:E.
  - apply (f_equal (@List.length _)) in E. rewrite skipn_length in E. cbn in E. lia.
  - exists c, k. split; [rewrite <- E, firstn_skipn; reflexivity|].
    assert (K : List.length (c :: k) = 3) by (rewrite <- E, skipn_length; lia). split; [cbn in K; lia|].
    f_equal. replace (List.length l - 2) with (1 + (List.length l - 3)) by lia.
    rewrite <- (firstn_skipn (List.length l - 3) l) at 2. rewrite E.
    rewrite skipn_app, firstn_length_le by lia.
    rewrite skipn_all2 by (rewrite firstn_length_le; lia).
    replace (1 + (List.length l - 3) - (List.length l - 3)) with 1 by lia. reflexivity.
Qed.

Lemma dl_stray : forall n p c k, List.length p <= n -> Nat.even (List.length p) = true -> List.length k = 2 ->
    dl (p ++ c :: k) = dl (p ++ k).
Proof.
  induction n as [|n IH]; intros p c k L E K; destruct k as [|a [|a2 [|]]]; try discriminate K.
  - destruct p; [reflexivity|cbn in L; lia].
  - destruct p as [|x [|y p]]; [reflexivity|discriminate E|].
    cbn [app dl]. assert (I : dl (p ++ [c; a; a2]) = dl (p ++ [a; a2])) by (apply (IH p c [a; a2]); [cbn in L; lia|exact E|reflexivity]).
    destruct p as [|z [|w p]]; [reflexivity|discriminate E|]. cbn [app]. f_equal. exact I.
Qed.

Lemma last2_app : forall p k, List.length k = 2 -> last2 (p ++ k) = k.
Proof.
  intros p k K. unfold last2. rewrite app_length, K. replace (List.length p + 2 - 2) with (List.length p) by lia.
  rewrite skipn_app, skipn_all, Nat.sub_diag. reflexivity.
Qed.

(** A record line and its whole bytes give the same record (up to the offset of
    too short address records). *)
Lemma whole_parse : forall l r, parseLine l = Some r -> exists r', parseLine (whole l) = Some r'
    /\ byteCount r' = byteCount r /\ addressField r' = addressField r /\ recordType r' = recordType r
    /\ data r' = data r /\ checksum r' = checksum r
    /\ ((line_type l = b "04" -> List.length l <> 14) -> r' = r) /\ whole_bytes (whole l).
Proof.
  intros l r H. pose proof (parse_record_line l r H) as (_ & L11 & L13).
  destruct (Nat.odd (List.length l)) eqn:O.
  - rewrite (whole_odd l O). exists r. split; [exact H|]. do 5 (split; [reflexivity|]). split; [reflexivity|].
    apply Nat.odd_spec, O.
  - assert (L12 : 12 <= List.length l).
    { destruct (Nat.eq_dec (List.length l) 11) as [E|E]; [rewrite E in O; discriminate|lia]. }
    destruct (third_last l O L12) as (p & c & k & E & K & W). rewrite W.
    assert (Lp : List.length l = List.length p + 3) by (rewrite E, app_length; cbn; lia).
    destruct p as [|c0 [|c1 [|c2 [|a1 [|a2 [|a3 [|a4 [|t1 [|t2 p]]]]]]]]]; cbn [List.length] in Lp; try lia.
    assert (Ev : Nat.even (List.length p) = true).
    { rewrite Lp in O. rewrite <- Nat.negb_even in O. apply negb_false_iff in O.
      replace (S (S (S (S (S (S (S (S (S (List.length p))))))))) + 3) with (12 + List.length p) in O by lia.
      rewrite Nat.even_add in O. destruct (Nat.even (List.length p)); [reflexivity|discriminate O]. }
    rewrite E in H. cbn [app parseLine] in H. rewrite app_length in H. cbn [List.length] in H. rewrite K in H.
    destruct (Ascii.eqb c0 beginLineToken) eqn:C0; [|discriminate H].
    replace (2 <=? List.length p + 3) with true in H by (symmetry; apply Nat.leb_le; lia). cbn [andb] in H.
    assert (P : exists o, parseLine ((c0 :: c1 :: c2 :: a1 :: a2 :: a3 :: a4 :: t1 :: t2 :: p) ++ k)
                = Some (mkrec c1 c2 a1 a2 a3 a4 t1 t2 (p ++ k) o)
             /\ (exists o0, r = mkrec c1 c2 a1 a2 a3 a4 t1 t2 (p ++ c :: k) o0
             /\ ((line_type l = b "04" -> List.length l <> 14) -> o = o0))).
    { cbn [app parseLine]. rewrite C0, app_length, K.
      replace (2 <=? List.length p + 2) with true by (symmetry; apply Nat.leb_le; lia). cbn [andb].
      destruct (beqb [t1; t2] extendedLinearAddressRecordToken) eqn:T.
      - apply beqb_eq in T.
        assert (T' : line_type l = b "04") by (rewrite E; exact T).
        specialize (L13 T'). assert (P2 : 2 <= List.length p).
        { rewrite Lp in L13. destruct p as [|? [|? ?]]; [cbn in L13; lia|discriminate Ev|cbn; lia]. }
        replace (4 <=? List.length p + 2) with true by (symmetry; apply Nat.leb_le; lia).
        destruct (4 <=? List.length p + 3); [|discriminate H].
        exists (firstn 4 (p ++ k)). split; [reflexivity|]. exists (firstn 4 (p ++ c :: k)). split; [congruence|].
        intros H15. specialize (H15 T'). rewrite Lp in H15.
        assert (4 <= List.length p).
        { destruct p as [|? [|? [|? [|? ?]]]]; try discriminate Ev; cbn [List.length] in P2, H15 |- *; lia. }
        rewrite !firstn_app_le by lia. reflexivity.
      - eexists. split; [reflexivity|]. eexists. split; [inversion H; reflexivity|]. intros _. reflexivity. }
    destruct P as (o & P & o0 & -> & Eo). eexists. split; [exact P|].
    unfold mkrec. cbn [byteCount addressField recordType data checksum].
    rewrite (dl_stray _ p c k (le_n _) Ev K). rewrite last2_app by exact K.
    change (p ++ c :: k) with (p ++ [c] ++ k). rewrite app_assoc, last2_app by exact K.
    do 5 (split; [reflexivity|]). split; [intros H15; rewrite (Eo H15); reflexivity|].
    apply Nat.odd_spec. cbn [app List.length]. rewrite app_length, K.
    replace (S (S (S (S (S (S (S (S (S (List.length p + 2)))))))))) with (11 + List.length p) by lia.
    rewrite Nat.odd_add. rewrite <- (Nat.negb_even (List.length p)), Ev. reflexivity.
Qed.

Lemma csum_ok_fields : forall r r', byteCount r' = byteCount r -> addressField r' = addressField r ->
    recordType r' = recordType r -> data r' = data r -> checksum r' = checksum r -> csum_ok r' = csum_ok r.
Proof.
  intros r r' E1 E2 E3 E4 E5. unfold csum_ok, validateChecksum. rewrite E1, E2, E3, E4, E5. reflexivity.
Qed.

Lemma csum_adds_up : forall l r, parseLine l = Some r -> (csum_ok r = true <-> adds_up l).
Proof.
  intros l r H. destruct (whole_parse l r H) as (r' & P & E1 & E2 & E3 & E4 & E5 & _ & W).
  rewrite <- (csum_ok_fields r r') by assumption. rewrite (line_csum _ _ W P). unfold adds_up, says, good_sum. split.
  - intros (tx & bs & E & H1 & H2). exists bs. split; [exists tx; auto|exact H2].
  - intros (bs & (tx & E & H1) & H2). exists tx, bs. auto.
Qed.

(** ** From a line to its record *)

Lemma hex_text_bytes : forall tx bs, hex_text tx bs -> byte_list bs.
Proof. intros tx bs H. induction H; constructor; assumption. Qed.
Lemma hex_text_len : forall tx bs, hex_text tx bs -> List.length tx = 2 * List.length bs.
Proof. intros tx bs H. induction H as [|up v tx bs Hv H IH]; [reflexivity|]. rewrite app_length. cbn. lia. Qed.

Lemma dl_text : forall tx bs, hex_text tx bs -> Forall2 (fun s v => hexToByte s = Some v) (dl tx) (removelast bs).
Proof.
  intros tx bs H. induction H as [|up v tx bs Hv H IH]; [constructor|].
  destruct bs as [|w bs]; [inversion H; subst; constructor|].
  pose proof (hex_text_len _ _ H) as L. destruct tx as [|c [|d tx]]; cbn [List.length] in L; try lia.
  change (removelast (v :: w :: bs)) with (v :: removelast (w :: bs)).
  unfold hex2. cbn [app dl]. constructor; [|exact IH]. apply (hexToByte_hex2 up v Hv).
Qed.

Lemma calc_loop_text : forall ds bs i addr a x y cur u, Forall2 (fun s v => hexToByte s = Some v) ds bs ->
    hex_decode cur = Some [u / 256; u mod 256]%N -> hex_decode addr = Some [x; y] -> a = (256 * x + y)%N ->
    calc_loop i ds addr cur = Ok (wrapped u (a + i) bs, false).
Proof.
  intros ds bs i addr a x y cur u Hb Hcur Hd Ha. revert i.
  induction Hb as [|s v ds bs Hv Hbs IH]; intros i; [reflexivity|].
  cbn [calc_loop]. rewrite Hd. cbn [be16 obind]. rewrite Hcur, Hv. cbn [app be32 obind].
  rewrite IH. cbn [obind wrapped fst snd].
  assert (Hs : u16 (256 * x + y + u16 i) = ((a + i) mod 65536)%N).
  { rewrite <- Ha. unfold u16. rewrite N.add_mod_idemp_r by lia. reflexivity. }
  rewrite Hs.
  assert (E : (16777216 * (u / 256) + 65536 * (u mod 256) + 256 * ((a + i) mod 65536 / 256) + ((a + i) mod 65536) mod 256
               = 65536 * u + (a + i) mod 65536)%N).
  { pose proof (N.div_mod u 256). pose proof (N.div_mod ((a + i) mod 65536) 256). lia. }
  rewrite E, N.add_assoc. reflexivity.
Qed.

Lemma says_record : forall l r bs, parseLine l = Some r -> says l bs -> (line_type l = b "04" -> List.length l <> 14) ->
    wr r (irec_of bs).
Proof.
  intros l r bs H (tx & E & Ht) H15. destruct (whole_parse l r H) as (r' & P & _ & _ & _ & _ & _ & Er & _).
  rewrite (Er H15) in P. clear Er r' H. rewrite E in P.
  pose proof (parse_record_line _ _ P) as (_ & L11 & L13). cbn [List.length] in L11, L13. clear E l H15.
  pose proof (hex_text_len _ _ Ht) as Lt.
  destruct bs as [|n [|x [|y [|t rest]]]]; cbn [List.length] in Lt; try lia.
  inversion Ht as [|un ? tx1 ? Hn Ht1 E1 E2]; subst. inversion Ht1 as [|ux ? tx2 ? Hx Ht2 E1 E2]; subst.
  inversion Ht2 as [|uy ? tx3 ? Hy Ht3 E1 E2]; subst. inversion Ht3 as [|ut ? rt ? Htt Hr E1 E2]; subst.
  clear Ht Ht1 Ht2 Ht3. pose proof (hex_text_len _ _ Hr) as Lr.
  assert (Lrest : 1 <= List.length rest) by lia.
  assert (TT : forall x y, line_type (":"%char :: hex2 un n ++ hex2 ux x ++ hex2 uy y ++ hex2 ut t ++ rt) = hex2 ut t) by reflexivity.
  cbn [app hex2] in P. unfold parseLine in P. change (Ascii.eqb ":" beginLineToken) with true in P.
  replace (2 <=? List.length rt) with true in P by (symmetry; apply Nat.leb_le; lia). cbn [andb] in P.
  change [digit ut (t / 16); digit ut (t mod 16)] with (hex2 ut t) in P.
  destruct (hex2_type ut t Htt) as [T4 T0]. rewrite T4 in P. unfold irec_of.
  assert (HA : hex_decode (hex2 ux x ++ hex2 uy y) = Some [x; y]).
  { apply hex_text_decode. change (hex2 ux x ++ hex2 uy y) with (hex2 ux x ++ hex2 uy y ++ []).
    constructor; [exact Hx|]. constructor; [exact Hy|constructor]. }
  destruct (t =? 0)%N eqn:E0.
  - apply N.eqb_eq in E0. subst t. cbn [N.eqb] in P. inversion P as [Er]. clear P Er. cbn [wr]. split; [destruct ut; reflexivity|].
    intros o u Ho. unfold entries. change (recordType (set_offset _ o)) with (hex2 ut 0). rewrite T0.
    unfold calcDataEntries. cbn [data addressField offset set_offset mkrec].
    rewrite (calc_loop_text _ (removelast rest) 0 _ (256 * x + y) x y o u).
    + cbn [fst]. rewrite N.add_0_r. reflexivity.
    + apply dl_text, Hr.
    + exact Ho.
    + exact HA.
    + reflexivity.
  - destruct (t =? 4)%N eqn:E4.
    + apply N.eqb_eq in E4. subst t.
      assert (R2 : 2 <= List.length rest).
      { specialize (L13 ltac:(destruct ut; reflexivity)). unfold hex2 in L13. cbn [app List.length] in L13. lia. }
      destruct (4 <=? List.length rt); [|discriminate P]. inversion P as [Er]. clear P Er.
      destruct rest as [|p0 [|p1 rest]]; cbn [List.length] in R2; try lia. cbn [nth].
      inversion Hr as [|u0 ? rt1 ? Hp0 Hr1 E1 E2]; subst. inversion Hr1 as [|u1 ? rt2 ? Hp1 Hr2 E1 E2]; subst.
      assert (D : ((256 * p0 + p1) / 256 = p0 /\ (256 * p0 + p1) mod 256 = p1)%N).
      { split; [symmetry; apply (N.div_unique _ 256 p0 p1); lia|symmetry; apply (N.mod_unique _ 256 p0 p1); lia]. }
      destruct D as [D1 D2]. cbn [wr]. rewrite D1, D2. split; [destruct ut; reflexivity|]. split; [lia|].
      cbn [offset mkrec]. unfold hex2 at 1 2. cbn [app firstn].
      split.
      * change [digit u0 (p0 / 16); digit u0 (p0 mod 16); digit u1 (p1 / 16); digit u1 (p1 mod 16)]
          with (hex2 u0 p0 ++ hex2 u1 p1 ++ []).
        apply hex_text_decode. constructor; [exact Hp0|]. constructor; [exact Hp1|constructor].
      * intros Z. assert (p0 = 0%N) by lia. assert (p1 = 0%N) by lia. subst. destruct u0, u1; reflexivity.
    + inversion P as [Er]. clear P Er. cbn [wr]. change (recordType (mkrec _ _ _ _ _ _ _ _ _ _)) with (hex2 ut t).
      split; [apply beqb_neq, T0|apply beqb_neq, T4].
Qed.

(** ** Files *)

Lemma read_recs : forall np ls, exists recs, recsF np ls = recs
    /\ Forall2 (fun l r => parseLine l = Some r) (read_lines np ls) recs.
Proof.
  intros np ls. exists (recsF np ls). split; [reflexivity|]. rewrite recsF_kept. unfold read_lines.
  assert (F : Forall (fun l => fine_lineb l = true) (kept fine_lineb np ls)) by apply kept_ok.
  induction F as [|l ls' Hl F IH]; [constructor|]. cbn [filter flat_map]. unfold long at 1, lineRec at 1.
  destruct (11 <=? List.length l) eqn:E; [|exact IH].
  destruct (fineb_parse l Hl) as [H|[r H]]; [apply Nat.leb_le in E; lia|]. rewrite H. constructor; [exact H|exact IH].
Qed.

Lemma all_add_up : forall K recs, Forall2 (fun l r => parseLine l = Some r) K recs ->
    (forallb csum_ok recs = true <-> Forall adds_up K).
Proof.
  intros K recs H. induction H as [|l r K recs Hl H IH]; [split; [constructor|reflexivity]|].
  cbn [forallb]. rewrite andb_true_iff, IH, (csum_adds_up l r Hl). split.
  - intros [? ?]. constructor; assumption.
  - intros X. inversion X; auto.
Qed.

Lemma any_checksum : forall np text lines, (0 < np)%nat -> lines_of text lines -> ~ Forall adds_up (read_lines np lines) ->
    always (parseFile_exec np text) (fun r => r = Ok ([], Some EChecksum)).
Proof.
  intros np text lines Hnp HL HN. apply always_iff; [exact Hnp|]. unfold parseFileF. rewrite (lines_split _ _ HL).
  unfold parseHexF. destruct (read_recs np lines) as (recs & -> & F).
  destruct (forallb csum_ok recs) eqn:E; [|reflexivity]. apply (all_add_up _ _ F) in E. contradiction.
Qed.

Lemma any_read : forall np text lines bss, (0 < np)%nat -> lines_of text lines ->
    Forall (fun l => line_type l = b "04" -> List.length l <> 14) (read_lines np lines) ->
    Forall2 says (read_lines np lines) bss -> Forall (fun bs => nsum bs mod 256 = 0)%N bss ->
    exists img, image_read np (map irec_of bss) img /\
    always (parseFile_exec np text)
      (fun r => (NoDup (map fst img) -> exists m, r = Ok (m, None) /\ map_is m img)
        /\ (~ NoDup (map fst img) -> exists m a v0 v pre post, r = Ok (m, Some (ECollision a v0 v))
              /\ img = pre ++ (a, v) :: post /\ In (a, v0) pre /\ map_is m pre)).
Proof.
  intros np text lines bss Hnp HL H14 Hs Hz.
  destruct (read_recs np lines) as (recs & ER & F).
  assert (A : Forall adds_up (read_lines np lines)).
  { clear F H14 ER. revert Hz. induction Hs as [|l bs K bss Hl Hs IH]; intros Hz; [constructor|].
    inversion Hz; subst. constructor; [|apply IH; assumption]. exists bs. auto. }
  assert (W : Forall2 wr recs (map irec_of bss)).
  { clear Hz A ER. revert bss Hs H14. induction F as [|l r K recs Hl F IH]; intros bss Hs H14.
    - inversion Hs. constructor.
    - inversion Hs as [|? bs ? bss' Hb Hs' E1 E2]; subst. inversion H14; subst. constructor; [|apply IH; assumption].
      apply (says_record l); assumption. }
  assert (Hf : fresh recs) by (rewrite <- ER; apply recsF_fresh).
  pose proof (w_offsets_read recs _ W np Hnp Hf) as HI. eexists. split; [exact HI|].
  apply always_iff; [exact Hnp|]. unfold parseFileF. rewrite (lines_split _ _ HL).
  unfold parseHexF. rewrite ER. rewrite (proj2 (all_add_up _ _ F) A). set (img := flat_map _ _). split.
  - intros Hn. rewrite store_all_ok; [|exact Hn|intros a _ []]. eexists. split; [reflexivity|].
    apply map_is_rev, Hn.
  - intros Hn. destruct (store_all_clash _ Hn) as (m & a & v0 & v & pre & post & E & H).
    rewrite E. exists m, a, v0, v, pre, post. split; [reflexivity|exact H].
Qed.
