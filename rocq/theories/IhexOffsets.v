(** The offset goroutines of [ihex32]: what any interleaving of them leaves in
    the records. *)
From Coq Require Import String Ascii List Arith NArith Bool Lia.
From Verif Require Import GoBase GoStrings GoBaseFacts ConcModel IhexModel.
Import ListNotations.
Set Implicit Arguments.

(** ** Vocabulary (specification): positions of records *)

Definition is04 (R : list record) (k : nat) (o : bytes) : Prop :=
  exists r, nth_error R k = Some r
            /\ recordType r = extendedLinearAddressRecordToken /\ offset r = o.
Definition isData (R : list record) (i : nat) : Prop :=
  exists r, nth_error R i = Some r /\ recordType r = dataRecordToken.

(** [k] is the closest extended linear address record before [i]. *)
Definition governs (R : list record) (k i : nat) : Prop :=
  k < i /\ (exists o, is04 R k o) /\ forall j o, k < j < i -> ~ is04 R j o.

(** Between [s] and [k] there is an extended linear address record with value
    0000 that governs some data record. *)
Definition zero_block (R : list record) (s k : nat) : Prop :=
  exists k' d, s <= k' < k /\ is04 R k' zeroOffset /\ isData R d /\ governs R k' d.

(** Data record [i] is governed by a record with value [o], and one of the
    goroutines starting at [starts] comes there without meeting a zero block. *)
Definition reached (R : list record) (starts : list nat) (i : nat) (o : bytes) : Prop :=
  exists k s, In s starts /\ s <= k /\ governs R k i /\ is04 R k o /\ ~ zero_block R s k.

Definition offset_at (recs : list record) (i : nat) (o : bytes) : Prop :=
  exists r, nth_error recs i = Some r /\ offset r = o.

(** Same records up to the offsets of data records. *)
Definition same_shape (R recs : list record) : Prop :=
  length recs = length R
  /\ forall i r, nth_error R i = Some r ->
       nth_error recs i = Some r
       \/ (recordType r = dataRecordToken /\ exists o, nth_error recs i = Some (set_offset r o)).

(** What parsing delivers: offset 0000 except in extended linear address records. *)
Definition fresh (R : list record) : Prop :=
  forall i, isData R i -> offset_at R i zeroOffset.

(** The state in which the goroutines leave the records. *)
Definition offsets_final (R : list record) (starts : list nat) (recs : list record) : Prop :=
  same_shape R recs
  /\ (forall i o, isData R i -> offset_at recs i o -> o <> zeroOffset -> reached R starts i o)
  /\ (forall i o, isData R i -> reached R starts i o -> offset_at recs i o).

(** ** Basic facts *)

Lemma dr_ne_ela : dataRecordToken <> extendedLinearAddressRecordToken.
Proof. discriminate. Qed.

Lemma is04_fun : forall R k o1 o2, is04 R k o1 -> is04 R k o2 -> o1 = o2.
Proof. intros R k o1 o2 (r1 & H1 & _ & <-) (r2 & H2 & _ & <-). congruence. Qed.

Lemma is04_not_data : forall R k o, is04 R k o -> ~ isData R k.
Proof.
  intros R k o (r & H & T & _) (r' & H' & T'). rewrite H in H'. inversion H'; subst.
  rewrite T in T'. symmetry in T'. exact (dr_ne_ela T').
Qed.

Lemma governs_fun : forall R k1 k2 i, governs R k1 i -> governs R k2 i -> k1 = k2.
Proof.
  intros R k1 k2 i (L1 & (o1 & A1) & N1) (L2 & (o2 & A2) & N2).
  destruct (Nat.lt_trichotomy k1 k2) as [H|[H|H]]; [|exact H|].
  - exfalso. apply (N1 k2 o2); [lia|exact A2].
  - exfalso. apply (N2 k1 o1); [lia|exact A1].
Qed.

Lemma governs_mono : forall R k1 k2 i1 i2, governs R k1 i1 -> governs R k2 i2 -> i1 <= i2 -> k1 <= k2.
Proof.
  intros R k1 k2 i1 i2 (L1 & (o1 & A1) & N1) (L2 & _ & N2) Hi.
  destruct (le_lt_dec k1 k2) as [H|H]; [exact H|].
  exfalso. apply (N2 k1 o1); [lia|exact A1].
Qed.

Lemma zero_block_mono : forall R s s' k, zero_block R s k -> s' <= s -> zero_block R s' k.
Proof. intros R s s' k (k' & d & H & A) Hs. exists k', d. split; [lia|exact A]. Qed.

(** A governed data record lies before any later address record. *)
Lemma governs_before : forall R k i k2 o, governs R k i -> k < k2 -> is04 R k2 o -> isData R i -> i < k2.
Proof.
  intros R k i k2 o (L & _ & N) Hk A D.
  destruct (Nat.lt_trichotomy i k2) as [H|[H|H]]; [exact H| |].
  - subst. exfalso. exact (is04_not_data A D).
  - exfalso. apply (N k2 o); [lia|exact A].
Qed.

Lemma reached_fun : forall R st i o1 o2, reached R st i o1 -> reached R st i o2 -> o1 = o2.
Proof.
  intros R st i o1 o2 (k1 & s1 & _ & _ & G1 & A1 & _) (k2 & s2 & _ & _ & G2 & A2 & _).
  pose proof (governs_fun G1 G2). subst. eapply is04_fun; eassumption.
Qed.

Lemma offset_at_fun : forall recs i o1 o2, offset_at recs i o1 -> offset_at recs i o2 -> o1 = o2.
Proof. intros recs i o1 o2 (r1 & H1 & <-) (r2 & H2 & <-). congruence. Qed.

Lemma nth_error_firstn' : forall A (l : list A) n i, i < n -> nth_error (firstn n l) i = nth_error l i.
Proof.
  intros A l. induction l as [|x l IH]; intros n i H.
  - rewrite firstn_nil. reflexivity.
  - destruct n as [|n]; [lia|]. destruct i as [|i]; [reflexivity|]. cbn. apply IH. lia.
Qed.

Lemma nth_error_skipn' : forall A (l : list A) n i, nth_error (skipn n l) i = nth_error l (n + i).
Proof.
  intros A l. induction l as [|x l IH]; intros n i.
  - rewrite skipn_nil. destruct (n + i); destruct i; reflexivity.
  - destruct n as [|n]; [reflexivity|]. cbn. apply IH.
Qed.

Lemma upd_nth : forall A (l : list A) i x j, i < length l ->
    nth_error (upd l i x) j = if j =? i then Some x else nth_error l j.
Proof.
  intros A l i x j Hi. unfold upd.
  destruct (Nat.lt_trichotomy j i) as [H|[H|H]].
  - assert ((j =? i) = false) as -> by (apply Nat.eqb_neq; lia).
    rewrite nth_error_app1 by (rewrite firstn_length; lia).
    apply nth_error_firstn', H.
  - subst. rewrite Nat.eqb_refl.
    rewrite nth_error_app2 by (rewrite firstn_length; lia).
    rewrite firstn_length, Nat.min_l by lia. rewrite Nat.sub_diag. reflexivity.
  - assert ((j =? i) = false) as -> by (apply Nat.eqb_neq; lia).
    rewrite nth_error_app2 by (rewrite firstn_length; lia).
    rewrite firstn_length, Nat.min_l by lia.
    destruct (j - i) as [|m] eqn:E; [lia|]. cbn [nth_error].
    rewrite nth_error_skipn'. f_equal. lia.
Qed.

Lemma upd_length : forall A (l : list A) i x, i < length l -> length (upd l i x) = length l.
Proof.
  intros A l i x Hi. unfold upd. rewrite app_length. cbn [length].
  rewrite firstn_length, skipn_length. lia.
Qed.

Lemma set_rec_upd : forall recs i r, set_rec recs i r = upd recs i r.
Proof. reflexivity. Qed.

Lemma nth_lt : forall A (l : list A) i x, nth_error l i = Some x -> i < length l.
Proof. intros A l i x H. apply nth_error_Some. congruence. Qed.

(** ** The machine restricted to the offset goroutines *)

Inductive ostep : list record * list offw -> list record * list offw -> Prop :=
| OStep : forall recs ws j w,
    nth_error ws j = Some w -> ow_done w = false ->
    ostep (recs, ws) (fst (offset_step recs w), upd ws j (snd (offset_step recs w))).

Inductive osteps : list record * list offw -> list record * list offw -> Prop :=
| ORefl : forall s, osteps s s
| OTrans : forall s1 s2 s3, ostep s1 s2 -> osteps s2 s3 -> osteps s1 s3.

Section Inv.
  Variable R : list record.
  Variable starts : list nat.
  Hypothesis Hfresh : fresh R.

  (** What a goroutine started at [s] knows. *)
  Definition wknow (s : nat) (w : offw) : Prop :=
    s <= ow_idx w
    /\ ( ((forall j o, s <= j < ow_idx w -> ~ is04 R j o)
          /\ ow_offs w = zeroOffset /\ ow_first w = false)
       \/ (exists k, s <= k < ow_idx w /\ is04 R k (ow_offs w)
            /\ (forall j o, k < j < ow_idx w -> ~ is04 R j o)
            /\ (ow_first w = true -> forall j, k < j < ow_idx w -> ~ isData R j)
            /\ (ow_first w = false -> exists j, k < j < ow_idx w /\ isData R j)) )
    /\ (forall k' d, s <= k' -> is04 R k' zeroOffset -> governs R k' d -> isData R d ->
                     d < ow_idx w -> False).

  Definition wok (s : nat) (w : offw) : Prop := ow_done w = true \/ wknow s w.

  Definition pending (recs : list record) (i : nat) : Prop :=
    isData R i /\ offset_at recs i zeroOffset
    /\ exists o, o <> zeroOffset /\ reached R starts i o.

  Definition serves (ws : list offw) (i lo : nat) : Prop :=
    exists j s w k, nth_error starts j = Some s /\ nth_error ws j = Some w
      /\ ow_done w = false /\ lo <= ow_idx w <= i
      /\ governs R k i /\ s <= k /\ ~ zero_block R s k.

  Record oinv (recs : list record) (ws : list offw) : Prop := {
    oi_len : length ws = length starts;
    oi_shape : same_shape R recs;
    oi_ws : forall j s w, nth_error starts j = Some s -> nth_error ws j = Some w -> wok s w;
    oi_safe : forall i o, isData R i -> offset_at recs i o -> o <> zeroOffset -> reached R starts i o;
    oi_j1 : forall i, pending recs i -> serves ws i 0;
    oi_j2 : forall f i o k1 k2, isData R f -> offset_at recs f o -> o <> zeroOffset -> f < i ->
        pending recs i -> governs R k1 f -> governs R k2 i -> ~ zero_block R k1 k2 ->
        serves ws i (S f)
  }.

  Arguments oi_ws [recs ws] _ [j s w] _ _.
  Arguments oi_safe [recs ws] _ [i o] _ _ _.
  Arguments oi_j1 [recs ws] _ [i] _.
  Arguments oi_j2 [recs ws] _ [f i o k1 k2] _ _ _ _ _ _ _ _.

  (** *** Initial state *)
  Lemma oinv_init :
    oinv R (map (fun s => OW s zeroOffset false false) starts).
  Proof.
    constructor.
    - rewrite map_length. reflexivity.
    - split; [reflexivity|]. intros i r H. left; exact H.
    - intros j s w Hs Hw. rewrite nth_error_map, Hs in Hw. cbn in Hw. inversion Hw; subst.
      right. unfold wknow. cbn [ow_idx ow_offs ow_first]. split; [lia|]. split.
      + left. split; [|auto]. intros; lia.
      + intros k' d H1 H2 H3 H4 H5. destruct H3 as (Hlt & _). lia.
    - intros i o D A Hz. exfalso. apply Hz. exact (offset_at_fun A (Hfresh D)).
    - intros i (D & A & o & Ho & k & s & Hin & Hs & G & A4 & Z).
      apply In_nth_error in Hin. destruct Hin as [j Hj].
      exists j, s, (OW s zeroOffset false false), k. cbn [ow_done ow_idx].
      destruct G as (Gl & G'). repeat split; try assumption; try lia.
      rewrite nth_error_map, Hj. reflexivity.
      destruct G' as [G' _]; exact G'. destruct G' as [_ G']; exact G'.
    - intros f i o k1 k2 D A Hz. exfalso. apply Hz. exact (offset_at_fun A (Hfresh D)).
  Qed.

  (** *** Facts about one step *)
  Lemma shape_type : forall recs i r r', same_shape R recs -> nth_error R i = Some r ->
      nth_error recs i = Some r' -> recordType r' = recordType r.
  Proof.
    intros recs i r r' [_ Hs] H H'. destruct (Hs _ _ H) as [E|[_ [o E]]];
      rewrite E in H'; inversion H'; reflexivity.
  Qed.

  Lemma shape_some : forall recs i r', same_shape R recs -> nth_error recs i = Some r' ->
      exists r, nth_error R i = Some r /\ recordType r' = recordType r
                /\ (r' = r \/ exists o, r' = set_offset r o).
  Proof.
    intros recs i r' Hsh H'. destruct (nth_error R i) as [r|] eqn:E.
    - exists r. split; [reflexivity|]. destruct Hsh as [_ Hs].
      destruct (Hs _ _ E) as [E'|[_ [o E']]]; rewrite E' in H'; inversion H'; subst; eauto.
    - exfalso. apply nth_error_None in E. apply nth_lt in H'. destruct Hsh. lia.
  Qed.

  Lemma shape_ela : forall recs i r', same_shape R recs -> nth_error recs i = Some r' ->
      recordType r' = extendedLinearAddressRecordToken -> is04 R i (offset r').
  Proof.
    intros recs i r' Hsh H' T. destruct (shape_some _ Hsh H') as (r & E & Et & _).
    destruct Hsh as [_ Hs]. destruct (Hs _ _ E) as [E'|[Td [o E']]].
    - rewrite E' in H'. inversion H'; subst. exists r'. auto.
    - exfalso. rewrite T in Et. rewrite Td in Et. symmetry in Et. exact (dr_ne_ela Et).
  Qed.

  Lemma shape_data : forall recs i r', same_shape R recs -> nth_error recs i = Some r' ->
      recordType r' = dataRecordToken -> isData R i.
  Proof.
    intros recs i r' Hsh H' T. destruct (shape_some _ Hsh H') as (r & E & Et & _).
    exists r. split; [exact E|congruence].
  Qed.

  Lemma shape_set : forall recs i r' o, same_shape R recs -> nth_error recs i = Some r' ->
      recordType r' = dataRecordToken -> same_shape R (upd recs i (set_offset r' o)).
  Proof.
    intros recs i r' o Hsh H' T. pose proof (nth_lt _ _ H') as Hlt.
    destruct (shape_some _ Hsh H') as (r & E & Et & Ew).
    destruct Hsh as [Hl Hs]. split; [rewrite upd_length; assumption|].
    intros j r0 Hj. rewrite upd_nth by exact Hlt.
    destruct (j =? i) eqn:Eji; [|apply Hs, Hj].
    apply Nat.eqb_eq in Eji; subst. rewrite E in Hj. inversion Hj; subst.
    right. split; [congruence|]. exists o. f_equal.
    destruct Ew as [->|[o' ->]]; reflexivity.
  Qed.

  Lemma offset_at_upd : forall recs i r' j o, i < length recs ->
      offset_at (upd recs i r') j o <-> (if j =? i then offset r' = o else offset_at recs j o).
  Proof.
    intros recs i r' j o Hi. unfold offset_at. rewrite upd_nth by exact Hi.
    destruct (j =? i); [|tauto]. split.
    - intros (r & H & <-). inversion H; reflexivity.
    - intros <-. exists r'. auto.
  Qed.

  (** In a reachable state a worker at a data record has the offset of the
      governing record, or none of its own. *)
  Lemma wknow_governs : forall s w, wknow s w ->
      (ow_offs w = zeroOffset /\ ow_first w = false /\ forall k o, s <= k < ow_idx w -> ~ is04 R k o)
      \/ exists k, s <= k /\ governs R k (ow_idx w) /\ is04 R k (ow_offs w).
  Proof.
    intros s w (_ & [(N & E1 & E2)|(k & Hk & A & N & _)] & _).
    - left. auto.
    - right. exists k. split; [lia|]. split; [|exact A]. split; [lia|]. split; eauto.
  Qed.

  (** A running worker has met no zero block. *)
  Lemma wknow_no_zero : forall s w k o, wknow s w -> k < ow_idx w -> is04 R k o -> ~ zero_block R s k.
  Proof.
    intros s w k o (_ & _ & Hz) Hk A (k' & d & Hk' & A' & D & G).
    apply (Hz k' d); try assumption; [lia|].
    pose proof (@governs_before _ _ _ _ _ G (proj2 Hk') A D). lia.
  Qed.

  (** The outcome of a step, by cases. *)
  Inductive step_case (recs : list record) (s : nat) (w : offw) : list record -> offw -> Prop :=
  | ScStopEnd : length recs <= ow_idx w ->
      step_case recs s w recs (OW (ow_idx w) (ow_offs w) (ow_first w) true)
  | ScStop : forall k, isData R (ow_idx w) -> offset_at recs (ow_idx w) (ow_offs w) ->
      s <= k -> governs R k (ow_idx w) -> is04 R k (ow_offs w) ->
      step_case recs s w recs (OW (ow_idx w) (ow_offs w) (ow_first w) true)
  | ScWrite : forall r k, nth_error recs (ow_idx w) = Some r -> isData R (ow_idx w) ->
      offset r = zeroOffset -> ow_offs w <> zeroOffset ->
      s <= k -> governs R k (ow_idx w) -> is04 R k (ow_offs w) ->
      step_case recs s w (upd recs (ow_idx w) (set_offset r (ow_offs w)))
                (OW (S (ow_idx w)) (ow_offs w) false false)
  | ScSkip : forall w', ow_idx w' = S (ow_idx w) -> ow_done w' = false ->
      ow_idx w < length recs ->
      (isData R (ow_idx w) -> ow_offs w = zeroOffset \/ offset_at recs (ow_idx w) (ow_offs w)) ->
      step_case recs s w recs w'.

  Lemma step_spec : forall recs ws j s w,
      oinv recs ws -> nth_error starts j = Some s -> nth_error ws j = Some w -> ow_done w = false ->
      step_case recs s w (fst (offset_step recs w)) (snd (offset_step recs w))
      /\ wok s (snd (offset_step recs w)).
  Proof.
    intros recs ws j s w HI Hs Hw Hd.
    destruct (oi_ws HI Hs Hw) as [K|K]; [congruence|].
    pose proof (oi_shape HI) as Hsh.
    unfold offset_step. destruct (nth_error recs (ow_idx w)) as [r|] eqn:Er.
    2:{ cbn [fst snd]. split; [|left; reflexivity]. apply ScStopEnd. apply nth_error_None, Er. }
    pose proof (nth_lt _ _ Er) as Hlt.
    destruct (beqb (recordType r) extendedLinearAddressRecordToken) eqn:T4.
    { apply beqb_eq in T4. pose proof (shape_ela _ Hsh Er T4) as A. cbn [fst snd]. split.
      - apply ScSkip; [reflexivity|reflexivity|exact Hlt|].
        intros D. exfalso. exact (is04_not_data A D).
      - right. destruct K as (K1 & _ & K3). unfold wknow; cbn [ow_idx ow_offs ow_first].
        split; [lia|]. split.
        + right. exists (ow_idx w). split; [lia|]. split; [exact A|]. split; [intros; lia|].
          split; [intros _ ? ?; lia|discriminate].
        + intros k' d H1 H2 H3 H4 H5. apply (K3 k' d); try assumption.
          destruct (Nat.eq_dec d (ow_idx w)) as [->|Hne]; [|lia].
          exfalso. exact (is04_not_data A H4). }
    assert (N4 : forall o, ~ is04 R (ow_idx w) o).
    { intros o (r0 & E0 & T0 & _). apply beqb_neq in T4. apply T4.
      rewrite (shape_type _ Hsh E0 Er). exact T0. }
    destruct (beqb (recordType r) dataRecordToken) eqn:Td.
    2:{ cbn [fst snd]. assert (ND : ~ isData R (ow_idx w)).
        { intros (r0 & E0 & T0). apply beqb_neq in Td. apply Td.
          rewrite (shape_type _ Hsh E0 Er). exact T0. }
        split.
        - apply ScSkip; [reflexivity|reflexivity|exact Hlt|]. intros D; contradiction.
        - right. destruct K as (K1 & K2 & K3). unfold wknow; cbn [ow_idx ow_offs ow_first].
          split; [lia|]. split.
          + destruct K2 as [(N & E1 & E2)|(k & Hk & A & N & F1 & F2)].
            * left. split; [|auto]. intros i o Hi.
              destruct (Nat.eq_dec i (ow_idx w)) as [->|]; [apply N4|apply N; lia].
            * right. exists k. split; [lia|]. split; [exact A|]. split; [|split].
              -- intros i o Hi. destruct (Nat.eq_dec i (ow_idx w)) as [->|]; [apply N4|apply N; lia].
              -- intros Hf i Hi. destruct (Nat.eq_dec i (ow_idx w)) as [->|]; [exact ND|apply F1; [exact Hf|lia]].
              -- intros Hf. destruct (F2 Hf) as (i & Hi & Di). exists i. split; [lia|exact Di].
          + intros k' d H1 H2 H3 H4 H5. apply (K3 k' d); try assumption.
            destruct (Nat.eq_dec d (ow_idx w)) as [->|]; [contradiction|lia]. }
    apply beqb_eq in Td. pose proof (shape_data _ Hsh Er Td) as D.
    (* data record *)
    pose proof (wknow_governs K) as KG.
    destruct (ow_first w && beqb (offset r) (ow_offs w)) eqn:C1.
    { apply andb_true_iff in C1. destruct C1 as [C1 C2]. apply beqb_eq in C2.
      cbn [fst snd]. split; [|left; reflexivity].
      destruct KG as [(_ & F & _)|(k & Hk & G & A)]; [congruence|].
      apply ScStop with (k := k); try assumption. exists r. auto. }
    assert (Hzb : forall k, s <= k -> governs R k (ow_idx w) -> is04 R k (ow_offs w) ->
              ow_offs w <> zeroOffset ->
              forall k' d, s <= k' -> is04 R k' zeroOffset -> governs R k' d -> isData R d ->
                 d < S (ow_idx w) -> False).
    { intros k Hk G A Hnz k' d H1 H2 H3 H4 H5. destruct K as (_ & _ & K3).
      destruct (Nat.eq_dec d (ow_idx w)) as [->|]; [|apply (K3 k' d); try assumption; lia].
      pose proof (governs_fun G H3). subst k'. apply Hnz. exact (is04_fun A H2). }
    destruct (ow_first w && negb (beqb (offset r) (ow_offs w))) eqn:C2.
    { apply andb_true_iff in C2. destruct C2 as [F C2]. apply negb_true_iff, beqb_neq in C2.
      cbn [fst snd]. rewrite set_rec_upd.
      destruct KG as [(_ & F' & _)|(k & Hk & G & A)]; [congruence|].
      assert (Hoz : offset r = zeroOffset).
      { destruct (bytes_dec (offset r) zeroOffset) as [E|E]; [exact E|].
        exfalso. apply C2.
        destruct (oi_safe HI D (ex_intro _ r (conj Er eq_refl)) E) as (k2 & s2 & _ & _ & G2 & A2 & _).
        pose proof (governs_fun G G2). subst k2. exact (is04_fun A2 A). }
      assert (Hnz : ow_offs w <> zeroOffset) by congruence.
      split.
      - apply ScWrite with (k := k); assumption.
      - right. destruct K as (K1 & K2 & K3). unfold wknow; cbn [ow_idx ow_offs ow_first].
        split; [lia|]. split.
        + right. exists k. destruct G as (Gl & _ & Gn).
          split; [lia|]. split; [exact A|]. split; [|split].
          * intros i o Hi. destruct (Nat.eq_dec i (ow_idx w)) as [->|]; [apply N4|apply Gn; lia].
          * discriminate.
          * intros _. exists (ow_idx w). split; [lia|exact D].
        + eapply Hzb; eassumption. }
    assert (Ff : ow_first w = false).
    { destruct (ow_first w) eqn:F; [|reflexivity]. cbn in C1, C2.
      destruct (beqb (offset r) (ow_offs w)); discriminate. }
    assert (Know' : ow_offs w = zeroOffset \/ ow_offs w <> zeroOffset) by apply bytes_dec.
    assert (KW : wok s (OW (S (ow_idx w)) (ow_offs w) (ow_first w) false)).
    { right. destruct K as (K1 & K2 & K3). unfold wknow; cbn [ow_idx ow_offs ow_first].
      split; [lia|]. split.
      - destruct K2 as [(N & E1 & E2)|(k & Hk & A & N & F1 & F2)].
        + left. split; [|auto]. intros i o Hi.
          destruct (Nat.eq_dec i (ow_idx w)) as [->|]; [apply N4|apply N; lia].
        + right. exists k. split; [lia|]. split; [exact A|]. split; [|split].
          * intros i o Hi. destruct (Nat.eq_dec i (ow_idx w)) as [->|]; [apply N4|apply N; lia].
          * congruence.
          * intros _. exists (ow_idx w). split; [lia|exact D].
      - intros k' d H1 H2 H3 H4 H5.
        destruct (Nat.eq_dec d (ow_idx w)) as [->|]; [|apply (K3 k' d); try assumption; lia].
        destruct K2 as [(N & _)|(k & Hk & A & N & F1 & F2)].
        + destruct H3 as (Hl & _). apply (N k' zeroOffset); [lia|exact H2].
        + assert (Gk : governs R k (ow_idx w)) by (split; [lia|split; eauto]).
          pose proof (governs_fun Gk H3). subst k'.
          destruct (F2 Ff) as (i & Hi & Di). apply (K3 k i); try assumption; [|lia].
          split; [lia|]. split; [eauto|]. intros i2 o2 Hi2. apply N. lia. }
    destruct (negb (beqb (offset r) (ow_offs w)) && negb (beqb (ow_offs w) zeroOffset)) eqn:C3.
    - apply andb_true_iff in C3. destruct C3 as [C3 C4].
      apply negb_true_iff, beqb_neq in C3. apply negb_true_iff, beqb_neq in C4.
      cbn [fst snd]. rewrite set_rec_upd. split; [|exact KW]. rewrite Ff.
      destruct KG as [(Ez & _)|(k & Hk & G & A)]; [congruence|].
      apply ScWrite with (k := k); try assumption.
      destruct (bytes_dec (offset r) zeroOffset) as [E|E]; [exact E|].
      exfalso. apply C3.
      destruct (oi_safe HI D (ex_intro _ r (conj Er eq_refl)) E) as (k2 & s2 & _ & _ & G2 & A2 & _).
      pose proof (governs_fun G G2). subst k2. exact (is04_fun A2 A).
    - cbn [fst snd]. split; [|exact KW]. apply ScSkip; [reflexivity|reflexivity|exact Hlt|].
      intros _. destruct Know' as [E|E]; [left; exact E|].
      right. exists r. split; [exact Er|].
      apply beqb_neq in E. rewrite E in C3. cbn in C3. rewrite andb_true_r in C3.
      apply negb_false_iff, beqb_eq in C3. exact C3.
  Qed.

  Arguments step_spec [recs ws j s w] _ _ _ _.

  (** Pending records stay served. *)
  Lemma serves_step : forall recs ws j s w i lo,
      oinv recs ws -> nth_error starts j = Some s -> nth_error ws j = Some w -> ow_done w = false ->
      pending recs i -> pending (fst (offset_step recs w)) i ->
      serves ws i lo ->
      serves (upd ws j (snd (offset_step recs w))) i lo.
  Proof.
    intros recs ws j s w i lo HI Hs Hw Hd P P' (j' & s' & w' & k & Hs' & Hw' & Hd' & Hlo & G & Hsk & Hz).
    pose proof (nth_lt _ _ Hw) as Hjl.
    destruct (Nat.eq_dec j' j) as [->|Hne].
    2:{ exists j', s', w', k. repeat split; try assumption; try lia;
          try (destruct G as (G1 & G2 & G3); assumption).
        rewrite upd_nth by exact Hjl. apply Nat.eqb_neq in Hne. rewrite Hne. exact Hw'. }
    rewrite Hs in Hs'. inversion Hs'; subst s'. rewrite Hw in Hw'. inversion Hw'; subst w'.
    destruct (step_spec HI Hs Hw Hd) as [SC WK].
    destruct P as (Di & Oi & o & Ho & Re).
    assert (Ak : is04 R k o).
    { destruct Re as (k2 & s2 & _ & _ & G2 & A2 & _). pose proof (governs_fun G G2). subst. exact A2. }
    assert (Hil : i < length recs).
    { destruct Oi as (r & E & _). exact (nth_lt _ _ E). }
    destruct (oi_ws HI Hs Hw) as [K|K]; [congruence|].
    (* a worker standing at [i] has the offset [o] *)
    assert (Hat : ow_idx w = i -> ow_offs w = o).
    { intros Ei. destruct (wknow_governs K) as [(_ & _ & N)|(k2 & _ & G2 & A2)].
      - exfalso. destruct G as (Gl & _). apply (N k o); [lia|exact Ak].
      - rewrite Ei in G2. pose proof (governs_fun G G2). subst. exact (is04_fun A2 Ak). }
    remember (fst (offset_step recs w)) as recs'. remember (snd (offset_step recs w)) as w'.
    destruct SC as [Hend | k2 D2 O2 Hk2 G2 A2 | r k2 Er D2 Oz Onz Hk2 G2 A2 | w2 Ei2 Ed2 Hl2 Hsk2].
    - lia.
    - (* stopped at a record already done *)
      destruct (Nat.eq_dec (ow_idx w) i) as [Ei|Hni].
      { exfalso. apply Ho. rewrite <- (Hat Ei). rewrite Ei in O2. exact (offset_at_fun O2 Oi). }
      assert (Hk12 : k2 <= k) by (eapply governs_mono; [exact G2|exact G|lia]).
      assert (Hnz : ow_offs w <> zeroOffset).
      { intros Ez. rewrite Ez in A2. destruct (Nat.eq_dec k2 k) as [->|].
        - apply Ho. exact (is04_fun Ak A2).
        - apply Hz. exists k2, (ow_idx w). split; [lia|]. auto. }
      assert (Pi : pending recs i) by (split; [exact Di|split; [exact Oi|exists o; auto]]).
      assert (Hz2 : ~ zero_block R k2 k).
      { intros Z. apply Hz. eapply zero_block_mono; eassumption. }
      assert (Hli : ow_idx w < i) by lia.
      destruct (oi_j2 HI D2 O2 Hnz Hli Pi G2 G Hz2)
        as (j3 & s3 & w3 & k3 & Hs3 & Hw3 & Hd3 & Hlo3 & G3 & Hsk3 & Hz3).
      exists j3, s3, w3, k3.
      assert (Hne : j3 <> j) by (intros ->; rewrite Hw in Hw3; inversion Hw3; subst; lia).
      repeat split; try assumption; try lia;
        try (destruct G3 as (Ga & Gb & Gc); assumption).
      rewrite upd_nth by exact Hjl. apply Nat.eqb_neq in Hne. rewrite Hne. exact Hw3.
    - (* wrote *)
      destruct (Nat.eq_dec (ow_idx w) i) as [Ei|Hni].
      { exfalso. destruct P' as (_ & O' & _). rewrite offset_at_upd in O' by (eapply nth_lt; exact Er).
        rewrite Ei, Nat.eqb_refl in O'. exact (Onz O'). }
      exists j, s, (OW (S (ow_idx w)) (ow_offs w) false false), k. cbn [ow_done ow_idx].
      repeat split; try assumption; try lia; try (destruct G as (Ga & Gb & Gc); assumption).
      rewrite upd_nth by exact Hjl. rewrite Nat.eqb_refl. reflexivity.
    - (* went on *)
      destruct (Nat.eq_dec (ow_idx w) i) as [Ei|Hni].
      { exfalso. rewrite Ei in Hsk2. specialize (Hsk2 Di). rewrite (Hat Ei) in Hsk2.
        destruct Hsk2 as [E|E]; [contradiction|]. apply Ho. exact (offset_at_fun E Oi). }
      exists j, s, w2, k. rewrite Ei2.
      repeat split; try assumption; try lia; try (destruct G as (Ga & Gb & Gc); assumption).
      rewrite upd_nth by exact Hjl. rewrite Nat.eqb_refl. reflexivity.
  Qed.

  Lemma oinv_step : forall recs ws recs' ws', oinv recs ws -> ostep (recs, ws) (recs', ws') -> oinv recs' ws'.
  Proof.
    intros recs ws recs' ws' HI Hst. inversion Hst as [? ? j w Hw Hd]; subst.
    pose proof (nth_lt _ _ Hw) as Hjl.
    destruct (nth_error starts j) as [s|] eqn:Hs.
    2:{ exfalso. apply nth_error_None in Hs. pose proof (oi_len HI). lia. }
    destruct (step_spec HI Hs Hw Hd) as [SC WK].
    (* effect on offsets *)
    assert (Hoff : forall i o, isData R i -> offset_at (fst (offset_step recs w)) i o ->
              offset_at recs i o \/
              (i = ow_idx w /\ o = ow_offs w /\ offset_at recs i zeroOffset /\ ow_offs w <> zeroOffset
               /\ ow_done (snd (offset_step recs w)) = false
               /\ ow_idx (snd (offset_step recs w)) = S i
               /\ exists k, s <= k /\ governs R k i /\ is04 R k (ow_offs w))).
    { intros i o Di Ho. destruct SC as [He|k D O Hk G A|r k Er D Oz Onz Hk G A|w2 E1 E2 Hl Hsk];
        try (left; exact Ho).
      rewrite offset_at_upd in Ho by (eapply nth_lt; exact Er).
      destruct (i =? ow_idx w) eqn:Ei; [|left; exact Ho].
      apply Nat.eqb_eq in Ei; subst i. subst o. right. repeat split; try auto.
      - exists r; auto.
      - exists k. auto. }
    assert (Hoff0 : forall i, isData R i -> offset_at (fst (offset_step recs w)) i zeroOffset ->
              offset_at recs i zeroOffset).
    { intros i Di Ho. destruct (Hoff _ _ Di Ho) as [E|(_ & _ & E & _)]; exact E. }
    assert (Hpend : forall i, pending (fst (offset_step recs w)) i -> pending recs i).
    { intros i (Di & Oi & Re). split; [exact Di|split; [apply Hoff0; assumption|exact Re]]. }
    assert (Hsh' : same_shape R (fst (offset_step recs w))).
    { destruct SC as [He|k D O Hk G A|r k Er D Oz Onz Hk G A|w2 E1 E2 Hl Hsk];
        try exact (oi_shape HI).
      apply shape_set; [exact (oi_shape HI)|exact Er|].
      destruct D as (r0 & E0 & T0). rewrite (shape_type _ (oi_shape HI) E0 Er). exact T0. }
    constructor.
    - rewrite upd_length by exact Hjl. exact (oi_len HI).
    - exact Hsh'.
    - intros j' s' w' Hs' Hw'. rewrite upd_nth in Hw' by exact Hjl.
      destruct (j' =? j) eqn:Ej; [|exact (oi_ws HI Hs' Hw')].
      apply Nat.eqb_eq in Ej; subst. inversion Hw'; subst. rewrite Hs in Hs'. inversion Hs'; subst. exact WK.
    - intros i o Di Oi Hnz. destruct (Hoff _ _ Di Oi) as [E|(E1 & E2 & _ & _ & _ & _ & k & Hk & G & A)].
      + exact (oi_safe HI Di E Hnz).
      + subst. exists k, s. split; [eapply nth_error_In; exact Hs|]. split; [exact Hk|].
        split; [exact G|]. split; [exact A|].
        destruct (oi_ws HI Hs Hw) as [K|K]; [congruence|].
        destruct G as (Gl & _). eapply wknow_no_zero; eassumption.
    - intros i P'. eapply serves_step; try eassumption; [apply Hpend, P'|].
      apply (oi_j1 HI). apply Hpend, P'.
    - intros f i o k1 k2 Df Of Hnz Hfi P' G1 G2 Hz.
      destruct (Hoff _ _ Df Of) as [E|(E1 & E2 & Ez & Enz & Ed & Ei & k & Hk & G & A)].
      + eapply serves_step; try eassumption; [apply Hpend, P'|].
        eapply (oi_j2 HI); try eassumption. apply Hpend, P'.
      + (* just written by this worker *)
        pose proof (governs_fun G1 G). subst k.
        exists j, s, (snd (offset_step recs w)), k2.
        assert (Hk12 : k1 <= k2) by (eapply governs_mono; [exact G1|exact G2|lia]).
        rewrite Ei.
        repeat split; try assumption; try lia; try (destruct G2 as (Ga & Gb & Gc); assumption).
        * rewrite upd_nth by exact Hjl. rewrite Nat.eqb_refl. reflexivity.
        * intros (k' & d & Hk' & A' & D' & G').
          destruct (le_lt_dec k1 k') as [Hle|Hlt'].
          -- apply Hz. exists k', d. split; [lia|auto].
          -- destruct (oi_ws HI Hs Hw) as [K|K]; [congruence|].
             destruct K as (_ & _ & K3).
             pose proof (governs_before G' Hlt' A D') as Hdk.
             destruct G as (Gl & _). apply (K3 k' d); try assumption; lia.
  Qed.

  Lemma oinv_steps : forall s s', osteps s s' -> oinv (fst s) (snd s) -> oinv (fst s') (snd s').
  Proof.
    intros s s' H. induction H as [|[r1 w1] [r2 w2] s3 Hst Hss IH]; intros HI; [exact HI|].
    apply IH. eapply oinv_step; eassumption.
  Qed.

  (** When all goroutines have finished, the records are final. *)
  Lemma oinv_final : forall recs ws, oinv recs ws -> Forall (fun w => ow_done w = true) ws ->
      offsets_final R starts recs.
  Proof.
    intros recs ws HI Hall. split; [exact (oi_shape HI)|]. split; [exact (oi_safe HI)|].
    intros i o Di Re.
    destruct (oi_shape HI) as [Hl Hsh].
    destruct Di as (r & Er & Tr). assert (Di : isData R i) by (exists r; auto).
    assert (exists r', nth_error recs i = Some r') as (r' & Er').
    { destruct (nth_error recs i) eqn:E; [eauto|]. apply nth_error_None in E.
      apply nth_lt in Er. lia. }
    destruct (bytes_dec (offset r') zeroOffset) as [E|E].
    - destruct (bytes_dec o zeroOffset) as [Eo|Eo]; [subst; exists r'; auto|].
      exfalso. assert (P : pending recs i).
      { split; [exact Di|]. split; [exists r'; auto|]. exists o; auto. }
      destruct (oi_j1 HI P) as (j & s & w & k & _ & Hw & Hd & _).
      rewrite Forall_forall in Hall. apply nth_error_In in Hw. apply Hall in Hw. congruence.
    - exists r'. split; [exact Er'|].
      eapply reached_fun; [|exact Re].
      apply (oi_safe HI Di); [exists r'; auto|exact E].
  Qed.
End Inv.

Lemma nth_error_ext' : forall A (l1 l2 : list A),
    (forall i, nth_error l1 i = nth_error l2 i) -> l1 = l2.
Proof.
  intros A l1. induction l1 as [|x l1 IH]; intros [|y l2] H.
  - reflexivity.
  - specialize (H 0). discriminate.
  - specialize (H 0). discriminate.
  - pose proof (H 0) as H0. cbn in H0. inversion H0; subst. f_equal.
    apply IH. intros i. exact (H (S i)).
Qed.

(** The final records are determined by the parsed ones. *)
Lemma offsets_final_unique : forall R starts recs1 recs2,
    offsets_final R starts recs1 -> offsets_final R starts recs2 -> recs1 = recs2.
Proof.
  intros R starts recs1 recs2 ([L1 S1] & F1 & G1) ([L2 S2] & F2 & G2).
  apply nth_error_ext'. intros i.
  destruct (nth_error R i) as [r|] eqn:Er.
  2:{ apply nth_error_None in Er.
      assert (nth_error recs1 i = None) as -> by (apply nth_error_None; lia).
      assert (nth_error recs2 i = None) as -> by (apply nth_error_None; lia). reflexivity. }
  assert (Hdata : recordType r = dataRecordToken -> forall o1 o2 r1 r2,
             nth_error recs1 i = Some r1 -> nth_error recs2 i = Some r2 ->
             offset r1 = o1 -> offset r2 = o2 -> o1 = o2).
  { intros T o1 o2 r1 r2 E1 E2 O1 O2. assert (D : isData R i) by (exists r; auto).
    assert (A1 : offset_at recs1 i o1) by (exists r1; auto).
    assert (A2 : offset_at recs2 i o2) by (exists r2; auto).
    destruct (bytes_dec o1 zeroOffset) as [Z1|Z1]; destruct (bytes_dec o2 zeroOffset) as [Z2|Z2].
    - congruence.
    - pose proof (G1 _ _ D (F2 _ _ D A2 Z2)) as A. exact (offset_at_fun A1 A).
    - pose proof (G2 _ _ D (F1 _ _ D A1 Z1)) as A. exact (offset_at_fun A A2).
    - pose proof (G1 _ _ D (F2 _ _ D A2 Z2)) as A. exact (offset_at_fun A1 A). }
  destruct (S1 _ _ Er) as [E1|[T1 [o1 E1]]]; destruct (S2 _ _ Er) as [E2|[T2 [o2 E2]]].
  - congruence.
  - rewrite E1, E2. f_equal. specialize (Hdata T2 _ _ _ _ E1 E2 eq_refl eq_refl). cbn in Hdata.
    rewrite <- Hdata. destruct r; reflexivity.
  - rewrite E1, E2. f_equal. specialize (Hdata T1 _ _ _ _ E1 E2 eq_refl eq_refl). cbn in Hdata.
    rewrite Hdata. destruct r; reflexivity.
  - rewrite E1, E2. f_equal. specialize (Hdata T1 _ _ _ _ E1 E2 eq_refl eq_refl). cbn in Hdata.
    rewrite Hdata. reflexivity.
Qed.
