(** The goroutines that share the records do not disturb each other: the detailed
    machine of LockModel.v is simulated by the machine of IhexModel.v. *)
From Coq Require Import String Ascii List Arith NArith Bool Lia.
From Verif Require Import GoBase GoStrings GoBaseFacts ConcModel HexSpec HexSpecFacts IhexModel IhexOffsets IhexPhase2 IhexProofs IhexEnc IhexMain IhexThm
  LockModel LockSpec.
Import ListNotations.

Definition torn (pc : lpc) : Prop := pc = PT1 \/ pc = PT2.

(** What a goroutine knows about the record [r] it holds. *)
Definition knows (r : record) (w : offw) (pc : lpc) : Prop :=
  let data := recordType r = dataRecordToken in
  match pc with
  | PType => True
  | PEla => recordType r = extendedLinearAddressRecordToken
  | PEq1 => data /\ ow_first w = true
  | PNe1 | PW1 | PT1 => data /\ ow_first w = true /\ offset r <> ow_offs w
  | PNe2 => data /\ ow_first w = false
  | PW2 | PT2 => data /\ ow_first w = false /\ offset r <> ow_offs w /\ ow_offs w <> zeroOffset
  | PEnd | PBrk => True
  end.

(** The goroutine in the other machine *)
Definition as_w (x : lworker) (w' : offw) : Prop :=
  match x with
  | LTop w => w' = w /\ ow_done w = false
  | LIn w PEnd => w' = OW (S (ow_idx w)) (ow_offs w) (ow_first w) false /\ ow_done w = false
  | LIn w PBrk => ow_done w' = true
  | LIn w _ => w' = w /\ ow_done w = false
  | LDone => ow_done w' = true
  end.

Record sim (s : l2) (c : p2) : Prop := {
  s_len : List.length (l_recs s) = List.length (p_recs c);
  s_held : List.length (l_held s) = List.length (p_recs c);
  s_cs : l_cs s = p_cs c; s_ch : l_chan s = p_chan c; s_mn : l_main s = p_main c;
  s_off : Forall2 as_w (l_off s) (p_off c);
  s_rec : forall j r, nth_error (p_recs c) j = Some r -> exists g, nth_error (l_recs s) j = Some (set_offset r g)
      /\ ((forall k w pc, nth_error (l_off s) k = Some (LIn w pc) -> ow_idx w = j -> ~ torn pc) -> g = offset r);
  s_in : forall k w pc, nth_error (l_off s) k = Some (LIn w pc) ->
      nth_error (l_held s) (ow_idx w) = Some true
      /\ exists r, nth_error (p_recs c) (ow_idx w) = Some r /\ knows r w pc;
  s_own : forall j, nth_error (l_held s) j = Some true ->
      exists k w pc, nth_error (l_off s) k = Some (LIn w pc) /\ ow_idx w = j;
  s_excl : forall k k' w w' pc pc', nth_error (l_off s) k = Some (LIn w pc) -> nth_error (l_off s) k' = Some (LIn w' pc') ->
      ow_idx w = ow_idx w' -> k = k'
}.

Lemma set_offset_same : forall r, set_offset r (offset r) = r.
Proof. intros []; reflexivity. Qed.
Lemma set_offset_twice : forall r a c, set_offset (set_offset r a) c = set_offset r c.
Proof. reflexivity. Qed.
Lemma validate_offset : forall r g, validateChecksum (set_offset r g) = validateChecksum r.
Proof. reflexivity. Qed.

Lemma F2_nth : forall A B (P : A -> B -> Prop) l1 l2 i x, Forall2 P l1 l2 -> nth_error l1 i = Some x ->
    exists y, nth_error l2 i = Some y /\ P x y.
Proof.
  intros A B P l1 l2 i x H. revert i. induction H as [|a c l1 l2 Ha H IH]; intros [|i] E; cbn in *; try discriminate.
  - inversion E; subst. eauto.
  - apply IH, E.
Qed.
Lemma F2_upd : forall A B (P : A -> B -> Prop) l1 l2 i x y, Forall2 P l1 l2 -> P x y -> (i < List.length l1)%nat ->
    Forall2 P (upd l1 i x) (upd l2 i y).
Proof.
  intros A B P l1 l2 i x y H Hxy. revert i. induction H as [|a c l1 l2 Ha H IH]; intros [|i] L; cbn in L; try lia.
  - constructor; assumption.
  - constructor; [exact Ha|]. apply IH. lia.
Qed.
Lemma upd_same : forall A (l : list A) i x, nth_error l i = Some x -> upd l i x = l.
Proof. intros A l i x H. unfold upd. symmetry. apply split_nth, H. Qed.
Lemma F2_upd1 : forall A B (P : A -> B -> Prop) l1 l2 i x y, Forall2 P l1 l2 -> nth_error l2 i = Some y -> P x y ->
    Forall2 P (upd l1 i x) l2.
Proof.
  intros A B P l1 l2 i x y H E Hxy. rewrite <- (upd_same _ l2 i y E). apply F2_upd; try assumption.
  apply nth_lt in E. assert (List.length l1 = List.length l2); [|lia]. clear - H. induction H; cbn; congruence.
Qed.

Section Sim.
  Variable np : nat.

  (** The goroutine of the other machine whose iteration is not decided yet *)
  Lemma as_w_before : forall w pc w', as_w (LIn w pc) w' -> pc <> PEnd -> pc <> PBrk -> w' = w /\ ow_done w = false.
  Proof. intros w pc w' H N1 N2. destruct pc; try exact H; contradiction. Qed.

  (** A step inside that decides nothing: only the place changes. *)
  Lemma sim_stay : forall recs held off cs ch mn c k w pc pc',
      sim (L2 recs held off cs ch mn) c -> nth_error off k = Some (LIn w pc) ->
      pc <> PEnd -> pc <> PBrk -> pc' <> PEnd -> pc' <> PBrk -> ~ torn pc -> ~ torn pc' ->
      (forall r, nth_error (p_recs c) (ow_idx w) = Some r -> nth_error recs (ow_idx w) = Some r -> knows r w pc -> knows r w pc') ->
      sim (L2 recs held (upd off k (LIn w pc')) cs ch mn) c.
  Proof.
    intros recs held off cs ch mn c k w pc pc' [L H C1 C2 C3 O R I W X] E N1 N2 N1' N2' T T' K.
    pose proof (nth_lt _ _ E) as Lk. cbn [l_recs l_held l_off l_cs l_chan l_main] in *.
    assert (TT : forall j, (forall k0 w0 pc0, nth_error (upd off k (LIn w pc')) k0 = Some (LIn w0 pc0) -> ow_idx w0 = j -> ~ torn pc0) ->
               (forall k0 w0 pc0, nth_error off k0 = Some (LIn w0 pc0) -> ow_idx w0 = j -> ~ torn pc0)).
    { intros j Hj k0 w0 pc0 E0 J. destruct (Nat.eq_dec k0 k) as [->|Ne].
      - rewrite E in E0. inversion E0; subst. exact T.
      - apply (Hj k0 w0 pc0); [|exact J]. rewrite upd_nth by exact Lk. apply Nat.eqb_neq in Ne. rewrite Ne. exact E0. }
    constructor; cbn [l_recs l_held l_off l_cs l_chan l_main]; try assumption.
    - destruct (F2_nth _ _ _ _ _ _ _ O E) as (w' & Ew & A). apply (F2_upd1 _ _ _ _ _ _ _ w' O Ew).
      destruct (as_w_before _ _ _ A N1 N2) as [-> D]. destruct pc'; try (split; [reflexivity|exact D]); contradiction.
    - intros j r Er. destruct (R j r Er) as (g & G1 & G2). exists g. split; [exact G1|]. intros Hj. apply G2, TT, Hj.
    - intros k0 w0 pc0 E0. rewrite upd_nth in E0 by exact Lk. destruct (k0 =? k) eqn:Ek; [|exact (I k0 w0 pc0 E0)].
      inversion E0; subst w0 pc0. destruct (I k w pc E) as (I1 & r & I2 & I3). split; [exact I1|]. exists r. split; [exact I2|].
      apply K; [exact I2| |exact I3]. destruct (R _ _ I2) as (g & G1 & G2). rewrite G1. f_equal.
      rewrite G2; [apply set_offset_same|]. intros k1 w1 pc1 E1 J. assert (k1 = k) by (eapply X; eassumption). subst k1.
      rewrite E in E1. inversion E1; subst. exact T.
    - intros j Hj. destruct (W j Hj) as (k0 & w0 & pc0 & E0 & J). destruct (Nat.eq_dec k0 k) as [->|Ne].
      + rewrite E in E0. inversion E0; subst. exists k, w0, pc'. rewrite upd_nth, Nat.eqb_refl by exact Lk. auto.
      + exists k0, w0, pc0. rewrite upd_nth by exact Lk. apply Nat.eqb_neq in Ne. rewrite Ne. auto.
    - intros k1 k2 w1 w2 pc1 pc2 E1 E2 J. rewrite upd_nth in E1, E2 by exact Lk.
      destruct (k1 =? k) eqn:B1; destruct (k2 =? k) eqn:B2.
      + apply Nat.eqb_eq in B1, B2. congruence.
      + apply Nat.eqb_eq in B1. inversion E1; subst. eapply X; eassumption.
      + apply Nat.eqb_eq in B2. inversion E2; subst. eapply X; eassumption.
      + eapply X; eassumption.
  Qed.

  (** The first half of a write *)
  Lemma sim_tear : forall recs held off cs ch mn c k w pc pc' r g,
      sim (L2 recs held off cs ch mn) c -> nth_error off k = Some (LIn w pc) -> nth_error recs (ow_idx w) = Some r ->
      (pc = PW1 /\ pc' = PT1 \/ pc = PW2 /\ pc' = PT2) ->
      sim (L2 (upd recs (ow_idx w) (set_offset r g)) held (upd off k (LIn w pc')) cs ch mn) c.
  Proof.
    intros recs held off cs ch mn c k w pc pc' r g [L H C1 C2 C3 O R I W X] E Er P.
    pose proof (nth_lt _ _ E) as Lk. pose proof (nth_lt _ _ Er) as Lr. cbn [l_recs l_held l_off l_cs l_chan l_main] in *.
    constructor; cbn [l_recs l_held l_off l_cs l_chan l_main]; try assumption.
    - rewrite upd_length by exact Lr. exact L.
    - destruct (F2_nth _ _ _ _ _ _ _ O E) as (w' & Ew & A). apply (F2_upd1 _ _ _ _ _ _ _ w' O Ew).
      destruct P as [[-> ->]|[-> ->]]; exact A.
    - intros j r0 Er0. rewrite upd_nth by exact Lr. destruct (j =? ow_idx w) eqn:J.
      + apply Nat.eqb_eq in J. subst j. exists g. destruct (R _ _ Er0) as (g0 & G1 & G2). rewrite Er in G1. inversion G1; subst r.
        split; [reflexivity|]. intros Hj. exfalso. apply (Hj k w pc'); [rewrite upd_nth, Nat.eqb_refl by exact Lk; reflexivity|reflexivity|].
        destruct P as [[_ ->]|[_ ->]]; [left|right]; reflexivity.
      + destruct (R j r0 Er0) as (g0 & G1 & G2). exists g0. split; [exact G1|]. intros Hj. apply G2. intros k0 w0 pc0 E0 J0.
        apply (Hj k0 w0 pc0); [|exact J0]. rewrite upd_nth by exact Lk. destruct (k0 =? k) eqn:B; [|exact E0].
        apply Nat.eqb_eq in B. subst k0. rewrite E in E0. inversion E0; subst. apply Nat.eqb_neq in J. congruence.
    - intros k0 w0 pc0 E0. rewrite upd_nth in E0 by exact Lk. destruct (k0 =? k) eqn:Ek; [|exact (I k0 w0 pc0 E0)].
      inversion E0; subst w0 pc0. destruct (I k w pc E) as (I1 & r0 & I2 & I3). split; [exact I1|]. exists r0. split; [exact I2|].
      destruct P as [[-> ->]|[-> ->]]; exact I3.
    - intros j Hj. destruct (W j Hj) as (k0 & w0 & pc0 & E0 & J). destruct (Nat.eq_dec k0 k) as [->|Ne].
      + rewrite E in E0. inversion E0; subst. exists k, w0, pc'. rewrite upd_nth, Nat.eqb_refl by exact Lk. auto.
      + exists k0, w0, pc0. rewrite upd_nth by exact Lk. apply Nat.eqb_neq in Ne. rewrite Ne. auto.
    - intros k1 k2 w1 w2 pc1 pc2 E1 E2 J. rewrite upd_nth in E1, E2 by exact Lk.
      destruct (k1 =? k) eqn:B1; destruct (k2 =? k) eqn:B2.
      + apply Nat.eqb_eq in B1, B2. congruence.
      + apply Nat.eqb_eq in B1. inversion E1; subst. eapply X; eassumption.
      + apply Nat.eqb_eq in B2. inversion E2; subst. eapply X; eassumption.
      + eapply X; eassumption.
  Qed.

  (** A step inside that decides the iteration: the other machine takes its step. *)
  Lemma sim_commit : forall recs held off cs ch mn c k w pc r' w' pc' rc,
      sim (L2 recs held off cs ch mn) c -> nth_error off k = Some (LIn w pc) -> pc <> PEnd -> pc <> PBrk ->
      ow_idx w' = ow_idx w -> nth_error (p_recs c) (ow_idx w) = Some rc ->
      (pc' = PEnd \/ pc' = PBrk) ->
      (ow_done w = false -> as_w (LIn w' pc') (snd (offset_step (p_recs c) w))) ->
      fst (offset_step (p_recs c) w) = upd (p_recs c) (ow_idx w) r' ->
      exists c', p2step np c c' /\ sim (L2 (upd recs (ow_idx w) r') held (upd off k (LIn w' pc')) cs ch mn) c'.
  Proof.
    intros recs held off cs ch mn [crecs coff ccs cch cmn] k w pc r' w' pc' rc [L H C1 C2 C3 O R I W X] E N1 N2 Ei Erc P A F.
    pose proof (nth_lt _ _ E) as Lk. cbn [l_recs l_held l_off l_cs l_chan l_main p_recs p_off p_cs p_chan p_main] in *.
    pose proof (nth_lt _ _ Erc) as Lr. assert (Lr' : (ow_idx w < List.length recs)%nat) by lia.
    destruct (F2_nth _ _ _ _ _ _ _ O E) as (w0 & Ew & A0). destruct (as_w_before _ _ _ A0 N1 N2) as [-> D]. subst.
    exists (P2 (fst (offset_step crecs w)) (upd coff k (snd (offset_step crecs w))) ccs cch cmn).
    split; [apply SOff; assumption|]. rewrite F.
    constructor; cbn [l_recs l_held l_off l_cs l_chan l_main p_recs p_off p_cs p_chan p_main]; try reflexivity.
    - rewrite !upd_length; assumption.
    - rewrite upd_length; assumption.
    - apply F2_upd; [exact O|exact (A D)|exact Lk].
    - intros j r Er. rewrite upd_nth in Er by exact Lr. rewrite upd_nth by exact Lr'. destruct (j =? ow_idx w) eqn:J.
      + inversion Er; subst r. exists (offset r'). rewrite set_offset_same. split; [reflexivity|reflexivity].
      + destruct (R j r Er) as (g0 & G1 & G2). exists g0. split; [exact G1|]. intros Hj. apply G2. intros k0 w0 pc0 E0 J0.
        apply (Hj k0 w0 pc0); [|exact J0]. rewrite upd_nth by exact Lk. destruct (k0 =? k) eqn:B; [|exact E0].
        apply Nat.eqb_eq in B. subst k0. rewrite E in E0. inversion E0; subst. apply Nat.eqb_neq in J. congruence.
    - intros k0 w0 pc0 E0. rewrite upd_nth in E0 by exact Lk. destruct (k0 =? k) eqn:Ek.
      + inversion E0; subst w0 pc0. destruct (I k w pc E) as (I1 & r0 & I2 & I3). rewrite Ei. split; [exact I1|].
        exists r'. rewrite upd_nth, Nat.eqb_refl by exact Lr. split; [reflexivity|]. destruct P as [-> | ->]; exact Logic.I.
      + destruct (I k0 w0 pc0 E0) as (I1 & r0 & I2 & I3). split; [exact I1|]. exists r0. split; [|exact I3].
        rewrite upd_nth by exact Lr. destruct (ow_idx w0 =? ow_idx w) eqn:J; [|exact I2].
        apply Nat.eqb_eq in J. apply Nat.eqb_neq in Ek. exfalso. apply Ek. eapply X; eassumption.
    - intros j Hj. destruct (W j Hj) as (k0 & w0 & pc0 & E0 & J). destruct (Nat.eq_dec k0 k) as [->|Ne].
      + rewrite E in E0. inversion E0; subst. exists k, w', pc'. rewrite upd_nth, Nat.eqb_refl by exact Lk. auto.
      + exists k0, w0, pc0. rewrite upd_nth by exact Lk. apply Nat.eqb_neq in Ne. rewrite Ne. auto.
    - intros k1 k2 w1 w2 pc1 pc2 E1 E2 J. rewrite upd_nth in E1, E2 by exact Lk.
      destruct (k1 =? k) eqn:B1; destruct (k2 =? k) eqn:B2.
      + apply Nat.eqb_eq in B1, B2. congruence.
      + apply Nat.eqb_eq in B1. inversion E1; subst. eapply X; try eassumption. congruence.
      + apply Nat.eqb_eq in B2. inversion E2; subst. eapply X; try eassumption. congruence.
      + eapply X; eassumption.
  Qed.

  (** The record a goroutine holds, unless it is in the middle of a write *)
  Lemma sim_sees : forall s c k w pc r, sim s c -> nth_error (l_off s) k = Some (LIn w pc) ->
      nth_error (l_recs s) (ow_idx w) = Some r -> ~ torn pc -> nth_error (p_recs c) (ow_idx w) = Some r /\ knows r w pc.
  Proof.
    intros s c k w pc r M E Er T. destruct (s_in _ _ M k w pc E) as (_ & rc & I2 & I3).
    destruct (s_rec _ _ M _ _ I2) as (g & G1 & G2). rewrite Er in G1. inversion G1; subst r.
    rewrite G2; [rewrite set_offset_same; auto|]. intros k1 w1 pc1 E1 J. assert (k1 = k) by (eapply (s_excl _ _ M); eassumption).
    subst k1. rewrite E in E1. inversion E1; subst. exact T.
  Qed.

  Lemma dr_ela : beqb dataRecordToken extendedLinearAddressRecordToken = false.
  Proof. reflexivity. Qed.

  Lemma sim_inside : forall recs held off cs ch mn c k w pc r g r' w' pc',
      sim (L2 recs held off cs ch mn) c -> nth_error off k = Some (LIn w pc) -> pc <> PEnd -> pc <> PBrk ->
      nth_error recs (ow_idx w) = Some r -> inside g r w pc = (r', w', pc') ->
      exists c', (c' = c \/ p2step np c c')
        /\ sim (L2 (upd recs (ow_idx w) r') held (upd off k (LIn w' pc')) cs ch mn) c'.
  Proof.
    intros recs held off cs ch mn c k w pc r g r' w' pc' M E N1 N2 Er HI.
    assert (D : ow_done w = false).
    { destruct (F2_nth _ _ _ _ _ _ _ (s_off _ _ M) E) as (w0 & _ & A0). apply (as_w_before _ _ _ A0 N1 N2). }
    assert (SEE : ~ torn pc -> nth_error (p_recs c) (ow_idx w) = Some r /\ knows r w pc).
    { intros T. exact (sim_sees _ c k w pc r M E Er T). }
    destruct (s_in _ _ M k w pc E) as (_ & rc & Irc & Krc).
    assert (STAY : forall q, ~ torn pc -> q <> PEnd -> q <> PBrk -> ~ torn q ->
              (knows r w pc -> knows r w q) -> (r', w', pc') = (r, w, q) ->
              exists c', (c' = c \/ p2step np c c')
                /\ sim (L2 (upd recs (ow_idx w) r') held (upd off k (LIn w' pc')) cs ch mn) c').
    { intros q T Q1 Q2 Q3 K Eq. inversion Eq; subst. exists c. split; [left; reflexivity|]. rewrite (upd_same _ _ _ _ Er).
      apply (sim_stay _ _ _ _ _ _ _ _ _ pc); try assumption. intros r0 E1 E2 Kn. rewrite Er in E2. inversion E2; subst. exact (K Kn). }
    assert (COMMIT : forall r0 w0 q, (q = PEnd \/ q = PBrk) -> ow_idx w0 = ow_idx w ->
              as_w (LIn w0 q) (snd (offset_step (p_recs c) w)) ->
              fst (offset_step (p_recs c) w) = upd (p_recs c) (ow_idx w) r0 -> (r', w', pc') = (r0, w0, q) ->
              exists c', (c' = c \/ p2step np c c')
                /\ sim (L2 (upd recs (ow_idx w) r') held (upd off k (LIn w' pc')) cs ch mn) c').
    { intros r0 w0 q P Ei A F Eq. inversion Eq; subst.
      destruct (sim_commit recs held off cs ch mn c k w pc r0 w0 q rc M E N1 N2 Ei Irc P (fun _ => A) F) as (c' & S1 & S2).
      exists c'. auto. }
    destruct w as [i offs first dn]. cbn [ow_done ow_idx ow_offs ow_first] in *. subst dn.
    destruct pc; cbn [inside] in HI; symmetry in HI; try contradiction.
    - (* PType *) destruct (SEE ltac:(intros [?|?]; discriminate)) as [Sr _].
      destruct (beqb (recordType r) extendedLinearAddressRecordToken) eqn:T4.
      + apply (STAY PEla); try exact HI; try discriminate; try (intros [?|?]; discriminate).
        intros _. apply beqb_eq, T4.
      + destruct (beqb (recordType r) dataRecordToken) eqn:T0.
        * apply beqb_eq in T0. destruct first.
          -- apply (STAY PEq1); try exact HI; try discriminate; try (intros [?|?]; discriminate). intros _. split; [exact T0|reflexivity].
          -- apply (STAY PNe2); try exact HI; try discriminate; try (intros [?|?]; discriminate). intros _. split; [exact T0|reflexivity].
        * apply (COMMIT r (OW i offs first false) PEnd); try exact HI; [left; reflexivity|reflexivity| |];
            unfold offset_step; cbn [ow_idx]; rewrite Sr, T4, T0; cbn [fst snd].
          -- split; reflexivity.
          -- symmetry. apply upd_same, Sr.
    - (* PEla *) destruct (SEE ltac:(intros [?|?]; discriminate)) as [Sr K]. cbn [knows] in K.
      assert (T4 : beqb (recordType r) extendedLinearAddressRecordToken = true) by (apply beqb_eq, K).
      apply (COMMIT r (OW i (offset r) true false) PEnd); try exact HI; [left; reflexivity|reflexivity| |];
        unfold offset_step; cbn [ow_idx]; rewrite Sr, T4; cbn [fst snd].
      + split; reflexivity.
      + symmetry. apply upd_same, Sr.
    - (* PEq1 *) destruct (SEE ltac:(intros [?|?]; discriminate)) as [Sr K]. cbn [knows ow_first] in K. destruct K as [T0 ->].
      destruct (beqb (offset r) offs) eqn:Eo.
      + apply (COMMIT r (OW i offs true false) PBrk); try exact HI; [right; reflexivity|reflexivity| |];
          unfold offset_step; cbn [ow_idx ow_offs ow_first]; rewrite Sr, T0, dr_ela, Eo; change (beqb dataRecordToken dataRecordToken) with true;
          cbn [andb fst snd].
        * reflexivity.
        * symmetry. apply upd_same, Sr.
      + apply (STAY PNe1); try exact HI; try discriminate; try (intros [?|?]; discriminate).
        intros _. cbn [knows ow_first ow_offs]. split; [exact T0|]. split; [reflexivity|]. apply beqb_neq, Eo.
    - (* PNe1 *) destruct (SEE ltac:(intros [?|?]; discriminate)) as [Sr K]. cbn [knows ow_first ow_offs] in K. destruct K as (T0 & Fi & Ne).
      pose proof Ne as Ne'. apply beqb_neq in Ne'. rewrite Ne' in HI.
      apply (STAY PW1); try exact HI; try discriminate; try (intros [?|?]; discriminate).
      intros _. cbn [knows ow_first ow_offs]. auto.
    - (* PNe2 *) destruct (SEE ltac:(intros [?|?]; discriminate)) as [Sr K]. cbn [knows ow_first] in K. destruct K as [T0 ->].
      assert (END : beqb (offset r) offs = true \/ beqb offs zeroOffset = true -> (r', w', pc') = (r, OW i offs false false, PEnd) ->
         exists c', (c' = c \/ p2step np c c') /\ sim (L2 (upd recs i r') held (upd off k (LIn w' pc')) cs ch mn) c').
      { intros Hc Eq. apply (COMMIT r (OW i offs false false) PEnd); try exact Eq; [left; reflexivity|reflexivity| |];
          unfold offset_step; cbn [ow_idx ow_offs ow_first]; rewrite Sr, T0, dr_ela; change (beqb dataRecordToken dataRecordToken) with true;
          cbn [andb];
          replace (negb (beqb (offset r) offs) && negb (beqb offs zeroOffset)) with false
            by (destruct Hc as [-> | ->]; [reflexivity|rewrite andb_false_r; reflexivity]); cbn [fst snd].
        - split; reflexivity.
        - symmetry. apply upd_same, Sr. }
      destruct (beqb (offset r) offs) eqn:Eo; [apply END; [left; reflexivity|exact HI]|].
      destruct (beqb offs zeroOffset) eqn:Ez; [apply END; [right; reflexivity|exact HI]|].
      apply (STAY PW2); try exact HI; try discriminate; try (intros [?|?]; discriminate).
      intros _. cbn [knows ow_first ow_offs]. split; [exact T0|]. split; [reflexivity|]. split; [apply beqb_neq, Eo|apply beqb_neq, Ez].
    - (* PW1 *) inversion HI; subst. exists c. split; [left; reflexivity|].
      apply (sim_tear _ _ _ _ _ _ _ _ (OW i offs first false) PW1); auto.
    - (* PT1 *) cbn [knows ow_first ow_offs] in Krc. destruct Krc as (T0 & -> & Ne).
      destruct (s_rec _ _ M _ _ Irc) as (g0 & G1 & _). cbn [l_recs] in G1. rewrite Er in G1. inversion G1; subst r.
      rewrite set_offset_twice in HI. pose proof Ne as Ne'. apply beqb_neq in Ne'.
      apply (COMMIT (set_offset rc offs) (OW i offs false false) PEnd); try exact HI; [left; reflexivity|reflexivity| |];
        unfold offset_step; cbn [ow_idx ow_offs ow_first]; rewrite Irc, T0, dr_ela, Ne'; change (beqb dataRecordToken dataRecordToken) with true;
        cbn [andb negb fst snd].
      + split; reflexivity.
      + apply set_rec_upd.
    - (* PW2 *) inversion HI; subst. exists c. split; [left; reflexivity|].
      apply (sim_tear _ _ _ _ _ _ _ _ (OW i offs first false) PW2); auto.
    - (* PT2 *) cbn [knows ow_first ow_offs] in Krc. destruct Krc as (T0 & -> & Ne & Nz).
      destruct (s_rec _ _ M _ _ Irc) as (g0 & G1 & _). cbn [l_recs] in G1. rewrite Er in G1. inversion G1; subst r.
      rewrite set_offset_twice in HI. apply beqb_neq in Ne, Nz.
      apply (COMMIT (set_offset rc offs) (OW i offs false false) PEnd); try exact HI; [left; reflexivity|reflexivity| |];
        unfold offset_step; cbn [ow_idx ow_offs ow_first]; rewrite Irc, T0, dr_ela, Ne, Nz; change (beqb dataRecordToken dataRecordToken) with true;
        cbn [andb negb fst snd].
      + split; reflexivity.
      + apply set_rec_upd.
  Qed.

  (** Unlock *)
  Lemma sim_release : forall recs held off cs ch mn c k w pc x,
      sim (L2 recs held off cs ch mn) c -> nth_error off k = Some (LIn w pc) -> pc = PEnd \/ pc = PBrk ->
      (forall w' , as_w (LIn w pc) w' -> as_w x w') -> (forall w' pc', x <> LIn w' pc') ->
      sim (L2 recs (upd held (ow_idx w) false) (upd off k x) cs ch mn) c.
  Proof.
    intros recs held off cs ch mn c k w pc x [L H C1 C2 C3 O R I W X] E P A N.
    pose proof (nth_lt _ _ E) as Lk. cbn [l_recs l_held l_off l_cs l_chan l_main] in *.
    destruct (I k w pc E) as (I1 & _). pose proof (nth_lt _ _ I1) as Lh.
    assert (T : ~ torn pc) by (destruct P as [-> | ->]; intros [?|?]; discriminate).
    assert (OLD : forall k0 w0 pc0, nth_error (upd off k x) k0 = Some (LIn w0 pc0) -> k0 <> k /\ nth_error off k0 = Some (LIn w0 pc0)).
    { intros k0 w0 pc0 E0. rewrite upd_nth in E0 by exact Lk. destruct (k0 =? k) eqn:B.
      - inversion E0. exfalso. eapply N. eassumption.
      - apply Nat.eqb_neq in B. auto. }
    constructor; cbn [l_recs l_held l_off l_cs l_chan l_main]; try assumption.
    - rewrite upd_length; assumption.
    - destruct (F2_nth _ _ _ _ _ _ _ O E) as (w' & Ew & A0). apply (F2_upd1 _ _ _ _ _ _ _ w' O Ew). apply A, A0.
    - intros j r Er. destruct (R j r Er) as (g & G1 & G2). exists g. split; [exact G1|]. intros Hj. apply G2.
      intros k0 w0 pc0 E0 J. destruct (Nat.eq_dec k0 k) as [->|Ne].
      + rewrite E in E0. inversion E0; subst. exact T.
      + apply (Hj k0 w0 pc0); [|exact J]. rewrite upd_nth by exact Lk. apply Nat.eqb_neq in Ne. rewrite Ne. exact E0.
    - intros k0 w0 pc0 E0. destruct (OLD _ _ _ E0) as [Ne E1]. destruct (I k0 w0 pc0 E1) as (J1 & J2). split; [|exact J2].
      rewrite upd_nth by exact Lh. destruct (ow_idx w0 =? ow_idx w) eqn:J; [|exact J1].
      apply Nat.eqb_eq in J. exfalso. apply Ne. eapply X; eassumption.
    - intros j Hj. rewrite upd_nth in Hj by exact Lh. destruct (j =? ow_idx w) eqn:J; [discriminate Hj|].
      destruct (W j Hj) as (k0 & w0 & pc0 & E0 & J0). exists k0, w0, pc0. split; [|exact J0].
      rewrite upd_nth by exact Lk. destruct (k0 =? k) eqn:B; [|exact E0].
      apply Nat.eqb_eq in B. subst k0. rewrite E in E0. inversion E0; subst. apply Nat.eqb_neq in J. congruence.
    - intros k1 k2 w1 w2 pc1 pc2 E1 E2 J. apply OLD in E1, E2. eapply X; [apply E1|apply E2|exact J].
  Qed.

  (** Lock *)
  Lemma sim_lock : forall recs held off cs ch mn c k w,
      sim (L2 recs held off cs ch mn) c -> nth_error off k = Some (LTop w) -> nth_error held (ow_idx w) = Some false ->
      sim (L2 recs (upd held (ow_idx w) true) (upd off k (LIn w PType)) cs ch mn) c.
  Proof.
    intros recs held off cs ch mn c k w [L H C1 C2 C3 O R I W X] E Hh.
    pose proof (nth_lt _ _ E) as Lk. pose proof (nth_lt _ _ Hh) as Lh. cbn [l_recs l_held l_off l_cs l_chan l_main] in *.
    assert (FREE : forall k0 w0 pc0, nth_error off k0 = Some (LIn w0 pc0) -> ow_idx w0 <> ow_idx w).
    { intros k0 w0 pc0 E0 J. destruct (I _ _ _ E0) as [J1 _]. rewrite J in J1. congruence. }
    constructor; cbn [l_recs l_held l_off l_cs l_chan l_main]; try assumption.
    - rewrite upd_length; assumption.
    - destruct (F2_nth _ _ _ _ _ _ _ O E) as (w' & Ew & A0). apply (F2_upd1 _ _ _ _ _ _ _ w' O Ew). exact A0.
    - intros j r Er. destruct (R j r Er) as (g & G1 & G2). exists g. split; [exact G1|]. intros Hj. apply G2.
      intros k0 w0 pc0 E0 J. destruct (Nat.eq_dec k0 k) as [->|Ne]; [congruence|].
      apply (Hj k0 w0 pc0); [|exact J]. rewrite upd_nth by exact Lk. apply Nat.eqb_neq in Ne. rewrite Ne. exact E0.
    - intros k0 w0 pc0 E0. rewrite upd_nth in E0 by exact Lk. destruct (k0 =? k) eqn:B.
      + inversion E0; subst w0 pc0. rewrite upd_nth, Nat.eqb_refl by exact Lh. split; [reflexivity|].
        destruct (nth_error (p_recs c) (ow_idx w)) as [r|] eqn:Er; [exists r; split; [reflexivity|exact Logic.I]|].
        apply nth_error_None in Er. lia.
      + destruct (I k0 w0 pc0 E0) as (J1 & J2). split; [|exact J2]. rewrite upd_nth by exact Lh.
        destruct (ow_idx w0 =? ow_idx w); [reflexivity|exact J1].
    - intros j Hj. rewrite upd_nth in Hj by exact Lh. destruct (j =? ow_idx w) eqn:J.
      + apply Nat.eqb_eq in J. exists k, w, PType. rewrite upd_nth, Nat.eqb_refl by exact Lk. auto.
      + destruct (W j Hj) as (k0 & w0 & pc0 & E0 & J0). exists k0, w0, pc0. split; [|exact J0].
        rewrite upd_nth by exact Lk. destruct (k0 =? k) eqn:B; [|exact E0]. apply Nat.eqb_eq in B. subst k0. congruence.
    - intros k1 k2 w1 w2 pc1 pc2 E1 E2 J. rewrite upd_nth in E1, E2 by exact Lk.
      destruct (k1 =? k) eqn:B1; destruct (k2 =? k) eqn:B2.
      + apply Nat.eqb_eq in B1, B2. congruence.
      + inversion E1; subst. exfalso. exact (FREE _ _ _ E2 (eq_sym J)).
      + inversion E2; subst. exfalso. exact (FREE _ _ _ E1 J).
      + eapply X; eassumption.
  Qed.

  Lemma sim_end : forall recs held off cs ch mn c k w,
      sim (L2 recs held off cs ch mn) c -> nth_error off k = Some (LTop w) -> (List.length recs <= ow_idx w)%nat ->
      exists c', p2step np c c' /\ sim (L2 recs held (upd off k LDone) cs ch mn) c'.
  Proof.
    intros recs held off cs ch mn [crecs coff ccs cch cmn] k w [L H C1 C2 C3 O R I W X] E Hl.
    pose proof (nth_lt _ _ E) as Lk. cbn [l_recs l_held l_off l_cs l_chan l_main p_recs p_off p_cs p_chan p_main] in *.
    destruct (F2_nth _ _ _ _ _ _ _ O E) as (w' & Ew & -> & D). subst.
    assert (N : nth_error crecs (ow_idx w) = None) by (apply nth_error_None; lia).
    exists (P2 (fst (offset_step crecs w)) (upd coff k (snd (offset_step crecs w))) ccs cch cmn).
    split; [apply SOff; assumption|].
    assert (F : offset_step crecs w = (crecs, OW (ow_idx w) (ow_offs w) (ow_first w) true)) by (unfold offset_step; rewrite N; reflexivity).
    rewrite F. cbn [fst snd].
    assert (OLD : forall k0 w0 pc0, nth_error (upd off k LDone) k0 = Some (LIn w0 pc0) -> nth_error off k0 = Some (LIn w0 pc0)).
    { intros k0 w0 pc0 E0. rewrite upd_nth in E0 by exact Lk. destruct (k0 =? k); [discriminate|exact E0]. }
    assert (NEW : forall k0 w0 pc0, nth_error off k0 = Some (LIn w0 pc0) -> nth_error (upd off k LDone) k0 = Some (LIn w0 pc0)).
    { intros k0 w0 pc0 E0. rewrite upd_nth by exact Lk. destruct (k0 =? k) eqn:B; [|exact E0]. apply Nat.eqb_eq in B. congruence. }
    constructor; cbn [l_recs l_held l_off l_cs l_chan l_main p_recs p_off p_cs p_chan p_main]; try reflexivity; try assumption.
    - apply F2_upd; [exact O|reflexivity|exact Lk].
    - intros j r Er. destruct (R j r Er) as (g & G1 & G2). exists g. split; [exact G1|]. intros Hj. apply G2.
      intros k0 w0 pc0 E0. apply (Hj k0 w0 pc0). apply NEW, E0.
    - intros k0 w0 pc0 E0. apply (I k0). apply OLD, E0.
    - intros j Hj. destruct (W j Hj) as (k0 & w0 & pc0 & E0 & J). exists k0, w0, pc0. auto.
    - intros k1 k2 w1 w2 pc1 pc2 E1 E2. eapply X; apply OLD; eassumption.
  Qed.

  Lemma nth_ext : forall A (l l' : list A), List.length l = List.length l' ->
      (forall i x, nth_error l i = Some x -> nth_error l' i = Some x) -> l' = l.
  Proof.
    induction l as [|x l IH]; intros [|y l'] L H; cbn in L; try discriminate; [reflexivity|].
    pose proof (H 0%nat x eq_refl) as H0. cbn in H0. inversion H0; subst. f_equal. apply IH; [lia|].
    intros i z E. exact (H (S i) z E).
  Qed.

  Lemma sim_quiet : forall s c, sim s c -> Forall (fun w => w = LDone) (l_off s) -> l_recs s = p_recs c.
  Proof.
    intros s c M D. apply nth_ext; [symmetry; apply (s_len _ _ M)|]. intros j r Er.
    destruct (s_rec _ _ M j r Er) as (g & G1 & G2). rewrite G1. f_equal.
    rewrite G2; [apply set_offset_same|]. intros k w pc E. rewrite Forall_forall in D. apply nth_error_In in E. apply D in E. discriminate E.
  Qed.

  Lemma sim_other : forall recs held off cs ch mn crecs coff ccs cch cmn cs' ch' mn',
      sim (L2 recs held off cs ch mn) (P2 crecs coff ccs cch cmn) ->
      sim (L2 recs held off cs' ch' mn') (P2 crecs coff cs' ch' mn').
  Proof. intros * []. constructor; try assumption; reflexivity. Qed.

  Lemma sim_step : forall s c s', sim s c -> l2step np s s' -> exists c', (c' = c \/ p2step np c c') /\ sim s' c'.
  Proof.
    intros s c s' M St. destruct St.
    - destruct (sim_end _ _ _ _ _ _ _ _ _ M H H0) as (c' & S1 & S2). exists c'. auto.
    - exists c. split; [left; reflexivity|]. apply sim_lock; assumption.
    - eapply sim_inside; eassumption.
    - exists c. split; [left; reflexivity|]. eapply sim_release; try eassumption; [left; reflexivity| |discriminate].
      intros w' [-> D]. split; reflexivity.
    - exists c. split; [left; reflexivity|]. eapply sim_release; try eassumption; [right; reflexivity| |discriminate].
      intros w' D. exact D.
    - destruct c as [crecs coff ccs cch cmn]. pose proof M as [L _ C1 C2 C3 _ R _ _ _]. cbn in C1, C2, C3, L. subst.
      destruct (nth_error crecs j) as [rc|] eqn:Ec; [|apply nth_error_None in Ec; apply nth_lt in H1; lia].
      destruct (R j rc Ec) as (g & G & _). cbn in G. rewrite H1 in G. inversion G; subst r.
      eexists. split; [right; eapply SCsOk; eassumption|]. eapply sim_other, M.
    - destruct c as [crecs coff ccs cch cmn]. pose proof M as [L _ C1 C2 C3 _ R _ _ _]. cbn in C1, C2, C3, L. subst.
      destruct (nth_error crecs j) as [rc|] eqn:Ec; [|apply nth_error_None in Ec; apply nth_lt in H1; lia].
      destruct (R j rc Ec) as (g & G & _). cbn in G. rewrite H1 in G. inversion G; subst r.
      eexists. split; [right; eapply SCsBad; eassumption|]. eapply sim_other, M.
    - destruct c as [crecs coff ccs cch cmn]. pose proof M as [L _ C1 C2 C3 _ R _ _ _]. cbn in C1, C2, C3, L. subst.
      destruct (nth_error crecs j) as [rc|] eqn:Ec; [|apply nth_error_None in Ec; apply nth_lt in H1; lia].
      destruct (R j rc Ec) as (g & G & _). cbn in G. rewrite H1 in G. inversion G; subst r.
      eexists. split; [right; eapply SCsPanic; eassumption|]. eapply sim_other, M.
    - destruct c as [crecs coff ccs cch cmn]. pose proof M as [L _ C1 C2 C3 _ R _ _ _]. cbn in C1, C2, C3, L. subst.
      eexists. split; [right; eapply SCsEnd; eassumption|]. eapply sim_other, M.
    - destruct c as [crecs coff ccs cch cmn]. pose proof M as [L _ C1 C2 C3 _ R _ _ _]. cbn in C1, C2, C3, L. subst.
      eexists. split; [right; eapply SCsSend; eassumption|]. eapply sim_other, M.
    - destruct c as [crecs coff ccs cch cmn]. pose proof M as [L _ C1 C2 C3 _ R _ _ _]. cbn in C1, C2, C3, L. subst.
      eexists. split; [right; eapply SMainCs; eassumption|]. eapply sim_other, M.
    - pose proof (sim_quiet _ _ M H) as Q. cbn [l_recs] in Q.
      destruct c as [crecs coff ccs cch cmn]. pose proof M as [L _ C1 C2 C3 O R _ _ _]. cbn in C1, C2, C3, L, Q, O. subst.
      eexists. split; [right; eapply SMainOff|]; [|eapply sim_other, M].
      clear - H O. induction O as [|x y l l' A O IH]; [constructor|]. inversion H; subst. constructor; [exact A|apply IH; assumption].
  Qed.

  Lemma sim_init : forall R, sim (l2init np R) (p2init np R).
  Proof.
    intros R. unfold l2init, p2init.
    assert (N : forall k w pc, nth_error (map (fun i => LTop (OW (chunk_start (List.length R) np i) zeroOffset false false)) (seq 0 np)) k
              <> Some (LIn w pc)).
    { intros k w pc E. apply nth_error_In in E. apply in_map_iff in E. destruct E as (i & E & _). discriminate E. }
    constructor; cbn [l_recs l_held l_off l_cs l_chan l_main p_recs p_off p_cs p_chan p_main]; try reflexivity.
    - apply map_length.
    - generalize (seq 0 np). intros l. induction l as [|i l IH]; constructor; [split; reflexivity|exact IH].
    - intros j r Er. exists (offset r). rewrite set_offset_same. auto.
    - intros k w pc E. destruct (N _ _ _ E).
    - intros j E. apply nth_error_In in E. apply in_map_iff in E. destruct E as (i & E & _). discriminate E.
    - intros k k' w w' pc pc' E. destruct (N _ _ _ E).
  Qed.

  Lemma sim_reach : forall s0 s, reach (l2step np) s0 s -> forall c0, sim s0 c0 -> exists c, p2steps np c0 c /\ sim s c.
  Proof.
    intros s0 s H. induction H as [s|s1 s2 s3 St H IH]; intros c0 M; [exists c0; split; [constructor|exact M]|].
    destruct (sim_step _ _ _ M St) as (c1 & [->|Sc] & M1).
    - apply IH, M1.
    - destruct (IH _ M1) as (c & Sc' & Mc). exists c. split; [eapply P2Trans; eassumption|exact Mc].
  Qed.

  Lemma lock_reach : forall R s, reach (l2step np) (l2init np R) s -> exists c, p2steps np (p2init np R) c /\ sim s c.
  Proof. intros R s H. exact (sim_reach _ _ H _ (sim_init R)). Qed.

  (** *** Nothing blocks *)
  Definition pcm (pc : lpc) : nat :=
    match pc with
    | PType => 10 | PEla => 5 | PEq1 => 9 | PNe1 => 8 | PNe2 => 7 | PW1 => 6 | PT1 => 5 | PW2 => 6 | PT2 => 5 | PEnd => 4 | PBrk => 4
    end.
  Definition lwm (len : nat) (x : lworker) : nat :=
    match x with
    | LTop w => 12 * S (len - ow_idx w)
    | LIn w pc => 12 * (len - ow_idx w) + pcm pc
    | LDone => 0
    end.
  Definition l2meas (s : l2) : nat :=
    sum (map (lwm (List.length (l_recs s))) (l_off s)) + sum (map cmeas (l_cs s)) + mmeas (l_main s).

  Lemma inside_less : forall g r w pc r' w' pc', inside g r w pc = (r', w', pc') -> pc <> PEnd -> pc <> PBrk ->
      ow_idx w' = ow_idx w /\ (pcm pc' < pcm pc)%nat.
  Proof.
    intros g r [i offs first dn] pc r' w' pc' H N1 N2. destruct pc; cbn [inside] in H; inversion H; subst; try contradiction;
      repeat match goal with |- context [if ?c then _ else _] => destruct c end; cbn; split; try reflexivity; lia.
  Qed.

  Lemma l2_less : forall s c s', sim s c -> l2step np s s' -> l_main s' <> MRet P2Panic -> (l2meas s' < l2meas s)%nat.
  Proof.
    intros s c s' M St P. destruct St; unfold l2meas; cbn [l_recs l_off l_cs l_main] in *.
    - pose proof (sum_upd (lwm (List.length recs)) _ _ LDone H). cbn [lwm] in *. lia.
    - pose proof (sum_upd (lwm (List.length recs)) _ _ (LIn w PType) H). cbn [lwm pcm] in *. lia.
    - pose proof (sum_upd (lwm (List.length recs)) _ _ (LIn w' pc') H) as Q. cbn [lwm] in Q.
      rewrite upd_length by (eapply nth_lt; eassumption). destruct (inside_less _ _ _ _ _ _ _ H3 H0 H1) as [E L]. rewrite E in Q. lia.
    - pose proof (sum_upd (lwm (List.length recs)) _ _ (LTop (OW (S (ow_idx w)) (ow_offs w) (ow_first w) false)) H) as Q.
      cbn [lwm pcm ow_idx] in Q. destruct (s_in _ _ M _ _ _ H) as (_ & rc & Erc & _). apply nth_lt in Erc.
      pose proof (s_len _ _ M) as L. cbn [l_recs] in L. lia.
    - pose proof (sum_upd (lwm (List.length recs)) _ _ LDone H) as Q. cbn [lwm pcm] in Q. lia.
    - pose proof (sum_upd cmeas _ _ (CsRun (S j) e) H). cbn [cmeas] in *. lia.
    - pose proof (sum_upd cmeas _ _ CsSend H). cbn [cmeas] in *. lia.
    - congruence.
    - pose proof (sum_upd cmeas _ _ CsDone H). cbn [cmeas] in *. lia.
    - pose proof (sum_upd cmeas _ _ CsDone H). cbn [cmeas] in *. lia.
    - destruct (existsb negb ch); cbn [mmeas]; lia.
    - cbn [mmeas]; lia.
  Qed.

  Lemma in_steps : forall recs held off cs ch mn c k w pc, sim (L2 recs held off cs ch mn) c -> nth_error off k = Some (LIn w pc) ->
      exists s', l2step np (L2 recs held off cs ch mn) s'.
  Proof.
    intros recs held off cs ch mn c k w pc M E. destruct (s_in _ _ M _ _ _ E) as (_ & rc & Erc & _).
    destruct (s_rec _ _ M _ _ Erc) as (g & G & _). cbn [l_recs] in G.
    assert (D : pc = PEnd \/ pc = PBrk \/ (pc <> PEnd /\ pc <> PBrk)) by (destruct pc; auto; right; right; split; discriminate).
    destruct D as [->|[->|[N1 N2]]].
    - eexists. eapply KUnlock, E.
    - eexists. eapply KBreak, E.
    - destruct (inside [] (set_offset rc g) w pc) as [[r' w'] pc'] eqn:I. eexists. eapply KIn; eassumption.
  Qed.

  Lemma l2_progress : forall s c, sim s c -> (p2done c \/ exists c', p2step np c c') -> l2done s \/ exists s', l2step np s s'.
  Proof.
    intros [recs held off cs ch mn] c M PR.
    assert (DEC : Forall (fun w => w = LDone) off \/ exists k x, nth_error off k = Some x /\ x <> LDone).
    { clear. induction off as [|x off IH]; [left; constructor|]. destruct x as [w|w pc|].
      - right. exists 0%nat, (LTop w). split; [reflexivity|discriminate].
      - right. exists 0%nat, (LIn w pc). split; [reflexivity|discriminate].
      - destruct IH as [IH|(k & x & E & N)]; [left; constructor; [reflexivity|exact IH]|right; exists (S k), x; auto]. }
    destruct DEC as [D|(k & x & E & N)].
    - assert (HF : Forall (fun h => h = false) held).
      { apply Forall_forall. intros h Hh. apply In_nth_error in Hh. destruct Hh as [j Hj]. destruct h; [|reflexivity].
        destruct (s_own _ _ M _ Hj) as (k & w & pc & E & _). cbn in E. rewrite Forall_forall in D. apply nth_error_In, D in E. discriminate E. }
      pose proof M as [L _ C1 C2 C3 O R _ _ _]. cbn [l_recs l_cs l_chan l_main l_off] in *.
      assert (CD : Forall (fun w => ow_done w = true) (p_off c)).
      { clear - D O. induction O as [|x y l l' A O IH]; [constructor|]. inversion D; subst. constructor; [exact A|apply IH; assumption]. }
      destruct PR as [((r & Hr) & _ & Hc)|[c' Sc]].
      + left. split; [exists r; cbn; congruence|]. split; [exact D|]. split; [cbn; rewrite C1; exact Hc|exact HF].
      + right. destruct Sc; cbn [p_recs p_off p_cs p_chan p_main] in *; subst.
        * exfalso. rewrite Forall_forall in CD. apply nth_error_In, CD in H. congruence.
        * destruct (R _ _ H1) as (g & G & _). eexists. eapply KCsOk; try eassumption; rewrite ?validate_offset; assumption.
        * destruct (R _ _ H1) as (g & G & _). eexists. eapply KCsBad; try eassumption; rewrite ?validate_offset; assumption.
        * destruct (R _ _ H1) as (g & G & _). eexists. eapply KCsPanic; try eassumption; rewrite ?validate_offset; assumption.
        * eexists. eapply KCsEnd; eassumption.
        * eexists. eapply KCsSend; eassumption.
        * eexists. eapply KMainCs; eassumption.
        * eexists. eapply KMainOff; eassumption.
    - right. destruct x as [w|w pc|]; [| |congruence].
      + destruct (le_lt_dec (List.length recs) (ow_idx w)) as [Hl|Hl].
        * eexists. eapply KEnd; eassumption.
        * pose proof (s_held _ _ M) as LH. pose proof (s_len _ _ M) as LL. cbn in LH, LL.
          destruct (nth_error held (ow_idx w)) as [[|]|] eqn:Eh.
          -- destruct (s_own _ _ M _ Eh) as (k0 & w0 & pc0 & E0 & _). eapply in_steps; eassumption.
          -- eexists. eapply KLock; eassumption.
          -- apply nth_error_None in Eh. lia.
      + eapply in_steps; eassumption.
  Qed.
End Sim.

Lemma lock_completes : forall np R, (0 < np)%nat -> fresh R -> Forall (fun r => validateChecksum r <> Panic) R ->
    completes (l2step np) l2done (l2init np R).
Proof.
  intros np R Hnp Hf Hp. split.
  - intros s Hs. apply lock_reach in Hs. destruct Hs as (c & Sc & M). apply (l2_progress np s c M).
    destruct (p2_terminates Hnp Hf Hp Sc) as (_ & _ & [H|H]); [left; exact H|right; exact H].
  - apply (acc_measure _ _ (fun s => exists c, p2steps np (p2init np R) c /\ sim s c) l2meas).
    + intros s s' (c & Sc & M) St. destruct (sim_step np _ _ _ M St) as (c' & X & M').
      assert (Sc' : p2steps np (p2init np R) c').
      { destruct X as [->|X]; [exact Sc|eapply p2steps_snoc; eassumption]. }
      split; [exists c'; auto|]. apply (l2_less np s c); try assumption.
      rewrite (s_mn _ _ M'). destruct (p2_terminates Hnp Hf Hp Sc') as (Np & _). exact Np.
    + exists (p2init np R). split; [constructor|apply sim_init].
Qed.

Lemma completes_ends : forall S (step : S -> S -> Prop) done s0, completes step done s0 ->
    exists s, reach step s0 s /\ done s.
Proof.
  intros S step done s0 [P A]. induction A as [s0 A IH].
  destruct (P s0 (reach_refl _ _)) as [D|[s1 S1]]; [exists s0; split; [constructor|exact D]|].
  destruct (IH s1 S1) as (s & R & D).
  - intros s Hs. apply P. eapply reach_step; eassumption.
  - exists s. split; [eapply reach_step; eassumption|exact D].
Qed.

Lemma reach_l2steps : forall np s s', reach (l2step np) s s' <-> l2steps np s s'.
Proof. intros np s s'. split; intros H; induction H; econstructor; eassumption. Qed.

Lemma l2run_reach : forall np R r, l2run np R r <-> exists s, reach (l2step np) (l2init np R) s /\ l_main s = MRet r.
Proof.
  intros np R r. split.
  - intros (recs & held & off & cs & ch & H). eexists. split; [apply reach_l2steps, H|reflexivity].
  - intros ([recs held off cs ch mn] & H & E). cbn in E. subst mn. exists recs, held, off, cs, ch. apply reach_l2steps, H.
Qed.

Lemma l2run_p2run : forall np R r, l2run np R r -> p2run np R r.
Proof.
  intros np R r H. apply l2run_reach in H. destruct H as (s & Hs & Hm).
  destruct (lock_reach np R s Hs) as ([crecs coff ccs cch cmn] & Sc & M).
  pose proof (s_mn _ _ M) as E. cbn [p_main] in E. rewrite Hm in E. subst cmn. exists crecs, coff, ccs, cch. exact Sc.
Qed.

Lemma lock_result : forall np R r, (0 < np)%nat -> fresh R -> Forall (fun r => validateChecksum r <> Panic) R ->
    (l2run np R r <-> p2run np R r).
Proof.
  intros np R r Hnp Hf Hp. split; [apply l2run_p2run|]. intros Hr.
  destruct (completes_ends _ _ _ _ (lock_completes np R Hnp Hf Hp)) as (s & Hs & (r0 & Hm) & _).
  assert (H0 : l2run np R r0) by (apply l2run_reach; eauto).
  assert (E : r0 = r).
  { apply (p2run_result Hnp Hf Hp) in Hr. pose proof (l2run_p2run _ _ _ H0) as H1.
    apply (p2run_result Hnp Hf Hp) in H1. congruence. }
  subst r0. exact H0.
Qed.

Lemma fine_iff : forall np lines r, (0 < np)%nat -> lines <> [] -> (parseHex_fine np lines r <-> parseHex_exec np lines r).
Proof.
  intros np lines r Hnp Hl. pose proof (@parse_msgs_ok np lines) as Hm.
  assert (G : forall ms recs p, parse_msgs np lines = Ok ms -> crun absorb_recs (List.length lines) ms [] recs ->
            (l2run np recs p <-> p2run np recs p)).
  { intros ms recs p E C. rewrite Hm in E. inversion E; subst. apply recs_collected in C; [|exact Hl]. subst.
    apply lock_result; [exact Hnp|apply recsF_fresh|apply recsF_nopanic]. }
  split; intros H; destruct H as [E|ms recs E C P|ms recs E C P|ms recs recs' E C P D|ms recs recs' dm r E C P D F];
    try (apply (G _ _ _ E C) in P).
  - apply XPanicParse, E.
  - eapply XBad; eassumption.
  - eapply XPanicCs; eassumption.
  - eapply XPanicData; eassumption.
  - eapply XData; eassumption.
  - apply FPanicParse, E.
  - eapply FBad; eassumption.
  - eapply FPanicCs; eassumption.
  - eapply FPanicData; eassumption.
  - eapply FData; eassumption.
Qed.

Definition quiet (s : l2) : Prop := forall recs, l_main s = MRet (P2Good recs) ->
  Forall (fun w => w = LDone) (l_off s) /\ l_recs s = recs.

Lemma quiet_step : forall np s s', quiet s -> l2step np s s' -> quiet s'.
Proof.
  intros np s s' Q St recs0 E. unfold quiet in Q.
  destruct St; cbn [l_main l_off l_recs] in *; try (destruct (Q _ E) as [D R]; clear Q; subst);
    try (split; [exact D|reflexivity]);
    try (exfalso; rewrite Forall_forall in D; apply nth_error_In in H; apply D in H; discriminate H);
    try discriminate.
  - destruct (existsb negb ch); discriminate.
  - inversion E. auto.
Qed.

Lemma quiet_reach : forall np R s, reach (l2step np) (l2init np R) s -> quiet s.
Proof.
  intros np R s H. assert (Q : quiet (l2init np R)) by (intros recs E; discriminate E).
  induction H as [s|s1 s2 s3 St H IH]; [exact Q|]. apply IH. eapply quiet_step; eassumption.
Qed.

Lemma no_race : forall np R s, reach (l2step np) (l2init np R) s -> ~ race s.
Proof.
  intros np R s Hs (k & k' & x & x' & j & Ne & E & E' & (w & pc & -> & J & _) & [A|A]);
    destruct A as (w' & pc' & -> & J' & _); destruct (lock_reach np R s Hs) as (c & _ & M); apply Ne;
    eapply (s_excl _ _ M); try eassumption; congruence.
Qed.

Lemma no_bad_unlock : forall np R s, reach (l2step np) (l2init np R) s -> ~ bad_unlock s.
Proof.
  intros np R s Hs (k & w & [E|E] & N); destruct (lock_reach np R s Hs) as (c & _ & M); apply N;
    destruct (s_in _ _ M _ _ _ E) as [H _]; exact H.
Qed.
