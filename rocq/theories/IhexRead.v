(** What is read from any Intel HEX file: upper halves as the goroutines of
    [addOffsets] find them, addresses as [calcDataEntries] computes them. *)
From Coq Require Import String Ascii List Arith NArith Bool Lia.
From Verif Require Import GoBase GoBaseFacts GoStrings ConcModel ConcProofs HexSpec HexSpecFacts HexParts IhexSpec
  IhexModel IhexOffsets IhexPhase2 IhexProofs IhexEnc IhexMain IhexLines IhexThm.
Import ListNotations.

Local Notation byte_list l := (Forall (fun v => v < 256)%N l).

(** ** Addresses *)

Lemma calc_loop_wrapped : forall up bs i a x y cur u, byte_list bs ->
    hex_decode cur = Some [u / 256; u mod 256]%N -> a = (256 * x + y)%N -> (x < 256)%N -> (y < 256)%N ->
    calc_loop i (map (hex2 up) bs) (hexs up [x; y]) cur = Ok (wrapped u (a + i) bs, false).
Proof.
  intros up bs i a x y cur u Hb Hcur Ha Hx Hy. revert i.
  induction Hb as [|v bs Hv Hbs IH]; intros i; [reflexivity|].
  cbn [map calc_loop]. rewrite hex_decode_hexs by (repeat constructor; assumption).
  cbn [be16 obind]. rewrite Hcur, hexToByte_hex2 by exact Hv. cbn [app be32 obind].
  rewrite IH. cbn [obind wrapped fst snd].
  assert (Hs : u16 (256 * x + y + u16 i) = ((a + i) mod 65536)%N).
  { rewrite <- Ha. unfold u16. rewrite N.add_mod_idemp_r by lia. reflexivity. }
  rewrite Hs.
  assert (E : (16777216 * (u / 256) + 65536 * (u mod 256) + 256 * ((a + i) mod 65536 / 256) + ((a + i) mod 65536) mod 256
               = 65536 * u + (a + i) mod 65536)%N).
  { pose proof (N.div_mod u 256). pose proof (N.div_mod ((a + i) mod 65536) 256). lia. }
  rewrite E, N.add_assoc. reflexivity.
Qed.

Lemma entries_data : forall up a bs o u, iform (IData a bs) -> hex_decode o = Some [u / 256; u mod 256]%N ->
    entries (set_offset (xrec (up, IData a bs)) o) = wrapped u a bs.
Proof.
  intros up a bs o u (Ha & _ & Hb & _) Ho. cbn [iaddr ipayload] in *.
  unfold entries. cbn [recordType set_offset xrec toRec brec fst snd itype].
  destruct (hex2_type up 0) as [_ ->]; [lia|]. cbn [N.eqb].
  unfold calcDataEntries. cbn [data addressField offset set_offset xrec toRec brec fst snd ipayload iaddr].
  destruct (div_mod_bytes a Ha) as [H1 H2].
  rewrite (@calc_loop_wrapped up bs 0 a (a / 256) (a mod 256) o u); try assumption.
  - cbn [fst]. rewrite N.add_0_r. reflexivity.
  - apply N.div_mod. lia.
Qed.

Lemma entries_other : forall x, iform (snd x) -> (forall a bs, snd x <> IData a bs) -> entries (xrec x) = [].
Proof.
  intros [up r] Hv Hn. unfold entries. destruct (xrec_type (up, r) Hv) as [_ ->]. cbn [snd] in *.
  destruct r as [a bs|u|t a bs]; [destruct (Hn a bs); reflexivity|reflexivity|].
  destruct Hv as (_ & _ & _ & _ & H0 & _). cbn [itype]. apply N.eqb_neq in H0. rewrite H0. reflexivity.
Qed.

(** ** Upper halves *)

Definition dec (o : bytes) : N :=
  match hex_decode o with Some [x; y] => (256 * x + y)%N | _ => 0%N end.

Lemma dec_hexs : forall up u, (u < 65536)%N -> dec (hexs up [u / 256; u mod 256]%N) = u.
Proof.
  intros up u H. destruct (div_mod_bytes u H) as [H1 H2]. unfold dec.
  rewrite hex_decode_hexs by (repeat constructor; assumption). pose proof (N.div_mod u 256). lia.
Qed.
Lemma dec_zero : dec zeroOffset = 0%N.
Proof. reflexivity. Qed.

Section Uppers.
  Variable xs : list (bool * irec).
  Hypothesis Hv : Forall (fun x => iform (snd x)) xs.
  Let R := map xrec xs.
  Let rs := map snd xs.

  Lemma ela_text : forall k o, is04 R k o -> exists up u, nth_error rs k = Some (IEla u) /\ (u < 65536)%N
      /\ o = hexs up [u / 256; u mod 256]%N.
  Proof.
    intros k o A. destruct (xrec_is04 xs k o Hv A) as (u & E & Hu & _).
    destruct A as (r & Hr & _ & Ho). unfold R, rs in *. rewrite nth_error_map in Hr, E.
    destruct (nth_error xs k) as [[up x]|] eqn:Ex; [|discriminate]. cbn in Hr, E.
    inversion E; subst. inversion Hr; subst. exists up, u.
    split; [rewrite nth_error_map, Ex; reflexivity|]. split; [exact Hu|reflexivity].
  Qed.

  Lemma ela_zero : forall k o, is04 R k o -> (o = zeroOffset <-> nth_error rs k = Some (IEla 0)).
  Proof.
    intros k o A. destruct (ela_text k o A) as (up & u & E & Hu & ->). split; intros H.
    - rewrite E. f_equal. f_equal. rewrite <- (dec_hexs up u Hu), H. reflexivity.
    - rewrite E in H. inversion H; subst. destruct up; reflexivity.
  Qed.

  Lemma data_iff : forall i, isData R i <-> exists a bs, nth_error rs i = Some (IData a bs).
  Proof.
    intros i. split.
    - apply xrec_isData, Hv.
    - intros (a & bs & E). unfold rs in E. rewrite nth_error_map in E.
      destruct (nth_error xs i) as [[up x]|] eqn:Ex; [|discriminate]. cbn in E. inversion E; subst.
      exists (xrec (up, IData a bs)). split; [unfold R; rewrite nth_error_map, Ex; reflexivity|].
      destruct up; reflexivity.
  Qed.

  Lemma no_ela : forall j, (forall u, nth_error rs j <> Some (IEla u)) <-> (forall o, ~ is04 R j o).
  Proof.
    intros j. split.
    - intros H o A. destruct (ela_text j o A) as (up & u & E & _). exact (H u E).
    - intros H u E. destruct (xrec_is04_conv xs j u Hv E) as [o A]. exact (H o A).
  Qed.

  Lemma governs_closest : forall k i, governs R k i -> exists u, closest rs k i u.
  Proof.
    intros k i (L & (o & A) & N). destruct (ela_text k o A) as (up & u & E & _).
    exists u. split; [exact L|]. split; [exact E|]. intros j u' Hj.
    apply (proj2 (no_ela j)). intros o' A'. exact (N j o' Hj A').
  Qed.

  Lemma closest_governs : forall k i u, closest rs k i u -> governs R k i.
  Proof.
    intros k i u (L & E & N). split; [exact L|]. split; [exact (xrec_is04_conv xs k u Hv E)|].
    intros j o Hj. apply (proj1 (no_ela j)). intros u'. exact (N j u' Hj).
  Qed.

  Lemma zero_used_iff : forall s k, zero_used rs s k <-> zero_block R s k.
  Proof.
    intros s k. split.
    - intros (k' & d & a & bs & Hk & Ed & C). exists k', d. split; [exact Hk|].
      pose proof (closest_governs _ _ _ C) as G. destruct G as (L & (o & A) & N).
      destruct C as (_ & E & _). split; [|split; [apply data_iff; eauto|split; [exact L|split; [eauto|exact N]]]].
      replace zeroOffset with o; [exact A|]. apply (ela_zero k' o A), E.
    - intros (k' & d & Hk & A & D & G). apply data_iff in D. destruct D as (a & bs & Ed).
      destruct (governs_closest _ _ G) as (u & C). exists k', d, a, bs. split; [exact Hk|]. split; [exact Ed|].
      pose proof (proj1 (ela_zero k' _ A) eq_refl) as E0. destruct C as (L & E & N).
      rewrite E0 in E. inversion E; subst. split; [exact L|]. split; [exact E0|exact N].
  Qed.

  Variable np : nat.

  Lemma starts_In : forall s, In s (starts_of np (List.length R)) <->
      exists g, g < np /\ s = g * (List.length rs / np).
  Proof.
    intros s. unfold starts_of, chunk_start. rewrite in_map_iff.
    assert (List.length R = List.length rs) as -> by (unfold R, rs; rewrite !map_length; reflexivity).
    split.
    - intros (g & <- & Hg). apply in_seq in Hg. exists g. split; [lia|apply Nat.mul_comm].
    - intros (g & Hg & ->). exists g. split; [apply Nat.mul_comm|apply in_seq; lia].
  Qed.

  Lemma reached_taken : forall i o, reached R (starts_of np (List.length R)) i o ->
      taken np rs i (dec o) /\ exists up u, (u < 65536)%N /\ o = hexs up [u / 256; u mod 256]%N.
  Proof.
    intros i o (k & s & Hs & Hk & G & A & Z). apply starts_In in Hs. destruct Hs as (g & Hg & ->).
    destruct (ela_text k o A) as (up & u & E & Hu & ->). split; [|eauto].
    rewrite dec_hexs by exact Hu. destruct (governs_closest _ _ G) as (u' & L & E' & N).
    exists g, k. split; [exact Hg|]. split; [exact Hk|]. split; [|rewrite zero_used_iff; exact Z].
    split; [exact L|]. split; [exact E|exact N].
  Qed.

  Lemma taken_reached : forall i u, taken np rs i u ->
      exists o, reached R (starts_of np (List.length R)) i o /\ dec o = u.
  Proof.
    intros i u (g & k & Hg & Hk & C & Z). pose proof (closest_governs _ _ _ C) as G.
    destruct C as (_ & E & _). destruct (xrec_is04_conv xs k u Hv E) as (o & A).
    exists o. destruct (ela_text k o A) as (up & u' & E' & Hu & Eo). split.
    - exists k, (g * (List.length rs / np)). split; [apply starts_In; eauto|].
      split; [exact Hk|]. split; [exact G|]. split; [exact A|]. rewrite <- zero_used_iff. exact Z.
    - rewrite Eo, dec_hexs by exact Hu. rewrite E in E'. inversion E'. reflexivity.
  Qed.
End Uppers.

(** ** The image *)

Lemma image_of : forall (g : irec * N -> list (N * N)) rs F, Forall2 (fun r f => entries f = g (r, dec (offset f))) rs F ->
    flat_map entries F = flat_map g (combine rs (map (fun f => dec (offset f)) F)).
Proof.
  intros g rs F H. induction H as [|r f rs F E H IH]; [reflexivity|].
  cbn [flat_map map combine]. rewrite E, IH. reflexivity.
Qed.

Lemma Forall2_nth : forall A B (P : A -> B -> Prop) l1 l2, List.length l1 = List.length l2 ->
    (forall i x y, nth_error l1 i = Some x -> nth_error l2 i = Some y -> P x y) -> Forall2 P l1 l2.
Proof.
  intros A B P l1. induction l1 as [|x l1 IH]; intros [|y l2] L H; try discriminate; [constructor|].
  constructor; [apply (H 0); reflexivity|]. apply IH; [cbn in L; lia|]. intros i. apply (H (S i)).
Qed.

Lemma offsets_read : forall np xs, (0 < np)%nat -> Forall (fun x => iform (snd x)) xs -> fresh (map xrec xs) ->
    image_read np (map snd xs) (flat_map entries (offsF np (map xrec xs))).
Proof.
  intros np xs Hnp Hv Hf. pose proof (offsF_final Hnp Hf) as ((L & Hsh) & Hsafe & Hlive).
  set (F := offsF np (map xrec xs)) in *. set (R := map xrec xs) in *.
  assert (Hlen : List.length F = List.length (map snd xs)).
  { rewrite L. unfold R. rewrite !map_length. reflexivity. }
  (* the text of the offset of each data record *)
  assert (Hd : forall i f, isData R i -> nth_error F i = Some f ->
            upper_read np (map snd xs) i (dec (offset f))
            /\ exists up u, (u < 65536)%N /\ offset f = hexs up [u / 256; u mod 256]%N).
  { intros i f D Ef. assert (O : offset_at F i (offset f)) by (exists f; auto).
    assert (T : forall u', taken np (map snd xs) i u' -> u' = dec (offset f)).
    { intros u' H. destruct (taken_reached xs Hv np i u' H) as (o & Ho & <-).
      rewrite (offset_at_fun O (Hlive i o D Ho)). reflexivity. }
    destruct (beqb (offset f) zeroOffset) eqn:Z.
    - apply beqb_eq in Z. split; [split; [|exact T]|].
      + rewrite Z, dec_zero. intros H. destruct (H eq_refl).
      + exists true, 0%N. split; [lia|]. rewrite Z. reflexivity.
    - apply beqb_neq in Z. destruct (reached_taken xs Hv np i _ (Hsafe i _ D O Z)) as [H1 H2].
      split; [split; [intros _; exact H1|exact T]|exact H2]. }
  exists (map (fun f => dec (offset f)) F). split; [rewrite map_length; exact Hlen|]. split.
  - intros i a bs u Er Eu. rewrite nth_error_map in Eu. destruct (nth_error F i) as [f|] eqn:Ef; [|discriminate].
    cbn in Eu. inversion Eu; subst. apply Hd; [|exact Ef]. apply data_iff; [exact Hv|eauto].
  - unfold image_with. apply image_of. apply Forall2_nth; [symmetry; exact Hlen|].
    intros i r f Er Ef. cbn [fst snd].
    assert (Ex : exists up, nth_error xs i = Some (up, r)).
    { rewrite nth_error_map in Er. destruct (nth_error xs i) as [[up x]|]; [|discriminate].
      cbn in Er. inversion Er; subst. eauto. }
    destruct Ex as (up & Ex). rewrite Forall_forall in Hv. pose proof (Hv _ (nth_error_In _ _ Ex)) as Hx. cbn [snd] in Hx.
    assert (ER : nth_error R i = Some (xrec (up, r))) by (unfold R; rewrite nth_error_map, Ex; reflexivity).
    rewrite <- Forall_forall in Hv.
    destruct r as [a bs|u|t a bs].
    + assert (D : isData R i) by (apply data_iff; [exact Hv|eauto]).
      destruct (Hd i f D Ef) as (_ & up' & u & Hu & Eo).
      assert (Es : f = set_offset (xrec (up, IData a bs)) (offset f)).
      { destruct (Hsh i _ ER) as [E|[_ [o E]]]; rewrite Ef in E; inversion E; reflexivity. }
      rewrite Es at 1. rewrite Eo, dec_hexs by exact Hu. apply entries_data; [exact Hx|].
      destruct (div_mod_bytes u Hu). apply hex_decode_hexs. repeat constructor; assumption.
    + destruct (Hsh i _ ER) as [E|[T _]]; [|destruct up; discriminate].
      rewrite Ef in E. inversion E; subst. apply (entries_other (up, _)); [exact Hx|discriminate].
    + destruct (Hsh i _ ER) as [E|[T _]].
      * rewrite Ef in E. inversion E; subst. apply (entries_other (up, _)); [exact Hx|discriminate].
      * exfalso. destruct (xrec_type (up, IOther t a bs) Hx) as [_ H0]. rewrite T, beqb_refl in H0.
        symmetry in H0. apply N.eqb_eq in H0. cbn [snd itype] in H0. destruct Hx as (_ & _ & _ & _ & Hk & _). contradiction.
Qed.

Lemma image_read_unique : forall np rs i1 i2, image_read np rs i1 -> image_read np rs i2 -> i1 = i2.
Proof.
  intros np rs i1 i2 (us1 & L1 & H1 & ->) (us2 & L2 & H2 & ->).
  assert (Hu : forall i a bs u1 u2, nth_error rs i = Some (IData a bs) -> nth_error us1 i = Some u1 ->
            nth_error us2 i = Some u2 -> u1 = u2).
  { intros i a bs u1 u2 E E1 E2. destruct (H1 i a bs u1 E E1) as [A1 B1]. destruct (H2 i a bs u2 E E2) as [A2 B2].
    destruct (N.eq_dec u1 0) as [->|N1]; [|apply B2, A1, N1].
    destruct (N.eq_dec u2 0) as [->|N2]; [reflexivity|]. symmetry. apply B1, A2, N2. }
  clear H1 H2. unfold image_with. revert us1 us2 L1 L2 Hu.
  induction rs as [|r rs IH]; intros [|u1 us1] [|u2 us2] L1 L2 Hu; try discriminate; [reflexivity|].
  cbn [combine flat_map fst snd]. f_equal.
  - destruct r as [a bs|u|t a bs]; try reflexivity. rewrite (Hu 0 a bs u1 u2); reflexivity.
  - apply IH; [cbn in L1; lia|cbn in L2; lia|]. intros i. apply (Hu (S i)).
Qed.

(** ** Files *)

Lemma items_read : forall np t items img, (0 < np)%nat -> Forall item_form items ->
    flat_map entries (offsF np (recsF np (splitLines (ifile t items)))) = img ->
    image_read np (items_recs items) img.
Proof.
  intros np t items img Hnp Hok <-. pose proof (items_x_form items Hok) as Hv.
  assert (Hf : fresh (map xrec (items_x items))).
  { rewrite <- (recsF_items np t items Hnp Hok). apply recsF_fresh. }
  pose proof (offsets_read np _ Hnp Hv Hf) as HI. rewrite items_x_snd in HI.
  rewrite recsF_items by assumption. exact HI.
Qed.

Lemma ihex_read : forall np t items, (0 < np)%nat -> Forall item_form items ->
    exists img, image_read np (items_recs items) img /\
    always (parseFile_exec np (ifile t items))
      (fun r => (NoDup (map fst img) -> exists m, r = Ok (m, None) /\ map_is m img)
        /\ (~ NoDup (map fst img) -> exists m a v0 v pre post, r = Ok (m, Some (ECollision a v0 v))
              /\ img = pre ++ (a, v) :: post /\ In (a, v0) pre /\ map_is m pre)).
Proof.
  intros np t items Hnp Hok. pose proof (items_x_form items Hok) as Hv.
  assert (Hf : fresh (map xrec (items_x items))).
  { rewrite <- (recsF_items np t items Hnp Hok). apply recsF_fresh. }
  pose proof (offsets_read np _ Hnp Hv Hf) as HI. rewrite items_x_snd in HI.
  eexists. split; [exact HI|]. apply always_iff; [exact Hnp|].
  rewrite ihex_encoded_any by assumption. set (img := flat_map _ _). split.
  - intros Hn. rewrite store_all_ok; [|exact Hn|intros a _ []]. eexists. split; [reflexivity|].
    apply map_is_rev, Hn.
  - intros Hn. destruct (store_all_clash _ Hn) as (m & a & v0 & v & pre & post & E & H).
    rewrite E. exists m, a, v0, v, pre, post. split; [reflexivity|exact H].
Qed.

(** ** Without explicit upper halves 0000 *)

Fixpoint us_from (u : N) (rs : list irec) : list N :=
  match rs with
  | [] => []
  | IEla u' :: rs' => u' :: us_from u' rs'
  | _ :: rs' => u :: us_from u rs'
  end.

Lemma us_from_length : forall rs u, List.length (us_from u rs) = List.length rs.
Proof. induction rs as [|[a bs|u'|t a bs] rs IH]; intros u; cbn; try rewrite IH; reflexivity. Qed.

Lemma us_from_image : forall rs u, image_with rs (us_from u rs) = wrapped_image u rs.
Proof.
  unfold image_with. induction rs as [|[a bs|u'|t a bs] rs IH]; intros u; cbn; try rewrite IH; reflexivity.
Qed.

Lemma closest_S : forall r rs k i u, closest rs k i u -> closest (r :: rs) (S k) (S i) u.
Proof.
  intros r rs k i u (L & E & N). split; [lia|]. split; [exact E|].
  intros [|j] u' Hj; [lia|]. apply (N j). lia.
Qed.

Lemma us_from_closest : forall rs u0 i a bs u, nth_error rs i = Some (IData a bs) ->
    nth_error (us_from u0 rs) i = Some u ->
    (exists k, closest rs k i u) \/ (u = u0 /\ forall j u', j < i -> nth_error rs j <> Some (IEla u')).
Proof.
  induction rs as [|r rs IH]; intros u0 i a bs u Ed Eu; [destruct i; discriminate|].
  destruct i as [|i].
  - cbn in Ed. inversion Ed; subst. cbn in Eu. inversion Eu; subst. right. split; [reflexivity|]. intros j u' Hj. lia.
  - cbn [nth_error] in Ed. destruct r as [a' bs'|u1|t a' bs']; cbn [us_from nth_error] in Eu.
    + destruct (IH u0 i a bs u Ed Eu) as [[k C]|[-> N]]; [left; exists (S k); apply closest_S, C|].
      right. split; [reflexivity|]. intros [|j] u' Hj; [discriminate|]. apply (N j). lia.
    + left. destruct (IH u1 i a bs u Ed Eu) as [[k C]|[-> N]]; [exists (S k); apply closest_S, C|].
      exists 0. split; [lia|]. split; [reflexivity|]. intros [|j] u' Hj; [lia|]. apply (N j). lia.
    + destruct (IH u0 i a bs u Ed Eu) as [[k C]|[-> N]]; [left; exists (S k); apply closest_S, C|].
      right. split; [reflexivity|]. intros [|j] u' Hj; [discriminate|]. apply (N j). lia.
Qed.

Lemma closest_fun : forall rs k1 k2 i u1 u2, closest rs k1 i u1 -> closest rs k2 i u2 -> u1 = u2.
Proof.
  intros rs k1 k2 i u1 u2 (L1 & E1 & N1) (L2 & E2 & N2).
  destruct (Nat.lt_trichotomy k1 k2) as [H|[H|H]].
  - destruct (N1 k2 u2); [lia|exact E2].
  - subst. congruence.
  - destruct (N2 k1 u1); [lia|exact E1].
Qed.

Lemma wrapped_read : forall np rs, (0 < np)%nat -> (forall u, In (IEla u) rs -> u <> 0%N) ->
    image_read np rs (wrapped_image 0 rs).
Proof.
  intros np rs Hnp Hnz. exists (us_from 0 rs). split; [apply us_from_length|]. split; [|symmetry; apply us_from_image].
  intros i a bs u Ed Eu. destruct (us_from_closest rs 0%N i a bs u Ed Eu) as [[k C]|[-> N]].
  - split.
    + intros _. exists 0, k. split; [exact Hnp|]. split; [cbn; lia|]. split; [exact C|].
      intros (k' & d & a' & bs' & _ & _ & _ & E & _). exact (Hnz 0%N (nth_error_In _ _ E) eq_refl).
    + intros u' (g & k' & _ & _ & C' & _). exact (closest_fun _ _ _ _ _ _ C' C).
  - split; [intros H; destruct (H eq_refl)|].
    intros u' (g & k' & _ & _ & (L & E & _) & _). destruct (N k' u' L E).
Qed.

Lemma ihex_wraps : forall np t items, (0 < np)%nat -> Forall item_form items ->
    (forall u, In (IEla u) (items_recs items) -> u <> 0%N) ->
    NoDup (map fst (wrapped_image 0 (items_recs items))) ->
    always (parseFile_exec np (ifile t items))
      (fun r => exists m, r = Ok (m, None) /\ map_is m (wrapped_image 0 (items_recs items))).
Proof.
  intros np t items Hnp Hok Hnz Hn.
  destruct (ihex_read np t items Hnp Hok) as (img & HI & [Hex H]).
  rewrite <- (image_read_unique _ _ _ _ (wrapped_read np _ Hnp Hnz) HI) in H.
  split; [exact Hex|]. intros r Hr. apply (H r Hr), Hn.
Qed.

(** ** Any lines *)

Lemma fineb_parse : forall l, fine_lineb l = true -> line_fine l.
Proof.
  intros l H. apply orb_true_iff in H. destruct H as [H|H]; [left; apply Nat.ltb_lt, H|].
  right. apply record_line_parse, record_lineb_ok, H.
Qed.

Lemma recsF_kept : forall np ls, recsF np ls = flat_map lineRec (kept fine_lineb np ls).
Proof.
  intros np ls. unfold recsF. apply stops_kept; [| |reflexivity].
  - intros l c H. cbn [parseRecs]. unfold lineRec. destruct (11 <=? List.length l) eqn:E; [|reflexivity].
    destruct (fineb_parse l H) as [H'|[r ->]]; [apply Nat.leb_le in E; lia|reflexivity].
  - intros l c H. apply orb_false_iff in H. destruct H as [H1 H2]. cbn [parseRecs].
    assert ((11 <=? List.length l) = true) as -> by (apply Nat.leb_le; apply Nat.ltb_ge in H1; exact H1).
    destruct (parseLine l) as [r|] eqn:E; [|reflexivity].
    apply parse_record_line, record_lineb_ok in E. congruence.
Qed.

Lemma ihex_kept : forall np t lines, (0 < np)%nat -> lines <> [] -> Forall no_eol lines ->
    forall r, parseFile_exec np (join (term_bytes t) lines) r
      <-> parseFile_exec np (join (term_bytes t) (kept fine_lineb np lines)) r.
Proof.
  intros np t lines Hnp Hne He r. rewrite !parseFile_exec_iff by exact Hnp.
  rewrite parseFile_join by assumption.
  assert (E : parseFileF np (join (term_bytes t) (kept fine_lineb np lines)) = parseHexF np (kept fine_lineb np lines)
              \/ kept fine_lineb np lines = []).
  { destruct (kept fine_lineb np lines) as [|l ls] eqn:K; [right; reflexivity|left].
    apply parseFile_join; [discriminate|]. rewrite <- K. apply Forall_forall. intros x Hx.
    rewrite Forall_forall in He. apply He. eapply kept_In, Hx. }
  assert (Hfine : forall l, Forall (fun x => fine_lineb x = true) l -> Forall line_fine l).
  { intros l H. eapply Forall_impl; [|exact H]. exact fineb_parse. }
  destruct E as [->|E].
  - unfold parseHexF. rewrite (recsF_fine np (kept fine_lineb np lines) Hnp (Hfine _ (kept_ok _ _ _))).
    rewrite <- recsF_kept. reflexivity.
  - assert (parseHexF np lines = ([], None)) as ->.
    { unfold parseHexF. rewrite recsF_kept, E. cbn [flat_map forallb].
      assert (offsF np [] = []) as ->; [|reflexivity].
      pose proof (@offsF_final np [] Hnp) as F. destruct F as ((L & _) & _).
      - intros i (r' & H & _). destruct i; discriminate.
      - apply length_zero_iff_nil, L. }
    rewrite E. cbn [join]. assert (parseFileF np [] = ([], None)) as ->; [|reflexivity].
    unfold parseFileF, parseHexF. rewrite splitLines_nil.
    rewrite recsF_fine; [|exact Hnp|constructor; [left; cbn; lia|constructor]]. cbn [flat_map lineRec].
    change (forallb csum_ok (lineRec [] ++ [])) with true. cbn [lineRec List.length Nat.leb app].
    assert (offsF np [] = []) as ->; [|reflexivity].
    pose proof (@offsF_final np [] Hnp) as F. destruct F as ((L & _) & _).
    + intros i (r' & H & _). destruct i; discriminate.
    + apply length_zero_iff_nil, L.
Qed.
