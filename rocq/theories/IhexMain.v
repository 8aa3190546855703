(** Encoded files: what the reader returns. *)
From Coq Require Import String Ascii List Arith NArith Bool Lia ListDec.
From Verif Require Import GoBase GoStrings GoBaseFacts ConcModel IhexModel IhexOffsets IhexPhase2 IhexProofs
  HexSpec HexSpecFacts IhexSpec IhexEnc.
Import ListNotations.

Local Notation byte_list l := (Forall (fun v => v < 256)%N l).

(** ** Storing *)

Lemma store_all_ok : forall ds m, NoDup (map fst ds) -> (forall a, In a (map fst ds) -> ~ In a (map fst m)) ->
    store_all m ds = (rev ds ++ m, None).
Proof.
  induction ds as [|[a v] ds IH]; intros m Hn Hd; [reflexivity|].
  cbn [store_all]. cbn [map fst] in *.
  assert (lookup a m = None) as ->.
  { apply lookup_None. apply Hd. left; reflexivity. }
  inversion Hn as [|x l Hx Hl]; subst. rewrite IH.
  - cbn [rev]. rewrite <- app_assoc. reflexivity.
  - exact Hl.
  - intros a' Ha' Hi. cbn [insert map fst In] in Hi. destruct Hi as [Hi|Hi].
    + subst. contradiction.
    + apply (Hd a'); [right; exact Ha'|exact Hi].
Qed.

Lemma store_all_nodup : forall ds m, NoDup (map fst m) ->
    NoDup (map fst (fst (store_all m ds))) /\
    (forall x, In x (fst (store_all m ds)) -> In x m \/ In x ds).
Proof.
  induction ds as [|[a v] ds IH]; intros m Hm; cbn [store_all]; [auto|].
  destruct (lookup a m) as [v0|] eqn:E; [cbn [fst]; auto|].
  apply lookup_None in E.
  destruct (IH (insert a v m)) as [I1 I2]; [constructor; assumption|].
  split; [exact I1|]. intros x Hx. destruct (I2 x Hx) as [H|H].
  - destruct H as [<-|H]; [right; left; reflexivity|left; exact H].
  - right; right; exact H.
Qed.

(** A collision is reported with two different entries of the list. *)
Lemma store_all_collision : forall ds m, NoDup (map fst m) -> ~ NoDup (map fst ds ++ map fst m) ->
    exists pre a v v0 post, ds = pre ++ (a, v) :: post /\ In (a, v0) (m ++ pre)
      /\ store_all m ds = (rev pre ++ m, Some (ECollision a v0 v)).
Proof.
  induction ds as [|[a v] ds IH]; intros m Hm Hn; [cbn in Hn; contradiction|].
  cbn [store_all]. destruct (lookup a m) as [v0|] eqn:E.
  - exists [], a, v, v0, ds. split; [reflexivity|]. split; [rewrite app_nil_r; apply lookup_In, E|reflexivity].
  - apply lookup_None in E.
    destruct (IH (insert a v m)) as (pre & a' & v' & v0 & post & E1 & E2 & E3).
    + constructor; assumption.
    + intros Hc. apply Hn. cbn [map fst app].
      change (map fst (insert a v m)) with (a :: map fst m) in Hc.
      apply NoDup_remove in Hc. destruct Hc as [H1 H2]. constructor; assumption.
    + exists ((a, v) :: pre), a', v', v0, post. split; [rewrite E1; reflexivity|]. split.
      * unfold insert in E2. cbn [app In] in E2. apply in_or_app. destruct E2 as [E2|E2].
        -- right; left; exact E2.
        -- apply in_app_or in E2. destruct E2 as [E2|E2]; [left; exact E2|right; right; exact E2].
      * rewrite E3. cbn [rev]. rewrite <- app_assoc. reflexivity.
Qed.

Lemma store_all_none : forall ds, snd (store_all [] ds) = None <-> NoDup (map fst ds).
Proof.
  intros ds. split.
  - intros H. destruct (ListDec.NoDup_dec N.eq_dec (map fst ds)) as [Hn|Hn]; [exact Hn|].
    destruct (store_all_collision ds []) as (pre & a & v & v0 & post & _ & _ & E).
    + constructor.
    + cbn [map]. rewrite app_nil_r. exact Hn.
    + rewrite E in H. discriminate.
  - intros H. rewrite store_all_ok; [reflexivity|exact H|]. intros a _ [].
Qed.

(** ** Data entries of an encoded record *)

Lemma calc_loop_bytes : forall up bs i a x y cur u, byte_list bs ->
    hex_decode cur = Some [u / 256; u mod 256]%N -> a = (256 * x + y)%N -> (x < 256)%N -> (y < 256)%N ->
    (a + i + N.of_nat (List.length bs) <= 65536)%N ->
    calc_loop i (map (hex2 up) bs) (hexs up [x; y]) cur = Ok (placed (65536 * u + a + i) bs, false).
Proof.
  intros up bs i a x y cur u Hb Hcur Ha Hx Hy. revert i.
  induction Hb as [|v bs Hv Hbs IH]; intros i Hlen; [reflexivity|].
  cbn [map calc_loop]. rewrite hex_decode_hexs by (repeat constructor; assumption).
  cbn [be16 obind]. rewrite Hcur, hexToByte_hex2 by exact Hv. cbn [app be32 obind].
  cbn [List.length] in Hlen. rewrite IH by lia. cbn [obind placed fst snd].
  assert (Hi : u16 i = i) by (unfold u16; apply N.mod_small; lia).
  assert (Hs : u16 (256 * x + y + u16 i) = (a + i)%N).
  { rewrite Hi, <- Ha. unfold u16. apply N.mod_small. lia. }
  rewrite Hs.
  assert (E : (16777216 * (u / 256) + 65536 * (u mod 256) + 256 * ((a + i) / 256) + (a + i) mod 256
               = 65536 * u + a + i)%N).
  { pose proof (N.div_mod u 256). pose proof (N.div_mod (a + i) 256). lia. }
  rewrite E, N.add_assoc. reflexivity.
Qed.

Definition xrec (x : bool * irec) : record := toRec (fst x) (snd x) (ioff (fst x) (snd x)).

Lemma xrec_type : forall x, iform (snd x) ->
    beqb (recordType (xrec x)) extendedLinearAddressRecordToken = (itype (snd x) =? 4)%N
    /\ beqb (recordType (xrec x)) dataRecordToken = (itype (snd x) =? 0)%N.
Proof. intros [up r] (_ & Ht & _). apply hex2_type, Ht. Qed.

Lemma div_mod_bytes : forall u, (u < 65536)%N -> (u / 256 < 256)%N /\ (u mod 256 < 256)%N.
Proof.
  intros u H. split; [apply N.div_lt_upper_bound; lia|apply N.mod_lt; lia].
Qed.

Lemma entries_image : forall xs cur u, Forall (fun x => ivalid (snd x)) xs ->
    hex_decode cur = Some [u / 256; u mod 256]%N ->
    flat_map entries (applyOff cur (map xrec xs)) = image_from u (map snd xs).
Proof.
  induction xs as [|[up r] xs IH]; intros cur u Hv Hcur; [reflexivity|].
  inversion Hv as [|x l Hr Hl]; subst. cbn [map applyOff snd].
  destruct (xrec_type (up, r) (ivalid_form _ Hr)) as [-> ->]. cbn [snd] in *.
  destruct r as [a bs|u'|t a bs]; cbn [itype image_from].
  - cbn [N.eqb flat_map]. rewrite (IH cur u Hl Hcur). f_equal.
    unfold entries. cbn [recordType set_offset xrec toRec brec fst snd itype].
    destruct (hex2_type up 0) as [_ ->]; [lia|]. cbn [N.eqb].
    unfold calcDataEntries. cbn [data addressField offset set_offset xrec toRec brec fst snd ipayload iaddr].
    destruct Hr as (Ha & _ & Hb & _ & Hlen). cbn [iaddr ipayload] in *.
    destruct (div_mod_bytes a Ha) as [H1 H2].
    rewrite (@calc_loop_bytes up bs 0 a (a / 256) (a mod 256) cur u); try assumption.
    + cbn [fst]. rewrite N.add_0_r. reflexivity.
    + apply N.div_mod. lia.
    + lia.
  - change (4 =? 4)%N with true. cbv iota. cbn [flat_map].
    assert (entries (xrec (up, IEla u')) = []) as ->.
    { unfold entries. destruct (xrec_type (up, IEla u') (ivalid_form _ Hr)) as [_ ->]. reflexivity. }
    cbn [app]. apply IH; [exact Hl|].
    change (offset (xrec (up, IEla u'))) with (hexs up [u' / 256; u' mod 256]%N).
    destruct Hr as (_ & _ & Hb & _ & Hu). apply hex_decode_hexs, Hb.
  - destruct Hr as (Ha & Ht & Hb & Hl' & H0 & H4).
    apply N.eqb_neq in H0, H4. rewrite H4, H0. cbn [flat_map].
    assert (entries (xrec (up, IOther t a bs)) = []) as ->.
    { unfold entries. destruct (xrec_type (up, IOther t a bs)) as [_ ->].
      - apply N.eqb_neq in H0, H4. repeat split; assumption.
      - cbn [snd itype]. rewrite H0. reflexivity. }
    cbn [app]. apply IH; assumption.
Qed.

(** ** The guard on the address records *)

Lemma xrec_is04 : forall xs k o, Forall (fun x => iform (snd x)) xs -> is04 (map xrec xs) k o ->
    exists u, nth_error (map snd xs) k = Some (IEla u) /\ (u < 65536)%N /\ hex_decode o = Some [u / 256; u mod 256]%N.
Proof.
  intros xs k o Hv (r & Hr & Ht & Ho). rewrite nth_error_map in Hr.
  destruct (nth_error xs k) as [[up x]|] eqn:E; [|discriminate]. cbn in Hr. inversion Hr; subst.
  rewrite Forall_forall in Hv. pose proof (Hv _ (nth_error_In _ _ E)) as Hx. cbn [snd] in Hx.
  destruct (xrec_type (up, x) Hx) as [H4 _]. cbn [snd] in H4.
  rewrite Ht, beqb_refl in H4. symmetry in H4. apply N.eqb_eq in H4.
  destruct Hx as (_ & _ & Hb & _ & Hk).
  destruct x as [a bs|u|t a bs]; cbn [itype] in H4; [discriminate| |destruct Hk as [_ Hk]; contradiction].
  exists u. split; [rewrite nth_error_map, E; reflexivity|]. split; [exact Hk|].
  apply hex_decode_hexs, Hb.
Qed.

Lemma xrec_is04_conv : forall xs k u, Forall (fun x => iform (snd x)) xs ->
    nth_error (map snd xs) k = Some (IEla u) -> exists o, is04 (map xrec xs) k o.
Proof.
  intros xs k u Hv H. rewrite nth_error_map in H.
  destruct (nth_error xs k) as [[up x]|] eqn:E; [|discriminate]. cbn in H. inversion H; subst.
  rewrite Forall_forall in Hv. pose proof (Hv _ (nth_error_In _ _ E)) as Hx.
  destruct (xrec_type _ Hx) as [H4 _]. cbn [snd itype] in H4.
  exists (offset (xrec (up, IEla u))), (xrec (up, IEla u)).
  split; [rewrite nth_error_map, E; reflexivity|]. split; [|reflexivity].
  apply beqb_eq. rewrite H4. reflexivity.
Qed.

Lemma xrec_isData : forall xs i, Forall (fun x => iform (snd x)) xs -> isData (map xrec xs) i ->
    exists a bs, nth_error (map snd xs) i = Some (IData a bs).
Proof.
  intros xs i Hv (r & Hr & Ht). rewrite nth_error_map in Hr.
  destruct (nth_error xs i) as [[up x]|] eqn:E; [|discriminate]. cbn in Hr. inversion Hr; subst.
  rewrite Forall_forall in Hv. pose proof (Hv _ (nth_error_In _ _ E)) as Hx.
  destruct (xrec_type _ Hx) as [_ H0]. cbn [snd] in *.
  rewrite Ht, beqb_refl in H0. symmetry in H0. apply N.eqb_eq in H0.
  destruct Hx as (_ & _ & _ & _ & Hk). rewrite nth_error_map, E. cbn [option_map snd].
  destruct x as [a bs|u|t a bs]; cbn [itype] in H0; [eauto|discriminate|destruct Hk; contradiction].
Qed.

Lemma firstn_S_nth : forall A (l : list A) i x, nth_error l i = Some x -> firstn (S i) l = firstn i l ++ [x].
Proof.
  intros A l. induction l as [|y l IH]; intros [|i] x H; cbn in H; try discriminate.
  - inversion H; reflexivity.
  - cbn [firstn app]. f_equal. change (match l with [] => [] | a :: l0 => a :: firstn i l0 end) with (firstn (S i) l).
    apply IH, H.
Qed.

Lemma upper_snoc : forall rs r, upper (rs ++ [r]) = upper_step (upper rs) r.
Proof. intros. unfold upper. rewrite fold_left_app. reflexivity. Qed.

Lemma governs_upper : forall xs k i u, Forall (fun x => iform (snd x)) xs ->
    governs (map xrec xs) k i -> nth_error (map snd xs) k = Some (IEla u) -> i <= List.length xs ->
    upper (firstn i (map snd xs)) = Some u.
Proof.
  intros xs k i u Hv (Hk & _ & Hn) Hu Hi.
  assert (Hgen : forall n, k + S n <= i -> upper (firstn (k + S n) (map snd xs)) = Some u).
  { induction n as [|n IHn]; intros Hle.
    - replace (k + 1) with (S k) by lia. rewrite (firstn_S_nth _ _ _ _ Hu), upper_snoc. reflexivity.
    - replace (k + S (S n)) with (S (k + S n)) by lia.
      destruct (nth_error (map snd xs) (k + S n)) as [r|] eqn:E.
      + rewrite (firstn_S_nth _ _ _ _ E), upper_snoc, IHn by lia.
        destruct r as [a bs|u'|t a bs]; try reflexivity.
        exfalso. destruct (xrec_is04_conv xs (k + S n) u' Hv E) as [o Ho].
        apply (Hn (k + S n) o); [lia|exact Ho].
      + exfalso. apply nth_error_None in E. rewrite map_length in E. lia. }
  replace i with (k + S (i - S k)) by lia. apply Hgen. lia.
Qed.

Lemma zero_upper_nozero : forall xs, Forall (fun x => iform (snd x)) xs ->
    zero_upper_last (map snd xs) -> nozero (map xrec xs).
Proof.
  intros xs Hv Hg i k o Hd G A Hnz (k' & d & Hk' & A' & Dd & G').
  destruct (xrec_is04 xs k o Hv A) as (u & Eu & Hu & Ho).
  destruct (xrec_is04 xs k' zeroOffset Hv A') as (u' & Eu' & Hu' & Ho').
  assert (u' = 0%N).
  { cbn in Ho'. inversion Ho' as [[H1 H2]]. pose proof (N.div_mod u' 256). lia. }
  subst u'.
  destruct (xrec_isData xs i Hv Hd) as (a2 & b2 & Ei).
  destruct (xrec_isData xs d Hv Dd) as (a1 & b1 & Ed).
  assert (Hdk : d < k) by (eapply governs_before; [exact G'|lia|exact A|exact Dd]).
  assert (Hki : k < i) by (destruct G; lia).
  assert (Hil : i <= List.length xs).
  { apply nth_lt in Ei. rewrite map_length in Ei. lia. }
  assert (Hu0 : u = 0%N).
  { apply (Hg d i a1 b1 a2 b2 u); try assumption; [lia| |].
    - eapply governs_upper; [exact Hv|exact G'|exact Eu'|lia].
    - eapply governs_upper; [exact Hv|exact G|exact Eu|lia]. }
  subst u.
  (* both decode to zero, but text differs from 0000: impossible for digits *)
  clear - A Hv Hnz Eu. destruct A as (r & Hr & _ & Hoff). rewrite nth_error_map in Hr, Eu.
  destruct (nth_error xs k) as [[up x]|]; [|discriminate]. cbn in Hr, Eu. inversion Eu; subst. inversion Hr; subst.
  apply Hnz. destruct up; reflexivity.
Qed.

(** ** Lines of a file *)

Fixpoint items_x (l : list iitem) : list (bool * irec) :=
  match l with
  | [] => []
  | IRec up r :: l' => (up, r) :: items_x l'
  | IBlank _ :: l' => items_x l'
  end.

Lemma items_x_snd : forall l, map snd (items_x l) = items_recs l.
Proof. induction l as [|[up r|s] l IH]; cbn; [reflexivity|f_equal; exact IH|exact IH]. Qed.

Lemma items_x_form : forall l, Forall item_form l -> Forall (fun x => iform (snd x)) (items_x l).
Proof.
  intros l H. induction H as [|x l Hx Hl IH]; [constructor|].
  destruct x as [up r|s]; cbn; [constructor; assumption|exact IH].
Qed.

Lemma item_ok_form1 : forall x, item_ok x -> item_form x.
Proof. intros [up r|s] Hx; [apply ivalid_form, Hx|exact Hx]. Qed.
Lemma item_ok_form : forall l, Forall item_ok l -> Forall item_form l.
Proof. intros l H. eapply Forall_impl; [|exact H]. exact item_ok_form1. Qed.

Lemma items_x_valid : forall l, Forall item_ok l -> Forall (fun x => ivalid (snd x)) (items_x l).
Proof.
  intros l H. induction H as [|x l Hx Hl IH]; [constructor|].
  destruct x as [up r|s]; cbn; [constructor; assumption|exact IH].
Qed.

Lemma items_fine : forall l, Forall item_form l -> Forall line_fine (map item_line l).
Proof.
  intros l H. induction H as [|x l Hx Hl IH]; [constructor|]. cbn [map]. constructor; [|exact IH].
  destruct x as [up r|s]; cbn [item_line].
  - right. eexists. apply parseLine_rec, Hx.
  - left. apply Hx.
Qed.

Lemma items_recsF : forall l, Forall item_form l -> flat_map lineRec (map item_line l) = map xrec (items_x l).
Proof.
  intros l H. induction H as [|x l Hx Hl IH]; [reflexivity|]. cbn [map flat_map].
  destruct x as [up r|s]; cbn [item_line items_x].
  - unfold lineRec at 1. pose proof (iline_long (up, r)) as L. apply Nat.leb_le in L. rewrite L.
    rewrite parseLine_rec by exact Hx. cbn [app map]. f_equal. exact IH.
  - unfold lineRec at 1. destruct Hx as [Hx _].
    assert ((11 <=? List.length s) = false) as -> by (apply Nat.leb_gt; exact Hx). exact IH.
Qed.

Lemma item_no_eol : forall x, item_form x -> no_eol (item_line x).
Proof.
  intros [up r|s] H; cbn [item_line].
  - unfold iline, iline_of. cbn [fst snd].
    destruct (hexs_no_eol up (ibytes r) (ibytes_byte r H)) as [H1 H2].
    split; intros [E|E]; try (apply H1, E); try (apply H2, E); discriminate.
  - apply H.
Qed.

Lemma splitLines_join : forall t lines, lines <> [] -> Forall no_eol lines ->
    splitLines (join (term_bytes t) lines) = lines.
Proof.
  intros t lines Hne Hl.
  assert (Hcr : Forall (fun l => ~ In CR l) lines) by (eapply Forall_impl; [|exact Hl]; intros l [H _]; exact H).
  assert (Hlf : Forall (fun l => ~ In LF l) lines) by (eapply Forall_impl; [|exact Hl]; intros l [_ H]; exact H).
  unfold splitLines. change crlf with [CR; LF]. change lf with [LF]. destruct t; cbn [term_bytes].
  - rewrite (split_join CR [LF]) by assumption.
    destruct (List.length lines =? 1) eqn:E; [|reflexivity].
    apply Nat.eqb_eq in E. destruct lines as [|l [|l2 ls]]; cbn in E; try lia.
    cbn [join]. apply split_free. inversion Hlf; assumption.
  - rewrite (split_free CR [LF]).
    + cbn [List.length Nat.eqb]. apply (split_join LF []); assumption.
    + intros Hi. apply join_In in Hi. destruct Hi as [[E|[]]|(l & Hl' & Hx)]; [discriminate|].
      rewrite Forall_forall in Hcr. exact (Hcr l Hl' Hx).
Qed.

Lemma splitLines_nil : splitLines [] = [[]].
Proof. reflexivity. Qed.

Lemma recsF_items : forall np t items, 0 < np -> Forall item_form items ->
    recsF np (splitLines (ifile t items)) = map xrec (items_x items).
Proof.
  intros np t items Hnp Hok. unfold ifile. destruct items as [|x items].
  - cbn [map join]. rewrite splitLines_nil, recsF_fine; [reflexivity|exact Hnp|].
    constructor; [left; cbn; lia|constructor].
  - rewrite splitLines_join.
    + rewrite recsF_fine; [apply items_recsF, Hok|exact Hnp|apply items_fine, Hok].
    + discriminate.
    + rewrite Forall_forall in *. intros l Hl. apply in_map_iff in Hl. destruct Hl as (y & <- & Hy).
      apply item_no_eol, Hok, Hy.
Qed.

Lemma items_csum : forall xs, Forall (fun x => iform (snd x)) xs -> forallb csum_ok (map xrec xs) = true.
Proof.
  intros xs H. induction H as [|x xs Hx Hxs IH]; [reflexivity|]. cbn [map forallb].
  unfold xrec at 1. rewrite csum_ok_rec by exact Hx. exact IH.
Qed.

Theorem ihex_encoded : forall np t items, 0 < np -> Forall item_ok items ->
    zero_upper_last (items_recs items) ->
    parseFileF np (ifile t items) = store_all [] (image (items_recs items)).
Proof.
  intros np t items Hnp Hok Hz. unfold parseFileF, parseHexF.
  pose proof (item_ok_form items Hok) as Hof.
  rewrite recsF_items by assumption.
  pose proof (items_x_valid items Hok) as Hv. pose proof (items_x_form items Hof) as Hvf.
  rewrite items_csum by exact Hvf.
  assert (Hf : fresh (map xrec (items_x items))).
  { rewrite <- (recsF_items np t items Hnp Hof). apply recsF_fresh. }
  rewrite offsF_applyOff; [|exact Hnp|exact Hf|].
  - rewrite (entries_image (items_x items) zeroOffset 0); [|exact Hv|reflexivity].
    rewrite items_x_snd. reflexivity.
  - apply zero_upper_nozero; [exact Hvf|]. rewrite items_x_snd. exact Hz.
Qed.

(** Without the guard: still the checksum phase passes and the result depends
    only on the records. *)
Theorem ihex_encoded_any : forall np t items, 0 < np -> Forall item_form items ->
    parseFileF np (ifile t items) = store_all [] (flat_map entries (offsF np (map xrec (items_x items)))).
Proof.
  intros np t items Hnp Hok. unfold parseFileF, parseHexF.
  rewrite recsF_items by assumption. rewrite items_csum by (apply items_x_form, Hok). reflexivity.
Qed.
