From Coq Require Import String Ascii List Arith NArith Bool Lia.
From Verif Require Import GoBase GoBaseFacts GoStrings ConcModel ConcProofs HexSpec HexSpecFacts IhexSpec
  IhexModel IhexOffsets IhexPhase2 IhexProofs IhexEnc IhexMain IhexLines.
Import ListNotations.

(** ** Runs *)

Lemma always_iff : forall np text P, (0 < np)%nat ->
    (always (parseFile_exec np text) P <-> P (Ok (parseFileF np text))).
Proof.
  intros np text P Hnp. split.
  - intros [_ H]. apply H. apply parseFile_exec_iff; [exact Hnp|reflexivity].
  - intros H. split.
    + eexists. apply parseFile_exec_iff; [exact Hnp|reflexivity].
    + intros r Hr. apply parseFile_exec_iff in Hr; [|exact Hnp]. subst. exact H.
Qed.

Lemma exec_F : forall np text, (0 < np)%nat -> parseFile_exec np text (Ok (parseFileF np text)).
Proof. intros. apply parseFile_exec_iff; [assumption|reflexivity]. Qed.

(** ** Round trip *)

Lemma map_is_rev : forall l, NoDup (map fst l) -> map_is (rev l ++ []) l.
Proof.
  intros l H. rewrite app_nil_r. intros a v. split; intros Hx.
  - apply lookup_In in Hx. apply in_rev, Hx.
  - apply lookup_NoDup; [rewrite map_rev; apply NoDup_rev, H|]. apply in_rev in Hx. exact Hx.
Qed.

Lemma upper_fold_In : forall rs u0 u, fold_left upper_step rs u0 = Some u -> u0 = Some u \/ In (IEla u) rs.
Proof.
  induction rs as [|r rs IH]; intros u0 u H; cbn [fold_left] in H; [auto|].
  apply IH in H. destruct H as [H|H]; [|right; right; exact H].
  destruct r; cbn [upper_step] in H; auto. right; left. congruence.
Qed.

Lemma nonzero_upper_last : forall rs, (forall u, In (IEla u) rs -> u <> 0%N) -> zero_upper_last rs.
Proof.
  intros rs H i j a1 b1 a2 b2 u _ _ Hi _ _. unfold upper in Hi. apply upper_fold_In in Hi.
  destruct Hi as [Hi|Hi]; [discriminate|]. exfalso. apply (H 0%N); [|reflexivity].
  rewrite <- (firstn_skipn i rs). apply in_or_app. left. exact Hi.
Qed.

Lemma ihex_round_trip : forall np t items, (0 < np)%nat -> Forall item_ok items ->
    zero_upper_last (items_recs items) -> NoDup (map fst (image (items_recs items))) ->
    always (parseFile_exec np (ifile t items))
      (fun r => exists m, r = Ok (m, None) /\ map_is m (image (items_recs items))).
Proof.
  intros np t items Hnp Hok Hz Hn. apply always_iff; [exact Hnp|].
  rewrite ihex_encoded by assumption. eexists. split.
  - f_equal. apply store_all_ok; [exact Hn|]. intros a _ [].
  - apply map_is_rev, Hn.
Qed.

Lemma store_all_clash : forall im, ~ NoDup (map fst im) ->
    exists m a v0 v pre post, store_all [] im = (m, Some (ECollision a v0 v))
      /\ im = pre ++ (a, v) :: post /\ In (a, v0) pre /\ map_is m pre.
Proof.
  intros im Hn. destruct (store_all_collision im []) as (pre & a & v & v0 & post & E & Hin & Es).
  - constructor.
  - rewrite app_nil_r. exact Hn.
  - assert (Hp : NoDup (map fst pre)).
    { apply store_all_none. destruct (store_all [] pre) as [m' [e|]] eqn:Ep; [|reflexivity].
      exfalso. rewrite E, store_all_app, Ep in Es. inversion Es; subst.
      destruct (ListDec.NoDup_dec N.eq_dec (map fst pre)) as [Hd|Hd].
      - rewrite store_all_ok in Ep; [discriminate|exact Hd|intros ? _ []].
      - destruct (store_all_collision pre []) as (p2 & a2 & v2 & v3 & q2 & E2 & _ & Es2);
          [constructor|rewrite app_nil_r; exact Hd|].
        rewrite Ep in Es2. apply (f_equal (fun x => List.length (fst x))) in Es2. cbn [fst] in Es2.
        rewrite !app_nil_r, !rev_length in Es2. rewrite E2, app_length in Es2. cbn in Es2. lia. }
    exists (rev pre ++ []), a, v0, v, pre, post. rewrite Es.
    split; [reflexivity|]. split; [exact E|]. split; [exact Hin|apply map_is_rev, Hp].
Qed.

Lemma ihex_collisions : forall np t items, (0 < np)%nat -> Forall item_ok items ->
    zero_upper_last (items_recs items) ->
    always (parseFile_exec np (ifile t items))
      (fun r => (NoDup (map fst (image (items_recs items))) -> exists m, r = Ok (m, None))
        /\ (~ NoDup (map fst (image (items_recs items))) ->
            exists m a v0 v pre post, r = Ok (m, Some (ECollision a v0 v))
              /\ image (items_recs items) = pre ++ (a, v) :: post /\ In (a, v0) pre /\ map_is m pre)).
Proof.
  intros np t items Hnp Hok Hz. apply always_iff; [exact Hnp|].
  rewrite ihex_encoded by assumption. split.
  - intros Hn. rewrite store_all_ok; [eauto|exact Hn|intros a _ []].
  - intros Hn. destruct (store_all_clash _ Hn) as (m & a & v0 & v & pre & post & E & H).
    rewrite E. exists m, a, v0, v, pre, post. split; [reflexivity|exact H].
Qed.

(** ** Blank lines and terminators *)

Lemma lineRec_filter : forall lines,
    flat_map lineRec lines = flat_map lineRec (filter (fun l => (11 <=? List.length l)%nat) lines).
Proof.
  induction lines as [|l lines IH]; [reflexivity|]. cbn [flat_map filter].
  unfold lineRec at 1. destruct (11 <=? List.length l)%nat eqn:E; [|exact IH].
  cbn [flat_map]. rewrite <- IH. unfold lineRec at 2. rewrite E. reflexivity.
Qed.

Lemma blank_lines : forall np t1 t2 lines1 lines2, (0 < np)%nat ->
    Forall no_eol lines1 -> Forall no_eol lines2 -> Forall fine_line lines1 -> Forall fine_line lines2 ->
    filter (fun l => (11 <=? List.length l)%nat) lines1 = filter (fun l => (11 <=? List.length l)%nat) lines2 ->
    forall r, parseFile_exec np (join (term_bytes t1) lines1) r <-> parseFile_exec np (join (term_bytes t2) lines2) r.
Proof.
  intros np t1 t2 lines1 lines2 Hnp E1 E2 F1 F2 Hf r. rewrite !parseFile_exec_iff by exact Hnp.
  assert (H : forall t lines, Forall no_eol lines -> Forall fine_line lines ->
            parseFileF np (join (term_bytes t) lines) =
            let R := flat_map lineRec (filter (fun l => (11 <=? List.length l)%nat) lines) in
            if forallb csum_ok R then store_all [] (flat_map entries (offsF np R)) else ([], Some EChecksum)).
  { intros t lines HE HF. cbv zeta. rewrite <- lineRec_filter. destruct lines as [|l lines].
    - cbn [join flat_map]. unfold parseFileF. rewrite splitLines_nil. unfold parseHexF.
      rewrite recsF_fine; [reflexivity|exact Hnp|]. constructor; [|constructor]. left. cbn; lia.
    - rewrite parseFile_join; [|discriminate|exact HE]. unfold parseHexF.
      rewrite recsF_fine; [reflexivity|exact Hnp|]. eapply Forall_impl; [|exact HF]. apply fine_line_fine. }
  rewrite (H t1 lines1), (H t2 lines2) by assumption. rewrite Hf. reflexivity.
Qed.

(** ** Checksums *)

Lemma checksum_bad : forall np lines, snd (parseHexF np lines) = Some EChecksum ->
    parseHexF np lines = ([], Some EChecksum).
Proof.
  intros np lines. unfold parseHexF. destruct (forallb csum_ok (recsF np lines)); [|reflexivity].
  intros H. exfalso. eapply store_all_not_checksum. exact H.
Qed.

Lemma checksum_error : forall np t lines, (0 < np)%nat -> lines <> [] -> Forall no_eol lines ->
    Forall fine_line lines -> Forall (fun l => (11 <= List.length l)%nat -> whole_bytes l) lines ->
    always (parseFile_exec np (join (term_bytes t) lines))
      (fun r => r = Ok ([], Some EChecksum) <->
                exists l, In l lines /\ (11 <= List.length l)%nat /\ ~ good_sum l).
Proof.
  intros np t lines Hnp Hne He Hf Hw. apply always_iff; [exact Hnp|].
  rewrite parseFile_join by assumption. pose proof (checksum_error_iff np lines Hnp Hf Hw) as H.
  rewrite Exists_exists in H. rewrite <- H. split.
  - intros E. assert (parseHexF np lines = ([], Some EChecksum)) as -> by congruence. reflexivity.
  - intros E. rewrite (checksum_bad _ _ E). reflexivity.
Qed.

Lemma hex_text_decode : forall tx bs, hex_text tx bs -> hex_decode tx = Some bs.
Proof.
  intros tx bs H. induction H as [|up v tx bs Hv H IH]; [reflexivity|].
  assert (E : hex_decode (hexs up [v]) = Some [v]) by (apply hex_decode_hexs; constructor; [exact Hv|constructor]).
  unfold hexs in E. cbn [flat_map] in E. unfold hex2 in E |- *. cbn [app] in E |- *. cbn [hex_decode] in E |- *.
  destruct (hex_any (digit up (v / 16))), (hex_any (digit up (v mod 16))); try discriminate E.
  rewrite IH. congruence.
Qed.

Lemma hex_text_app : forall t1 b1 t2 b2, hex_text t1 b1 -> hex_text t2 b2 -> hex_text (t1 ++ t2) (b1 ++ b2).
Proof.
  intros t1 b1 t2 b2 H1 H2. induction H1 as [|up v tx bs Hv H IH]; [exact H2|].
  rewrite <- app_assoc. cbn [app]. constructor; assumption.
Qed.

Lemma hex_text_hexs : forall up l, Forall (fun v => v < 256)%N l -> hex_text (hexs up l) l.
Proof.
  intros up l H. induction H as [|v l Hv H IH]; [constructor|]. unfold hexs. cbn [flat_map].
  constructor; assumption.
Qed.

Lemma corrupted_text : forall up up' l k v, Forall (fun v => v < 256)%N l -> (v < 256)%N ->
    hex_text (hexs up (firstn k l) ++ hex2 up' v ++ hexs up (skipn (S k) l)) (firstn k l ++ v :: skipn (S k) l).
Proof.
  intros up up' l k v Hl Hv. rewrite Forall_forall in Hl.
  apply hex_text_app; [apply hex_text_hexs|constructor; [exact Hv|apply hex_text_hexs]];
    apply Forall_forall; intros x Hx; apply Hl.
  - rewrite <- (firstn_skipn k l). apply in_or_app; left; exact Hx.
  - rewrite <- (firstn_skipn (S k) l). apply in_or_app; right; exact Hx.
Qed.

Lemma good_sum_text : forall tx bs, hex_text tx bs ->
    (good_sum (":"%char :: tx) <-> (nsum bs mod 256 = 0)%N).
Proof.
  intros tx bs H. split.
  - intros (tx' & bs' & E & H' & Hs). assert (tx' = tx) by congruence. subst tx'.
    apply hex_text_decode in H, H'. assert (bs' = bs) by congruence. subst. exact Hs.
  - intros Hs. exists tx, bs. auto.
Qed.

Lemma iline_good : forall x, ivalid (snd x) -> good_sum (iline x).
Proof.
  intros [up r] Hv. unfold iline, iline_of. cbn [fst snd] in *.
  apply (good_sum_text _ (ibytes r)); [apply hex_text_hexs, ibytes_byte, ivalid_form, Hv|apply icheck_sum].
Qed.

Lemma nsum_split : forall l k x, nth_error l k = Some x ->
    nsum l = (nsum (firstn k l) + x + nsum (skipn (S k) l))%N.
Proof.
  intros l k x H. rewrite (nth_split_eq _ _ H) at 1. rewrite nsum_app. cbn [nsum]. lia.
Qed.

Lemma corrupt_mod : forall s x v : N, (x < 256)%N -> (v < 256)%N -> x <> v ->
    ((s + x) mod 256 = 0)%N -> ((s + v) mod 256 <> 0)%N.
Proof.
  intros s x v Hx Hv Hne H1 H2. apply Hne.
  apply N.mod_divide in H1, H2; try lia. destruct H1 as [p Hp], H2 as [q Hq]. lia.
Qed.

Lemma corrupted_bad : forall up up' r k x v, ivalid r -> nth_error (ibytes r) k = Some x -> (v < 256)%N -> x <> v ->
    ~ good_sum (corrupted up up' (ibytes r) k v).
Proof.
  intros up up' r k x v Hr Hk Hv Hne. pose proof (ibytes_byte r (ivalid_form r Hr)) as Hb. unfold corrupted.
  rewrite (good_sum_text _ _ (corrupted_text up up' (ibytes r) k v Hb Hv)).
  rewrite nsum_app. cbn [nsum].
  assert (Hx : (x < 256)%N) by (rewrite Forall_forall in Hb; apply Hb; eapply nth_error_In, Hk).
  pose proof (icheck_sum (ibody r)) as H0. fold (ibytes r) in H0. rewrite (nsum_split _ _ _ Hk) in H0.
  replace (nsum (firstn k (ibytes r)) + (v + nsum (skipn (S k) (ibytes r))))%N
    with (nsum (firstn k (ibytes r)) + nsum (skipn (S k) (ibytes r)) + v)%N by lia.
  apply (corrupt_mod _ x); try assumption. rewrite <- H0. f_equal. lia.
Qed.

Lemma hex2_length : forall up v, List.length (hex2 up v) = 2%nat.
Proof. reflexivity. Qed.

Lemma corrupted_length : forall up up' l k v, (k < List.length l)%nat ->
    List.length (corrupted up up' l k v) = (1 + 2 * List.length l)%nat.
Proof.
  intros up up' l k v Hk. unfold corrupted. cbn [List.length]. rewrite !app_length, !hexs_length.
  rewrite hex2_length, firstn_length, skipn_length. lia.
Qed.

Lemma ibytes_length : forall r, List.length (ibytes r) = (5 + List.length (ipayload r))%nat.
Proof. intros r. unfold ibytes, ibody. rewrite !app_length. cbn [List.length]. lia. Qed.

(** type field of a corrupted line *)
Lemma corrupted_type : forall up up' r k v, (itype r < 256)%N -> (v < 256)%N -> (k < List.length (ibytes r))%nat ->
    line_type (corrupted up up' (ibytes r) k v) = b "04" ->
    (k <> 3%nat /\ itype r = 4%N) \/ (k = 3%nat /\ v = 4%N).
Proof.
  intros up up' r k v Ht Hv Hk H. unfold line_type in H.
  assert (Hinj : forall up0 x, (x < 256)%N -> hex2 up0 x = b "04" -> x = 4%N).
  { intros up0 x Hx E. assert (hex_decode (hexs up0 [x]) = Some [x]) by (apply hex_decode_hexs; constructor; [exact Hx|constructor]).
    unfold hexs in H0. cbn [flat_map] in H0. rewrite app_nil_r, E in H0. vm_compute in H0. congruence. }
  unfold corrupted in H. cbn [skipn] in H.
  destruct (Nat.eq_dec k 3) as [->|Hk3].
  - right. split; [reflexivity|]. apply (Hinj up' v Hv). exact H.
  - left. split; [exact Hk3|]. apply (Hinj up (itype r) Ht). rewrite <- H.
    unfold ibytes, ibody. destruct k as [|[|[|[|k]]]]; try lia; reflexivity.
Qed.

Lemma corrupted_fine : forall up up' r k v, ivalid r -> (v < 256)%N -> (k < List.length (ibytes r))%nat ->
    (ipayload r <> [] \/ k <> 3%nat \/ v <> 4%N) ->
    record_line (corrupted up up' (ibytes r) k v) /\ whole_bytes (corrupted up up' (ibytes r) k v).
Proof.
  intros up up' r k v Hr Hv Hk Hc. unfold record_line, whole_bytes. rewrite corrupted_length by exact Hk.
  rewrite ibytes_length. split; [split; [reflexivity|split; [lia|]]|].
  - intros H. destruct (ipayload r) as [|p ps] eqn:Ep; [|cbn [List.length]; lia]. exfalso.
    apply corrupted_type in H; [|apply Hr|exact Hv|exact Hk].
    destruct H as [[H1 H2]|[H1 H2]].
    + destruct r as [a bs|u|t a bs]; cbn [itype] in H2; try discriminate.
      destruct Hr as (_ & _ & _ & _ & _ & Hr). congruence.
    + destruct Hc as [Hc|[Hc|Hc]]; congruence.
  - exists (5 + List.length (ipayload r)). lia.
Qed.

Lemma iline_fine : forall x, ivalid (snd x) -> record_line (iline x) /\ whole_bytes (iline x).
Proof.
  intros [up r] Hv. cbn [snd] in Hv.
  split; [eapply parse_record_line, parseLine_rec, ivalid_form, Hv|].
  unfold whole_bytes, iline, iline_of. cbn [fst snd List.length]. rewrite hexs_length.
  exists (List.length (ibytes r)). lia.
Qed.

Lemma item_fine : forall x, item_ok x -> fine_line (item_line x)
    /\ ((11 <= List.length (item_line x))%nat -> whole_bytes (item_line x)).
Proof.
  intros [up r|l] H; cbn [item_line item_ok] in *.
  - destruct (iline_fine (up, r) H) as [H1 H2]. split; [right; exact H1|intros _; exact H2].
  - split; [left; apply H|]. intros Hl. lia.
Qed.

Lemma corrupted_no_eol : forall up up' l k v, Forall (fun v => v < 256)%N l -> (v < 256)%N ->
    no_eol (corrupted up up' l k v).
Proof.
  intros up up' l k v Hl Hv. unfold corrupted.
  assert (H : forall up l, Forall (fun v => v < 256)%N l -> no_eol (hexs up l)) by (intros; apply hexs_no_eol; assumption).
  assert (Hf : Forall (fun v => v < 256)%N (firstn k l)).
  { rewrite Forall_forall in *. intros x Hx. apply Hl. rewrite <- (firstn_skipn k l). apply in_or_app; auto. }
  assert (Hs : Forall (fun v => v < 256)%N (skipn (S k) l)).
  { rewrite Forall_forall in *. intros x Hx. apply Hl. rewrite <- (firstn_skipn (S k) l). apply in_or_app; auto. }
  destruct (H up _ Hf) as [F1 F2], (H up _ Hs) as [S1 S2].
  destruct (H up' [v]) as [V1 V2]; [constructor; [exact Hv|constructor]|].
  unfold hexs in V1, V2. cbn [flat_map] in V1, V2. rewrite app_nil_r in V1, V2.
  split; intros [Hx|Hx]; try discriminate Hx; rewrite !in_app_iff in Hx; tauto.
Qed.

Lemma corruption_detected : forall np t before up r after k x v up', (0 < np)%nat ->
    Forall item_ok before -> ivalid r -> Forall item_ok after ->
    nth_error (ibytes r) k = Some x -> (v < 256)%N -> v <> x ->
    (ipayload r <> [] \/ k <> 3%nat \/ v <> 4%N) ->
    always (parseFile_exec np (join (term_bytes t)
              (map item_line before ++ corrupted up up' (ibytes r) k v :: map item_line after)))
      (fun res => res = Ok ([], Some EChecksum)).
Proof.
  intros np t before up r after k x v up' Hnp Hb Hr Ha Hk Hv Hne Hc.
  assert (Hlt : (k < List.length (ibytes r))%nat) by (eapply nth_error_lt, Hk).
  destruct (corrupted_fine up up' r k v Hr Hv Hlt Hc) as [Cr Cw].
  set (lines := _ ++ _).
  assert (Hbi : forall items, Forall item_ok items -> Forall (fun l => no_eol l /\ fine_line l
            /\ ((11 <= List.length l)%nat -> whole_bytes l)) (map item_line items)).
  { intros items Hi. apply Forall_map. eapply Forall_impl; [|exact Hi]. intros i Hi'.
    split; [apply item_no_eol, item_ok_form1, Hi'|apply item_fine, Hi']. }
  assert (HF : Forall (fun l => no_eol l /\ fine_line l /\ ((11 <= List.length l)%nat -> whole_bytes l)) lines).
  { apply Forall_app. split; [apply Hbi, Hb|]. constructor; [|apply Hbi, Ha].
    split; [apply corrupted_no_eol; [apply ibytes_byte, ivalid_form, Hr|exact Hv]|]. split; [right; exact Cr|intros _; exact Cw]. }
  assert (HE := checksum_error np t lines Hnp).
  destruct HE as [H1 H2].
  - unfold lines. destruct (map item_line before); discriminate.
  - eapply Forall_impl; [|exact HF]. tauto.
  - eapply Forall_impl; [|exact HF]. tauto.
  - eapply Forall_impl; [|exact HF]. tauto.
  - split; [exact H1|]. intros res Hres. apply (H2 res Hres).
    exists (corrupted up up' (ibytes r) k v). split; [unfold lines; apply in_or_app; right; left; reflexivity|].
    split; [apply Cr|]. apply (corrupted_bad up up' r k x v); auto.
Qed.

(** ** A damaged line *)

Lemma chunks_one : forall A (l : list A), chunks 1 l = [l].
Proof.
  intros A l. pose proof (@concat_chunks A 1 l ltac:(lia)) as H. revert H.
  unfold chunks. cbn [seq map concat]. rewrite app_nil_r. intros ->. reflexivity.
Qed.

Lemma damaged_line : forall t before bad after,
    before <> [] -> Forall no_eol (before ++ bad :: after) ->
    (11 <= List.length bad)%nat -> ~ record_line bad ->
    forall r, parseFile_exec 1 (join (term_bytes t) (before ++ bad :: after)) r
      <-> parseFile_exec 1 (join (term_bytes t) before) r.
Proof.
  intros t before bad after Hne He Hl Hb r. rewrite !parseFile_exec_iff by lia.
  rewrite !parseFile_join; [|exact Hne|apply Forall_app in He; apply He|destruct before; discriminate|exact He].
  assert (E : parseRecs (before ++ bad :: after) = parseRecs before).
  { clear He Hne. induction before as [|l before IH]; cbn [app parseRecs].
    - destruct (11 <=? List.length bad)%nat eqn:El; [|apply Nat.leb_gt in El; lia].
      destruct (parseLine bad) as [x|] eqn:Ep; [|reflexivity].
      exfalso. apply Hb. eapply parse_record_line, Ep.
    - rewrite IH. reflexivity. }
  unfold parseHexF, recsF. rewrite !chunks_one. cbn [flat_map]. rewrite !app_nil_r, E. reflexivity.
Qed.

(** ** Termination *)

Lemma acc_measure : forall S (step : S -> S -> Prop) (P : S -> Prop) (m : S -> nat),
    (forall s s', P s -> step s s' -> P s' /\ (m s' < m s)%nat) ->
    forall s, P s -> Acc (fun s' s => step s s') s.
Proof.
  intros S step P m H. assert (G : forall n s, (m s < n)%nat -> P s -> Acc (fun s' s => step s s') s).
  { induction n as [|n IH]; intros s Hn Hp; [lia|]. constructor. intros s' Hs.
    destruct (H s s' Hp Hs) as [Hp' Hm]. apply IH; [lia|exact Hp']. }
  intros s. apply (G (Datatypes.S (m s))). lia.
Qed.

Lemma reach_csteps : forall M A (ab : A -> M -> A * bool) cap s s',
    reach (cstep ab cap) s s' -> csteps ab cap s s'.
Proof. intros M A ab cap s s' H. induction H; [constructor|econstructor; eassumption]. Qed.

Lemma collector_completes : forall M A (ab : A -> M -> A * bool) cap msgs a0, (0 < cap)%nat ->
    completes (cstep ab cap) (fun s => c_done s = true) (cinit msgs a0).
Proof.
  intros M A ab cap msgs a0 Hc. split.
  - intros s Hs. apply reach_csteps in Hs. pose proof (inv_steps (inv_init ab msgs a0) Hs) as Hi.
    destruct (c_done s) eqn:E; [left; reflexivity|right]. eapply cstep_progress; eassumption.
  - apply (acc_measure _ _ (fun _ => True) (@measure M A)); [|exact I].
    intros s s' _ Hs. split; [exact I|]. eapply cstep_decreases, Hs.
Qed.

Lemma p2steps_snoc : forall np s s1 s2, p2steps np s s1 -> p2step np s1 s2 -> p2steps np s s2.
Proof.
  intros np s s1 s2 H1 H2. induction H1; econstructor; try eassumption; [constructor|].
  apply IHp2steps, H2.
Qed.

Lemma reach_p2steps : forall np s s', reach (p2step np) s s' -> p2steps np s s'.
Proof. intros np s s' H. induction H; [constructor|econstructor; eassumption]. Qed.

Definition p2done (s : p2) : Prop := (exists r, p_main s = MRet r)
  /\ Forall (fun w => ow_done w = true) (p_off s) /\ Forall (fun c => c = CsDone) (p_cs s).

Lemma p2_completes : forall np R, (0 < np)%nat -> fresh R -> Forall (fun r => validateChecksum r <> Panic) R ->
    completes (p2step np) p2done (p2init np R).
Proof.
  intros np R Hnp Hf Hp. split.
  - intros s Hs. apply reach_p2steps in Hs.
    destruct (p2_terminates Hnp Hf Hp Hs) as (_ & _ & [H|H]); [left; exact H|right; exact H].
  - apply (acc_measure _ _ (fun s => p2steps np (p2init np R) s) p2meas); [|constructor].
    intros s s' H1 H2. split; [eapply p2steps_snoc; eassumption|].
    apply (p2_terminates Hnp Hf Hp H1). exact H2.
Qed.

Lemma ihex_completes : forall np text, (0 < np)%nat ->
    (exists m e, always (parseFile_exec np text) (fun r => r = Ok (m, e)))
    /\ exists ms, parse_msgs np (splitLines text) = Ok ms
       /\ completes (cstep absorb_recs (List.length (splitLines text))) (fun s => c_done s = true) (cinit ms [])
       /\ forall recs, crun absorb_recs (List.length (splitLines text)) ms [] recs ->
            completes (p2step np) p2done (p2init np recs)
            /\ forall recs', p2run np recs (P2Good recs') ->
                 exists dms, data_msgs np recs' = Ok dms
                   /\ completes (cstep absorb_data 1) (fun s => c_done s = true) (cinit dms ([], None)).
Proof.
  intros np text Hnp. split.
  - destruct (parseFileF np text) as [m e] eqn:E. exists m, e. apply always_iff; [exact Hnp|]. rewrite E. reflexivity.
  - set (lines := splitLines text). assert (Hl : lines <> []) by apply splitLines_nonempty.
    eexists. split; [apply parse_msgs_ok|]. split.
    + apply collector_completes. destruct lines; [congruence|cbn; lia].
    + intros recs Hr. apply recs_collected in Hr; [|exact Hl]. subst recs.
      pose proof (@recsF_fresh np lines) as Hf. pose proof (@recsF_nopanic np lines) as Hp. split.
      * apply p2_completes; assumption.
      * intros recs' Hr. apply (p2run_result Hnp Hf Hp) in Hr.
        destruct (forallb csum_ok (recsF np lines)); [|discriminate].
        assert (Hw : Forall wf_rec recs').
        { inversion Hr; subst. eapply final_wf; [exact Hf| |apply offsF_final; assumption].
          eapply Forall_impl; [|apply recsF_wf]. intros r [H _]. exact H. }
        destruct (@data_msgs_ok np recs' Hnp Hw) as (dms & Hd & _).
        exists dms. split; [exact Hd|]. apply collector_completes. lia.
Qed.

(** ** Deciding the hypotheses, for the examples *)

Definition ivalidb (r : irec) : bool :=
  ((iaddr r <? 65536) && (itype r <? 256) && forallb (fun v => v <? 256) (ipayload r))%N
  && (List.length (ipayload r) <=? 255)%nat
  && match r with
     | IData a bs => (a + N.of_nat (List.length bs) <=? 65536)%N
     | IEla u => (u <? 65536)%N
     | IOther t _ _ => negb (t =? 0)%N && negb (t =? 4)%N
     end.
Definition no_eolb (l : bytes) : bool := forallb (fun c => negb (Ascii.eqb c CR) && negb (Ascii.eqb c LF)) l.
Definition item_okb (x : iitem) : bool :=
  match x with IRec _ r => ivalidb r | IBlank l => (List.length l <? 11)%nat && no_eolb l end.

Lemma no_eolb_ok : forall l, no_eolb l = true -> no_eol l.
Proof.
  intros l H. unfold no_eolb in H. rewrite forallb_forall in H.
  split; intros Hc; apply H in Hc; vm_compute in Hc; discriminate.
Qed.
Lemma no_eolb_all : forall ls, forallb no_eolb ls = true -> Forall no_eol ls.
Proof. intros ls H. rewrite forallb_forall in H. apply Forall_forall. intros l Hl. apply no_eolb_ok, H, Hl. Qed.

Lemma ivalidb_ok : forall r, ivalidb r = true -> ivalid r.
Proof.
  intros r H. unfold ivalidb in H. rewrite !andb_true_iff in H. destruct H as [[[[H1 H2] H3] H4] H5].
  unfold ivalid. split; [apply N.ltb_lt, H1|]. split; [apply N.ltb_lt, H2|].
  split; [rewrite forallb_forall in H3; apply Forall_forall; intros v Hv; apply N.ltb_lt, H3, Hv|].
  split; [apply Nat.leb_le, H4|]. destruct r as [a bs|u|t a bs].
  - apply N.leb_le, H5.
  - apply N.ltb_lt, H5.
  - rewrite andb_true_iff, !negb_true_iff in H5. destruct H5 as [A B].
    apply N.eqb_neq in A, B. auto.
Qed.

Lemma items_okb_ok : forall l, forallb item_okb l = true -> Forall item_ok l.
Proof.
  intros l H. rewrite forallb_forall in H. apply Forall_forall. intros x Hx. apply H in Hx.
  destruct x as [up r|s]; cbn [item_okb item_ok] in *; [apply ivalidb_ok, Hx|].
  apply andb_true_iff in Hx. destruct Hx as [A B]. split; [apply Nat.ltb_lt, A|apply no_eolb_ok, B].
Qed.

Fixpoint nodupb (l : list N) : bool :=
  match l with [] => true | x :: l' => negb (existsb (N.eqb x) l') && nodupb l' end.
Lemma nodupb_ok : forall l, nodupb l = true -> NoDup l.
Proof.
  induction l as [|x l IH]; intros H; [constructor|]. cbn [nodupb] in H.
  apply andb_true_iff in H. destruct H as [H1 H2]. constructor; [|apply IH, H2].
  intros Hx. apply negb_true_iff in H1. assert (existsb (N.eqb x) l = true); [|congruence].
  apply existsb_exists. exists x. split; [exact Hx|apply N.eqb_refl].
Qed.

Lemma record_lineb_ok : forall l, record_lineb l = true <-> record_line l.
Proof.
  intros l. unfold record_lineb, record_line. rewrite !andb_true_iff, orb_true_iff, negb_true_iff, !Nat.leb_le.
  assert (E : (match l with c :: _ => Ascii.eqb c ":"%char | [] => false end) = true <-> hd_error l = Some ":"%char).
  { destruct l as [|c l]; cbn; [split; discriminate|]. rewrite Ascii.eqb_eq. split; congruence. }
  rewrite E. destruct (beqb (line_type l) (b "04")) eqn:Eb.
  - apply beqb_eq in Eb. split.
    + intros [[H1 H2] [H3|H3]]; [discriminate|]. auto.
    + intros (H1 & H2 & H3). auto.
  - split; [|tauto]. intros [[H1 H2] _]. repeat split; auto.
    intros F. apply beqb_eq in F. congruence.
Qed.
Lemma fine_linesb_ok : forall ls, forallb fine_lineb ls = true -> Forall fine_line ls.
Proof.
  intros ls H. rewrite forallb_forall in H. apply Forall_forall. intros l Hl. apply H in Hl.
  apply orb_true_iff in Hl. destruct Hl as [Hl|Hl]; [left; apply Nat.ltb_lt, Hl|right; apply record_lineb_ok, Hl].
Qed.
Lemma wholeb_ok : forall ls, forallb (fun l => Nat.odd (List.length l) || (List.length l <? 11)%nat) ls = true ->
    Forall (fun l => (11 <= List.length l)%nat -> whole_bytes l) ls.
Proof.
  intros ls H. rewrite forallb_forall in H. apply Forall_forall. intros l Hl Hn. apply H in Hl.
  apply orb_true_iff in Hl. destruct Hl as [Hl|Hl]; [apply Nat.odd_spec, Hl|apply Nat.ltb_lt in Hl; lia].
Qed.

(** A run with a computed result. *)
Lemma run_is : forall np text res, (0 <? np)%nat = true -> parseFileF np text = res ->
    always (parseFile_exec np text) (fun r => r = Ok res).
Proof. intros np text res Hnp E. apply Nat.ltb_lt in Hnp. apply always_iff; [exact Hnp|]. rewrite E. reflexivity. Qed.

(** ** Further statements *)

Lemma schedule_independent : forall np text, (0 < np)%nat ->
    exists r0, always (parseFile_exec np text) (fun r => r = r0).
Proof. intros np text Hnp. eexists. apply always_iff; [exact Hnp|reflexivity]. Qed.

Lemma cpu_independent_runs : forall np1 np2 t lines, (0 < np1)%nat -> (0 < np2)%nat ->
    lines <> [] -> Forall no_eol lines -> Forall fine_line lines -> (forall l, In l lines -> ~ zero_ela l) ->
    forall r, parseFile_exec np1 (join (term_bytes t) lines) r <-> parseFile_exec np2 (join (term_bytes t) lines) r.
Proof.
  intros np1 np2 t lines H1 H2 Hne He Hf Hz r. rewrite !parseFile_exec_iff by assumption.
  rewrite !parseFile_join by assumption. rewrite (cpu_independent np1 np2) by assumption. reflexivity.
Qed.

Lemma map_sound_runs : forall np text, (0 < np)%nat ->
    always (parseFile_exec np text) (fun r => exists m e, r = Ok (m, e) /\
      forall a v, lookup a m = Some v ->
        exists l addr i, data_byte l addr i v /\ (a mod 65536 = (addr + N.of_nat i) mod 65536)%N
          /\ ( ((a / 65536 = 0)%N /\ exists p q, text = p ++ l ++ q)
             \/ (exists l4 p q r, ela_line l4 (a / 65536) /\ text = p ++ l4 ++ q ++ l ++ r) )).
Proof.
  intros np text Hnp. apply always_iff; [exact Hnp|].
  exists (fst (parseFileF np text)), (snd (parseFileF np text)). split; [rewrite <- surjective_pairing; reflexivity|].
  intros a v H. apply (map_sound np); assumption.
Qed.

Lemma image_from_filter : forall items u,
    image_from u (items_recs (filter is_data_or_ela items)) = image_from u (items_recs items).
Proof.
  induction items as [|x items IH]; intros u; [reflexivity|].
  destruct x as [up [a bs|u'|t a bs]|l]; cbn [filter is_data_or_ela items_recs image_from];
    rewrite ?IH; reflexivity.
Qed.

(** The condition in terms of what is still to come, given whether data under
    0000 has been seen. *)
Fixpoint zul (seen : bool) (u : option N) (rs : list irec) : Prop :=
  match rs with
  | [] => True
  | IData _ _ :: rs' =>
      (seen = true -> match u with Some x => x = 0%N | None => True end)
      /\ zul (seen || match u with Some x => (x =? 0)%N | None => false end) u rs'
  | IEla u' :: rs' => zul seen (Some u') rs'
  | IOther _ _ _ :: rs' => zul seen u rs'
  end.

Lemma zul_spec : forall rs seen u0, zul seen u0 rs <->
    ((seen = true -> forall j a bs u, nth_error rs j = Some (IData a bs) ->
        fold_left upper_step (firstn j rs) u0 = Some u -> u = 0%N)
     /\ (forall i j a1 b1 a2 b2 u, (i < j)%nat -> nth_error rs i = Some (IData a1 b1) ->
          fold_left upper_step (firstn i rs) u0 = Some 0%N ->
          nth_error rs j = Some (IData a2 b2) -> fold_left upper_step (firstn j rs) u0 = Some u -> u = 0%N)).
Proof.
  induction rs as [|r rs IH]; intros seen u0.
  - split; [intros _|intros _; exact I]. split; intros; destruct j; discriminate.
  - assert (Hskip : forall u1, upper_step u0 r = u1 -> (forall a bs, r <> IData a bs) ->
        (((seen = true -> forall j a bs u, nth_error (r :: rs) j = Some (IData a bs) ->
        fold_left upper_step (firstn j (r :: rs)) u0 = Some u -> u = 0%N)
     /\ (forall i j a1 b1 a2 b2 u, (i < j)%nat -> nth_error (r :: rs) i = Some (IData a1 b1) ->
          fold_left upper_step (firstn i (r :: rs)) u0 = Some 0%N ->
          nth_error (r :: rs) j = Some (IData a2 b2) -> fold_left upper_step (firstn j (r :: rs)) u0 = Some u -> u = 0%N))
        <-> zul seen u1 rs)).
    { intros u1 E Hnd. rewrite IH. split.
      - intros [H1 H2]. split.
        + intros Hs j a bs u Hj Hu. apply (H1 Hs (S j) a bs u Hj). cbn [firstn fold_left]. rewrite E. exact Hu.
        + intros i j a1 b1 a2 b2 u Hij Hi Hui Hj Huj.
          apply (H2 (S i) (S j) a1 b1 a2 b2 u ltac:(lia) Hi); cbn [firstn fold_left nth_error]; rewrite ?E; assumption.
      - intros [H1 H2]. split.
        + intros Hs [|j] a bs u Hj Hu; [cbn in Hj; exfalso; apply (Hnd a bs); congruence|].
          cbn [firstn fold_left] in Hu. rewrite E in Hu. apply (H1 Hs j a bs u Hj Hu).
        + intros [|i] [|j] a1 b1 a2 b2 u Hij Hi Hui Hj Huj; try lia.
          * cbn in Hi. exfalso; apply (Hnd a1 b1); congruence.
          * cbn [firstn fold_left] in Hui, Huj. rewrite E in Hui, Huj.
            apply (H2 i j a1 b1 a2 b2 u ltac:(lia) Hi Hui Hj Huj). }
    destruct r as [a bs|u'|t a bs].
    + cbn [zul]. rewrite IH. split.
      * intros [Hh [H1 H2]]. split.
        -- intros Hs [|j] a' bs' u Hj Hu.
           ++ cbn in Hu. specialize (Hh Hs). rewrite Hu in Hh. exact Hh.
           ++ cbn [firstn fold_left upper_step] in Hu. apply (H1 ltac:(rewrite Hs; reflexivity) j a' bs' u Hj Hu).
        -- intros [|i] [|j] a1 b1 a2 b2 u Hij Hi Hui Hj Huj; try lia.
           ++ cbn [firstn fold_left upper_step] in Hui, Huj. apply (H1 ltac:(rewrite Hui; apply orb_true_r) j a2 b2 u Hj Huj).
           ++ cbn [firstn fold_left upper_step] in Hui, Huj. apply (H2 i j a1 b1 a2 b2 u ltac:(lia) Hi Hui Hj Huj).
      * intros [H1 H2]. split; [|split].
        -- intros Hs. destruct u0 as [x|]; [|exact I]. apply (H1 Hs 0%nat a bs x); reflexivity.
        -- intros Hs j a' bs' u Hj Hu. apply orb_true_iff in Hs. destruct Hs as [Hs|Hs].
           ++ apply (H1 Hs (S j) a' bs' u Hj Hu).
           ++ destruct u0 as [x|]; [|discriminate]. apply N.eqb_eq in Hs. subst x.
              apply (H2 0%nat (S j) a bs a' bs' u ltac:(lia)); auto.
        -- intros i j a1 b1 a2 b2 u Hij Hi Hui Hj Huj.
           apply (H2 (S i) (S j) a1 b1 a2 b2 u ltac:(lia)); auto.
    + cbn [zul]. symmetry. apply Hskip; [reflexivity|discriminate].
    + cbn [zul]. symmetry. apply Hskip; [reflexivity|discriminate].
Qed.

Lemma zul_iff : forall rs, zero_upper_last rs <-> zul false None rs.
Proof.
  intros rs. rewrite zul_spec. unfold zero_upper_last, upper. split.
  - intros H. split; [discriminate|exact H].
  - intros [_ H]. exact H.
Qed.

Lemma zul_filter : forall items seen u, zul seen u (items_recs (filter is_data_or_ela items)) <-> zul seen u (items_recs items).
Proof.
  induction items as [|x items IH]; intros seen u; [reflexivity|].
  destruct x as [up [a bs|u'|t a bs]|l]; cbn [filter is_data_or_ela items_recs zul]; rewrite ?IH; reflexivity.
Qed.

Lemma other_types_ignored : forall np t items, (0 < np)%nat -> Forall item_ok items ->
    zero_upper_last (items_recs items) ->
    forall r, parseFile_exec np (ifile t items) r <-> parseFile_exec np (ifile t (filter is_data_or_ela items)) r.
Proof.
  intros np t items Hnp Hok Hz r. rewrite !parseFile_exec_iff by exact Hnp.
  rewrite !ihex_encoded; try assumption.
  - unfold image. rewrite image_from_filter. reflexivity.
  - rewrite Forall_forall in *. intros x Hx. apply filter_In in Hx. apply Hok, Hx.
  - apply zul_iff, zul_filter, zul_iff, Hz.
Qed.
