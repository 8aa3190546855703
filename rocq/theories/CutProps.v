(** C100: a hex file that breaks off. *)
From Coq Require Import String Ascii List Arith NArith Bool Lia.
From Verif Require Import GoBase GoBaseFacts GoStrings ConcModel HexSpec HexSpecFacts HexParts IhexSpec IhexModel IhexOffsets IhexPhase2 IhexProofs IhexEnc IhexMain IhexLines
  IhexThm IhexRead AnySpec IhexAny.
Import ListNotations.

(** ** Where a text of lines breaks off *)

(** The last line is a part of a line, or a whole line with the first half of CR LF. *)
Definition partOf (t : term) (l p : bytes) : Prop := (exists j, p = firstn j l) \/ t = Dos /\ p = l ++ [CR].

Lemma cut_join : forall t lines n, lines <> [] ->
    exists whl l rest p, lines = whl ++ l :: rest /\ partOf t l p /\ firstn n (join (term_bytes t) lines) = join (term_bytes t) (whl ++ [p]).
Proof.
  intros t. induction lines as [|l lines IH]; intros n NE; [congruence|]. destruct lines as [|l2 lines].
  - exists [], l, [], (firstn n l). split; [reflexivity|]. split; [left; eauto|reflexivity].
  - assert (J : forall x, join (term_bytes t) (l :: x) = match x with [] => l | _ => l ++ term_bytes t ++ join (term_bytes t) x end) by (intros [|]; reflexivity).
    rewrite J. rewrite firstn_app. destruct (Nat.le_gt_cases n (List.length l)) as [L|L].
    + exists [], l, (l2 :: lines), (firstn n l). split; [reflexivity|]. split; [left; eauto|]. replace (n - List.length l) with 0 by lia. rewrite app_nil_r. reflexivity.
    + rewrite firstn_all2 by lia. rewrite firstn_app.
      destruct (Nat.le_gt_cases (List.length (term_bytes t)) (n - List.length l)) as [L2|L2].
      * rewrite (firstn_all2 (term_bytes t)) by exact L2. destruct (IH (n - List.length l - List.length (term_bytes t)) ltac:(discriminate)) as (whl & l' & rest & p & E & P & F).
        exists (l :: whl), l', rest, p. split; [rewrite E; reflexivity|]. split; [exact P|]. rewrite F. destruct whl; reflexivity.
      * replace (n - List.length l - List.length (term_bytes t)) with 0 by lia. cbn [firstn]. rewrite app_nil_r.
        destruct t; cbn [term_bytes List.length] in *.
        -- replace (n - List.length l) with 1 by lia. exists [], l, (l2 :: lines), (l ++ [CR]). split; [reflexivity|]. split; [right; auto|reflexivity].
        -- lia.
Qed.

Lemma firstn_in : forall A j (l : list A) x, In x (firstn j l) -> In x l.
Proof. intros A j l x H. rewrite <- (firstn_skipn j l). apply in_or_app. left. exact H. Qed.

(** These are then its lines. *)
Lemma cut_lines : forall t whl l p, Forall no_eol whl -> no_eol l -> partOf t l p -> lines_of (join (term_bytes t) (whl ++ [p])) (whl ++ [p]).
Proof.
  intros t whl l p W L P.
  assert (NLF : Forall (fun x => ~ In LF x) (whl ++ [p])).
  { apply Forall_app. split; [eapply Forall_impl; [|exact W]; intros x [_ H]; exact H|]. constructor; [|constructor]. destruct L as [_ L].
    destruct P as [(j & ->)|(_ & ->)]; [intros I; apply L; eapply firstn_in, I|]. intros I. apply in_app_or in I. destruct I as [I|[I|[]]]; [contradiction|discriminate I]. }
  assert (NC : Forall (fun x => ~ contains x [CR; LF]) (whl ++ [p])).
  { eapply Forall_impl; [|exact NLF]. intros x N (a & c & ->). apply N. apply in_or_app. right. right. left. reflexivity. }
  split; [destruct whl; discriminate|]. destruct t; cbn [term_bytes] in *.
  - destruct whl as [|x whl].
    + right. cbn [app join] in *. inversion NC; inversion NLF; subst. split; [assumption|]. split; [reflexivity|exact NLF].
    + left. split; [|split; [reflexivity|exact NC]]. cbn [app]. destruct (whl ++ [p]) as [|y r] eqn:E; [destruct whl; discriminate|]. cbn [join]. exists x, (join [CR; LF] (y :: r)). reflexivity.
  - right. split; [|split; [reflexivity|exact NLF]]. intros (a & c & E).
    assert (I : In CR (join [LF] (whl ++ [p]))) by (rewrite E; apply in_or_app; right; left; reflexivity).
    apply join_In in I. destruct I as [[I|[]]|(y & I & IY)]; [discriminate I|]. apply in_app_or in I. destruct I as [I|[<-|[]]].
    + rewrite Forall_forall in W. destruct (W y I) as [H _]. contradiction.
    + destruct P as [(j & ->)|(D & _)]; [|discriminate D]. apply firstn_in in IY. destruct L as [L _]. contradiction.
Qed.

(** ** Only the last line may be unacceptable *)
Lemma until_bad_last : forall ok L p, Forall (fun x => ok x = true) L -> until_bad ok (L ++ [p]) = L ++ (if ok p then [p] else []).
Proof. intros ok L p H. induction H as [|x L E H IH]; cbn; [destruct (ok p); reflexivity|]. rewrite E, IH. reflexivity. Qed.
Lemma kept_last : forall ok np L p, 0 < np -> Forall (fun x => ok x = true) L -> kept ok np (L ++ [p]) = L ++ (if ok p then [p] else []).
Proof.
  intros ok np L p Hnp H. rewrite kept_chunks. pose proof (@concat_chunks _ np (L ++ [p]) Hnp) as C. revert C. generalize (chunks np (L ++ [p])). intros cs. revert L H.
  induction cs as [|c cs IH]; intros L' H C; cbn [concat flat_map] in *; [destruct L'; discriminate C|].
  destruct (concat cs) as [|z zs] eqn:E.
  - rewrite app_nil_r in C. subst c. rewrite until_bad_last by exact H.
    assert (Z : flat_map (until_bad ok) cs = []).
    { clear - E. induction cs as [|c cs IH]; [reflexivity|]. cbn [concat flat_map] in *. apply app_eq_nil in E. destruct E as [-> E]. rewrite (IH E). reflexivity. }
    rewrite Z, app_nil_r. reflexivity.
  - assert (SP : exists L2, L' = c ++ L2 /\ z :: zs = L2 ++ [p]).
    { destruct (exists_last (l := z :: zs) ltac:(discriminate)) as (L2 & q & Q). exists L2. rewrite Q in C |- *. rewrite app_assoc in C. apply app_inj_tail in C. destruct C as [C ->]. auto. }
    destruct SP as (L2 & -> & Q). apply Forall_app in H. destruct H as [H1 H2]. rewrite until_bad_all by exact H1. rewrite <- app_assoc. f_equal. apply IH; [exact H2|]. exact Q.
Qed.

(** ** Intel HEX *)

Lemma hex_text_part : forall tx bs, hex_text tx bs -> forall k, hex_text (firstn (2 * k) tx) (firstn k bs).
Proof.
  intros tx bs H. induction H as [|up v tx bs V H IH]; intros k; [rewrite !firstn_nil; constructor|].
  destruct k as [|k]; [constructor|]. replace (2 * S k) with (S (S (2 * k))) by lia. unfold hex2. cbn [app firstn]. apply (HTcons up v _ _ V), IH.
Qed.
Lemma hex_text_fun : forall tx b1 b2, hex_text tx b1 -> hex_text tx b2 -> b1 = b2.
Proof. intros tx b1 b2 H1 H2. apply hex_text_decode in H1, H2. congruence. Qed.
Lemma firstn_hexs : forall up k l, firstn (2 * k) (hexs up l) = hexs up (firstn k l).
Proof.
  induction k as [|k IH]; intros l; [reflexivity|]. destruct l as [|v l]; [reflexivity|]. replace (2 * S k) with (S (S (2 * k))) by lia. cbn [hexs flat_map hex2 app firstn]. do 2 f_equal. apply IH.
Qed.

Lemma ibytes_body : forall r, ivalid r -> Forall (fun v => v < 256)%N (ibytes r).
Proof.
  intros r (A & T & P & Ln & _). unfold ibytes, ibody. repeat (apply Forall_app; split).
  - repeat constructor; [lia| | |exact T]; [apply N.div_lt_upper_bound; lia|apply N.mod_lt; lia].
  - exact P.
  - repeat constructor. apply N.mod_lt. lia.
Qed.

(** The bytes on a part of a record line: some of the record, the last one is
    arbitrary. *)
Lemma cut_bytes : forall r up p j bs, p = firstn j (iline (up, r)) -> 11 <= List.length p -> ivalid r -> says p bs ->
    exists k x, k <= List.length (ipayload r) /\ bs = [N.of_nat (List.length (ipayload r)); iaddr r / 256; iaddr r mod 256; itype r]%N ++ firstn k (ipayload r) ++ [x].
Proof.
  intros r up p j bs E L V (tx & W & H). set (hd := [N.of_nat (List.length (ipayload r)); iaddr r / 256; iaddr r mod 256; itype r]%N).
  assert (B : ibytes r = (hd ++ ipayload r) ++ [icheck (ibody r)]) by reflexivity.
  assert (Lb : List.length (ibytes r) = List.length (ipayload r) + 5) by (rewrite B, !app_length; cbn; lia).
  assert (Lp : List.length (iline (up, r)) = 2 * List.length (ibytes r) + 1) by (unfold iline, iline_of; cbn [fst snd List.length]; rewrite hexs_length; lia).
  (* the first k bytes of the line *)
  assert (K : exists k, k + 1 <= List.length (ibytes r) /\ List.length bs = k + 1 /\ 4 <= k /\ firstn (2 * k) tx = hexs up (firstn k (ibytes r))).
  { pose proof (hex_text_len _ _ H) as Lt. assert (LW : List.length (whole p) = 2 * List.length bs + 1) by (rewrite W; cbn [List.length]; lia).
    assert (Pj : List.length p <= List.length (iline (up, r))) by (rewrite E, firstn_length; lia).
    assert (F : forall i, i <= List.length p -> firstn i p = firstn i (iline (up, r))).
    { intros i I. rewrite E, firstn_firstn. f_equal. rewrite E, firstn_length in I. lia. }
    assert (G : firstn (List.length (whole p) - 2) (whole p) = firstn (List.length (whole p) - 2) p /\ List.length (whole p) <= List.length p /\ 11 <= List.length (whole p)).
    { unfold whole. destruct (Nat.odd (List.length p)) eqn:O; [split; [reflexivity|lia]|].
      assert (12 <= List.length p) by (destruct (Nat.eq_dec (List.length p) 11) as [Z|Z]; [rewrite Z in O; discriminate|lia]).
      assert (LL : List.length (without_third_last p) = List.length p - 1) by (unfold without_third_last; rewrite app_length, firstn_length, skipn_length; lia).
      rewrite LL. split; [|lia]. unfold without_third_last. rewrite firstn_app, firstn_firstn, firstn_length.
      replace (List.length p - 1 - 2 - Nat.min (List.length p - 3) (List.length p)) with 0 by lia. cbn [firstn]. rewrite app_nil_r. f_equal. lia. }
    destruct G as (G1 & G2 & G3). exists (List.length bs - 1). split; [lia|]. split; [lia|]. split; [lia|].
    replace (List.length (whole p) - 2) with (S (2 * (List.length bs - 1))) in G1 by lia. rewrite F in G1 by lia. rewrite W in G1.
    unfold iline, iline_of in G1. cbn [fst snd firstn] in G1. injection G1 as G1. rewrite <- firstn_hexs. exact G1. }
  destruct K as (k & K1 & K2 & K3 & K4). pose proof (hex_text_part _ _ H k) as P. rewrite K4 in P.
  assert (EQ : firstn k bs = firstn k (ibytes r)).
  { apply (hex_text_fun _ _ _ P), hex_text_hexs. pose proof (ibytes_body r V) as FB. rewrite <- (firstn_skipn k (ibytes r)) in FB. apply Forall_app in FB. exact (proj1 FB). }
  destruct (exists_last (l := bs)) as (bs0 & x & EB); [intros Z; rewrite Z in K2; cbn in K2; lia|].
  assert (L0 : List.length bs0 = k) by (rewrite EB, app_length in K2; cbn in K2; lia).
  exists (k - 4), x. split; [lia|]. rewrite EB in EQ |- *. rewrite firstn_app, L0, Nat.sub_diag, firstn_all2 in EQ by lia. cbn [firstn] in EQ. rewrite app_nil_r in EQ.
  rewrite EQ, B, app_assoc. f_equal. rewrite firstn_app. replace (k - List.length (hd ++ ipayload r)) with 0 by (rewrite app_length; cbn; lia). cbn [firstn]. rewrite app_nil_r.
  rewrite firstn_app. replace (List.length hd) with 4 by reflexivity. f_equal. apply firstn_all2. cbn. lia.
Qed.

(** A record of which only a part is read. *)
Inductive less : irec -> irec -> Prop :=
  | LData : forall a bs k, less (IData a bs) (IData a (firstn k bs))
  | LEla : forall u, less (IEla u) (IEla u)
  | LOther : forall t a bs t' a' bs', less (IOther t a bs) (IOther t' a' bs').

Lemma cut_record : forall r up p j x, p = firstn j (iline (up, r)) -> ivalid r -> parseLine p = Some x -> adds_up p -> exists r', less r r' /\ wr x r'.
Proof.
  intros r up p j x E V PL (bs & SY & _). pose proof (parse_record_line _ _ PL) as (_ & L11 & L13).
  destruct (cut_bytes r up p j bs E L11 V SY) as (k & y & K & EB).
  assert (TY : line_type p = hex2 up (itype r)).
  { assert (X : firstn 9 p = firstn 9 (iline (up, r))) by (rewrite E, firstn_firstn; f_equal; rewrite E, firstn_length in L11; lia).
    unfold line_type. rewrite firstn_skipn_comm. change (7 + 2) with 9. rewrite X. reflexivity. }
  assert (AD : (256 * (iaddr r / 256) + iaddr r mod 256 = iaddr r)%N) by (symmetry; apply N.div_mod; discriminate).
  destruct V as (VA & VT & VP & VL & VR). destruct (hex2_type up (itype r) VT) as [T4 T0].
  destruct r as [a pl|u|t a pl].
  - exists (IData a (firstn k pl)). split; [constructor|]. cbn [ipayload iaddr itype] in *. assert (Q : irec_of bs = IData a (firstn k pl)).
    { rewrite EB. cbn [app irec_of]. rewrite AD, removelast_last. reflexivity. }
    rewrite <- Q. apply (says_record p); [exact PL|exact SY|]. intros T. rewrite TY in T. destruct up; discriminate T.
  - exists (IEla u). split; [constructor|]. cbn [ipayload iaddr itype] in *.
    assert (T : line_type p = b "04") by (rewrite TY; destruct up; reflexivity). specialize (L13 T).
    assert (F13 : firstn 13 p = firstn 13 (iline (up, IEla u))) by (rewrite E, firstn_firstn; f_equal; rewrite E, firstn_length in L13; lia).
    assert (HD : firstn 13 (iline (up, IEla u)) = ":"%char :: hex2 up 2 ++ hex2 up 0 ++ hex2 up 0 ++ hex2 up 4 ++ hex2 up (u / 256) ++ hex2 up (u mod 256)) by reflexivity.
    rewrite HD in F13. unfold hex2 in F13. cbn [app] in F13.
    do 13 (destruct p as [|? p]; [cbn in L13; lia|]). cbn [firstn] in F13. injection F13 as -> -> -> -> -> -> -> -> -> -> -> -> ->.
    unfold parseLine in PL. change (Ascii.eqb ":" beginLineToken) with true in PL. cbn [List.length Nat.leb andb] in PL.
    change [digit up (4 / 16); digit up (4 mod 16)] with (hex2 up 4) in PL. cbn [itype] in T4. rewrite T4 in PL. cbn [N.eqb] in PL.
    change (4 =? 4)%N with true in PL. cbn [firstn] in PL. injection PL as <-. cbn [wr recordType offset mkrec].
    split; [destruct up; reflexivity|]. split; [exact VR|].
    change [digit up (u / 256 / 16); digit up ((u / 256) mod 16); digit up (u mod 256 / 16); digit up ((u mod 256) mod 16)] with (hexs up [u / 256; u mod 256]%N).
    split.
    + apply hex_decode_hexs. repeat constructor; [apply N.div_lt_upper_bound; lia|apply N.mod_lt; lia].
    + intros ->. destruct up; reflexivity.
  - assert (Q : exists bs', irec_of bs = IOther t a bs').
    { rewrite EB. cbn [app irec_of ipayload iaddr itype] in *. destruct VR as [V0 V4]. apply N.eqb_neq in V0, V4. rewrite V0, V4, AD. eauto. }
    destruct Q as (bs' & Q). exists (IOther t a bs'). split; [constructor|]. rewrite <- Q. apply (says_record p); [exact PL|exact SY|].
    intros T. rewrite TY in T. cbn [itype] in *. destruct VR as [_ V4]. apply N.eqb_neq in V4. rewrite V4 in T4. exfalso. apply beqb_neq in T4. apply T4. exact T.
Qed.

(** ** Images *)
Lemma wrapped_placed : forall bs u a, (a + N.of_nat (List.length bs) <= 65536)%N -> wrapped u a bs = placed (65536 * u + a) bs.
Proof.
  induction bs as [|v bs IH]; intros u a H; [reflexivity|]. cbn [wrapped placed List.length] in *. rewrite N.mod_small by lia. f_equal. rewrite IH by lia. f_equal. lia.
Qed.
Lemma wrapped_is : forall rs u, Forall ivalid rs -> wrapped_image u rs = image_from u rs.
Proof.
  induction rs as [|r rs IH]; intros u H; [reflexivity|]. inversion H as [|? ? V F]; subst. destruct r; cbn [wrapped_image image_from]; try (apply IH, F).
  destruct V as (_ & _ & _ & _ & V). rewrite wrapped_placed by exact V. f_equal. apply IH, F.
Qed.
Definition beginning {A} (x l : list A) : Prop := exists rest, l = x ++ rest.
Lemma beginning_app : forall A (x y z : list A), beginning y z -> beginning (x ++ y) (x ++ z).
Proof. intros A x y z (r & ->). exists r. apply app_assoc. Qed.
Lemma placed_firstn : forall k bs a, beginning (placed a (firstn k bs)) (placed a bs).
Proof.
  induction k as [|k IH]; intros bs a; [exists (placed a bs); reflexivity|]. destruct bs as [|v bs]; [exists []; reflexivity|]. cbn [firstn placed]. apply (beginning_app _ [(a, v)]), IH.
Qed.
Lemma image_less : forall rs r r' rest u, less r r' -> beginning (image_from u (rs ++ [r'])) (image_from u (rs ++ r :: rest)).
Proof.
  induction rs as [|x rs IH]; intros r r' rest u H.
  - cbn [app]. destruct H; cbn [image_from]; [|eexists; reflexivity|eexists; reflexivity]. rewrite app_nil_r. destruct (placed_firstn k bs (65536 * u + a)) as (z & ->). rewrite <- app_assoc. eexists. reflexivity.
  - cbn [app]. destruct x; cbn [image_from]; try (apply IH, H). apply beginning_app, IH, H.
Qed.
Lemma image_part : forall rs rest u, beginning (image_from u rs) (image_from u (rs ++ rest)).
Proof.
  induction rs as [|x rs IH]; intros rest u; [eexists; reflexivity|]. cbn [app]. destruct x; cbn [image_from]; try (apply IH). apply beginning_app, IH.
Qed.
Lemma beginning_nodup : forall (x l : list (N * N)), beginning x l -> NoDup (map fst l) -> NoDup (map fst x).
Proof.
  intros x l (r & ->). rewrite map_app. generalize (map fst x). induction l as [|a l IH]; intros H; [constructor|]. cbn in H. inversion H as [|? ? N D]; subst. constructor; [|apply IH, D]. intros I. apply N, in_or_app. auto.
Qed.
Lemma items_recs_app : forall x y, items_recs (x ++ y) = items_recs x ++ items_recs y.
Proof. induction x as [|[]]; intros y; cbn; [reflexivity|f_equal; auto|auto]. Qed.

(** ** Whole lines *)
Lemma iline_length : forall up r, List.length (iline (up, r)) = 2 * List.length (ipayload r) + 11.
Proof. intros up r. unfold iline, iline_of, ibytes, ibody. cbn [fst snd List.length]. rewrite hexs_length, !app_length. cbn [List.length]. lia. Qed.
Lemma iline_whole : forall up r, whole (iline (up, r)) = iline (up, r).
Proof. intros up r. apply whole_odd. rewrite iline_length. apply Nat.odd_spec. exists (List.length (ipayload r) + 5). lia. Qed.
Lemma iline_says : forall up r, ivalid r -> says (iline (up, r)) (ibytes r).
Proof. intros up r V. exists (hexs up (ibytes r)). split; [rewrite iline_whole; reflexivity|]. apply hex_text_hexs, ibytes_body, V. Qed.
Lemma iline_sum : forall r, (nsum (ibytes r) mod 256 = 0)%N.
Proof.
  intros r. unfold ibytes. rewrite nsum_app. cbn [nsum]. rewrite N.add_0_r. unfold icheck. set (s := nsum (ibody r)).
  rewrite N.add_mod_idemp_r by discriminate. pose proof (N.div_mod s 256 ltac:(discriminate)) as D. pose proof (N.mod_lt s 256 ltac:(discriminate)) as M.
  replace (s + (256 - s mod 256))%N with ((s / 256 + 1) * 256)%N by lia. apply N.mod_mul. discriminate.
Qed.
Lemma iline_type : forall up r, line_type (iline (up, r)) = hex2 up (itype r).
Proof. intros. reflexivity. Qed.
Lemma iline_fine : forall up r, ivalid r -> record_lineb (iline (up, r)) = true.
Proof.
  intros up r V. unfold record_lineb. rewrite iline_type, iline_length. change (Ascii.eqb ":" ":") with true. cbn [iline iline_of fst snd].
  change (match ":"%char :: hexs up (ibytes r) with c :: _ => Ascii.eqb c ":" | [] => false end) with true.
  replace (11 <=? 2 * List.length (ipayload r) + 11) with true by (symmetry; apply Nat.leb_le; lia). cbn [andb].
  destruct V as (_ & VT & _ & _ & VR). destruct (hex2_type up (itype r) VT) as [T4 _]. change (beqb (hex2 up (itype r)) extendedLinearAddressRecordToken = (itype r =? 4)%N) in T4.
  change (b "04") with extendedLinearAddressRecordToken. rewrite T4. destruct (itype r =? 4)%N eqn:E4; [|reflexivity]. apply N.eqb_eq in E4. destruct r; cbn in E4; try discriminate E4; [reflexivity|]. destruct VR. contradiction.
Qed.
Lemma irec_ibytes : forall r, ivalid r -> irec_of (ibytes r) = r.
Proof.
  intros r (VA & _ & _ & _ & VR). unfold ibytes, ibody. destruct r as [a pl|u|t a pl]; cbn [app irec_of ipayload iaddr itype].
  - rewrite removelast_last. change (0 =? 0)%N with true. cbv iota. f_equal. symmetry. apply N.div_mod. discriminate.
  - change (4 =? 0)%N with false. change (4 =? 4)%N with true. cbv iota. cbn [nth]. f_equal. symmetry. apply N.div_mod. discriminate.
  - destruct VR as [V0 V4]. apply N.eqb_neq in V0, V4. rewrite V0, V4, removelast_last. f_equal. symmetry. apply N.div_mod. discriminate.
Qed.

Lemma items_fine : forall items, Forall item_ok items -> Forall (fun l => fine_lineb l = true) (map item_line items).
Proof.
  intros items H. induction H as [|x items V H IH]; cbn; constructor; [|exact IH]. unfold fine_lineb. apply orb_true_iff. destruct x as [up r|l]; cbn [item_ok item_line] in *.
  - right. apply iline_fine, V.
  - left. apply Nat.leb_le. destruct V. lia.
Qed.
Lemma items_wr : forall items, Forall item_ok items -> forall recs, Forall2 (fun l r => parseLine l = Some r) (filter long (map item_line items)) recs ->
    Forall2 wr recs (items_recs items) /\ Forall adds_up (filter long (map item_line items)).
Proof.
  intros items H. induction H as [|x items V H IH]; intros recs F; cbn [map filter items_recs] in *; [inversion F; subst; split; constructor|].
  destruct x as [up r|l]; cbn [item_line item_ok] in *.
  - assert (LG : long (iline (up, r)) = true) by (unfold long; rewrite iline_length; apply Nat.leb_le; lia). rewrite LG in *. inversion F as [|? x ? recs' P F' E1 E2]; subst. destruct (IH _ F') as [I1 I2].
    split; constructor; try assumption.
    + rewrite <- (irec_ibytes r V). apply (says_record _ _ _ P (iline_says up r V)). intros _. rewrite iline_length. lia.
    + exists (ibytes r). split; [apply iline_says, V|apply iline_sum].
  - assert (LG : long l = false) by (unfold long; apply Nat.leb_gt, V). rewrite LG in *. apply IH, F.
Qed.

Lemma any_wr : forall np text lines rs, 0 < np -> lines_of text lines -> Forall2 wr (recsF np lines) rs -> Forall adds_up (read_lines np lines) ->
    (forall u, In (IEla u) rs -> u <> 0%N) -> NoDup (map fst (wrapped_image 0 rs)) ->
    always (parseFile_exec np text) (fun r => exists m, r = Ok (m, None) /\ map_is m (wrapped_image 0 rs)).
Proof.
  intros np text lines rs Hnp HL W A NZ ND. destruct (read_recs np lines) as (recs & ER & F).
  pose proof (w_offsets_read _ _ W np Hnp (recsF_fresh np lines)) as HI.
  apply always_iff; [exact Hnp|]. unfold parseFileF. rewrite (lines_split _ _ HL). unfold parseHexF.
  rewrite ER in *. rewrite (proj2 (all_add_up _ _ F) A). rewrite (image_read_unique _ _ _ _ HI (wrapped_read np rs Hnp NZ)).
  rewrite store_all_ok; [|exact ND|intros a _ []]. eexists. split; [reflexivity|]. apply map_is_rev, ND.
Qed.

Lemma item_ok_form : forall x, item_ok x -> item_form x.
Proof. intros [up r|l] H; [|exact H]. destruct H as (A & T & P & L & R). cbn. split; [exact A|]. split; [exact T|]. split; [exact P|]. split; [exact L|]. destruct r; auto. Qed.
Lemma less_valid : forall r r', less r r' -> ivalid r -> (forall t a bs, r' <> IOther t a bs) -> ivalid r'.
Proof.
  intros r r' H V N. destruct H; [|exact V|destruct (N _ _ _ eq_refl)]. destruct V as (A & T & P & L & R). cbn [iaddr itype ipayload] in *.
  assert (LE : List.length (firstn k bs) <= List.length bs) by (rewrite firstn_length; lia). split; [exact A|]. split; [exact T|]. split; [|split; [cbn [ipayload]; lia|lia]].
  cbn [ipayload]. rewrite <- (firstn_skipn k bs) in P. apply Forall_app in P. exact (proj1 P).
Qed.
Lemma wrapped_last : forall rs r r' u, less r r' -> Forall ivalid rs -> ivalid r -> wrapped_image u (rs ++ [r']) = image_from u (rs ++ [r']).
Proof.
  induction rs as [|x rs IH]; intros r r' u H F V.
  - cbn [app]. destruct H; [|reflexivity|reflexivity]. apply wrapped_is. constructor; [|constructor]. apply (less_valid _ _ (LData a bs k) V). discriminate.
  - inversion F as [|? ? VX F']; subst. cbn [app]. destruct x; cbn [wrapped_image image_from]; try (eapply IH; eassumption).
    destruct VX as (_ & _ & _ & _ & VX). rewrite wrapped_placed by exact VX. f_equal. eapply IH; eassumption.
Qed.
Lemma items_valid : forall items, Forall item_ok items -> Forall ivalid (items_recs items).
Proof. intros items H. induction H as [|[up r|l] items V H IH]; [constructor|constructor; assumption|exact IH]. Qed.

(** A text that ends with CR does not add up. *)
Lemma cr_adds_not : forall l, 11 <= List.length (l ++ [CR]) -> ~ adds_up (l ++ [CR]).
Proof.
  intros l L (bs & (tx & W & H) & _). pose proof (hex_text_len _ _ H) as LT.
  assert (E : exists w, whole (l ++ [CR]) = w ++ [CR]).
  { destruct (Nat.odd (List.length (l ++ [CR]))) eqn:O; [exists l; apply whole_odd, O|].
    assert (L12 : 12 <= List.length (l ++ [CR])) by (destruct (Nat.eq_dec (List.length (l ++ [CR])) 11) as [Z|Z]; [rewrite Z in O; discriminate|lia]).
    destruct (third_last _ O L12) as (q & c & k & E & K & ->). destruct k as [|k1 [|k2 [|]]]; try discriminate K.
    assert (X : (q ++ [c; k1]) ++ [k2] = l ++ [CR]) by (rewrite E, <- app_assoc; reflexivity). apply app_inj_tail in X. destruct X as [_ ->]. exists (q ++ [k1]). rewrite <- app_assoc. reflexivity. }
  destruct E as (w & E). rewrite W in E. assert (I : In CR tx).
  { destruct w as [|c w]; [discriminate E|]. injection E as _ ->. apply in_or_app. right. left. reflexivity. }
  assert (NE : no_eol tx).
  { clear - H. induction H as [|up v tx bs V H [IH1 IH2]]; [split; intros []|]. pose proof (hexs_no_eol up [v] ltac:(repeat constructor; exact V)) as [N1 N2]. cbn [hexs flat_map] in N1, N2. rewrite app_nil_r in N1, N2.
    split; intros I; apply in_app_or in I; tauto. }
  destruct NE as [NE _]. contradiction.
Qed.

Lemma adds_either : forall np lines, Forall adds_up (read_lines np lines) \/ ~ Forall adds_up (read_lines np lines).
Proof.
  intros np lines. destruct (read_recs np lines) as (recs & _ & F). destruct (forallb csum_ok recs) eqn:E; [left; apply (all_add_up _ _ F), E|right].
  intros H. apply (all_add_up _ _ F) in H. congruence.
Qed.

(** ** C100 *)

(** A text of valid records that breaks off anywhere is refused for a checksum, or
    the bytes read are the first ones of the file: no byte is wrong or at a wrong
    place. *)
Theorem C100_cut : forall np t items n, 0 < np -> Forall item_ok items ->
    (forall u, In (IEla u) (items_recs items) -> u <> 0%N) -> NoDup (map fst (image (items_recs items))) ->
    always (parseFile_exec np (firstn n (ifile t items)))
      (fun r => r = Ok ([], Some EChecksum) \/ exists m img, r = Ok (m, None) /\ map_is m img /\ exists rest, image (items_recs items) = img ++ rest).
Proof.
  intros np t items n Hnp OK NZ ND. destruct items as [|i0 items].
  { assert (Z : firstn n (ifile t []) = ifile t []) by (cbn; apply firstn_nil). rewrite Z. destruct (ihex_round_trip np t [] Hnp OK) as [X Y].
    - intros i j a1 b1 a2 b2 u _ E. destruct i; discriminate E.
    - constructor.
    - split; [exact X|]. intros r R. right. destruct (Y r R) as (m & E & M). exists m, []. split; [exact E|]. split; [exact M|]. exists []. reflexivity. }
  remember (i0 :: items) as its eqn:EI. destruct (cut_join t (map item_line its) n) as (whl & l & rest & p & EL & P & EC); [subst; discriminate|].
  unfold ifile. rewrite EC. clear EC. apply map_eq_app in EL. destruct EL as (done & tl_ & -> & <- & EL). apply map_eq_cons in EL. destruct EL as (it & rst & -> & <- & <-). clear EI i0 items.
  apply Forall_app in OK. destruct OK as [OKd OKt]. inversion OKt as [|? ? OKi OKr]; subst.
  assert (NEd : Forall no_eol (map item_line done)).
  { apply Forall_forall. intros x I. apply in_map_iff in I. destruct I as (y & <- & I). apply item_no_eol, item_ok_form. rewrite Forall_forall in OKd. apply OKd, I. }
  pose proof (cut_lines t _ _ p NEd (item_no_eol _ (item_ok_form _ OKi)) P) as LO. set (lines := map item_line done ++ [p]) in *.
  assert (RL : read_lines np lines = filter long (map item_line done) ++ filter long (if fine_lineb p then [p] else [])).
  { unfold read_lines, lines. rewrite kept_last by (auto using items_fine). apply filter_app. }
  destruct (read_recs np lines) as (recs & ER & F). rewrite RL in F.
  apply Forall2_app_inv_l in F. destruct F as (r1 & r2 & F1 & F2 & EQ). destruct (items_wr done OKd r1 F1) as [W1 A1].
  assert (NZd : forall u, In (IEla u) (items_recs done) -> u <> 0%N) by (intros u I; apply NZ; rewrite items_recs_app; apply in_or_app; auto).
  assert (QUIET : r2 = [] -> Forall adds_up (read_lines np lines) -> always (parseFile_exec np (join (term_bytes t) lines))
     (fun r => r = Ok ([], Some EChecksum) \/ exists m img, r = Ok (m, None) /\ map_is m img /\ exists rest, image (items_recs (done ++ it :: rst)) = img ++ rest)).
  { intros -> A. rewrite app_nil_r in EQ. assert (WI : wrapped_image 0 (items_recs done) = image (items_recs done)) by (apply wrapped_is, items_valid, OKd).
    pose proof (image_part (items_recs done) (items_recs (it :: rst)) 0) as BE. rewrite <- items_recs_app in BE.
    destruct (any_wr np _ lines (items_recs done) Hnp LO ltac:(rewrite ER, EQ; exact W1) A NZd) as [X Y].
    { rewrite WI. exact (beginning_nodup _ _ BE ND). }
    split; [exact X|]. intros r R. right. destruct (Y r R) as (m & E & M). exists m, (image (items_recs done)). split; [exact E|]. split; [rewrite <- WI; exact M|exact BE]. }
  destruct (fine_lineb p) eqn:FP; cbn [filter] in F2, RL; [|apply QUIET; [inversion F2; reflexivity|rewrite RL, app_nil_r; exact A1]].
  destruct (long p) eqn:LP; [|apply QUIET; [inversion F2; reflexivity|rewrite RL, app_nil_r; exact A1]].
  inversion F2 as [|? x ? r2' PX F2' E1 E2]; subst. inversion F2'; subst. clear F2 F2' QUIET.
  destruct (adds_either np lines) as [A|A].
  2: { destruct (any_checksum np _ lines Hnp LO A) as [X Y]. split; [exact X|]. intros r R. left. apply Y, R. }
  assert (AP : adds_up p) by (rewrite RL in A; apply Forall_app in A; destruct A as [_ A]; inversion A; assumption).
  apply Nat.leb_le in LP.
  destruct P as [(j & EP)|(_ & ->)]; [|destruct (cr_adds_not _ LP AP)].
  destruct it as [up r|l]; cbn [item_line item_ok] in *; [|exfalso; subst p; rewrite firstn_length in LP; lia].
  destruct (cut_record r up p j x EP OKi PX AP) as (r' & LE & WR).
  pose proof (wrapped_last (items_recs done) r r' 0 LE (items_valid _ OKd) OKi) as WI.
  pose proof (image_less (items_recs done) r r' (items_recs rst) 0 LE) as BE. change (r :: items_recs rst) with (items_recs (IRec up r :: rst)) in BE. rewrite <- items_recs_app in BE.
  destruct (any_wr np _ lines (items_recs done ++ [r']) Hnp LO) as [X Y].
  - rewrite EQ. apply Forall2_app; [exact W1|]. constructor; [exact WR|constructor].
  - exact A.
  - intros u I. apply in_app_or in I. destruct I as [I|[I|[]]]; [apply NZd, I|]. subst r'. inversion LE; subst. apply NZ. rewrite items_recs_app. apply in_or_app. right. left. reflexivity.
  - rewrite WI. exact (beginning_nodup _ _ BE ND).
  - split; [exact X|]. intros r0 R. right. destruct (Y r0 R) as (m & E & M). exists m, (image (items_recs done ++ [r'])). split; [exact E|]. split; [unfold image; rewrite <- WI; exact M|exact BE].
Qed.
Print Assumptions C100_cut.

(** Where the line after the lines [A] begins *)
Definition startOf (t : term) (A : list bytes) : nat := List.length (join (term_bytes t) (A ++ [[]])).
(** The text up to the j-th character of this line *)
Lemma cut_at : forall t (A : list bytes) (l : bytes) (C : list bytes) j, j <= List.length l ->
    firstn (startOf t A + j) (join (term_bytes t) (A ++ l :: C)) = join (term_bytes t) (A ++ [firstn j l])
    /\ (j < List.length l -> startOf t A + j < List.length (join (term_bytes t) (A ++ l :: C))).
Proof.
  intros t. induction A as [|a A IH]; intros l C j J.
  - unfold startOf. cbn [app join List.length Nat.add]. destruct C as [|c C]; cbn [join].
    + split; [reflexivity|lia].
    + rewrite firstn_app. replace (j - List.length l) with 0 by lia. rewrite firstn_O, app_nil_r. split; [reflexivity|]. rewrite app_length. lia.
  - destruct (IH l C j J) as [I1 I2]. unfold startOf in *. cbn [app]. rewrite !join_cons by (destruct A; discriminate). rewrite !app_length.
    rewrite <- !Nat.add_assoc, firstn_app_2, firstn_app_2, I1. split; [reflexivity|]. intros H. specialize (I2 H). lia.
Qed.

Lemma item_fine_line : forall x, item_ok x -> fine_line (item_line x).
Proof. intros [up r|l] V; cbn [item_ok item_line] in *; [right; apply record_lineb_ok, iline_fine, V|left; exact (proj1 V)]. Qed.

(** Where less than 11 characters of a record are left, nothing is noticed: the rest
    of the file is missing without an error. *)
Theorem C100_silent_refuted : forall np t before up r after j, 0 < np -> Forall item_ok (before ++ IRec up r :: after) -> j < 11 ->
    (forall u, In (IEla u) (items_recs before) -> u <> 0%N) -> NoDup (map fst (image (items_recs before))) ->
    exists n, n < List.length (ifile t (before ++ IRec up r :: after)) /\
      firstn n (ifile t (before ++ IRec up r :: after)) = join (term_bytes t) (map item_line before ++ [firstn j (iline (up, r))]) /\
      always (parseFile_exec np (firstn n (ifile t (before ++ IRec up r :: after)))) (fun x => exists m, x = Ok (m, None) /\ map_is m (image (items_recs before))).
Proof.
  intros np t before up r after j Hnp OK J NZ ND. apply Forall_app in OK. destruct OK as [OKb OKr]. inversion OKr as [|? ? V OKa]; subst. cbn [item_ok] in V.
  destruct (cut_at t (map item_line before) (iline (up, r)) (map item_line after) j) as [C1 C2]; [rewrite iline_length; lia|].
  exists (startOf t (map item_line before) + j). unfold ifile. rewrite map_app. cbn [map item_line].
  split; [apply C2; rewrite iline_length; lia|]. rewrite C1. split; [reflexivity|].
  set (l := firstn j (iline (up, r))).
  assert (LN : List.length l < 11 /\ no_eol l).
  { split; [unfold l; rewrite firstn_length; lia|]. pose proof (item_no_eol (IRec up r) (item_ok_form (IRec up r) V)) as [N1 N2]. cbn [item_line] in N1, N2. split; intros I; apply firstn_in in I; contradiction. }
  pose proof (ihex_round_trip np t (before ++ [IBlank l]) Hnp) as RT. unfold ifile in RT. rewrite map_app, items_recs_app in RT. cbn [map item_line items_recs] in RT. rewrite app_nil_r in RT. apply RT.
  - apply Forall_app. split; [exact OKb|]. constructor; [exact LN|constructor].
  - apply nonzero_upper_last, NZ.
  - exact ND.
Qed.
Print Assumptions C100_silent_refuted.

(** Inside a record, after whole bytes: noticed exactly if the bytes that are left do
    not happen to add up. *)
Theorem C100_inside : forall np t before up r after k, 0 < np -> Forall item_ok (before ++ IRec up r :: after) -> 6 <= k < List.length (ibytes r) ->
    exists n, firstn n (ifile t (before ++ IRec up r :: after)) = join (term_bytes t) (map item_line before ++ [iline_of up (firstn k (ibytes r))]) /\
      always (parseFile_exec np (firstn n (ifile t (before ++ IRec up r :: after)))) (fun x => x = Ok ([], Some EChecksum) <-> (nsum (firstn k (ibytes r)) mod 256 <> 0)%N).
Proof.
  intros np t before up r after k Hnp OK K. apply Forall_app in OK. destruct OK as [OKb OKr]. inversion OKr as [|? ? V OKa]; subst. cbn [item_ok] in V.
  assert (LI : List.length (ibytes r) = List.length (ipayload r) + 5) by (unfold ibytes, ibody; rewrite !app_length; cbn [List.length]; lia).
  destruct (cut_at t (map item_line before) (iline (up, r)) (map item_line after) (2 * k + 1)) as [C1 C2]; [rewrite iline_length; lia|].
  set (l := firstn (2 * k + 1) (iline (up, r))) in *.
  assert (EL : l = iline_of up (firstn k (ibytes r))) by (unfold l, iline, iline_of; cbn [fst snd]; replace (2 * k + 1) with (S (2 * k)) by lia; cbn [firstn]; rewrite firstn_hexs; reflexivity).
  exists (startOf t (map item_line before) + (2 * k + 1)). unfold ifile. rewrite map_app. cbn [map item_line]. rewrite C1. split; [rewrite EL; reflexivity|].
  assert (LL : List.length l = 2 * k + 1) by (unfold l; rewrite firstn_length, iline_length; lia).
  assert (NE : no_eol l).
  { pose proof (item_no_eol (IRec up r) (item_ok_form (IRec up r) V)) as [N1 N2]. cbn [item_line] in N1, N2. split; intros I; apply firstn_in in I; contradiction. }
  assert (FB : Forall (fun v => v < 256)%N (firstn k (ibytes r))) by (pose proof (ibytes_body r V) as FB; rewrite <- (firstn_skipn k (ibytes r)) in FB; apply Forall_app in FB; exact (proj1 FB)).
  assert (GS : good_sum l <-> (nsum (firstn k (ibytes r)) mod 256 = 0)%N).
  { rewrite EL. split.
    - intros (tx & bs & E & H & Z). unfold iline_of in E. injection E as <-. rewrite <- (hex_text_fun _ _ _ (hex_text_hexs up _ FB) H) in Z. exact Z.
    - intros Z. exists (hexs up (firstn k (ibytes r))), (firstn k (ibytes r)). split; [reflexivity|]. split; [apply hex_text_hexs, FB|exact Z]. }
  destruct (checksum_error np t (map item_line before ++ [l]) Hnp) as [X Y].
  - destruct (map item_line before); discriminate.
  - apply Forall_app. split; [|constructor; [exact NE|constructor]]. apply Forall_forall. intros x I. apply in_map_iff in I. destruct I as (y & <- & I). apply item_no_eol, item_ok_form. rewrite Forall_forall in OKb. apply OKb, I.
  - apply Forall_app. split.
    + apply Forall_forall. intros x I. apply in_map_iff in I. destruct I as (y & <- & I). rewrite Forall_forall in OKb. exact (item_fine_line y (OKb y I)).
    + constructor; [|constructor]. right. split; [rewrite EL; reflexivity|]. split; [lia|]. intros _. lia.
  - apply Forall_app. split; [|constructor; [intros _; exists k; exact LL|constructor]]. apply Forall_forall. intros x I. apply in_map_iff in I. destruct I as (y & <- & I). rewrite Forall_forall in OKb. specialize (OKb y I).
    destruct y as [up' r'|l']; cbn [item_line item_ok] in *; intros L11; [|destruct OKb; lia]. exists (List.length (ipayload r') + 5). rewrite iline_length. lia.
  - split; [exact X|]. intros x R. rewrite (Y x R). split.
    + intros (y & I & L11 & G). apply in_app_or in I. destruct I as [I|[<-|[]]]; [|intros Z; apply G, GS, Z].
      exfalso. apply in_map_iff in I. destruct I as (z & <- & I). rewrite Forall_forall in OKb. specialize (OKb z I). destruct z as [up' r'|l']; cbn [item_line item_ok] in *; [|destruct OKb; lia].
      apply G. exists (hexs up' (ibytes r')), (ibytes r'). split; [reflexivity|]. split; [apply hex_text_hexs, ibytes_body, OKb|apply iline_sum].
    + intros Z. exists l. split; [apply in_or_app; right; left; reflexivity|]. split; [lia|]. intros G. apply Z, GS, G.
Qed.
Print Assumptions C100_inside.


(** If they do, the data record is taken for a shorter one: its last byte is the
    checksum, the ones before it are stored, the rest is missing without an error. *)
Theorem C100_chance_refuted : forall np t before up a bs after k, 0 < np -> Forall item_ok (before ++ IRec up (IData a bs) :: after) ->
    (forall u, In (IEla u) (items_recs before) -> u <> 0%N) -> NoDup (map fst (image (items_recs (before ++ IRec up (IData a bs) :: after)))) ->
    5 <= k < List.length (ibytes (IData a bs)) -> (nsum (firstn k (ibytes (IData a bs))) mod 256 = 0)%N ->
    exists n, firstn n (ifile t (before ++ IRec up (IData a bs) :: after)) = join (term_bytes t) (map item_line before ++ [iline_of up (firstn k (ibytes (IData a bs)))]) /\
      always (parseFile_exec np (firstn n (ifile t (before ++ IRec up (IData a bs) :: after))))
        (fun x => exists m, x = Ok (m, None) /\ map_is m (image (items_recs before ++ [IData a (firstn (k - 5) bs)]))).
Proof.
  intros np t before up a bs after k Hnp OK NZ ND K Z. apply Forall_app in OK. destruct OK as [OKb OKr]. inversion OKr as [|? ? V OKa]; subst. cbn [item_ok] in V.
  set (r := IData a bs) in *.
  assert (LI : List.length (ibytes r) = List.length bs + 5) by (unfold r, ibytes, ibody; rewrite !app_length; cbn [List.length ipayload]; lia).
  destruct (cut_at t (map item_line before) (iline (up, r)) (map item_line after) (2 * k + 1)) as [C1 _]; [rewrite iline_length; unfold r; cbn [ipayload]; lia|].
  set (p := firstn (2 * k + 1) (iline (up, r))) in *.
  assert (EP : p = iline_of up (firstn k (ibytes r))) by (unfold p, iline, iline_of; cbn [fst snd]; replace (2 * k + 1) with (S (2 * k)) by lia; cbn [firstn]; rewrite firstn_hexs; reflexivity).
  exists (startOf t (map item_line before) + (2 * k + 1)). unfold ifile. rewrite map_app. cbn [map item_line]. rewrite C1. split; [rewrite EP; reflexivity|].
  assert (LP : List.length p = 2 * k + 1) by (unfold p; rewrite firstn_length, iline_length; unfold r; cbn [ipayload]; lia).
  assert (FB : Forall (fun v => v < 256)%N (firstn k (ibytes r))) by (pose proof (ibytes_body r V) as FB; rewrite <- (firstn_skipn k (ibytes r)) in FB; apply Forall_app in FB; exact (proj1 FB)).
  assert (SY : says p (firstn k (ibytes r))).
  { exists (hexs up (firstn k (ibytes r))). split; [|apply hex_text_hexs, FB]. rewrite whole_odd; [exact EP|]. rewrite LP. apply Nat.odd_spec. exists k. reflexivity. }
  assert (TY : line_type p = hex2 up 0).
  { rewrite EP. destruct k as [|[|[|[|k]]]]; try lia. reflexivity. }
  assert (N4 : line_type p <> b "04") by (rewrite TY; destruct up; vm_compute; discriminate).
  assert (FP : fine_lineb p = true).
  { unfold fine_lineb. apply orb_true_iff. right. apply record_lineb_ok. split; [rewrite EP; reflexivity|]. split; [lia|]. intros E4. contradiction. }
  assert (LG : long p = true) by (apply Nat.leb_le; lia).
  assert (NEb : Forall no_eol (map item_line before)).
  { apply Forall_forall. intros x I. apply in_map_iff in I. destruct I as (y & <- & I). apply item_no_eol, item_ok_form. rewrite Forall_forall in OKb. apply OKb, I. }
  assert (PO : partOf t (iline (up, r)) p) by (left; exists (2 * k + 1); reflexivity).
  pose proof (cut_lines t _ _ p NEb (item_no_eol (IRec up r) (item_ok_form (IRec up r) V)) PO) as LO. set (lines := map item_line before ++ [p]) in *.
  assert (RL : read_lines np lines = filter long (map item_line before) ++ [p]).
  { unfold read_lines, lines. rewrite kept_last by (auto using items_fine). rewrite FP, filter_app. cbn [filter]. rewrite LG. reflexivity. }
  destruct (read_recs np lines) as (recs & ER & F). rewrite RL in F. apply Forall2_app_inv_l in F. destruct F as (r1 & r2 & F1 & F2 & EQ). destruct (items_wr before OKb r1 F1) as [W1 A1].
  inversion F2 as [|? x ? r2' PX F2' E1 E2]; subst. inversion F2'; subst.
  assert (IR : irec_of (firstn k (ibytes r)) = IData a (firstn (k - 5) bs)).
  { destruct V as (VA & _). unfold r in *. cbn [iaddr] in VA. remember (S (k - 5)) as q eqn:Q. replace k with (4 + q) at 1 by lia. unfold ibytes, ibody. cbn [iaddr itype ipayload app firstn Nat.add irec_of]. change (0 =? 0)%N with true. cbv iota.
    f_equal; [symmetry; apply N.div_mod; discriminate|].
    rewrite Q. rewrite removelast_firstn by (rewrite app_length; cbn; lia). rewrite firstn_app. replace (k - 5 - List.length bs) with 0 by lia. rewrite firstn_O, app_nil_r. reflexivity. }
  pose proof (says_record p x _ PX SY ltac:(intros E4; contradiction)) as WR. rewrite IR in WR.
  assert (LE : less r (IData a (firstn (k - 5) bs))) by constructor.
  pose proof (wrapped_last (items_recs before) r _ 0 LE (items_valid _ OKb) V) as WI.
  pose proof (image_less (items_recs before) r _ (items_recs after) 0 LE) as BE. change (r :: items_recs after) with (items_recs (IRec up r :: after)) in BE. rewrite <- items_recs_app in BE.
  unfold image. rewrite <- WI. apply (any_wr np _ lines); [exact Hnp|exact LO| | | |].
  - rewrite EQ. apply Forall2_app; [exact W1|]. constructor; [exact WR|constructor].
  - rewrite RL. apply Forall_app. split; [exact A1|]. constructor; [|constructor]. exists (firstn k (ibytes r)). split; [exact SY|exact Z].
  - intros u I. apply in_app_or in I. destruct I as [I|[I|[]]]; [apply NZ, I|discriminate I].
  - rewrite WI. exact (beginning_nodup _ _ BE ND).
Qed.
Print Assumptions C100_chance_refuted.

(** Two data records and the end record.  Of the second one only two data bytes are
    left; its bytes add up to 256 by chance, so that 3 is read and nothing is noticed.
    With one byte more (sum 261) the file is refused. *)
Example C100_example :
  let before := [IRec true (IData 0 [7]%N)] in
  let r := IData 16 [3; 234; 5]%N in
  let items := before ++ [IRec true r; IRec true iend] in
  Forall item_ok items /\ (forall u, In (IEla u) (items_recs items) -> u <> 0%N) /\ NoDup (map fst (image (items_recs items)))
  /\ image (items_recs items) = [(0, 7); (16, 3); (17, 234); (18, 5)]%N
  /\ firstn 28 (ifile Dos items) = join [CR; LF] [b ":0100000007F8"; b ":0300100003EA"]
  /\ nsum (firstn 6 (ibytes r)) = 256%N /\ 6 < List.length (ibytes r)
  /\ image (items_recs before ++ [IData 16 (firstn (6 - 5) [3; 234; 5]%N)]) = [(0, 7); (16, 3)]%N
  /\ (nsum (firstn 7 (ibytes r)) mod 256 = 5)%N.
Proof.
  cbv zeta. split; [repeat (constructor; [vm_compute; repeat split; repeat constructor; discriminate|]); constructor|].
  split; [intros u I; exfalso; repeat (destruct I as [I|I]; [discriminate I|]); exact I|].
  split; [repeat (constructor; [vm_compute; intuition discriminate|]); constructor|].
  repeat split; vm_compute; try reflexivity. repeat constructor.
Qed.
