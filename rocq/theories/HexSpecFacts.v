(** Facts about the text encoding and about joining/splitting lines. *)
From Coq Require Import String Ascii List Arith NArith Bool Lia.
From Verif Require Import GoBase GoStrings GoBaseFacts HexSpec.
Import ListNotations.

(** ** Enumeration of bytes *)
Definition all256 : list N := map N.of_nat (seq 0 256).

Lemma all256_In : forall n, (n < 256)%N -> In n all256.
Proof.
  intros n H. unfold all256. apply in_map_iff. exists (N.to_nat n).
  split; [apply N2Nat.id|]. apply in_seq. lia.
Qed.

Lemma byte_enum : forall (P : N -> bool), forallb P all256 = true -> forall n, (n < 256)%N -> P n = true.
Proof. intros P H n Hn. rewrite forallb_forall in H. apply H, all256_In, Hn. Qed.

Definition digit_ok (up : bool) (n : N) : bool :=
  let c := digit up n in
  match hex_any c with Some v => (v =? n)%N | None => false end &&
  match (if up then hex_upper c else hex_lower c) with Some v => (v =? n)%N | None => false end &&
  negb (Ascii.eqb c CR) && negb (Ascii.eqb c LF).

Lemma digit_enum : forall up n, (n < 16)%N -> digit_ok up n = true.
Proof.
  intros up n H.
  assert (E : forall up, forallb (fun n => if (n <? 16)%N then digit_ok up n else true) all256 = true).
  { intros []; vm_compute; reflexivity. }
  assert (Hn : (n < 256)%N) by lia.
  pose proof (byte_enum _ (E up) n Hn) as Hb. cbv beta in Hb.
  apply N.ltb_lt in H. rewrite H in Hb. exact Hb.
Qed.

Lemma digit_facts : forall up n, (n < 16)%N ->
    hex_any (digit up n) = Some n /\ (if up then hex_upper (digit up n) else hex_lower (digit up n)) = Some n
    /\ digit up n <> CR /\ digit up n <> LF.
Proof.
  intros up n H. pose proof (digit_enum up n H) as E. unfold digit_ok in E.
  rewrite !andb_true_iff, !negb_true_iff in E. destruct E as (((E1 & E2) & E3) & E4).
  split; [|split; [|split]].
  - destruct (hex_any (digit up n)); [|discriminate]. apply N.eqb_eq in E1. congruence.
  - destruct (if up then _ else _); [|discriminate]. apply N.eqb_eq in E2. congruence.
  - intros E. rewrite E in E3. discriminate.
  - intros E. rewrite E in E4. discriminate.
Qed.

Lemma half_bounds : forall n, (n < 256)%N -> (n / 16 < 16)%N /\ (n mod 16 < 16)%N.
Proof.
  intros n H. split; [|apply N.mod_lt; lia].
  apply N.div_lt_upper_bound; lia.
Qed.

Lemma hex_join : forall n, (16 * (n / 16) + n mod 16 = n)%N.
Proof. intros n. symmetry. apply N.div_mod. lia. Qed.

Lemma hex_decode_hexs : forall up l, Forall (fun v => v < 256)%N l -> hex_decode (hexs up l) = Some l.
Proof.
  intros up l H. induction H as [|v l Hv Hl IH]; [reflexivity|].
  cbn [hexs flat_map hex2 app hex_decode]. destruct (half_bounds v Hv) as [H1 H2].
  destruct (digit_facts up _ H1) as [-> _]. destruct (digit_facts up _ H2) as [-> _].
  unfold hexs in IH. rewrite IH, hex_join. reflexivity.
Qed.

Lemma hexs_app : forall up l1 l2, hexs up (l1 ++ l2) = hexs up l1 ++ hexs up l2.
Proof. intros. apply flat_map_app. Qed.

Lemma hexs_length : forall up l, List.length (hexs up l) = 2 * List.length l.
Proof.
  intros up l. induction l as [|v l IH]; [reflexivity|].
  cbn [hexs flat_map hex2 app List.length]. unfold hexs in IH. rewrite IH. lia.
Qed.

Lemma hexs_no_eol : forall up l, Forall (fun v => v < 256)%N l -> no_eol (hexs up l).
Proof.
  intros up l H. induction H as [|v l Hv Hl IH]; [split; intros []|].
  destruct (half_bounds v Hv) as [H1 H2]. destruct IH as [I1 I2].
  destruct (digit_facts up _ H1) as (_ & _ & A1 & A2).
  destruct (digit_facts up _ H2) as (_ & _ & B1 & B2).
  split; cbn [hexs flat_map hex2 app In]; intros [E|[E|E]]; try congruence; contradiction.
Qed.

(** ** Splitting *)

Lemma split_aux_line : forall c sep l cur rest, ~ In c l ->
    split_aux (c :: sep) 0 cur (l ++ rest) = split_aux (c :: sep) 0 (rev l ++ cur) rest.
Proof.
  intros c sep l. induction l as [|x l IH]; intros cur rest H; [reflexivity|].
  cbn [app split_aux prefixb]. assert (E : Ascii.eqb c x = false).
  { apply Ascii.eqb_neq. intros ->. apply H. left; reflexivity. }
  rewrite E. cbn [andb]. rewrite IH by (intros Hi; apply H; right; exact Hi).
  cbn [rev]. rewrite <- app_assoc. reflexivity.
Qed.

Lemma prefixb_app : forall p s, prefixb p (p ++ s) = true.
Proof.
  induction p as [|c p IH]; intros s; [reflexivity|]. cbn [app prefixb].
  rewrite Ascii.eqb_refl. apply IH.
Qed.

Lemma split_aux_skip : forall sep k cur x rest, List.length x = k ->
    split_aux sep k cur (x ++ rest) = split_aux sep 0 cur rest.
Proof.
  intros sep k. induction k as [|k IH]; intros cur x rest H.
  - destruct x; [reflexivity|discriminate].
  - destruct x as [|c x]; [discriminate|]. cbn [app split_aux]. apply IH. cbn in H. lia.
Qed.

Lemma split_join : forall c sep lines, lines <> [] -> Forall (fun l => ~ In c l) lines ->
    split (c :: sep) (join (c :: sep) lines) = lines.
Proof.
  intros c sep lines Hne H. unfold split. induction H as [|l ls Hl Hls IH]; [congruence|].
  destruct ls as [|l2 ls].
  - cbn [join]. rewrite <- (app_nil_r l) at 1. rewrite split_aux_line by exact Hl.
    cbn [split_aux]. rewrite app_nil_r, rev_involutive. reflexivity.
  - change (join (c :: sep) (l :: l2 :: ls)) with (l ++ (c :: sep) ++ join (c :: sep) (l2 :: ls)).
    rewrite split_aux_line by exact Hl. rewrite app_nil_r.
    cbn [app split_aux]. change (c :: sep ++ join (c :: sep) (l2 :: ls))
      with ((c :: sep) ++ join (c :: sep) (l2 :: ls)).
    rewrite prefixb_app. rewrite rev_involutive. f_equal.
    rewrite split_aux_skip by (cbn; lia). apply IH. discriminate.
Qed.

Lemma split_free : forall c sep s, ~ In c s -> split (c :: sep) s = [s].
Proof.
  intros c sep s H. unfold split. rewrite <- (app_nil_r s) at 1. rewrite split_aux_line by exact H.
  cbn [split_aux]. rewrite app_nil_r, rev_involutive. reflexivity.
Qed.

Lemma join_In : forall t lines x, In x (join t lines) -> In x t \/ exists l, In l lines /\ In x l.
Proof.
  intros t lines x. induction lines as [|l ls IH]; intros H; [contradiction|].
  destruct ls as [|l2 ls].
  - cbn in H. right. exists l. split; [left; reflexivity|exact H].
  - change (join t (l :: l2 :: ls)) with (l ++ t ++ join t (l2 :: ls)) in H.
    apply in_app_or in H. destruct H as [H|H]; [right; exists l; split; [left; reflexivity|exact H]|].
    apply in_app_or in H. destruct H as [H|H]; [left; exact H|].
    destruct (IH H) as [H'|(l' & Hl & Hx)]; [left; exact H'|]. right. exists l'. split; [right; exact Hl|exact Hx].
Qed.

(** ** Maps *)

Lemma map_is_lookup : forall m, NoDup (map fst m) -> map_is m m.
Proof.
  intros m H a v. split; [apply lookup_In|apply lookup_NoDup, H].
Qed.

Lemma placed_nth : forall bs a i v, nth_error bs i = Some v -> nth_error (placed a bs) i = Some (a + N.of_nat i, v)%N.
Proof.
  induction bs as [|w bs IH]; intros a [|i] v H; cbn in H; try discriminate.
  - inversion H; subst. cbn [placed nth_error]. f_equal. f_equal. lia.
  - cbn [placed nth_error]. rewrite (IH (a + 1)%N i v H). f_equal. f_equal. lia.
Qed.

Lemma nsum_app : forall l1 l2, nsum (l1 ++ l2) = (nsum l1 + nsum l2)%N.
Proof. induction l1 as [|x l1 IH]; intros l2; cbn [app nsum]; [reflexivity|]. rewrite IH. lia. Qed.
