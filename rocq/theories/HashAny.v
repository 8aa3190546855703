(** The hash map of a tree whose texts are in any encoding (C94). *)
From Coq Require Import String Ascii List Arith NArith ZArith Bool Lia SpecFloat Permutation Sorted.
From Verif Require Import GoBase GoBaseFacts FloatModel FloatSpec FloatArith A2lIR A2lTextModel GoTypes A2lStructs HashModel HashSpec HashThm HashAnySpec.
Import ListNotations.

(** ** Texts *)

Lemma letter_decode : forall l q, letter l -> exists r, decodeRune (l ++ q) = (r, length l) /\ (length l = 1 -> r <> runeError).
Proof.
  intros l q L. destruct L as [c C|c d C D|c d e CD E|c d e f CD E F]; cbn [app length]; unfold decodeRune.
  - assert (H : (N_of_ascii c <? 128)%N = true) by (apply N.ltb_lt; unfold byteIn in C; lia). rewrite H. eexists. split; [reflexivity|].
    intros _. unfold byteIn in C. unfold runeError. lia.
  - rewrite (high c 0xC2) by (unfold byteIn in C; lia). assert (L : lead c = Some (2, (0x80, 0xBF)%N)) by (lead_is; reflexivity). rewrite L, (proj2 (within_iff _ _ d) D).
    eexists. split; [reflexivity|discriminate].
  - assert (H : exists lo hi, lead c = Some (3, (lo, hi)) /\ within lo hi d = true /\ (128 <= N_of_ascii c)%N).
    { destruct CD as [[C D]|[[C D]|[[C D]|[C D]]]]; unfold tail, byteIn in *; do 2 eexists; (split; [lead_is; reflexivity|]); (split; [apply within_iff; exact D|lia]). }
    destruct H as (lo & hi & L & W & HI). rewrite (high c 128) by lia. rewrite L, W, (proj2 (within_iff _ _ e) E). cbn [andb]. eexists. split; [reflexivity|discriminate].
  - assert (H : exists lo hi, lead c = Some (4, (lo, hi)) /\ within lo hi d = true /\ (128 <= N_of_ascii c)%N).
    { destruct CD as [[C D]|[[C D]|[C D]]]; unfold tail, byteIn in *; do 2 eexists; (split; [lead_is; reflexivity|]); (split; [apply within_iff; exact D|lia]). }
    destruct H as (lo & hi & L & W & HI). rewrite (high c 128) by lia. rewrite L, W, (proj2 (within_iff _ _ e) E), (proj2 (within_iff _ _ f) F). cbn [andb]. eexists. split; [reflexivity|discriminate].
Qed.
Lemma letter_coerce : forall l q, letter l -> coerce (l ++ q) = l ++ coerce q.
Proof.
  intros l q L. destruct (letter_decode l q L) as (r & D & R). assert (N : l <> []) by (destruct L; discriminate). destruct l as [|c l]; [destruct (N eq_refl)|].
  unfold coerce. change ((c :: l) ++ q) with (c :: (l ++ q)) in *. cbn [coerce_aux]. rewrite D. cbn [length] in *.
  assert (B : ((r =? runeError)%N && (S (length l) =? 1)) = false).
  { destruct l as [|d l]; [|apply andb_false_r]. apply andb_false_iff. left. apply N.eqb_neq, R. reflexivity. }
  rewrite B. cbn [Nat.sub]. rewrite Nat.sub_0_r. cbn [app]. f_equal. apply coerce_skip. reflexivity.
Qed.
Lemma lead_some : forall c n lo hi, lead c = Some (n, (lo, hi)) ->
  (n = 2 /\ byteIn 0xC2 0xDF c /\ lo = 0x80%N /\ hi = 0xBF%N) \/
  (n = 3 /\ forall d, byteIn lo hi d -> (N_of_ascii c = 0xE0%N /\ byteIn 0xA0 0xBF d) \/ (byteIn 0xE1 0xEC c /\ tail d) \/ (N_of_ascii c = 0xED%N /\ byteIn 0x80 0x9F d) \/ (byteIn 0xEE 0xEF c /\ tail d)) \/
  (n = 4 /\ forall d, byteIn lo hi d -> (N_of_ascii c = 0xF0%N /\ byteIn 0x90 0xBF d) \/ (byteIn 0xF1 0xF3 c /\ tail d) \/ (N_of_ascii c = 0xF4%N /\ byteIn 0x80 0x8F d)).
Proof.
  intros c n lo hi H. unfold lead in H. assert (EQ : forall k, within k k c = true -> N_of_ascii c = k) by (intros k W; apply within_iff in W; unfold byteIn in W; lia).
  repeat match type of H with (if within ?lo ?hi c then _ else _) = _ => let W := fresh "W" in destruct (within lo hi c) eqn:W; [injection H as <- <- <-|clear W] end; [..|discriminate];
    try (apply EQ in W); try (apply within_iff in W).
  - left. auto.
  - right. left. split; [reflexivity|]. intros d D. left. auto.
  - right. left. split; [reflexivity|]. intros d D. right. left. auto.
  - right. left. split; [reflexivity|]. intros d D. right. right. left. auto.
  - right. left. split; [reflexivity|]. intros d D. right. right. right. auto.
  - right. right. split; [reflexivity|]. intros d D. left. auto.
  - right. right. split; [reflexivity|]. intros d D. right. left. auto.
  - right. right. split; [reflexivity|]. intros d D. right. right. auto.
Qed.
Lemma decode_letter : forall c s, decodeRune (c :: s) = (runeError, 1) \/ exists l q, letter l /\ c :: s = l ++ q.
Proof.
  intros c s. unfold decodeRune. destruct (N_of_ascii c <? 128)%N eqn:A.
  - right. apply N.ltb_lt in A. exists [c], s. split; [|reflexivity]. constructor. unfold byteIn. lia.
  - destruct (lead c) as [[n [lo hi]]|] eqn:L; [|left; reflexivity]. destruct (lead_some _ _ _ _ L) as [(-> & C & -> & ->)|[(-> & K)|(-> & K)]].
    + destruct s as [|d s]; [left; reflexivity|]. destruct (within 128 191 d) eqn:W; [|left; reflexivity]. right. apply within_iff in W. exists [c; d], s. split; [|reflexivity]. constructor; assumption.
    + destruct s as [|d [|e s]]; try (left; reflexivity). destruct (within lo hi d) eqn:W; [|left; reflexivity]. destruct (within 128 191 e) eqn:WE; [|left; reflexivity].
      right. apply within_iff in W, WE. exists [c; d; e], s. split; [|reflexivity]. constructor; [apply K, W|exact WE].
    + destruct s as [|d [|e [|f s]]]; try (left; reflexivity). destruct (within lo hi d) eqn:W; [|left; reflexivity]. destruct (within 128 191 e) eqn:WE; [|left; reflexivity].
      destruct (within 128 191 f) eqn:WF; [|left; reflexivity]. right. apply within_iff in W, WE, WF. exists [c; d; e; f], s. split; [|reflexivity]. constructor; [apply K, W|exact WE|exact WF].
Qed.
Lemma no_letter : forall c s, decodeRune (c :: s) = (runeError, 1) -> coerce (c :: s) = unknown ++ coerce s.
Proof. intros c s D. unfold coerce. cbn [coerce_aux]. rewrite D. reflexivity. Qed.
Lemma repaired_iff : forall s r, repaired s r <-> r = coerce s.
Proof.
  intros s r. split.
  - intros R. induction R as [|l s r L _ IH|c s r N _ IH]; [reflexivity|rewrite letter_coerce by exact L; congruence|].
    destruct (decode_letter c s) as [D|(l & q & L & E)]; [rewrite (no_letter _ _ D); congruence|destruct (N l q L E)].
  - intros ->. remember (length s) as n eqn:EN. assert (LE : length s <= n) by lia. clear EN. revert s LE. induction n as [|n IH]; intros [|c s] LE; cbn [length] in LE; try lia; try constructor.
    destruct (decode_letter c s) as [D|(l & q & L & E)].
    + rewrite (no_letter _ _ D). constructor; [|apply IH; lia]. intros l q L E. destruct (letter_decode l q L) as (x & X & R). rewrite <- E, D in X. injection X as <- X. exact (R (eq_sym X) eq_refl).
    + rewrite E, (letter_coerce _ _ L). constructor; [exact L|]. apply IH. apply (f_equal (@length _)) in E. rewrite app_length in E. cbn [length] in E. destruct L; cbn [length] in E; lia.
Qed.

(** ** The order of keys *)

Lemma before_iff : forall s t, before s t = true <-> upTo s t.
Proof.
  induction s as [|c s IH]; intros [|d t]; cbn [before].
  - split; [constructor|reflexivity].
  - split; [constructor|reflexivity].
  - split; [discriminate|intros H; inversion H].
  - destruct (Ascii.eqb c d) eqn:E.
    + apply Ascii.eqb_eq in E. subst d. rewrite IH. split; [constructor; assumption|]. intros H. inversion H; subst; [assumption|lia].
    + apply Ascii.eqb_neq in E. rewrite N.ltb_lt. split; [constructor; assumption|]. intros H. inversion H; subst; [congruence|assumption].
Qed.
Lemma upTo_refl : forall s, upTo s s.
Proof. induction s; constructor; assumption. Qed.
Lemma upTo_trans : forall s t, upTo s t -> forall u, upTo t u -> upTo s u.
Proof.
  intros s t H. induction H as [t|c s t _ IH|c d s t L]; intros u U; [constructor| |].
  - inversion U; subst; [constructor; apply IH; assumption|constructor; assumption].
  - inversion U; subst; [constructor; assumption|constructor; lia].
Qed.
Lemma upTo_anti : forall s t, upTo s t -> upTo t s -> s = t.
Proof.
  intros s t H. induction H as [t|c s t _ IH|c d s t L]; intros U; inversion U; subst; try reflexivity; try lia. f_equal. auto.
Qed.
Lemma upTo_total : forall s t, before s t = false -> upTo t s.
Proof.
  induction s as [|c s IH]; intros [|d t]; cbn [before]; try discriminate; [constructor|]. destruct (Ascii.eqb c d) eqn:E.
  - apply Ascii.eqb_eq in E. subst d. intros H. constructor. apply IH, H.
  - apply Ascii.eqb_neq in E. rewrite N.ltb_ge. intros H. constructor. assert (N_of_ascii c <> N_of_ascii d); [|lia]. intros X. apply E. rewrite <- (ascii_N_embedding c), <- (ascii_N_embedding d). congruence.
Qed.
Definition inOrder (x y : bytes * hash) : Prop := upTo (fst x) (fst y).
Lemma insert_sorted : forall x l, StronglySorted inOrder l -> StronglySorted inOrder (insert x l).
Proof.
  intros x l H. induction H as [|y l S IH A]; cbn [insert]; [repeat constructor|]. destruct (before (fst x) (fst y)) eqn:B.
  - constructor; [constructor; assumption|]. apply before_iff in B. constructor; [exact B|]. eapply Forall_impl; [|exact A]. intros z Z. exact (upTo_trans _ _ B _ Z).
  - constructor; [exact IH|]. apply Forall_forall. intros z I. apply (Permutation_in _ (insert_perm _ x l)) in I. destruct I as [<-|I]; [exact (upTo_total _ _ B)|].
    exact (proj1 (Forall_forall _ _) A z I).
Qed.
Lemma sorted_sorted : forall l, StronglySorted inOrder (sorted l).
Proof. induction l as [|x l IH]; [constructor|]. cbn [sorted fold_right]. apply insert_sorted, IH. Qed.

(** ** Maps *)

Lemma put_last : forall l m0 k' h, NoDup (map fst l) -> StronglySorted inOrder l ->
  (hget k' (fold_left (fun m p => hput (coerce (fst p)) (snd p) m) l m0) = Some h <->
   (exists k, In (k, h) l /\ coerce k = k' /\ forall k2 h2, In (k2, h2) l -> coerce k2 = k' -> upTo k2 k) \/
   ((forall k2 h2, In (k2, h2) l -> coerce k2 <> k') /\ hget k' m0 = Some h)).
Proof.
  induction l as [|[k0 h0] l IH]; intros m0 k' h N S; cbn [fold_left fst snd].
  - split; [intros H; right; split; [intros ? ? []|exact H]|intros [(k & [] & _)|[_ H]]; exact H].
  - cbn [map fst] in N. inversion N as [|? ? N1 N2]; subst. inversion S as [|? ? S1 S2]; subst. rewrite (IH _ k' h N2 S1), hget_hput. split.
    + intros [(k & I & C & M)|[F H]].
      * left. exists k. split; [right; exact I|]. split; [exact C|]. intros k2 h2 [E|E] C2; [|exact (M _ _ E C2)]. injection E as <- <-. exact (proj1 (Forall_forall _ _) S2 _ I).
      * destruct (beqb k' (coerce k0)) eqn:E.
        -- apply beqb_eq in E. injection H as <-. left. exists k0. split; [left; reflexivity|]. split; [auto|]. intros k2 h2 [X|X] C2; [injection X as <- <-; apply upTo_refl|destruct (F _ _ X C2)].
        -- right. split; [|exact H]. intros k2 h2 [X|X] C2; [injection X as <- <-; rewrite C2, (proj2 (beqb_eq k' k') eq_refl) in E; discriminate|exact (F _ _ X C2)].
    + intros [(k & [I|I] & C & M)|[F H]].
      * injection I as -> ->. right. split; [|rewrite C, (proj2 (beqb_eq k' k') eq_refl); reflexivity]. intros k2 h2 X C2.
        assert (k2 = k) by (apply upTo_anti; [apply (M k2 h2); [right; exact X|exact C2]|exact (proj1 (Forall_forall _ _) S2 _ X)]). subst k2. apply N1. exact (in_map fst _ _ X).
      * left. exists k. split; [exact I|]. split; [exact C|]. intros k2 h2 X. apply M with (h2 := h2). right. exact X.
      * right. split; [intros k2 h2 X; apply (F k2 h2); right; exact X|]. destruct (beqb k' (coerce k0)) eqn:E; [|exact H]. apply beqb_eq in E. destruct (F k0 h0 (or_introl eq_refl)). auto.
Qed.
Lemma hput_in : forall k k' h m, In k (map fst (hput k' h m)) -> k = k' \/ In k (map fst m).
Proof.
  intros k k' h. induction m as [|[k2 w] m IH]; cbn [hput]; [intros [<-|[]]; auto|]. destruct (beqb k' k2); cbn [map fst]; (intros [<-|I]; [cbn; auto|]).
  - cbn. auto.
  - destruct (IH I); cbn; auto.
Qed.
Lemma hput_nodup : forall k h m, NoDup (map fst m) -> NoDup (map fst (hput k h m)).
Proof.
  intros k h. induction m as [|[k2 w] m IH]; cbn [hput map fst]; intros N; [repeat constructor; intros []|]. inversion N as [|? ? N1 N2]; subst. destruct (beqb k k2) eqn:E; cbn [map fst].
  - apply beqb_eq in E. subst k2. constructor; assumption.
  - constructor; [|apply IH, N2]. intros I. apply hput_in in I. destruct I as [->|I]; [rewrite (proj2 (beqb_eq k k) eq_refl) in E; discriminate|exact (N1 I)].
Qed.
Lemma entries_nodup : forall l, NoDup (map fst (entries l)).
Proof.
  intros l. unfold entries. assert (G : forall l m, NoDup (map fst m) -> NoDup (map fst (fold_left (fun m p => hput (coerce (fst p)) (snd p) m) l m))).
  { clear l. induction l as [|p l IH]; intros m N; [exact N|]. cbn [fold_left]. apply IH, hput_nodup, N. }
  apply G. constructor.
Qed.
Lemma map_getAs : forall t m r, conforms (GMap t) (VMap m) -> all (map (fun p => keyed (fst p) (hashOf t (Some (snd p)))) m) = Some r ->
  forall k' h, hget k' (entries r) = Some h <->
    exists k x, In (k, x) m /\ repaired k k' /\ (forall k2 x2, In (k2, x2) m -> repaired k2 k' -> upTo k2 k) /\ hashOf t (Some x) = Some h.
Proof.
  intros t m r CF A k' h. destruct (map_entries _ _ _ A) as [K1 K2]. inversion CF as [| | | | | | |? ? ND K|]; subst. unfold entries. pose proof (sorted_perm _ r) as P.
  rewrite put_last; [|eapply Permutation_NoDup; [apply Permutation_sym, Permutation_map, P|rewrite K1; exact ND]|apply sorted_sorted]. split.
  - intros [(k & I & C & M)|[_ H]]; [|discriminate]. apply (Permutation_in _ P), K2 in I. destruct I as (x & I & H). exists k, x. split; [exact I|]. split; [apply repaired_iff; auto|].
    split; [|exact H]. intros k2 x2 I2 R. apply repaired_iff in R. assert (I2' := in_map fst _ _ I2). cbn [fst] in I2'. rewrite <- K1 in I2'. apply in_map_iff in I2'.
    destruct I2' as ([k3 h3] & E & I3). cbn [fst] in E. subst k3. apply (M k2 h3); [|auto]. exact (Permutation_in _ (Permutation_sym P) I3).
  - intros (k & x & I & R & M & H). left. exists k. split; [apply (Permutation_in _ (Permutation_sym P)), K2; eauto|]. split; [apply repaired_iff in R; auto|].
    intros k2 h2 I2 C. apply (Permutation_in _ P), K2 in I2. destruct I2 as (x2 & I2 & _). apply (M k2 x2 I2). apply repaired_iff. auto.
Qed.

(** ** Places *)

Lemma here_showsAs : forall t v h, narrow t = true -> zeroOr (conforms t) v -> hashOf t v = Some h -> showsAs t v h.
Proof.
  intros t v h NA C H.
  assert (CASES : (t = GStr /\ v <> None) \/ (exists u, t = GMap u /\ v <> None) \/ ((t = GStr -> v = None) /\ (forall u, t = GMap u -> v = None))).
  { destruct v as [v|]; [|right; right; auto]. destruct t; try (right; right; split; [discriminate|intros; discriminate]); [left; split; [reflexivity|discriminate]|].
    right. left. eexists. split; [reflexivity|discriminate]. }
  destruct CASES as [[-> V]|[(u & -> & V)|[N1 N2]]].
  - destruct v as [v|]; [|destruct (V eq_refl)]. cbn [zeroOr] in C. inversion C; subst. cbn [hashOf] in H. injection H as <-. constructor. apply repaired_iff. reflexivity.
  - destruct v as [v|]; [|destruct (V eq_refl)]. cbn [zeroOr] in C. inversion C; subst. cbn [hashOf] in H. destruct (all _) as [r|]; [|discriminate]. injection H as <-. constructor. apply entries_nodup.
  - apply sa_same; [exact N1|exact N2|]. destruct t; cbn [hashOf] in H.
    + destruct v as [v|]; [inversion C; subst|]; injection H as <-; constructor.
    + rewrite (N1 eq_refl) in *. injection H as <-. constructor.
    + destruct v as [v|]; [inversion C; subst; destruct (finite f); [|discriminate]|]; injection H as <-; constructor.
    + cbn [narrow] in NA. apply N.leb_le in NA. destruct v as [v|]; [inversion C; subst|]; injection H as <-; constructor; [|apply int_0].
      apply f_of_Z_isint. eapply small_uint; eassumption.
    + cbn [narrow] in NA. apply N.leb_le in NA. destruct v as [v|]; [inversion C; subst|]; injection H as <-; constructor; [|apply int_0].
      apply f_of_Z_isint. eapply small_sint; eassumption.
    + destruct v as [v|]; [inversion C; subst|injection H as <-; constructor].
      destruct (all _) as [r|] eqn:A; [|discriminate]. injection H as <-. apply all_some in A. constructor. apply (f_equal (@length _)) in A. rewrite !map_length in A. auto.
    + destruct (all _) as [r|] eqn:A; [|discriminate]. injection H as <-. apply all_some in A. constructor. apply (f_equal (@length _)) in A. rewrite map_length in A.
      destruct v as [v|]; [inversion C; subst; rewrite map_length in A; auto|rewrite repeat_length in A; auto].
    + rewrite (N2 _ eq_refl) in *. injection H as <-. constructor.
    + injection H as <-. destruct v as [v|]; [inversion C|constructor].
    + injection H as <-. destruct v as [v|]; [inversion C|constructor].
    + injection H as <-. destruct v as [v|]; [inversion C|constructor].
    + change (hashOf (GStruct fs) v = Some h) in H. rewrite hash_struct in H. destruct (fieldsOf v fs); [|discriminate]. injection H as <-. constructor.
Qed.

(** One step to a place. *)
Inductive childAs : gty -> option val -> step -> gty -> option val -> Prop :=
| ca_field : forall fs o f t, public f -> declared f fs = Some t -> childAs (GStruct fs) (Some (VObj o)) (Key (b f)) t (fget f o)
| ca_field0 : forall fs f t, public f -> declared f fs = Some t -> childAs (GStruct fs) None (Key (b f)) t None
| ca_slice : forall t l n x, nth_error l n = Some x -> childAs (GSlice t) (Some (VList l)) (Item n) t (Some x)
| ca_array : forall k t l n x, nth_error l n = Some x -> childAs (GArray k t) (Some (VList l)) (Item n) t (Some x)
| ca_array0 : forall k t n, n < k -> childAs (GArray k t) None (Item n) t None
| ca_map : forall t m k x k', In (k, x) m -> repaired k k' -> (forall k2 x2, In (k2, x2) m -> repaired k2 k' -> upTo k2 k) -> childAs (GMap t) (Some (VMap m)) (Key k') t (Some x).
Lemma leads_childAs : forall t v s p u w, leadsAs t v (s :: p) u w <-> exists t' v', childAs t v s t' v' /\ leadsAs t' v' p u w.
Proof.
  intros t v s p u w. split.
  - intros H. inversion H; subst; do 2 eexists; (split; [|eassumption]); try (constructor; assumption). econstructor; eassumption.
  - intros (t' & v' & C & L). inversion C; subst; econstructor; eassumption.
Qed.
Lemma childAs_ok : forall t v s t' v', childAs t v s t' v' -> narrow t = true -> zeroOr (conforms t) v -> narrow t' = true /\ zeroOr (conforms t') v'.
Proof.
  intros t v s t' v' C N CF. inversion C as [? ? ? ? P D|? ? ? P D|? ? ? ? X|? ? ? ? ? X|? ? ? X|? ? ? ? ? X]; subst; cbn [zeroOr] in *.
  - split; [eapply narrow_field; eassumption|]. inversion CF as [| | | | | | | |? ? K]; subst.
    destruct (fget f o) as [x|] eqn:F; [|exact Logic.I]. destruct (K _ _ F) as (u & D' & CX). cbn [zeroOr]. congruence.
  - split; [eapply narrow_field; eassumption|exact Logic.I].
  - split; [exact N|]. inversion CF as [| | | | |? ? K| | |]; subst. apply nth_error_In in X. apply K, X.
  - split; [exact N|]. inversion CF as [| | | | | |? ? ? ? K| |]; subst. apply nth_error_In in X. apply K, X.
  - split; [exact N|exact Logic.I].
  - split; [exact N|]. inversion CF as [| | | | | | |? ? ? K|]; subst. exact (K _ _ X).
Qed.
Lemma childAs_hash : forall t v s t' v' h, zeroOr (conforms t) v -> hashOf t v = Some h -> childAs t v s t' v' ->
  exists x, hashOf t' v' = Some x /\ at_ h [s] = Some x.
Proof.
  intros t v s t' v' h CF H C. inversion C as [? ? ? ? P D|? ? ? P D|? ? ? ? X|? ? ? ? ? X|? ? ? X|? ? ? ? ? X R M]; subst.
  - rewrite hash_struct in H. destruct (fieldsOf (Some (VObj o)) fs) as [m|] eqn:F; [|discriminate]. injection H as <-. apply exported_public in P.
    destruct (proj1 (fields_get _ _ _ F) f t' P D) as (x & G & HX). exists x. cbn [at_]. rewrite G. auto.
  - rewrite hash_struct in H. destruct (fieldsOf None fs) as [m|] eqn:F; [|discriminate]. injection H as <-. apply exported_public in P.
    destruct (proj1 (fields_get _ _ _ F) f t' P D) as (x & G & HX). exists x. cbn [at_]. rewrite G. auto.
  - cbn [hashOf] in H. destruct (all _) as [r|] eqn:A; [|discriminate]. injection H as <-. pose proof (list_get _ _ _ n A) as G. rewrite X in G.
    apply all_some in A. assert (exists y, nth_error r n = Some y) as [y Y].
    { destruct (nth_error r n) as [y|] eqn:Y; [eauto|]. apply nth_error_None in Y. apply (f_equal (@length _)) in A. rewrite !map_length in A.
      assert (n < length l) by (apply nth_error_Some; congruence). lia. }
    exists y. cbn [at_]. rewrite Y in *. auto.
  - cbn [hashOf] in H. destruct (all _) as [r|] eqn:A; [|discriminate]. injection H as <-. pose proof (list_get _ _ _ n A) as G. rewrite X in G.
    apply all_some in A. assert (exists y, nth_error r n = Some y) as [y Y].
    { destruct (nth_error r n) as [y|] eqn:Y; [eauto|]. apply nth_error_None in Y. apply (f_equal (@length _)) in A. rewrite !map_length in A.
      assert (n < length l) by (apply nth_error_Some; congruence). lia. }
    exists y. cbn [at_]. rewrite Y in *. auto.
  - cbn [hashOf] in H. destruct (all _) as [r|] eqn:A; [|discriminate]. injection H as <-. apply all_some in A.
    assert (G : nth_error (repeat (hashOf t' None) k) n = Some (hashOf t' None)) by (clear - X; revert n X; induction k as [|k IH]; intros [|n] X; try lia; cbn; [reflexivity|apply IH; lia]).
    rewrite A in G. rewrite nth_error_map in G. destruct (nth_error r n) as [y|] eqn:Y; [|discriminate]. injection G as G. exists y. cbn [at_]. rewrite Y. auto.
  - cbn [hashOf] in H. destruct (all _) as [r|] eqn:A; [|discriminate]. injection H as <-.
    assert (exists y, hashOf t' (Some x) = Some y) as [y Y].
    { apply all_some in A. assert (I : In (keyed k (hashOf t' (Some x))) (map Some r)) by (rewrite <- A; apply (in_map (fun p => keyed (fst p) (hashOf t' (Some (snd p)))) m (k, x)); exact X).
      apply in_map_iff in I. destruct I as (q & Q & _). destruct (hashOf t' (Some x)); [eauto|discriminate]. }
    exists y. split; [exact Y|]. cbn [at_]. rewrite (proj2 (map_getAs _ _ _ CF A k' y)); [reflexivity|]. exists k, x. auto.
Qed.
Lemma hash_childAs : forall t v s h x, zeroOr (conforms t) v -> hashOf t v = Some h -> at_ h [s] = Some x -> exists t' v', childAs t v s t' v' /\ hashOf t' v' = Some x.
Proof.
  intros t v s h x CF H A. destruct t; try (cbn [hashOf] in H; injection H as <-; destruct s; discriminate).
  - cbn [hashOf] in H. destruct (finite _); [|discriminate]. injection H as <-. destruct s; discriminate.
  - cbn [hashOf] in H. destruct v as [v|]; [|injection H as <-; destruct s; discriminate]. inversion CF; subst.
    destruct (all _) as [r|] eqn:AL; [|discriminate]. injection H as <-. destruct s as [k|n]; [discriminate|]. cbn [at_] in A.
    destruct (nth_error r n) as [y|] eqn:Y; [|discriminate]. injection A as <-. rewrite (list_get _ _ _ n AL) in Y. destruct (nth_error l n) as [w|] eqn:W; [|discriminate].
    exists t, (Some w). split; [constructor; exact W|exact Y].
  - cbn [hashOf] in H. destruct (all _) as [r|] eqn:AL; [|discriminate]. injection H as <-. destruct s as [k|i]; [discriminate|]. cbn [at_] in A.
    destruct (nth_error r i) as [y|] eqn:Y; [|discriminate]. injection A as <-. destruct v as [v|]; [inversion CF; subst|].
    + rewrite (list_get _ _ _ i AL) in Y. destruct (nth_error l i) as [w|] eqn:W; [|discriminate]. exists t, (Some w). split; [constructor; exact W|exact Y].
    + apply all_some in AL. exists t, None. assert (L : i < n) by (apply (f_equal (@length _)) in AL; rewrite repeat_length, map_length in AL; rewrite AL; apply nth_error_Some; congruence).
      split; [constructor; exact L|]. apply (f_equal (fun l => nth_error l i)) in AL. rewrite nth_error_map, Y in AL. cbn [option_map] in AL.
      apply nth_error_In in AL. apply repeat_spec in AL. congruence.
  - cbn [hashOf] in H. destruct v as [v|]; [|injection H as <-; destruct s; discriminate]. inversion CF; subst.
    destruct (all _) as [r|] eqn:AL; [|discriminate]. injection H as <-. destruct s as [k|n]; [|discriminate]. cbn [at_] in A.
    destruct (hget k (entries r)) as [y|] eqn:Y; [|discriminate]. injection A as <-. apply (map_getAs _ _ _ CF AL) in Y. destruct Y as (k0 & w & I & R & M & W).
    exists t, (Some w). split; [econstructor; eassumption|exact W].
  - rewrite hash_struct in H. destruct (fieldsOf v fs) as [m|] eqn:F; [|discriminate]. injection H as <-. destruct s as [k|n]; [|discriminate]. cbn [at_] in A.
    destruct (hget k m) as [y|] eqn:Y; [|discriminate]. injection A as <-. destruct (proj2 (fields_get _ _ _ F) k y Y) as (f & u & -> & X & D & HX). apply exported_public in X.
    destruct v as [v|]; [inversion CF; subst; exists u, (fget f o)|exists u, None]; (split; [constructor; assumption|exact HX]).
Qed.

Lemma placesAs : forall p t v h, narrow t = true -> zeroOr (conforms t) v -> hashOf t v = Some h ->
  (forall u w, leadsAs t v p u w -> exists x, at_ h p = Some x /\ showsAs u w x) /\ (forall x, at_ h p = Some x -> exists u w, leadsAs t v p u w /\ showsAs u w x).
Proof.
  induction p as [|s p IH]; intros t v h N CF H.
  - pose proof (here_showsAs t v h N CF H) as SH. split.
    + intros u w L. inversion L; subst. exists h. split; [reflexivity|exact SH].
    + intros x A. injection A as <-. exists t, v. split; [constructor|exact SH].
  - split.
    + intros u w L. apply leads_childAs in L. destruct L as (t' & v' & C & L). destruct (childAs_hash _ _ _ _ _ _ CF H C) as (y & HY & AY).
      destruct (childAs_ok _ _ _ _ _ C N CF) as (N' & C'). rewrite at_step, AY. exact (proj1 (IH t' v' y N' C' HY) u w L).
    + intros x A. rewrite at_step in A. destruct (at_ h [s]) as [y|] eqn:AY; [|discriminate]. destruct (hash_childAs _ _ _ _ _ CF H AY) as (t' & v' & C & HY).
      destruct (childAs_ok _ _ _ _ _ C N CF) as (N' & C'). destruct (proj2 (IH t' v' y N' C' HY) x A) as (u & w & L & SH).
      exists u, w. split; [apply leads_childAs; eauto|exact SH].
Qed.
