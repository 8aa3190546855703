(** Proofs about toHashMap. *)
From Coq Require Import String Ascii List Arith NArith ZArith Bool Lia SpecFloat Permutation.
From Verif Require Import GoBase GoBaseFacts FloatModel FloatSpec FloatArith A2lIR A2lTextModel GoTypes A2lStructs HashModel HashSpec.
Import ListNotations.

(** ** UTF-8 *)

Lemma within_iff : forall lo hi c, within lo hi c = true <-> byteIn lo hi c.
Proof. intros lo hi c. unfold within, byteIn. rewrite andb_true_iff, !N.leb_le. tauto. Qed.
Lemma within_no : forall lo hi c, (N_of_ascii c < lo \/ hi < N_of_ascii c)%N -> within lo hi c = false.
Proof. intros lo hi c H. unfold within. apply andb_false_iff. rewrite !N.leb_gt. lia. Qed.

Ltac lead_is := unfold lead; repeat match goal with
  | |- context [within ?lo ?hi ?c] => first [rewrite (proj2 (within_iff lo hi c)) by (unfold byteIn in *; lia) | rewrite (within_no lo hi c) by (unfold byteIn in *; lia)]
  end; cbv iota beta.

Lemma coerce_skip : forall n s, length s = n -> forall t, coerce_aux n (s ++ t) = s ++ coerce_aux 0 t.
Proof. induction n as [|n IH]; intros [|c s] L t; try discriminate; [reflexivity|]. cbn [coerce_aux app]. f_equal. apply IH. injection L as L. exact L. Qed.

Lemma high : forall c lo, (128 <= lo)%N -> (lo <= N_of_ascii c)%N -> (N_of_ascii c <? 128)%N = false.
Proof. intros. apply N.ltb_ge. lia. Qed.

Lemma coerce_utf8 : forall s, utf8 s -> coerce s = s.
Proof.
  unfold coerce. intros s U. induction U as [|c s C _ IH|c d s C D _ IH|c d e s CD E _ IH|c d e f s CD E F _ IH]; [reflexivity| | | |].
  - cbn [coerce_aux]. unfold decodeRune. assert (H : (N_of_ascii c <? 128)%N = true) by (apply N.ltb_lt; unfold byteIn in C; lia). rewrite H.
    assert (R : (N_of_ascii c =? runeError)%N = false) by (apply N.eqb_neq; unfold byteIn in C; unfold runeError; lia). rewrite R. cbn [andb Nat.sub]. rewrite IH. reflexivity.
  - change (c :: d :: s) with ((c :: [d]) ++ s). cbn [coerce_aux app]. unfold decodeRune. rewrite (high c 0xC2) by (unfold byteIn in C; lia).
    assert (L : lead c = Some (2, (0x80, 0xBF)%N)) by (lead_is; reflexivity). rewrite L. rewrite (proj2 (within_iff _ _ d) D). change (2 =? 1) with false. rewrite andb_false_r.
    change (2 - 1) with 1. f_equal. etransitivity; [exact (coerce_skip 1 [d] eq_refl s)|]. rewrite IH. reflexivity.
  - change (c :: d :: e :: s) with (c :: [d; e] ++ s). cbn [coerce_aux app].
    assert (H : exists lo hi, lead c = Some (3, (lo, hi)) /\ within lo hi d = true /\ (128 <= N_of_ascii c)%N).
    { destruct CD as [[C D]|[[C D]|[[C D]|[C D]]]]; unfold tail, byteIn in *.
      - exists 0xA0%N, 0xBF%N. split; [lead_is; reflexivity|]. split; [apply within_iff; exact D|lia].
      - exists 0x80%N, 0xBF%N. split; [lead_is; reflexivity|]. split; [apply within_iff; exact D|lia].
      - exists 0x80%N, 0x9F%N. split; [lead_is; reflexivity|]. split; [apply within_iff; exact D|lia].
      - exists 0x80%N, 0xBF%N. split; [lead_is; reflexivity|]. split; [apply within_iff; exact D|lia]. }
    destruct H as (lo & hi & L & W & HI). unfold decodeRune. rewrite (high c 128) by lia. rewrite L, W, (proj2 (within_iff _ _ e) E). cbn [andb].
    change (3 =? 1) with false. rewrite andb_false_r. change (3 - 1) with 2. f_equal. etransitivity; [exact (coerce_skip 2 [d; e] eq_refl s)|]. rewrite IH. reflexivity.
  - change (c :: d :: e :: f :: s) with (c :: [d; e; f] ++ s). cbn [coerce_aux app].
    assert (H : exists lo hi, lead c = Some (4, (lo, hi)) /\ within lo hi d = true /\ (128 <= N_of_ascii c)%N).
    { destruct CD as [[C D]|[[C D]|[C D]]]; unfold tail, byteIn in *.
      - exists 0x90%N, 0xBF%N. split; [lead_is; reflexivity|]. split; [apply within_iff; exact D|lia].
      - exists 0x80%N, 0xBF%N. split; [lead_is; reflexivity|]. split; [apply within_iff; exact D|lia].
      - exists 0x80%N, 0x8F%N. split; [lead_is; reflexivity|]. split; [apply within_iff; exact D|lia]. }
    destruct H as (lo & hi & L & W & HI). unfold decodeRune. rewrite (high c 128) by lia. rewrite L, W, (proj2 (within_iff _ _ e) E), (proj2 (within_iff _ _ f) F). cbn [andb].
    change (4 =? 1) with false. rewrite andb_false_r. change (4 - 1) with 3. f_equal. etransitivity; [exact (coerce_skip 3 [d; e; f] eq_refl s)|]. rewrite IH. reflexivity.
Qed.

(** ** Maps *)

Lemma insert_perm : forall A (x : bytes * A) l, Permutation (insert x l) (x :: l).
Proof.
  intros A x. induction l as [|y l IH]; cbn [insert]; [apply Permutation_refl|]. destruct (before (fst x) (fst y)); [apply Permutation_refl|].
  eapply perm_trans; [apply perm_skip, IH|apply perm_swap].
Qed.
Lemma sorted_perm : forall A (l : list (bytes * A)), Permutation (sorted l) l.
Proof.
  intros A. induction l as [|x l IH]; [apply Permutation_refl|]. cbn [sorted fold_right]. eapply perm_trans; [apply insert_perm|]. apply perm_skip, IH.
Qed.
Lemma hget_hput : forall k k' h m, hget k (hput k' h m) = if beqb k k' then Some h else hget k m.
Proof.
  intros k k' h. induction m as [|[k2 w] m IH]; cbn [hput hget].
  - reflexivity.
  - destruct (beqb k' k2) eqn:E; cbn [hget].
    + apply beqb_eq in E. subst k2. destruct (beqb k k'); reflexivity.
    + destruct (beqb k k2) eqn:E2; [|exact IH]. destruct (beqb k k') eqn:E3; [|reflexivity].
      apply beqb_eq in E2, E3. rewrite <- E2, <- E3 in E. rewrite (proj2 (beqb_eq k k) eq_refl) in E. discriminate.
Qed.
Lemma hput_len : forall k h m, hget k m = None -> length (hput k h m) = S (length m).
Proof.
  intros k h. induction m as [|[k' w] m IH]; cbn [hput hget]; intros H; [reflexivity|]. destruct (beqb k k'); [discriminate|]. cbn [length]. rewrite IH by exact H. reflexivity.
Qed.
Lemma put_all : forall l m0, NoDup (map fst l) -> (forall k h, In (k, h) l -> coerce k = k) -> (forall k h, In (k, h) l -> hget k m0 = None) ->
  let m := fold_left (fun m p => hput (coerce (fst p)) (snd p) m) l m0 in
  length m = length l + length m0 /\ forall k h, hget k m = Some h <-> (In (k, h) l \/ hget k m0 = Some h).
Proof.
  induction l as [|[k0 h0] l IH]; intros m0 N C D; cbn [fold_left fst snd length].
  - split; [reflexivity|]. intros k h. split; [auto|intros [[]|H]; exact H].
  - rewrite (C k0 h0 (or_introl eq_refl)). cbn [map fst] in N. inversion N as [|? ? N1 N2]; subst.
    destruct (IH (hput k0 h0 m0) N2) as [L G].
    + intros k h I. apply (C k h). right. exact I.
    + intros k h I. rewrite hget_hput. destruct (beqb k k0) eqn:E; [|apply (D k h); right; exact I]. apply beqb_eq in E. subst k. destruct N1. apply (in_map fst) in I. exact I.
    + split.
      * rewrite L. rewrite hput_len by (apply (D k0 h0); left; reflexivity). lia.
      * intros k h. rewrite G, hget_hput. destruct (beqb k k0) eqn:E.
        -- apply beqb_eq in E. subst k. split.
           ++ intros [I|I]; [left; right; exact I|injection I as <-; left; left; reflexivity].
           ++ intros [[I|I]|I]; [injection I as <-; right; reflexivity|left; exact I|].
              rewrite (D k0 h0 (or_introl eq_refl)) in I. discriminate.
        -- split; [intros [I|I]; [left; right; exact I|right; exact I]|].
           intros [[I|I]|I]; [injection I as -> ->; assert (beqb k k = true) by (apply beqb_eq; reflexivity); congruence|left; exact I|right; exact I].
Qed.
Lemma entries_get : forall l, NoDup (map fst l) -> (forall k h, In (k, h) l -> coerce k = k) ->
  length (entries l) = length l /\ forall k h, hget k (entries l) = Some h <-> In (k, h) l.
Proof.
  intros l N C. pose proof (sorted_perm _ l) as P. unfold entries. destruct (put_all (sorted l) []) as [L G].
  - eapply Permutation_NoDup; [|exact N]. apply Permutation_sym, Permutation_map, P.
  - intros k h I. apply (C k h). eapply Permutation_in; [exact P|exact I].
  - reflexivity.
  - split; [rewrite L; cbn [length]; rewrite (Permutation_length P); lia|]. intros k h. rewrite G. split.
    + intros [I|I]; [eapply Permutation_in; [exact P|exact I]|discriminate].
    + intros I. left. eapply Permutation_in; [apply Permutation_sym, P|exact I].
Qed.

(** ** The parts of a value *)

Lemma all_some : forall A (l : list (option A)) r, all l = Some r -> l = map Some r.
Proof.
  intros A. induction l as [|[x|] l IH]; cbn [all]; intros r H; [injection H as <-; reflexivity| |discriminate].
  destruct (all l) as [q|]; [|discriminate]. injection H as <-. cbn [map]. f_equal. apply IH. reflexivity.
Qed.
Lemma all_none : forall A (l : list (option A)), all l = None <-> In None l.
Proof.
  intros A. induction l as [|[x|] l IH]; cbn [all]; [split; [discriminate|intros []]| |split; [left; reflexivity|reflexivity]].
  destruct (all l) as [q|]; cbn [option_map].
  - split; [discriminate|]. intros [H|H]; [discriminate|]. apply IH in H. discriminate.
  - split; [intros _; right; apply IH; reflexivity|reflexivity].
Qed.
Lemma exported_public : forall f, exported f = true <-> public f.
Proof.
  intros [|c f]; [split; [discriminate|intros (c & r & E & _); discriminate]|]. unfold exported, public. rewrite andb_true_iff, !N.leb_le. split.
  - intros H. exists c, f. split; [reflexivity|]. rewrite <- (ascii_N_embedding c). 
    assert (K : forall n, (65 <= n <= 90)%N -> In (ascii_of_N n) (list_ascii_of_string "ABCDEFGHIJKLMNOPQRSTUVWXYZ")).
    { intros n L. assert (E : exists k, n = (65 + N.of_nat k)%N /\ k < 26) by (exists (N.to_nat (n - 65)); lia). destruct E as (k & -> & Q).
      do 26 (destruct k as [|k]; [cbn; tauto|]). lia. }
    apply K. exact H.
  - intros (d & r & E & I). injection E as <- <-. cbn in I. repeat (destruct I as [<-|I]; [split; vm_compute; discriminate|]). destruct I.
Qed.

(** the fields of a struct *)
Fixpoint fieldsOf (v : option val) (fs : list (string * gty)) : option (list (bytes * hash)) :=
  match fs with
  | [] => Some []
  | (f, u) :: fs' =>
      if exported f then
        match hashOf u (fieldOf f v), fieldsOf v fs' with
        | Some h, Some l => Some ((b f, h) :: l)
        | _, _ => None
        end
      else fieldsOf v fs'
  end.
Lemma hash_struct : forall fs v, hashOf (GStruct fs) v = option_map HMap (fieldsOf v fs).
Proof.
  intros fs v. cbn [hashOf]. f_equal. induction fs as [|[f u] fs IH]; cbn [fieldsOf]; [reflexivity|]. rewrite <- IH. reflexivity.
Qed.
Lemma b_eqb : forall f g, beqb (b f) (b g) = String.eqb f g.
Proof.
  intros f g. destruct (String.eqb_spec f g) as [->|N]; [apply beqb_eq; reflexivity|]. destruct (beqb (b f) (b g)) eqn:E; [|reflexivity]. assert (b_inj : forall x y, b x = b y -> x = y) by (intros x y Q; rewrite <- (string_of_list_ascii_of_string x), <- (string_of_list_ascii_of_string y); unfold b in Q; rewrite Q; reflexivity).
  apply beqb_eq in E. apply b_inj in E. contradiction.
Qed.
Lemma fields_get : forall v fs m, fieldsOf v fs = Some m ->
  (forall f u, exported f = true -> declared f fs = Some u -> exists h, hget (b f) m = Some h /\ hashOf u (fieldOf f v) = Some h) /\
  (forall k h, hget k m = Some h -> exists f u, k = b f /\ exported f = true /\ declared f fs = Some u /\ hashOf u (fieldOf f v) = Some h).
Proof.
  intros v. induction fs as [|[g t] fs IH]; cbn [fieldsOf declared]; intros m H.
  - injection H as <-. split; [discriminate|discriminate].
  - destruct (exported g) eqn:X.
    + destruct (hashOf t (fieldOf g v)) as [h0|] eqn:HG; [|discriminate]. destruct (fieldsOf v fs) as [l|]; [|discriminate]. injection H as <-.
      destruct (IH l eq_refl) as [I1 I2]. split.
      * intros f u XF D. cbn [hget]. rewrite b_eqb. destruct (String.eqb_spec f g) as [->|N]; [injection D as <-; eauto|apply I1; assumption].
      * intros k h G. cbn [hget] in G. destruct (beqb k (b g)) eqn:E.
        -- apply beqb_eq in E. injection G as <-. exists g, t. rewrite String.eqb_refl. auto.
        -- destruct (I2 _ _ G) as (f & u & -> & XF & D & HF). exists f, u. rewrite b_eqb in E. rewrite E. auto.
    + destruct (IH m H) as [I1 I2]. split.
      * intros f u XF D. destruct (String.eqb_spec f g) as [->|N]; [congruence|apply I1; assumption].
      * intros k h G. destruct (I2 _ _ G) as (f & u & -> & XF & D & HF). exists f, u. destruct (String.eqb_spec f g) as [->|N]; [congruence|]. auto.
Qed.
Lemma fields_none : forall v fs, fieldsOf v fs = None -> exists f u, exported f = true /\ In (f, u) fs /\ hashOf u (fieldOf f v) = None.
Proof.
  intros v. induction fs as [|[g t] fs IH]; cbn [fieldsOf]; intros H; [discriminate|]. destruct (exported g) eqn:X.
  - destruct (hashOf t (fieldOf g v)) as [h0|] eqn:HG; [|exists g, t; cbn; auto]. destruct (fieldsOf v fs) as [l|]; [discriminate|].
    destruct (IH eq_refl) as (f & u & A & B & C). exists f, u. cbn; auto.
  - destruct (IH H) as (f & u & A & B & C). exists f, u. cbn; auto.
Qed.

Definition zeroOr (P : val -> Prop) (v : option val) : Prop := match v with Some x => P x | None => True end.

(** ** What is where *)

Lemma small_uint : forall k z, (k <= 32)%N -> (0 <= z < 2 ^ Z.of_N k)%Z -> (Z.abs z < 2 ^ 53)%Z.
Proof. intros k z K H. assert ((2 ^ Z.of_N k <= 2 ^ 32)%Z) by (apply Z.pow_le_mono_r; lia). lia. Qed.
Lemma small_sint : forall k z, (k <= 32)%N -> (- 2 ^ (Z.of_N k - 1) <= z < 2 ^ (Z.of_N k - 1))%Z -> (Z.abs z < 2 ^ 53)%Z.
Proof.
  intros k z K H. assert ((2 ^ (Z.of_N k - 1) <= 2 ^ 32)%Z) by (apply Z.pow_le_mono_r; lia). lia.
Qed.
Lemma int_0 : isint (f_of_Z 0) 0.
Proof. apply f_of_Z_isint. reflexivity. Qed.

(** integers of at most 32 bits everywhere *)
Fixpoint narrow (t : gty) : bool :=
  match t with
  | GUint k | GSint k => N.leb k 32
  | GSlice u | GArray _ u | GMap u | GNumbered u => narrow u
  | GStruct fs => (fix go fs := match fs with [] => true | (_, u) :: fs' => narrow u && go fs' end) fs
  | _ => true
  end.
Lemma narrow_field : forall fs f u, narrow (GStruct fs) = true -> declared f fs = Some u -> narrow u = true.
Proof.
  induction fs as [|[g t] fs IH]; intros f u N D; [discriminate|]. cbn [narrow] in N. apply andb_true_iff in N. destruct N as [N1 N2]. cbn [declared] in D.
  destruct (String.eqb f g); [injection D as <-; exact N1|]. eapply IH; [exact N2|exact D].
Qed.

Lemma here_shows : forall t v h, narrow t = true -> zeroOr (conforms t) v -> zeroOr encoded v -> hashOf t v = Some h -> shows t v h.
Proof.
  intros t v h NA C E H. destruct t; cbn [hashOf] in H.
  - destruct v as [v|]; [inversion C; subst|]; injection H as <-; constructor.
  - destruct v as [v|]; [inversion C; subst; inversion E as [? U| | | | | |]; subst; rewrite coerce_utf8 in H by exact U|]; injection H as <-; constructor.
  - destruct v as [v|]; [inversion C; subst; destruct (finite f); [|discriminate]|]; injection H as <-; constructor.
  - cbn [narrow] in NA. apply N.leb_le in NA. destruct v as [v|]; [inversion C; subst|]; injection H as <-; constructor; [|apply int_0].
    apply f_of_Z_isint. eapply small_uint; eassumption.
  - cbn [narrow] in NA. apply N.leb_le in NA. destruct v as [v|]; [inversion C; subst|]; injection H as <-; constructor; [|apply int_0].
    apply f_of_Z_isint. eapply small_sint; eassumption.
  - destruct v as [v|]; [inversion C; subst|injection H as <-; constructor].
    destruct (all _) as [r|] eqn:A; [|discriminate]. injection H as <-. apply all_some in A. constructor. apply (f_equal (@length _)) in A. rewrite !map_length in A. auto.
  - destruct (all _) as [r|] eqn:A; [|discriminate]. injection H as <-. apply all_some in A. constructor. apply (f_equal (@length _)) in A. rewrite map_length in A.
    destruct v as [v|]; [inversion C; subst; rewrite map_length in A; auto|rewrite repeat_length in A; auto].
  - destruct v as [v|]; [inversion C; subst|injection H as <-; constructor].
    destruct (all _) as [r|] eqn:A; [|discriminate]. injection H as <-. apply all_some in A. constructor. 
    assert (K : map fst r = map fst m /\ length r = length m).
    { clear - A. revert r A. induction m as [|[k x] m IH]; intros [|[k' h] r] A; try discriminate; [auto|]. cbn [map fst snd] in A. injection A as A1 A2.
      destruct (hashOf t (Some x)); [|discriminate]. injection A1 as -> ->. destruct (IH _ A2) as [K1 K2]. cbn [map fst length]. rewrite K1, K2. auto. }
    destruct K as [K1 K2]. rewrite <- K2. apply entries_get; [rewrite K1; assumption|].
    intros k h I. apply (in_map fst) in I. rewrite K1 in I. apply in_map_iff in I. destruct I as ([k' x] & E1 & I). cbn [fst] in E1. subst k'.
    inversion E as [| | | | |? EM|]; subst. apply coerce_utf8. apply (EM _ _ I).
  - injection H as <-. destruct v as [v|]; [inversion C|constructor].
  - injection H as <-. destruct v as [v|]; [inversion C|constructor].
  - injection H as <-. destruct v as [v|]; [inversion C|constructor].
  - fold (hashOf (GStruct fs) v) in H. change (hashOf (GStruct fs) v = Some h) in H. rewrite hash_struct in H. destruct (fieldsOf v fs); [|discriminate]. injection H as <-. constructor.
Qed.

(** One step to a place. *)
Inductive child : gty -> option val -> step -> gty -> option val -> Prop :=
| c_field : forall fs o f t, public f -> declared f fs = Some t -> child (GStruct fs) (Some (VObj o)) (Key (b f)) t (fget f o)
| c_field0 : forall fs f t, public f -> declared f fs = Some t -> child (GStruct fs) None (Key (b f)) t None
| c_slice : forall t l n x, nth_error l n = Some x -> child (GSlice t) (Some (VList l)) (Item n) t (Some x)
| c_array : forall k t l n x, nth_error l n = Some x -> child (GArray k t) (Some (VList l)) (Item n) t (Some x)
| c_array0 : forall k t n, n < k -> child (GArray k t) None (Item n) t None
| c_map : forall t m k x, In (k, x) m -> child (GMap t) (Some (VMap m)) (Key k) t (Some x).
Lemma leads_child : forall t v s p u w, leads t v (s :: p) u w <-> exists t' v', child t v s t' v' /\ leads t' v' p u w.
Proof.
  intros t v s p u w. split.
  - intros H. inversion H; subst; do 2 eexists; (split; [|eassumption]); constructor; assumption.
  - intros (t' & v' & C & L). inversion C; subst; econstructor; eassumption.
Qed.
Lemma child_ok : forall t v s t' v', child t v s t' v' -> narrow t = true -> zeroOr (conforms t) v -> zeroOr encoded v ->
  narrow t' = true /\ zeroOr (conforms t') v' /\ zeroOr encoded v'.
Proof.
  intros t v s t' v' C N CF E. inversion C as [? ? ? ? P D|? ? ? P D|? ? ? ? X|? ? ? ? ? X|? ? ? X|? ? ? ? X]; subst; cbn [zeroOr] in *.
  - split; [eapply narrow_field; eassumption|]. inversion CF as [| | | | | | | |? ? K]; subst. inversion E as [| | | | | |? KE]; subst.
    destruct (fget f o) as [x|] eqn:F; [|split; exact Logic.I]. destruct (K _ _ F) as (u & D' & CX). split; [cbn [zeroOr]; congruence|]. exact (KE _ _ F).
  - split; [eapply narrow_field; eassumption|split; exact Logic.I].
  - split; [exact N|]. inversion CF as [| | | | |? ? K| | |]; subst. inversion E as [| | | |? KE| |]; subst. apply nth_error_In in X. split; [apply K, X|apply KE, X].
  - split; [exact N|]. inversion CF as [| | | | | |? ? ? ? K| |]; subst. inversion E as [| | | |? KE| |]; subst. apply nth_error_In in X. split; [apply K, X|apply KE, X].
  - split; [exact N|split; exact Logic.I].
  - split; [exact N|]. inversion CF as [| | | | | | |? ? ? K|]; subst. inversion E as [| | | | |? KE|]; subst. split; [exact (K _ _ X)|apply (KE _ _ X)].
Qed.

Lemma map_entries : forall t m r, all (map (fun p => keyed (fst p) (hashOf t (Some (snd p)))) m) = Some r ->
  map fst r = map fst m /\ forall k h, In (k, h) r <-> exists x, In (k, x) m /\ hashOf t (Some x) = Some h.
Proof.
  intros t. induction m as [|[k x] m IH]; intros r A; cbn [map all fst snd] in A.
  - injection A as <-. split; [reflexivity|]. intros k h. split; [intros []|intros (x & [] & _)].
  - unfold keyed at 1 in A. destruct (hashOf t (Some x)) as [h0|] eqn:H; [|discriminate]. cbn [option_map] in A.
    destruct (all _) as [q|] eqn:Q; [|discriminate]. injection A as <-. destruct (IH q eq_refl) as [K1 K2]. cbn [map fst]. split; [rewrite K1; reflexivity|].
    intros k' h'. split.
    + intros [I|I]; [injection I as <- <-; exists x; cbn; auto|]. apply K2 in I. destruct I as (y & I & E). exists y. cbn; auto.
    + intros (y & [I|I] & E); [injection I as <- <-; left; congruence|]. right. apply K2. eauto.
Qed.
Lemma map_get : forall t m r, conforms (GMap t) (VMap m) -> encoded (VMap m) -> all (map (fun p => keyed (fst p) (hashOf t (Some (snd p)))) m) = Some r ->
  forall k h, hget k (entries r) = Some h <-> exists x, In (k, x) m /\ hashOf t (Some x) = Some h.
Proof.
  intros t m r CF E A k h. destruct (map_entries _ _ _ A) as [K1 K2]. inversion CF as [| | | | | | |? ? ND K|]; subst. inversion E as [| | | | |? KE|]; subst.
  rewrite <- K2. apply entries_get; [rewrite K1; exact ND|]. intros k' h' I. apply K2 in I. destruct I as (x & I & _). apply coerce_utf8, (KE _ _ I).
Qed.
Lemma list_get : forall t l r n, all (map (fun x => hashOf t (Some x)) l) = Some r ->
  nth_error r n = match nth_error l n with Some x => hashOf t (Some x) | None => None end.
Proof.
  intros t l r n A. apply all_some in A. revert r n A. induction l as [|x l IH]; intros [|h r] [|n] A; try discriminate; cbn [nth_error map] in *; try reflexivity.
  - injection A as A _. congruence.
  - injection A as _ A. apply IH, A.
Qed.

Lemma child_hash : forall t v s t' v' h, zeroOr (conforms t) v -> zeroOr encoded v -> hashOf t v = Some h -> child t v s t' v' ->
  exists x, hashOf t' v' = Some x /\ at_ h [s] = Some x.
Proof.
  intros t v s t' v' h CF E H C. inversion C as [? ? ? ? P D|? ? ? P D|? ? ? ? X|? ? ? ? ? X|? ? ? X|? ? ? ? X]; subst.
  - rewrite hash_struct in H. destruct (fieldsOf (Some (VObj o)) fs) as [m|] eqn:F; [|discriminate]. injection H as <-. apply exported_public in P.
    destruct (proj1 (fields_get _ _ _ F) f t' P D) as (x & G & HX). exists x. cbn [at_]. rewrite G. auto.
  - rewrite hash_struct in H. destruct (fieldsOf None fs) as [m|] eqn:F; [|discriminate]. injection H as <-. apply exported_public in P.
    destruct (proj1 (fields_get _ _ _ F) f t' P D) as (x & G & HX). exists x. cbn [at_]. rewrite G. auto.
  - cbn [hashOf] in H. destruct (all _) as [r|] eqn:A; [|discriminate]. injection H as <-. pose proof (list_get _ _ _ n A) as G. rewrite X in G.
    apply all_some in A. assert (exists y, nth_error r n = Some y) as [y Y].
    { destruct (nth_error r n) as [y|] eqn:Y; [eauto|]. apply nth_error_None in Y. apply (f_equal (@length _)) in A. rewrite !map_length in A.
      assert (n < length l) by (apply nth_error_Some; congruence). lia. }
    exists y. cbn [at_]. rewrite Y in *. auto.
  - cbn [hashOf] in H. destruct (all _) as [r|] eqn:A; [|discriminate]. injection H as <-. pose proof (list_get _ _ _ n A) as G. rewrite X in G.
    apply all_some in A. assert (exists y, nth_error r n = Some y) as [y Y].
    { destruct (nth_error r n) as [y|] eqn:Y; [eauto|]. apply nth_error_None in Y. apply (f_equal (@length _)) in A. rewrite !map_length in A.
      assert (n < length l) by (apply nth_error_Some; congruence). lia. }
    exists y. cbn [at_]. rewrite Y in *. auto.
  - cbn [hashOf] in H. destruct (all _) as [r|] eqn:A; [|discriminate]. injection H as <-. apply all_some in A.
    assert (G : nth_error (repeat (hashOf t' None) k) n = Some (hashOf t' None)) by (clear - X; revert n X; induction k as [|k IH]; intros [|n] X; try lia; cbn; [reflexivity|apply IH; lia]).
    rewrite A in G. rewrite nth_error_map in G. destruct (nth_error r n) as [y|] eqn:Y; [|discriminate]. injection G as G. exists y. cbn [at_]. rewrite Y. auto.
  - cbn [hashOf] in H. destruct (all _) as [r|] eqn:A; [|discriminate]. injection H as <-.
    assert (exists y, hashOf t' (Some x) = Some y) as [y Y].
    { apply all_some in A. assert (I : In (keyed k (hashOf t' (Some x))) (map Some r)) by (rewrite <- A; apply (in_map (fun p => keyed (fst p) (hashOf t' (Some (snd p)))) m (k, x)); exact X).
      apply in_map_iff in I. destruct I as (q & Q & _). destruct (hashOf t' (Some x)); [eauto|discriminate]. }
    exists y. split; [exact Y|]. cbn [at_]. rewrite (proj2 (map_get _ _ _ CF E A k y)); [reflexivity|]. eauto.
Qed.
Lemma hash_child : forall t v s h x, zeroOr (conforms t) v -> zeroOr encoded v -> hashOf t v = Some h -> at_ h [s] = Some x ->
  exists t' v', child t v s t' v' /\ hashOf t' v' = Some x.
Proof.
  intros t v s h x CF E H A. destruct t; try (cbn [hashOf] in H; injection H as <-; destruct s; discriminate).
  - cbn [hashOf] in H. destruct (finite _); [|discriminate]. injection H as <-. destruct s; discriminate.
  - cbn [hashOf] in H. destruct v as [v|]; [|injection H as <-; destruct s; discriminate]. inversion CF; subst.
    destruct (all _) as [r|] eqn:AL; [|discriminate]. injection H as <-. destruct s as [k|n]; [discriminate|]. cbn [at_] in A.
    destruct (nth_error r n) as [y|] eqn:Y; [|discriminate]. injection A as <-. rewrite (list_get _ _ _ n AL) in Y. destruct (nth_error l n) as [w|] eqn:W; [|discriminate].
    exists t, (Some w). split; [constructor; exact W|exact Y].
  - cbn [hashOf] in H. destruct (all _) as [r|] eqn:AL; [|discriminate]. injection H as <-. destruct s as [k|i]; [discriminate|]. cbn [at_] in A.
    destruct (nth_error r i) as [y|] eqn:Y; [|discriminate]. injection A as <-. destruct v as [v|]; [inversion CF; subst|].
    + rewrite (list_get _ _ _ i AL) in Y. destruct (nth_error l i) as [w|] eqn:W; [|discriminate]. exists t, (Some w). split; [constructor; exact W|exact Y].
    + apply all_some in AL. exists t, None. assert (L : i < n) by (apply (f_equal (@length _)) in AL; rewrite repeat_length, map_length in AL; rewrite AL; apply nth_error_Some; congruence).
      split; [constructor; exact L|]. apply (f_equal (fun l => nth_error l i)) in AL. rewrite nth_error_map, Y in AL. cbn [option_map] in AL.
      apply nth_error_In in AL. apply repeat_spec in AL. congruence.
  - cbn [hashOf] in H. destruct v as [v|]; [|injection H as <-; destruct s; discriminate]. inversion CF; subst.
    destruct (all _) as [r|] eqn:AL; [|discriminate]. injection H as <-. destruct s as [k|n]; [|discriminate]. cbn [at_] in A.
    destruct (hget k (entries r)) as [y|] eqn:Y; [|discriminate]. injection A as <-. apply (map_get _ _ _ CF E AL) in Y. destruct Y as (w & I & W).
    exists t, (Some w). split; [constructor; exact I|exact W].
  - rewrite hash_struct in H. destruct (fieldsOf v fs) as [m|] eqn:F; [|discriminate]. injection H as <-. destruct s as [k|n]; [|discriminate]. cbn [at_] in A.
    destruct (hget k m) as [y|] eqn:Y; [|discriminate]. injection A as <-. destruct (proj2 (fields_get _ _ _ F) k y Y) as (f & u & -> & X & D & HX). apply exported_public in X.
    destruct v as [v|]; [inversion CF; subst; exists u, (fget f o)|exists u, None]; (split; [constructor; assumption|exact HX]).
Qed.
Lemma at_step : forall h s p, at_ h (s :: p) = match at_ h [s] with Some x => at_ x p | None => None end.
Proof. intros h [k|n] p; cbn [at_]; destruct h; try reflexivity; [destruct (hget k m); reflexivity|destruct (nth_error l n); reflexivity]. Qed.

Lemma places : forall p t v h, narrow t = true -> zeroOr (conforms t) v -> zeroOr encoded v -> hashOf t v = Some h ->
  (forall u w, leads t v p u w -> exists x, at_ h p = Some x /\ shows u w x) /\ (forall x, at_ h p = Some x -> exists u w, leads t v p u w /\ shows u w x).
Proof.
  induction p as [|s p IH]; intros t v h N CF E H.
  - pose proof (here_shows t v h N CF E H) as SH. split.
    + intros u w L. inversion L; subst. exists h. split; [reflexivity|exact SH].
    + intros x A. injection A as <-. exists t, v. split; [constructor|exact SH].
  - split.
    + intros u w L. apply leads_child in L. destruct L as (t' & v' & C & L). destruct (child_hash _ _ _ _ _ _ CF E H C) as (y & HY & AY).
      destruct (child_ok _ _ _ _ _ C N CF E) as (N' & C' & E'). rewrite at_step, AY. exact (proj1 (IH t' v' y N' C' E' HY) u w L).
    + intros x A. rewrite at_step in A. destruct (at_ h [s]) as [y|] eqn:AY; [|discriminate]. destruct (hash_child _ _ _ _ _ CF E H AY) as (t' & v' & C & HY).
      destruct (child_ok _ _ _ _ _ C N CF E) as (N' & C' & E'). destruct (proj2 (IH t' v' y N' C' E' HY) x A) as (u & w & L & SH).
      exists u, w. split; [apply leads_child; eauto|exact SH].
Qed.

(** ** Errors *)

Section Nested.
  Variable P : gty -> Prop.
  Hypothesis Basic : forall t, match t with GBool | GStr | GFloat | GUint _ | GSint _ | GAny | GError | GNumbered _ => P t | _ => True end.
  Hypothesis Slice : forall t, P t -> P (GSlice t).
  Hypothesis Array : forall n t, P t -> P (GArray n t).
  Hypothesis Map : forall t, P t -> P (GMap t).
  Hypothesis Struct : forall fs, (forall f u, In (f, u) fs -> P u) -> P (GStruct fs).
  Lemma nested : forall t, P t.
  Proof.
    fix IH 1. intros t. destruct t; [exact (Basic GBool)|exact (Basic GStr)|exact (Basic GFloat)|exact (Basic (GUint bits))|exact (Basic (GSint bits))
      |apply Slice, IH|apply Array, IH|apply Map, IH|exact (Basic (GNumbered t))|exact (Basic GAny)|exact (Basic GError)|].
    apply Struct. induction fs as [|[g u] fs L]; intros f w I; [destruct I|]. destruct I as [I|I]; [injection I as <- <-; apply IH|exact (L f w I)].
  Qed.
End Nested.

(** the fields of every struct have different names *)
Fixpoint distinct (t : gty) : bool :=
  match t with
  | GSlice u | GArray _ u | GMap u | GNumbered u => distinct u
  | GStruct fs => (fix go fs := match fs with [] => true | (f, u) :: fs' => distinct u && negb (existsb (String.eqb f) (map fst fs')) && go fs' end) fs
  | _ => true
  end.
Lemma distinct_fields : forall fs, distinct (GStruct fs) = true -> forall f u, In (f, u) fs -> declared f fs = Some u /\ distinct u = true.
Proof.
  induction fs as [|[g t] fs IH]; intros D f u I; [destruct I|]. cbn [distinct] in D. apply andb_true_iff in D. destruct D as [D D3]. apply andb_true_iff in D. destruct D as [D1 D2].
  cbn [declared]. destruct I as [I|I]; [injection I as <- <-; rewrite String.eqb_refl; auto|]. destruct (IH D3 f u I) as [K1 K2]. split; [|exact K2].
  destruct (String.eqb_spec f g) as [->|N]; [|exact K1]. apply negb_true_iff in D2. exfalso.
  assert (existsb (String.eqb g) (map fst fs) = true) by (apply existsb_exists; exists g; split; [apply (in_map fst) in I; exact I|apply String.eqb_refl]). congruence.
Qed.

Lemma fails : forall t v, distinct t = true -> zeroOr (conforms t) v -> hashOf t v = None -> exists p f, leads t v p GFloat (Some (VFloat f)) /\ finite f = false.
Proof.
  apply (nested (fun t => forall v, distinct t = true -> zeroOr (conforms t) v -> hashOf t v = None -> exists p f, leads t v p GFloat (Some (VFloat f)) /\ finite f = false)).
  - intros [| | | | | | | | | | |]; try exact Logic.I; intros v D CF H; cbn [hashOf] in H; try discriminate.
    destruct v as [v|]; [inversion CF; subst|discriminate]. destruct (finite f) eqn:F; [discriminate|]. exists [], f. split; [constructor|exact F].
  - intros t IH v D CF H. cbn [hashOf] in H. destruct v as [v|]; [|discriminate]. inversion CF as [| | | | |? l K| | |]; subst.
    destruct (all _) as [r|] eqn:A; [discriminate|]. apply all_none in A. apply in_map_iff in A. destruct A as (x & HX & I).
    destruct (IH (Some x) D (K _ I) HX) as (p & f & L & F). apply In_nth_error in I. destruct I as [n I]. exists (Item n :: p), f. split; [|exact F]. econstructor; eassumption.
  - intros k t IH v D CF H. cbn [hashOf] in H. destruct (all _) as [r|] eqn:A; [discriminate|]. apply all_none in A. destruct v as [v|].
    + inversion CF as [| | | | | |? ? l E K| |]; subst. apply in_map_iff in A. destruct A as (x & HX & I).
      destruct (IH (Some x) D (K _ I) HX) as (p & f & L & F). apply In_nth_error in I. destruct I as [n I]. exists (Item n :: p), f. split; [|exact F]. econstructor; eassumption.
    + apply repeat_spec in A as HX. assert (k <> 0) by (intros ->; destruct A). symmetry in HX. destruct (IH None D Logic.I HX) as (p & f & L & F). exists (Item 0 :: p), f.
      split; [|exact F]. constructor; [lia|exact L].
  - intros t IH v D CF H. cbn [hashOf] in H. destruct v as [v|]; [|discriminate]. inversion CF as [| | | | | | |? m ND K|]; subst.
    destruct (all _) as [r|] eqn:A; [discriminate|]. apply all_none in A. apply in_map_iff in A. destruct A as ([k x] & HX & I). cbn [fst snd] in HX.
    destruct (hashOf t (Some x)) eqn:HX'; [discriminate|]. destruct (IH (Some x) D (K _ _ I) HX') as (p & f & L & F). exists (Key k :: p), f. split; [|exact F]. econstructor; eassumption.
  - intros fs IH v D CF H. rewrite hash_struct in H. destruct (fieldsOf v fs) as [m|] eqn:FO; [discriminate|]. apply fields_none in FO. destruct FO as (f & u & X & I & HX).
    destruct (distinct_fields _ D _ _ I) as [DF DU]. apply exported_public in X. destruct v as [v|].
    + inversion CF as [| | | | | | | |? o K]; subst. cbn [fieldOf] in HX.
      assert (CU : zeroOr (conforms u) (fget f o)) by (destruct (fget f o) as [x|] eqn:F; [|exact Logic.I]; destruct (K _ _ F) as (u' & D' & C'); cbn; congruence).
      destruct (IH f u I _ DU CU HX) as (p & g & L & F). exists (Key (b f) :: p), g. split; [|exact F]. econstructor; eassumption.
    + destruct (IH f u I None DU Logic.I HX) as (p & g & L & F). exists (Key (b f) :: p), g. split; [|exact F]. econstructor; eassumption.
Qed.

Lemma child_fails : forall t v s t' v', child t v s t' v' -> hashOf t' v' = None -> hashOf t v = None.
Proof.
  intros t v s t' v' C HN. inversion C as [? ? ? ? P D|? ? ? P D|? ? ? ? X|? ? ? ? ? X|? ? ? X|? ? ? ? X]; subst; try (apply exported_public in P).
  - rewrite hash_struct. destruct (fieldsOf (Some (VObj o)) fs) as [m|] eqn:F; [|reflexivity].
    destruct (proj1 (fields_get _ _ _ F) f t' P D) as (x & G & HX). cbn [fieldOf] in HX. congruence.
  - rewrite hash_struct. destruct (fieldsOf None fs) as [m|] eqn:F; [|reflexivity].
    destruct (proj1 (fields_get _ _ _ F) f t' P D) as (x & G & HX). cbn [fieldOf] in HX. congruence.
  - cbn [hashOf]. rewrite (proj2 (all_none _ _)); [reflexivity|]. apply in_map_iff. exists x. split; [exact HN|eapply nth_error_In; exact X].
  - cbn [hashOf]. rewrite (proj2 (all_none _ _)); [reflexivity|]. apply in_map_iff. exists x. split; [exact HN|eapply nth_error_In; exact X].
  - cbn [hashOf]. rewrite (proj2 (all_none _ _)); [reflexivity|]. rewrite HN. destruct k; [lia|]. left. reflexivity.
  - cbn [hashOf]. rewrite (proj2 (all_none _ _)); [reflexivity|]. apply in_map_iff. exists (k, x). split; [cbn [fst snd]; rewrite HN; reflexivity|exact X].
Qed.
Lemma leads_fails : forall p t v f, leads t v p GFloat (Some (VFloat f)) -> finite f = false -> hashOf t v = None.
Proof.
  induction p as [|s p IH]; intros t v f L F.
  - inversion L; subst. cbn [hashOf]. rewrite F. reflexivity.
  - apply leads_child in L. destruct L as (t' & v' & C & L). eapply child_fails; [exact C|]. eapply IH; eassumption.
Qed.

(** ** What is not seen *)

Lemma hidden : forall t v w, distinct t = true -> alike t v w -> hashOf t v = hashOf t w.
Proof.
  apply (nested (fun t => forall v w, distinct t = true -> alike t v w -> hashOf t v = hashOf t w)).
  - intros [| | | | | | | | | | |]; try exact Logic.I; intros v w D A; inversion A; subst; reflexivity.
  - intros t IH v w D A. inversion A as [| | |? l l' L N|]; subst; [reflexivity|]. cbn [hashOf]. do 2 f_equal. cbn [distinct] in D. clear A. revert l' L N.
    induction l as [|x l IL]; intros [|y l'] L N; try discriminate; [reflexivity|]. cbn [map]. f_equal; [apply IH; [exact D|]; apply (N 0); reflexivity|].
    apply IL; [injection L as L; exact L|]. intros n x' y' X Y. apply (N (S n)); assumption.
  - intros k t IH v w D A. inversion A; subst; reflexivity.
  - intros t IH v w D A. inversion A as [| | | |? m m' L N]; subst; [reflexivity|]. cbn [hashOf]. do 2 f_equal. cbn [distinct] in D. clear A. revert m' L N.
    induction m as [|[k x] m IL]; intros [|[k' y] m'] L N; try discriminate; [reflexivity|]. cbn [map fst snd] in *. injection L as <- L.
    f_equal; [f_equal; apply IH; [exact D|]; apply (N 0 k); reflexivity|]. apply IL; [exact L|]. intros n k0 x' y' X Y. apply (N (S n) k0); assumption.
  - intros fs IH v w D A. assert (K : forall f u, exported f = true -> In (f, u) fs -> hashOf u (fieldOf f v) = hashOf u (fieldOf f w)).
    { intros f u X I. destruct (distinct_fields _ D _ _ I) as [DF DU]. apply exported_public in X. apply (IH f u I); [exact DU|].
      inversion A as [| ? ? ? K| ? ? K| |]; subst; cbn [fieldOf]; [constructor|apply K; assumption|apply K; assumption]. }
    rewrite !hash_struct. f_equal. clear - K. induction fs as [|[f u] fs IL]; cbn [fieldsOf]; [reflexivity|].
    rewrite IL by (intros; apply K; [assumption|right; assumption]). destruct (exported f) eqn:X; [|reflexivity]. rewrite (K f u X (or_introl eq_refl)). reflexivity.
Qed.
