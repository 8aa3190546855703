(** What the goroutines of the parallel parser send. *)
From Coq Require Import String Ascii List Arith Bool Lia SpecFloat Permutation.
From Verif Require Import GoBase GoBaseFacts A2lIR A2lTokens A2lParsers A2lThm A2lCheck A2lSpec FanModel FanProofs A2lModModel A2lModSpec A2lModStore A2lModSeq.
Import ListNotations.

Lemma rows_ok : forallb (fun r => okfn (r_parse r)) rows = true.
Proof. vm_compute. reflexivity. Qed.
Lemma rows_chans : forallb (fun r => existsb (String.eqb (r_chan r)) closing && negb (String.eqb (r_chan r) errChan)
  && match actOf (r_chan r) with Some _ => true | None => false end) rows = true.
Proof. vm_compute. reflexivity. Qed.
Lemma findRow_in : forall t rs r, findRow t rs = Some r -> In r rs.
Proof. intros t. induction rs as [|r rs IH]; intros r' H; cbn in H; [discriminate|]. destruct (beqb t (b (r_tok r))); [injection H as ->; left; reflexivity|right; auto]. Qed.

(** A message is about an object or an error. *)
Definition proper (m : message) : Prop := In (fst m) closing.
Definition object (m : message) : Prop := In (fst m) closing /\ fst m <> errChan.
Lemma row_chan : forall r, In r rows -> In (r_chan r) closing /\ r_chan r <> errChan /\ exists a, actOf (r_chan r) = Some a.
Proof.
  intros r I. pose proof (proj1 (forallb_forall _ _) rows_chans r I) as H. cbn beta in H. apply andb_true_iff in H. destruct H as [H H3]. apply andb_true_iff in H. destruct H as [H1 H2].
  apply existsb_exists in H1. destruct H1 as (c & J & E). apply String.eqb_eq in E. subst c. apply negb_true_iff in H2. apply String.eqb_neq in H2.
  destruct (actOf (r_chan r)); [eauto|discriminate].
Qed.

Section Par.
  Variable toks : list bytes.
  Variable pf : bytes -> option spec_float.
  Hypothesis EN : ended toks.
  Notation mainLoop := (A2lModModel.mainLoop toks pf).
  Notation next := (A2lIR.next toks).
  Notation nextTok := (A2lIR.nextTok toks).
  Notation current := (A2lIR.current toks).

  Definition loopsAt (max i : nat) (out : list message) : Prop := exists m, forall fuel n, m <= fuel -> m <= n -> mainLoop fuel n max i = Some out.
  Lemma loopsAt_loops : forall max i out, loopsAt max i out -> loops toks pf max i out.
  Proof. intros max i out [m H]. exists m. intros. apply H; assumption. Qed.
  Lemma loops_fun : forall max i o1 o2, loops toks pf max i o1 -> loops toks pf max i o2 -> o1 = o2.
  Proof. intros max i o1 o2 [n1 H1] [n2 H2]. specialize (H1 (n1 + n2)). specialize (H2 (n1 + n2)). rewrite H1 in H2 by lia. specialize (H2 ltac:(lia)). congruence. Qed.

  Lemma ended_length : exists n, length toks = S n.
  Proof. destruct EN as [l ->]. rewrite app_length. exists (length l). cbn. lia. Qed.

  Lemma ok_call : forall g i, okfn g = true -> i < length toks -> exists v e j, i <= j < length toks /\ forall fuel, S (length toks) <= fuel -> call isKeyword toks pf fuel g i = Ret v e j.
  Proof.
    intros g i O L. destruct (okfn_sound isKeyword toks pf (S (length toks)) eq_refl EN (le_n _) g O i L) as (v & e & j & C & J).
    exists v, e, j. split; [exact J|]. intros fuel F. rewrite (proj2 (proj2 (proj2 (fuel_mono isKeyword toks pf _ _ F)))), C by (rewrite C; discriminate). reflexivity.
  Qed.

  Lemma loop_more : forall max i v j r out, i < max -> findRow (nextTok i) rows = Some r ->
    (exists m, forall fuel, m <= fuel -> call isKeyword toks pf fuel (r_parse r) (next i) = Ret v false j) -> loopsAt max j out -> loopsAt max i ((r_chan r, v) :: out).
  Proof.
    intros max i v j r out L R [m1 C] [m2 H]. exists (S (m1 + m2)). intros fuel [|n] F N; [lia|]. cbn [A2lModModel.mainLoop].
    rewrite (proj2 (Nat.leb_gt _ _) L), R, C, H by lia. reflexivity.
  Qed.
  Lemma loop_fails : forall max i v j r, i < max -> findRow (nextTok i) rows = Some r ->
    (exists m, forall fuel, m <= fuel -> call isKeyword toks pf fuel (r_parse r) (next i) = Ret v true j) -> loopsAt max i [anError].
  Proof.
    intros max i v j r L R [m1 C]. exists (S m1). intros fuel [|n] F N; [lia|]. cbn [A2lModModel.mainLoop].
    rewrite (proj2 (Nat.leb_gt _ _) L), R, C by lia. reflexivity.
  Qed.
  Lemma loop_stop : forall max i, max <= i -> loopsAt max i [].
  Proof. intros max i L. exists 1. intros fuel [|n] F N; [lia|]. cbn [A2lModModel.mainLoop]. rewrite (proj2 (Nat.leb_le _ _) L). reflexivity. Qed.
  Lemma loop_empty : forall max i, i < max -> findRow (nextTok i) rows = None -> current (next i) = [] -> loopsAt max i [anError].
  Proof.
    intros max i L R C. exists 1. intros fuel [|n] F N; [lia|]. cbn [A2lModModel.mainLoop]. rewrite (proj2 (Nat.leb_gt _ _) L), R, C. reflexivity.
  Qed.
  Lemma loop_end : forall max i, i < max -> findRow (nextTok i) rows = None -> current (next i) = b "/end MODULE" -> loopsAt max i [].
  Proof.
    intros max i L R C. exists 1. intros fuel [|n] F N; [lia|]. cbn [A2lModModel.mainLoop]. rewrite (proj2 (Nat.leb_gt _ _) L), R, C. reflexivity.
  Qed.
  Lemma loop_word : forall max i out, i < max -> findRow (nextTok i) rows = None -> current (next i) <> [] -> current (next i) <> b "/end MODULE" ->
    loopsAt max (next i) out -> loopsAt max i out.
  Proof.
    intros max i out L R C1 C2 [m H]. exists (S (S m)). intros fuel [|n] F N; [lia|]. cbn [A2lModModel.mainLoop].
    rewrite (proj2 (Nat.leb_gt _ _) L), R, (proj2 (beqb_neq _ _) C1), (proj2 (beqb_neq _ _) C2).
    destruct (Nat.leb_spec max (next i)) as [K|K]; [|apply H; lia].
    rewrite <- (H fuel n) by lia. destruct n as [|n]; [lia|]. cbn [A2lModModel.mainLoop]. rewrite (proj2 (Nat.leb_le _ _) K). reflexivity.
  Qed.

  (** *** Every goroutine ends. *)
  Lemma loops_total : forall max i, i < length toks -> exists out, loopsAt max i out /\ Forall proper out.
  Proof.
    intros max i. remember (length toks - i) as d eqn:E. revert i E. induction d as [d IH] using lt_wf_ind. intros i -> L.
    destruct (le_lt_dec max i) as [K|K]; [exists []; split; [apply loop_stop; exact K|constructor]|].
    assert (PE : Forall proper [anError]) by (constructor; [left; reflexivity|constructor]).
    destruct (moves toks i) eqn:M.
    - assert (N : next i = S i) by (unfold A2lIR.next; rewrite M; reflexivity). assert (LM : S i < length toks) by (unfold moves in M; apply Nat.ltb_lt in M; lia).
      destruct (findRow (nextTok i) rows) as [r|] eqn:R.
      + pose proof (findRow_in _ _ _ R) as I. destruct (ok_call (r_parse r) (next i) (proj1 (forallb_forall _ _) rows_ok r I)) as (v & e & j & J & C); [lia|].
        destruct e; [exists [anError]; split; [eapply loop_fails; eauto|exact PE]|].
        destruct (IH (length toks - j) ltac:(lia) j eq_refl ltac:(lia)) as (out & O & P). exists ((r_chan r, v) :: out).
        split; [eapply loop_more; eauto|]. constructor; [|exact P]. exact (proj1 (row_chan r I)).
      + destruct (list_eq_dec ascii_dec (current (next i)) []) as [C1|C1]; [exists [anError]; split; [apply loop_empty; assumption|exact PE]|].
        destruct (list_eq_dec ascii_dec (current (next i)) (b "/end MODULE")) as [C2|C2]; [exists []; split; [apply loop_end; assumption|constructor]|].
        destruct (IH (length toks - S i) ltac:(lia) (S i) eq_refl LM) as (out & O & P). exists out. split; [|exact P]. apply loop_word; auto. rewrite N. exact O.
    - exists [anError]. split; [|exact PE]. apply loop_empty; [exact K| |].
      + unfold A2lIR.nextTok. rewrite M. vm_compute. reflexivity.
      + unfold A2lIR.next. rewrite M. apply last_empty; assumption.
  Qed.

  (** *** The objects that a goroutine finds. *)
  Lemma returns_after : forall t g a i v j, In (t, (g, a)) kinds -> i < length toks -> returns toks pf g i v false j -> i <= j < length toks.
  Proof.
    intros t g a i v j I L [n R].
    assert (O : okfn g = true).
    { assert (K : forallb (fun k => okfn (fst (snd k))) kinds = true) by (vm_compute; reflexivity). exact (proj1 (forallb_forall _ _) K _ I). }
    destruct (ok_call g i O L) as (v' & e' & j' & J & C). specialize (C (n + S (length toks)) ltac:(lia)). rewrite R in C by lia. injection C as <- <- <-. exact J.
  Qed.
  Lemma content_bounds : forall i items e, content toks pf i items e -> i < e < length toks /\ forall x, In x items -> i < it_from x /\ it_from x <= it_to x < e.
  Proof.
    assert (TL : forall i, tok toks i <> [] -> i < length toks).
    { intros i H. destruct (lt_dec i (length toks)) as [L|L]; [exact L|]. exfalso. apply H. unfold tok. apply nth_overflow. lia. }
    induction 1 as [i H|i items e W C [IH1 IH2]|i t g a v j items e I T R C [IH1 IH2]].
    - split; [|intros x []]. split; [lia|]. apply TL. rewrite H. discriminate.
    - split; [lia|]. intros x X. specialize (IH2 x X). lia.
    - assert (L : S i < length toks) by (apply TL; rewrite T; apply (begins_not_end (b t)); exists (t, (g, a)); auto).
      pose proof (returns_after _ _ _ _ _ _ I L R). split; [lia|]. intros x [<-|X]; [cbn; lia|]. specialize (IH2 x X). lia.
  Qed.

  Definition inRange (p max : nat) (x : item) : bool := (p <? it_from x) && (it_from x <=? max).
  Lemma range_none : forall p max items, (forall x, In x items -> max < it_from x) -> filter (inRange p max) items = [].
  Proof.
    intros p max. induction items as [|x items IH]; intros H; [reflexivity|]. cbn [filter]. unfold inRange at 1.
    rewrite (proj2 (Nat.leb_gt (it_from x) max)) by (apply H; left; reflexivity). rewrite andb_false_r. apply IH. intros y Y. apply H. right. exact Y.
  Qed.
  Lemma range_shift : forall p q max items, (forall x, In x items -> p < it_from x /\ q < it_from x) -> filter (inRange p max) items = filter (inRange q max) items.
  Proof.
    intros p q max. induction items as [|x items IH]; intros H; [reflexivity|]. cbn [filter]. rewrite IH by (intros; apply H; right; assumption).
    destruct (H x (or_introl eq_refl)) as [H1 H2]. unfold inRange. rewrite (proj2 (Nat.ltb_lt _ _) H1), (proj2 (Nat.ltb_lt _ _) H2). reflexivity.
  Qed.

  Definition sends (out : list message) (items : list item) : Prop := Forall object out /\ acts out = stored items.

  Lemma tok_next : forall i, S i < length toks -> nextTok i = tok toks (S i) /\ next i = S i /\ current (next i) = tok toks (S i).
  Proof. intros i L. assert (M : moves toks i = true) by (unfold moves; apply Nat.ltb_lt; lia). unfold A2lIR.nextTok, A2lIR.next. rewrite M. auto. Qed.
  Lemma no_row : forall t, ~ begins t -> findRow t rows = None.
  Proof.
    intros t N. apply findKind_none in N. rewrite rows_kinds in N. destruct (findRow t rows) as [r|] eqn:R; [|reflexivity].
    destruct (row_chan r (findRow_in _ _ _ R)) as (_ & _ & a & A). rewrite A in N. discriminate.
  Qed.
  Lemma some_row : forall t g a, In (t, (g, a)) kinds -> exists r, findRow (b t) rows = Some r /\ r_parse r = g /\ actOf (r_chan r) = Some a /\ In r rows.
  Proof.
    intros t g a I. pose proof (findKind_in t g a I) as K. rewrite rows_kinds in K. destruct (findRow (b t) rows) as [r|] eqn:R; [|discriminate].
    exists r. destruct (actOf (r_chan r)); [|discriminate]. injection K as _ <- <-. repeat split. eapply findRow_in. exact R.
  Qed.

  (** Inside an object nothing is found. *)
  Lemma scan : forall max e j out d p, d = j - p -> p <= j -> j < e < length toks -> clean toks e ->
    (forall q, p < q <= j -> ~ begins (tok toks q)) -> loopsAt max j out -> (max <= j -> out = []) -> loopsAt max p out.
  Proof.
    intros max e j out. induction d as [|d IH]; intros p D L B CL NB H Z; [replace p with j by lia; exact H|].
    destruct (le_lt_dec max p) as [K|K]; [rewrite Z by lia; apply loop_stop; exact K|].
    destruct (tok_next p) as (T1 & T2 & T3); [lia|]. destruct (CL (S p) ltac:(lia)) as [C1 C2].
    apply loop_word; [exact K|rewrite T1; apply no_row; apply NB; lia|congruence|congruence|]. rewrite T2. apply IH; auto; try lia. intros q Q. apply NB. lia.
  Qed.

  Lemma worker : forall max i items e, content toks pf i items e -> clean toks e -> max <= e ->
    forall p, i <= p < e -> (forall x q, In x items -> it_from x <= p -> p < q <= it_to x -> ~ begins (tok toks q)) ->
    exists out, loopsAt max p out /\ sends out (filter (inRange p max) items).
  Proof.
    intros max i items e C. induction C as [i H|i items e W C IH|i t g a v j items e I T R C IH]; intros CL ME p PB NB.
    - assert (p = i) as -> by lia. exists []. split; [|split; [constructor|reflexivity]].
      destruct (le_lt_dec max i) as [K|K]; [apply loop_stop; exact K|].
      assert (L : S i < length toks) by (pose proof (content_bounds _ _ _ (ContEnd toks pf i H)); lia).
      destruct (tok_next i L) as (T1 & T2 & T3). apply loop_end; [exact K| |congruence]. rewrite T1, H. vm_compute. reflexivity.
    - pose proof (content_bounds _ _ _ C) as [B1 B2]. destruct (Nat.eq_dec p i) as [->|NE].
      + destruct (IH CL ME (S i) ltac:(lia)) as (out & O & S1 & S2). { intros x q X F. specialize (B2 x X). lia. }
        assert (FE : filter (inRange i max) items = filter (inRange (S i) max) items) by (apply range_shift; intros x X; specialize (B2 x X); lia).
        destruct (le_lt_dec max i) as [K|K].
        * exists []. split; [apply loop_stop; exact K|]. rewrite range_none by (intros x X; specialize (B2 x X); lia). split; [constructor|reflexivity].
        * exists out. split; [|rewrite FE; split; assumption]. destruct (tok_next i ltac:(lia)) as (T1 & T2 & T3). destruct (CL (S i) ltac:(lia)) as [C1 C2].
          apply loop_word; [exact K|rewrite T1; apply no_row; apply word_not_begins; exact W|congruence|congruence|rewrite T2; exact O].
      + apply (IH CL ME p); [lia|]. intros x q X. apply NB. exact X.
    - pose proof (content_bounds _ _ _ (ContObj toks pf i t g a v j items e I T R C)) as [B1 B2].
      pose proof (B2 _ (or_introl eq_refl)) as B3. cbn [it_from it_to] in B3. pose proof (content_bounds _ _ _ C) as [B4 B5].
      destruct (Nat.eq_dec p i) as [->|NE].
      + destruct (le_lt_dec max i) as [K|K].
        * exists []. split; [apply loop_stop; exact K|]. rewrite range_none by (intros x X; specialize (B2 x X); lia). split; [constructor|reflexivity].
        * destruct (IH CL ME j ltac:(lia)) as (out & O & S1 & S2). { intros x q X F. specialize (B5 x X). lia. }
          destruct (some_row t g a I) as (r & R1 & R2 & R3 & R4). destruct (row_chan r R4) as (Q1 & Q2 & _).
          exists ((r_chan r, v) :: out). destruct (tok_next i ltac:(lia)) as (T1 & T2 & T3). split.
          -- eapply loop_more; [exact K|rewrite T1, T; exact R1| |exact O]. rewrite R2, T2. exact R.
          -- cbn [filter]. unfold inRange at 1. cbn [it_from]. rewrite (proj2 (Nat.ltb_lt i (S i))), (proj2 (Nat.leb_le (S i) max)) by lia. cbn [andb].
             rewrite (range_shift i j) by (intros x X; specialize (B5 x X); lia). split; [constructor; [split; assumption|exact S1]|].
             cbn [acts flat_map fst snd]. rewrite R3. unfold stored. cbn [map it_act it_val app]. f_equal. exact S2.
      + assert (FE : filter (inRange p max) (Item (S i) j a v :: items) = filter (inRange p max) items).
        { cbn [filter]. unfold inRange at 1. cbn [it_from]. rewrite (proj2 (Nat.ltb_ge p (S i))) by lia. reflexivity. }
        rewrite FE. destruct (le_lt_dec j p) as [K|K].
        * apply (IH CL ME p); [lia|]. intros x q X. apply NB. right. exact X.
        * destruct (IH CL ME j ltac:(lia)) as (out & O & S1 & S2). { intros x q X F. specialize (B5 x X). lia. }
          assert (FJ : filter (inRange p max) items = filter (inRange j max) items) by (apply range_shift; intros x X; specialize (B5 x X); lia).
          rewrite FJ. destruct (le_lt_dec max j) as [M|M].
          -- exists []. split; [|rewrite range_none by (intros x X; specialize (B5 x X); lia); split; [constructor|reflexivity]].
             apply (scan max e j [] (j - p) p eq_refl); auto; try lia; [|apply loop_stop; exact M].
             intros q Q. apply (NB _ q (or_introl eq_refl)); cbn; lia.
          -- exists out. split; [|split; assumption]. apply (scan max e j out (j - p) p eq_refl); auto; try lia.
             intros q Q. apply (NB _ q (or_introl eq_refl)); cbn; lia.
  Qed.

  Lemma broken_bounds : forall i items p, broken toks pf i items p -> i < p < length toks /\ forall x, In x items -> i < it_from x /\ it_from x <= it_to x < p.
  Proof.
    assert (TL : forall i t (x : fn * action), In (t, x) kinds -> tok toks i = b t -> i < length toks).
    { intros i t x I H. destruct (lt_dec i (length toks)) as [L|L]; [exact L|]. exfalso. apply (proj2 (begins_not_end (b t) (ex_intro _ (t, x) (conj I eq_refl)))).
      rewrite <- H. unfold tok. apply nth_overflow. lia. }
    induction 1 as [i t g a v j I T R|i items p W C [IH1 IH2]|i t g a v j items p I T R C [IH1 IH2]].
    - split; [|intros x []]. split; [lia|]. eapply TL; eauto.
    - split; [lia|]. intros x X. specialize (IH2 x X). lia.
    - pose proof (TL _ _ _ I T) as L. pose proof (returns_after _ _ _ _ _ _ I L R). split; [lia|]. intros x [<-|X]; [cbn; lia|]. specialize (IH2 x X). lia.
  Qed.

  Lemma bad_worker : forall max i items e, broken toks pf i items e -> clean toks e -> e <= max ->
    forall p, i <= p < e -> (forall x q, In x items -> it_from x <= p -> p < q <= it_to x -> ~ begins (tok toks q)) ->
    exists out, loopsAt max p out /\ In anError out.
  Proof.
    intros max i items e C. induction C as [i t g a v j I T R|i items e W C IH|i t g a v j items e I T R C IH]; intros CL ME p PB NB.
    - assert (p = i) as -> by lia. exists [anError]. split; [|left; reflexivity].
      assert (L : S i < length toks) by (pose proof (broken_bounds _ _ _ (BrkHere toks pf i t g a v j I T R)); lia).
      destruct (tok_next i L) as (T1 & T2 & T3). destruct (some_row t g a I) as (r & R1 & R2 & R3 & R4).
      eapply loop_fails; [lia|rewrite T1, T; exact R1|rewrite R2, T2; exact R].
    - pose proof (broken_bounds _ _ _ C) as [B1 B2]. destruct (Nat.eq_dec p i) as [->|NE].
      + destruct (IH CL ME (S i) ltac:(lia)) as (out & O & S1). { intros x q X F. specialize (B2 x X). lia. }
        exists out. split; [|exact S1]. destruct (tok_next i ltac:(lia)) as (T1 & T2 & T3). destruct (CL (S i) ltac:(lia)) as [C1 C2].
        apply loop_word; [lia|rewrite T1; apply no_row; apply word_not_begins; exact W|congruence|congruence|rewrite T2; exact O].
      + apply (IH CL ME p); [lia|]. intros x q X. apply NB. exact X.
    - pose proof (broken_bounds _ _ _ (BrkObj toks pf i t g a v j items e I T R C)) as [B1 B2].
      pose proof (B2 _ (or_introl eq_refl)) as B3. cbn [it_from it_to] in B3. pose proof (broken_bounds _ _ _ C) as [B4 B5].
      destruct (le_lt_dec j p) as [K|K].
      { apply (IH CL ME p); [lia|]. intros x q X. apply NB. right. exact X. }
      destruct (IH CL ME j ltac:(lia)) as (out & O & S1). { intros x q X F. specialize (B5 x X). lia. }
      destruct (Nat.eq_dec p i) as [->|NE].
      + destruct (some_row t g a I) as (r & R1 & R2 & R3 & R4). exists ((r_chan r, v) :: out). split; [|right; exact S1].
        destruct (tok_next i ltac:(lia)) as (T1 & T2 & T3). eapply loop_more; [lia|rewrite T1, T; exact R1| |exact O]. rewrite R2, T2. exact R.
      + exists out. split; [|exact S1]. apply (scan max e j out (j - p) p eq_refl); auto; try lia.
        intros q Q. apply (NB _ q (or_introl eq_refl)); cbn; lia.
  Qed.

  Lemma mainLoop_mono : forall f1 f2 n1 n2 max i out, f1 <= f2 -> n1 <= n2 -> mainLoop f1 n1 max i = Some out -> mainLoop f2 n2 max i = Some out.
  Proof.
    intros f1 f2. induction n1 as [|n1 IH]; intros n2 max i out F N H; [discriminate|]. destruct n2 as [|n2]; [lia|]. cbn [A2lModModel.mainLoop] in *.
    destruct (max <=? i); [exact H|]. destruct (findRow (nextTok i) rows) as [r|].
    - destruct (call isKeyword toks pf f1 (r_parse r) (next i)) as [v e j| |] eqn:C; try discriminate.
      rewrite (proj2 (proj2 (proj2 (fuel_mono isKeyword toks pf _ _ F)))), C by (rewrite C; discriminate). destruct e; [exact H|].
      destruct (mainLoop f1 n1 max j) as [o|] eqn:M; [|discriminate]. rewrite (IH n2 max j o F ltac:(lia) M). exact H.
    - destruct (beqb (current (next i)) []); [exact H|]. destruct (beqb _ (b "/end MODULE")); [exact H|]. destruct (max <=? next i); [exact H|]. apply (IH n2); auto. lia.
  Qed.
  Lemma loops_run : forall n max i out, mainLoop n n max i = Some out -> loops toks pf max i out.
  Proof. intros n max i out H. exists n. intros fuel F. eapply mainLoop_mono; eauto. Qed.
End Par.
