(** Which goroutines of the machine of ConcModel.v end after main has returned. *)
From Coq Require Import List Arith Lia Bool.
From Verif Require Import ConcModel ConcProofs HexSpec LeakSpec.
Import ListNotations.

Section Collect.
  Variables M A : Type.
  Variable absorb : A -> M -> A * bool.
  Variable cap : nat.
  Variable msgs : list (list M).
  Variable a0 : A.
  Notation cstep := (cstep absorb cap).
  Notation reads := (reads absorb).
  Notation stopsAt := (stopsAt absorb a0 msgs).

  Lemma set_nth_same : forall ws i (w0 w : wstate M), nth_error ws i = Some w0 -> nth_error (set_nth ws i w) i = Some w.
  Proof. intros ws i. revert ws. induction i as [|i IH]; intros [|z ws] w0 w H; cbn in *; try discriminate; [reflexivity|]. unfold set_nth in IH. exact (IH ws w0 w H). Qed.
  Lemma set_nth_other : forall ws i j (w0 w : wstate M), nth_error ws i = Some w0 -> j <> i -> nth_error (set_nth ws i w) j = nth_error ws j.
  Proof.
    intros ws i. revert ws. induction i as [|i IH]; intros [|z ws] [|j] w0 w H N; cbn in *; try discriminate; try lia; try reflexivity.
    unfold set_nth in IH. apply (IH ws j w0 w H). lia.
  Qed.
  Lemma set_nth_len : forall ws i (w0 w : wstate M), nth_error ws i = Some w0 -> length (set_nth ws i w) = length ws.
  Proof. intros ws i w0 w H. apply set_nth_length. eapply nth_error_lt. exact H. Qed.

  (** [rcv]: what main has received from each *)
  Record leak_inv (rcv : list (list M)) (st : bool) (s : cstate M A) : Prop := {
    k_len : length (c_ws s) = length msgs /\ length rcv = length msgs;
    k_one : forall i ms w r, nth_error msgs i = Some ms -> nth_error (c_ws s) i = Some w -> nth_error rcv i = Some r ->
            ms = r ++ w_buf w ++ w_todo w /\ length (w_buf w) <= cap /\ (w_closed w = true -> w_todo w = []) /\ (i < c_cur s -> r = ms /\ w_closed w = true) /\ (c_cur s < i -> r = []);
    k_reads : reads a0 (concat rcv) (c_acc s) st;
    k_cur : c_cur s <= length msgs;
    k_done : if c_done s then st = true \/ c_cur s = length msgs else st = false;
    k_stop : st = true -> exists r, nth_error rcv (c_cur s) = Some r /\ r <> [] }.

  Lemma k_init : leak_inv (map (fun _ => []) msgs) false (cinit msgs a0).
  Proof.
    constructor; cbn.
    - rewrite !map_length. auto.
    - intros i ms w r H1 H2 H3. rewrite nth_error_map in H2, H3. rewrite H1 in H2, H3. cbn in *. injection H2 as <-. injection H3 as <-. cbn. repeat split; try lia; try discriminate; auto.
    - assert (E : concat (map (fun _ : list M => @nil M) msgs) = []) by (clear; induction msgs as [|m l IH]; [reflexivity|exact IH]). rewrite E. constructor.
    - lia.
    - reflexivity.
    - discriminate.
  Qed.

  Lemma nth_some : forall (X Y : Type) (l1 : list X) (l2 : list Y) i x, length l1 = length l2 -> nth_error l1 i = Some x -> exists y, nth_error l2 i = Some y.
  Proof. intros X Y l1 l2 i x E H. destruct (nth_error l2 i) as [y|] eqn:Q; [exists y; reflexivity|]. apply nth_error_None in Q. pose proof (nth_error_lt _ _ H). lia. Qed.

  Definition put_list (i : nat) (x : list M) (l : list (list M)) : list (list M) := firstn i l ++ x :: skipn (S i) l.
  Lemma put_list_same : forall l i r x, nth_error l i = Some r -> nth_error (put_list i x l) i = Some x.
  Proof. intros l i. revert l. induction i as [|i IH]; intros [|z l] r x H; cbn in *; try discriminate; [reflexivity|]. exact (IH l r x H). Qed.
  Lemma put_list_other : forall l i j r x, nth_error l i = Some r -> j <> i -> nth_error (put_list i x l) j = nth_error l j.
  Proof.
    intros l i. revert l. induction i as [|i IH]; intros [|z l] [|j] r x H N; cbn in *; try discriminate; try lia; try reflexivity. apply (IH l j r x H). lia.
  Qed.
  Lemma put_list_len : forall l i r x, nth_error l i = Some r -> length (put_list i x l) = length l.
  Proof. intros l i. revert l. induction i as [|i IH]; intros [|z l] r x H; cbn in *; try discriminate; [reflexivity|]. f_equal. exact (IH l r x H). Qed.
  (** the last nonempty part gets longer *)
  Lemma put_list_concat : forall l i r m, nth_error l i = Some r -> (forall j x, i < j -> nth_error l j = Some x -> x = []) -> concat (put_list i (r ++ [m]) l) = concat l ++ [m].
  Proof.
    intros l i. revert l. induction i as [|i IH]; intros [|z l] r m H E; cbn in H; try discriminate.
    - injection H as ->. cbn. assert (C : concat l = []).
      { assert (E' : forall j x, nth_error l j = Some x -> x = []) by (intros j x; exact (E (S j) x (Nat.lt_0_succ j))). clear - E'. induction l as [|y l IH]; [reflexivity|]. cbn. rewrite (E' 0 y eq_refl). apply IH. intros j x. exact (E' (S j) x). }
      rewrite C, !app_nil_r. reflexivity.
    - change (put_list (S i) (r ++ [m]) (z :: l)) with (z :: put_list i (r ++ [m]) l). cbn [concat]. rewrite (IH l r m H); [rewrite app_assoc; reflexivity|]. intros j x LT N. apply (E (S j) x); [lia|exact N].
  Qed.

  Lemma k_step : forall rcv st s s', leak_inv rcv st s -> cstep s s' -> exists rcv' st', leak_inv rcv' st' s'.
  Proof.
    intros rcv st s s' [[L1 L2] K1 KR KC KD KS] ST. destruct ST as [ws i m ms buf cur acc dn N C0|ws i buf cur acc dn N|ws cur todo m buf closed acc N|ws cur todo acc N|ws cur acc N]; cbn [c_ws c_cur c_acc c_done] in *.
    - exists rcv, st. constructor; cbn [c_ws c_cur c_acc c_done]; auto.
      + split; [rewrite (set_nth_len _ _ _ _ N); exact L1|exact L2].
      + intros j x w r H1 H2 H3. destruct (Nat.eq_dec j i) as [->|NE].
        * rewrite (set_nth_same _ _ _ _ N) in H2. injection H2 as <-. destruct (K1 i x _ r H1 N H3) as (Q1 & Q2 & Q3 & Q4 & Q5). cbn in *. split; [rewrite Q1, <- !app_assoc; reflexivity|]. split; [rewrite app_length; cbn; lia|]. split; [discriminate|]. split; [|exact Q5].
          intros LT. destruct (Q4 LT). discriminate.
        * rewrite (set_nth_other _ _ _ _ _ N NE) in H2. exact (K1 j x w r H1 H2 H3).
    - exists rcv, st. constructor; cbn [c_ws c_cur c_acc c_done]; auto.
      + split; [rewrite (set_nth_len _ _ _ _ N); exact L1|exact L2].
      + intros j x w r H1 H2 H3. destruct (Nat.eq_dec j i) as [->|NE].
        * rewrite (set_nth_same _ _ _ _ N) in H2. injection H2 as <-. destruct (K1 i x _ r H1 N H3) as (Q1 & Q2 & Q3 & Q4 & Q5). cbn in *. repeat split; auto; apply Q4; assumption.
        * rewrite (set_nth_other _ _ _ _ _ N NE) in H2. exact (K1 j x w r H1 H2 H3).
    - subst st. destruct (nth_some _ _ ws msgs cur _ L1 N) as (ms & HM). destruct (nth_some _ _ msgs rcv cur ms ltac:(lia) HM) as (r & HR).
      destruct (K1 cur ms _ r HM N HR) as (Q1 & Q2 & Q3 & Q4 & Q5). cbn in Q1, Q2, Q3, Q4, Q5.
      exists (put_list cur (r ++ [m]) rcv), (snd (absorb acc m)). constructor; cbn [c_ws c_cur c_acc c_done]; auto.
      + split; [rewrite (set_nth_len _ _ _ _ N); exact L1|rewrite (put_list_len _ _ _ _ HR); exact L2].
      + intros j x w r' H1 H2 H3. destruct (Nat.eq_dec j cur) as [->|NE].
        * rewrite (set_nth_same _ _ _ _ N) in H2. injection H2 as <-. rewrite (put_list_same _ _ _ _ HR) in H3. injection H3 as <-. rewrite HM in H1. injection H1 as <-. cbn. split; [rewrite Q1, <- !app_assoc; reflexivity|]. split; [lia|]. split; [exact Q3|]. split; lia.
        * rewrite (set_nth_other _ _ _ _ _ N NE) in H2. rewrite (put_list_other _ _ _ _ _ HR NE) in H3. exact (K1 j x w r' H1 H2 H3).
      + rewrite (put_list_concat _ _ _ _ HR).
        * eapply RSnoc; [exact KR|destruct (absorb acc m); reflexivity].
        * intros j x LT NJ. destruct (nth_some _ _ rcv msgs j x L2 NJ) as (mj & MJ). destruct (nth_some _ _ msgs ws j mj ltac:(lia) MJ) as (wj & WJ). destruct (K1 j mj wj x MJ WJ NJ) as (_ & _ & _ & _ & Z0). exact (Z0 LT).
      + destruct (snd (absorb acc m)); [left; reflexivity|reflexivity].
      + intros _. exists (r ++ [m]). split; [exact (put_list_same _ _ _ _ HR)|destruct r; discriminate].
    - subst st. exists rcv, false. pose proof (nth_error_lt _ _ N) as LT0. constructor; cbn [c_ws c_cur c_acc c_done]; auto; try lia; try discriminate.
      intros j x w r H1 H2 H3. destruct (K1 j x w r H1 H2 H3) as (Q1 & Q2 & Q3 & Q4 & Q5). repeat split; auto.
      + destruct (Nat.eq_dec j cur) as [->|NE]; [|apply Q4; lia]. rewrite N in H2. injection H2 as <-. cbn in *. rewrite Q1, (Q3 eq_refl), !app_nil_r. reflexivity.
      + destruct (Nat.eq_dec j cur) as [->|NE]; [|apply Q4; lia]. rewrite N in H2. injection H2 as <-. reflexivity.
      + intros LT. apply Q5. lia.
    - subst st. exists rcv, false. apply nth_error_None in N. constructor; cbn [c_ws c_cur c_acc c_done]; auto. right. lia.
  Qed.
  Lemma k_reach : forall s s', reach cstep s s' -> (exists rcv st, leak_inv rcv st s) -> exists rcv st, leak_inv rcv st s'.
  Proof. intros s s' H. induction H as [s|s1 s2 s3 S1 _ IH]; [auto|]. intros (rcv & st & K). apply IH. eapply k_step; eassumption. Qed.

  Lemma reads_snoc_inv : forall a l m a2 st, reads a (l ++ [m]) a2 st -> exists a1, reads a l a1 false /\ absorb a1 m = (a2, st).
  Proof.
    intros a l m a2 st H. remember (l ++ [m]) as l0 eqn:E. destruct H as [a|a l' a1 m' a2 st R AB]; [destruct l; discriminate|]. apply app_inj_tail in E. destruct E as [-> ->]. eauto.
  Qed.
  Lemma reads_pre : forall r a l a1 st, reads a (l ++ r) a1 st -> r <> [] -> exists a2, reads a l a2 false.
  Proof.
    intros r. induction r as [|m r IH] using rev_ind; intros a l a1 st H N; [contradiction|]. rewrite app_assoc in H. apply reads_snoc_inv in H. destruct H as (a2 & H & _). destruct r as [|x r]; [rewrite app_nil_r in H; eauto|]. eapply IH; [exact H|discriminate].
  Qed.
  Lemma reads_fun : forall a l a1 s1, reads a l a1 s1 -> forall a2 s2, reads a l a2 s2 -> a1 = a2 /\ s1 = s2.
  Proof.
    intros a l a1 s1 H. induction H as [a|a l a1 m a2 st R IH AB]; intros a3 s3 H'; [remember (@nil M) as l0 eqn:E; destruct H' as [a|a l' a1 m' a2 st R AB]; [auto|destruct l'; discriminate]|].
    apply reads_snoc_inv in H'. destruct H' as (a4 & R' & AB'). destruct (IH _ _ R') as [-> _]. rewrite AB in AB'. injection AB' as -> ->. auto.
  Qed.
  (** nothing is received after the message with which main returns *)
  Lemma reads_stop : forall a l r a1 s1 a2, reads a l a1 true -> reads a (l ++ r) a2 s1 -> r = [].
  Proof.
    intros a l r a1 s1 a2 H H'. destruct r as [|m r]; [reflexivity|]. destruct (reads_pre _ _ _ _ _ H' ltac:(discriminate)) as (a3 & R). destruct (reads_fun _ _ _ _ H _ _ R). discriminate.
  Qed.

  Lemma concat_split : forall (l : list (list M)) i r, nth_error l i = Some r -> concat l = concat (firstn i l) ++ r ++ concat (skipn (S i) l).
  Proof. induction l as [|x l IH]; intros [|i] r H; cbn in *; try discriminate; [injection H as ->; reflexivity|]. rewrite <- app_assoc. f_equal. exact (IH i r H). Qed.
  Lemma firstn_same : forall (l1 l2 : list (list M)) k, length l1 = length l2 -> (forall i x y, i < k -> nth_error l1 i = Some x -> nth_error l2 i = Some y -> x = y) -> firstn k l1 = firstn k l2.
  Proof.
    induction l1 as [|x l1 IH]; intros [|y l2] k L H; cbn in L; try discriminate; [reflexivity|]. destruct k as [|k]; [reflexivity|]. cbn. f_equal; [apply (H 0); [lia|reflexivity|reflexivity]|]. apply IH; [lia|]. intros i u v LT N1 N2. apply (H (S i) u v); [lia|exact N1|exact N2].
  Qed.

  (** ** Goroutines that never end *)
  Theorem never_finished : forall k p j mj, stopsAt k p -> nth_error msgs j = Some mj -> (k < j /\ cap < length mj \/ j = k /\ length p + cap < length mj) ->
    forall s w, reach cstep (cinit msgs a0) s -> nth_error (c_ws s) j = Some w -> ~ finished w.
  Proof.
    intros k p j mj (ms & r0 & a & HK & EK & NP & RD) HJ CASE s w RE HW [F1 F2].
    destruct (k_reach _ _ RE (ex_intro _ _ (ex_intro _ _ k_init))) as (rcv & st & [[L1 L2] K1 KR KC KD KS]).
    destruct (nth_some _ _ msgs rcv j mj ltac:(lia) HJ) as (rj & RJ). destruct (K1 j mj w rj HJ HW RJ) as (Q1 & Q2 & Q3 & Q4 & Q5). rewrite F1, app_nil_r in Q1.
    assert (LR : length mj <= length rj + cap) by (rewrite Q1, app_length; lia).
    assert (JC : j <= c_cur s). { destruct (le_lt_dec j (c_cur s)) as [LE|LT]; [exact LE|]. rewrite (Q5 LT) in LR. cbn in LR. lia. }
    (* what comes before channel k is completely received *)
    assert (FK : firstn k rcv = firstn k msgs).
    { apply firstn_same; [exact L2|]. intros i x y LT N1 N2. destruct (nth_some _ _ msgs (c_ws s) i y ltac:(lia) N2) as (wi & WI). destruct (K1 i y wi x N2 WI N1) as (_ & _ & _ & Z0 & _). apply Z0. lia. }
    destruct (nth_some _ _ msgs rcv k ms ltac:(lia) HK) as (rk & RK). destruct (nth_some _ _ msgs (c_ws s) k ms ltac:(lia) HK) as (wk & WK). destruct (K1 k ms wk rk HK WK RK) as (P1 & _ & _ & P4 & _).
    pose proof (concat_split rcv k rk RK) as CS. rewrite FK in CS.
    destruct CASE as [[LT BIG]|[-> BIG]].
    - destruct (P4 ltac:(lia)) as [-> _]. rewrite CS, EK in KR. rewrite <- app_assoc, app_assoc in KR. pose proof (reads_stop _ _ _ _ _ _ RD KR) as Z0. apply app_eq_nil in Z0. destruct Z0 as [_ Z0].
      assert (NJ : nth_error (skipn (S k) rcv) (j - S k) = Some rj).
      { rewrite <- (firstn_skipn (S k) rcv) in RJ. rewrite nth_error_app2 in RJ; rewrite firstn_length_le in *; try lia; try exact RJ; pose proof (nth_error_lt _ _ RK); lia. }
      rewrite (concat_split _ _ _ NJ) in Z0. apply app_eq_nil in Z0. destruct Z0 as [_ Z0]. apply app_eq_nil in Z0. destruct Z0 as [Z0 _]. subst rj. cbn in LR. lia.
    - rewrite HK in HJ. injection HJ as <-. rewrite RK in RJ. injection RJ as <-. rewrite EK in P1.
      assert (PR : exists t, rk = p ++ t /\ t <> []).
      { exists (skipn (length p) rk). assert (FP : firstn (length p) rk = p).
        { assert (E1 : firstn (length p) (p ++ r0) = p) by (rewrite firstn_app, firstn_all, Nat.sub_diag; cbn [firstn]; apply app_nil_r).
          rewrite P1 in E1. rewrite firstn_app in E1. replace (length p - length rk) with 0 in E1 by lia. cbn [firstn] in E1. rewrite app_nil_r in E1. exact E1. }
        split; [rewrite <- FP at 1; symmetry; apply firstn_skipn|]. intros Z0. pose proof (skipn_length (length p) rk) as SL. rewrite Z0 in SL. cbn in SL. lia. }
      destruct PR as (t & -> & NT). rewrite CS in KR. rewrite <- app_assoc, app_assoc in KR. pose proof (reads_stop _ _ _ _ _ _ RD KR) as Z0. apply app_eq_nil in Z0. destruct Z0. contradiction.
  Qed.

  (** ** All goroutines end *)
  Theorem all_finished : 0 < cap ->
    (forall k p ms, stopsAt k p -> nth_error msgs k = Some ms -> length ms <= length p + cap /\ forall j mj, k < j -> nth_error msgs j = Some mj -> length mj <= cap) ->
    completes cstep (fun s => c_done s = true /\ Forall finished (c_ws s)) (cinit msgs a0).
  Proof.
    intros CP H. split.
    - intros s RE. destruct (k_reach _ _ RE (ex_intro _ _ (ex_intro _ _ k_init))) as (rcv & st & [[L1 L2] K1 KR KC KD KS]).
      assert (D : Forall finished (c_ws s) \/ exists i w, nth_error (c_ws s) i = Some w /\ ~ finished w).
      { clear. induction (c_ws s) as [|w ws IH]; [left; constructor|]. assert (DW : finished w \/ ~ finished w).
        { unfold finished. destruct (w_todo w); [|right; intros [? _]; discriminate]. destruct (w_closed w); [left; auto|right; intros [_ ?]; discriminate]. }
        destruct DW as [F|N]; [|right; exists 0, w; auto]. destruct IH as [IH|(i & x & N & U)]; [left; constructor; assumption|right; exists (S i), x; auto]. }
      destruct (c_done s) eqn:DN.
      + destruct D as [D|(i & w & NW & U)]; [left; auto|]. right. destruct s as [ws cur acc dn]. cbn [c_ws c_cur c_acc c_done] in *.
        destruct (nth_some _ _ ws msgs i w L1 NW) as (ms & HM). destruct (nth_some _ _ msgs rcv i ms ltac:(lia) HM) as (r & HR). destruct (K1 i ms w r HM NW HR) as (Q1 & Q2 & Q3 & Q4 & Q5).
        destruct w as [todo buf closed]. cbn in *. destruct todo as [|m todo].
        * destruct closed; [exfalso; apply U; split; reflexivity|]. eexists. eapply CClose. exact NW.
        * destruct closed; [discriminate (Q3 eq_refl)|]. destruct (le_lt_dec cap (length buf)) as [LE|LT]; [|eexists; eapply CSend; [exact NW|exact LT]].
          exfalso. assert (LM : length ms = length r + (length buf + S (length todo))) by (rewrite Q1, !app_length; reflexivity).
          assert (IC : cur <= i). { destruct (le_lt_dec cur i) as [LE'|LT]; [exact LE'|]. destruct (Q4 LT) as [-> _]. lia. }
          assert (LI : i < length msgs) by (eapply nth_error_lt; exact HM).
          destruct KD as [->|E]; [|lia]. destruct (KS eq_refl) as (rc & RC & NE). destruct (nth_some _ _ rcv msgs cur rc L2 RC) as (mc & MC). destruct (nth_some _ _ msgs ws cur mc ltac:(lia) MC) as (wc & WC).
          destruct (K1 cur mc wc rc MC WC RC) as (P1 & _).
          assert (SA : stopsAt cur rc).
          { exists mc, (w_buf wc ++ w_todo wc), acc. split; [exact MC|]. split; [exact P1|]. split; [exact NE|].
            assert (FK : firstn cur rcv = firstn cur msgs).
            { apply firstn_same; [exact L2|]. intros j x y LT N1 N2. destruct (nth_some _ _ msgs ws j y ltac:(lia) N2) as (wj & WJ). destruct (K1 j y wj x N2 WJ N1) as (_ & _ & _ & Z0 & _). apply Z0. exact LT. }
            rewrite (concat_split rcv cur rc RC), FK in KR.
            assert (Z0 : concat (skipn (S cur) rcv) = []).
            { assert (AL : forall j x, nth_error (skipn (S cur) rcv) j = Some x -> x = []).
              { intros j x NX. assert (NX' : nth_error rcv (S cur + j) = Some x).
                { rewrite <- (firstn_skipn (S cur) rcv). rewrite nth_error_app2; rewrite firstn_length_le; try (pose proof (nth_error_lt _ _ RC); lia). replace (S cur + j - S cur) with j by lia. exact NX. }
                destruct (nth_some _ _ rcv msgs _ x L2 NX') as (mx & MX). destruct (nth_some _ _ msgs ws _ mx ltac:(lia) MX) as (wx & WX). destruct (K1 _ mx wx x MX WX NX') as (_ & _ & _ & _ & Z0). apply Z0. lia. }
              clear - AL. induction (skipn (S cur) rcv) as [|x l IH]; [reflexivity|]. cbn. rewrite (AL 0 x eq_refl). apply IH. intros j y. exact (AL (S j) y). }
            rewrite Z0, app_nil_r in KR. exact KR. }
          destruct (H cur rc mc SA MC) as [H1 H2]. destruct (Nat.eq_dec i cur) as [->|NEi].
          -- rewrite HM in MC. injection MC as <-. rewrite HR in RC. injection RC as <-. lia.
          -- pose proof (H2 i ms ltac:(lia) HM). rewrite (Q5 ltac:(lia)) in LM. cbn in LM. lia.
      + right. destruct s as [ws cur acc dn]. cbn in *. subst dn st. destruct (nth_error ws cur) as [[todo buf closed]|] eqn:E.
        * destruct (nth_some _ _ ws msgs cur _ L1 E) as (ms & HM). destruct (nth_some _ _ msgs rcv cur ms ltac:(lia) HM) as (r & HR). destruct (K1 cur ms _ r HM E HR) as (_ & _ & Q3 & _). cbn in Q3.
          destruct buf as [|m buf]; [|eexists; eapply CRecv; exact E]. destruct closed; [eexists; eapply CNext; exact E|]. destruct todo as [|m todo]; [eexists; eapply CClose; exact E|eexists; eapply CSend; [exact E|exact CP]].
        * eexists. eapply CEnd. exact E.
    - generalize (cinit msgs a0) as s. intros s. remember (measure s) as n eqn:E. revert s E. induction n as [n IH] using lt_wf_ind. intros s ->. constructor. intros s' ST. eapply IH; [eapply cstep_decreases; exact ST|reflexivity].
  Qed.
End Collect.
