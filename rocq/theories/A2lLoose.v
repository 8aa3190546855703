(** Lemmas about modules with unexpected tokens between their objects. *)
From Coq Require Import String Ascii List Arith Bool Lia SpecFloat Permutation.
From Verif Require Import GoBase GoBaseFacts A2lIR A2lTokens A2lParsers A2lThm A2lSpec FanModel FanProofs A2lModModel A2lModSpec A2lModStore A2lModSeq A2lModPar A2lModParts A2lModProps A2lCutSpec A2lCut A2lCutProps A2lLooseSpec.
Import ListNotations.

Section Loose.
  Variable toks : list bytes.
  Variable pf : bytes -> option spec_float.
  Hypothesis EN : ended toks.
  Notation nested := (nestedIn toks pf).
  Notation loopsAt := (A2lModPar.loopsAt toks pf).

  Lemma content_nested : forall i items e, content toks pf i items e -> exists d, e = S d /\ nested i d items.
  Proof.
    induction 1 as [i H|i items e W C (d & -> & N)|i t g a v j items e I T R C (d & -> & N)].
    - exists i. split; [reflexivity|constructor].
    - exists d. split; [reflexivity|]. apply NestOther; [apply word_not_begins; exact W|exact N].
    - exists d. split; [reflexivity|]. eapply NestObj; eauto.
  Qed.
  Lemma broken_nested : forall i items p, broken toks pf i items p -> exists d t g a v j, p = S d /\ nested i d items /\ In (t, (g, a)) kinds /\ tok toks p = b t /\ returns toks pf g p v true j.
  Proof.
    induction 1 as [i t g a v j I T R|i items p W C (d & t & g & a & v & j & -> & N & Q)|i t0 g0 a0 v0 j0 items p I T R C (d & t & g & a & v & j & -> & N & Q)].
    - exists i, t, g, a, v, j. split; [reflexivity|]. split; [constructor|auto].
    - exists d, t, g, a, v, j. split; [reflexivity|]. split; [|exact Q]. apply NestOther; [apply word_not_begins; exact W|exact N].
    - exists d, t, g, a, v, j. split; [reflexivity|]. split; [|exact Q]. eapply NestObj; eauto.
  Qed.

  Lemma nested_apart : forall i e l, nested i e l -> forall x y, In x l -> In y l -> x = y \/ it_to x < it_from y \/ it_to y < it_from x.
  Proof.
    induction 1 as [e|i e l N H IH|i t g a v j e l I T R H IH]; intros x y X Y; [destruct X|auto|].
    pose proof (nested_bounds toks pf EN _ _ _ H) as [_ B]. destruct X as [<-|X], Y as [<-|Y]; [left; reflexivity| | |auto].
    - right. left. cbn. apply B in Y. lia.
    - right. right. cbn. apply B in X. lia.
  Qed.
  Lemma filter_all : forall p l, (forall x, In x l -> p < it_from x) -> filter (fun x => p <? it_from x) l = l.
  Proof.
    intros p. induction l as [|x l IH]; intros H; [reflexivity|]. cbn [filter]. rewrite (proj2 (Nat.ltb_lt _ _) (H x (or_introl eq_refl))).
    rewrite IH by (intros y Y; apply H; right; exact Y). reflexivity.
  Qed.
  (** behind an index that lies in no object *)
  Lemma nested_from : forall i e l, nested i e l -> forall p, i <= p <= e -> (forall x, In x l -> ~ cuts p x) -> nested p e (filter (fun x => p <? it_from x) l).
  Proof.
    intros i e l H. induction H as [e|i e l N H IH|i t g a v j e l I T R H IH]; intros p L NC.
    - assert (p = e) as -> by lia. constructor.
    - destruct (Nat.eq_dec p i) as [->|D]; [|apply IH; [lia|exact NC]].
      pose proof (nested_bounds toks pf EN _ _ _ H) as [_ B]. rewrite filter_all by (intros x X; specialize (B x X); lia). apply NestOther; assumption.
    - pose proof (nested_bounds toks pf EN _ _ _ (NestObj toks pf i t g a v j e l I T R H)) as [_ B]. pose proof (nested_bounds toks pf EN _ _ _ H) as [_ B'].
      pose proof (returns_after toks pf EN _ _ _ _ _ _ I (tok_length toks _ _ _ _ I T) R) as RA.
      destruct (Nat.eq_dec p i) as [->|D].
      + rewrite filter_all by (intros x X; specialize (B x X); lia). eapply NestObj; eauto.
      + cbn [filter it_from]. rewrite (proj2 (Nat.ltb_ge _ _)) by lia.
        destruct (Nat.le_gt_cases j p) as [K|K].
        * apply IH; [lia|]. intros x X. apply NC. right. exact X.
        * exfalso. apply (NC _ (or_introl eq_refl)). unfold cuts. cbn. lia.
  Qed.
  Lemma nested_in_app : forall i j k l m, nested i j l -> nested j k m -> nested i k (l ++ m).
  Proof.
    intros i j k l m H M. induction H as [e|i e l B H IH|i t g a v j e l I T R H IH]; cbn [app].
    - exact M.
    - apply NestOther; [exact B|]. apply IH, M.
    - eapply NestObj; [exact I|exact T|exact R|]. apply IH, M.
  Qed.

  (** *** The objects that a goroutine finds. *)
  Lemma loose_worker : forall max e p l, S e < length toks -> tok toks (S e) = b "/end MODULE" -> clean toks (S e) -> nested p e l ->
    exists out, loopsAt max p out /\ sends out (filter (inRange p max) l).
  Proof.
    intros max e p l L T CL N.
    assert (LE : loopsAt max e []).
    { destruct (le_lt_dec max e) as [K|K]; [apply loop_stop; exact K|]. destruct (tok_next toks e L) as (T1 & T2 & T3).
      apply loop_end; [exact K| |congruence]. rewrite T1, T. vm_compute. reflexivity. }
    destruct (skim toks pf EN max (S e) [] e ltac:(lia) CL) with (out := @nil message) (i := p) (l := l) as (out & L' & S'); [intros y []|exact LE|split; [constructor|reflexivity]|exact N|].
    rewrite app_nil_r in S'. exists out. auto.
  Qed.
  (** the objects behind [p], whether it lies in an object or not *)
  Lemma behind_all : forall i items e p rest, nested i e items -> i <= p <= e -> restOf toks pf items p rest ->
    exists l, nested p e l /\ forall max, filter (inRange p max) l = filter (inRange p max) (rest ++ items).
  Proof.
    intros i items e p rest N PB [(x & X & CU & NS)|[NC ->]]; pose proof (nested_bounds toks pf EN _ _ _ N) as [B1 B2]; pose proof (nested_apart _ _ _ N) as AP.
    - pose proof (B2 x X) as BX. unfold cuts in CU.
      assert (N2 : nested (it_to x) e (filter (fun y => it_to x <? it_from y) items)).
      { apply (nested_from i e items N); [lia|]. intros y Y C. unfold cuts in C. destruct (AP x y X Y) as [<-|[K|K]]; lia. }
      exists (rest ++ filter (fun y => it_to x <? it_from y) items). split; [eapply nested_in_app; eauto|]. intros max.
      rewrite (range_app p (it_to x)) by (intros y Y; apply filter_In in Y; destruct Y as [_ Y]; apply Nat.ltb_lt in Y; lia).
      rewrite (range_app p (it_to x)) by (intros y Y; destruct (AP x y X Y) as [<-|[K|K]]; [lia|lia|]; specialize (B2 y Y); lia).
      f_equal. clear. induction items as [|y l IH]; [reflexivity|]. cbn [filter]. unfold inRange at 2. destruct (it_to x <? it_from y) eqn:L; [|exact IH].
      cbn [filter andb]. unfold inRange at 1. rewrite L, IH. reflexivity.
    - exists (filter (fun x => p <? it_from x) items). split; [apply (nested_from i e items N p PB NC)|]. intros max. cbn [app].
      clear. induction items as [|y l IH]; [reflexivity|]. cbn [filter]. unfold inRange at 2. destruct (p <? it_from y) eqn:L; [|exact IH].
      cbn [filter andb]. unfold inRange at 1. rewrite L, IH. reflexivity.
  Qed.

  Lemma loose_shares : forall np start items e outs, 0 < np -> 0 < start -> nested start e items -> S e < length toks -> tok toks (S e) = b "/end MODULE" -> clean toks (S e) ->
    complete toks pf np start (S e) items ->
    Forall2 (fun k out => loops toks pf (maxIndex np start (S e) k) (minIndex np start (S e) k) out) (seq 0 np) outs ->
    exists shares, Forall2 (shareOf toks pf np start (S e) items) (seq 0 np) shares /\ Forall2 sends outs shares
      /\ forall sh x, In sh shares -> In x (stored sh) -> In (fst x) actions.
  Proof.
    intros np start items e outs NP SP N SL T CL CO F2. pose proof (nested_bounds toks pf EN _ _ _ N) as [B1 B2]. set (stop := S e) in *.
    assert (KS : forall k, In k (seq 0 np) -> k < np) by (intros k I; apply in_seq in I; lia). revert KS F2. generalize (seq 0 np). intros ks KS F2.
    induction F2 as [|k out ks outs L F2 IH]; [exists []; split; [constructor|split; [constructor|intros sh x []]]|].
    destruct IH as (shares & S1 & S2 & S3); [intros; apply KS; right; assumption|]. assert (K : k < np) by (apply KS; left; reflexivity). set (p := minIndex np start stop k).
    assert (RE : exists rest, restOf toks pf items p rest).
    { destruct (lo_border np start stop NP ltac:(unfold stop; lia) k K) as [Z|Z]; [|eapply rest_exists; eauto]. exists []. right. split; [|reflexivity]. intros x X CU. unfold cuts, p in CU. specialize (B2 x X). lia. }
    destruct RE as [rest R]. pose proof (lo_lt np start stop NP ltac:(unfold stop; lia) k K) as LL.
    assert (LP : start <= p <= e) by (clear - LL; subst p; subst stop; lia).
    destruct (behind_all start items e p rest N LP R) as (l & NL & FL).
    destruct (loose_worker (maxIndex np start stop k) e p l SL T CL NL) as (out' & L' & S'). rewrite FL in S'.
    rewrite (loops_fun toks pf _ _ _ _ L (loopsAt_loops toks pf _ _ _ L')).
    assert (EP : edge np start stop k = p) by (unfold edge, p, minIndex; destruct (Nat.eqb_spec k np); [lia|reflexivity]).
    assert (FE : filter (inRange p (maxIndex np start stop k)) (rest ++ items) = filter (between (edge np start stop k) (edge np start stop (S k))) (rest ++ items)).
    { apply share_range; [exact SP|exact K|]. intros x X. apply in_app_or in X. destruct X as [X|X]; [|specialize (B2 x X); unfold stop; lia].
      destruct R as [(y & Y & CU & M)|[_ ->]]; [|destruct X]. apply (nested_bounds toks pf EN) in M. destruct M as [_ M]. specialize (M x X). specialize (B2 y Y). unfold stop. lia. }
    exists (filter (between (edge np start stop k) (edge np start stop (S k))) (rest ++ items) :: shares). split; [|split].
    - constructor; [|exact S1]. unfold shareOf. rewrite EP. exists rest. split; [exact R|reflexivity].
    - constructor; [|exact S2]. rewrite <- FE. exact S'.
    - intros sh x [<-|SH] X; [|eauto]. unfold stored in X. apply in_map_iff in X. destruct X as (y & <- & Y). apply filter_In in Y. destruct Y as [Y _]. cbn [fst].
      apply in_app_or in Y. destruct Y as [Y|Y].
      + apply (rest_actions toks pf _ _ _ R (it_act y, it_val y)). unfold stored. apply (in_map (fun x => (it_act x, it_val x)) _ _ Y).
      + apply (nested_actions toks pf _ _ _ N (it_act y, it_val y)). unfold stored. apply (in_map (fun x => (it_act x, it_val x)) _ _ Y).
  Qed.

  Lemma refused_worker : forall max e p l t g a v j, nested p e l -> In (t, (g, a)) kinds -> tok toks (S e) = b t -> returns toks pf g (S e) v true j ->
    clean toks (S e) -> S e <= max -> exists out, loopsAt max p out /\ In anError out.
  Proof.
    intros max e p l t g a v j N I T R CL ME. pose proof (tok_length toks _ _ _ _ I T) as L.
    destruct (some_row t g a I) as (r & R1 & R2 & R3 & R4). destruct (tok_next toks e L) as (T1 & T2 & T3).
    assert (LE : loopsAt max e [anError]) by (eapply loop_fails; [lia|rewrite T1, T; exact R1|rewrite R2, T2; exact R]).
    apply (skim_error toks pf EN max (S e) e ltac:(lia) CL ltac:(lia) [anError] LE (or_introl eq_refl) p l N).
  Qed.

  (** *** The sequential parser *)
  Lemma loop_refuses : forall fuel n s s', ready (s_obj s) -> headed (s_obj s) -> s_err s = false ->
    iter n (run isKeyword toks pf fuel modBody) s = Go s' -> s_err s' = true ->
    exists items p, broken toks pf (s_idx s) items p \/ stray toks pf (s_idx s) items p.
  Proof.
    intros fuel. induction n as [|n IH]; intros s s' R HD E H E'; [discriminate|]. cbn [iter] in H.
    destruct (findKind (nextTok toks (s_idx s)) kinds) as [[t [g a]]|] eqn:K.
    - pose proof (object_round toks pf fuel s t g a K) as D. apply findKind_some in K. destruct K as [I K]. cbn [fst] in K.
      assert (BG : begins (nextTok toks (s_idx s))) by (exists (t, (g, a)); auto).
      destruct (current_next toks (s_idx s) (proj2 (begins_not_end _ BG))) as (N1 & N2 & _).
      assert (IA : In a actions) by (unfold actions; apply (in_map (fun k => snd (snd k)) _ _ I)).
      unfold does in D. cbn [setIdx s_idx s_obj] in D. destruct (call isKeyword toks pf fuel g (next toks (s_idx s))) as [v [|] j| |] eqn:C.
      + exists [], (S (s_idx s)). left. rewrite N1 in C. eapply BrkHere; [exact I|congruence|eapply call_returns; exact C].
      + destruct (D (R a IA)) as (s1 & D1 & O1 & E1 & J1). rewrite D1 in H.
        destruct (IH s1 s') as (items & p & CT); auto.
        * rewrite O1. apply absorb_ready; auto.
        * rewrite O1. destruct HD as [H1 H2]. unfold headed, fbool in *. rewrite !absorb_flag; auto; apply flags_free; cbn; tauto.
        * rewrite N1 in C. rewrite J1 in CT. exists (Item (S (s_idx s)) j a v :: items), p.
          destruct CT as [CT|CT]; [left|right]; econstructor; eauto; try congruence; eapply call_returns; exact C.
      + rewrite D in H. discriminate.
      + rewrite D in H. discriminate.
    - pose proof K as K0. rewrite (default_round toks pf fuel s K), default_steps in H. cbn [setIdx s_idx s_obj] in H.
      destruct (beqb (current toks (next toks (s_idx s))) []) eqn:B1.
      { apply beqb_eq in B1. exists [], (S (s_idx s)). right. apply StrayHere. left. unfold next in B1. destruct (moves toks (s_idx s)) eqn:M; [exact B1|].
        unfold moves in M. apply Nat.ltb_ge in M. unfold tok. apply nth_overflow. lia. }
      apply beqb_neq in B1.
      assert (NE : nextTok toks (s_idx s) <> []).
      { intros Z. apply B1. unfold nextTok, next in *. destruct (moves toks (s_idx s)) eqn:M; [exact Z|]. apply last_empty; assumption. }
      destruct (current_next toks (s_idx s) NE) as (N1 & N2 & N3). rewrite N3 in *.
      destruct (beqb (tok toks (S (s_idx s))) (b "/end MODULE")) eqn:B2.
      + injection H as <-. cbn in E'. congruence.
      + apply beqb_neq in B2. destruct (isKeyword (tok toks (S (s_idx s)))) eqn:KW.
        * exists [], (S (s_idx s)). right. apply StrayHere. right. split; [exact KW|]. split; [|exact B2]. apply findKind_none. rewrite <- N2. exact K0.
        * destruct HD as [H1 H2]. rewrite H1, H2 in H. cbv iota in H.
          destruct (IH (setIdx (next toks (s_idx s)) s) s' R (conj H1 H2) E H E') as (items & p & CT). exists items, p.
          cbn [setIdx s_idx] in CT. rewrite N1 in CT. destruct CT as [CT|CT]; [left; apply BrkWord|right; apply StrayWord]; try exact CT; split; assumption.
  Qed.
  Lemma seq_refuses : forall fuel i v j, word (tok toks (i + 1)) -> word (tok toks (i + 2)) -> call isKeyword toks pf fuel parseModule i = Ret v true j ->
    exists items p, broken toks pf (i + 2) items p \/ stray toks pf (i + 2) items p.
  Proof.
    intros fuel i v j W1 W2 H. rewrite mod_shape in H.
    assert (P : run isKeyword toks pf fuel modPre (St [] [] false i) = Go (St emptyModule [] false i)) by reflexivity. rewrite (call_loop _ _ _ _ _ _ _ P) in H. clear P.
    destruct (iter fuel (run isKeyword toks pf fuel modBody) (St emptyModule [] false i)) as [s'|s'| |] eqn:IT; try discriminate; [|destruct (iter_out _ _ _ _ IT)].
    injection H as <- E <-. replace (i + 1) with (S i) in * by lia. replace (i + 2) with (S (S i)) in * by lia.
    revert IT. generalize fuel at 1. intros [|n] IT; [discriminate|].
    cbn [iter] in IT. rewrite word_round in IT by exact W1. cbn [s_obj s_idx] in IT.
    change (fbool "nameSet" emptyModule) with false in IT. cbv iota zeta in IT.
    destruct n as [|n]; [discriminate|]. cbn [iter] in IT. rewrite word_round in IT by exact W2. cbn [s_obj s_idx setObj setIdx s_var s_err] in IT. 
    assert (B1 : fbool "nameSet" (fset "nameSet" (VBool true) (fset "Name" (VStr (tok toks (S i))) emptyModule)) = true) by reflexivity.
    assert (B2 : fbool "longIdentifierSet" (fset "nameSet" (VBool true) (fset "Name" (VStr (tok toks (S i))) emptyModule)) = false) by reflexivity.
    rewrite B1, B2 in IT. cbv iota zeta in IT.
    exact (loop_refuses fuel n (St (headOf (tok toks (S i)) (tok toks (S (S i)))) [] false (S (S i))) s' (head_ready pf (tok toks (S i)) (tok toks (S (S i)))) (conj eq_refl eq_refl) eq_refl IT E).
  Qed.
End Loose.
