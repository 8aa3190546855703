(** Properties of several calls of ParseFromFile in one program (GlobModel.v). *)
From Coq Require Import String List Arith NArith Bool SpecFloat Lia.
From Verif Require Import GoBase A2lIR A2lTokens A2lParsers A2lSpec A2lTextModel A2lFileModel HexSpec GlobModel TokThm.
From Coq Require Import ZArith.
From Verif Require TokModel TokSpec TokProps A2lFileThm A2lFileProps A2lModProps.
Import ListNotations.

(** ** Lists *)
Lemma upd_length : forall A (l : list A) k x, List.length (upd k x l) = List.length l.
Proof. induction l as [|y l IH]; intros [|k] x; cbn; auto. Qed.
Lemma upd_nth : forall A (l : list A) k x j y, nth_error (upd k x l) j = Some y -> (j = k /\ y = x) \/ (j <> k /\ nth_error l j = Some y).
Proof.
  induction l as [|z l IH]; intros [|k] x [|j] y H; cbn in *; try discriminate; auto.
  - injection H as ->. auto.
  - destruct (IH _ _ _ _ H) as [(-> & ->)|(N & H')]; auto.
Qed.
Lemma upd_at : forall A (l : list A) k x y, nth_error l k = Some y -> nth_error (upd k x l) k = Some x.
Proof. induction l as [|z l IH]; intros [|k] x y H; cbn in *; try discriminate; eauto. Qed.
Lemma upd_mid : forall A (pre : list A) x y post, upd (List.length pre) x (pre ++ y :: post) = pre ++ x :: post.
Proof. induction pre as [|z pre IH]; intros x y post; cbn; [reflexivity|]. now rewrite IH. Qed.
Lemma nth_mid : forall A (pre : list A) y post, nth_error (pre ++ y :: post) (List.length pre) = Some y.
Proof. induction pre as [|z pre IH]; intros y post; cbn; auto. Qed.

(** ** The goroutines of the tokenizer and what has been received from them *)
Definition fresh (w : worker) (t : list bytes) : Prop :=
  match w with Counting _ t' => t' = t | Sent (Some t') _ => t' = t | Sent None _ => False end.
Definition took (w : worker) (t : list bytes) : list bytes := match w with Sent None _ => t | _ => [] end.

Inductive coll : list worker -> list (list bytes) -> nat -> list bytes -> Prop :=
| coll_nil : coll [] [] 0 []
| coll_done : forall ws ls cur l t, coll ws ls cur l -> coll (Sent None true :: ws) (t :: ls) (S cur) (t ++ l)
| coll_here : forall w t ws ls, fresh w t \/ (exists c, w = Sent None c) -> Forall2 fresh ws ls -> coll (w :: ws) (t :: ls) 0 (took w t).

Lemma coll_init : forall ws ls, Forall2 fresh ws ls -> coll ws ls 0 [].
Proof.
  intros ws ls [|w t ws' ls' F H]; [constructor|]. assert (E : took w t = []) by (destruct w as [|[|]]; try reflexivity; destruct F).
  rewrite <- E. constructor; auto.
Qed.
Lemma wstep_fresh : forall g w g' w' t, wstep g w g' w' -> fresh w t -> fresh w' t.
Proof. intros g w g' w' t H F. destruct H; cbn in *; auto. Qed.
Lemma wstep_took : forall g w g' w' t, wstep g w g' w' -> took w' t = took w t.
Proof. intros g w g' w' t H. destruct H; reflexivity. Qed.
Lemma fresh_upd : forall ws ls, Forall2 fresh ws ls -> forall k g w g' w', nth_error ws k = Some w -> wstep g w g' w' -> Forall2 fresh (upd k w' ws) ls.
Proof.
  induction 1 as [|w0 t ws ls F H IH]; intros [|k] g w g' w' E W; cbn in *; try discriminate.
  - injection E as ->. constructor; [eapply wstep_fresh; eauto|assumption].
  - constructor; eauto.
Qed.
Lemma coll_worker : forall ws ls cur l, coll ws ls cur l -> forall k g w g' w', nth_error ws k = Some w -> wstep g w g' w' -> coll (upd k w' ws) ls cur l.
Proof.
  induction 1 as [|ws ls cur l t H IH|w0 t ws ls F H]; intros [|k] g w g' w' E W; cbn in *; try discriminate.
  - injection E as <-. inversion W.
  - constructor. eauto.
  - injection E as ->. rewrite <- (wstep_took _ _ _ _ t W). constructor; [|assumption].
    destruct F as [F|[c ->]]; [left; eapply wstep_fresh; eauto|right]. inversion W; subst; eauto.
  - constructor; [assumption|]. eapply fresh_upd; eauto.
Qed.
Lemma coll_take : forall ws ls cur l, coll ws ls cur l -> forall t c, nth_error ws cur = Some (Sent (Some t) c) -> coll (upd cur (Sent None c) ws) ls cur (l ++ t).
Proof.
  induction 1 as [|ws ls cur l t H IH|w0 t ws ls F H]; intros t0 c E; cbn in *; try discriminate.
  - rewrite <- app_assoc. constructor. auto.
  - injection E as ->. destruct F as [F|[c' K]]; [|discriminate]. cbn in F. subst. cbn. apply (coll_here (Sent None c) t); eauto.
Qed.
Lemma coll_next : forall ws ls cur l, coll ws ls cur l -> nth_error ws cur = Some (Sent None true) -> coll ws ls (S cur) l.
Proof.
  induction 1 as [|ws ls cur l t H IH|w0 t ws ls F H]; intros E; cbn in *; try discriminate.
  - constructor. auto.
  - injection E as ->. cbn. rewrite <- (app_nil_r t) at 2. constructor. apply coll_init, H.
Qed.
Definition left (w : worker) : nat := match w with Counting n _ => n | _ => 0 end.
Fixpoint pending (ws : list worker) : nat := match ws with [] => 0 | w :: ws' => left w + pending ws' end.
Lemma coll_end : forall ws ls cur l, coll ws ls cur l -> cur = List.length ws -> l = concat ls /\ pending ws = 0.
Proof.
  induction 1 as [|ws ls cur l t H IH|w0 t ws ls F H]; intros E; cbn in *; [auto| |discriminate].
  injection E as E. destruct (IH E) as (-> & P). auto.
Qed.
Lemma pending_upd : forall ws k w w', nth_error ws k = Some w -> pending (upd k w' ws) + left w = pending ws + left w'.
Proof.
  induction ws as [|w0 ws IH]; intros [|k] w w' E; cbn [nth_error] in E; try discriminate; cbn [upd pending].
  - injection E as ->. lia.
  - specialize (IH _ _ w' E). lia.
Qed.
Lemma pending_spawn : forall ls, pending (map spawn ls) = List.length (filter (beqb TokModel.beginModuleToken) (concat ls)).
Proof. induction ls as [|t ls IH]; [reflexivity|]. cbn [concat]. rewrite filter_app, app_length, <- IH. reflexivity. Qed.
Lemma fresh_spawn : forall ls, Forall2 fresh (map spawn ls) ls.
Proof. induction ls as [|t ls IH]; constructor; [reflexivity|exact IH]. Qed.

Section Calls.
  Variable gr : N -> bool.
  Variable pf : bytes -> option spec_float.
  Variable cpus : nat.
  Notation cstep := (cstep gr pf cpus).

  (** The tokens of a file, per goroutine *)
  Definition parts (content : bytes) : list (list bytes) := tokens_of (cpus * 2) (TokModel.textLines (cleanBytesString gr content)).
  Definition toks (content : bytes) : TokModel.tokens := TokModel.result (parts content) (concat (parts content)).
  Lemma toks_are : forall content r, fileTokens gr cpus content r <-> r = Some (toks content).
  Proof. intros content r. apply exec_lex. Qed.
  Lemma chunks_ok : forall content, TokModel.all_ok (TokModel.chunkResults (cpus * 2) (cleanBytesString gr content)) = Some (parts content).
  Proof.
    intros content. unfold TokModel.chunkResults, parts, tokens_of. rewrite <- all_ok_map. f_equal. apply map_ext. intros l. apply tokenBuilder_lex.
  Qed.
  Definition total (content : bytes) : N := N.of_nat (List.length (filter (beqb TokModel.beginModuleToken) (concat (parts content)))).

  (** What is known of a call that has been given [file], with the variables [g], as long
      as no other call changes them. *)
  Definition known (file : option bytes) (g : globals) (c : caller) : Prop :=
    match c with
    | Begin f => f = file
    | Done r => parseFromFile gr pf cpus file r
    | _ => exists content, file = Some content /\
      match c with
      | Zero t => t = cleanBytesString gr content
      | Make t => t = cleanBytesString gr content /\ g_count g = 0%N
      | Collect ws cur => coll ws (parts content) cur (g_list g) /\ (g_count g < 4294967296)%N
                          /\ u32 (g_count g + N.of_nat (pending ws)) = u32 (total content)
      | Decide => g_list g = TokModel.tk_list (toks content) /\ g_count g = u32 (total content)
      | _ => g_list g = TokModel.tk_list (toks content) /\ g_mt g = TokModel.tk_multithreading (toks content)
      end
    end.

  Lemma parses_file : forall content g r, g_list g = TokModel.tk_list (toks content) -> g_mt g = TokModel.tk_multithreading (toks content) ->
      (parses pf cpus g r <-> parseFromFile gr pf cpus (Some content) r).
  Proof.
    intros content g r L M. unfold parses. rewrite L, M. split.
    - intros (a & e & j & A & ->). eapply PfTokens; [apply toks_are; reflexivity|exact A].
    - intros H. inversion H as [|? T|? t a e j T A]; subst; apply toks_are in T; [discriminate|]. injection T as ->. eauto 6.
  Qed.

  Lemma toks_some : forall content, TokModel.tk_list (toks content) <> [].
  Proof. intros content E. unfold toks, TokModel.result in E. cbn in E. destruct (concat (parts content)); discriminate. Qed.

  Lemma known_step : forall file g c g' c', known file g c -> cstep g c g' c' -> known file g' c'.
  Proof.
    intros file g c g' c' K H. destruct H as [g|g content|l c m text|l c m text ls A|g text A|g g' ws cur k w w' E W|l c m ws cur t closed E|g ws cur E|l c m ws|l c m|g r E P|g E|g E|g r E P]; cbn in *.
    - subst. constructor.
    - exists content. auto.
    - destruct K as (content & -> & ->). eauto.
    - destruct K as (content & -> & -> & ->). exists content. split; [reflexivity|].
      pose proof (chunks_ok content) as O. rewrite O in A. injection A as <-.
      split; [apply coll_init, fresh_spawn|]. split; [reflexivity|]. rewrite pending_spawn. reflexivity.
    - destruct K as (content & -> & -> & _). pose proof (chunks_ok content). congruence.
    - destruct K as (content & -> & C & B & U). exists content. split; [reflexivity|].
      assert (L : g_list g' = g_list g) by (destruct W; reflexivity). rewrite L. split; [eapply coll_worker; eauto|].
      pose proof (pending_upd _ _ _ w' E) as P. destruct W; cbn [left] in P; cbn [g_count] in *.
      + split; [apply N.mod_lt; discriminate|]. rewrite <- U. unfold u32. rewrite N.add_mod_idemp_l by discriminate. f_equal. lia.
      + split; [exact B|]. rewrite <- U. do 2 f_equal. lia.
      + split; [exact B|]. rewrite <- U. do 2 f_equal. lia.
    - destruct K as (content & -> & C & B & U). exists content. split; [reflexivity|]. split; [eapply coll_take; eauto|]. split; [exact B|].
      rewrite <- U. pose proof (pending_upd _ _ _ (Sent None closed) E) as P. cbn [left] in P. do 2 f_equal. lia.
    - destruct K as (content & -> & C & B & U). exists content. split; [reflexivity|]. split; [eapply coll_next; eauto|]. auto.
    - destruct K as (content & -> & C & B & U). exists content. split; [reflexivity|]. destruct (coll_end _ _ _ _ C eq_refl) as (-> & P).
      split; [reflexivity|]. rewrite <- U, P, N.add_0_r. unfold u32. symmetry. apply N.mod_small, B.
    - destruct K as (content & -> & -> & ->). exists content. auto.
    - destruct K as (content & -> & L & M). apply (parses_file content g); auto.
    - destruct K as (content & -> & L & M). exists content. auto.
    - destruct K as (content & -> & L & M). destruct (toks_some content). rewrite <- E. symmetry. exact L.
    - destruct K as (content & -> & L & M). apply (parses_file content g); auto.
  Qed.

  (** ** C84: one call at a time *)

  Lemma known_idle : forall file g c, idle c -> known file g c -> forall g', known file g' c.
  Proof. intros file g [| | | | | | |] I K g'; try destruct I; exact K. Qed.

  (** Calls one after the other do not depend on each other: whatever the variables were
      and in whatever order the calls are made, each can only return what it could
      return in a program that makes no other call. *)
Theorem C84_sequence : forall g files g' cs k r,
      reach (serial gr pf cpus) (g, map Begin files) (g', cs) -> nth_error cs k = Some (Done r) ->
      exists file, nth_error files k = Some file /\ parseFromFile gr pf cpus file r.
  Proof.
    intros g files g' cs k r R E.
    assert (INV : forall s s', reach (serial gr pf cpus) s s' ->
      (List.length (snd s) = List.length files /\ forall k file c, nth_error files k = Some file -> nth_error (snd s) k = Some c -> known file (fst s) c) ->
      (List.length (snd s') = List.length files /\ forall k file c, nth_error files k = Some file -> nth_error (snd s') k = Some c -> known file (fst s') c)).
    { clear. induction 1 as [s|s1 s2 s3 H R IH]; [auto|]. intros (L & K). apply IH. clear IH R.
      destruct H as [g g' cs k c c' E C I]. cbn [fst snd] in *. split; [rewrite upd_length; exact L|].
      intros j file c2 F E2. destruct (upd_nth _ _ _ _ _ _ E2) as [(-> & ->)|(N & E3)].
      - eapply known_step; [|exact C]. eapply K; eauto.
      - eapply known_idle; [eapply I; eauto|]. eapply K; eauto. }
    destruct (INV _ _ R) as (L & K).
    { cbn [fst snd]. split; [apply map_length|]. intros j file c F E'. rewrite (map_nth_error Begin _ _ F) in E'. injection E' as <-. reflexivity. }
    cbn [fst snd] in *. destruct (nth_error files k) as [file|] eqn:F.
    - exists file. split; [reflexivity|]. exact (K _ _ _ F E).
    - apply nth_error_None in F. rewrite <- L in F. apply nth_error_None in F. congruence.
  Qed.

  (** One call, with nothing else *)
  Inductive cstep1 : globals * caller -> globals * caller -> Prop :=
  | Step1 : forall g c g' c', cstep g c g' c' -> cstep1 (g, c) (g', c').
  Lemma reach_trans : forall A (step : A -> A -> Prop) x y z, reach step x y -> reach step y z -> reach step x z.
  Proof. intros A step x y z R. induction R; eauto using reach_step. Qed.
  Lemma reach_one : forall A (step : A -> A -> Prop) x y, step x y -> reach step x y.
  Proof. intros. eapply reach_step; [eassumption|apply reach_refl]. Qed.

  Lemma known_reach : forall file s s', reach cstep1 s s' -> known file (fst s) (snd s) -> known file (fst s') (snd s').
  Proof. intros file s s' R. induction R as [s|s1 s2 s3 H R IH]; [auto|]. intros K. apply IH. destruct H. eapply known_step; eassumption. Qed.

  Lemma run_count : forall n t pre post g cur, exists g', reach cstep1 (g, Collect (pre ++ Counting n t :: post) cur) (g', Collect (pre ++ Sent (Some t) true :: post) cur).
  Proof.
    induction n as [|n IH]; intros t pre post g cur.
    - exists g. eapply reach_step; [apply Step1; eapply CWorker; [apply nth_mid|apply WSend]|]. rewrite upd_mid.
      eapply reach_step; [apply Step1; eapply CWorker; [apply nth_mid|apply WClose]|]. rewrite upd_mid. apply reach_refl.
    - destruct g as [l c m]. destruct (IH t pre post (Globals l (u32 (c + 1)) m) cur) as (g' & R). exists g'.
      eapply reach_step; [apply Step1; eapply CWorker; [apply nth_mid|apply WCount]|]. rewrite upd_mid. exact R.
  Qed.
  Lemma run_channel : forall w pre post g, exists g', reach cstep1 (g, Collect (pre ++ w :: post) (List.length pre)) (g', Collect (pre ++ Sent None true :: post) (S (List.length pre))).
  Proof.
    assert (N : forall pre post g, reach cstep1 (g, Collect (pre ++ Sent None true :: post) (List.length pre)) (g, Collect (pre ++ Sent None true :: post) (S (List.length pre)))).
    { intros pre post g. apply reach_one, Step1. apply CNext. apply nth_mid. }
    assert (T : forall t pre post g, exists g', reach cstep1 (g, Collect (pre ++ Sent (Some t) true :: post) (List.length pre)) (g', Collect (pre ++ Sent None true :: post) (S (List.length pre)))).
    { intros t pre post [l c m]. eexists. eapply reach_step; [apply Step1; eapply CTake; apply nth_mid|]. rewrite upd_mid. apply N. }
    assert (C : forall buf pre post g cur, reach cstep1 (g, Collect (pre ++ Sent buf false :: post) cur) (g, Collect (pre ++ Sent buf true :: post) cur)).
    { intros buf pre post g cur. eapply reach_step; [apply Step1; eapply CWorker; [apply nth_mid|apply WClose]|]. rewrite upd_mid. apply reach_refl. }
    intros [n t|[t|] [|]] pre post g.
    - destruct (run_count n t pre post g (List.length pre)) as (g1 & R1). destruct (T t pre post g1) as (g2 & R2). eauto using reach_trans.
    - apply T.
    - destruct (T t pre post g) as (g2 & R2). eauto using reach_trans.
    - eauto.
    - eauto using reach_trans.
  Qed.
  Lemma run_collect : forall post pre g, exists g', reach cstep1 (g, Collect (pre ++ post) (List.length pre)) (g', Decide).
  Proof.
    induction post as [|w post IH]; intros pre g.
    - rewrite app_nil_r. destruct g. eexists. apply reach_one, Step1. apply CEnd.
    - destruct (run_channel w pre post g) as (g1 & R1). destruct (IH (pre ++ [Sent None true]) g1) as (g2 & R2).
      rewrite <- app_assoc, app_length, Nat.add_1_r in R2. cbn [app] in R2. eauto using reach_trans.
  Qed.
  Lemma coll_le : forall ws ls cur l, coll ws ls cur l -> cur <= List.length ws.
  Proof. induction 1; cbn; lia. Qed.

  (** From wherever a call is, it can go on to any of its results. *)
  Lemma run_call : forall file g c r, known file g c -> (forall r', c <> Done r') -> parseFromFile gr pf cpus file r ->
      exists g', reach cstep1 (g, c) (g', Done r).
  Proof.
    intros file g c r K ND P.
    assert (IX : forall g, known file g Index -> exists g', reach cstep1 (g, Index) (g', Done r)).
    { intros g0 (content & -> & L & M). exists g0. apply reach_one, Step1. apply CParse; [rewrite L; apply toks_some|]. apply (parses_file content); auto. }
    assert (CH : forall g, known file g Check -> exists g', reach cstep1 (g, Check) (g', Done r)).
    { intros g0 K0. destruct (IX g0 K0) as (g' & R). exists g'. eapply reach_step; [|exact R]. destruct K0 as (content & -> & L & M). apply Step1, CCheck. rewrite L. apply toks_some. }
    assert (DE : forall g, known file g Decide -> exists g', reach cstep1 (g, Decide) (g', Done r)).
    { intros g0 K0. destruct g0 as [l c0 m]. destruct (CH (Globals l c0 (negb (1 <? c0)%N))) as (g' & R); [eapply known_step; [exact K0|constructor]|].
      exists g'. eapply reach_step; [apply Step1, CDecide|exact R]. }
    assert (CO : forall g ws cur, known file g (Collect ws cur) -> exists g', reach cstep1 (g, Collect ws cur) (g', Done r)).
    { intros g0 ws cur K0. assert (LE : cur <= List.length ws) by (destruct K0 as (content & _ & C & _); eapply coll_le; eauto).
      destruct (run_collect (skipn cur ws) (firstn cur ws) g0) as (g1 & R1). rewrite firstn_skipn, firstn_length, Nat.min_l in R1 by exact LE.
      destruct (DE g1 (known_reach file _ _ R1 K0)) as (g2 & R2). eauto using reach_trans. }
    assert (MA : forall g t, known file g (Make t) -> exists g', reach cstep1 (g, Make t) (g', Done r)).
    { intros g0 t K0. destruct g0 as [l c0 m]. pose proof K0 as (content & E & Et & _).
      assert (ST : cstep (Globals l c0 m) (Make t) (Globals [] c0 m) (Collect (map spawn (parts content)) 0)) by (apply CMake; rewrite Et; apply chunks_ok).
      destruct (CO _ _ _ (known_step file _ _ _ _ K0 ST)) as (g' & R). exists g'. eapply reach_step; [apply Step1; exact ST|exact R]. }
    assert (ZE : forall g t, known file g (Zero t) -> exists g', reach cstep1 (g, Zero t) (g', Done r)).
    { intros g0 t K0. destruct g0 as [l c0 m]. destruct (MA _ _ (known_step file _ _ _ _ K0 (CZero gr pf cpus l c0 m t))) as (g' & R).
      exists g'. eapply reach_step; [apply Step1, CZero|exact R]. }
    destruct c as [f|t|t|ws cur| | | |r0]; eauto; [|destruct (ND _ eq_refl)].
    cbn in K. subst f. destruct file as [content|].
    - destruct (ZE g (cleanBytesString gr content)) as (g' & R); [exists content; auto|]. exists g'. eapply reach_step; [apply Step1, CRead|exact R].
    - inversion P; subst. exists g. apply reach_one, Step1. apply CNoFile.
  Qed.

  Lemma reach_serial : forall pre post, Forall idle pre -> Forall idle post -> forall s s', reach cstep1 s s' ->
      reach (serial gr pf cpus) (fst s, pre ++ snd s :: post) (fst s', pre ++ snd s' :: post).
  Proof.
    intros pre post I1 I2 s s' R. induction R as [s|s1 s2 s3 H R IH]; [apply reach_refl|]. destruct H as [g c g2 c2 H]. eapply reach_step; [|exact IH]. cbn [fst snd].
    rewrite <- (upd_mid _ pre c2 c post). eapply Serial; [apply nth_mid|exact H|]. intros k' c' E N.
    destruct (Nat.lt_ge_cases k' (List.length pre)) as [L|L].
    - rewrite nth_error_app1 in E by exact L. rewrite Forall_forall in I1. eapply I1, nth_error_In, E.
    - rewrite nth_error_app2 in E by exact L. destruct (k' - List.length pre) as [|j] eqn:J; [lia|]. cbn in E. rewrite Forall_forall in I2. eapply I2, nth_error_In, E.
  Qed.

  (** And each of these results is possible, whatever the variables were. *)
Theorem C84_all_results : forall g files rs, Forall2 (parseFromFile gr pf cpus) files rs ->
      exists g', reach (serial gr pf cpus) (g, map Begin files) (g', map Done rs).
  Proof.
    intros g files rs F.
    assert (G : forall pre g, exists g', reach (serial gr pf cpus) (g, map Done pre ++ map Begin files) (g', map Done pre ++ map Done rs)).
    { clear g. induction F as [|file r files rs P F IH]; intros pre g; [exists g; apply reach_refl|].
      destruct (run_call file g (Begin file) r) as (g1 & R1); [reflexivity|discriminate|exact P|].
      destruct (IH (pre ++ [r]) g1) as (g2 & R2). exists g2.
      apply (reach_serial (map Done pre) (map Begin files)) in R1; [|apply Forall_forall; intros c [x [<- _]]%in_map_iff; exact I..].
      cbn [fst snd] in R1. rewrite map_app, <- !app_assoc in R2. exact (reach_trans _ _ _ _ _ R1 R2). }
    exact (G [] g).
  Qed.

  (** No such program gets stuck: from any state it can reach the end. *)
Theorem C84_ends : forall g files g' cs, 0 < cpus -> reach (serial gr pf cpus) (g, map Begin files) (g', cs) ->
      exists g2 rs, reach (serial gr pf cpus) (g', cs) (g2, map Done rs).
  Proof.
    intros g files g' cs CP R.
    set (inv := fun s : sys => List.length (snd s) = List.length files
      /\ (forall k file c, nth_error files k = Some file -> nth_error (snd s) k = Some c -> known file (fst s) c)
      /\ (forall k k' c c', nth_error (snd s) k = Some c -> nth_error (snd s) k' = Some c' -> ~ idle c -> ~ idle c' -> k = k')).
    assert (INV : forall s s', reach (serial gr pf cpus) s s' -> inv s -> inv s').
    { clear. induction 1 as [s|s1 s2 s3 H R IH]; [auto|]. intros (L & K & U). apply IH. clear IH R.
      destruct H as [g g' cs k c c' E C I]. unfold inv. cbn [fst snd] in *. split; [rewrite upd_length; exact L|]. split.
      - intros j file c2 F E2. destruct (upd_nth _ _ _ _ _ _ E2) as [(-> & ->)|(N & E3)].
        + eapply known_step; [|exact C]. eapply K; eauto.
        + eapply known_idle; [eapply I; eauto|]. eapply K; eauto.
      - intros j j' d d' E1 E2 N1 N2. destruct (upd_nth _ _ _ _ _ _ E1) as [(-> & ->)|(M1 & F1)]; [|destruct N1; eapply I; eauto].
        destruct (upd_nth _ _ _ _ _ _ E2) as [(-> & ->)|(M2 & F2)]; [reflexivity|destruct N2; eapply I; eauto]. }
    assert (IN : inv (g', cs)).
    { apply (INV _ _ R). unfold inv. cbn [fst snd]. split; [apply map_length|]. split.
      - intros j file c F E'. rewrite (map_nth_error Begin _ _ F) in E'. injection E' as <-. reflexivity.
      - intros k k' c c' E _ N _. apply nth_error_In, in_map_iff in E. destruct E as [x [<- _]]. destruct (N I). }
    clear R g.
    set (open := fun c => match c with Done _ => 0 | _ => 1 end).
    assert (Z : forall cs, list_sum (map open cs) = 0 -> exists rs, cs = map Done rs).
    { clear. induction cs as [|c cs IH]; [exists []; reflexivity|]. intros E. change (open c + list_sum (map open cs) = 0) in E. destruct (IH ltac:(lia)) as (rs & ->).
      destruct c; try discriminate. exists (r :: rs). reflexivity. }
    assert (P : forall cs, 0 < list_sum (map open cs) -> exists k c, nth_error cs k = Some c /\ open c = 1).
    { clear. induction cs as [|c cs IH]; [cbn; lia|]. intros L. change (0 < open c + list_sum (map open cs)) in L. destruct (open c) as [|n] eqn:O.
      - destruct IH as (k & c' & E & O'); [exact L|]. exists (S k), c'. auto.
      - exists 0, c. split; [reflexivity|]. destruct c; try discriminate; reflexivity. }
    assert (A : forall cs : list caller, (exists k c, nth_error cs k = Some c /\ ~ idle c) \/ (forall k c, nth_error cs k = Some c -> idle c)).
    { clear. induction cs as [|c cs IH]; [right; intros [|k] c E; discriminate|].
      destruct IH as [(k & c' & E & N)|IH]; [left; exists (S k), c'; auto|].
      destruct c; try solve [left; exists 0; eexists; split; [reflexivity|intros []]]; right; intros [|k] c E; cbn in E; try (injection E as <-; exact I); eauto. }
    assert (D : forall cs k c r, nth_error cs k = Some c -> open c = 1 -> list_sum (map open cs) = S (list_sum (map open (upd k (Done r) cs)))).
    { clear. induction cs as [|c0 cs IH]; intros [|k] c r E O; try discriminate.
      - injection E as ->. cbn [upd map]. change (open c + list_sum (map open cs) = S (0 + list_sum (map open cs))). lia.
      - cbn [upd map]. change (open c0 + list_sum (map open cs) = S (open c0 + list_sum (map open (upd k (Done r) cs)))). rewrite (IH _ _ r E O). lia. }
    remember (list_sum (map open cs)) as n eqn:En. revert g' cs IN En. induction n as [|n IH]; intros g cs IN En.
    - destruct (Z cs (eq_sym En)) as (rs & ->). exists g, rs. apply reach_refl.
    - assert (S1 : exists k c, nth_error cs k = Some c /\ open c = 1 /\ forall k' c', nth_error cs k' = Some c' -> k' <> k -> idle c').
      { destruct (A cs) as [(k & c & E & N)|AI].
        - exists k, c. split; [exact E|]. split; [destruct c; try reflexivity; destruct (N I)|]. intros k' c' E' NE.
          destruct c'; try exact I; destruct NE; destruct IN as (_ & _ & U); (eapply U; [exact E'|exact E|intros []|exact N]).
        - destruct (P cs ltac:(lia)) as (k & c & E & O). exists k, c. eauto. }
      destruct S1 as (k & c & E & O & OTH). destruct IN as (L & K & U) eqn:EI. clear EI. cbn [fst snd] in *.
      destruct (nth_error files k) as [file|] eqn:F; [|apply nth_error_None in F; rewrite <- L in F; apply nth_error_None in F; congruence].
      destruct (A2lFileProps.C65_total gr pf cpus file CP) as ((r & PR) & _).
      destruct (run_call file g c r (K _ _ _ F E)) as (g1 & R1); [intros r' ->; discriminate|exact PR|].
      destruct (nth_error_split _ _ E) as (pre & post & -> & <-).
      apply (reach_serial pre post) in R1.
      + cbn [fst snd] in R1. assert (IN2 : inv (g1, pre ++ Done r :: post)) by (apply (INV _ _ R1); repeat split; assumption).
        destruct (IH g1 (pre ++ Done r :: post) IN2) as (g2 & rs & R2).
        * pose proof (D _ _ _ r E O) as DD. rewrite upd_mid in DD. lia.
        * exists g2, rs. exact (reach_trans _ _ _ _ _ R1 R2).
      + apply Forall_forall. intros c' IC. destruct (In_nth_error _ _ IC) as (k' & E'). assert (LT : k' < List.length pre) by (apply nth_error_Some; congruence).
        apply (OTH k'); [rewrite nth_error_app1 by exact LT; exact E'|lia].
      + apply Forall_forall. intros c' IC. destruct (In_nth_error _ _ IC) as (k' & E'). apply (OTH (List.length pre + S k')); [|lia].
        rewrite nth_error_app2 by lia. replace (List.length pre + S k' - List.length pre) with (S k') by lia. exact E'.
  Qed.
End Calls.
Print Assumptions C84_sequence.
Print Assumptions C84_all_results.
Print Assumptions C84_ends.

(** ** C84: calls at the same time *)

Definition LF : bytes := [Ascii.ascii_of_N 10].
Definition v160 : bytes := b "ASAP2_VERSION 1" ++ LF ++ b "60".
Definition v171 : bytes := b "ASAP2_VERSION 1" ++ LF ++ b "71".
Definition version (v u : Z) : fields :=
  [("Asap2Version", VObj [("versionNo", VInt v); ("versionNoSet", VBool true); ("upgradeNo", VInt u); ("upgradeNoSet", VBool true)])]%string.

Lemma version_alone : forall gr pf content u t, parts gr 1 content = [[b "ASAP2_VERSION"; b "1"]; [t]] ->
    (forall pf, call isKeyword [b "ASAP2_VERSION"; b "1"; t; []] pf 50 parseASAP2Version 0
                = Ret (VObj [("versionNo", VInt 1); ("versionNoSet", VBool true); ("upgradeNo", VInt u); ("upgradeNoSet", VBool true)]%string) false 2) ->
    forall r, parseFromFile gr pf 1 (Some content) r <-> r = Returned (version 1 u) false.
Proof.
  intros gr pf content u t PT CALL r.
  assert (T : forall r, fileTokens gr 1 content r <-> r = Some (TokModel.Tokens [b "ASAP2_VERSION"; b "1"; t; []]
     (negb (1 <? u32 (N.of_nat (List.length (filter (beqb TokModel.beginModuleToken) [b "ASAP2_VERSION"; b "1"; t]))))%N))).
  { intros r0. rewrite (toks_are gr 1 content). unfold toks. rewrite PT. reflexivity. }
  pose proof (A2lModProps.returns_run 50 _ pf _ _ _ _ _ (CALL pf)) as R. split.
  - intros H. inversion H as [|? T'|? t' a e j T' A]; subst; apply T in T'; [discriminate|]. injection T' as ->. cbn [TokModel.tk_list] in A.
    set (m := parsesModule _ _ _ _) in A. clearbody m. clear H.
    inversion A as [? ? f v k ? ? ? P A'|? ? f v k P|? ? q ? ? ? N D A'|? ? ? N D]; subst.
    + inversion P as [? ? ? ? R' E|? ? ? ? R' E|? ? ? ? R' E]; subst; [|discriminate..].
      destruct (A2lFileThm.returns_fun _ _ _ _ _ _ _ _ _ _ R R') as (<- & _ & <-). clear A P.
      inversion A' as [? ? f v k ? ? ? P A|? ? f v k P|? ? q ? ? ? N D A|? ? ? N D]; subst; try (apply A2lFileThm.part_in in P; destruct P as [K|[K|[K|[]]]]; discriminate).
      * vm_compute in D. discriminate.
      * vm_compute in D. injection D as <-. reflexivity.
    + inversion P as [? ? ? ? R' E|? ? ? ? R' E|? ? ? ? R' E]; subst; [|discriminate..].
      destruct (A2lFileThm.returns_fun _ _ _ _ _ _ _ _ _ _ R R') as (_ & K & _). discriminate.
    + destruct N. left. reflexivity.
    + destruct N. left. reflexivity.
  - intros ->. eapply PfTokens; [apply T; reflexivity|]. cbn [TokModel.tk_list].
    eapply AlPart; [apply (PartAsap2 _ _ _ 0); exact R|]. apply AlStop; [intros [K|[K|[K|[]]]]; discriminate|reflexivity].
Qed.
Lemma v160_alone : forall gr pf r, parseFromFile gr pf 1 (Some v160) r <-> r = Returned (version 1 60) false.
Proof. intros gr pf. apply (version_alone gr pf v160 60 (b "60")); [vm_compute; reflexivity|intros; vm_compute; reflexivity]. Qed.
Lemma v171_alone : forall gr pf r, parseFromFile gr pf 1 (Some v171) r <-> r = Returned (version 1 71) false.
Proof. intros gr pf. apply (version_alone gr pf v171 71 (b "71")); [vm_compute; reflexivity|intros; vm_compute; reflexivity]. Qed.

(** Call [k] makes the step [h]. *)
Ltac by_ k h := eapply reach_step; [eapply (Step _ _ _ _ _ _ k); [reflexivity|h]|cbn [upd]].
Ltac made := eapply CMake; vm_compute; reflexivity.
Ltac sends k i := by_ k ltac:(eapply (CWorker _ _ _ _ _ _ _ i); [reflexivity|apply WSend]).
Ltac closes k i := by_ k ltac:(eapply (CWorker _ _ _ _ _ _ _ i); [reflexivity|apply WClose]).
Ltac takes k := by_ k ltac:(eapply CTake; reflexivity); by_ k ltac:(eapply CNext; reflexivity).
Ltac ready k := sends k 0; sends k 1; closes k 0; closes k 1; cbn [map spawn upd].
Ltac reads k := by_ k ltac:(apply CRead); by_ k ltac:(apply CZero).

(** Two files are read at the same time: the first call returns what the second
    file says, and no error. *)
Theorem C84_overlap_refuted : exists file1 file2 a1 a2, a1 <> a2 /\
    forall gr pf g,
      (forall r, parseFromFile gr pf 1 (Some file1) r <-> r = Returned a1 false)
      /\ (forall r, parseFromFile gr pf 1 (Some file2) r <-> r = Returned a2 false)
      /\ exists g', reach (sstep gr pf 1) (g, [Begin (Some file1); Begin (Some file2)]) (g', [Done (Returned a2 false); Done (Returned a2 false)]).
Proof.
  exists v160, v171, (version 1 60), (version 1 71). split; [discriminate|]. intros gr pf g. split; [apply v160_alone|]. split; [apply v171_alone|].
  destruct g as [l c m]. eexists. reads 0. by_ 0 made. ready 0. takes 0. takes 0. by_ 0 ltac:(apply CEnd). by_ 0 ltac:(apply CDecide).
  reads 1. by_ 1 made. ready 1. takes 1. takes 1. by_ 1 ltac:(apply CEnd). by_ 1 ltac:(apply CDecide).
  by_ 0 ltac:(apply CCheck; discriminate). by_ 0 ltac:(apply (CParse _ _ _ _ (Returned (version 1 71) false)); [discriminate|apply (parses_file gr pf 1 v171); [vm_compute; reflexivity|vm_compute; reflexivity|apply v171_alone; reflexivity]]).
  by_ 1 ltac:(apply CCheck; discriminate). by_ 1 ltac:(apply (CParse _ _ _ _ (Returned (version 1 71) false)); [discriminate|apply (parses_file gr pf 1 v171); [vm_compute; reflexivity|vm_compute; reflexivity|apply v171_alone; reflexivity]]).
  apply reach_refl.
Qed.
Print Assumptions C84_overlap_refuted.

(** A good file is read twice at the same time: both calls return an error. *)
Theorem C84_twice_refuted : exists file a, forall gr pf g,
    (forall r, parseFromFile gr pf 1 (Some file) r <-> r = Returned a false)
    /\ exists g' a', reach (sstep gr pf 1) (g, [Begin (Some file); Begin (Some file)]) (g', [Done (Returned a' true); Done (Returned a' true)]).
Proof.
  exists v160, (version 1 60). intros gr pf g. split; [apply v160_alone|]. destruct g as [l c m]. eexists. eexists.
  reads 0. reads 1. by_ 0 made. by_ 1 made. ready 0. ready 1. takes 0. takes 1. takes 0. takes 1.
  by_ 0 ltac:(apply CEnd). by_ 1 ltac:(apply CEnd). by_ 0 ltac:(apply CDecide). by_ 1 ltac:(apply CDecide).
  by_ 0 ltac:(apply CCheck; discriminate). by_ 1 ltac:(apply CCheck; discriminate).
  assert (P : forall g, g_list g = [b "ASAP2_VERSION"; b "1"; b "ASAP2_VERSION"; b "1"; b "60"; b "60"; []; []] ->
    parses pf 1 g (Returned [("Asap2Version"%string, VObj [("versionNo"%string, VInt 1); ("versionNoSet"%string, VBool true)])] true)).
  { intros g E. eexists. eexists. eexists. split; [|reflexivity]. rewrite E. eapply (AlPartErr _ _ _ [] 0).
    apply (PartAsap2 _ _ _ 0). apply (A2lModProps.returns_run 50). vm_compute. reflexivity. }
  by_ 0 ltac:(eapply CParse; [discriminate|apply P; vm_compute; reflexivity]). by_ 1 ltac:(eapply CParse; [discriminate|apply P; vm_compute; reflexivity]).
  apply reach_refl.
Qed.
Print Assumptions C84_twice_refuted.

(** Reading a good file panics (index out of range in tok.current()) when another
    call begins in between. *)
Theorem C84_panic_refuted : exists file a, forall gr pf g,
    (forall r, parseFromFile gr pf 1 (Some file) r <-> r = Returned a false)
    /\ exists g' c, reach (sstep gr pf 1) (g, [Begin (Some file); Begin (Some file)]) (g', [Done Crashed; c]).
Proof.
  exists v160, (version 1 60). intros gr pf g. split; [apply v160_alone|]. destruct g as [l c m]. eexists. eexists.
  reads 0. by_ 0 made. ready 0. takes 0. takes 0. by_ 0 ltac:(apply CEnd). by_ 0 ltac:(apply CDecide).
  by_ 0 ltac:(apply CCheck; discriminate). reads 1. by_ 1 made. by_ 0 ltac:(apply CIndexPanic; reflexivity). apply reach_refl.
Qed.
Print Assumptions C84_panic_refuted.

(** The same two files one after the other, with any values of the variables before. *)
Example C84_example : forall gr pf g, exists g',
    reach (serial gr pf 1) (g, [Begin (Some v160); Begin None; Begin (Some v171)])
      (g', [Done (Returned (version 1 60) false); Done (Returned [] true); Done (Returned (version 1 71) false)]).
Proof.
  intros gr pf g. apply (C84_all_results gr pf 1 g [Some v160; None; Some v171] [Returned (version 1 60) false; Returned [] true; Returned (version 1 71) false]).
  constructor; [apply v160_alone; reflexivity|]. constructor; [constructor|]. constructor; [apply v171_alone; reflexivity|]. constructor.
Qed.
Print Assumptions C84_example.
