(** A positive answer of the procedure in A2lExplore.v is right. *)
From Coq Require Import String Ascii List Arith NArith ZArith Bool Lia SpecFloat.
From Verif Require Import GoBase GoBaseFacts A2lIR A2lTokens A2lGrammar A2lSpec A2lAcceptSpec A2lExplore.
From Verif Require A2lCheck.
Import ListNotations.

Lemma mem_In : forall f l, mem f l = true <-> In f l.
Proof.
  intros f l. unfold mem. rewrite existsb_exists. split.
  - intros (x & I & E). apply String.eqb_eq in E. subst. exact I.
  - intros I. exists f. split; [exact I|apply String.eqb_refl].
Qed.
Lemma mem_false : forall f l, mem f l = false -> ~ In f l.
Proof. intros f l H I. apply mem_In in I. congruence. Qed.
Lemma num_eqb_eq : forall m n, num_eqb m n = true -> m = n.
Proof. intros [x|x|] [y|y|] H; cbn in H; try discriminate; try (apply N.eqb_eq in H; subst); reflexivity. Qed.
Lemma b_inj : forall x y, b x = b y -> x = y.
Proof. intros x y H. rewrite <- (string_of_list_ascii_of_string x), <- (string_of_list_ascii_of_string y). f_equal. exact H. Qed.
Lemma b_nil : forall s, b s = [] -> s = ""%string.
Proof. intros [|c s] H; [reflexivity|discriminate]. Qed.
Lemma kw_nil : isKeyword [] = false. Proof. reflexivity. Qed.
Lemma flat_In : forall A B (f : A -> option (list B)) l m a, flat f l = Some m -> In a l ->
  exists x, f a = Some x /\ incl x m.
Proof.
  intros A B f l. induction l as [|c l IH]; intros m a E I; [destruct I|]. cbn in E.
  destruct (f c) as [x|] eqn:F; [|discriminate]. destruct (flat f l) as [y|] eqn:G; [|discriminate]. injection E as <-.
  destruct I as [->|I].
  - exists x. split; [exact F|]. intros z Z. apply in_or_app. left. exact Z.
  - destruct (IH y a eq_refl I) as (x' & F' & K). exists x'. split; [exact F'|]. intros z Z. apply in_or_app. right. apply K, Z.
Qed.

Section Sound.
  Variable toks : list bytes.
  Variable pf : bytes -> option spec_float.
  Variable fuel : nat.
  Hypothesis EN : ended toks.

  Notation current := (current toks).
  Notation next := (next toks).
  Notation nextTok := (nextTok toks).
  Notation moves := (moves toks).
  Notation exec := (exec isKeyword toks pf fuel).
  Notation run := (run isKeyword toks pf fuel).
  Notation pick := (pick isKeyword toks pf fuel).
  Notation call := (call isKeyword toks pf fuel).
  Notation test := (test isKeyword toks).
  Notation len := (List.length toks).
  Notation accepted := (accepted pf).
  Notation inside := (inside pf).

  (** ** Words *)

  Record wd (e : bool) (k : option bool) (ns : list num) (x : option (list string)) (no : list string) (t : bytes) : Prop := {
    w_e : e = true -> t <> [];
    w_k : forall r, k = Some r -> isKeyword t = r;
    w_n : forall n, In n ns -> exists v, readNum pf n t = Some v;
    w_x : forall l, x = Some l -> exists s, In s l /\ t = b s;
    w_no : forall s, In s no -> t <> b s }.

  Definition is (p : part) (t : bytes) : Prop :=
    match p with Wd e k ns x no => wd e k ns x no t | Sub e _ => e = true -> t <> [] end.

  Lemma nonEmpty_ok : forall p t, nonEmpty p = true -> is p t -> t <> [].
  Proof.
    intros [e k ns x no|e kw] t H W; [|exact (W H)]. intros ->. destruct W as [W1 W2 W3 W4 W5]. cbn [nonEmpty] in H.
    repeat (apply orb_true_iff in H; destruct H as [H|H]).
    - exact (W1 H eq_refl).
    - destruct k as [[|]|]; try discriminate. pose proof (W2 _ eq_refl). discriminate.
    - apply mem_In in H. exact (W5 _ H eq_refl).
    - destruct x as [l|]; [|discriminate]. destruct (W4 _ eq_refl) as (s & I & E). symmetry in E. apply b_nil in E. subst s.
      apply negb_true_iff in H. exact (mem_false _ _ H I).
    - apply existsb_exists in H. destruct H as (n & I & H). destruct (W3 _ I) as (v & E). destruct n; cbn in E; try discriminate.
  Qed.
  Lemma notKw_ok : forall p t, notKw p = true -> is p t -> isKeyword t = false.
  Proof.
    intros [e k ns x no|e kw] t H W; [|discriminate]. destruct W as [W1 W2 W3 W4 W5]. cbn [notKw] in H.
    apply orb_true_iff in H. destruct H as [H|H].
    - destruct k as [[|]|]; try discriminate. exact (W2 _ eq_refl).
    - destruct x as [l|]; [|discriminate]. destruct (W4 _ eq_refl) as (s & I & ->).
      rewrite forallb_forall in H. apply negb_true_iff. exact (H s I).
  Qed.
  Lemma isKw_ok : forall p t, isKw p = true -> is p t -> isKeyword t = true.
  Proof.
    intros [e k ns x no|e kw] t H W; [|discriminate]. destruct W as [W1 W2 W3 W4 W5]. cbn [isKw] in H.
    apply orb_true_iff in H. destruct H as [H|H].
    - destruct k as [[|]|]; try discriminate. exact (W2 _ eq_refl).
    - destruct x as [l|]; [|discriminate]. destruct (W4 _ eq_refl) as (s & I & ->).
      rewrite forallb_forall in H. exact (H s I).
  Qed.

  (** what is learned is kept *)
  Definition same (p q : part) : Prop := match p with Wd _ _ _ _ _ => match q with Wd _ _ _ _ _ => True | _ => False end | Sub _ _ => q = p end.

  Lemma learnIs_ok : forall s p, is p (b s) -> exists q, learnIs s p = Some q /\ same p q /\ is q (b s).
  Proof.
    intros s [e k ns x no|e kw] W; [|exists (Sub e kw); repeat split; exact W].
    cbn [learnIs]. destruct (nonEmpty (Wd e k ns x no) && String.eqb s "") eqn:E1.
    { exfalso. apply andb_true_iff in E1. destruct E1 as [E1 E2]. apply String.eqb_eq in E2. subst s. exact (nonEmpty_ok _ _ E1 W eq_refl). }
    destruct W as [W1 W2 W3 W4 W5]. destruct (mem s no) eqn:E2; [exfalso; apply mem_In in E2; exact (W5 _ E2 eq_refl)|].
    assert (W : wd e k ns x no (b s)) by (constructor; assumption).
    destruct (match x with Some l => negb (mem s l) | None => false end) eqn:E3.
    { exfalso. destruct x as [l|]; [|discriminate]. apply negb_true_iff, mem_false in E3. destruct (W4 _ eq_refl) as (u & I & E).
      apply b_inj in E. subst u. contradiction. }
    destruct (notKw (Wd e k ns x no) && isKeyword (b s)) eqn:E4.
    { exfalso. apply andb_true_iff in E4. destruct E4 as [E4 E5]. pose proof (notKw_ok _ _ E4 W). congruence. }
    destruct (isKw (Wd e k ns x no) && negb (isKeyword (b s))) eqn:E5.
    { exfalso. apply andb_true_iff in E5. destruct E5 as [E5 E6]. pose proof (isKw_ok _ _ E5 W). apply negb_true_iff in E6. congruence. }
    eexists. split; [reflexivity|]. split; [exact I|]. constructor; auto. intros l [= <-]. exists s. split; [left; reflexivity|reflexivity].
  Qed.
  Lemma learnNot_ok : forall s p t, t <> b s -> is p t -> exists q, learnNot s p = Some q /\ same p q /\ is q t.
  Proof.
    intros s [e k ns x no|e kw] t N W; [|exists (Sub e kw); repeat split; exact W].
    destruct W as [W1 W2 W3 W4 W5]. cbn [learnNot].
    assert (W6 : forall u, In u (s :: no) -> t <> b u) by (intros u [<-|I]; auto).
    destruct x as [l|].
    - destruct (forallb (String.eqb s) l) eqn:E.
      + exfalso. destruct (W4 _ eq_refl) as (u & I & ->). rewrite forallb_forall in E. apply E, String.eqb_eq in I. subst u. exact (N eq_refl).
      + eexists. split; [reflexivity|]. split; [exact I|]. constructor; auto. intros l' [= <-]. destruct (W4 _ eq_refl) as (u & I & ->).
        exists u. split; [|reflexivity]. apply filter_In. split; [exact I|]. apply negb_true_iff, String.eqb_neq. intros ->. exact (N eq_refl).
    - eexists. split; [reflexivity|]. split; [exact I|]. constructor; auto.
  Qed.
  Lemma learnKw_ok : forall p t, is p t -> exists q, learnKw (isKeyword t) p = Some q /\ same p q /\ is q t.
  Proof.
    intros [e k ns x no|e kw] t W; [|exists (Sub e kw); repeat split; exact W]. cbn [learnKw].
    destruct (if isKeyword t then notKw (Wd e k ns x no) else isKw (Wd e k ns x no)) eqn:E.
    - exfalso. destruct (isKeyword t) eqn:K; [pose proof (notKw_ok _ _ E W)|pose proof (isKw_ok _ _ E W)]; congruence.
    - eexists. split; [reflexivity|]. split; [exact I|]. destruct W as [W1 W2 W3 W4 W5]. constructor; auto. intros r [= <-]. reflexivity.
  Qed.
  Lemma learnNum_ok : forall n p t v, readNum pf n t = Some v -> is p t -> same p (learnNum n p) /\ is (learnNum n p) t.
  Proof.
    intros n [e k ns x no|e kw] t v N W; [|split; [reflexivity|exact W]]. split; [exact I|].
    destruct W as [W1 W2 W3 W4 W5]. constructor; auto. intros m [<-|I]; [exists v; exact N|auto].
  Qed.
  Lemma learnIn_ok : forall l p s, In s l -> is p (b s) -> same p (learnIn l p) /\ is (learnIn l p) (b s).
  Proof.
    intros l [e k ns x no|e kw] s N W; [|split; [reflexivity|exact W]]. split; [exact I|].
    destruct W as [W1 W2 W3 W4 W5]. constructor; auto. intros l' [= <-]. exists s. auto.
  Qed.
  Lemma unknown_ok : forall t, is unknown t.
  Proof. intros t. constructor; try discriminate; intros ? []. Qed.
  Lemma exact_ok : forall p s t, exact p = Some s -> is p t -> t = b s.
  Proof.
    intros [e k ns [[|u [|u2 us]]|] no|e kw] s t E W; cbn in E; try discriminate. injection E as <-.
    destruct (w_x _ _ _ _ _ _ W _ eq_refl) as (x & [<-|[]] & ->). reflexivity.
  Qed.

  (** ** Words of the file *)

  Definition slice (k : nat) (ts : list bytes) : Prop := firstn (List.length ts) (skipn k toks) = ts.
  Lemma slice_nil : forall k, slice k []. Proof. intros k. reflexivity. Qed.
  Lemma slice_app : forall k ts us, slice k ts -> slice (k + List.length ts) us -> slice k (ts ++ us).
  Proof.
    intros k ts us A B. unfold slice in *. rewrite app_length.
    rewrite <- (firstn_skipn (List.length ts) (skipn k toks)) at 1. rewrite A.
    rewrite firstn_app_2. f_equal.
    replace (skipn (List.length ts) (skipn k toks)) with (skipn (k + List.length ts) toks); [exact B|].
    clear A B. generalize toks. induction k as [|k IH]; intros l; [reflexivity|]. destruct l as [|x l]; cbn; [rewrite skipn_nil; reflexivity|apply IH].
  Qed.
  Lemma slice_one : forall k, k < len -> slice k [current k].
  Proof.
    intros k. unfold slice, A2lIR.current. cbn [List.length]. generalize toks. induction k as [|k IH]; intros [|x l] L; cbn in *; try lia; [reflexivity|].
    apply IH. lia.
  Qed.

  Lemma at_last : forall i, S i = len -> current i = [].
  Proof.
    intros i H. destruct EN as [l ->]. rewrite app_length in H. cbn in H.
    unfold A2lIR.current. rewrite app_nth2 by lia. replace (i - List.length l) with 0 by lia. reflexivity.
  Qed.

  (** the words from [i0] to [i], the last one first *)
  Inductive trail (its : list item) (i0 : nat) : list part -> nat -> Prop :=
    | t_first : forall p, is p (current i0) -> i0 < len -> trail its i0 [p] i0
    | t_word : forall ps i e k ns x no, trail its i0 ps i -> S i < len -> wd e k ns x no (current (S i)) ->
        trail its i0 (Wd e k ns x no :: ps) (S i)
    | t_sub : forall ps i kw f p sub ts e, trail its i0 ps i -> In (Item kw f p sub) its -> accepted sub ts -> slice (S i) ts ->
        i + List.length ts < len -> (e = true -> current (i + List.length ts) <> []) ->
        trail its i0 (Sub e kw :: ps) (i + List.length ts).

  Lemma trail_lt : forall its i0 ps i, trail its i0 ps i -> i < len.
  Proof. intros its i0 ps i T. destruct T; assumption. Qed.
  Lemma trail_is : forall its i0 p ps i, trail its i0 (p :: ps) i -> is p (current i).
  Proof. intros its i0 p ps i T. inversion T; subst; assumption. Qed.
  Lemma trail_same : forall its i0 p ps i q, trail its i0 (p :: ps) i -> same p q -> is q (current i) -> trail its i0 (q :: ps) i.
  Proof.
    intros its i0 p ps i q T K W. inversion T; subst.
    - constructor; assumption.
    - destruct q; [|destruct K]. constructor; assumption.
    - cbn in K. subst q. econstructor; eassumption.
  Qed.

  (** the words that the parts after the first stand for *)
  Inductive spells (its : list item) : list part -> list bytes -> Prop :=
    | sp_nil : spells its [] []
    | sp_word : forall e k ns x no t l ts, wd e k ns x no t -> spells its l ts -> spells its (Wd e k ns x no :: l) (t :: ts)
    | sp_sub : forall e kw f p sub us l ts, In (Item kw f p sub) its -> accepted sub us -> spells its l ts ->
        spells its (Sub e kw :: l) (us ++ ts).
  Lemma spells_app : forall its l ts l' ts', spells its l ts -> spells its l' ts' -> spells its (l ++ l') (ts ++ ts').
  Proof.
    intros its l ts l' ts' A B. induction A; cbn; [exact B|constructor; assumption|]. rewrite <- app_assoc. econstructor; eassumption.
  Qed.
  Lemma trail_ne : forall its i0 ps i, trail its i0 ps i -> rev ps <> [].
  Proof. intros its i0 ps i T K. apply (f_equal (@List.length part)) in K. rewrite rev_length in K. destruct T; discriminate. Qed.
  Lemma trail_spells : forall its i0 ps i, trail its i0 ps i ->
    exists ts, spells its (tl (rev ps)) ts /\ i = i0 + List.length ts /\ slice (S i0) ts.
  Proof.
    intros its i0 ps i T.
    induction T as [p W L|ps i e k ns x no T IH L W|ps i kw f p sub ts e T IH I A SL L W].
    - exists []. split; [constructor|]. split; [cbn; lia|apply slice_nil].
    - destruct IH as (ts & A & -> & B). exists (ts ++ [current (S (i0 + List.length ts))]).
      assert (tl (rev (Wd e k ns x no :: ps)) = tl (rev ps) ++ [Wd e k ns x no]) as ->.
      { cbn [rev]. pose proof (trail_ne _ _ _ _ T). destruct (rev ps); [contradiction|reflexivity]. }
      split; [apply spells_app; [exact A|repeat constructor; apply W]|]. split; [rewrite app_length; cbn; lia|].
      apply slice_app; [exact B|]. replace (S i0 + List.length ts) with (S (i0 + List.length ts)) by lia. apply slice_one, L.
    - destruct IH as (us & B & -> & C). exists (us ++ ts).
      assert (tl (rev (Sub e kw :: ps)) = tl (rev ps) ++ [Sub e kw]) as ->.
      { cbn [rev]. pose proof (trail_ne _ _ _ _ T). destruct (rev ps); [contradiction|reflexivity]. }
      split; [apply spells_app; [exact B|]|].
      { rewrite <- (app_nil_r ts). econstructor; [exact I|exact A|constructor]. }
      split; [rewrite app_length; lia|]. apply slice_app; [exact C|]. exact SL.
  Qed.

  (** ** States *)

  Definition place (its : list item) (i0 : nat) (y : sy) (i : nat) : Prop :=
    match y_mode y with Ok_ => trail its i0 (y_parts y) i | Stuck => S i = len | Gone => True end.
  Record rel (its : list item) (closed : bool) (i0 : nat) (y : sy) (s : st) : Prop := {
    r_err : forall e, y_err y = Some e -> s_err s = e;
    r_flag : forall f v, flag closed f y = Some v -> fbool f (s_obj s) = v;
    r_place : place its i0 y (s_idx s) }.

  Section One.
    Variable its : list item.
    Variable closed : bool.
    Variable i0 : nat.
    Notation rel := (rel its closed i0).

    Lemma rel_err : forall y s e o, rel y s -> (forall e', o = Some e' -> e = e') -> rel (withErr o y) (setErr e s).
    Proof. intros y s e o [A B C] K. constructor; [exact K|exact B|exact C]. Qed.
    Lemma rel_errS : forall y s e, rel y s -> rel (withErr (Some e) y) (setErr e s).
    Proof. intros y s e R. apply rel_err; [exact R|]. intros e' [= <-]. reflexivity. Qed.
    Lemma rel_errN : forall y s e, rel y s -> rel (withErr None y) (setErr e s).
    Proof. intros y s e R. apply rel_err; [exact R|]. discriminate. Qed.
    Lemma rel_errK : forall y s e, rel y s -> s_err s = e -> rel (withErr (Some e) y) s.
    Proof. intros y s e [A B C] K. constructor; [intros e' [= <-]; exact K|exact B|exact C]. Qed.
    Lemma rel_var : forall y s v x, rel y s -> rel y (setVar v x s).
    Proof. intros y s v x [A B C]. constructor; assumption. Qed.
    Lemma rel_obj : forall y s f w o, rel y s -> (forall v, o = Some v -> fbool f [(f, w)] = v) -> rel (withObj f o y) (setObj f w s).
    Proof.
      intros y s f w o [A B C] K. constructor; [exact A| |exact C]. intros g v. unfold flag, withObj. cbn [y_obj look].
      unfold fbool. cbn [s_obj setObj]. destruct (String.eqb g f) eqn:E.
      - apply String.eqb_eq in E. subst g. intros ->. rewrite A2lCheck.fget_set. specialize (K v eq_refl). unfold fbool in K. cbn in K.
        rewrite String.eqb_refl in K. exact K.
      - apply String.eqb_neq in E. rewrite A2lCheck.fget_other by exact E. intros F. exact (B g v F).
    Qed.
    Lemma rel_objK : forall y s f v, rel y s -> fbool f (s_obj s) = v -> rel (withObj f (Some v) y) s.
    Proof.
      intros y s f v [A B C] K. constructor; [exact A| |exact C]. intros g w. unfold flag, withObj. cbn [y_obj look].
      destruct (String.eqb g f) eqn:E; [|exact (B g w)]. apply String.eqb_eq in E. subst g. intros [= <-]. exact K.
    Qed.
    Lemma rel_head : forall y s p ps q, rel y s -> y_mode y = Ok_ -> y_parts y = p :: ps -> same p q -> is q (current (s_idx s)) ->
      rel (withHead y q) s.
    Proof.
      intros y s p ps q [A B C] M P K W. unfold withHead. rewrite P. constructor; [exact A|exact B|].
      unfold place in *. cbn. rewrite M in *. rewrite P in C. eapply trail_same; eassumption.
    Qed.
    Lemma rel_trail : forall y s, rel y s -> y_mode y = Ok_ -> trail its i0 (y_parts y) (s_idx s).
    Proof. intros y s [A B C] M. unfold place in C. rewrite M in C. exact C. Qed.
    Lemma rel_is : forall y s p ps, rel y s -> y_mode y = Ok_ -> y_parts y = p :: ps -> is p (current (s_idx s)).
    Proof. intros y s p ps R M P. pose proof (rel_trail _ _ R M) as T. rewrite P in T. eapply trail_is, T. Qed.
    Lemma rel_stuck : forall y s, rel y s -> y_mode y = Stuck -> S (s_idx s) = len.
    Proof. intros y s [A B C] M. unfold place in C. rewrite M in C. exact C. Qed.

    Lemma sread_ok : forall r y s l, sread r y = Some l -> rel y s ->
      exists y', In y' l /\ rel y' (snd (readSrc toks r s)) /\ fst (readSrc toks r s) = current (s_idx (snd (readSrc toks r s))).
    Proof.
      intros [|] y s l E R; cbn [sread readSrc fst snd s_idx setIdx] in *.
      2:{ injection E as <-. exists y. split; [left; reflexivity|]. split; [exact R|reflexivity]. }
      unfold adv in E. destruct (y_mode y) eqn:M; try discriminate.
      - pose proof (rel_trail _ _ R M) as T. destruct (y_parts y) as [|p ps] eqn:P; [discriminate|]. injection E as <-.
        pose proof (trail_lt _ _ _ _ T) as L. unfold A2lIR.next, A2lIR.nextTok. destruct (moves (s_idx s)) eqn:V.
        + exists (withParts (unknown :: p :: ps) y). split; [destruct (nonEmpty p); left; reflexivity|]. split; [|reflexivity].
          destruct R as [A B C]. constructor; [exact A|exact B|]. unfold place. cbn. rewrite M.
          unfold A2lIR.moves in V. apply Nat.ltb_lt in V. apply t_word; [exact T|exact V|apply unknown_ok].
        + assert (LL : S (s_idx s) = len) by (unfold A2lIR.moves in V; apply Nat.ltb_ge in V; lia).
          pose proof (at_last _ LL) as CE. exists (withMode Stuck y). destruct (nonEmpty p) eqn:NE.
          { exfalso. apply trail_is in T. exact (nonEmpty_ok _ _ NE T CE). }
          split; [right; left; reflexivity|]. split; [|symmetry; exact CE].
          destruct R as [A B C]. constructor; [exact A|exact B|]. exact LL.
      - injection E as <-. pose proof (rel_stuck _ _ R M) as LL. exists y. split; [left; reflexivity|].
        assert (V : moves (s_idx s) = false) by (unfold A2lIR.moves; apply Nat.ltb_ge; lia).
        unfold A2lIR.next, A2lIR.nextTok. rewrite V. split; [|symmetry; apply at_last, LL].
        destruct R as [A B C]. constructor; assumption.
    Qed.

    Lemma in_map_optl : forall y q (o : option part) (r : bool), o = Some q -> In (r, withHead y q) (map (fun q => (r, withHead y q)) (optl o)).
    Proof. intros y q o r ->. left. reflexivity. Qed.

    Lemma curIs_ok : forall t y s, rel y s -> exists y', In (beqb (current (s_idx s)) (b t), y') (curIs t y) /\ rel y' s.
    Proof.
      intros t y s R. unfold curIs. destruct (y_mode y) eqn:M.
      - pose proof (rel_trail _ _ R M) as T. destruct (y_parts y) as [|p ps] eqn:P; [inversion T|].
        pose proof (trail_is _ _ _ _ _ T) as W. destruct (beqb (current (s_idx s)) (b t)) eqn:E.
        + apply beqb_eq in E. rewrite E in W. destruct (learnIs_ok _ _ W) as (q & Q & K & W'). exists (withHead y q).
          split; [apply in_or_app; left; apply in_map_optl, Q|]. eapply rel_head; eauto. rewrite E. exact W'.
        + apply beqb_neq in E. destruct (learnNot_ok _ _ _ E W) as (q & Q & K & W'). exists (withHead y q).
          split; [apply in_or_app; right; apply in_map_optl, Q|]. eapply rel_head; eauto.
      - exists y. split; [|exact R]. left. f_equal. rewrite (at_last _ (rel_stuck _ _ R M)). destruct t; reflexivity.
      - exists y. split; [|exact R]. destruct (y_parts y), (beqb _ _); cbn; auto.
    Qed.
    Lemma curKw_ok : forall y s, rel y s -> exists y', In (isKeyword (current (s_idx s)), y') (curKw y) /\ rel y' s.
    Proof.
      intros y s R. unfold curKw. destruct (y_mode y) eqn:M.
      - pose proof (rel_trail _ _ R M) as T. destruct (y_parts y) as [|p ps] eqn:P; [inversion T|].
        pose proof (trail_is _ _ _ _ _ T) as W. destruct (learnKw_ok _ _ W) as (q & Q & K & W'). exists (withHead y q).
        split; [|eapply rel_head; eauto]. destruct (isKeyword (current (s_idx s))); apply in_or_app; [left|right]; apply in_map_optl, Q.
      - exists y. split; [|exact R]. left. f_equal. rewrite (at_last _ (rel_stuck _ _ R M)). reflexivity.
      - exists y. split; [|exact R]. destruct (y_parts y), (isKeyword _); cbn; auto.
    Qed.
    Lemma split_ok : forall c y s, rel y s -> exists y', In (test c s, y') (split closed c y) /\ rel y' s.
    Proof.
      induction c as [t| |f|f n|f g| |c IHc d IHd]; intros y s R; cbn [A2lIR.test split].
      - apply curIs_ok, R.
      - apply curKw_ok, R.
      - destruct (flag closed f y) as [v|] eqn:F.
        + exists y. split; [left; f_equal; f_equal; symmetry; exact (r_flag _ _ _ _ _ R _ _ F)|exact R].
        + exists (withObj f (Some (fbool f (s_obj s))) y). split; [destruct (fbool f (s_obj s)); cbn; auto|]. apply rel_objK; [exact R|reflexivity].
      - exists y. split; [|exact R]. destruct (_ =? _); cbn; auto.
      - exists y. split; [|exact R]. destruct (_ =? _)%Z; cbn; auto.
      - destruct (y_err y) as [e|] eqn:E.
        + exists y. split; [left; f_equal; symmetry; exact (r_err _ _ _ _ _ R _ E)|exact R].
        + exists (withErr (Some (s_err s)) y). split; [destruct (s_err s); cbn; auto|]. apply rel_errK; [exact R|reflexivity].
      - destruct (IHc y s R) as (y1 & I1 & R1). destruct (test c s) eqn:T.
        + exists y1. split; [|exact R1]. apply in_flat_map. exists (true, y1). split; [exact I1|]. left. reflexivity.
        + destruct (IHd y1 s R1) as (y2 & I2 & R2). exists y2. split; [|exact R2]. apply in_flat_map. exists (false, y1). split; [exact I1|exact I2].
    Qed.

    Lemma number_ok : forall n y s v, rel y s ->
      exists y', In y' (number n y) /\
      rel y' (match readNum pf n (current (s_idx s)) with Some w => setErr false (setVar v w s) | None => setErr true (setVar v (failedNum n (current (s_idx s))) s) end).
    Proof.
      intros n y s v R. unfold number. destruct (y_mode y) eqn:M.
      - pose proof (rel_trail _ _ R M) as T. destruct (y_parts y) as [|p ps] eqn:P; [inversion T|].
        pose proof (trail_is _ _ _ _ _ T) as W. destruct (readNum pf n (current (s_idx s))) as [w|] eqn:E.
        + exists (withErr (Some false) (withHead y (learnNum n p))). split; [left; reflexivity|].
          destruct (learnNum_ok _ _ _ _ E W) as [K W']. apply rel_errS, rel_var. eapply rel_head; eauto.
        + exists (withErr (Some true) y). split; [right; left; reflexivity|]. apply rel_errS, rel_var, R.
      - rewrite (at_last _ (rel_stuck _ _ R M)). destruct n.
        + eexists. split; [left; reflexivity|]. apply rel_errS, rel_var, R.
        + eexists. split; [left; reflexivity|]. apply rel_errS, rel_var, R.
        + eexists. split; [left; reflexivity|]. destruct (readNum pf NFloat []); apply rel_errN, rel_var; exact R.
      - exists (withErr None y). split; [destruct (y_parts y); left; reflexivity|].
        destruct (readNum _ _ _); apply rel_errN, rel_var; exact R.
    Qed.
    Lemma findText_some : forall t table v, findText t table = Some v -> exists s, In s (keys table) /\ t = b s.
    Proof.
      intros t table v. induction table as [|[c w] table IH]; intros E; [discriminate|]. cbn in E. destruct (beqb t (b c)) eqn:Q.
      - apply beqb_eq in Q. exists c. split; [left; reflexivity|exact Q].
      - destruct (IH E) as (s & I & K). exists s. split; [right; exact I|exact K].
    Qed.
    Lemma choose_ok : forall table y s, rel y s ->
      exists y', In y' (choose (keys table) y) /\
      rel y' (setErr (match findText (current (s_idx s)) table with Some _ => false | None => true end) s).
    Proof.
      intros table y s R. unfold choose. destruct (y_mode y) eqn:M.
      - pose proof (rel_trail _ _ R M) as T. destruct (y_parts y) as [|p ps] eqn:P; [inversion T|].
        pose proof (trail_is _ _ _ _ _ T) as W. destruct (findText (current (s_idx s)) table) as [w|] eqn:E.
        + apply findText_some in E. destruct E as (u & I & E). rewrite E in W.
          destruct (learnIs_ok _ _ W) as (q & Q & _ & _).
          set (l' := filter _ (keys table)). assert (IN : In u l') by (apply filter_In; split; [exact I|rewrite Q; reflexivity]).
          exists (withErr (Some false) (withHead y (learnIn l' p))). split; [destruct l'; [destruct IN|left; reflexivity]|].
          destruct (learnIn_ok l' p u IN W) as [K W']. apply rel_errS. eapply rel_head; eauto. rewrite E. exact W'.
        + exists (withErr (Some true) y). split; [apply in_or_app; right; left; reflexivity|]. apply rel_errS, R.
      - destruct (mem "" (keys table)) eqn:MM.
        + eexists. split; [left; reflexivity|]. apply rel_errN, R.
        + eexists. split; [left; reflexivity|]. destruct (findText _ table) as [w|] eqn:E; [|apply rel_errS, R].
          exfalso. apply findText_some in E. destruct E as (u & I & E). rewrite (at_last _ (rel_stuck _ _ R M)) in E. symmetry in E. apply b_nil in E.
          subst u. exact (mem_false _ _ MM I).
      - exists (withErr None y). split; [destruct (y_parts y); left; reflexivity|]. apply rel_errN, R.
    Qed.
  End One.

  (** ** Checks *)

  Lemma fitP_ok : forall ty e k ns x no t, fitP ty (Wd e k ns x no) = true -> wd e k ns x no t -> fits pf ty t.
  Proof.
    intros ty e k ns x no t H W. cbn [fitP] in H. apply andb_true_iff in H. destruct H as [H1 H2]. split; [exact (nonEmpty_ok (Wd e k ns x no) _ H1 W)|].
    destruct ty as [| |n|l].
    - exact (notKw_ok (Wd e k ns x no) _ H2 W).
    - exact I.
    - apply existsb_exists in H2. destruct H2 as (m & I & E). apply num_eqb_eq in E. subst m. exact (w_n _ _ _ _ _ _ W _ I).
    - destruct x as [l'|]; [|discriminate]. destruct (w_x _ _ _ _ _ _ W _ eq_refl) as (s & I & E). exists s. split; [|exact E].
      rewrite forallb_forall in H2. apply mem_In, H2, I.
  Qed.
  Lemma fitAll_ok : forall its ps l ts, fitAll ps l = true -> spells its l ts -> Forall2 (fun p t => fits pf (p_type p) t) ps ts.
  Proof.
    intros its ps. induction ps as [|p ps IH]; intros l ts H A.
    - destruct l; [|discriminate]. inversion A. constructor.
    - destruct l as [|q l]; [discriminate|]. cbn [fitAll] in H. apply andb_true_iff in H. destruct H as [H1 H2].
      inversion A; subst; [|discriminate]. constructor; [eapply fitP_ok; eassumption|]. eapply IH; eassumption.
  Qed.
  Lemma wordP_ok : forall stop e k ns x no t, wordP stop (Wd e k ns x no) = true -> wd e k ns x no t -> wordIn stop t.
  Proof.
    intros stop e k ns x no t H W. unfold wordP in H. rewrite !orb_true_iff in H. destruct H as [[[H|H]|H]|H].
    - right; right; left. apply mem_In, H.
    - apply andb_true_iff in H. destruct H as [H1 H2]. left. split; [exact (nonEmpty_ok _ _ H1 W)|exact (notKw_ok _ _ H2 W)].
    - rewrite !andb_true_iff in H. destruct H as [[H1 H2] H3]. right; left. split; [apply mem_In, H1|]. split; [exact (nonEmpty_ok _ _ H2 W)|].
      apply (w_no _ _ _ _ _ _ W). apply mem_In, H3.
    - destruct (exact (Wd e k ns x no)) as [u|] eqn:E; [|discriminate]. right; right; right. exists u.
      split; [|exact (exact_ok _ _ _ E W)]. apply existsb_exists in H. destruct H as ((q1 & q2) & I & H). apply andb_true_iff in H. cbn in H.
      destruct H as [H1 H2]. apply String.eqb_eq in H1. apply String.eqb_eq in H2. subst. exact I.
  Qed.
  Lemma insideP_ok : forall its stop n l ts, List.length l <= n -> insideP stop l = true -> spells its l ts -> inside its stop ts.
  Proof.
    intros its stop n. induction n as [|n IH]; intros l ts L H A.
    - destruct l; [|cbn in L; lia]. inversion A. constructor.
    - destruct l as [|p l]; [inversion A; constructor|]. cbn in L.
      destruct p as [e k ns x no|e kw]; [|discriminate]. inversion A as [|? ? ? ? ? t ? ts' W A'|]; subst.
      destruct l as [|[e' k' ns' x' no'|e' kw] l].
      + cbn [insideP] in H. apply andb_true_iff in H. destruct H as [H1 H2]. constructor; [eapply wordP_ok; eassumption|]. inversion A'. constructor.
      + cbn [insideP] in H. apply andb_true_iff in H. destruct H as [H1 H2]. constructor; [eapply wordP_ok; eassumption|].
        apply (IH (Wd e' k' ns' x' no' :: l)); [cbn in *; lia|exact H2|exact A'].
      + cbn [insideP] in H. apply andb_true_iff in H. destruct H as [H1 H2]. destruct (exact (Wd e k ns x no)) as [u|] eqn:E; [|discriminate].
        apply String.eqb_eq in H1. subst u. rewrite (exact_ok _ _ _ E W). inversion A' as [| |? ? f p sub us ? ts'' I AC A'']; subst.
        apply (in_item _ _ _ _ f p sub); [exact I|exact AC|]. eapply IH; [|exact H2|exact A'']. cbn in *; lia.
  Qed.
  Lemma inside_app : forall its stop ts us, inside its stop ts -> inside its stop us -> inside its stop (ts ++ us).
  Proof.
    intros its stop ts us A B. revert B. 
    refine ((fix F its stop ts (A : inside its stop ts) {struct A} : inside its stop us -> inside its stop (ts ++ us) := _) its stop ts A).
    destruct A as [its stop|its stop t ts W A|its stop kw f p sub ts ts' I AC A]; intros B; cbn.
    - exact B.
    - constructor; [exact W|exact (F _ _ _ A B)].
    - rewrite <- app_assoc. econstructor; [exact I|exact AC|exact (F _ _ _ A B)].
  Qed.
  Lemma endP_ok : forall its stop l ts, endP stop l = true -> spells its l ts -> exists t, ts = [t] /\ endOf stop t.
  Proof.
    intros its stop l ts H A. destruct l as [|p [|q l]]; try discriminate. cbn [endP] in H. destruct (exact p) as [u|] eqn:E; [|discriminate].
    destruct p as [e k ns x no|e kw]; [|discriminate]. inversion A as [|? ? ? ? ? t ? ts' W A'|]; subst. inversion A'; subst. exists t. split; [reflexivity|].
    rewrite (exact_ok _ _ _ E W). apply orb_true_iff in H. destruct H as [H|H].
    - apply String.eqb_eq in H. subst. left. reflexivity.
    - apply andb_true_iff in H. destruct H as [H1 H2]. apply String.eqb_eq in H1. apply String.eqb_eq in H2. subst. right. split; reflexivity.
  Qed.
  Lemma plainP_ok : forall its l ts, plainP l = true -> spells its l ts -> Forall (fun t => t <> [] /\ isKeyword t = false) ts.
  Proof.
    intros its l. induction l as [|p l IH]; intros ts H A; [inversion A; constructor|]. cbn [plainP forallb] in H.
    rewrite !andb_true_iff in H. destruct H as [[H1 H2] H3]. destruct p as [e k ns x no|e kw]; [|discriminate].
    inversion A as [|? ? ? ? ? t ? ts' W A'|]; subst. constructor; [|exact (IH _ H3 A')].
    split; [exact (nonEmpty_ok _ _ H1 W)|exact (notKw_ok _ _ H2 W)].
  Qed.
  Lemma findItem_ok : forall kw its sub, findItem kw its = Some sub -> exists f p, In (Item kw f p sub) its.
  Proof.
    intros kw its sub H. unfold findItem in H. destruct (find _ its) as [[k f p sub']|] eqn:E; [|discriminate]. injection H as ->.
    apply find_some in E. destruct E as [I E]. apply String.eqb_eq in E. subst k. exists f, p. exact I.
  Qed.

  (** ** Runs *)

  Definition covers (its : list item) (closed : bool) (i0 : nat) (l : list (bool * sy)) (r : res) : Prop :=
    match r with
    | Go s => exists y, In (false, y) l /\ rel its closed i0 y s
    | Out s => exists y, In (true, y) l /\ rel its closed i0 y s
    | _ => True
    end.
  Lemma covers_incl : forall its closed i0 l m r, incl l m -> covers its closed i0 l r -> covers its closed i0 m r.
  Proof. intros its closed i0 l m [s|s| |] I; cbn; try exact (fun H => H); intros (y & K & R); exists y; split; auto. Qed.
  Lemma covers_flat : forall its closed i0 A (f : A -> paths) l m a r, flat f l = Some m -> In a l ->
    (forall x, f a = Some x -> covers its closed i0 x r) -> covers its closed i0 m r.
  Proof. intros its closed i0 A f l m a r E I H. destruct (flat_In _ _ _ _ _ _ E I) as (x & F & K). eapply covers_incl; [exact K|exact (H _ F)]. Qed.
  Lemma covers_go : forall its closed i0 y s, rel its closed i0 y s -> covers its closed i0 [(false, y)] (Go s).
  Proof. intros its closed i0 y s R. exists y. split; [left; reflexivity|exact R]. Qed.

  Definition okS (x : stmt) : Prop := forall its closed i0 y s l, xs its closed x y = Some l -> rel its closed i0 y s -> covers its closed i0 l (exec x s).
  Definition okB (k : block) : Prop := forall its closed i0 y s l, xb its closed k y = Some l -> rel its closed i0 y s -> covers its closed i0 l (run k s).
  Definition okC (cs : cases) : Prop := forall its closed i0 other (d : st -> res) y s l, xc its closed cs other y = Some l -> rel its closed i0 y s ->
    (forall y s l, other y = Some l -> rel its closed i0 y s -> covers its closed i0 l (d s)) ->
    covers its closed i0 l (match pick cs (current (s_idx s)) s with Some q => q | None => d s end).
  Definition okG (g : fn) : Prop := forall f first i v j, af g f first = true -> i < len -> is first (current i) -> call g i = Ret v false j ->
    match f with
    | None => False
    | Some f => exists ts, j = i + List.length ts /\ j < len /\ slice (S i) ts /\ accepted f ts /\ (solid f = true -> nonEmpty first = true -> current j <> [])
    end.

  Lemma oneText_ok : forall ts, accepted oneText ts -> exists t, ts = [t] /\ t <> [] /\ isKeyword t = false.
  Proof. intros ts H. inversion H as [|? ? ? F| |]; subst. inversion F as [|? t ? ts' A B]; subst. inversion B; subst. exists t. destruct A as [A1 A2]. auto. Qed.

  Lemma xcall_ok : forall its closed i0 y s g l i v e, okG g -> xcall its (tableOf g) (af g) y = Some l -> rel its closed i0 y s ->
    call g (s_idx s) = Ret v e i -> exists y', In y' l /\ rel its closed i0 y' (setIdx i (setErr e s)).
  Proof.
    intros its closed i0 y s g l i v e OK H R C. unfold xcall in H. destruct (tableOf g) as [table|] eqn:TB.
    - injection H as <-. destruct g as [[|] table'| |]; try discriminate. injection TB as ->. cbn [A2lIR.call] in C.
      destruct (choose_ok _ _ _ table y s R) as (y' & I & R'). exists y'. split; [exact I|].
      destruct (findText (current (s_idx s)) table); injection C as <- <- <-; exact R'.
    - destruct (y_mode y) eqn:M; try discriminate. pose proof (rel_trail _ _ _ _ _ R M) as T.
      destruct (y_parts y) as [|p ps] eqn:P; [discriminate|]. pose proof (trail_is _ _ _ _ _ T) as W. pose proof (trail_lt _ _ _ _ T) as L.
      set (bad := withErr (Some true) (withMode Gone y)) in *.
      set (word := withErr (Some false) (withParts (Wd true (Some false) [] None [] :: p :: ps) y)) in *.
      assert (RB : e = true -> rel its closed i0 bad (setIdx i (setErr e s))).
      { intros ->. destruct R as [A B D]. constructor; [intros e' [= <-]; reflexivity|exact B|exact I]. }
      assert (RW : e = false -> af g (Some oneText) p = true -> rel its closed i0 word (setIdx i (setErr e s))).
      { intros -> F. destruct (OK _ _ _ _ _ F L W C) as (ts & J & JL & SL & AC & _). apply oneText_ok in AC. destruct AC as (t & -> & N & K).
        cbn [List.length] in J. replace (s_idx s + 1) with (S (s_idx s)) in J by lia. subst i.
        assert (t = current (S (s_idx s))) by (pose proof (slice_one _ JL) as Q; unfold slice in *; cbn [List.length] in *; congruence). subst t.
        destruct R as [A B D]. constructor; [intros e' [= <-]; reflexivity|exact B|]. unfold place. cbn. rewrite M. apply t_word; [exact T|exact JL|].
        constructor; [intros _; exact N|intros r0 [= <-]; exact K|intros ? []|discriminate|intros ? []]. }
      destruct (exact p) as [kw|] eqn:E.
      + destruct (findItem kw its) as [sub|] eqn:FI.
        * destruct (af g (Some sub) p) eqn:F; [|discriminate]. injection H as <-. destruct e; [exists bad; split; [right; left; reflexivity|apply RB; reflexivity]|].
          destruct (OK _ _ _ _ _ F L W C) as (ts & J & JL & SL & AC & N). apply findItem_ok in FI. destruct FI as (fd & pos & IN).
          eexists. split; [left; reflexivity|]. destruct R as [A B D]. constructor; [intros e' [= <-]; reflexivity|exact B|].
          unfold place. cbn. rewrite M. subst i. eapply t_sub; [exact T|exact IN|exact AC|exact SL|exact JL|].
          intros Q. apply andb_true_iff in Q. destruct Q. apply N; assumption.
        * destruct (af g None p) eqn:F.
          { injection H as <-. destruct e; [|destruct (OK _ _ _ _ _ F L W C)]. exists bad. split; [left; reflexivity|apply RB; reflexivity]. }
          destruct (af g (Some oneText) p) eqn:F'; [|discriminate]. injection H as <-.
          destruct e; [exists bad; split; [right; left; reflexivity|apply RB; reflexivity]|exists word; split; [left; reflexivity|apply RW; auto]].
      + destruct (af g (Some oneText) p) eqn:F'; [|discriminate]. injection H as <-.
        destruct e; [exists bad; split; [right; left; reflexivity|apply RB; reflexivity]|exists word; split; [left; reflexivity|apply RW; auto]].
  Qed.

  (** loops *)
  Lemma rounds_ok : forall body its closed i0, (forall y s l, xb its closed body y = Some l -> rel its closed i0 y s -> covers its closed i0 l (run body s)) ->
    forall n ys os m y s s', rounds n (xb its closed body) ys = Some os -> In y ys -> rel its closed i0 y s -> iter m (run body) s = Go s' ->
    exists y', In y' os /\ rel its closed i0 y' s'.
  Proof.
    intros body its closed i0 OK. induction n as [|n IH]; intros ys os m y s s' H I R IT.
    - destruct ys; [destruct I|discriminate].
    - destruct ys as [|y0 ys]; [destruct I|]. cbn [rounds] in H. set (Y := y0 :: ys) in *.
      destruct (flat (xb its closed body) Y) as [l|] eqn:F; [|discriminate].
      destruct (rounds n (xb its closed body) _) as [os'|] eqn:RR; [|discriminate]. injection H as <-.
      assert (C : covers its closed i0 l (run body s)) by (eapply covers_flat; [exact F|exact I|intros x E; eapply OK; eassumption]).
      destruct m as [|m]; [discriminate|]. cbn [iter] in IT. destruct (run body s) as [s1|s1| |]; try discriminate.
      + destruct C as (y1 & I1 & R1). destruct (IH _ _ m y1 s1 s' RR) as (y2 & I2 & R2); [|exact R1|exact IT|].
        * apply in_map_iff. exists (false, y1). split; [reflexivity|]. apply filter_In. split; [exact I1|reflexivity].
        * exists y2. split; [apply in_or_app; right; exact I2|exact R2].
      + injection IT as <-. destruct C as (y1 & I1 & R1). exists y1. split; [|exact R1]. apply in_or_app. left.
        apply in_map_iff. exists (true, y1). split; [reflexivity|]. apply filter_In. split; [exact I1|reflexivity].
  Qed.

  Lemma roundsOk_ok : forall its body (w sl : bool) leave go (Pgo Plv : list bytes -> Prop),
    (forall i0 y s l, xb its false body y = Some l -> rel its false i0 y s -> covers its false i0 l (run body s)) ->
    roundsOk (xb its false body) w sl leave go = true ->
    (forall l ts, go l = true -> spells its l ts -> Pgo ts) -> (forall l ts, leave l = true -> spells its l ts -> Plv ts) ->
    Pgo [] -> (forall ts us, Pgo ts -> Pgo us -> Pgo (ts ++ us)) ->
    forall m s s', s_idx s < len -> (w = true -> current (s_idx s) <> []) -> iter m (run body) s = Go s' -> s_err s' = false ->
    exists ts us, s_idx s' = s_idx s + List.length (ts ++ us) /\ s_idx s' < len /\ slice (S (s_idx s)) (ts ++ us) /\ Pgo ts /\ Plv us /\
      (sl = true -> current (s_idx s') <> []).
  Proof.
    intros its body w sl leave go Pgo Plv OK H HG HL P0 PA. unfold roundsOk in H.
    destruct (xb its false body (round w)) as [l|] eqn:E1; [|discriminate]. destruct (xb its false body stuck) as [l'|] eqn:E2; [|discriminate].
    apply andb_true_iff in H. destruct H as [H1 H2]. rewrite forallb_forall in H1.
    induction m as [|m IH]; intros s s' L W IT NE; [discriminate|]. cbn [iter] in IT.
    assert (R : rel its false (s_idx s) (round w) s).
    { constructor; [discriminate|discriminate|]. unfold place. cbn. constructor; [|exact L]. destruct w; [|apply unknown_ok].
      constructor; auto; try discriminate; intros ? []. }
    pose proof (OK _ _ _ _ E1 R) as C. destruct (run body s) as [s1|s1| |]; try discriminate.
    - destruct C as (y1 & I1 & R1). apply H1 in I1. unfold roundOk in I1. cbn [fst snd] in I1. unfold goOk in I1. destruct (y_mode y1) eqn:M.
      + apply andb_true_iff in I1. destruct I1 as [I1 I2]. pose proof (rel_trail _ _ _ _ _ R1 M) as T.
        destruct (trail_spells _ _ _ _ T) as (ts1 & SP & J & SL).
        destruct (IH s1 s' (trail_lt _ _ _ _ T)) as (ts & us & J' & L' & SL' & A & B & D); [|exact IT|exact NE|].
        { intros ->. cbn in I2. unfold headSolid in I2. destruct (y_parts y1) as [|p ps]; [discriminate|]. eapply nonEmpty_ok; [exact I2|]. eapply trail_is, T. }
        exists (ts1 ++ ts), us. rewrite <- app_assoc. split; [rewrite !app_length; rewrite app_length in J'; lia|]. split; [exact L'|].
        split; [apply slice_app; [exact SL|]; replace (S (s_idx s) + List.length ts1) with (S (s_idx s1)) by lia; exact SL'|].
        split; [apply PA; [exact (HG _ _ I1 SP)|exact A]|]. auto.
      + exfalso. apply negb_true_iff in I1. subst w. cbn in H2. rewrite forallb_forall in H2.
        assert (R2 : rel its false (s_idx s) stuck s1) by (constructor; [discriminate|discriminate|exact (rel_stuck _ _ _ _ _ R1 M)]).
        pose proof (OK _ _ _ _ E2 R2) as C. destruct m as [|m]; [discriminate|]. cbn [iter] in IT.
        destruct (run body s1) as [s2|s2| |]; try discriminate; destruct C as (y2 & I2 & R3); apply H2 in I2; cbn in I2; [discriminate|].
        injection IT as <-. unfold failed in I2. destruct (y_err y2) as [[|]|] eqn:Q; try discriminate. pose proof (r_err _ _ _ _ _ R3 _ Q). congruence.
      + discriminate.
    - injection IT as <-. destruct C as (y1 & I1 & R1). apply H1 in I1. unfold roundOk in I1. cbn [fst snd] in I1.
      assert (NF : failed y1 = false).
      { unfold failed. destruct (y_err y1) as [[|]|] eqn:Q; try reflexivity. pose proof (r_err _ _ _ _ _ R1 _ Q). congruence. }
      apply andb_true_iff in I1. destruct I1 as [I1 I2]. unfold leaveOk in I1. rewrite NF in I1, I2. rewrite orb_false_r in I2. cbn [orb] in I1.
      apply andb_true_iff in I1. destruct I1 as [M I1]. unfold okMode in M. destruct (y_mode y1) eqn:M'; try discriminate.
      pose proof (rel_trail _ _ _ _ _ R1 M') as T. destruct (trail_spells _ _ _ _ T) as (ts1 & SP & J & SL). exists [], ts1. cbn [app].
      split; [exact J|]. split; [exact (trail_lt _ _ _ _ T)|]. split; [exact SL|]. split; [exact P0|]. split; [exact (HL _ _ I1 SP)|].
      intros ->. cbn in I2. unfold headSolid in I2. destruct (y_parts y1) as [|p ps]; [discriminate|]. eapply nonEmpty_ok; [exact I2|]. eapply trail_is, T.
  Qed.

  Lemma rel_start : forall first i, i < len -> is first (current i) -> rel [] true i (start first) (St [] [] false i).
  Proof.
    intros first i L W. constructor.
    - intros e [= <-]. reflexivity.
    - intros f v [= <-]. reflexivity.
    - unfold place. cbn. constructor; assumption.
  Qed.
  Lemma fixedEnd_ok : forall first i ps cs y s, fixedEnd (nonEmpty first) ps y = true -> rel [] true i y s -> s_err s = false ->
    exists ts, s_idx s = i + List.length ts /\ s_idx s < len /\ slice (S i) ts /\ accepted (Fixed ps cs) ts /\
      (solid (Fixed ps cs) = true -> nonEmpty first = true -> current (s_idx s) <> []).
  Proof.
    intros first i ps cs y s H R NE. unfold fixedEnd in H. apply orb_true_iff in H. destruct H as [H|H].
    { exfalso. unfold failed in H. destruct (y_err y) as [[|]|] eqn:Q; try discriminate. pose proof (r_err _ _ _ _ _ R _ Q). congruence. }
    rewrite !andb_true_iff in H. destruct H as [[H1 H2] H3]. unfold okMode in H1. destruct (y_mode y) eqn:M; try discriminate.
    pose proof (rel_trail _ _ _ _ _ R M) as T. destruct (trail_spells _ _ _ _ T) as (ts & SP & J & SL). exists ts. split; [exact J|].
    split; [exact (trail_lt _ _ _ _ T)|]. split; [exact SL|]. split; [constructor; eapply fitAll_ok; eassumption|].
    intros _ N. rewrite N in H3. cbn in H3. unfold headSolid in H3. destruct (y_parts y) as [|p ps']; [discriminate|]. eapply nonEmpty_ok; [exact H3|]. eapply trail_is, T.
  Qed.
  Lemma failed_ok : forall its closed i y s, failed y = true -> rel its closed i y s -> s_err s = true.
  Proof. intros its closed i y s H R. unfold failed in H. destruct (y_err y) as [[|]|] eqn:Q; try discriminate. exact (r_err _ _ _ _ _ R _ Q). Qed.

  Lemma exec_callF : forall f g s, exec (CallF f g) s =
      match call g (s_idx s) with Ret v e i => Go (setIdx i (setErr e (setObj f v s))) | FBad => Bad | FFuel => Fuel end.
  Proof. reflexivity. Qed.
  Lemma exec_callV : forall f g s, exec (CallV f g) s =
      match call g (s_idx s) with Ret v e i => Go (setIdx i (setErr e (setVar f v s))) | FBad => Bad | FFuel => Fuel end.
  Proof. reflexivity. Qed.
  Lemma exec_if : forall c k k' s, exec (If c k k') s = if test c s then run k s else run k' s.
  Proof. reflexivity. Qed.
  Lemma exec_switch : forall r cs d s, exec (Switch r cs d) s =
      match pick cs (fst (readSrc toks r s)) (snd (readSrc toks r s)) with Some q => q | None => run d (snd (readSrc toks r s)) end.
  Proof. intros r cs d s. cbn [A2lIR.exec]. destruct (readSrc toks r s). reflexivity. Qed.
  Lemma run_seq : forall x k s, run (Seq x k) s = match exec x s with Go s' => run k s' | r => r end.
  Proof. reflexivity. Qed.
  Lemma pick_case : forall c k cs t s, pick (Case c k cs) t s = if beqb t (b c) then Some (run k s) else pick cs t s.
  Proof. reflexivity. Qed.
  Lemma call_straight : forall k i, call (Straight k) i =
      match run k (St [] [] false i) with
      | Go s | Out s => Ret (VObj (s_obj s)) (s_err s) (s_idx s) | Bad => FBad | Fuel => FFuel end.
  Proof. reflexivity. Qed.
  Lemma call_loop : forall pre body i, call (Loop pre body) i =
      match run pre (St [] [] false i) with
      | Go s => match iter fuel (run body) s with
                | Go s' | Out s' => Ret (VObj (s_obj s')) (s_err s') (s_idx s')
                | Bad => FBad
                | Fuel => FFuel
                end
      | Out s => Ret (VObj (s_obj s)) (s_err s) (s_idx s)
      | Bad => FBad
      | Fuel => FFuel
      end.
  Proof. reflexivity. Qed.
  Lemma iter_noout : forall n body s s', iter n body s <> Out s'.
  Proof. induction n as [|n IH]; intros body s s'; cbn; [discriminate|]. destruct (body s); try discriminate. apply IH. Qed.

  Lemma xs_callF : forall its closed f g y, xs its closed (CallF f g) y = option_map (map (fun y' => (false, withObj f None y'))) (xcall its (tableOf g) (af g) y).
  Proof. reflexivity. Qed.
  Lemma xs_callV : forall its closed f g y, xs its closed (CallV f g) y = option_map (map (pair false)) (xcall its (tableOf g) (af g) y).
  Proof. reflexivity. Qed.
  Lemma xs_if : forall its closed c a d y, xs its closed (If c a d) y =
    flat (fun r => if fst r : bool then xb its closed a (snd r) else xb its closed d (snd r)) (split closed c y).
  Proof. reflexivity. Qed.
  Lemma xs_switch : forall its closed r cs d y, xs its closed (Switch r cs d) y =
    match sread r y with Some l => flat (xc its closed cs (xb its closed d)) l | None => None end.
  Proof. reflexivity. Qed.
  Lemma xb_seq : forall its closed x k y, xb its closed (Seq x k) y =
    match xs its closed x y with
    | Some l => flat (fun r => if fst r : bool then Some [r] else xb its closed k (snd r)) l
    | None => None
    end.
  Proof. reflexivity. Qed.
  Lemma xc_case : forall its closed t k cs other y, xc its closed (Case t k cs) other y =
    flat (fun r => if fst r : bool then xb its closed k (snd r) else xc its closed cs other (snd r)) (curIs t y).
  Proof. reflexivity. Qed.
  Lemma af_straight : forall k f first, af (Straight k) f first =
      match xb [] true k (start first) with
      | Some l => match f with
                  | Some (Fixed ps _) => forallb (fun r => fixedEnd (nonEmpty first) ps (snd r)) l
                  | None => forallb (fun r => failed (snd r)) l
                  | _ => false
                  end
      | None => false
      end.
  Proof. reflexivity. Qed.
  Lemma af_loop : forall pre body f first, af (Loop pre body) f first =
      match f with
      | Some (Fixed _ _) | None =>
          match xb [] true pre (start first) with
          | Some l => forallb (fun r => negb (fst r)) l &&
              match rounds (match f with Some (Fixed ps _) => S (List.length ps) | _ => 4 end) (xb [] true body) (map snd l) with
              | Some os => match f with
                           | Some (Fixed ps _) => forallb (fixedEnd (nonEmpty first) ps) os
                           | _ => forallb failed os
                           end
              | None => false
              end
          | None => false
          end
      | Some (Block _ _ _ its stop _) =>
          match xb [] true pre (start first) with
          | Some l => forallb untouched l && negb (String.eqb stop "") &&
              (if roundsOk (xb its false body) false (negb (String.eqb stop "/end FRAME")) (endP stop) (insideP stop) then true else nonEmpty first && roundsOk (xb its false body) true (negb (String.eqb stop "/end FRAME")) (endP stop) (insideP stop))
          | _ => false
          end
      | Some (Ahead _ _ _ _) =>
          match xb [] true pre (start first) with
          | Some l => forallb untouched l && nonEmpty first && roundsOk (xb [] false body) true true plainP plainP
          | _ => false
          end
      | Some (Value _) => false
      end.
  Proof. reflexivity. Qed.

  Lemma pairs_go : forall its closed i0 (l : list sy) y s, In y l -> rel its closed i0 y s -> covers its closed i0 (map (pair false) l) (Go s).
  Proof. intros its closed i0 l y s I R. exists y. split; [apply in_map; exact I|exact R]. Qed.

  Lemma untouched_ok : forall pre first i l, okB pre -> xb [] true pre (start first) = Some l -> forallb untouched l = true -> i < len -> is first (current i) ->
    match run pre (St [] [] false i) with Go s => s_idx s = i | Out _ => False | _ => True end.
  Proof.
    intros pre first i l OK E H L W. pose proof (OK _ _ _ _ _ _ E (rel_start _ _ L W)) as C. rewrite forallb_forall in H.
    destruct (run pre (St [] [] false i)) as [s|s| |]; cbn [covers] in C; auto.
    - destruct C as (y & I & R). apply H in I. unfold untouched in I. cbn [fst snd] in I. unfold okMode in I.
      destruct (y_mode y) eqn:M; try discriminate. pose proof (rel_trail _ _ _ _ _ R M) as T.
      destruct (y_parts y) as [|p [|q ps]]; try discriminate. inversion T; subst; try reflexivity.
      + match goal with K : trail _ _ [] _ |- _ => inversion K end.
      + match goal with K : trail _ _ [] _ |- _ => inversion K end.
    - destruct C as (y & I & R). apply H in I. discriminate.
  Qed.

  Lemma sound : (forall x, okS x) /\ (forall k, okB k) /\ (forall cs, okC cs) /\ (forall g, okG g).
  Proof.
    apply A2lCheck.ir_ind.
    - (* Next *) intros its closed i0 y s l H R. cbn [xs] in H. destruct (adv y) as [m|] eqn:E; [|discriminate]. injection H as <-.
      destruct (sread_ok its closed i0 FromNext y s m E R) as (y' & I & R' & _). exact (pairs_go _ _ _ _ _ _ I R').
    - (* Prev *) intros its closed i0 y s l H R. cbn [xs] in H. destruct (y_mode y) eqn:M; try discriminate.
      pose proof (rel_trail _ _ _ _ _ R M) as T. destruct (y_parts y) as [|[e k ns x no|e kw] [|p ps]]; try discriminate. injection H as <-.
      inversion T as [|? i ? ? ? ? ? T' L W EQ EI|]; subst. cbn [A2lIR.exec]. rewrite <- EI. apply covers_go. destruct R as [A B C].
      constructor; [exact A|exact B|]. unfold place. cbn. rewrite M. exact T'.
    - (* Set_ *) intros f e its closed i0 y s l [= <-] R. cbn [A2lIR.exec]. apply covers_go. apply rel_obj; [exact R|]. intros v Q.
      unfold fbool. cbn [fget]. rewrite String.eqb_refl. destruct e; cbn in Q |- *; try discriminate; injection Q as <-; reflexivity.
    - (* App *) intros f e its closed i0 y s l [= <-] R. cbn [A2lIR.exec]. apply covers_go. apply rel_obj; [exact R|]. intros v [= <-].
      unfold fbool. cbn [fget]. rewrite String.eqb_refl. reflexivity.
    - (* Fill *) intros f n e its closed i0 y s l [= <-] R. cbn [A2lIR.exec]. apply covers_go. apply rel_obj; [exact R|]. intros v [= <-].
      unfold fbool. cbn [fget]. rewrite String.eqb_refl. reflexivity.
    - (* Put *) intros f v k its closed i0 y s l [= <-] R. cbn [A2lIR.exec]. destruct (fget f (s_obj s)) as [[]|]; try exact I.
      apply covers_go. apply rel_obj; [exact R|]. intros w [= <-].
      unfold fbool. cbn [fget]. rewrite String.eqb_refl. reflexivity.
    - (* Num *) intros v n r its closed i0 y s l H R. cbn [xs] in H. destruct (sread r y) as [m|] eqn:E; [|discriminate]. injection H as <-.
      destruct (sread_ok its closed i0 r y s m E R) as (y' & I & R' & T). cbn [A2lIR.exec]. destruct (readSrc toks r s) as [t s'].
      cbn [fst snd] in *. subst t. destruct (number_ok its closed i0 n y' s' v R') as (y2 & I2 & R2).
      assert (K : In y2 (flat_map (number n) m)) by (apply in_flat_map; exists y'; auto).
      destruct (readNum pf n (current (s_idx s'))); exact (pairs_go _ _ _ _ _ _ K R2).
    - (* CallF *) intros f g IH its closed i0 y s l H R. rewrite xs_callF in H. destruct (xcall its (tableOf g) (af g) y) as [m|] eqn:E; [|discriminate].
      injection H as <-. rewrite exec_callF. destruct (call g (s_idx s)) as [v e i| |] eqn:C; try exact I.
      destruct (xcall_ok _ _ _ _ _ _ _ _ _ _ IH E R C) as (y' & IN & R'). exists (withObj f None y').
      split; [apply in_map_iff; exists y'; auto|]. apply (rel_obj its closed i0 y' (setIdx i (setErr e s)) f v None R'). discriminate.
    - (* CallV *) intros f g IH its closed i0 y s l H R. rewrite xs_callV in H. destruct (xcall its (tableOf g) (af g) y) as [m|] eqn:E; [|discriminate].
      injection H as <-. rewrite exec_callV. destruct (call g (s_idx s)) as [v e i| |] eqn:C; try exact I.
      destruct (xcall_ok _ _ _ _ _ _ _ _ _ _ IH E R C) as (y' & IN & R'). eapply pairs_go; [exact IN|].
      exact (rel_var its closed i0 y' (setIdx i (setErr e s)) f v R').
    - (* Raise *) intros its closed i0 y s l [= <-] R. cbn [A2lIR.exec]. apply covers_go, rel_errS, R.
    - (* Break *) intros its closed i0 y s l [= <-] R. exists y. split; [left; reflexivity|exact R].
    - (* If *) intros c a IHa d IHd its closed i0 y s l H R. rewrite xs_if in H. rewrite exec_if.
      destruct (split_ok its closed i0 c y s R) as (y' & I & R'). eapply covers_flat; [exact H|exact I|]. cbn [fst snd].
      destruct (test c s); intros x E; [eapply IHa|eapply IHd]; eassumption.
    - (* Switch *) intros r cs IHc d IHd its closed i0 y s l H R. rewrite xs_switch in H. destruct (sread r y) as [m|] eqn:E; [|discriminate].
      rewrite exec_switch. destruct (sread_ok its closed i0 r y s m E R) as (y' & I & R' & T). rewrite T.
      eapply covers_flat; [exact H|exact I|]. intros x X. eapply (IHc its closed i0 _ (run d)); [exact X|exact R'|].
      intros y2 s2 l2 E2 R2. eapply IHd; eassumption.
    - (* Skip *) intros its closed i0 y s l [= <-] R. apply covers_go. exact R.
    - (* Seq *) intros x IHx k IHk its closed i0 y s l H R. rewrite xb_seq in H. destruct (xs its closed x y) as [m|] eqn:E; [|discriminate].
      rewrite run_seq. pose proof (IHx _ _ _ _ _ _ E R) as C. destruct (exec x s) as [s'|s'| |]; try exact I.
      + destruct C as (y' & IN & R'). eapply covers_flat; [exact H|exact IN|]. cbn [fst snd]. intros z Z. eapply IHk; eassumption.
      + destruct C as (y' & IN & R'). eapply covers_flat; [exact H|exact IN|]. cbn [fst snd]. intros z [= <-]. exists y'. split; [left; reflexivity|exact R'].
    - (* Default *) intros its closed i0 other d y s l H R OT. exact (OT _ _ _ H R).
    - (* Case *) intros t k IHk cs IHc its closed i0 other d y s l H R OT. rewrite xc_case in H. rewrite pick_case.
      destruct (curIs_ok its closed i0 t y s R) as (y' & IN & R'). eapply covers_flat; [exact H|exact IN|]. cbn [fst snd].
      destruct (beqb (current (s_idx s)) (b t)); intros x E; [eapply IHk; eassumption|]. eapply IHc; eassumption.
    - (* Enum *) intros nx table f first i v j H L W C. cbn [af] in H. destruct f as [[ty| | |]|]; try discriminate. destruct ty as [| | |l]; try discriminate.
      apply andb_true_iff in H. destruct H as [-> H]. rewrite forallb_forall in H. cbn [A2lIR.call] in C.
      destruct (findText (nextTok i) table) as [w|] eqn:F; [|discriminate]. injection C as <- <-.
      apply findText_some in F. destruct F as (u & I & E). apply H in I. apply andb_true_iff in I. destruct I as [I1 I2].
      apply negb_true_iff, String.eqb_neq in I2. unfold A2lIR.nextTok, A2lIR.next in *. destruct (moves i) eqn:M.
      + unfold A2lIR.moves in M. apply Nat.ltb_lt in M. exists [current (S i)]. cbn [List.length].
        split; [lia|]. split; [exact M|]. split; [apply slice_one, M|].
        assert (NE : current (S i) <> []) by (rewrite E; intros Q; apply b_nil in Q; contradiction).
        split; [|intros _ _; exact NE]. constructor. split; [exact NE|]. exists u. split; [apply mem_In, I1|exact E].
      + exfalso. symmetry in E. apply b_nil in E. contradiction.
    - (* Straight *) intros k IH f first i v j H L W C. rewrite af_straight in H. rewrite call_straight in C.
      destruct (xb [] true k (start first)) as [l|] eqn:E; [|discriminate].
      pose proof (IH _ _ _ _ _ _ E (rel_start _ _ L W)) as CV.
      assert (K : exists r y s, In (r, y) l /\ rel [] true i y s /\ s_err s = false /\ j = s_idx s).
      { destruct (run k (St [] [] false i)) as [s|s| |]; try discriminate; destruct CV as (y & I & R); injection C as <- Q <-;
          [exists false|exists true]; exists y, s; auto. }
      destruct K as (r & y & s & I & R & NE & ->). destruct f as [[ty|ps cs| |]|]; try discriminate; rewrite forallb_forall in H; apply H in I; cbn [snd] in I.
      + eapply fixedEnd_ok; eassumption.
      + pose proof (failed_ok _ _ _ _ _ I R). congruence.
    - (* Loop *) intros pre IHp body IHb f first i v j H L W C. rewrite af_loop in H. rewrite call_loop in C.
      assert (FX : forall n l os, xb [] true pre (start first) = Some l -> forallb (fun r => negb (fst r)) l = true ->
                 rounds n (xb [] true body) (map snd l) = Some os ->
                 exists y s, In y os /\ rel [] true i y s /\ s_err s = false /\ j = s_idx s).
      { intros n l os E K RR. rewrite forallb_forall in K. pose proof (IHp _ _ _ _ _ _ E (rel_start _ _ L W)) as CV.
        destruct (run pre (St [] [] false i)) as [s|s| |]; try discriminate; destruct CV as (y & I & R); [|apply K in I; discriminate].
        destruct (iter fuel (run body) s) as [s'|s'| |] eqn:IT; try discriminate; [|exfalso; exact (iter_noout _ _ _ _ IT)].
        injection C as <- Q <-.
        destruct (rounds_ok body [] true i (fun y s l => IHb [] true i y s l) n _ os fuel y s s' RR) as (y' & I' & R'); [|exact R|exact IT|].
        - apply in_map_iff. exists (false, y). auto.
        - exists y', s'. auto. }
      destruct f as [[ty|ps cs|ps gs cs nx|ms ps g its stop cs]|].
      + discriminate.
      + destruct (xb [] true pre (start first)) as [l|] eqn:E; [|discriminate]. apply andb_true_iff in H. destruct H as [H1 H2].
        destruct (rounds (S (List.length ps)) (xb [] true body) (map snd l)) as [os|] eqn:RR; [|discriminate].
        destruct (FX _ _ _ eq_refl H1 RR) as (y & s & I & R & NE & ->). rewrite forallb_forall in H2. apply H2 in I. eapply fixedEnd_ok; eassumption.
      + destruct (xb [] true pre (start first)) as [l|] eqn:E; [|discriminate]. rewrite !andb_true_iff in H. destruct H as [[H1 H2] H3].
        pose proof (untouched_ok _ _ _ _ IHp E H1 L W) as U. destruct (run pre (St [] [] false i)) as [s|s| |]; try discriminate; [|destruct U].
        destruct (iter fuel (run body) s) as [s'|s'| |] eqn:IT; try discriminate; [|exfalso; exact (iter_noout _ _ _ _ IT)].
        injection C as <- Q <-. subst i.
        destruct (roundsOk_ok [] body true true plainP plainP (Forall (fun t => t <> [] /\ isKeyword t = false)) (Forall (fun t => t <> [] /\ isKeyword t = false))
           (fun i0 y s l => IHb [] false i0 y s l) H3 (plainP_ok []) (plainP_ok []) (Forall_nil _) (fun ts us A B => proj2 (Forall_app _ _ _) (conj A B))
           fuel s s' L (fun _ => nonEmpty_ok _ _ H2 W) IT Q) as (ts & us & J & L' & SL & A & B & D).
        exists (ts ++ us). split; [exact J|]. split; [exact L'|]. split; [exact SL|]. split; [constructor; apply Forall_app; auto|auto].
      + destruct (xb [] true pre (start first)) as [l|] eqn:E; [|discriminate]. rewrite !andb_true_iff in H. destruct H as [[H1 H2] H3].
        pose proof (untouched_ok _ _ _ _ IHp E H1 L W) as U. destruct (run pre (St [] [] false i)) as [s|s| |]; try discriminate; [|destruct U].
        destruct (iter fuel (run body) s) as [s'|s'| |] eqn:IT; try discriminate; [|exfalso; exact (iter_noout _ _ _ _ IT)].
        injection C as <- Q <-. subst i.
        assert (H4 : exists w, roundsOk (xb its false body) w (negb (String.eqb stop "/end FRAME")) (endP stop) (insideP stop) = true /\ (w = true -> current (s_idx s) <> [])).
        { destruct (roundsOk (xb its false body) false (negb (String.eqb stop "/end FRAME")) (endP stop) (insideP stop)) eqn:RO.
          - exists false. split; [exact RO|discriminate].
          - apply andb_true_iff in H3. destruct H3 as [H3 H4]. exists true. split; [exact H4|]. intros _. exact (nonEmpty_ok _ _ H3 W). }
        destruct H4 as (w & H4 & H5).
        destruct (roundsOk_ok its body w _ _ _ (inside its stop) (fun us => exists t, us = [t] /\ endOf stop t)
           (fun i0 y s l => IHb its false i0 y s l) H4 (fun l ts G SP => insideP_ok its stop _ l ts (le_n _) G SP) (endP_ok its stop)
           (in_nil pf its stop) (inside_app its stop) fuel s s' L H5 IT Q) as (ts & us & J & L' & SL & A & (t & -> & B) & D).
        exists (ts ++ [t]). split; [exact J|]. split; [exact L'|]. split; [exact SL|]. split; [constructor; assumption|]. intros SO _. apply D. exact SO.
      + destruct (xb [] true pre (start first)) as [l|] eqn:E; [|discriminate]. apply andb_true_iff in H. destruct H as [H1 H2].
        destruct (rounds 4 (xb [] true body) (map snd l)) as [os|] eqn:RR; [|discriminate].
        destruct (FX _ _ _ eq_refl H1 RR) as (y & s & I & R & NE & ->). rewrite forallb_forall in H2. apply H2 in I.
        pose proof (failed_ok _ _ _ _ _ I R). congruence.
  Qed.

  Lemma af_ok : forall g, okG g.
  Proof. intros g. apply sound. Qed.
End Sound.
