(** The analysis of A2lQuiet.v is sound. *)
From Coq Require Import String Ascii List Arith NArith ZArith Bool Lia SpecFloat.
From Verif Require Import GoBase GoBaseFacts A2lIR A2lTokens A2lParsers A2lSpec A2lCheck A2lModModel A2lModSpec A2lNestSpec A2lNest A2lNestThm A2lCutSpec A2lQuietSpec A2lQuiet.
From Verif Require A2lModProps A2lStrictProps.
Import ListNotations.

(** ** Tokens that begin an object or end a module *)

Lemma isBegin_iff : forall t, isBegin t = true <-> begins t.
Proof.
  intros t. unfold isBegin, begins. rewrite existsb_exists. split; intros (k & I & E); exists k; (split; [exact I|]).
  - apply beqb_eq, E.
  - subst t. apply beqb_refl.
Qed.
Lemma isLoud_iff : forall t, isLoud t = true <-> loud t.
Proof. intros t. unfold isLoud, loud. rewrite orb_true_iff, isBegin_iff. split; (intros [H|H]; [left; exact H|right]); [apply beqb_eq, H|subst t; apply beqb_refl]. Qed.
Lemma not_loud : forall t, isLoud t = false -> ~ begins t /\ t <> b "/end MODULE".
Proof. intros t H. split; intros B; (assert (L : loud t) by (unfold loud; auto)); apply isLoud_iff in L; congruence. Qed.
Lemma loud_bracket : forall t, isLoud t = true -> bracket t = true.
Proof.
  intros t H. unfold isLoud in H. apply orb_true_iff in H. destruct H as [H|H]; [|apply beqb_eq in H; subst t; reflexivity].
  apply existsb_exists in H. destruct H as (k & I & E). apply beqb_eq in E. subst t.
  assert (Q : forallb (fun k => bracket (b (fst k))) kinds = true) by (vm_compute; reflexivity).
  exact (proj1 (forallb_forall _ _) Q k I).
Qed.
Lemma begin_not : forall t, bracket t = false -> isLoud t = false.
Proof. intros t H. destruct (isLoud t) eqn:E; [|reflexivity]. apply loud_bracket in E. congruence. Qed.
Lemma begin_kw : forall t, isKeyword t = false -> isLoud t = false.
Proof. intros t H. apply begin_not, bracket_kw, H. Qed.
Lemma number_begin : forall pf n t v, rejects pf -> readNum pf n t = Some v -> isLoud t = false /\ t <> [].
Proof. intros pf n t v R H. destruct (number_word pf n t v R H) as [B N]. split; [apply begin_not, B|exact N]. Qed.
Lemma table_begin : forall table t v, words table = true -> findText t table = Some v -> isLoud t = false /\ t <> [].
Proof. intros table t v W H. destruct (table_word table t v W H) as [B N]. split; [apply begin_not, B|exact N]. Qed.

Lemma same_fn : forall g h, sameFn g h = true -> g = h.
Proof. intros g h H. unfold sameFn in H. destruct (A2lStrictProps.fn_dec g h); [assumption|discriminate]. Qed.
Lemma own_ok : forall t g, own t g = true -> exists a, In (t, (g, a)) kinds.
Proof.
  intros t g H. apply existsb_exists in H. destruct H as ([t' [g' a]] & I & E). cbn [fst snd] in E. apply andb_true_iff in E. destruct E as [E1 E2].
  apply String.eqb_eq in E1. apply same_fn in E2. subst. exists a. exact I.
Qed.
Lemma listed_ok : forall t g, listed t g = true -> exists x, t = ("/begin " ++ x)%string /\ In (x, g) unread /\ endsAt g ("/end " ++ x) = true.
Proof.
  intros t g H. apply existsb_exists in H. destruct H as ([x g'] & I & E). cbn [fst snd] in E. rewrite !andb_true_iff in E. destruct E as [[E1 E2] E3].
  apply String.eqb_eq in E1. apply same_fn in E2. subst. exists x. auto.
Qed.

(** ** Complete objects behind every token *)

Section Behind.
  Variable toks : list bytes.
  Variable pf : bytes -> option spec_float.

  Lemma nested_in_app : forall i j k l m, nestedIn toks pf i j l -> nestedIn toks pf j k m -> nestedIn toks pf i k (l ++ m).
  Proof.
    intros i j k l m H M. induction H as [e|i e l B H IH|i t g a v j e l I T R H IH]; cbn [app].
    - exact M.
    - apply NestOther; [exact B|]. apply IH, M.
    - eapply NestObj; [exact I|exact T|exact R|]. apply IH, M.
  Qed.

  (** if the objects that are not read are quiet, the objects behind every index from
      [p - 1] up to [q - 1] are complete, and no token from [p] on before [q] ends a module *)
  Definition behind (p q : nat) : Prop :=
    ((forall i, p <= i < q -> quietAt toks pf i) -> forall r e, q = S e -> p <= S r <= q -> exists l, nestedIn toks pf r e l) /\
    (forall r, p <= r < q -> (forall i, p <= i < r -> quietAt toks pf i) -> tok toks r <> b "/end MODULE").

  Lemma behind_nil : forall p, behind p p.
  Proof. intros p. split; [|lia]. intros _ r e E L. assert (r = e) by lia. subst r. exists []. constructor. Qed.
  Lemma behind_app : forall p q r, p <= q <= r -> behind p q -> behind q r -> behind p r.
  Proof.
    intros p q r L [A1 B1] [A2 B2]. split.
    - intros Q s e E LS. destruct (Nat.le_gt_cases (S s) q) as [A|A].
      + destruct q as [|m]; [lia|].
        destruct (A1 (fun i I => Q i ltac:(lia)) s m eq_refl ltac:(lia)) as [l1 N1]. destruct (A2 (fun i I => Q i ltac:(lia)) m e E ltac:(lia)) as [l2 N2].
        exists (l1 ++ l2). eapply nested_in_app; eassumption.
      + apply (A2 (fun i I => Q i ltac:(lia)) s e E). lia.
    - intros s LS Q. destruct (Nat.lt_ge_cases s q); [apply B1; [lia|intros i I; apply Q; lia]|apply B2; [lia|intros i I; apply Q; lia]].
  Qed.
  Lemma behind_word : forall i, isLoud (current toks i) = false -> behind i (S i).
  Proof.
    intros i B. destruct (not_loud _ B) as [B1 B2]. split.
    - intros _ r e E L. assert (e = i) by lia. subst e. destruct (Nat.eq_dec r i) as [->|D]; [exists []; constructor|].
      exists []. assert (i = S r) by lia. subst i. apply NestOther; [exact B1|constructor].
    - intros r L _. assert (r = i) by lia. subst r. exact B2.
  Qed.
  Lemma behind_snoc : forall p i, p <= i -> behind p i -> isLoud (current toks i) = false -> behind p (S i).
  Proof. intros p i L H B. apply (behind_app p i (S i)); [lia|exact H|apply behind_word, B]. Qed.
  Lemma kinds_not_end : forall t g a, In (t, (g, a)) kinds -> b t <> b "/end MODULE".
  Proof.
    intros t g a I. assert (Q : forallb (fun k => negb (beqb (b (fst k)) (b "/end MODULE"))) kinds = true) by (vm_compute; reflexivity).
    pose proof (proj1 (forallb_forall _ _) Q _ I) as N. cbn [fst] in N. intros E. rewrite E, beqb_refl in N. discriminate.
  Qed.
  Lemma behind_obj : forall i t g a v j, In (t, (g, a)) kinds -> current toks i = b t -> returns toks pf g i v false j -> i <= j ->
      behind (S i) (S j) -> behind i (S j).
  Proof.
    intros i t g a v j I T R L [H1 H2]. split.
    - intros Q r e E LR. assert (e = j) by lia. subst e. destruct (Nat.eq_dec (S r) i) as [<-|D].
      + eexists. eapply NestObj; [exact I|exact T|exact R|constructor].
      + apply (H1 (fun k K => Q k ltac:(lia)) r j eq_refl). lia.
    - intros r LR Q. destruct (Nat.eq_dec r i) as [->|D]; [|apply H2; [lia|intros k K; apply Q; lia]].
      change (tok toks i) with (current toks i). rewrite T. exact (kinds_not_end _ _ _ I).
  Qed.
  Lemma quiet_nested : forall i j, (forall q, i < q <= j -> ~ loud (tok toks q)) -> forall r, i <= r <= j -> nestedIn toks pf r j [].
  Proof.
    intros i j H r L. remember (j - r) as d eqn:D. revert r L D. induction d as [|d IH]; intros r L D.
    - assert (r = j) by lia. subst r. constructor.
    - apply NestOther; [intros B; apply (H (S r) ltac:(lia)); left; exact B|]. apply IH; lia.
  Qed.
  (** with the token at [i] *)
  Lemma behind_unread : forall i x g v j, In (x, g) unread -> current toks i = beginOf x -> returns toks pf g i v false j -> i <= j ->
      (isLoud (current toks i) = true -> exists t a, In (t, (g, a)) kinds /\ current toks i = b t) -> behind i (S j).
  Proof.
    intros i x g v j I T R L O. assert (QN : quietAt toks pf i -> forall q, i < q <= j -> ~ loud (tok toks q)) by (intros Q; exact (Q x g v j I T R)). split.
    - intros Q r e E LR. assert (e = j) by lia. subst e. specialize (QN (Q i ltac:(lia))).
      destruct (Nat.eq_dec (S r) i) as [<-|D]; [|exists []; apply (quiet_nested i j QN); lia].
      destruct (isLoud (current toks (S r))) eqn:B.
      + destruct (O eq_refl) as (t & a & K & T'). eexists. eapply NestObj; [exact K|exact T'|exact R|constructor].
      + exists []. apply NestOther; [exact (proj1 (not_loud _ B))|]. apply (quiet_nested (S r) j QN). lia.
    - intros r LR Q. destruct (Nat.eq_dec r i) as [->|D].
      + destruct (isLoud (current toks i)) eqn:B; [|exact (proj2 (not_loud _ B))].
        destruct (O eq_refl) as (t & a & K & T'). change (tok toks i) with (current toks i). rewrite T'. exact (kinds_not_end _ _ _ K).
      + intros E. apply (QN (Q i ltac:(lia)) r ltac:(lia)). right. exact E.
  Qed.
End Behind.

Lemma kndOf_word : forall os, kndOf os <> Word.
Proof. intros os. unfold kndOf. destruct (forallb wholeQ _); discriminate. Qed.

(** equations of the analysis *)
Lemma knd_straight : forall k, kndFn (Straight k) = kndOf (union (fst (qbl k (Clean, false))) (snd (qbl k (Clean, false)))).
Proof. intros k. change (kndFn (Straight k)) with (let '(gs, os) := qbl k (Clean, false) in kndOf (union gs os)). destruct (qbl k (Clean, false)). reflexivity. Qed.
Lemma knd_loop : forall pre body, kndFn (Loop pre body) =
    match rounds 6 (qbl body) (fst (qbl pre (Clean, false))) with
    | Some os' => kndOf (union (snd (qbl pre (Clean, false))) os') | None => Open end.
Proof.
  intros pre body. change (kndFn (Loop pre body)) with
    (let '(gs, os) := qbl pre (Clean, false) in match rounds 6 (qbl body) gs with Some os' => kndOf (union os os') | None => Open end).
  destruct (qbl pre (Clean, false)). reflexivity.
Qed.
Lemma qst_callF : forall f g a, qst (CallF f g) a = (with_ false (callQ (kndFn g) g (fun _ => okfn g) (fst a)) ++ [(Lost, true)], []).
Proof. reflexivity. Qed.
Lemma qst_callV : forall f g a, qst (CallV f g) a = (with_ false (callQ (kndFn g) g (fun _ => okfn g) (fst a)) ++ [(Lost, true)], []).
Proof. reflexivity. Qed.
Lemma qst_if : forall c k k' a, qst (If c k k') a = nor (nall (qbl k) (refT c a)) (nall (qbl k') (refF c a)).
Proof. reflexivity. Qed.
Lemma qst_switch : forall r cs d a, qst (Switch r cs d) a =
    nor (qca cs (with_ (snd a) (srcQ r (fst a)))) (nall (qbl d) (with_ (snd a) (srcQ r (fst a)))).
Proof. reflexivity. Qed.
Lemma qbl_seq : forall x k a, qbl (Seq x k) a = nthen (qst x a) (qbl k).
Proof. reflexivity. Qed.
Lemma qca_case : forall t k cs l, qca (Case t k cs) l =
    nor (nall (qbl k) (flat_map (fun a => with_ (snd a) (isNs t (fst a))) l)) (qca cs l).
Proof. reflexivity. Qed.

(** ** Soundness *)

Section Sound.
  Variable toks : list bytes.
  Variable ParseFloat : bytes -> option spec_float.
  Variable fuel : nat.
  Hypothesis shut : closed toks.
  Hypothesis floats : rejects ParseFloat.
  Hypothesis enough : List.length toks < fuel.

  Notation current := (current toks).
  Notation next := (next toks).
  Notation nextTok := (nextTok toks).
  Notation moves := (moves toks).
  Notation exec := (exec isKeyword toks ParseFloat fuel).
  Notation run := (run isKeyword toks ParseFloat fuel).
  Notation pick := (pick isKeyword toks ParseFloat fuel).
  Notation call := (call isKeyword toks ParseFloat fuel).
  Notation test := (test isKeyword toks).
  Notation len := (List.length toks).
  Notation C := (behind toks ParseFloat).
  Let C_nil := behind_nil toks ParseFloat.
  Let C_app := behind_app toks ParseFloat.
  Let C_word := behind_word toks ParseFloat.
  Let C_snoc := behind_snoc toks ParseFloat.

  Lemma kw_empty : isKeyword [] = false. Proof. reflexivity. Qed.
  Lemma last_empty : exists l, toks = l ++ [[]].
  Proof. destruct shut as (l & E & _). exists l. exact E. Qed.
  Lemma empty_last : forall i, i < len -> current i = [] -> S i = len.
  Proof.
    intros i L E. destruct shut as (l & T & NI). assert (LL : len = S (List.length l)) by (rewrite T, app_length; cbn; lia).
    destruct (Nat.eq_dec i (List.length l)) as [->|D]; [lia|]. exfalso. apply NI. rewrite <- E. unfold A2lIR.current.
    rewrite T, app_nth1 by lia. apply nth_In. lia.
  Qed.
  Lemma nonempty_not_last : forall i, i < len -> current i <> [] -> S i < len.
  Proof.
    intros i L H. destruct (Nat.eq_dec (S i) len) as [E|]; [|lia]. exfalso. apply H, (at_last toks fuel last_empty enough), E.
  Qed.
  Lemma next_current : forall i, i < len -> nextTok i = current (next i).
  Proof.
    intros i L. unfold A2lIR.nextTok. destruct (next_cases toks fuel enough i L) as [(M & N0 & _)|(M & N0 & E)]; rewrite M, N0; [reflexivity|].
    symmetry. apply (at_last toks fuel last_empty enough), E.
  Qed.

  Definition gamT (p : nat) (t : tk) (i : nat) : Prop :=
    match t with
    | Clean => p <= S i /\ S i < len /\ C p (S i)
    | Pending => p <= i /\ S i < len /\ C p i
    | Keyword => p <= i /\ S i < len /\ C p i /\ isKeyword (current i) = true
    | Is t => p <= i /\ i < len /\ C p i /\ current i = b t
    | Stuck => S i = len
    | Lost => True
    end.
  Definition gam (p : nat) (a : ns) (s : st) : Prop := gamT p (fst a) (s_idx s) /\ s_err s = snd a.

  Definition covers (r : res) (p : nat) (o : nout) : Prop :=
    match r with
    | Go s => exists a, In a (fst o) /\ gam p a s
    | Out s => exists a, In a (snd o) /\ gam p a s
    | Bad | Fuel => True
    end.

  Lemma covers_l : forall r p x y, covers r p x -> covers r p (nor x y).
  Proof. intros [s|s| |] p x y H; cbn in *; auto; destruct H as (a & I & G); exists a; (split; [apply in_union; auto|exact G]). Qed.
  Lemma covers_r : forall r p x y, covers r p y -> covers r p (nor x y).
  Proof. intros [s|s| |] p x y H; cbn in *; auto; destruct H as (a & I & G); exists a; (split; [apply in_union; auto|exact G]). Qed.

  Lemma nall_ok : forall (f : ns -> nout) (R : st -> res) p l,
      (forall a s, gam p a s -> covers (R s) p (f a)) ->
      forall a s, In a l -> gam p a s -> covers (R s) p (nall f l).
  Proof.
    intros f R p. induction l as [|a0 l IH]; intros H a s I G; [contradiction|]. cbn [nall].
    destruct I as [->|I]; [apply covers_l, H, G|apply covers_r; eapply IH; eassumption].
  Qed.

  (** one token further *)
  Lemma clean_next : forall p i, gamT p Clean i -> exists t, In t [Pending; Is ""] /\ gamT p t (next i).
  Proof.
    intros p i (P & L & H). destruct (next_cases toks fuel enough i ltac:(lia)) as [(_ & -> & L')|(_ & _ & E)]; [|lia].
    destruct (list_eq_dec Ascii.ascii_dec (current (S i)) []) as [E|E].
    - exists (Is ""). split; [right; left; reflexivity|]. cbn [gamT fst snd]. auto.
    - exists Pending. split; [left; reflexivity|]. cbn [gamT fst snd]. split; [lia|]. split; [|exact H]. apply nonempty_not_last; assumption.
  Qed.
  Lemma is_clean : forall p i t, gamT p (Is t) i -> t <> EmptyString -> isLoud (b t) = false -> gamT p Clean i.
  Proof.
    intros p i t (P & L & H & E) NE B. cbn [gamT fst snd]. split; [lia|]. split.
    - apply nonempty_not_last; [exact L|]. rewrite E. destruct t; [contradiction|discriminate].
    - apply C_snoc; [lia|exact H|]. rewrite E. exact B.
  Qed.
  Lemma next_ok : forall p t i, gamT p t i -> exists t', In t' (nextQ t) /\ gamT p t' (next i).
  Proof.
    intros p t i H. destruct t as [| | |u| |]; cbn [nextQ].
    - apply clean_next, H.
    - exists Lost. split; [left; reflexivity|exact I].
    - exists Lost. split; [left; reflexivity|exact I].
    - destruct (isEmpty u) eqn:E.
      + destruct H as (P & L & H & C). rewrite (empty_b _ E) in C. pose proof (empty_last _ L C).
        exists (Is u). split; [left; reflexivity|]. destruct (next_cases toks fuel enough i L) as [(_ & _ & L')|(_ & -> & _)]; [lia|].
        cbn [gamT fst snd]. rewrite (empty_b _ E). auto.
      + destruct (isLoud (b u)) eqn:B; [exists Lost; split; [left; reflexivity|exact I]|].
        apply clean_next. eapply is_clean; [exact H| |exact B]. intros ->. discriminate.
    - exists Stuck. split; [left; reflexivity|]. cbn [gamT fst snd] in *. destruct (next_cases toks fuel enough i ltac:(lia)) as [(_ & _ & L')|(_ & -> & _)]; lia.
    - exists Lost. split; [left; reflexivity|exact I].
  Qed.

  Lemma word_ok : forall p t i, gamT p t i -> isLoud (current i) = false -> current i <> [] ->
      exists t', In t' (wordNs t) /\ gamT p t' i.
  Proof.
    intros p t i H B NE.
    assert (P : gamT p Pending i -> gamT p Clean i).
    { intros (P & L & K). cbn [gamT fst snd]. split; [lia|]. split; [exact L|]. apply C_snoc; [lia|assumption|assumption]. }
    destruct t as [| | |u| |]; cbn [wordNs].
    - exists Clean. split; [left; reflexivity|exact H].
    - exists Clean. split; [left; reflexivity|apply P, H].
    - exists Clean. split; [left; reflexivity|apply P]. cbn [gamT fst snd] in *. tauto.
    - destruct H as (Q & L & K & C). destruct (isEmpty u) eqn:E.
      + rewrite (empty_b _ E) in C. contradiction.
      + exists Clean. split; [left; reflexivity|]. apply P. cbn [gamT fst snd]. split; [exact Q|]. split; [|exact K]. apply nonempty_not_last; assumption.
    - cbn [gamT] in H. exfalso. apply NE, (at_last toks fuel last_empty enough), H.
    - exists Lost. split; [left; reflexivity|exact I].
  Qed.

  Lemma not_last : forall i t, S i < len -> current i = b t -> isEmpty t = false.
  Proof.
    intros i t L E. destruct (isEmpty t) eqn:Z; [|reflexivity]. rewrite (empty_b _ Z) in E.
    assert (i < len) by lia. pose proof (empty_last i ltac:(assumption) E). lia.
  Qed.
  Lemma isNs_ok : forall p t i u, gamT p t i -> current i = b u -> exists t', In t' (isNs u t) /\ gamT p t' i.
  Proof.
    intros p t i u H E. destruct t as [| | |v| |]; cbn [isNs].
    - destruct H as (P & L & H). rewrite (not_last i u L E). exists Clean. split; [left; reflexivity|]. cbn [gamT fst snd]. auto.
    - destruct H as (P & L & H). rewrite (not_last i u L E). exists (Is u). split; [left; reflexivity|]. cbn [gamT fst snd]. split; [lia|]. split; [lia|]. auto.
    - destruct H as (P & L & H & K). rewrite E in K. rewrite K. exists (Is u). split; [left; reflexivity|]. cbn [gamT fst snd]. split; [lia|]. split; [lia|]. auto.
    - destruct H as (P & L & H & K). rewrite E in K. apply b_inj in K. subst v. rewrite String.eqb_refl.
      exists (Is u). split; [left; reflexivity|]. cbn [gamT fst snd]. auto.
    - cbn [gamT] in H. rewrite (at_last toks fuel last_empty enough _ H) in E. destruct u; [|discriminate]. exists Stuck. split; [left; reflexivity|exact H].
    - exists Lost. split; [left; reflexivity|exact I].
  Qed.

  Lemma refT_ok : forall c p a s, gam p a s -> test c s = true -> exists a', In a' (refT c a) /\ gam p a' s.
  Proof.
    induction c as [u| |f|f n|f g| |c IHc d IHd]; intros p [t e] s [G E] T; cbn [A2lIR.test refT fst snd] in *;
      try (exists (t, e); split; [left; reflexivity|split; assumption]).
    - apply beqb_eq in T. destruct (isNs_ok _ _ _ _ G T) as (t' & I & G'). exists (t', e). split; [apply in_with, I|split; assumption].
    - destruct t as [| | |u| |]; try (eexists; split; [left; reflexivity|split; assumption]).
      + eexists. split; [left; reflexivity|]. split; [|exact E]. cbn [gamT fst snd] in *. tauto.
      + destruct G as (P & L & H & K). rewrite K in T. rewrite T. eexists. split; [left; reflexivity|]. split; [|exact E]. cbn [gamT fst snd]. auto.
      + cbn [gamT fst snd] in G. rewrite (at_last toks fuel last_empty enough _ G) in T. discriminate.
    - rewrite T in E. subst e. eexists. split; [left; reflexivity|]. split; [exact G|exact T].
    - apply orb_true_iff in T. destruct T as [T|T].
      + destruct (IHc p (t, e) s (conj G E) T) as (a' & I & G'). exists a'. split; [apply in_union; left; exact I|exact G'].
      + destruct (IHd p (t, e) s (conj G E) T) as (a' & I & G'). exists a'. split; [apply in_union; right; exact I|exact G'].
  Qed.

  Lemma refF_ok : forall c p a s, gam p a s -> test c s = false -> exists a', In a' (refF c a) /\ gam p a' s.
  Proof.
    induction c as [u| |f|f n|f g| |c IHc d IHd]; intros p [t e] s [G E] T; cbn [A2lIR.test refF fst snd] in *;
      try (exists (t, e); split; [left; reflexivity|split; assumption]).
    - destruct t as [| | |v| |]; try (eexists; split; [left; reflexivity|split; assumption]).
      + destruct G as (P & L & H & K). destruct (String.eqb u v) eqn:Z.
        * apply String.eqb_eq in Z. subst v. rewrite K, beqb_refl in T. discriminate.
        * eexists. split; [left; reflexivity|]. split; [|exact E]. cbn [gamT fst snd]. auto.
      + cbn [gamT fst snd] in G. destruct (isEmpty u) eqn:Z.
        * rewrite (at_last toks fuel last_empty enough _ G), (empty_b _ Z) in T. discriminate.
        * eexists. split; [left; reflexivity|]. split; [exact G|exact E].
    - destruct t as [| | |u| |]; try (eexists; split; [left; reflexivity|split; assumption]).
      + eexists. split; [left; reflexivity|]. split; [|exact E]. cbn [gamT fst snd] in *. destruct G as (P & L & H). split; [lia|]. split; [exact L|].
        apply C_snoc; [lia|exact H|]. apply begin_kw, T.
      + destruct G as (P & L & H & K). congruence.
      + destruct G as (P & L & H & K). rewrite K in T. rewrite T. eexists. split; [left; reflexivity|]. split; [|exact E]. cbn [gamT fst snd]. auto.
    - rewrite T in E. subst e. eexists. split; [left; reflexivity|]. split; [exact G|exact T].
    - apply orb_false_iff in T. destruct T as [T1 T2].
      destruct (IHc p (t, e) s (conj G E) T1) as (a' & I & G'). destruct (IHd _ _ _ G' T2) as (a2 & I2 & G2).
      exists a2. split; [apply in_flat_map; exists a'; auto|exact G2].
  Qed.

  Lemma src_ok : forall p a s r, gam p a s ->
      exists t', In t' (srcQ r (fst a)) /\ gamT p t' (s_idx (snd (readSrc toks r s))) /\
                 (t' = Lost \/ fst (readSrc toks r s) = current (s_idx (snd (readSrc toks r s)))).
  Proof.
    intros p [t e] s [|] [G E]; cbn [srcQ readSrc fst snd setIdx s_idx] in *.
    - destruct (next_ok _ _ _ G) as (t' & I & G'). exists t'. split; [exact I|]. split; [exact G'|].
      destruct t'; auto; right; apply next_current; destruct (Nat.lt_ge_cases (s_idx s) len) as [L|L]; auto; exfalso;
        unfold A2lIR.next, A2lIR.moves in G'; replace (S (s_idx s) <? len) with false in G' by (symmetry; apply Nat.ltb_ge; lia); cbn in G'; lia.
    - exists t. split; [left; reflexivity|]. auto.
  Qed.

  Definition okQ (g : fn) : Prop := forall i v j, S i < len -> call g i = Ret v false j ->
    match kndFn g with
    | Whole last => (i <= j /\ S j < len /\ C (S i) (S j)) \/ (last = true /\ S j = len)
    | Word => j = i /\ isLoud (current i) = false /\ current i <> []
    | Open => True
    end.

  Lemma call_ok : forall p t i g v j, okQ g -> gamT p t i -> call g i = Ret v false j ->
      exists t', In t' (callQ (kndFn g) g (fun _ => okfn g) t) /\ gamT p t' j.
  Proof.
    intros p t i g v j HG G E.
    assert (LOST : forall l, In Lost l -> exists t', In t' l /\ gamT p t' j) by (intros l I; exists Lost; split; [exact I|exact Logic.I]).
    destruct t as [| | |u| |].
    - destruct G as (P & L & H). specialize (HG i v j L E). cbn [callQ]. destruct (kndFn g) as [last| |].
      + destruct HG as [(A & B & D)|(-> & A)]; [|exists Stuck; split; [right; left; reflexivity|exact A]].
        exists Clean. split; [left; reflexivity|]. cbn [gamT fst snd]. split; [lia|]. split; [exact B|].
        apply (C_app p (S i) (S j)); [lia|exact H|exact D].
      + destruct HG as (-> & B & D). apply word_ok; try assumption. cbn [gamT fst snd]. auto.
      + apply LOST. left. reflexivity.
    - destruct G as (P & L & H). specialize (HG i v j L E). cbn [callQ]. destruct (kndFn g) as [last| |]; try (apply LOST; left; reflexivity).
      destruct HG as (-> & B & D). apply word_ok; try assumption. cbn [gamT fst snd]. auto.
    - destruct G as (P & L & H & K). specialize (HG i v j L E). cbn [callQ]. destruct (kndFn g) as [last| |]; try (apply LOST; left; reflexivity).
      destruct HG as (-> & B & D). apply word_ok; try assumption. cbn [gamT fst snd]. auto.
    - pose proof G as (P & L & H & K).
      destruct (isEmpty u) eqn:Z.
      + (* at the last token *)
        cbn [callQ]. destruct (kndFn g) as [last| |] eqn:KK.
        * rewrite Z. apply LOST. left. reflexivity.
        * (* the token is not in the table *)
          exfalso. destruct g as [adv table|k|pre body].
          -- cbn [kndFn] in KK. destruct (words table) eqn:W; [|discriminate]. destruct adv; [discriminate|]. cbn [A2lIR.call] in E.
             destruct (findText (current i) table) as [w|] eqn:F; [|discriminate].
             destruct (table_begin _ _ _ W F) as [_ NE]. apply NE. rewrite K. apply empty_b, Z.
          -- rewrite knd_straight in KK. apply kndOf_word in KK. exact KK.
          -- rewrite knd_loop in KK. destruct (rounds 6 _ _); [|discriminate]. apply kndOf_word in KK. exact KK.
        * destruct (listed u g) eqn:X; [|apply LOST; left; reflexivity]. exfalso.
          apply listed_ok in X. destruct X as (x & -> & _). discriminate.
      + assert (NE : current i <> []) by (rewrite K; apply b_empty, Z).
        assert (L' : S i < len) by (apply nonempty_not_last; assumption).
        assert (OBJ : own u g = true -> exists a, In (u, (g, a)) kinds) by apply own_ok.
        assert (RT : returns toks ParseFloat g i v false j) by (eapply A2lModProps.returns_run; exact E).
        specialize (HG i v j L' E). cbn [callQ]. destruct (kndFn g) as [last| |].
        * rewrite Z. destruct HG as [(A1 & A2 & A3)|(-> & A)]; [|exists Stuck; split; [right; left; reflexivity|exact A]].
          assert (R : C i (S j) -> gamT p Clean j).
          { intros CI. cbn [gamT]. split; [lia|]. split; [exact A2|]. apply (C_app p i (S j)); [lia|exact H|exact CI]. }
          destruct (isLoud (b u)) eqn:B.
          -- destruct (own u g); [|apply LOST; left; reflexivity]. destruct (OBJ eq_refl) as [a I].
             exists Clean. split; [left; reflexivity|]. apply R. eapply behind_obj; [exact I|exact K|exact RT|exact A1|exact A3].
          -- exists Clean. split; [left; reflexivity|]. apply R. apply (C_app i (S i) (S j)); [lia| |exact A3]. apply C_word. rewrite K. exact B.
        * destruct HG as (-> & B & D). apply word_ok; assumption.
        * destruct (listed u g) eqn:X; [|apply LOST; left; reflexivity].
          apply listed_ok in X. destruct X as (x & X1 & X2 & X3).
          destruct (endsAt_sound isKeyword toks ParseFloat fuel kw_empty last_empty enough g _ X3 i L) as (v' & e' & j' & E' & Q).
          rewrite E in E'. injection E' as <- <- <-. destruct (Q eq_refl) as [Q1 Q2].
          assert (LJ : S j < len) by (apply nonempty_not_last; [lia|]; rewrite Q2; discriminate).
          assert (R : C i (S j) -> gamT p Clean j).
          { intros CI. cbn [gamT]. split; [lia|]. split; [exact LJ|]. apply (C_app p i (S j)); [lia|exact H|exact CI]. }
          assert (KX : current i = beginOf x) by (rewrite K, X1; reflexivity).
          destruct (isLoud (b u)) eqn:B.
          -- destruct (own u g); [|apply LOST; left; reflexivity]. destruct (OBJ eq_refl) as [a I].
             exists Clean. split; [left; reflexivity|]. apply R. eapply behind_unread; [exact X2|exact KX|exact RT|lia|]. intros _. exists u, a. auto.
          -- exists Clean. split; [left; reflexivity|]. apply R. eapply behind_unread; [exact X2|exact KX|exact RT|lia|]. rewrite K, B. discriminate.
    - cbn [gamT fst snd] in G. cbn [callQ]. destruct (okfn g) eqn:OK; [|destruct (kndFn g); apply LOST; left; reflexivity].
      destruct (okfn_sound isKeyword toks ParseFloat fuel kw_empty last_empty enough g OK i ltac:(lia)) as (v' & e' & j' & E' & Q).
      rewrite E in E'. injection E' as <- <- <-. exists Stuck. split; [destruct (kndFn g); left; reflexivity|]. cbn [gamT fst snd]. lia.
    - cbn [callQ]. apply LOST. destruct (kndFn g); left; reflexivity.
  Qed.

  Definition okS (x : stmt) : Prop := forall p a s, gam p a s -> covers (exec x s) p (qst x a).
  Definition okB (k : block) : Prop := forall p a s, gam p a s -> covers (run k s) p (qbl k a).
  Definition okC (cs : cases) : Prop := forall p l a s t, In a l -> gam p a s -> (fst a = Lost \/ t = current (s_idx s)) ->
    match pick cs t s with Some q => covers q p (qca cs l) | None => True end.

  Lemma go_same : forall p a s s', gam p a s -> s_idx s' = s_idx s -> s_err s' = s_err s -> covers (Go s') p ([a], []).
  Proof. intros p a s s' [G E] I J. exists a. split; [left; reflexivity|]. unfold gam. rewrite I, J. auto. Qed.

  Lemma rounds_ok : forall (f : ns -> nout) (R : st -> res) p,
      (forall a s, gam p a s -> covers (R s) p (f a)) ->
      forall n l os, rounds n f l = Some os -> forall k a s s', In a l -> gam p a s -> iter k R s = Go s' ->
      exists o, In o os /\ gam p o s'.
  Proof.
    intros f R p H. induction n as [|n IH]; intros l os E; [discriminate|]. cbn [rounds] in E.
    destruct (nall f l) as [gs os'] eqn:A. destruct (forallb (fun g => has g l) gs) eqn:C.
    - injection E as <-. rewrite forallb_forall in C. induction k as [|k IHk]; intros a s s' I G T; [discriminate|]. cbn [iter] in T.
      pose proof (nall_ok f R p l H a s I G) as K. rewrite A in K. destruct (R s) as [s1|s1| |]; try discriminate; cbn [covers fst snd] in K.
      + destruct K as (g & IG & GG). eapply IHk; [apply has_in, C, IG|exact GG|exact T].
      + injection T as <-. exact K.
    - intros k a s s' I G T. eapply IH; [exact E|apply in_union; right; exact I|exact G|exact T].
  Qed.

  Lemma kndOf_fn : forall os i a s v, In a os -> gam (S i) a s -> Ret v (s_err s) (s_idx s) = Ret v false (s_idx s) -> 
      match kndOf os with
      | Whole last => (i <= s_idx s /\ S (s_idx s) < len /\ C (S i) (S (s_idx s))) \/ (last = true /\ S (s_idx s) = len)
      | Word => s_idx s = i /\ isLoud (current i) = false /\ current i <> []
      | Open => True
      end.
  Proof.
    intros os i [t e] s v I [G E] F. injection F as F. cbn [fst snd] in *. rewrite F in E. subst e. unfold kndOf.
    set (l := map fst (filter (fun a => negb (snd a)) os)).
    assert (IT : In t l).
    { apply (in_map fst (filter (fun a : ns => negb (snd a)) os) (t, false)). apply filter_In. split; [exact I|reflexivity]. }
    destruct (forallb wholeQ l) eqn:W; [|exact Logic.I]. pose proof (proj1 (forallb_forall _ _) W t IT) as WT.
    assert (LA : atLast t = true -> existsb atLast l = true) by (intros A; apply existsb_exists; exists t; auto).
    destruct t as [| | |u| |]; try discriminate; cbn [wholeQ gamT] in *.
    - destruct G as (A & B & D). left. split; [lia|]. auto.
    - destruct G as (A & B & D & K). destruct (isEmpty u) eqn:Z.
      + right. split; [apply LA; exact Z|]. apply empty_last; [exact B|]. rewrite K. apply empty_b, Z.
      + left. split; [lia|]. split; [apply nonempty_not_last; [exact B|]; rewrite K; apply b_empty, Z|].
        apply C_snoc; [lia|exact D|]. rewrite K. apply negb_true_iff, WT.
    - right. split; [apply LA; reflexivity|exact G].
  Qed.

  Lemma sound : (forall x, okS x) /\ (forall k, okB k) /\ (forall cs, okC cs) /\ (forall g, okQ g).
  Proof.
    apply ir_ind.
    - (* Next *) intros p [t e] s [G E]. cbn [A2lIR.exec qst fst snd]. destruct (next_ok _ _ _ G) as (t' & I & G').
      exists (t', e). split; [apply in_with, I|]. split; [exact G'|exact E].
    - (* Prev *) intros p [t e] s [G E]. cbn [A2lIR.exec qst fst snd]. destruct (s_idx s) as [|i] eqn:IX; [exact I|]. cbn [setIdx s_idx].
      destruct t as [| | |u| |]; try (exists (Lost, e); split; [left; reflexivity|split; [exact I|exact E]]).
      + exists (Clean, e). split; [left; reflexivity|]. split; [|exact E]. cbn [gamT fst snd] in *. cbn [setIdx s_idx]. destruct G as (P & L & H & K). split; [lia|]. split; [lia|exact H].
      + destruct (isEmpty u); [exists (Lost, e); split; [left; reflexivity|split; [exact I|exact E]]|].
        exists (Clean, e). split; [left; reflexivity|]. split; [|exact E]. cbn [gamT fst snd] in *. cbn [setIdx s_idx]. destruct G as (P & L & H & K). split; [lia|]. split; [lia|exact H].
    - (* Set_ *) intros f x p a s G. cbn [A2lIR.exec qst]. eapply go_same; [exact G|reflexivity|reflexivity].
    - (* App *) intros f x p a s G. cbn [A2lIR.exec qst]. eapply go_same; [exact G|reflexivity|reflexivity].
    - (* Fill *) intros f n x p a s G. cbn [A2lIR.exec qst]. eapply go_same; [exact G|reflexivity|reflexivity].
    - (* Put *) intros f v k p a s G. cbn [A2lIR.exec qst]. destruct (fget f (s_obj s)) as [[]|]; try exact I.
      eapply go_same; [exact G|reflexivity|reflexivity].
    - (* Num *) intros v n r p a s G. cbn [A2lIR.exec qst]. destruct (src_ok p a s r G) as (t' & I & G' & C).
      destruct (readSrc toks r s) as [w s'] eqn:R. cbn [fst snd] in *. destruct (readNum ParseFloat n w) as [x|] eqn:Q.
      + destruct (number_begin _ _ _ _ floats Q) as [B NE].
        assert (X : exists t2, In t2 (wordNs t') /\ gamT p t2 (s_idx s')).
        { destruct C as [->|C]; [exists Lost; split; [left; reflexivity|exact Logic.I]|]. subst w. apply word_ok; assumption. }
        destruct X as (t2 & I2 & G2). exists (t2, false). split; [|split; [exact G2|reflexivity]].
        cbn [fst]. apply in_or_app. left. apply in_with. apply in_flat_map. exists t'. auto.
      + exists (t', true). split; [|split; [exact G'|reflexivity]]. cbn [fst]. apply in_or_app. right. apply in_with, I.
    - (* CallF *) intros f g IH p [t e] s [G E]. rewrite exec_callF, qst_callF. cbn [fst snd]. destruct (call g (s_idx s)) as [v [|] j| |] eqn:C; try exact I.
      + exists (Lost, true). split; [cbn [fst]; apply in_or_app; right; left; reflexivity|split; [exact I|reflexivity]].
      + destruct (call_ok p t _ g v j IH G C) as (t' & J & G'). exists (t', false).
        split; [cbn [fst]; apply in_or_app; left; apply in_with, J|split; [exact G'|reflexivity]].
    - (* CallV *) intros f g IH p [t e] s [G E]. rewrite exec_callV, qst_callV. cbn [fst snd]. destruct (call g (s_idx s)) as [v [|] j| |] eqn:C; try exact I.
      + exists (Lost, true). split; [cbn [fst]; apply in_or_app; right; left; reflexivity|split; [exact I|reflexivity]].
      + destruct (call_ok p t _ g v j IH G C) as (t' & J & G'). exists (t', false).
        split; [cbn [fst]; apply in_or_app; left; apply in_with, J|split; [exact G'|reflexivity]].
    - (* Raise *) intros p [t e] s [G E]. cbn [A2lIR.exec qst fst snd]. exists (t, true). split; [left; reflexivity|]. split; [exact G|reflexivity].
    - (* Break *) intros p a s G. cbn [A2lIR.exec qst]. exists a. split; [left; reflexivity|exact G].
    - (* If *) intros c k IHk k' IHk' p a s G. rewrite exec_if, qst_if. destruct (test c s) eqn:T.
      + destruct (refT_ok _ _ _ _ G T) as (a' & I & G'). apply covers_l. eapply nall_ok; [|exact I|exact G']. intros; apply IHk; assumption.
      + destruct (refF_ok _ _ _ _ G T) as (a' & I & G'). apply covers_r. eapply nall_ok; [|exact I|exact G']. intros; apply IHk'; assumption.
    - (* Switch *) intros r cs IHc d IHd p a s G. rewrite exec_switch, qst_switch. destruct (src_ok p a s r G) as (t' & I & G' & C).
      assert (ER : s_err (snd (readSrc toks r s)) = snd a) by (destruct G as [_ E]; destruct r; exact E).
      destruct (readSrc toks r s) as [w s']. cbn [fst snd] in *.
      assert (J : In (t', snd a) (with_ (snd a) (srcQ r (fst a)))) by (apply in_with, I).
      pose proof (IHc p _ _ s' w J (conj G' ER) C) as K.
      destruct (pick cs w s') as [q|]; [apply covers_l; exact K|]. apply covers_r.
      eapply nall_ok; [|exact J|exact (conj G' ER)]. intros; apply IHd; assumption.
    - (* Skip *) intros p a s G. exists a. split; [left; reflexivity|exact G].
    - (* Seq *) intros x IHx k IHk p a s G. rewrite run_seq, qbl_seq. unfold nthen. specialize (IHx p a s G).
      destruct (exec x s) as [s'|s'| |]; cbn [covers] in IHx; try exact I.
      + destruct IHx as (a' & J & G'). apply covers_r. eapply nall_ok; [|exact J|exact G']. intros; apply IHk; assumption.
      + apply covers_l. exact IHx.
    - (* Default *) intros p l a s t I G C. exact Logic.I.
    - (* Case *) intros u k IHk cs IHc p l a s t I G C. rewrite pick_case, qca_case. destruct (beqb t (b u)) eqn:T.
      + apply beqb_eq in T. apply covers_l.
        assert (X : exists t', In t' (isNs u (fst a)) /\ gamT p t' (s_idx s)).
        { destruct a as [ta ea]. cbn [fst] in *. destruct C as [->|C]; [exists Lost; split; [left; reflexivity|exact Logic.I]|].
          apply isNs_ok; [exact (proj1 G)|congruence]. }
        destruct X as (t' & J & G'). eapply (nall_ok (qbl k) (run k) p _ (fun a0 s0 => IHk p a0 s0) (t', snd a)).
        * apply in_flat_map. exists a. split; [exact I|]. apply in_with, J.
        * split; [exact G'|exact (proj2 G)].
      + specialize (IHc p l a s t I G C). destruct (pick cs t s); [apply covers_r; exact IHc|exact Logic.I].
    - (* Enum *) intros adv table i v j L E. cbn [A2lIR.call] in E. change (kndFn (Enum adv table)) with (if words table then if adv then Whole false else Word else Open). destruct (words table) eqn:W; [|exact I].
      assert (NX : next i = S i) by (unfold A2lIR.next; rewrite (proj2 (moves_lt toks i) L); reflexivity).
      destruct adv.
      + destruct (findText (nextTok i) table) eqn:F; [|discriminate]. injection E as <- <-.
        rewrite next_current in F by lia. destruct (table_begin _ _ _ W F) as [B NE]. rewrite NX in *.
        left. split; [lia|]. split; [apply nonempty_not_last; assumption|]. apply C_word; assumption.
      + destruct (findText (current i) table) eqn:F; [|discriminate]. injection E as <- <-.
        destruct (table_begin _ _ _ W F) as [B NE]. auto.
    - (* Straight *) intros k IHk i v j L E. rewrite call_straight in E. rewrite knd_straight.
      assert (G : gam (S i) (Clean, false) (St [] [] false i)) by (split; [cbn [gamT fst s_idx]; split; [auto|]; split; [auto|]; apply C_nil|reflexivity]).
      specialize (IHk _ _ _ G). destruct (qbl k (Clean, false)) as [gs os].
      destruct (run k _) as [s'|s'| |]; try discriminate; injection E as <- E <-; destruct IHk as (a & I & G'); cbn [fst snd] in I;
        eapply (kndOf_fn _ i a s' (VBool true)).
      all: try exact G'; try (rewrite E; reflexivity); apply in_union; auto.
    - (* Loop *) intros pre IHp body IHb i v j L E. rewrite call_loop in E. rewrite knd_loop.
      assert (G : gam (S i) (Clean, false) (St [] [] false i)) by (split; [cbn [gamT fst s_idx]; split; [auto|]; split; [auto|]; apply C_nil|reflexivity]).
      specialize (IHp _ _ _ G). destruct (qbl pre (Clean, false)) as [gs os]. cbn [fst snd].
      destruct (rounds 6 (qbl body) gs) as [os'|] eqn:RR; [|exact I].
      destruct (run pre _) as [s1|s1| |]; try discriminate; destruct IHp as (a & IA & G'); cbn [fst snd] in IA.
      + destruct (iter fuel (run body) s1) as [s2|s2| |] eqn:IT; try discriminate; injection E as <- E <-.
        * destruct (rounds_ok (qbl body) (run body) (S i) (fun a s => IHb (S i) a s) 6 gs os' RR fuel a s1 s2 IA G' IT) as (o & IO & GO).
          eapply (kndOf_fn _ i o s2 (VBool true)); [apply in_union; right; exact IO|exact GO|rewrite E; reflexivity].
        * apply iter_not_out in IT. contradiction.
      + injection E as <- E <-. eapply (kndOf_fn _ i a s1 (VBool true)); [apply in_union; left; exact IA|exact G'|rewrite E; reflexivity].
  Qed.

  Theorem knd_sound : forall g, okQ g.
  Proof. exact (proj2 (proj2 (proj2 sound))). Qed.
End Sound.
