(** The analysis of A2lNest.v is sound. *)
From Coq Require Import String Ascii List Arith NArith ZArith Bool Lia SpecFloat.
From Verif Require Import GoBase GoBaseFacts A2lIR A2lTokens A2lSpec A2lCheck A2lNestSpec A2lNest.
Import ListNotations.

(** ** Nested token lists *)

Lemma nested_app : forall op l m, nested op l -> nested op m -> nested op (l ++ m).
Proof.
  intros op l m H M. induction H as [|t l B _ IH|x l l' B1 B2 H IH1 H' IH2|x l l' I H' IH]; cbn [app].
  - exact M.
  - apply NWord; assumption.
  - rewrite <- app_assoc. cbn [app]. apply NObj; assumption.
  - rewrite <- app_assoc. cbn [app]. apply NOpaque; assumption.
Qed.

Lemma nested_word : forall op l t, nested op l -> bracket t = false -> nested op (l ++ [t]).
Proof. intros op l t H B. apply nested_app; [exact H|]. apply NWord; [exact B|constructor]. Qed.

Lemma skipn_more : forall A (l : list A) m n, skipn m (skipn n l) = skipn (n + m) l.
Proof. induction l as [|x l IH]; intros m n; [rewrite !skipn_nil; reflexivity|]. destruct n; [reflexivity|]. cbn. apply IH. Qed.

Section Sections.
  Variable toks : list bytes.
  Notation sec := (section toks).

  Lemma sec_nil : forall p, sec p p = [].
  Proof. intros p. unfold section. rewrite Nat.sub_diag. reflexivity. Qed.

  Lemma firstn_plus : forall A (l : list A) m n, firstn (m + n) l = firstn m l ++ firstn n (skipn m l).
  Proof. induction l as [|x l IH]; intros m n; [rewrite skipn_nil, !firstn_nil; reflexivity|]. destruct m; [reflexivity|]. cbn. rewrite IH. reflexivity. Qed.

  Lemma sec_app : forall p q r, p <= q <= r -> sec p r = sec p q ++ sec q r.
  Proof.
    intros p q r L. unfold section. replace (r - p) with ((q - p) + (r - q)) by lia.
    rewrite firstn_plus, skipn_more. replace (p + (q - p)) with q by lia. reflexivity.
  Qed.

  Lemma sec_one : forall p, p < length toks -> sec p (S p) = [current toks p].
  Proof.
    intros p L. unfold section. replace (S p - p) with 1 by lia. unfold current.
    assert (E : forall (l : list bytes) p, p < length l -> firstn 1 (skipn p l) = [nth p l []]).
    { induction l as [|x l IH]; intros q Q; cbn in Q; [lia|]. destruct q; [reflexivity|]. cbn [skipn nth]. apply IH. lia. }
    apply E, L.
  Qed.

  Lemma sec_snoc : forall p q, p <= q < length toks -> sec p (S q) = sec p q ++ [current toks q].
  Proof. intros p q L. rewrite (sec_app p q (S q)) by lia. rewrite sec_one by lia. reflexivity. Qed.
End Sections.

(** ** Sets of states *)

Lemma teqb_eq : forall x y, teqb x y = true -> x = y.
Proof. intros [| | |t| |] [| | |u| |] H; cbn in H; try discriminate; try reflexivity. apply String.eqb_eq in H. congruence. Qed.
Lemma has_in : forall x l, has x l = true -> In x l.
Proof.
  intros x l H. apply existsb_exists in H. destruct H as (y & I & E). unfold nseqb in E. apply andb_true_iff in E. destruct E as [E1 E2].
  apply teqb_eq in E1. apply eqb_prop in E2. destruct x, y. cbn in *. subst. exact I.
Qed.
Lemma in_add : forall x y l, In x (y :: l) -> In x (add y l).
Proof. intros x y l H. unfold add. destruct (has y l) eqn:E; [|exact H]. destruct H as [<-|H]; [apply has_in, E|exact H]. Qed.
Lemma in_union : forall x l m, In x l \/ In x m -> In x (union l m).
Proof.
  intros x l m. induction l as [|y l IH]; intros [H|H]; cbn [union fold_right] in *; try contradiction; try exact H; apply in_add.
  - destruct H as [<-|H]; [left; reflexivity|right; apply IH; left; exact H].
  - right. apply IH. right. exact H.
Qed.
Lemma in_with : forall t e l, In t l -> In (t, e) (with_ e l).
Proof. intros t e l H. unfold with_. apply (in_map (fun t => (t, e))) in H. exact H. Qed.

(** ** Words *)

Lemma number_word : forall pf n t v, rejects pf -> readNum pf n t = Some v -> bracket t = false /\ t <> [].
Proof.
  intros pf n t v R H.
  assert (U : forall k t z, ParseUint k t = Some z -> bracket t = false /\ t <> []).
  { intros k u z E. split; [|intros ->; discriminate]. unfold bracket. destruct u as [|c u]; [reflexivity|].
    destruct (isKeyword (c :: u)); [|reflexivity]. cbn [andb].
    destruct (Ascii.eqb "/" c) eqn:C.
    - apply Ascii.eqb_eq in C. subst c. discriminate.
    - cbn [startsWith b list_ascii_of_string]. rewrite C. reflexivity. }
  destruct n as [k|k|]; cbn [readNum] in H.
  - destruct (ParseUint k t) eqn:E; [|discriminate]. eapply U, E.
  - destruct (ParseInt k t) as [z|] eqn:E; [|discriminate]. unfold ParseInt in E.
    destruct t as [|c t]; [discriminate|]. split; [|discriminate]. unfold bracket.
    destruct (isKeyword (c :: t)); [|reflexivity]. cbn [andb].
    destruct (Ascii.eqb "/" c) eqn:C.
    + apply Ascii.eqb_eq in C. subst c. discriminate.
    + cbn [startsWith b list_ascii_of_string]. rewrite C. reflexivity.
  - destruct (pf t) eqn:E; [|discriminate]. split.
    + unfold bracket. destruct (isKeyword t) eqn:K; [|reflexivity]. rewrite (R t) in E by auto. discriminate.
    + intros ->. rewrite (R []) in E by auto. discriminate.
Qed.

Lemma table_word : forall table t v, words table = true -> findText t table = Some v -> bracket t = false /\ t <> [].
Proof.
  induction table as [|[c w] table IH]; intros t v W H; cbn [findText] in H; [discriminate|].
  cbn [words forallb fst] in W. apply andb_true_iff in W. destruct W as [W1 W2]. apply andb_true_iff in W1. destruct W1 as [W0 W1].
  destruct (beqb t (b c)) eqn:E; [|eapply IH; eassumption]. apply beqb_eq in E. subst t.
  apply negb_true_iff in W0, W1. split; [exact W1|]. apply b_empty, W0.
Qed.

Lemma bracket_kw : forall t, isKeyword t = false -> bracket t = false.
Proof. intros t H. unfold bracket. rewrite H. reflexivity. Qed.

Lemma pair_ok : forall t c, pair_ t c = true -> exists x, b t = beginOf x /\ b c = endOf x /\ bracket (b t) = true /\ bracket (b c) = true.
Proof.
  intros t c H. unfold pair_ in H. rewrite !andb_true_iff in H. destruct H as [[[H1 H2] H3] H4]. apply String.eqb_eq in H1, H2.
  exists (substring 7 (String.length t) t). unfold beginOf, endOf. rewrite <- H1, <- H2. auto.
Qed.

Lemma kindOf_taken : forall os, kindOf os <> Taken.
Proof.
  intros os. unfold kindOf. set (l := map fst (filter (fun a => negb (snd a)) os)).
  destruct (forallb (teqb Clean) l); [discriminate|].
  destruct (filter (fun t => negb (atLast t)) l) as [|[| | |w| |] l']; try discriminate. destruct (forallb (teqb (Is w)) l'); discriminate.
Qed.

(** equations of the analysis *)
Lemma kind_straight : forall op k, kindFn op (Straight k) = kindOf (union (fst (nbl op k (Clean, false))) (snd (nbl op k (Clean, false)))).
Proof. intros op k. change (kindFn op (Straight k)) with (let '(gs, os) := nbl op k (Clean, false) in kindOf (union gs os)). destruct (nbl op k (Clean, false)). reflexivity. Qed.
Lemma kind_loop : forall op pre body, kindFn op (Loop pre body) =
    match rounds 6 (nbl op body) (fst (nbl op pre (Clean, false))) with
    | Some os' => kindOf (union (snd (nbl op pre (Clean, false))) os') | None => Unknown end.
Proof.
  intros op pre body. change (kindFn op (Loop pre body)) with
    (let '(gs, os) := nbl op pre (Clean, false) in match rounds 6 (nbl op body) gs with Some os' => kindOf (union os os') | None => Unknown end).
  destruct (nbl op pre (Clean, false)). reflexivity.
Qed.
Lemma nst_callF : forall op f g a, nst op (CallF f g) a =
    (with_ false (afterCall op (kindFn op g) (endsAt g) (fun _ => okfn g) (fst a)) ++ [(Lost, true)], []).
Proof. reflexivity. Qed.
Lemma nst_callV : forall op f g a, nst op (CallV f g) a =
    (with_ false (afterCall op (kindFn op g) (endsAt g) (fun _ => okfn g) (fst a)) ++ [(Lost, true)], []).
Proof. reflexivity. Qed.
Lemma nst_if : forall op c k k' a, nst op (If c k k') a = nor (nall (nbl op k) (refT c a)) (nall (nbl op k') (refF c a)).
Proof. reflexivity. Qed.
Lemma nst_switch : forall op r cs d a, nst op (Switch r cs d) a =
    nor (nca op cs (with_ (snd a) (nsrc r (fst a)))) (nall (nbl op d) (with_ (snd a) (nsrc r (fst a)))).
Proof. reflexivity. Qed.
Lemma nbl_seq : forall op x k a, nbl op (Seq x k) a = nthen (nst op x a) (nbl op k).
Proof. reflexivity. Qed.
Lemma nca_case : forall op t k cs l, nca op (Case t k cs) l =
    nor (nall (nbl op k) (flat_map (fun a => with_ (snd a) (isNs t (fst a))) l)) (nca op cs l).
Proof. reflexivity. Qed.

Lemma iter_not_out : forall R n s s', iter n R s <> Out s'.
Proof.
  intros R. induction n as [|n IH]; intros s s'; [discriminate|]. cbn [iter]. destruct (R s); try discriminate. apply IH.
Qed.

(** ** Soundness *)

Section Sound.
  Variable toks : list bytes.
  Variable ParseFloat : bytes -> option spec_float.
  Variable fuel : nat.
  Variable op : list string.
  Hypothesis shut : closed toks.
  Hypothesis floats : rejects ParseFloat.
  Hypothesis enough : List.length toks < fuel.

  Notation current := (current toks).
  Notation next := (next toks).
  Notation nextTok := (nextTok toks).
  Notation moves := (moves toks).
  Notation exec := (exec isKeyword toks ParseFloat fuel).
  Notation run := (run isKeyword toks ParseFloat fuel).
  Notation pick := (pick isKeyword toks ParseFloat fuel).
  Notation call := (call isKeyword toks ParseFloat fuel).
  Notation test := (test isKeyword toks).
  Notation len := (List.length toks).
  Notation sec := (section toks).
  Notation N := (nested op).

  Lemma kw_empty : isKeyword [] = false. Proof. reflexivity. Qed.
  Lemma last_empty : exists l, toks = l ++ [[]].
  Proof. destruct shut as (l & E & _). exists l. exact E. Qed.
  Lemma empty_last : forall i, i < len -> current i = [] -> S i = len.
  Proof.
    intros i L E. destruct shut as (l & T & NI). assert (LL : len = S (List.length l)) by (rewrite T, app_length; cbn; lia).
    destruct (Nat.eq_dec i (List.length l)) as [->|D]; [lia|]. exfalso. apply NI. rewrite <- E. unfold A2lIR.current.
    rewrite T, app_nth1 by lia. apply nth_In. lia.
  Qed.
  Lemma nonempty_not_last : forall i, i < len -> current i <> [] -> S i < len.
  Proof.
    intros i L H. destruct (Nat.eq_dec (S i) len) as [E|]; [|lia]. exfalso. apply H, (at_last toks fuel last_empty enough), E.
  Qed.
  Lemma next_current : forall i, i < len -> nextTok i = current (next i).
  Proof.
    intros i L. unfold A2lIR.nextTok. destruct (next_cases toks fuel enough i L) as [(M & N0 & _)|(M & N0 & E)]; rewrite M, N0; [reflexivity|].
    symmetry. apply (at_last toks fuel last_empty enough), E.
  Qed.

  Definition gamT (p : nat) (t : tk) (i : nat) : Prop :=
    match t with
    | Clean => p <= S i /\ S i < len /\ N (sec p (S i))
    | Pending => p <= i /\ S i < len /\ N (sec p i)
    | Keyword => p <= i /\ S i < len /\ N (sec p i) /\ isKeyword (current i) = true
    | Is t => p <= i /\ i < len /\ N (sec p i) /\ current i = b t
    | Stuck => S i = len
    | Lost => True
    end.
  Definition gam (p : nat) (a : ns) (s : st) : Prop := gamT p (fst a) (s_idx s) /\ s_err s = snd a.

  Definition covers (r : res) (p : nat) (o : nout) : Prop :=
    match r with
    | Go s => exists a, In a (fst o) /\ gam p a s
    | Out s => exists a, In a (snd o) /\ gam p a s
    | Bad | Fuel => True
    end.

  Lemma covers_l : forall r p x y, covers r p x -> covers r p (nor x y).
  Proof. intros [s|s| |] p x y H; cbn in *; auto; destruct H as (a & I & G); exists a; (split; [apply in_union; auto|exact G]). Qed.
  Lemma covers_r : forall r p x y, covers r p y -> covers r p (nor x y).
  Proof. intros [s|s| |] p x y H; cbn in *; auto; destruct H as (a & I & G); exists a; (split; [apply in_union; auto|exact G]). Qed.

  Lemma nall_ok : forall (f : ns -> nout) (R : st -> res) p l,
      (forall a s, gam p a s -> covers (R s) p (f a)) ->
      forall a s, In a l -> gam p a s -> covers (R s) p (nall f l).
  Proof.
    intros f R p. induction l as [|a0 l IH]; intros H a s I G; [contradiction|]. cbn [nall].
    destruct I as [->|I]; [apply covers_l, H, G|apply covers_r; eapply IH; eassumption].
  Qed.

  (** one token further *)
  Lemma clean_next : forall p i, gamT p Clean i -> exists t, In t [Pending; Is ""] /\ gamT p t (next i).
  Proof.
    intros p i (P & L & H). destruct (next_cases toks fuel enough i ltac:(lia)) as [(_ & -> & L')|(_ & _ & E)]; [|lia].
    destruct (list_eq_dec Ascii.ascii_dec (current (S i)) []) as [E|E].
    - exists (Is ""). split; [right; left; reflexivity|]. cbn [gamT fst snd]. auto.
    - exists Pending. split; [left; reflexivity|]. cbn [gamT fst snd]. split; [lia|]. split; [|exact H]. apply nonempty_not_last; assumption.
  Qed.
  Lemma is_clean : forall p i t, gamT p (Is t) i -> t <> EmptyString -> bracket (b t) = false -> gamT p Clean i.
  Proof.
    intros p i t (P & L & H & E) NE B. cbn [gamT fst snd]. split; [lia|]. split.
    - apply nonempty_not_last; [exact L|]. rewrite E. destruct t; [contradiction|discriminate].
    - rewrite sec_snoc by lia. apply nested_word; [exact H|]. rewrite E. exact B.
  Qed.
  Lemma next_ok : forall p t i, gamT p t i -> exists t', In t' (nextNs t) /\ gamT p t' (next i).
  Proof.
    intros p t i H. destruct t as [| | |u| |]; cbn [nextNs].
    - apply clean_next, H.
    - exists Lost. split; [left; reflexivity|exact I].
    - exists Lost. split; [left; reflexivity|exact I].
    - destruct (isEmpty u) eqn:E.
      + destruct H as (P & L & H & C). rewrite (empty_b _ E) in C. pose proof (empty_last _ L C).
        exists (Is u). split; [left; reflexivity|]. destruct (next_cases toks fuel enough i L) as [(_ & _ & L')|(_ & -> & _)]; [lia|].
        cbn [gamT fst snd]. rewrite (empty_b _ E). auto.
      + destruct (bracket (b u)) eqn:B; [exists Lost; split; [left; reflexivity|exact I]|].
        apply clean_next. eapply is_clean; [exact H| |exact B]. intros ->. discriminate.
    - exists Stuck. split; [left; reflexivity|]. cbn [gamT fst snd] in *. destruct (next_cases toks fuel enough i ltac:(lia)) as [(_ & _ & L')|(_ & -> & _)]; lia.
    - exists Lost. split; [left; reflexivity|exact I].
  Qed.

  Lemma word_ok : forall p t i, gamT p t i -> bracket (current i) = false -> current i <> [] ->
      exists t', In t' (wordNs t) /\ gamT p t' i.
  Proof.
    intros p t i H B NE.
    assert (P : gamT p Pending i -> gamT p Clean i).
    { intros (P & L & K). cbn [gamT fst snd]. split; [lia|]. split; [exact L|]. rewrite sec_snoc by lia. apply nested_word; assumption. }
    destruct t as [| | |u| |]; cbn [wordNs].
    - exists Clean. split; [left; reflexivity|exact H].
    - exists Clean. split; [left; reflexivity|apply P, H].
    - exists Clean. split; [left; reflexivity|apply P]. cbn [gamT fst snd] in *. tauto.
    - destruct H as (Q & L & K & C). destruct (isEmpty u) eqn:E.
      + rewrite (empty_b _ E) in C. contradiction.
      + exists Clean. split; [left; reflexivity|]. apply P. cbn [gamT fst snd]. split; [exact Q|]. split; [|exact K]. apply nonempty_not_last; assumption.
    - cbn [gamT] in H. exfalso. apply NE, (at_last toks fuel last_empty enough), H.
    - exists Lost. split; [left; reflexivity|exact I].
  Qed.

  Lemma not_last : forall i t, S i < len -> current i = b t -> isEmpty t = false.
  Proof.
    intros i t L E. destruct (isEmpty t) eqn:Z; [|reflexivity]. rewrite (empty_b _ Z) in E.
    assert (i < len) by lia. pose proof (empty_last i ltac:(assumption) E). lia.
  Qed.
  Lemma isNs_ok : forall p t i u, gamT p t i -> current i = b u -> exists t', In t' (isNs u t) /\ gamT p t' i.
  Proof.
    intros p t i u H E. destruct t as [| | |v| |]; cbn [isNs].
    - destruct H as (P & L & H). rewrite (not_last i u L E). exists Clean. split; [left; reflexivity|]. cbn [gamT fst snd]. auto.
    - destruct H as (P & L & H). rewrite (not_last i u L E). exists (Is u). split; [left; reflexivity|]. cbn [gamT fst snd]. repeat split; auto; lia.
    - destruct H as (P & L & H & K). rewrite E in K. rewrite K. exists (Is u). split; [left; reflexivity|]. cbn [gamT fst snd]. repeat split; auto; lia.
    - destruct H as (P & L & H & K). rewrite E in K. apply b_inj in K. subst v. rewrite String.eqb_refl.
      exists (Is u). split; [left; reflexivity|]. cbn [gamT fst snd]. auto.
    - cbn [gamT] in H. rewrite (at_last toks fuel last_empty enough _ H) in E. destruct u; [|discriminate]. exists Stuck. split; [left; reflexivity|exact H].
    - exists Lost. split; [left; reflexivity|exact I].
  Qed.

  Lemma refT_ok : forall c p a s, gam p a s -> test c s = true -> exists a', In a' (refT c a) /\ gam p a' s.
  Proof.
    induction c as [u| |f|f n|f g| |c IHc d IHd]; intros p [t e] s [G E] T; cbn [A2lIR.test refT fst snd] in *;
      try (exists (t, e); split; [left; reflexivity|split; assumption]).
    - apply beqb_eq in T. destruct (isNs_ok _ _ _ _ G T) as (t' & I & G'). exists (t', e). split; [apply in_with, I|split; assumption].
    - destruct t as [| | |u| |]; try (eexists; split; [left; reflexivity|split; assumption]).
      + eexists. split; [left; reflexivity|]. split; [|exact E]. cbn [gamT fst snd] in *. tauto.
      + destruct G as (P & L & H & K). rewrite K in T. rewrite T. eexists. split; [left; reflexivity|]. split; [|exact E]. cbn [gamT fst snd]. auto.
      + cbn [gamT fst snd] in G. rewrite (at_last toks fuel last_empty enough _ G) in T. discriminate.
    - rewrite T in E. subst e. eexists. split; [left; reflexivity|]. split; [exact G|exact T].
    - apply orb_true_iff in T. destruct T as [T|T].
      + destruct (IHc p (t, e) s (conj G E) T) as (a' & I & G'). exists a'. split; [apply in_union; left; exact I|exact G'].
      + destruct (IHd p (t, e) s (conj G E) T) as (a' & I & G'). exists a'. split; [apply in_union; right; exact I|exact G'].
  Qed.

  Lemma refF_ok : forall c p a s, gam p a s -> test c s = false -> exists a', In a' (refF c a) /\ gam p a' s.
  Proof.
    induction c as [u| |f|f n|f g| |c IHc d IHd]; intros p [t e] s [G E] T; cbn [A2lIR.test refF fst snd] in *;
      try (exists (t, e); split; [left; reflexivity|split; assumption]).
    - destruct t as [| | |v| |]; try (eexists; split; [left; reflexivity|split; assumption]).
      + destruct G as (P & L & H & K). destruct (String.eqb u v) eqn:Z.
        * apply String.eqb_eq in Z. subst v. rewrite K, beqb_refl in T. discriminate.
        * eexists. split; [left; reflexivity|]. split; [|exact E]. cbn [gamT fst snd]. auto.
      + cbn [gamT fst snd] in G. destruct (isEmpty u) eqn:Z.
        * rewrite (at_last toks fuel last_empty enough _ G), (empty_b _ Z) in T. discriminate.
        * eexists. split; [left; reflexivity|]. split; [exact G|exact E].
    - destruct t as [| | |u| |]; try (eexists; split; [left; reflexivity|split; assumption]).
      + eexists. split; [left; reflexivity|]. split; [|exact E]. cbn [gamT fst snd] in *. destruct G as (P & L & H). split; [lia|]. split; [exact L|].
        rewrite sec_snoc by lia. apply nested_word; [exact H|]. apply bracket_kw, T.
      + destruct G as (P & L & H & K). congruence.
      + destruct G as (P & L & H & K). rewrite K in T. rewrite T. eexists. split; [left; reflexivity|]. split; [|exact E]. cbn [gamT fst snd]. auto.
    - rewrite T in E. subst e. eexists. split; [left; reflexivity|]. split; [exact G|exact T].
    - apply orb_false_iff in T. destruct T as [T1 T2].
      destruct (IHc p (t, e) s (conj G E) T1) as (a' & I & G'). destruct (IHd _ _ _ G' T2) as (a2 & I2 & G2).
      exists a2. split; [apply in_flat_map; exists a'; auto|exact G2].
  Qed.

  Lemma src_ok : forall p a s r, gam p a s ->
      exists t', In t' (nsrc r (fst a)) /\ gamT p t' (s_idx (snd (readSrc toks r s))) /\
                 (t' = Lost \/ fst (readSrc toks r s) = current (s_idx (snd (readSrc toks r s)))).
  Proof.
    intros p [t e] s [|] [G E]; cbn [nsrc readSrc fst snd setIdx s_idx] in *.
    - destruct (next_ok _ _ _ G) as (t' & I & G'). exists t'. split; [exact I|]. split; [exact G'|].
      destruct t'; auto; right; apply next_current; destruct (Nat.lt_ge_cases (s_idx s) len) as [L|L]; auto; exfalso;
        unfold A2lIR.next, A2lIR.moves in G'; replace (S (s_idx s) <? len) with false in G' by (symmetry; apply Nat.ltb_ge; lia); cbn in G'; lia.
    - exists t. split; [left; reflexivity|]. auto.
  Qed.

  Definition okN (g : fn) : Prop := forall i v j, S i < len -> call g i = Ret v false j ->
    match kindFn op g with
    | Plain => i <= j /\ S j < len /\ N (sec (S i) (S j))
    | Closes t last => (i < j < len /\ current j = b t /\ N (sec (S i) j)) \/ (last = true /\ S j = len)
    | Taken => j = i /\ bracket (current i) = false /\ current i <> []
    | Unknown => True
    end.

  Lemma call_ok : forall p t i g v j, okN g -> gamT p t i -> call g i = Ret v false j ->
      exists t', In t' (afterCall op (kindFn op g) (endsAt g) (fun _ => okfn g) t) /\ gamT p t' j.
  Proof.
    intros p t i g v j HG G E.
    assert (LOST : forall l, In Lost l -> exists t', In t' l /\ gamT p t' j) by (intros l I; exists Lost; split; [exact I|exact Logic.I]).
    destruct t as [| | |u| |].
    - destruct G as (P & L & H). specialize (HG i v j L E). cbn [afterCall]. destruct (kindFn op g) as [|c last| |]; try (apply LOST; left; reflexivity).
      + exists Clean. split; [left; reflexivity|]. destruct HG as (A & B & C). cbn [gamT fst snd]. split; [lia|]. split; [exact B|].
        rewrite (sec_app toks p (S i) (S j)) by lia. apply nested_app; assumption.
      + destruct HG as (-> & B & C). apply word_ok; try assumption. cbn [gamT fst snd]. auto.
    - destruct G as (P & L & H). specialize (HG i v j L E). cbn [afterCall]. destruct (kindFn op g) as [|c last| |]; try (apply LOST; left; reflexivity).
      destruct HG as (-> & B & C). apply word_ok; try assumption. cbn [gamT fst snd]. auto.
    - destruct G as (P & L & H & K). specialize (HG i v j L E). cbn [afterCall]. destruct (kindFn op g) as [|c last| |]; try (apply LOST; left; reflexivity).
      destruct HG as (-> & B & C). apply word_ok; try assumption. cbn [gamT fst snd]. auto.
    - pose proof G as (P & L & H & K).
      destruct (isEmpty u) eqn:Z.
      + (* at the last token *)
        cbn [afterCall]. destruct (kindFn op g) as [|c last| |] eqn:KK.
        * rewrite Z. apply LOST. left. reflexivity.
        * assert (Q : pair_ u c = false) by (destruct u; [reflexivity|discriminate]). rewrite Q. apply LOST. left. reflexivity.
        * (* the token is not in the table *)
          exfalso. destruct g as [adv table|k|pre body].
          -- cbn [kindFn] in KK. destruct (words table) eqn:W; [|discriminate]. destruct adv; [discriminate|]. cbn [A2lIR.call] in E.
             destruct (findText (current i) table) as [w|] eqn:F; [|discriminate].
             destruct (table_word _ _ _ W F) as [_ NE]. apply NE. rewrite K. apply empty_b, Z.
          -- rewrite kind_straight in KK. apply kindOf_taken in KK. exact KK.
          -- rewrite kind_loop in KK. destruct (rounds 6 _ _); [|discriminate]. apply kindOf_taken in KK. exact KK.
        * destruct (existsb _ op) eqn:X; [|apply LOST; left; reflexivity]. exfalso.
          apply existsb_exists in X. destruct X as (x & _ & X). apply andb_true_iff in X. destruct X as [X _].
          apply String.eqb_eq in X. subst u. discriminate.
      + assert (NE : current i <> []) by (rewrite K; apply b_empty, Z).
        assert (L' : S i < len) by (apply nonempty_not_last; assumption).
        specialize (HG i v j L' E). cbn [afterCall]. destruct (kindFn op g) as [|c last| |].
        * rewrite Z. destruct (bracket (b u)) eqn:B; [apply LOST; left; reflexivity|]. destruct HG as (A1 & A2 & A3).
          exists Clean. split; [left; reflexivity|]. cbn [gamT fst snd]. split; [lia|]. split; [exact A2|].
          rewrite (sec_app toks p (S i) (S j)) by lia. apply nested_app; [|exact A3].
          rewrite sec_snoc by lia. apply nested_word; [exact H|]. rewrite K. exact B.
        * destruct HG as [(A1 & A2 & A3)|(-> & A)].
          -- destruct (pair_ u c) eqn:Q; [|apply LOST; left; reflexivity]. apply pair_ok in Q. destruct Q as (x & X1 & X2 & X3 & X4). rewrite X1 in X3. rewrite X2 in X4.
             exists Clean. split; [left; reflexivity|]. cbn [gamT fst snd]. split; [lia|].
             split; [apply nonempty_not_last; [lia|]; rewrite A2, X2; discriminate|].
             rewrite (sec_app toks p i (S j)) by lia. apply nested_app; [exact H|].
             rewrite (sec_app toks i (S i) (S j)) by lia. rewrite sec_one, (sec_snoc toks (S i) j) by lia. rewrite K, A2, X1, X2.
             cbn [app]. apply (NObj op x); [exact X3|exact X4|exact A3|constructor].
          -- exists Stuck. split; [right; left; reflexivity|exact A].
        * destruct HG as (-> & B & C). apply word_ok; assumption.
        * destruct (existsb _ op) eqn:X; [|apply LOST; left; reflexivity].
          apply existsb_exists in X. destruct X as (x & IX & X). apply andb_true_iff in X. destruct X as [X1 X2].
          apply String.eqb_eq in X1. subst u.
          destruct (endsAt_sound isKeyword toks ParseFloat fuel kw_empty last_empty enough g _ X2 i L) as (v' & e' & j' & E' & Q).
          rewrite E in E'. injection E' as <- <- <-. destruct (Q eq_refl) as [Q1 Q2].
          exists Clean. split; [left; reflexivity|]. cbn [gamT fst snd]. split; [lia|]. split; [apply nonempty_not_last; [lia|]; rewrite Q2; discriminate|].
          rewrite (sec_app toks p i (S j)) by lia. apply nested_app; [exact H|].
          rewrite (sec_app toks i (S i) (S j)) by lia. rewrite sec_one, (sec_snoc toks (S i) j) by lia. rewrite K, Q2.
          cbn [app]. apply (NOpaque op x); [exact IX|constructor].
    - cbn [gamT fst snd] in G. cbn [afterCall]. destruct (okfn g) eqn:OK; [|destruct (kindFn op g); apply LOST; left; reflexivity].
      destruct (okfn_sound isKeyword toks ParseFloat fuel kw_empty last_empty enough g OK i ltac:(lia)) as (v' & e' & j' & E' & Q).
      rewrite E in E'. injection E' as <- <- <-. exists Stuck. split; [destruct (kindFn op g); left; reflexivity|]. cbn [gamT fst snd]. lia.
    - cbn [afterCall]. apply LOST. destruct (kindFn op g); left; reflexivity.
  Qed.

  Definition okS (x : stmt) : Prop := forall p a s, gam p a s -> covers (exec x s) p (nst op x a).
  Definition okB (k : block) : Prop := forall p a s, gam p a s -> covers (run k s) p (nbl op k a).
  Definition okC (cs : cases) : Prop := forall p l a s t, In a l -> gam p a s -> (fst a = Lost \/ t = current (s_idx s)) ->
    match pick cs t s with Some q => covers q p (nca op cs l) | None => True end.

  Lemma go_same : forall p a s s', gam p a s -> s_idx s' = s_idx s -> s_err s' = s_err s -> covers (Go s') p ([a], []).
  Proof. intros p a s s' [G E] I J. exists a. split; [left; reflexivity|]. unfold gam. rewrite I, J. auto. Qed.

  Lemma rounds_ok : forall (f : ns -> nout) (R : st -> res) p,
      (forall a s, gam p a s -> covers (R s) p (f a)) ->
      forall n l os, rounds n f l = Some os -> forall k a s s', In a l -> gam p a s -> iter k R s = Go s' ->
      exists o, In o os /\ gam p o s'.
  Proof.
    intros f R p H. induction n as [|n IH]; intros l os E; [discriminate|]. cbn [rounds] in E.
    destruct (nall f l) as [gs os'] eqn:A. destruct (forallb (fun g => has g l) gs) eqn:C.
    - injection E as <-. rewrite forallb_forall in C. induction k as [|k IHk]; intros a s s' I G T; [discriminate|]. cbn [iter] in T.
      pose proof (nall_ok f R p l H a s I G) as K. rewrite A in K. destruct (R s) as [s1|s1| |]; try discriminate; cbn [covers fst snd] in K.
      + destruct K as (g & IG & GG). eapply IHk; [apply has_in, C, IG|exact GG|exact T].
      + injection T as <-. exact K.
    - intros k a s s' I G T. eapply IH; [exact E|apply in_union; right; exact I|exact G|exact T].
  Qed.

  Lemma kindOf_ok : forall os p a s, In a os -> gam p a s -> s_err s = false ->
      match kindOf os with
      | Plain => gamT p Clean (s_idx s)
      | Closes t last => gamT p (Is t) (s_idx s) \/ (last = true /\ S (s_idx s) = len)
      | Taken => False
      | Unknown => True
      end.
  Proof.
    intros os p [t e] s I [G E] F. cbn [fst snd] in *. rewrite F in E. subst e. unfold kindOf.
    set (l := map fst (filter (fun a => negb (snd a)) os)).
    assert (IT : In t l).
    { apply (in_map fst (filter (fun a : ns => negb (snd a)) os) (t, false)). apply filter_In. split; [exact I|reflexivity]. }
    destruct (forallb (teqb Clean) l) eqn:C.
    - rewrite forallb_forall in C. specialize (C t IT). apply teqb_eq in C. subst t. exact G.
    - destruct (filter (fun t => negb (atLast t)) l) as [|[| | |u| |] l'] eqn:D; auto.
      destruct (forallb (teqb (Is u)) l') eqn:Q; auto.
      destruct (atLast t) eqn:Z.
      + right. split; [apply existsb_exists; exists t; auto|]. destruct t as [| | |w| |]; try discriminate; cbn [gamT atLast] in Z, G.
        * destruct G as (P & L & H & K). apply empty_last; [exact L|]. rewrite K. apply empty_b, Z.
        * exact G.
      + left. assert (J : In t (Is u :: l')) by (rewrite <- D; apply filter_In; split; [exact IT|rewrite Z; reflexivity]).
        destruct J as [->|J]; [exact G|]. rewrite forallb_forall in Q. specialize (Q t J). apply teqb_eq in Q. subst t. exact G.
  Qed.

  Lemma kindOf_fn : forall os i a s v, In a os -> gam (S i) a s -> Ret v (s_err s) (s_idx s) = Ret v false (s_idx s) -> 
      match kindOf os with
      | Plain => i <= s_idx s /\ S (s_idx s) < len /\ N (sec (S i) (S (s_idx s)))
      | Closes t last => (i < s_idx s < len /\ current (s_idx s) = b t /\ N (sec (S i) (s_idx s))) \/ (last = true /\ S (s_idx s) = len)
      | Taken => s_idx s = i /\ bracket (current i) = false /\ current i <> []
      | Unknown => True
      end.
  Proof.
    intros os i a s v I G E. injection E as E. pose proof (kindOf_ok os (S i) a s I G E) as K.
    destruct (kindOf os) as [|t last| |]; auto.
    - cbn [gamT fst snd] in K. destruct K as (A & B & C). repeat split; auto; lia.
    - destruct K as [(A & B & C & D)|K]; [left|right; exact K]. repeat split; auto; lia.
    - contradiction.
  Qed.

  Lemma sound : (forall x, okS x) /\ (forall k, okB k) /\ (forall cs, okC cs) /\ (forall g, okN g).
  Proof.
    apply ir_ind.
    - (* Next *) intros p [t e] s [G E]. cbn [A2lIR.exec nst fst snd]. destruct (next_ok _ _ _ G) as (t' & I & G').
      exists (t', e). split; [apply in_with, I|]. split; [exact G'|exact E].
    - (* Prev *) intros p [t e] s [G E]. cbn [A2lIR.exec nst fst snd]. destruct (s_idx s) as [|i] eqn:IX; [exact I|]. cbn [setIdx s_idx].
      destruct t as [| | |u| |]; try (exists (Lost, e); split; [left; reflexivity|split; [exact I|exact E]]).
      + exists (Clean, e). split; [left; reflexivity|]. split; [|exact E]. cbn [gamT fst snd] in *. cbn [setIdx s_idx]. destruct G as (P & L & H & K). split; [lia|]. split; [lia|exact H].
      + destruct (isEmpty u); [exists (Lost, e); split; [left; reflexivity|split; [exact I|exact E]]|].
        exists (Clean, e). split; [left; reflexivity|]. split; [|exact E]. cbn [gamT fst snd] in *. cbn [setIdx s_idx]. destruct G as (P & L & H & K). split; [lia|]. split; [lia|exact H].
    - (* Set_ *) intros f x p a s G. cbn [A2lIR.exec nst]. eapply go_same; [exact G|reflexivity|reflexivity].
    - (* App *) intros f x p a s G. cbn [A2lIR.exec nst]. eapply go_same; [exact G|reflexivity|reflexivity].
    - (* Fill *) intros f n x p a s G. cbn [A2lIR.exec nst]. eapply go_same; [exact G|reflexivity|reflexivity].
    - (* Put *) intros f v k p a s G. cbn [A2lIR.exec nst]. destruct (fget f (s_obj s)) as [[]|]; try exact I.
      eapply go_same; [exact G|reflexivity|reflexivity].
    - (* Num *) intros v n r p a s G. cbn [A2lIR.exec nst]. destruct (src_ok p a s r G) as (t' & I & G' & C).
      destruct (readSrc toks r s) as [w s'] eqn:R. cbn [fst snd] in *. destruct (readNum ParseFloat n w) as [x|] eqn:Q.
      + destruct (number_word _ _ _ _ floats Q) as [B NE].
        assert (X : exists t2, In t2 (wordNs t') /\ gamT p t2 (s_idx s')).
        { destruct C as [->|C]; [exists Lost; split; [left; reflexivity|exact Logic.I]|]. subst w. apply word_ok; assumption. }
        destruct X as (t2 & I2 & G2). exists (t2, false). split; [|split; [exact G2|reflexivity]].
        cbn [fst]. apply in_or_app. left. apply in_with. apply in_flat_map. exists t'. auto.
      + exists (t', true). split; [|split; [exact G'|reflexivity]]. cbn [fst]. apply in_or_app. right. apply in_with, I.
    - (* CallF *) intros f g IH p [t e] s [G E]. rewrite exec_callF, nst_callF. cbn [fst snd]. destruct (call g (s_idx s)) as [v [|] j| |] eqn:C; try exact I.
      + exists (Lost, true). split; [cbn [fst]; apply in_or_app; right; left; reflexivity|split; [exact I|reflexivity]].
      + destruct (call_ok p t _ g v j IH G C) as (t' & J & G'). exists (t', false).
        split; [cbn [fst]; apply in_or_app; left; apply in_with, J|split; [exact G'|reflexivity]].
    - (* CallV *) intros f g IH p [t e] s [G E]. rewrite exec_callV, nst_callV. cbn [fst snd]. destruct (call g (s_idx s)) as [v [|] j| |] eqn:C; try exact I.
      + exists (Lost, true). split; [cbn [fst]; apply in_or_app; right; left; reflexivity|split; [exact I|reflexivity]].
      + destruct (call_ok p t _ g v j IH G C) as (t' & J & G'). exists (t', false).
        split; [cbn [fst]; apply in_or_app; left; apply in_with, J|split; [exact G'|reflexivity]].
    - (* Raise *) intros p [t e] s [G E]. cbn [A2lIR.exec nst fst snd]. exists (t, true). split; [left; reflexivity|]. split; [exact G|reflexivity].
    - (* Break *) intros p a s G. cbn [A2lIR.exec nst]. exists a. split; [left; reflexivity|exact G].
    - (* If *) intros c k IHk k' IHk' p a s G. rewrite exec_if, nst_if. destruct (test c s) eqn:T.
      + destruct (refT_ok _ _ _ _ G T) as (a' & I & G'). apply covers_l. eapply nall_ok; [|exact I|exact G']. intros; apply IHk; assumption.
      + destruct (refF_ok _ _ _ _ G T) as (a' & I & G'). apply covers_r. eapply nall_ok; [|exact I|exact G']. intros; apply IHk'; assumption.
    - (* Switch *) intros r cs IHc d IHd p a s G. rewrite exec_switch, nst_switch. destruct (src_ok p a s r G) as (t' & I & G' & C).
      assert (ER : s_err (snd (readSrc toks r s)) = snd a) by (destruct G as [_ E]; destruct r; exact E).
      destruct (readSrc toks r s) as [w s']. cbn [fst snd] in *.
      assert (J : In (t', snd a) (with_ (snd a) (nsrc r (fst a)))) by (apply in_with, I).
      pose proof (IHc p _ _ s' w J (conj G' ER) C) as K.
      destruct (pick cs w s') as [q|]; [apply covers_l; exact K|]. apply covers_r.
      eapply nall_ok; [|exact J|exact (conj G' ER)]. intros; apply IHd; assumption.
    - (* Skip *) intros p a s G. exists a. split; [left; reflexivity|exact G].
    - (* Seq *) intros x IHx k IHk p a s G. rewrite run_seq, nbl_seq. unfold nthen. specialize (IHx p a s G).
      destruct (exec x s) as [s'|s'| |]; cbn [covers] in IHx; try exact I.
      + destruct IHx as (a' & J & G'). apply covers_r. eapply nall_ok; [|exact J|exact G']. intros; apply IHk; assumption.
      + apply covers_l. exact IHx.
    - (* Default *) intros p l a s t I G C. exact Logic.I.
    - (* Case *) intros u k IHk cs IHc p l a s t I G C. rewrite pick_case, nca_case. destruct (beqb t (b u)) eqn:T.
      + apply beqb_eq in T. apply covers_l.
        assert (X : exists t', In t' (isNs u (fst a)) /\ gamT p t' (s_idx s)).
        { destruct a as [ta ea]. cbn [fst] in *. destruct C as [->|C]; [exists Lost; split; [left; reflexivity|exact Logic.I]|].
          apply isNs_ok; [exact (proj1 G)|congruence]. }
        destruct X as (t' & J & G'). eapply (nall_ok (nbl op k) (run k) p _ (fun a0 s0 => IHk p a0 s0) (t', snd a)).
        * apply in_flat_map. exists a. split; [exact I|]. apply in_with, J.
        * split; [exact G'|exact (proj2 G)].
      + specialize (IHc p l a s t I G C). destruct (pick cs t s); [apply covers_r; exact IHc|exact Logic.I].
    - (* Enum *) intros adv table i v j L E. cbn [A2lIR.call] in E. change (kindFn op (Enum adv table)) with (if words table then if adv then Plain else Taken else Unknown). destruct (words table) eqn:W; [|exact I].
      assert (NX : next i = S i) by (unfold A2lIR.next; rewrite (proj2 (moves_lt toks i) L); reflexivity).
      destruct adv.
      + destruct (findText (nextTok i) table) eqn:F; [|discriminate]. injection E as <- <-.
        rewrite next_current in F by lia. destruct (table_word _ _ _ W F) as [B NE]. rewrite NX in *.
        split; [lia|]. split; [apply nonempty_not_last; assumption|]. rewrite sec_one by exact L. apply NWord; [exact B|constructor].
      + destruct (findText (current i) table) eqn:F; [|discriminate]. injection E as <- <-.
        destruct (table_word _ _ _ W F) as [B NE]. auto.
    - (* Straight *) intros k IHk i v j L E. rewrite call_straight in E. rewrite kind_straight.
      assert (G : gam (S i) (Clean, false) (St [] [] false i)) by (split; [cbn [gamT fst s_idx]; rewrite sec_nil; repeat split; auto; constructor|reflexivity]).
      specialize (IHk _ _ _ G). destruct (nbl op k (Clean, false)) as [gs os].
      destruct (run k _) as [s'|s'| |]; try discriminate; injection E as <- E <-; destruct IHk as (a & I & G'); cbn [fst snd] in I;
        eapply (kindOf_fn _ i a s' (VBool true)).
      all: try exact G'; try (rewrite E; reflexivity); apply in_union; auto.
    - (* Loop *) intros pre IHp body IHb i v j L E. rewrite call_loop in E. rewrite kind_loop.
      assert (G : gam (S i) (Clean, false) (St [] [] false i)) by (split; [cbn [gamT fst s_idx]; rewrite sec_nil; repeat split; auto; constructor|reflexivity]).
      specialize (IHp _ _ _ G). destruct (nbl op pre (Clean, false)) as [gs os]. cbn [fst snd].
      destruct (rounds 6 (nbl op body) gs) as [os'|] eqn:RR; [|exact I].
      destruct (run pre _) as [s1|s1| |]; try discriminate; destruct IHp as (a & IA & G'); cbn [fst snd] in IA.
      + destruct (iter fuel (run body) s1) as [s2|s2| |] eqn:IT; try discriminate; injection E as <- E <-.
        * destruct (rounds_ok (nbl op body) (run body) (S i) (fun a s => IHb (S i) a s) 6 gs os' RR fuel a s1 s2 IA G' IT) as (o & IO & GO).
          eapply (kindOf_fn _ i o s2 (VBool true)); [apply in_union; right; exact IO|exact GO|rewrite E; reflexivity].
        * apply iter_not_out in IT. contradiction.
      + injection E as <- E <-. eapply (kindOf_fn _ i a s1 (VBool true)); [apply in_union; left; exact IA|exact G'|rewrite E; reflexivity].
  Qed.

  Theorem kind_sound : forall g, okN g.
  Proof. exact (proj2 (proj2 (proj2 sound))). Qed.

  Theorem file_sound : forall g, nestedFile op g = true -> forall v j, call g 0 = Ret v false j -> S j = len /\ N (sec 0 j).
  Proof.
    intros g H v j E. unfold nestedFile in H. destruct g as [| |[|] body]; try discriminate.
    destruct (rounds 6 (nbl op body) [(Pending, false); (Is "", false)]) as [os|] eqn:RR; [|discriminate].
    rewrite call_loop in E. cbn [A2lIR.run] in E. rewrite forallb_forall in H.
    assert (LN : 0 < len) by (destruct shut as (l & -> & _); rewrite app_length; cbn; lia).
    assert (G : exists a, In a [(Pending, false); (Is "", false)] /\ gam 0 a (St [] [] false 0)).
    { destruct (list_eq_dec Ascii.ascii_dec (current 0) []) as [Z|Z].
      - exists (Is "", false). split; [right; left; reflexivity|]. split; [|reflexivity]. cbn [gamT fst snd]. repeat split; auto. constructor.
      - exists (Pending, false). split; [left; reflexivity|]. split; [|reflexivity]. cbn [gamT fst snd]. split; [lia|]. split; [|constructor].
        apply nonempty_not_last; assumption. }
    destruct G as (a & IA & GA).
    destruct (iter fuel (run body) _) as [s2|s2| |] eqn:IT; try discriminate.
    - injection E as <- E <-.
      destruct (rounds_ok (nbl op body) (run body) 0 (fun a s => proj1 (proj2 sound) body 0 a s) 6 _ os RR fuel a _ s2 IA GA IT) as ([t e] & IO & GO & EO).
      cbn [fst snd] in *. specialize (H _ IO). cbn [fst snd] in H. rewrite E in EO. subst e. cbn [orb] in H. apply teqb_eq in H. subst t.
      cbn [gamT] in GO. destruct GO as (_ & L & K & C). split; [apply empty_last; assumption|exact K].
    - apply iter_not_out in IT. contradiction.
  Qed.
End Sound.
