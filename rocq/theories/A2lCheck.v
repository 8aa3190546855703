(** An analysis of parser functions: where the cursor is and whether an error is
    set.  A function that passes ends for every token list, leaves the cursor
    inside the list and not before its start. *)
From Coq Require Import String Ascii List Arith NArith ZArith Bool Lia SpecFloat.
From Verif Require Import GoBase GoBaseFacts A2lIR.
Import ListNotations.

(** What is known about the token under the cursor; [Pend]: the cursor moved
    forward once more or is at the last token. *)
Inductive tokinfo := TUnk | TPend | TIs (t : string) | TNonEmpty.

(** The cursor is at least [a_low] tokens after the start; the fields [a_maps] are
    maps (not nil). *)
Record ab := Ab { a_low : nat; a_tok : tokinfo; a_err : option bool; a_maps : list string }.

Definition isEmpty (t : string) : bool := match t with EmptyString => true | _ => false end.

Definition nextAb (a : ab) : ab :=
  match a_tok a with
  | TIs t => if isEmpty t then Ab (a_low a) TPend (a_err a) (a_maps a) else Ab (S (a_low a)) TUnk (a_err a) (a_maps a)
  | TNonEmpty => Ab (S (a_low a)) TUnk (a_err a) (a_maps a)
  | TUnk | TPend => Ab (a_low a) TPend (a_err a) (a_maps a)
  end.

(** the token under the cursor is [t] *)
Definition isAb (t : string) (a : ab) : ab :=
  match a_tok a with
  | TPend => Ab (if isEmpty t then a_low a else S (a_low a)) (TIs t) (a_err a) (a_maps a)
  | _ => Ab (a_low a) (TIs t) (a_err a) (a_maps a)
  end.
(** tok.next() returned [t] *)
Definition nextIsAb (t : string) (a : ab) : ab :=
  if isEmpty t then nextAb a else Ab (S (a_low a)) (TIs t) (a_err a) (a_maps a).
Definition nonEmptyAb (a : ab) : ab :=
  match a_tok a with
  | TPend => Ab (S (a_low a)) TNonEmpty (a_err a) (a_maps a)
  | TUnk => Ab (a_low a) TNonEmpty (a_err a) (a_maps a)
  | _ => a
  end.
Definition withErr (e : option bool) (a : ab) : ab := Ab (a_low a) (a_tok a) e (a_maps a).

(** the token under the cursor may be [t] *)
Definition mayBe (t : string) (a : ab) : bool :=
  match a_tok a with TIs t' => String.eqb t t' | TNonEmpty => negb (isEmpty t) | _ => true end.

Fixpoint refineT (c : cond) (a : ab) : list ab :=
  match c with
  | CurIs t => if mayBe t a then [isAb t a] else []
  | CurKw => [nonEmptyAb a]
  | ErrSet => match a_err a with Some false => [] | _ => [withErr (Some true) a] end
  | Or c d => refineT c a ++ refineT d a
  | _ => [a]
  end.
Fixpoint refineF (c : cond) (a : ab) : list ab :=
  match c with
  | CurIs t => if isEmpty t then match a_tok a with TIs EmptyString => [] | _ => [nonEmptyAb a] end else [a]
  | ErrSet => match a_err a with Some true => [] | _ => [withErr (Some false) a] end
  | Or c d => flat_map (refineF d) (refineF c a)
  | _ => [a]
  end.

Definition srcAb (r : src) (a : ab) : ab := match r with FromNext => nextAb a | FromCur => a end.
Definition caseAb (r : src) (t : string) (a : ab) : list ab :=
  match r with FromNext => [nextIsAb t a] | FromCur => if mayBe t a then [isAb t a] else [] end.
Definition callAb (a : ab) : ab :=
  Ab (a_low a) (match a_tok a with TPend => TPend | _ => TUnk end) None (a_maps a).

Definition hasMap (f : string) (m : list string) : bool := existsb (String.eqb f) m.
Definition withMaps (m : list string) (a : ab) : ab := Ab (a_low a) (a_tok a) (a_err a) m.
(** the field [f] gets a value *)
Definition assigned (f : string) (a : ab) : ab := withMaps (remove string_dec f (a_maps a)) a.
Definition setAb (f : string) (e : expr) (a : ab) : ab :=
  match e with EmptyMap => withMaps (f :: a_maps a) a | _ => assigned f a end.

(** states in which a statement is left normally, and by break *)
Definition aout := option (list ab * list ab).
Definition aor (x y : aout) : aout :=
  match x, y with Some (g, o), Some (g', o') => Some (g ++ g', o ++ o') | _, _ => None end.
Fixpoint aall (f : ab -> aout) (l : list ab) : aout :=
  match l with [] => Some ([], []) | a :: l' => aor (f a) (aall f l') end.
Definition athen (x : aout) (f : ab -> aout) : aout :=
  match x with Some (g, o) => aor (Some ([], o)) (aall f g) | None => None end.

(** the start of a function, of a round of a loop, and of a round at the last token *)
Definition head : ab := Ab 0 TUnk (Some false) [].
Definition round (e : option bool) (m : list string) : ab := Ab 0 TUnk e m.
Definition lastRound (e : option bool) (m : list string) : ab := Ab 0 (TIs "") e m.
Definition mapsOf (l : list ab) : list string := match l with [] => [] | a :: _ => a_maps a end.

(** [e] is kept (the error is nil, or it may be anything) and the maps [m] remain *)
Definition keeps (e : option bool) (m : list string) (a : ab) : bool :=
  match e, a_err a with None, _ => true | Some false, Some false => true | _, _ => false end &&
  forallb (fun f => hasMap f (a_maps a)) m.
Definition progress (e : option bool) (m : list string) (a : ab) : bool := (1 <=? a_low a) && keeps e m a.
Definition progressOrLast (e : option bool) (m : list string) (a : ab) : bool :=
  ((1 <=? a_low a) || match a_tok a with TPend => true | _ => false end) && keeps e m a.

(** A loop ends: each round moves the cursor, or leaves it at the last token where
    the next round ends the loop. *)
Definition okLoop (e : option bool) (body : ab -> aout) (gs : list ab) : bool :=
  let m := mapsOf gs in
  forallb (keeps e m) gs &&
  match body (round e m) with
  | Some (gs', _) => forallb (progress e m) gs' ||
                     (forallb (progressOrLast e m) gs' &&
                      match body (lastRound e m) with Some ([], _) => true | _ => false end)
  | None => false
  end.

Fixpoint chk (x : stmt) (a : ab) : aout :=
  match x with
  | Next => Some ([nextAb a], [])
  | Prev => match a_low a, a_tok a with
            | S l, (TUnk | TIs _ | TNonEmpty) => Some ([Ab l TUnk (a_err a) (a_maps a)], [])
            | _, _ => None
            end
  | Set_ f e => Some ([setAb f e a], [])
  | App f _ | Fill f _ _ => Some ([assigned f a], [])
  | Put f _ _ => if hasMap f (a_maps a) then Some ([a], []) else None
  | Num _ _ r => Some ([withErr None (srcAb r a)], [])
  | CallF f g => if okfn g then Some ([assigned f (callAb a)], []) else None
  | CallV _ g => if okfn g then Some ([callAb a], []) else None
  | Raise => Some ([withErr (Some true) a], [])
  | Break => Some ([], [a])
  | If c k k' => aor (aall (chkb k) (refineT c a)) (aall (chkb k') (refineF c a))
  | Switch r cs d => aor (chkc r cs a) (chkb d (srcAb r a))
  end
with chkb (k : block) (a : ab) : aout :=
  match k with
  | Skip => Some ([a], [])
  | Seq x k' => athen (chk x a) (chkb k')
  end
with chkc (r : src) (cs : cases) (a : ab) : aout :=
  match cs with
  | Default => Some ([], [])
  | Case t k cs' => aor (aall (chkb k) (caseAb r t a)) (chkc r cs' a)
  end
with okfn (g : fn) : bool :=
  match g with
  | Enum _ _ => true
  | Straight k => match chkb k head with Some _ => true | None => false end
  | Loop pre body =>
      match chkb pre head with
      | Some (gs, []) => okLoop (Some false) (chkb body) gs || okLoop None (chkb body) gs
      | _ => false
      end
  end.

(** The function returns without error only at the token [t]. *)
Definition finalAt (t : string) (a : ab) : bool :=
  match a_err a, a_tok a with
  | Some true, _ => true
  | _, TIs t' => String.eqb t t' && (1 <=? a_low a)
  | _, _ => false
  end.
Definition endsLoop (e : option bool) (t : string) (body : ab -> aout) (gs : list ab) : bool :=
  let m := mapsOf gs in
  forallb (keeps e m) gs &&
  match body (round e m) with
  | Some (gs', os) => forallb (progress e m) gs' && forallb (finalAt t) os
  | None => false
  end.
Definition endsAt (g : fn) (t : string) : bool :=
  match g with
  | Loop pre body =>
      match chkb pre head with
      | Some (gs, []) => endsLoop (Some false) t (chkb body) gs || endsLoop None t (chkb body) gs
      | _ => false
      end
  | _ => false
  end.

Scheme stmt_mut := Induction for stmt Sort Prop
  with block_mut := Induction for block Sort Prop
  with cases_mut := Induction for cases Sort Prop
  with fn_mut := Induction for fn Sort Prop.
Combined Scheme ir_ind from stmt_mut, block_mut, cases_mut, fn_mut.

Section Sound.
  Variable isKeyword : bytes -> bool.
  Variable toks : list bytes.
  Variable ParseFloat : bytes -> option spec_float.
  Variable fuel : nat.
  Hypothesis kw_empty : isKeyword [] = false.
  Hypothesis last_empty : exists l, toks = l ++ [[]].
  Hypothesis enough : List.length toks < fuel.

  Notation current := (current toks).
  Notation next := (next toks).
  Notation nextTok := (nextTok toks).
  Notation moves := (moves toks).
  Notation exec := (exec isKeyword toks ParseFloat fuel).
  Notation run := (run isKeyword toks ParseFloat fuel).
  Notation pick := (pick isKeyword toks ParseFloat fuel).
  Notation call := (call isKeyword toks ParseFloat fuel).
  Notation test := (test isKeyword toks).
  Notation len := (List.length toks).

  Lemma at_last : forall i, S i = len -> current i = [].
  Proof.
    intros i H. destruct last_empty as [l ->]. rewrite app_length in H. cbn in H.
    unfold A2lIR.current. rewrite app_nth2 by lia. replace (i - List.length l) with 0 by lia. reflexivity.
  Qed.

  Definition tokOk (i0 low : nat) (t : tokinfo) (i : nat) : Prop :=
    match t with
    | TUnk => True
    | TPend => i0 + S low <= i \/ S i = len
    | TIs t => current i = b t
    | TNonEmpty => current i <> []
    end.

  Record gam (i0 : nat) (a : ab) (s : st) : Prop := {
    g_len : s_idx s < len;
    g_low : i0 + a_low a <= s_idx s;
    g_tok : tokOk i0 (a_low a) (a_tok a) (s_idx s);
    g_err : forall e, a_err a = Some e -> s_err s = e;
    g_maps : forall f, In f (a_maps a) -> exists m, fget f (s_obj s) = Some (VMap m) }.

  Lemma moves_lt : forall i, moves i = true <-> S i < len.
  Proof. intros. unfold A2lIR.moves. apply Nat.ltb_lt. Qed.

  Lemma next_cases : forall i, i < len -> (moves i = true /\ next i = S i /\ S i < len) \/ (moves i = false /\ next i = i /\ S i = len).
  Proof.
    intros i H. unfold A2lIR.next. destruct (moves i) eqn:E.
    - left. pose proof (proj1 (moves_lt i) E). auto.
    - right. assert (~ S i < len) by (intros K; apply moves_lt in K; congruence). repeat split; lia.
  Qed.

  Lemma b_inj : forall x y, b x = b y -> x = y.
  Proof. intros x y H. rewrite <- (string_of_list_ascii_of_string x), <- (string_of_list_ascii_of_string y). f_equal. exact H. Qed.
  Lemma b_empty : forall t, isEmpty t = false -> b t <> [].
  Proof. intros [|c t] H; [discriminate|]. cbn. discriminate. Qed.
  Lemma empty_b : forall t, isEmpty t = true -> b t = [].
  Proof. intros [|c t] H; [reflexivity|discriminate]. Qed.

  Lemma gam_next : forall i0 a s, gam i0 a s -> gam i0 (nextAb a) (setIdx (next (s_idx s)) s).
  Proof.
    intros i0 a s [G1 G2 G3 G4 G5]. destruct (next_cases (s_idx s) G1) as [(M & E & L)|(M & E & L)].
    - unfold nextAb. destruct (a_tok a) as [| |t|] eqn:T; [| |destruct (isEmpty t)|]; constructor; cbn [a_low a_tok a_err setIdx s_idx s_err];
        rewrite ?E; cbn [tokOk]; auto; lia.
    - pose proof (at_last _ L) as C. unfold nextAb.
      destruct (a_tok a) as [| |t|] eqn:T; [| |destruct (isEmpty t) eqn:Z|]; cbn [tokOk] in G3.
      + constructor; cbn; rewrite ?E; cbn [tokOk]; auto.
      + constructor; cbn; rewrite ?E; cbn [tokOk]; auto.
      + constructor; cbn; rewrite ?E; cbn [tokOk]; auto.
      + exfalso. apply b_empty in Z. congruence.
      + congruence.
  Qed.

  Lemma gam_nonempty : forall i0 a s, gam i0 a s -> current (s_idx s) <> [] -> gam i0 (nonEmptyAb a) s.
  Proof.
    intros i0 a s [G1 G2 G3 G4 G5] N. unfold nonEmptyAb. destruct (a_tok a) as [| |t|] eqn:T.
    - constructor; cbn; auto.
    - constructor; cbn; auto. cbn [tokOk] in G3. destruct G3 as [G3|G3]; [lia|]. exfalso. apply N, at_last, G3.
    - constructor; auto; rewrite T; exact G3.
    - constructor; auto; rewrite T; exact G3.
  Qed.

  Lemma gam_is : forall i0 a s t, gam i0 a s -> current (s_idx s) = b t -> gam i0 (isAb t a) s.
  Proof.
    intros i0 a s t [G1 G2 G3 G4 G5] E. unfold isAb. destruct (a_tok a) as [| |t'|] eqn:T; try (constructor; cbn; auto; fail).
    destruct (isEmpty t) eqn:Z; constructor; cbn; auto. cbn [tokOk] in G3. destruct G3 as [G3|G3]; [lia|].
    exfalso. apply b_empty in Z. apply Z. rewrite <- E. apply at_last, G3.
  Qed.

  Lemma gam_nextIs : forall i0 a s t, gam i0 a s -> nextTok (s_idx s) = b t ->
      gam i0 (nextIsAb t a) (setIdx (next (s_idx s)) s).
  Proof.
    intros i0 a s t G E. unfold nextIsAb. destruct (isEmpty t) eqn:Z; [apply gam_next; exact G|].
    destruct G as [G1 G2 G3 G4 G5]. unfold A2lIR.nextTok in E. destruct (next_cases (s_idx s) G1) as [(M & N & L)|(M & N & L)].
    - rewrite M in E. constructor; cbn; rewrite ?N; auto; lia.
    - rewrite M in E. apply b_empty in Z. congruence.
  Qed.

  Lemma gam_err : forall i0 a s e, gam i0 a s -> s_err s = e -> gam i0 (withErr (Some e) a) s.
  Proof. intros i0 a s e [G1 G2 G3 G4 G5] E. constructor; cbn; auto. intros e' [= <-]. exact E. Qed.

  (** replacing parts of the state that the analysis does not see *)
  Lemma fget_set : forall f v o, fget f (fset f v o) = Some v.
  Proof.
    intros f v. induction o as [|[g w] o IH]; cbn; [rewrite String.eqb_refl; reflexivity|].
    destruct (String.eqb f g) eqn:E; cbn; [rewrite String.eqb_refl; reflexivity|rewrite E; exact IH].
  Qed.
  Lemma fget_other : forall f g v o, f <> g -> fget f (fset g v o) = fget f o.
  Proof.
    intros f g v o N. induction o as [|[h w] o IH]; cbn.
    - destruct (String.eqb f g) eqn:E; [apply String.eqb_eq in E; contradiction|reflexivity].
    - destruct (String.eqb g h) eqn:E; cbn.
      + apply String.eqb_eq in E. subst h. destruct (String.eqb f g) eqn:E'; [apply String.eqb_eq in E'; contradiction|reflexivity].
      + destruct (String.eqb f h); [reflexivity|exact IH].
  Qed.

  Lemma gam_assigned : forall i0 a s f v, gam i0 a s -> gam i0 (assigned f a) (setObj f v s).
  Proof.
    intros i0 a s f v [G1 G2 G3 G4 G5]. constructor; cbn; auto. intros g I. apply in_remove in I. destruct I as [I N].
    rewrite fget_other by exact N. apply G5. exact I.
  Qed.
  Lemma gam_map : forall i0 a s f m, gam i0 a s -> gam i0 (withMaps (f :: a_maps a) a) (setObj f (VMap m) s).
  Proof.
    intros i0 a s f m [G1 G2 G3 G4 G5]. constructor; cbn; auto. intros g I.
    destruct (string_dec g f) as [->|N]; [eexists; apply fget_set|]. rewrite fget_other by exact N.
    destruct I as [->|I]; [contradiction|]. apply G5. exact I.
  Qed.
  Lemma gam_less : forall i0 a s m, gam i0 a s -> incl m (a_maps a) -> gam i0 (withMaps m a) s.
  Proof. intros i0 a s m [G1 G2 G3 G4 G5] I. constructor; cbn; auto. Qed.

  Lemma gam_noerr : forall i0 a s s', gam i0 a s -> s_idx s' = s_idx s -> s_obj s' = s_obj s -> gam i0 (withErr None a) s'.
  Proof. intros i0 a s s' [G1 G2 G3 G4 G5] E1 E2. constructor; cbn; rewrite ?E1, ?E2; auto. discriminate. Qed.

  Lemma gam_src : forall i0 a s r, gam i0 a s -> gam i0 (srcAb r a) (snd (readSrc toks r s)).
  Proof. intros i0 a s [|] G; cbn; [apply gam_next; exact G|exact G]. Qed.

  Lemma mayBe_ok : forall i0 a s t, gam i0 a s -> current (s_idx s) = b t -> mayBe t a = true.
  Proof.
    intros i0 a s t G E. pose proof (g_tok _ _ _ G) as T. unfold mayBe. destruct (a_tok a) as [| |t'|]; cbn [tokOk] in T; try reflexivity.
    - apply String.eqb_eq. rewrite E in T. apply b_inj. exact T.
    - destruct (isEmpty t) eqn:Z; [|reflexivity]. rewrite (empty_b _ Z) in E. contradiction.
  Qed.

  Lemma gam_case : forall i0 a s r t, gam i0 a s -> fst (readSrc toks r s) = b t ->
      exists a', In a' (caseAb r t a) /\ gam i0 a' (snd (readSrc toks r s)).
  Proof.
    intros i0 a s [|] t G E; cbn [caseAb readSrc fst snd] in *.
    - eexists. split; [left; reflexivity|]. apply gam_nextIs; assumption.
    - rewrite (mayBe_ok _ _ _ _ G E). eexists. split; [left; reflexivity|]. apply gam_is; assumption.
  Qed.

  Lemma gam_call : forall i0 a s s' i, gam i0 a s -> s_idx s <= i < len -> s_idx s' = i -> s_obj s' = s_obj s -> gam i0 (callAb a) s'.
  Proof.
    intros i0 a s s' i [G1 G2 G3 G4 G5] L E E'. constructor; cbn; rewrite ?E, ?E'; [lia|lia| |discriminate|exact G5].
    destruct (a_tok a); cbn [tokOk] in *; auto. lia.
  Qed.

  Lemma refineT_ok : forall c i0 a s, gam i0 a s -> test c s = true -> exists a', In a' (refineT c a) /\ gam i0 a' s.
  Proof.
    induction c as [t| |f|f n|f g| |c IHc d IHd]; intros i0 a s G T; cbn [A2lIR.test refineT] in *;
      try (exists a; split; [left; reflexivity|exact G]).
    - apply beqb_eq in T. rewrite (mayBe_ok _ _ _ _ G T). eexists. split; [left; reflexivity|]. apply gam_is; [exact G|exact T].
    - eexists. split; [left; reflexivity|]. apply gam_nonempty; [exact G|]. intros E. rewrite E in T. congruence.
    - destruct (a_err a) as [[|]|] eqn:E; [| |].
      + eexists. split; [left; reflexivity|]. apply gam_err; assumption.
      + pose proof (g_err _ _ _ G _ E). congruence.
      + eexists. split; [left; reflexivity|]. apply gam_err; assumption.
    - apply orb_true_iff in T. destruct T as [T|T].
      + destruct (IHc _ _ _ G T) as (a' & I & G'). exists a'. split; [apply in_or_app; left; exact I|exact G'].
      + destruct (IHd _ _ _ G T) as (a' & I & G'). exists a'. split; [apply in_or_app; right; exact I|exact G'].
  Qed.

  Lemma refineF_ok : forall c i0 a s, gam i0 a s -> test c s = false -> exists a', In a' (refineF c a) /\ gam i0 a' s.
  Proof.
    induction c as [t| |f|f n|f g| |c IHc d IHd]; intros i0 a s G T; cbn [A2lIR.test refineF] in *;
      try (exists a; split; [left; reflexivity|exact G]).
    - destruct (isEmpty t) eqn:Z; [|exists a; split; [left; reflexivity|exact G]].
      assert (N : current (s_idx s) <> []) by (intros E; rewrite E, (empty_b _ Z) in T; discriminate).
      assert (Q : exists a', In a' [nonEmptyAb a] /\ gam i0 a' s)
        by (eexists; split; [left; reflexivity|]; apply gam_nonempty; assumption).
      pose proof (g_tok _ _ _ G) as K. destruct (a_tok a) as [| |[|c0 t0]|]; auto.
      cbn in K. contradiction.
    - destruct (a_err a) as [[|]|] eqn:E.
      + pose proof (g_err _ _ _ G _ E). congruence.
      + eexists. split; [left; reflexivity|]. apply gam_err; assumption.
      + eexists. split; [left; reflexivity|]. apply gam_err; assumption.
    - apply orb_false_iff in T. destruct T as [T1 T2].
      destruct (IHc _ _ _ G T1) as (a' & I & G'). destruct (IHd _ _ _ G' T2) as (a2 & I2 & G2).
      exists a2. split; [apply in_flat_map; exists a'; auto|exact G2].
  Qed.

  Definition covers (r : res) (i0 : nat) (gs os : list ab) : Prop :=
    match r with
    | Go s => exists g, In g gs /\ gam i0 g s
    | Out s => exists o, In o os /\ gam i0 o s
    | Bad | Fuel => False
    end.

  Lemma covers_app_l : forall r i0 gs os gs' os', covers r i0 gs os -> covers r i0 (gs ++ gs') (os ++ os').
  Proof.
    intros [s|s| |] i0 gs os gs' os' H; cbn in *; auto; destruct H as (g & I & G); exists g; split; auto;
      apply in_or_app; left; exact I.
  Qed.
  Lemma covers_app_r : forall r i0 gs os gs' os', covers r i0 gs' os' -> covers r i0 (gs ++ gs') (os ++ os').
  Proof.
    intros [s|s| |] i0 gs os gs' os' H; cbn in *; auto; destruct H as (g & I & G); exists g; split; auto;
      apply in_or_app; right; exact I.
  Qed.

  Lemma aor_some : forall x y gs os, aor x y = Some (gs, os) ->
      exists g o g' o', x = Some (g, o) /\ y = Some (g', o') /\ gs = g ++ g' /\ os = o ++ o'.
  Proof. intros [[g o]|] [[g' o']|] gs os H; cbn in H; try discriminate. injection H as <- <-. exists g, o, g', o'. auto. Qed.

  Lemma aall_ok : forall (f : ab -> aout) (R : st -> res) i0 l gs os,
      (forall a gs os, f a = Some (gs, os) -> forall s, gam i0 a s -> covers (R s) i0 gs os) ->
      aall f l = Some (gs, os) -> forall a s, In a l -> gam i0 a s -> covers (R s) i0 gs os.
  Proof.
    intros f R i0. induction l as [|a0 l IH]; intros gs os H E a s I G; [contradiction|].
    cbn [aall] in E. apply aor_some in E. destruct E as (g & o & g' & o' & E1 & E2 & -> & ->).
    destruct I as [->|I].
    - apply covers_app_l. eapply H; eassumption.
    - apply covers_app_r. eapply IH; eassumption.
  Qed.

  (** what holds at the start of each round *)
  Definition holds (e : option bool) (m : list string) (s : st) : Prop :=
    (forall x, e = Some x -> s_err s = x) /\ (forall f, In f m -> exists v, fget f (s_obj s) = Some (VMap v)).

  Lemma gam_round : forall s e m, s_idx s < len -> holds e m s -> gam (s_idx s) (round e m) s.
  Proof. intros s e m L [H H']. constructor; cbn; auto. lia. Qed.
  Lemma gam_lastRound : forall s e m, S (s_idx s) = len -> holds e m s -> gam (s_idx s) (lastRound e m) s.
  Proof. intros s e m L [H H']. constructor; cbn; auto; try lia. apply at_last. exact L. Qed.

  Lemma keeps_ok : forall e m i0 a s, keeps e m a = true -> gam i0 a s -> holds e m s.
  Proof.
    intros e m i0 a s K G. unfold keeps in K. apply andb_true_iff in K. destruct K as [K M]. split.
    - intros x ->. destruct x; [discriminate|].
      destruct (a_err a) as [[|]|] eqn:E; try discriminate. exact (g_err _ _ _ G _ E).
    - intros f I. rewrite forallb_forall in M. specialize (M f I). unfold hasMap in M. apply existsb_exists in M.
      destruct M as (g & I' & E). apply String.eqb_eq in E. subst g. apply (g_maps _ _ _ G). exact I'.
  Qed.

  (** each round moves the cursor *)
  Lemma iter_ok : forall (R : st -> res) e m gs os,
      (forall i0 s, gam i0 (round e m) s -> covers (R s) i0 gs os) -> forallb (progress e m) gs = true ->
      forall n s, s_idx s < len -> holds e m s -> len <= n + s_idx s ->
      exists s' i0 o, iter n R s = Go s' /\ s_idx s <= i0 /\ In o os /\ gam i0 o s'.
  Proof.
    intros R e m gs os HR HP. induction n as [|n IH]; intros s L E F; [lia|].
    pose proof (HR _ _ (gam_round s e m L E)) as HR'. cbn [iter].
    destruct (R s) as [s'|s'| |]; cbn [covers] in HR'; [| |contradiction|contradiction].
    - destruct HR' as (g & I & G'). rewrite forallb_forall in HP. specialize (HP g I). unfold progress in HP.
      apply andb_true_iff in HP. destruct HP as [P1 P2]. apply Nat.leb_le in P1.
      pose proof (g_low _ _ _ G'). pose proof (g_len _ _ _ G').
      destruct (IH s' (g_len _ _ _ G') (keeps_ok _ _ _ _ _ P2 G')) as (s2 & i2 & o & E2 & L2 & I2 & G5); [lia|].
      exists s2, i2, o. split; [exact E2|]. split; [lia|]. auto.
    - destruct HR' as (o & I & G'). exists s', (s_idx s), o. auto.
  Qed.

  (** each round moves the cursor or is the last but one *)
  Lemma iter_last_ok : forall (R : st -> res) e m gs os os',
      (forall i0 s, gam i0 (round e m) s -> covers (R s) i0 gs os) -> forallb (progressOrLast e m) gs = true ->
      (forall i0 s, gam i0 (lastRound e m) s -> covers (R s) i0 [] os') ->
      forall n s, s_idx s < len -> holds e m s -> len < n + s_idx s ->
      exists s', iter n R s = Go s' /\ s_idx s <= s_idx s' < len.
  Proof.
    intros R e m gs os os' HR HP HL. induction n as [|n IH]; intros s L E F; [lia|].
    pose proof (HR _ _ (gam_round s e m L E)) as HR'. cbn [iter].
    destruct (R s) as [s'|s'| |]; cbn [covers] in HR'; [| |contradiction|contradiction].
    - destruct HR' as (g & I & G'). rewrite forallb_forall in HP. specialize (HP g I). unfold progressOrLast in HP.
      apply andb_true_iff in HP. destruct HP as [P1 P2].
      pose proof (g_low _ _ _ G') as W. pose proof (g_len _ _ _ G') as W'. pose proof (g_tok _ _ _ G') as T.
      assert (C : s_idx s + 1 <= s_idx s' \/ S (s_idx s') = len).
      { apply orb_true_iff in P1. destruct P1 as [P1|P1]; [apply Nat.leb_le in P1; lia|].
        destruct (a_tok g); try discriminate. cbn [tokOk] in T. lia. }
      destruct C as [C|C].
      + destruct (IH s' W' (keeps_ok _ _ _ _ _ P2 G')) as (s2 & E2 & L2); [lia|]. exists s2. split; [exact E2|lia].
      + pose proof (HL _ _ (gam_lastRound s' e m C (keeps_ok _ _ _ _ _ P2 G'))) as HL'.
        destruct n as [|n]; [lia|]. cbn [iter].
        destruct (R s') as [s2|s2| |]; cbn [covers] in HL'; [destruct HL' as (? & [] & _)| |contradiction|contradiction].
        destruct HL' as (o & _ & [G1 G2 _ _ _]). exists s2. split; [reflexivity|lia].
    - destruct HR' as (o & I & [G1 G2 _ _ _]). exists s'. split; [reflexivity|lia].
  Qed.

  Lemma okLoop_ok : forall e (f : ab -> aout) (R : st -> res) gs,
      (forall a gs os, f a = Some (gs, os) -> forall i0 s, gam i0 a s -> covers (R s) i0 gs os) ->
      okLoop e f gs = true -> forall i0 g s, In g gs -> gam i0 g s ->
      exists s', iter fuel R s = Go s' /\ s_idx s <= s_idx s' < len.
  Proof.
    intros e f R gs H K i0 g s I G. unfold okLoop in K. set (m := mapsOf gs) in *. apply andb_true_iff in K. destruct K as [K1 K2].
    rewrite forallb_forall in K1. specialize (K1 g I).
    destruct (f (round e m)) as [[gs' os]|] eqn:E1; [|discriminate]. apply orb_true_iff in K2. destruct K2 as [K2|K2].
    - destruct (iter_ok R e m gs' os (fun i s => H _ _ _ E1 i s) K2 fuel s (g_len _ _ _ G) (keeps_ok _ _ _ _ _ K1 G))
        as (s' & i1 & o & E & L & _ & [G1 G2 _ _ _]); [lia|]. exists s'. split; [exact E|lia].
    - apply andb_true_iff in K2. destruct K2 as [K2 K3]. destruct (f (lastRound e m)) as [[[|] os']|] eqn:E2; try discriminate.
      apply (iter_last_ok R e m gs' os os' (fun i s => H _ _ _ E1 i s) K2 (fun i s => H _ _ _ E2 i s) fuel s (g_len _ _ _ G) (keeps_ok _ _ _ _ _ K1 G)).
      lia.
  Qed.

  Definition okStmt (x : stmt) : Prop := forall a gs os, chk x a = Some (gs, os) ->
    forall i0 s, gam i0 a s -> covers (exec x s) i0 gs os.
  Definition okBlock (k : block) : Prop := forall a gs os, chkb k a = Some (gs, os) ->
    forall i0 s, gam i0 a s -> covers (run k s) i0 gs os.
  Definition okCases (cs : cases) : Prop := forall r a gs os, chkc r cs a = Some (gs, os) ->
    forall i0 s, gam i0 a s ->
    match pick cs (fst (readSrc toks r s)) (snd (readSrc toks r s)) with
    | Some q => covers q i0 gs os
    | None => True
    end.
  Definition okFn (g : fn) : Prop := okfn g = true -> forall i, i < len ->
    exists v e j, call g i = Ret v e j /\ i <= j < len.

  Lemma one_go : forall i0 a s, gam i0 a s -> covers (Go s) i0 [a] [].
  Proof. intros i0 a s G. exists a. split; [left; reflexivity|exact G]. Qed.

  Lemma exec_callF : forall f g s, exec (CallF f g) s =
      match call g (s_idx s) with Ret v e i => Go (setIdx i (setErr e (setObj f v s))) | FBad => Bad | FFuel => Fuel end.
  Proof. reflexivity. Qed.
  Lemma exec_callV : forall f g s, exec (CallV f g) s =
      match call g (s_idx s) with Ret v e i => Go (setIdx i (setErr e (setVar f v s))) | FBad => Bad | FFuel => Fuel end.
  Proof. reflexivity. Qed.
  Lemma exec_if : forall c k k' s, exec (If c k k') s = if test c s then run k s else run k' s.
  Proof. reflexivity. Qed.
  Lemma exec_switch : forall r cs d s, exec (Switch r cs d) s =
      match pick cs (fst (readSrc toks r s)) (snd (readSrc toks r s)) with Some q => q | None => run d (snd (readSrc toks r s)) end.
  Proof. intros r cs d s. cbn [A2lIR.exec]. destruct (readSrc toks r s). reflexivity. Qed.
  Lemma run_seq : forall x k s, run (Seq x k) s = match exec x s with Go s' => run k s' | r => r end.
  Proof. reflexivity. Qed.
  Lemma pick_case : forall c k cs t s, pick (Case c k cs) t s = if beqb t (b c) then Some (run k s) else pick cs t s.
  Proof. reflexivity. Qed.
  Lemma call_straight : forall k i, call (Straight k) i =
      match run k (St [] [] false i) with
      | Go s | Out s => Ret (VObj (s_obj s)) (s_err s) (s_idx s) | Bad => FBad | Fuel => FFuel end.
  Proof. reflexivity. Qed.
  Lemma call_loop : forall pre body i, call (Loop pre body) i =
      match run pre (St [] [] false i) with
      | Go s => match iter fuel (run body) s with
                | Go s' | Out s' => Ret (VObj (s_obj s')) (s_err s') (s_idx s')
                | Bad => FBad
                | Fuel => FFuel
                end
      | Out s => Ret (VObj (s_obj s)) (s_err s) (s_idx s)
      | Bad => FBad
      | Fuel => FFuel
      end.
  Proof. reflexivity. Qed.

  Lemma sound : (forall x, okStmt x) /\ (forall k, okBlock k) /\ (forall cs, okCases cs) /\ (forall g, okFn g).
  Proof.
    apply ir_ind.
    - (* Next *) intros a gs os [= <- <-] i0 s G. cbn. apply one_go, gam_next, G.
    - (* Prev *) intros a gs os H i0 s G. cbn [chk] in H. destruct (a_low a) as [|l] eqn:L; [discriminate|].
      destruct G as [G1 G2 G3 G4 G5]. rewrite L in *. cbn [A2lIR.exec].
      destruct (s_idx s) as [|i] eqn:I; [lia|].
      destruct (a_tok a) eqn:T; try discriminate; injection H as <- <-; apply one_go; constructor; cbn; auto; lia.
    - (* Set_ *) intros f e a gs os [= <- <-] i0 s G. cbn [A2lIR.exec]. apply one_go.
      destruct e; cbn [setAb A2lIR.eval]; try (apply gam_assigned; exact G). apply gam_map. exact G.
    - (* App *) intros f e a gs os [= <- <-] i0 s G. cbn [A2lIR.exec]. apply one_go, gam_assigned. exact G.
    - (* Fill *) intros f n e a gs os [= <- <-] i0 s G. cbn [A2lIR.exec]. apply one_go, gam_assigned. exact G.
    - (* Put *) intros f v k a gs os H i0 s G. cbn [chk] in H. destruct (hasMap f (a_maps a)) eqn:M; [|discriminate].
      injection H as <- <-. unfold hasMap in M. apply existsb_exists in M. destruct M as (g & I & E).
      apply String.eqb_eq in E. subst g. destruct (g_maps _ _ _ G f I) as (m & E). cbn [A2lIR.exec]. rewrite E.
      apply one_go. replace a with (withMaps (a_maps a) (withMaps (f :: a_maps a) a)) by (destruct a; reflexivity). apply gam_less.
      + apply gam_map. exact G.
      + intros x X. right. exact X.
    - (* Num *) intros v n r a gs os [= <- <-] i0 s G. cbn [A2lIR.exec].
      pose proof (gam_src _ _ _ r G) as G'. destruct (readSrc toks r s) as [t s']. cbn [snd] in G'.
      destruct (readNum ParseFloat n t); apply one_go; eapply gam_noerr; try exact G'; reflexivity.
    - (* CallF *) intros f g IH a gs os H i0 s G. cbn [chk] in H. destruct (okfn g) eqn:E; [|discriminate].
      injection H as <- <-. rewrite exec_callF. destruct (IH E (s_idx s) (g_len _ _ _ G)) as (v & e & j & -> & L).
      apply one_go. apply (gam_assigned _ _ (setIdx j (setErr e s)) f v). eapply gam_call; [exact G|exact L|reflexivity|reflexivity].
    - (* CallV *) intros f g IH a gs os H i0 s G. cbn [chk] in H. destruct (okfn g) eqn:E; [|discriminate].
      injection H as <- <-. rewrite exec_callV. destruct (IH E (s_idx s) (g_len _ _ _ G)) as (v & e & j & -> & L).
      apply one_go. eapply gam_call; [exact G|exact L|reflexivity|reflexivity].
    - (* Raise *) intros a gs os [= <- <-] i0 s G. cbn [A2lIR.exec]. apply one_go.
      destruct G as [G1 G2 G3 G4 G5]. constructor; cbn; auto. intros e [= <-]. reflexivity.
    - (* Break *) intros a gs os [= <- <-] i0 s G. cbn. exists a. split; [left; reflexivity|exact G].
    - (* If *) intros c k IHk k' IHk' a gs os H i0 s G. cbn [chk] in H. apply aor_some in H.
      destruct H as (g & o & g' & o' & E1 & E2 & -> & ->). rewrite exec_if. destruct (test c s) eqn:T.
      + destruct (refineT_ok _ _ _ _ G T) as (a' & I & G'). apply covers_app_l.
        eapply (aall_ok (chkb k) (run k) i0); [|exact E1|exact I|exact G']. intros a0 gs0 os0 E s0. apply (IHk _ _ _ E).
      + destruct (refineF_ok _ _ _ _ G T) as (a' & I & G'). apply covers_app_r.
        eapply (aall_ok (chkb k') (run k') i0); [|exact E2|exact I|exact G']. intros a0 gs0 os0 E s0. apply (IHk' _ _ _ E).
    - (* Switch *) intros r cs IHc d IHd a gs os H i0 s G. cbn [chk] in H. apply aor_some in H.
      destruct H as (g & o & g' & o' & E1 & E2 & -> & ->). rewrite exec_switch.
      specialize (IHc r a g o E1 i0 s G). pose proof (gam_src _ _ _ r G) as G'.
      destruct (readSrc toks r s) as [t s']. cbn [fst snd] in *.
      destruct (pick cs t s') as [q|]; [apply covers_app_l; exact IHc|]. apply covers_app_r. exact (IHd _ _ _ E2 _ _ G').
    - (* Skip *) intros a gs os [= <- <-] i0 s G. apply one_go. exact G.
    - (* Seq *) intros x IHx k IHk a gs os H i0 s G. cbn [chkb] in H. unfold athen in H.
      destruct (chk x a) as [[g o]|] eqn:E; [|discriminate]. apply aor_some in H.
      destruct H as (g0 & o0 & g' & o' & E1 & E2 & -> & ->). injection E1 as <- <-. rewrite run_seq.
      specialize (IHx _ _ _ E _ _ G). destruct (exec x s) as [s'|s'| |]; cbn [covers] in IHx; try contradiction.
      + destruct IHx as (g1 & I & G'). apply covers_app_r.
        eapply (aall_ok (chkb k) (run k) i0); [|exact E2|exact I|exact G']. intros a0 gs0 os0 E0 s0. apply (IHk _ _ _ E0).
      + destruct IHx as (o1 & I & G'). exists o1. split; [apply in_or_app; left; exact I|exact G'].
    - (* Default *) intros r a gs os H i0 s G. cbn. exact I.
    - (* Case *) intros t k IHk cs IHc r a gs os H i0 s G. cbn [chkc] in H. apply aor_some in H.
      destruct H as (g & o & g' & o' & E1 & E2 & -> & ->). rewrite pick_case.
      destruct (beqb (fst (readSrc toks r s)) (b t)) eqn:T.
      + apply beqb_eq in T. destruct (gam_case _ _ _ _ _ G T) as (a' & I & G'). apply covers_app_l.
        eapply (aall_ok (chkb k) (run k) i0); [|exact E1|exact I|exact G']. intros a0 gs0 os0 E s0. apply (IHk _ _ _ E).
      + specialize (IHc _ _ _ _ E2 _ _ G). destruct (pick cs _ _); [apply covers_app_r; exact IHc|exact I].
    - (* Enum *) intros adv table _ i L. cbn [A2lIR.call].
      destruct (next_cases i L) as [(M & N & L')|(M & N & L')]; destruct adv; rewrite ?N;
        destruct (findText _ table); eexists; eexists; eexists; (split; [reflexivity|lia]).
    - (* Straight *) intros k IHk H i L. cbn [okfn] in H. destruct (chkb k head) as [[gs os]|] eqn:E; [|discriminate].
      assert (G : gam i head (St [] [] false i)) by (constructor; cbn; auto; [lia|intros e [= <-]; reflexivity|contradiction]).
      specialize (IHk _ _ _ E _ _ G). rewrite call_straight.
      destruct (run k _) as [s'|s'| |]; cbn [covers] in IHk; try contradiction;
        destruct IHk as (g & _ & [G1 G2 G3 G4 G5]); eexists; eexists; eexists; (split; [reflexivity|lia]).
    - (* Loop *) intros pre IHp body IHb H i L. cbn [okfn] in H.
      destruct (chkb pre head) as [[gs [|]]|] eqn:E1; try discriminate.
      assert (G : gam i head (St [] [] false i)) by (constructor; cbn; auto; [lia|intros e [= <-]; reflexivity|contradiction]).
      specialize (IHp _ _ _ E1 _ _ G). rewrite call_loop.
      destruct (run pre _) as [s'|s'| |]; cbn [covers] in IHp; try contradiction; [|destruct IHp as (? & [] & _)].
      destruct IHp as (g & I & G'). pose proof (g_low _ _ _ G').
      assert (Q : exists s2, iter fuel (run body) s' = Go s2 /\ s_idx s' <= s_idx s2 < len).
      { apply orb_true_iff in H. destruct H as [H|H]; eapply okLoop_ok; eauto. }
      destruct Q as (s2 & -> & L2). eexists; eexists; eexists; (split; [reflexivity|lia]).
  Qed.

  Theorem okfn_sound : forall g, okfn g = true -> forall i, i < len -> exists v e j, call g i = Ret v e j /\ i <= j < len.
  Proof. exact (proj2 (proj2 (proj2 sound))). Qed.

  Lemma endsLoop_ok : forall e t body gs, endsLoop e t (chkb body) gs = true ->
      forall i0 g s, In g gs -> gam i0 g s ->
      exists s', iter fuel (run body) s = Go s' /\ (s_err s' = false -> s_idx s < s_idx s' < len /\ current (s_idx s') = b t).
  Proof.
    intros e t body gs H i0 g s I G. unfold endsLoop in H. set (m := mapsOf gs) in *.
    apply andb_true_iff in H. destruct H as [H1 H]. rewrite forallb_forall in H1. specialize (H1 g I).
    destruct (chkb body (round e m)) as [[gs' os']|] eqn:E2; [|discriminate].
    apply andb_true_iff in H. destruct H as [H2 H3]. destruct sound as (_ & IHb & _ & _).
    destruct (iter_ok (run body) _ _ gs' os' (fun i0 s => IHb body _ _ _ E2 i0 s) H2 fuel s (g_len _ _ _ G) (keeps_ok _ _ _ _ _ H1 G))
      as (s2 & i1 & o & EI & L2 & IO & [K1 K2 K3 K4 K5]); [lia|].
    rewrite EI. eexists; (split; [reflexivity|]). intros EV.
    rewrite forallb_forall in H3. specialize (H3 o IO). unfold finalAt in H3.
    assert (Q : match a_tok o with TIs t' => String.eqb t t' && (1 <=? a_low o) | _ => false end = true).
    { destruct (a_err o) as [[|]|] eqn:EO; [pose proof (K4 _ eq_refl); congruence| |]; destruct (a_tok o); auto. }
    destruct (a_tok o) as [| |t'|]; try discriminate. apply andb_true_iff in Q. destruct Q as [HT HL].
    apply String.eqb_eq in HT. subst t'. apply Nat.leb_le in HL. split; [lia|exact K3].
  Qed.

  Theorem endsAt_sound : forall g t, endsAt g t = true -> forall i, i < len ->
      exists v e j, call g i = Ret v e j /\ (e = false -> i < j < len /\ current j = b t).
  Proof.
    intros g t H i L. unfold endsAt in H. destruct g as [| |pre body]; try discriminate.
    destruct (chkb pre head) as [[gs [|]]|] eqn:E1; try discriminate.
    assert (G : gam i head (St [] [] false i)) by (constructor; cbn; auto; [lia|intros e [= <-]; reflexivity|contradiction]).
    pose proof (proj1 (proj2 sound) pre _ _ _ E1 _ _ G) as IHp. rewrite call_loop.
    destruct (run pre _) as [s'|s'| |]; cbn [covers] in IHp; try contradiction; [|destruct IHp as (? & [] & _)].
    destruct IHp as (g & I & G'). pose proof (g_low _ _ _ G').
    assert (Q : exists s2, iter fuel (run body) s' = Go s2 /\ (s_err s2 = false -> s_idx s' < s_idx s2 < len /\ current (s_idx s2) = b t)).
    { apply orb_true_iff in H. destruct H as [H|H]; eapply endsLoop_ok; eauto. }
    destruct Q as (s2 & -> & Q). eexists; eexists; eexists; (split; [reflexivity|]). intros EV.
    destruct (Q EV). split; [lia|assumption].
  Qed.
End Sound.
