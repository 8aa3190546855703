(** The parsers keep only what stands between the first and the last token that
    they read. *)
From Coq Require Import String Ascii List Arith ZArith Bool Lia SpecFloat.
From Verif Require Import GoBase GoBaseFacts StrconvModel A2lIR A2lTokens A2lCheck A2lParsers A2lSpec A2lStrictProps OriginSpec.
From Verif Require A2lModSeq.
Import ListNotations.

(** ** A check of the programs

    A step back of the cursor comes only after a step forward, at a token that is
    not empty, with nothing kept in between.  Where a number is read or a function is
    called, all numbers kept so far were read without an error. *)

(** What is known in between: nothing; that the cursor has moved since something
    was kept, unless the tokens have ended; that it has moved. *)
Inductive mark := Kept | Tried | Moved.
Definition keeping (e : expr) (k : mark) : mark := match e with Cur | CatCur _ => Kept | _ => k end.
Definition allowed (e : expr) : bool := match e with Lit s => String.eqb s "DIRECT" | _ => true end.

Fixpoint nonEmpty (c : cond) : bool :=
  match c with
  | CurKw => true
  | CurIs t => negb (String.eqb t "")
  | Or c d => nonEmpty c && nonEmpty d
  | _ => false
  end.
Definition assume (c : cond) (k : mark) : mark := match k with Tried => if nonEmpty c then Moved else Tried | _ => k end.
Definition source (r : src) (k : mark) : mark := match r with FromNext => Tried | FromCur => k end.
Definition widthOk (n : num) : bool :=
  match n with NUint k | NInt k => existsb (N.eqb k) [8; 16; 32; 64]%N | NFloat => true end.

(** All ways through a block with the marks at its end, and whether all numbers were read
    (else, there is an error unless they were); a break passes with any mark. *)
Definition ways := option (list (mark * bool)).
Definition wor (x y : ways) : ways := match x, y with Some l, Some l' => Some (l ++ l') | _, _ => None end.
Fixpoint wall (f : mark * bool -> ways) (l : list (mark * bool)) : ways :=
  match l with [] => Some [] | k :: l' => wor (f k) (wall f l') end.

Fixpoint ck (x : stmt) (k : mark * bool) : ways :=
  let '(m, c) := k in
  match x with
  | Next => Some [(Tried, c)]
  | Prev => match m with Moved => Some [(Kept, c)] | _ => None end
  | Set_ _ e | App _ e | Fill _ _ e => if allowed e then Some [(keeping e m, c)] else None
  | Put _ _ _ => Some [(m, c)]
  | Num _ n _ => if c && widthOk n then Some [(Kept, false)] else None
  | CallF _ g | CallV _ g => if c && ckf g then Some [(Kept, false)] else None
  | Raise => Some [k]
  | Break => Some []
  | If cn a o => wor (ckb a (assume cn m, c)) (ckb o (m, match cn with ErrSet => true | _ => c end))
  | Switch r cs d => wor (ckc cs (source r m, c)) (ckb d (source r m, c))
  end
with ckb (b : block) (k : mark * bool) : ways :=
  match b with
  | Skip => Some [k]
  | Seq x b' => match ck x k with Some l => wall (ckb b') l | None => None end
  end
with ckc (cs : cases) (k : mark * bool) : ways :=
  match cs with
  | Default => Some []
  | Case _ b cs' => wor (ckb b k) (ckc cs' k)
  end
with ckf (g : fn) : bool :=
  match g with
  | Enum _ table => forallb (fun p => String.eqb (fst p) (snd p)) table
  | Straight k => match ckb k (Kept, true) with Some _ => true | None => false end
  | Loop pre body => match ckb pre (Kept, true), ckb body (Kept, true) with
                     | Some l, Some l' => forallb snd l && forallb snd l'
                     | _, _ => false
                     end
  end.

Lemma parsers_checked : forallb (fun p => ckf (snd p)) allParsers = true.
Proof. vm_compute. reflexivity. Qed.

(** ** The check is sound *)

Lemma origin_mono : forall (g g' : bytes -> Prop) pf lax v, (forall t, g t -> g' t) -> origin g pf lax v -> origin g' pf lax v.
Proof.
  intros g g' pf lax v G H. induction H.
  - apply OrText; auto.
  - apply OrEmpty.
  - apply OrDirect.
  - apply OrJoined; auto.
  - eapply OrInt; eauto.
  - eapply OrFloat; eauto.
  - eapply OrReInt; eauto.
  - eapply OrReFloat; eauto.
  - apply OrSet.
  - apply OrList; auto.
  - apply OrMap; auto.
  - apply OrObj; eauto.
Qed.

Definition kept (g : bytes -> Prop) (pf : bytes -> option spec_float) (lax : bool) (o : fields) : Prop := forall f v, In (f, v) o -> origin g pf lax v.

Lemma fget_in : forall f o v, fget f o = Some v -> exists f', In (f', v) o.
Proof.
  intros f. induction o as [|[g w] o IH]; cbn [fget]; intros v H; [discriminate|]. destruct (String.eqb f g).
  - injection H as <-. exists g. left. reflexivity.
  - destruct (IH v H) as [f' I]. exists f'. right. exact I.
Qed.
Lemma kept_get : forall g pf lax o f v, kept g pf lax o -> fget f o = Some v -> origin g pf lax v.
Proof. intros g pf lax o f v K H. destruct (fget_in _ _ _ H) as [f' I]. exact (K _ _ I). Qed.
Lemma in_fset : forall f v o x, In x (fset f v o) -> x = (f, v) \/ In x o.
Proof.
  intros f v. induction o as [|[g w] o IH]; cbn [fset]; intros x H.
  - destruct H as [<-|[]]. auto.
  - destruct (String.eqb f g).
    + destruct H as [<-|H]; [auto|right; right; exact H].
    + destruct H as [<-|H]; [right; left; reflexivity|]. destruct (IH x H); [auto|right; right; assumption].
Qed.
Lemma kept_set : forall g pf lax o f v, kept g pf lax o -> origin g pf lax v -> kept g pf lax (fset f v o).
Proof. intros g pf lax o f v K H f' w I. apply in_fset in I. destruct I as [I|I]; [injection I as -> ->; exact H|exact (K _ _ I)]. Qed.
Lemma in_mput : forall k v m x, In x (mput k v m) -> x = (k, v) \/ In x m.
Proof.
  intros k v. induction m as [|[g w] m IH]; cbn [mput]; intros x H.
  - destruct H as [<-|[]]. auto.
  - destruct (beqb k g).
    + destruct H as [<-|H]; [auto|right; right; exact H].
    + destruct H as [<-|H]; [right; left; reflexivity|]. destruct (IH x H); [auto|right; right; assumption].
Qed.
Lemma kept_mono : forall (g g' : bytes -> Prop) pf lax o, (forall t, g t -> g' t) -> kept g pf lax o -> kept g' pf lax o.
Proof. intros g g' pf lax o G K f v I. eapply origin_mono; [exact G|exact (K _ _ I)]. Qed.
Lemma kept_list : forall g pf lax o f v, kept g pf lax o -> In v (flist f o) -> origin g pf lax v.
Proof.
  intros g pf lax o f v K I. unfold flist in I. destruct (fget f o) as [w|] eqn:E; [|destruct I]. pose proof (kept_get _ _ _ _ _ _ K E) as W.
  destruct w; try (destruct I; fail). inversion W; subst. auto.
Qed.
Lemma kept_str : forall g pf lax o f, kept g pf lax o -> origin g pf lax (VStr (fstr f o)).
Proof.
  intros g pf lax o f K. unfold fstr. destruct (fget f o) as [w|] eqn:E; [|apply OrEmpty]. pose proof (kept_get _ _ _ _ _ _ K E) as W.
  destruct w; try apply OrEmpty. exact W.
Qed.

Lemma origin_lax : forall g pf l l' v, (l = true -> l' = true) -> origin g pf l v -> origin g pf l' v.
Proof.
  intros g pf l l' v L H. induction H.
  - apply OrText; auto.
  - apply OrEmpty.
  - apply OrDirect.
  - apply OrJoined; auto.
  - eapply OrInt; eauto.
  - eapply OrFloat; eauto.
  - eapply OrReInt; eauto.
  - eapply OrReFloat; eauto.
  - apply OrSet.
  - apply OrList; auto.
  - apply OrMap; auto.
  - apply OrObj; eauto.
Qed.
Lemma kept_lax : forall g pf l l' o, (l = true -> l' = true) -> kept g pf l o -> kept g pf l' o.
Proof. intros g pf l l' o L K f v I. eapply origin_lax; [exact L|exact (K _ _ I)]. Qed.

Section Sound.
  Variable toks : list bytes.
  Variable pf : bytes -> option spec_float.
  Variable fuel : nat.
  Hypothesis EN : ended toks.
  Notation run := (A2lIR.run isKeyword toks pf fuel).
  Notation pick := (A2lIR.pick isKeyword toks pf fuel).
  Notation call := (A2lIR.call isKeyword toks pf fuel).
  Notation exec := (A2lIR.exec isKeyword toks pf fuel).
  Notation next := (A2lIR.next toks).
  Notation nextTok := (A2lIR.nextTok toks).
  Notation current := (A2lIR.current toks).

  Lemma last_empty : forall i, moves toks i = false -> current i = [].
  Proof.
    intros i M. destruct EN as [l ->]. unfold moves in M. apply Nat.ltb_ge in M. rewrite app_length in M. cbn in M. unfold A2lIR.current.
    rewrite app_nth2 by lia. destruct (i - length l) as [|[|k]]; reflexivity.
  Qed.
  Lemma nextTok_current : forall i, nextTok i = current (next i).
  Proof. intros i. unfold A2lIR.nextTok, A2lIR.next. destruct (moves toks i) eqn:M; [reflexivity|]. symmetry. apply last_empty, M. Qed.
  Lemma next_le : forall i, i <= next i.
  Proof. intros i. unfold A2lIR.next. destruct (moves toks i); lia. Qed.

  Definition span (l : bool) (lo hi : nat) (s : st) : Prop :=
    lo <= hi /\ kept (between toks lo hi) pf l (s_obj s) /\ kept (between toks lo hi) pf l (s_var s).
  Definition ahead (l : bool) (lo : nat) (s : st) : Prop := exists i, s_idx s = S i /\ span l lo i s.
  Definition laxOf (c : bool) (s : st) : bool := negb c && s_err s.
  Definition good (lo : nat) (k : mark * bool) (s : st) : Prop :=
    let l := laxOf (snd k) s in
    span l lo (s_idx s) s /\
    match fst k with
    | Kept => True
    | Tried => current (s_idx s) <> [] -> ahead l lo s
    | Moved => ahead l lo s
    end.

  Lemma between_mono : forall lo hi hi', hi <= hi' -> forall t, between toks lo hi t -> between toks lo hi' t.
  Proof. intros lo hi hi' L t (k & K & E). exists k. split; [lia|exact E]. Qed.
  Lemma between_low : forall lo lo' hi, lo <= lo' -> forall t, between toks lo' hi t -> between toks lo hi t.
  Proof. intros lo lo' hi L t (k & K & E). exists k. split; [lia|exact E]. Qed.
  Lemma span_mono : forall l lo hi hi' s, hi <= hi' -> span l lo hi s -> span l lo hi' s.
  Proof.
    intros l lo hi hi' s L (A & B & C). split; [lia|].
    split; (eapply kept_mono; [exact (between_mono lo hi hi' L)|assumption]).
  Qed.
  Lemma span_lax : forall l l' lo hi s, (l = true -> l' = true) -> span l lo hi s -> span l' lo hi s.
  Proof. intros l l' lo hi s L (A & B & C). split; [exact A|]. split; (eapply kept_lax; [exact L|assumption]). Qed.
  Lemma span_obj : forall l lo hi s f v, span l lo hi s -> origin (between toks lo hi) pf l v -> span l lo hi (setObj f v s).
  Proof. intros l lo hi s f v (A & B & C) O. split; [exact A|]. split; [apply kept_set; assumption|exact C]. Qed.
  Lemma span_var : forall l lo hi s f v, span l lo hi s -> origin (between toks lo hi) pf l v -> span l lo hi (setVar f v s).
  Proof. intros l lo hi s f v (A & B & C) O. split; [exact A|]. split; [exact B|apply kept_set; assumption]. Qed.
  Lemma here : forall lo i, lo <= i -> between toks lo i (current i).
  Proof. intros lo i L. exists i. split; [lia|reflexivity]. Qed.
  Lemma weaken : forall lo m c s, good lo (m, c) s -> good lo (Kept, c) s.
  Proof. intros lo m c s [A _]. split; [exact A|exact Logic.I]. Qed.
  Lemma good_lax : forall lo m c s, good lo (m, c) s -> good lo (m, false) s.
  Proof.
    intros lo m c s [A B]. unfold good, laxOf in *. cbn [fst snd] in *. assert (L : negb c && s_err s = true -> negb false && s_err s = true) by (destruct c; [discriminate|auto]).
    split; [eapply span_lax; eassumption|]. destruct m; [exact Logic.I| |].
    - intros N. destruct (B N) as (i & E & SP). exists i. split; [exact E|eapply span_lax; eassumption].
    - destruct B as (i & E & SP). exists i. split; [exact E|eapply span_lax; eassumption].
  Qed.
  Lemma good_strict : forall lo m c s, s_err s = false -> good lo (m, c) s -> good lo (m, true) s.
  Proof. intros lo m c s E G. unfold good, laxOf in *. cbn [fst snd] in *. rewrite E in *. rewrite !andb_false_r in *. exact G. Qed.
  (** a change of the struct or a variable, with a value that is known already *)
  Lemma good_obj : forall lo m c s f v, good lo (m, c) s ->
    (forall hi, span (laxOf c s) lo hi s -> hi <= s_idx s -> origin (between toks lo hi) pf (laxOf c s) v) -> good lo (m, c) (setObj f v s).
  Proof.
    intros lo m c s f v [A B] O. change (laxOf (snd (m, c)) s) with (laxOf c s) in *. unfold good. change (laxOf (snd (m, c)) (setObj f v s)) with (laxOf c s).
    split; [cbn [s_idx setObj]; apply span_obj; auto|]. 
    assert (AH : ahead (laxOf c s) lo s -> ahead (laxOf c s) lo (setObj f v s)).
    { intros (i & E & S1). exists i. split; [exact E|]. apply span_obj; [exact S1|]. apply O; [exact S1|lia]. }
    cbn [fst] in *. destruct m; [exact Logic.I|intros N; apply AH, B, N|apply AH, B].
  Qed.
  Lemma good_next : forall lo m c s, good lo (m, c) s -> good lo (Tried, c) (setIdx (next (s_idx s)) s).
  Proof.
    intros lo m c s [A _]. cbn [snd] in A. split; [cbn [setIdx s_idx snd]; eapply (span_mono _ lo (s_idx s)); [apply next_le|exact A]|].
    cbn [setIdx s_idx fst]. intros N. unfold A2lIR.next in *. destruct (moves toks (s_idx s)) eqn:M; [|destruct N; apply last_empty, M].
    exists (s_idx s). split; [reflexivity|exact A].
  Qed.
  Lemma good_source : forall lo r m c s, good lo (m, c) s -> good lo (source r m, c) (snd (readSrc toks r s)) /\ fst (readSrc toks r s) = current (s_idx (snd (readSrc toks r s))).
  Proof.
    intros lo r m c s G. destruct r; cbn [readSrc source fst snd].
    - split; [eapply good_next; exact G|cbn [setIdx s_idx]; apply nextTok_current].
    - split; [exact G|reflexivity].
  Qed.

  Lemma eval_known : forall l e s lo hi, allowed e = true -> (match e with Cur | CatCur _ => s_idx s = hi | _ => True end) -> span l lo hi s -> 
    origin (between toks lo hi) pf l (eval toks e s).
  Proof.
    intros l e s lo hi A E (L & B & C). destruct e; cbn [eval].
    - subst hi. apply OrText. apply here. exact L.
    - destruct (fget v (s_var s)) as [w|] eqn:F; [exact (kept_get _ _ _ _ _ _ C F)|]. apply OrObj. intros f w [].
    - apply OrSet.
    - cbn in A. apply String.eqb_eq in A. subst. apply OrDirect.
    - apply OrMap; intros k v [].
    - subst hi. apply OrJoined; [apply kept_str; exact B|apply here; exact L].
  Qed.
  Lemma readNum_origin : forall (g : bytes -> Prop) n t v, g t -> readNum pf n t = Some v -> origin g pf false v.
  Proof.
    intros g n t v G H. destruct n as [k|k|]; cbn [readNum] in H.
    - destruct (ParseUint k t) as [z|] eqn:E; [|discriminate]. injection H as <-. eapply OrInt; [exact G|]. left. apply uint_iff in E. apply E.
    - destruct (ParseInt k t) as [z|] eqn:E; [|discriminate]. injection H as <-. eapply OrInt; [exact G|]. unfold ParseInt in E.
      assert (P : forall r n, ParseUint 64 r = Some n -> numeral r n) by (intros r n U; apply uint_iff in U; apply U).
      destruct t as [|c t]; [cbn in E; discriminate|].
      assert (K : forall r, (match ParseUint 64 r with Some n => if (n <? 2 ^ (Z.of_N k - 1))%Z then Some n else None | None => None end) = Some z -> numeral r z).
      { intros r Q. destruct (ParseUint 64 r) as [m|] eqn:U; [|discriminate]. destruct (m <? _)%Z; [|discriminate]. injection Q as <-. exact (P _ _ U). }
      assert (K' : forall r, (match ParseUint 64 r with Some n => if (n <=? 2 ^ (Z.of_N k - 1))%Z then Some (- n)%Z else None | None => None end) = Some z -> numeral r (- z)).
      { intros r Q. destruct (ParseUint 64 r) as [m|] eqn:U; [|discriminate]. destruct (m <=? _)%Z; [|discriminate]. injection Q as <-. rewrite Z.opp_involutive. exact (P _ _ U). }
      destruct (ascii_dec c "+") as [->|N1]; [right; left; exists t; split; [reflexivity|apply K; exact E]|].
      destruct (ascii_dec c "-") as [->|N2]; [right; right; exists t; split; [reflexivity|apply K'; exact E]|].
      left. apply K. destruct c as [[] [] [] [] [] [] [] []]; first [exact E|destruct N1; reflexivity|destruct N2; reflexivity].
    - destruct (pf t) as [f|] eqn:E; [|discriminate]. injection H as <-. eapply OrFloat; eauto.
  Qed.
  Lemma failedUint_bounds : forall k t acc, failedUint k acc t = 0%N \/ failedUint k acc t = (2 ^ k - 1)%N.
  Proof. intros k. induction t as [|c t IH]; intros acc; cbn [failedUint]; [auto|]. destruct (digit_val c); [|auto]. destruct (_ <? _)%N; auto. Qed.
  Lemma failed_origin : forall (g : bytes -> Prop) n t, g t -> widthOk n = true -> readNum pf n t = None -> origin g pf true (failedNum n t).
  Proof.
    intros g n t G W H. 
    assert (K : forall k, existsb (N.eqb k) [8; 16; 32; 64]%N = true -> width (Z.of_N k) /\ (1 <= Z.of_N k <= 64)%Z).
    { intros k E. apply existsb_exists in E. destruct E as (x & I & E). apply N.eqb_eq in E. subst x. cbn in I. repeat (destruct I as [<-|I]; [split; [cbn; tauto|lia]|]). destruct I. }
    destruct n as [k|k|]; cbn [readNum failedNum widthOk] in *.
    - destruct (K _ W) as [W1 W2]. apply (OrReInt _ _ _ t); [reflexivity|exact G|]. apply (ReUnsigned _ _ (Z.of_N k)); [exact W1| |].
      + intros n N. destruct (Z.le_gt_cases (2 ^ Z.of_N k) n) as [L|L]; [exact L|]. assert (E : ParseUint k t = Some n) by (apply uint_iff; split; [exact N|lia]).
        rewrite E in H. discriminate.
      + destruct (failedUint_bounds k t 0) as [->| ->]; [left; reflexivity|right]. rewrite N2Z.inj_sub, N2Z.inj_pow; [reflexivity|].
        pose proof (N.pow_nonzero 2 k ltac:(discriminate)). lia.
    - destruct (K _ W) as [W1 W2]. apply (OrReInt _ _ _ t); [reflexivity|exact G|]. apply (ReSigned _ _ (Z.of_N k)); [exact W1| |].
      + intros n N L. assert (E : readNum pf (NInt k) t = Some (VInt n)).
        { apply C73_signed; [lia|]. exists n. auto. }
        cbn [readNum] in E. congruence.
      + unfold failedInt. destruct (match t with "+"%char :: r => (false, r) | "-"%char :: r => (true, r) | _ => (false, t) end) as [neg r].
        destruct (_ || _); [|left; reflexivity]. destruct neg; auto.
    - apply (OrReFloat _ _ _ t); [reflexivity|exact G|]. destruct (pf t) eqn:E; [discriminate|]. apply ReFloat; [exact E|]. unfold failedFloat.
      destruct (readFloat t) as [[[[[] ?] ?] ?]|]; auto.
  Qed.
  Lemma nonEmpty_ok : forall c s, nonEmpty c = true -> test isKeyword toks c s = true -> current (s_idx s) <> [].
  Proof.
    induction c; cbn [nonEmpty test]; intros st N T; try discriminate.
    - apply negb_true_iff, String.eqb_neq in N. apply beqb_eq in T. rewrite T. destruct s; [congruence|discriminate].
    - intros Z. rewrite Z in T. vm_compute in T. discriminate.
    - apply andb_true_iff in N. destruct N as [N1 N2]. apply orb_true_iff in T. destruct T; [apply IHc1|apply IHc2]; assumption.
  Qed.

  (** ** Programs *)
  Definition goesOk (lo : nat) (l : list (mark * bool)) (r : res) : Prop :=
    match r with
    | Go s' => exists k', In k' l /\ good lo k' s'
    | Out s' => good lo (Kept, false) s'
    | _ => True
    end.
  Lemma goes_incl : forall lo l l' r, incl l l' -> goesOk lo l r -> goesOk lo l' r.
  Proof. intros lo l l' r I H. destruct r; cbn in *; auto. destruct H as (k & K & G). exists k. split; [apply I, K|exact G]. Qed.
  Lemma wor_some : forall x y l, wor x y = Some l -> exists a b, x = Some a /\ y = Some b /\ l = a ++ b.
  Proof. intros [a|] [c|] l H; try discriminate. injection H as <-. eauto. Qed.
  Lemma wall_some : forall f ks l k, wall f ks = Some l -> In k ks -> exists l', f k = Some l' /\ incl l' l.
  Proof.
    intros f. induction ks as [|x ks IH]; cbn [wall]; intros l k H I; [destruct I|]. apply wor_some in H. destruct H as (a & c & A & C & ->).
    destruct I as [->|I].
    - exists a. split; [exact A|apply incl_appl, incl_refl].
    - destruct (IH c k C I) as (l' & E & J). exists l'. split; [exact E|apply incl_appr, J].
  Qed.

  Lemma keep_known : forall e m c lo s f w, allowed e = true -> good lo (m, c) s ->
    (forall hi, span (laxOf c s) lo hi s -> origin (between toks lo hi) pf (laxOf c s) (eval toks e s) -> origin (between toks lo hi) pf (laxOf c s) w) ->
    good lo (keeping e m, c) (setObj f w s).
  Proof.
    intros e m c lo s f w A G W.
    assert (D : keeping e m = Kept \/ (keeping e m = m /\ forall hi, span (laxOf c s) lo hi s -> origin (between toks lo hi) pf (laxOf c s) (eval toks e s))).
    { destruct e; cbn [keeping]; first [left; reflexivity | right; split; [reflexivity|]; intros hi SP; apply eval_known; [exact A|exact Logic.I|exact SP]]. }
    destruct D as [->|[-> D]].
    - destruct G as [GS _]. cbn [snd] in GS. split; [|exact Logic.I]. cbn [setObj s_idx snd]. apply span_obj; [exact GS|]. apply W; [exact GS|]. apply eval_known; [exact A| |exact GS].
      destruct e; try exact Logic.I; reflexivity.
    - apply good_obj; [exact G|]. intros hi SP _. apply W; auto.
  Qed.

  Lemma call_good : forall lo m s v e j, good lo (m, true) s -> s_idx s <= j -> origin (between toks (s_idx s) j) pf e v ->
    (forall f, good lo (Kept, false) (setIdx j (setErr e (setObj f v s)))) /\ (forall x, good lo (Kept, false) (setIdx j (setErr e (setVar x v s)))).
  Proof.
    intros lo m s v e j [GS _] L O. cbn [snd] in GS. change (laxOf true s) with false in GS.
    pose proof (span_mono false lo _ j s L GS) as S0. assert (S1 : span e lo j s) by (eapply span_lax; [|exact S0]; discriminate).
    assert (O' : origin (between toks lo j) pf e v) by (eapply origin_mono; [|exact O]; apply between_low; apply GS).
    split; intros f; (split; [|exact Logic.I]); cbn [setIdx setErr s_idx snd].
    - pose proof (span_obj e lo j s f v S1 O') as (A & B & C). split; [exact A|]. split; [exact B|exact C].
    - pose proof (span_var e lo j s f v S1 O') as (A & B & C). split; [exact A|]. split; [exact B|exact C].
  Qed.

  Lemma iter_good : forall (body : st -> res) l lo, forallb snd l = true -> (forall s, good lo (Kept, true) s -> goesOk lo l (body s)) ->
    forall n s, good lo (Kept, true) s -> match iter n body s with Go s' | Out s' => good lo (Kept, false) s' | _ => True end.
  Proof.
    intros body l lo CL H. induction n as [|n IH]; intros s G; cbn [iter]; [exact Logic.I|]. specialize (H s G). destruct (body s) as [s'|s'| |]; cbn in H; try exact Logic.I.
    - destruct H as ([m c] & I & G'). pose proof (proj1 (forallb_forall _ _) CL _ I) as C. cbn [snd] in C. subst c. apply IH. eapply weaken. exact G'.
    - exact H.
  Qed.

  Lemma exec_switch : forall r cs d s, exec (Switch r cs d) s = let '(t, s') := readSrc toks r s in match pick cs t s' with Some q => q | None => run d s' end.
  Proof. reflexivity. Qed.
  Lemma call_straight : forall k i, call (Straight k) i = match run k (St [] [] false i) with
      | Go s | Out s => Ret (VObj (s_obj s)) (s_err s) (s_idx s) | Bad => FBad | Fuel => FFuel end.
  Proof. reflexivity. Qed.
  Lemma call_loop : forall pre body i, call (Loop pre body) i = match run pre (St [] [] false i) with
                       | Go s => match iter fuel (run body) s with
                                 | Go s' | Out s' => Ret (VObj (s_obj s')) (s_err s') (s_idx s')
                                 | Bad => FBad
                                 | Fuel => FFuel
                                 end
                       | Out s => Ret (VObj (s_obj s)) (s_err s) (s_idx s)
                       | Bad => FBad
                       | Fuel => FFuel
                       end.
  Proof. reflexivity. Qed.

  Lemma origins :
    (forall x k l, ck x k = Some l -> forall lo s, good lo k s -> goesOk lo l (exec x s)) /\
    (forall x k l, ckb x k = Some l -> forall lo s, good lo k s -> goesOk lo l (run x s)) /\
    (forall x k l, ckc x k = Some l -> forall lo t s q, good lo k s -> pick x t s = Some q -> goesOk lo l q) /\
    (forall g, ckf g = true -> forall i v e j, call g i = Ret v e j -> i <= j /\ origin (between toks i j) pf e v).
  Proof.
    apply ir_ind; cbn [ck ckb ckc ckf].
    - intros [m c] l [= <-] lo s G. exists (Tried, c). split; [left; reflexivity|]. eapply good_next. exact G.
    - intros [m c] l H lo s G. destruct m; try discriminate. injection H as <-. destruct G as [_ (i & E & SP)]. cbn [A2lIR.exec]. rewrite E.
      exists (Kept, c). split; [left; reflexivity|]. split; [exact SP|exact Logic.I].
    - intros f e [m c] l H lo s G. destruct (allowed e) eqn:A; [|discriminate]. injection H as <-. cbn [A2lIR.exec]. eexists. split; [left; reflexivity|].
      apply keep_known; auto.
    - intros f e [m c] l H lo s G. destruct (allowed e) eqn:A; [|discriminate]. injection H as <-. cbn [A2lIR.exec]. eexists. split; [left; reflexivity|].
      apply keep_known; [exact A|exact G|]. intros hi SP O. apply OrList. intros v I. apply in_app_or in I. destruct I as [I|[<-|[]]]; [|exact O].
      exact (kept_list _ _ _ _ _ _ (proj1 (proj2 SP)) I).
    - intros f n e [m c] l H lo s G. destruct (allowed e) eqn:A; [|discriminate]. injection H as <-. cbn [A2lIR.exec]. eexists. split; [left; reflexivity|].
      apply keep_known; [exact A|exact G|]. intros hi SP O. apply OrList. intros v I. apply repeat_spec in I. subst v. exact O.
    - intros f v kf [m c] l [= <-] lo s G. cbn [A2lIR.exec]. destruct (fget f (s_obj s)) as [[]|] eqn:F; try exact Logic.I. exists (m, c). split; [left; reflexivity|].
      apply good_obj; [exact G|]. intros hi SP _. pose proof (kept_get _ _ _ _ _ _ (proj1 (proj2 SP)) F) as M. inversion M as [| | | | | | | | | |? M1 M2|]; subst.
      assert (O : origin (between toks lo hi) pf (laxOf c s) (eval toks (Var v) s)) by (apply eval_known; [reflexivity|exact Logic.I|exact SP]).
      apply OrMap; intros k0 v0 I; apply in_mput in I; (destruct I as [I|I]; [injection I as -> ->|]); eauto.
      unfold varName. cbn [eval]. destruct (fget v (s_var s)) as [[]|]; auto. unfold fstr. destruct (fget kf fields) as [[]|] eqn:FK; auto.
      right. exists fields, kf. auto.
    - intros v n r [m c] l H lo s G. destruct c; [|discriminate]. destruct (widthOk n) eqn:W; [|discriminate]. injection H as <-. cbn [A2lIR.exec].
      pose proof (good_source lo r m true s G) as [GS T]. destruct (readSrc toks r s) as [t s'] eqn:R. cbn [fst snd] in GS, T.
      destruct GS as [SP _]. cbn [snd] in SP. change (laxOf true s') with false in SP.
      assert (GT : between toks lo (s_idx s') t) by (rewrite T; apply here; apply SP).
      assert (K : forall e w, origin (between toks lo (s_idx s')) pf e w -> good lo (Kept, false) (setErr e (setVar v w s'))).
      { intros e w O. split; [|exact Logic.I]. cbn [setErr setVar s_idx snd]. assert (S1 : span e lo (s_idx s') s') by (eapply span_lax; [|exact SP]; discriminate).
        pose proof (span_var e lo _ s' v w S1 O) as (A & B & C). split; [exact A|]. split; [exact B|exact C]. }
      destruct (readNum pf n t) as [w|] eqn:RN; exists (Kept, false); (split; [left; reflexivity|]); apply K.
      + eapply readNum_origin; eassumption.
      + eapply failed_origin; eassumption.
    - intros f g IH [m c] l H lo s G. destruct c; [|discriminate]. destruct (ckf g) eqn:CG; [|discriminate]. injection H as <-. rewrite A2lModSeq.exec_callF.
      destruct (call g (s_idx s)) as [v e j| |] eqn:CL; try exact Logic.I.
      destruct (IH eq_refl _ _ _ _ CL) as [L O]. exists (Kept, false). split; [left; reflexivity|]. apply (call_good lo m s v e j G L O).
    - intros f g IH [m c] l H lo s G. destruct c; [|discriminate]. destruct (ckf g) eqn:CG; [|discriminate]. injection H as <-. rewrite A2lModSeq.exec_callV.
      destruct (call g (s_idx s)) as [v e j| |] eqn:CL; try exact Logic.I.
      destruct (IH eq_refl _ _ _ _ CL) as [L O]. exists (Kept, false). split; [left; reflexivity|]. apply (call_good lo m s v e j G L O).
    - intros [m c] l [= <-] lo s G. exists (m, c). split; [left; reflexivity|]. destruct G as [A B]. unfold good, laxOf in *. cbn [setErr s_err s_idx fst snd] in *.
      assert (X : negb c && s_err s = true -> negb c && true = true) by (destruct c; [discriminate|auto]).
      split; [eapply span_lax; [exact X|exact A]|]. destruct m; [exact Logic.I| |].
      + intros N. destruct (B N) as (i & E & SP). exists i. split; [exact E|eapply span_lax; [exact X|exact SP]].
      + destruct B as (i & E & SP). exists i. split; [exact E|eapply span_lax; [exact X|exact SP]].
    - intros [m c] l _ lo s G. eapply good_lax, weaken. exact G.
    - intros cn a IA o IO [m c] l H lo s G. apply wor_some in H. destruct H as (la & lb & HA & HB & ->). rewrite A2lModSeq.exec_if. destruct (test isKeyword toks cn s) eqn:T.
      + eapply goes_incl; [apply incl_appl, incl_refl|]. apply (IA _ _ HA). destruct m; cbn [assume]; try exact G. destruct (nonEmpty cn) eqn:NE; [|exact G].
        destruct G as [G1 G2]. split; [exact G1|]. apply G2. eapply nonEmpty_ok; eassumption.
      + eapply goes_incl; [apply incl_appr, incl_refl|]. apply (IO _ _ HB). destruct cn; try exact G. eapply good_strict; [exact T|exact G].
    - intros r cs IC d ID [m c] l H lo s G. apply wor_some in H. destruct H as (la & lb & HA & HB & ->). rewrite exec_switch. pose proof (good_source lo r m c s G) as [GS _].
      destruct (readSrc toks r s) as [t s']. cbn [snd] in GS. destruct (pick cs t s') as [q|] eqn:P.
      + eapply goes_incl; [apply incl_appl, incl_refl|]. eapply IC; eauto.
      + eapply goes_incl; [apply incl_appr, incl_refl|]. eapply ID; eauto.
    - intros k l [= <-] lo s G. exists k. split; [left; reflexivity|]. exact G.
    - intros x IX b' IB k l H lo s G. destruct (ck x k) as [lx|] eqn:X; [|discriminate]. rewrite A2lModSeq.run_seq. specialize (IX _ _ X lo s G).
      destruct (exec x s) as [s'|s'| |]; cbn in IX; try exact Logic.I; [|exact IX]. destruct IX as (k' & I & G').
      destruct (wall_some _ _ _ _ H I) as (l' & E & J). eapply goes_incl; [exact J|]. eapply IB; eauto.
    - intros k l _ lo t s q G H. discriminate.
    - intros t0 b' IB cs IC k l H lo t s q G P. apply wor_some in H. destruct H as (la & lb & HA & HB & ->). rewrite A2lModSeq.pick_case in P. destruct (beqb t (b t0)).
      + injection P as <-. eapply goes_incl; [apply incl_appl, incl_refl|]. eapply IB; eauto.
      + eapply goes_incl; [apply incl_appr, incl_refl|]. eapply IC; eauto.
    - intros adv table H i v e j CL. cbn [A2lIR.call] in CL. rewrite nextTok_current in CL.
      assert (K : forall i' v' e' j', i <= i' -> match findText (current i') table with Some v => Ret (VStr v) false i' | None => Ret (VStr []) true i' end = Ret v' e' j' ->
        i <= j' /\ origin (between toks i j') pf e' v').
      { intros i' v' e' j' L E. assert (FT : forall t w, findText t table = Some w -> w = t).
        { clear - H. induction table as [|[c w0] table IH]; cbn [findText]; intros t w E; [discriminate|]. cbn [forallb fst snd] in H. apply andb_true_iff in H. destruct H as [H1 H2].
          apply String.eqb_eq in H1. subst w0. destruct (beqb t (b c)) eqn:B; [|exact (IH H2 _ _ E)]. injection E as <-. symmetry. apply beqb_eq. exact B. }
        destruct (findText (current i') table) as [w|] eqn:F; injection E as <- <- <-; (split; [exact L|]); [|apply OrEmpty].
        rewrite (FT _ _ F). apply OrText. apply here. exact L. }
      destruct adv; [exact (K (next i) v e j (next_le i) CL)|exact (K i v e j (Nat.le_refl i) CL)].
    - intros k IK H i v e j CL. destruct (ckb k (Kept, true)) as [l|] eqn:C; [|discriminate]. rewrite call_straight in CL.
      assert (G : good i (Kept, true) (St [] [] false i)) by (split; [|exact Logic.I]; split; [apply Nat.le_refl|]; split; intros f w []).
      specialize (IK _ _ C i _ G). destruct (run k (St [] [] false i)) as [s'|s'| |]; try discriminate; injection CL as <- <- <-; cbn in IK.
      + destruct IK as ([m c] & _ & G'). apply good_lax in G'. destruct G' as [SP _]. split; [apply SP|]. apply OrObj. apply SP.
      + destruct IK as [SP _]. split; [apply SP|]. apply OrObj. apply SP.
    - intros pre IP body IB H i v e j CL. destruct (ckb pre (Kept, true)) as [l|] eqn:C; [|discriminate]. destruct (ckb body (Kept, true)) as [l'|] eqn:C'; [|discriminate].
      apply andb_true_iff in H. destruct H as [H1 H2]. rewrite call_loop in CL.
      assert (G : good i (Kept, true) (St [] [] false i)) by (split; [|exact Logic.I]; split; [apply Nat.le_refl|]; split; intros f w []).
      specialize (IP _ _ C i _ G). destruct (run pre (St [] [] false i)) as [s'|s'| |]; try discriminate; cbn in IP.
      + destruct IP as ([m c] & I & GP). pose proof (proj1 (forallb_forall _ _) H1 _ I) as CC. cbn [snd] in CC. subst c. apply weaken in GP.
        pose proof (iter_good (run body) l' i H2 (fun s G => IB _ _ C' i s G) fuel s' GP) as GI.
        destruct (iter fuel (run body) s') as [s2|s2| |]; try discriminate; injection CL as <- <- <-; destruct GI as [SP _]; (split; [apply SP|]); apply OrObj; apply SP.
      + injection CL as <- <- <-. destruct IP as [SP _]. split; [apply SP|]. apply OrObj. apply SP.
  Qed.
End Sound.
