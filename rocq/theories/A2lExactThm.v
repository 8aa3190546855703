(** The parsers read exactly what [reads] says. *)
From Coq Require Import String Ascii List Arith NArith ZArith Bool Lia SpecFloat.
From Verif Require Import GoBase GoBaseFacts A2lIR A2lTokens A2lSpec A2lGrammar A2lCheck A2lModProps A2lExactSpec A2lExact.
Import ListNotations.
Local Open Scope string_scope.
Local Open Scope list_scope.

(** ** Lists of names *)

Lemma oneOf_in : forall s l, oneOf s l = true <-> In s l.
Proof.
  intros s l. unfold oneOf. rewrite existsb_exists. split.
  - intros (x & I & E). apply String.eqb_eq in E. subst. exact I.
  - intros I. exists s. split; [exact I|apply String.eqb_refl].
Qed.
Lemma oneOf_out : forall s l, oneOf s l = false <-> ~ In s l.
Proof. intros s l. rewrite <- oneOf_in. destruct (oneOf s l); split; congruence. Qed.
Lemma noneOf_out : forall l l' s, noneOf l l' = true -> In s l -> ~ In s l'.
Proof. intros l l' s H I. unfold noneOf in H. rewrite forallb_forall in H. specialize (H s I). apply negb_true_iff, oneOf_out in H. exact H. Qed.
Lemma distinct_nodup : forall l, distinct l = true -> NoDup l.
Proof.
  induction l as [|s l IH]; intros H; [constructor|]. cbn in H. apply andb_true_iff in H. destruct H as [H1 H2].
  apply negb_true_iff, oneOf_out in H1. constructor; auto.
Qed.
Lemma within_in : forall l l' s, within l l' = true -> In s l -> In s l'.
Proof. intros l l' s H I. unfold within in H. rewrite forallb_forall in H. apply oneOf_in, H, I. Qed.

Lemma fbool_set : forall f g v o, fbool f (fset g v o) = if String.eqb f g then match v with VBool x => x | _ => false end else fbool f o.
Proof.
  intros f g v o. unfold fbool. destruct (String.eqb_spec f g) as [->|N]; [rewrite fget_set|rewrite fget_other by exact N]; reflexivity.
Qed.

Lemma skipn_cons : forall A (l : list A) m x, nth_error l m = Some x -> skipn m l = x :: skipn (S m) l.
Proof. intros A l. induction l as [|y l IH]; intros [|m] x H; try discriminate; cbn in *; [congruence|]. apply IH, H. Qed.
Lemma skipn_none : forall A (l : list A) m, nth_error l m = None -> skipn m l = [].
Proof. intros A l m H. apply nth_error_None in H. apply skipn_all2. exact H. Qed.

Lemma nth_error_skipn : forall A (l : list A) n m, nth_error (skipn n l) m = nth_error l (n + m).
Proof. intros A l. induction l as [|x l IH]; intros [|n] m; try reflexivity; cbn; [destruct m; reflexivity|apply IH]. Qed.

(** ** Words *)

Section Words.
  Variable pf : bytes -> option spec_float.

  (** what a word that is not the end of the file is read as *)
  Definition wordVal (ty : ptype) (t : bytes) : option val :=
    match ty with
    | Text | Any => Some (VStr t)
    | Number n => readNum pf n t
    | Choice texts => if existsb (fun s => beqb t (b s)) texts then Some (VStr t) else None
    end.
  Lemma fits_val : forall ty t v, t <> [] -> isKeyword t = false -> (fits pf ty t v <-> wordVal ty t = Some v).
  Proof.
    intros ty t v N K. unfold fits. destruct ty as [| |n|l]; cbn [wordVal].
    - split; [intros (_ & _ & ->); reflexivity|intros H; injection H as <-; auto].
    - split; [intros (_ & ->); reflexivity|intros H; injection H as <-; auto].
    - split; [intros (_ & _ & H); exact H|auto].
    - split.
      + intros (_ & _ & (s & I & ->) & ->).
        replace (existsb _ l) with true; [reflexivity|]. symmetry. apply existsb_exists. exists s. split; [exact I|apply beqb_refl].
      + destruct (existsb _ l) eqn:E; [|discriminate]. intros H. injection H as <-. apply existsb_exists in E. destruct E as (s & I & E).
        apply beqb_eq in E. repeat split; auto. exists s. auto.
  Qed.
  Lemma fits_any : forall ty t v, (match ty with Any => true | _ => false end) = true -> t <> [] -> (fits pf ty t v <-> wordVal ty t = Some v).
  Proof. intros [| |n|l] t v H N; try discriminate. unfold fits. cbn. split; [intros (_ & ->); reflexivity|intros E; injection E as <-; auto]. Qed.
  Lemma fits_kw : forall ty t v, (match ty with Any => true | _ => false end) = false -> fits pf ty t v -> isKeyword t = false.
  Proof. intros [| |n|l] t v H (N & F); try discriminate; apply F. Qed.
End Words.

Lemma findText_table : forall table t, forallb (fun e => String.eqb (fst e) (snd e)) table = true ->
    findText t table = if existsb (fun s => beqb t (b s)) (map fst table) then Some t else None.
Proof.
  induction table as [|[c v] table IH]; intros t H; [reflexivity|]. cbn in H. apply andb_true_iff in H. destruct H as [H1 H2].
  apply String.eqb_eq in H1. subst v. cbn [findText map fst existsb]. destruct (beqb t (b c)) eqn:E.
  - apply beqb_eq in E. subst. reflexivity.
  - cbn. apply IH, H2.
Qed.

Lemma choice_table : forall texts table t, tableOk texts table = true -> isKeyword t = false ->
    findText t table = if existsb (fun s => beqb t (b s)) texts then Some t else None.
Proof.
  intros texts table t H K. unfold tableOk in H. apply andb_true_iff in H. destruct H as [H H3]. apply andb_true_iff in H. destruct H as [H1 H2].
  rewrite findText_table by exact H1.
  assert (FR : forall s l, t = b s -> In s l -> In s (freeWords l)).
  { intros s l -> I. unfold freeWords. apply filter_In. split; [exact I|]. rewrite K. reflexivity. }
  assert (X : existsb (fun s => beqb t (b s)) (map fst table) = existsb (fun s => beqb t (b s)) texts); [|rewrite X; reflexivity].
  apply eq_iff_eq_true. rewrite !existsb_exists. split; intros (s & I & E); exists s; (split; [|exact E]); apply beqb_eq in E.
  - apply (within_in _ _ _ H3), FR; auto.
  - apply (within_in _ _ _ H2), FR; auto.
Qed.

Section Run.
  Variable toks : list bytes.
  Variable pf : bytes -> option spec_float.
  Hypothesis last_empty : ended toks.

  Notation tok := (tok toks).
  Notation len := (List.length toks).
  Notation run := (run isKeyword toks pf).
  Notation exec := (exec isKeyword toks pf).
  Notation pick := (pick isKeyword toks pf).
  Notation call := (call isKeyword toks pf).

  Lemma tok_lt : forall k, tok k <> [] -> S k < len.
  Proof.
    intros k H. destruct (Nat.lt_ge_cases (S k) len) as [L|L]; [exact L|exfalso; apply H].
    destruct (Nat.eq_dec (S k) len) as [E|E].
    - apply (at_last toks (S len) last_empty (Nat.lt_succ_diag_r _) k E).
    - unfold A2lExactSpec.tok. apply nth_overflow. lia.
  Qed.
  Lemma nextTok_tok : forall i, nextTok toks i = tok (S i).
  Proof.
    intros i. unfold nextTok, moves. destruct (Nat.ltb_spec (S i) len) as [L|L]; [reflexivity|].
    symmetry. unfold A2lExactSpec.tok. apply nth_overflow. exact L.
  Qed.
  Lemma current_next : forall i, i < len -> current toks (next toks i) = tok (S i).
  Proof.
    intros i L. destruct (next_cases toks (S len) (Nat.lt_succ_diag_r _) i L) as [(M & -> & L2)|(M & -> & L2)]; [reflexivity|].
    rewrite (at_last toks (S len) last_empty (Nat.lt_succ_diag_r _) i L2). symmetry. unfold A2lExactSpec.tok. apply nth_overflow. lia.
  Qed.
  Lemma next_word : forall i, tok (S i) <> [] -> next toks i = S i.
  Proof. intros i H. unfold next, moves. apply tok_lt in H. replace (S i <? len)%nat with true; [reflexivity|]. symmetry. apply Nat.ltb_lt. lia. Qed.

  (** ** Stores *)

  Lemma run_seq : forall fuel x k s, run fuel (Seq x k) s = match exec fuel x s with Go s' => run fuel k s' | r => r end.
  Proof. reflexivity. Qed.
  Lemma run_one : forall fuel x s, run fuel (Seq x Skip) s = exec fuel x s.
  Proof. intros. rewrite run_seq. destruct (exec fuel x s); reflexivity. Qed.

  Lemma tailOf_run : forall fuel p k brk s, tailOf p k = Some brk ->
      run fuel k s = (if brk then Out else Go) (St (mark (p_flag p) (s_obj s)) (s_var s) (s_err s) (s_idx s)).
  Proof.
    intros fuel p k brk s H. unfold tailOf in H.
    repeat match type of H with
      | match ?x with _ => _ end = _ => destruct x eqn:?; try discriminate
      | (if ?x then _ else _) = _ => destruct x eqn:?; try discriminate
      end; injection H as <-;
    repeat match goal with E : String.eqb _ _ = true |- _ => apply String.eqb_eq in E; subst end; destruct s; reflexivity.
  Qed.

  (** how a store with value [o] ends *)
  Definition stored (leave : bool) (p : param) (brk : bool) (s : st) (o : option val) (q : res) : Prop :=
    match o with
    | Some v => exists vr, q = (if brk then Out else Go) (St (store true (s_obj s) (p, v)) vr false (s_idx s))
    | None => exists s', s_err s' = true /\ (q = Out s' \/ leave = false /\ q = Go s')
    end.

  Lemma isStore_run : forall leave fuel p k brk s, isStore leave p k = Some brk -> s_err s = false ->
      (isKeyword (current toks (s_idx s)) = false \/ isAny p = true) ->
      stored leave p brk s (wordVal pf (p_type p) (current toks (s_idx s))) (run fuel k s).
  Proof.
    intros leave fuel p k brk [o vr e i] H E KW. cbn [s_err s_idx s_obj s_var] in *. subst e. unfold isStore in H.
    destruct (p_type p) as [| |n|texts] eqn:TY; cbn [wordVal stored].
    - destruct (p_how p) eqn:HW; try discriminate;
      repeat match type of H with
        | match ?x with _ => _ end = _ => destruct x eqn:?; try discriminate
        | (if ?x then _ else _) = _ => destruct x eqn:?; try discriminate
        end; subst;
      repeat match goal with
        | E : _ && _ = true |- _ => apply andb_true_iff in E; destruct E
        | E : String.eqb _ _ = true |- _ => apply String.eqb_eq in E; subst
        | E : Nat.eqb _ _ = true |- _ => apply Nat.eqb_eq in E; subst
        end;
      rewrite run_seq; cbn [A2lIR.exec]; rewrite (tailOf_run _ _ _ _ _ H); eexists; unfold store; cbn [fst snd s_obj]; rewrite HW; reflexivity.
    - destruct (p_how p) eqn:HW; try discriminate;
      repeat match type of H with
        | match ?x with _ => _ end = _ => destruct x eqn:?; try discriminate
        | (if ?x then _ else _) = _ => destruct x eqn:?; try discriminate
        end; subst;
      repeat match goal with
        | E : _ && _ = true |- _ => apply andb_true_iff in E; destruct E
        | E : String.eqb _ _ = true |- _ => apply String.eqb_eq in E; subst
        | E : Nat.eqb _ _ = true |- _ => apply Nat.eqb_eq in E; subst
        end;
      rewrite run_seq; cbn [A2lIR.exec]; rewrite (tailOf_run _ _ _ _ _ H); eexists; unfold store; cbn [fst snd s_obj]; rewrite HW; reflexivity.
    - destruct k as [|x k]; [discriminate|]. destruct x; try discriminate. destruct s; try discriminate.
      destruct k as [|x k]; [discriminate|]. destruct x; try discriminate. destruct c; try discriminate. destruct o0; try discriminate.
      destruct k as [|x k]; [discriminate|].
      destruct (yes (num_eq n n0) && _) eqn:B; [|discriminate]. apply andb_true_iff in B. destruct B as [B1 B2]. apply yes_true in B1. subst n0.
      assert (ESC : a = if leave then {{ Break }} else Skip).
      { destruct a as [|xa ka]; [destruct leave; [discriminate|reflexivity]|]. destruct xa; try discriminate. destruct ka; [|discriminate]. rewrite B2. reflexivity. }
      subst a. rewrite run_seq. cbn [A2lIR.exec readSrc s_idx]. destruct (readNum pf n (current toks i)) as [w|] eqn:RN.
      + assert (V : forall v', String.eqb v v' = true -> eval toks (Var v') (setErr false (setVar v w (St o vr false i))) = w).
        { intros v' EV. apply String.eqb_eq in EV. subst v'. cbn. rewrite fget_set. reflexivity. }
        cbn [stored]. rewrite run_seq, exec_if. cbn [test s_err setErr].
        match goal with |- context [A2lIR.run _ _ _ _ Skip ?x] => change (run fuel Skip x) with (Go x) end. cbv iota.
        destruct (p_how p) eqn:HW; try discriminate; destruct x; try discriminate; destruct e; try discriminate;
        repeat match type of H with (if ?x then _ else _) = _ => destruct x eqn:?; try discriminate end;
        repeat match goal with
          | E : _ && _ = true |- _ => apply andb_true_iff in E; destruct E
          | E : String.eqb _ (p_field _) = true |- _ => apply String.eqb_eq in E; subst
          | E : Nat.eqb _ _ = true |- _ => apply Nat.eqb_eq in E; subst
          end;
        rewrite run_seq; cbn [A2lIR.exec]; rewrite V by assumption; rewrite (tailOf_run _ _ _ _ _ H); eexists; unfold store; cbn [fst snd s_obj]; rewrite HW; reflexivity.
      + cbn [stored]. rewrite run_seq, exec_if. cbn [test s_err setErr]. destruct leave.
        * eexists. split; [|left; reflexivity]. reflexivity.
        * match goal with |- context [A2lIR.run _ _ _ _ Skip ?x] => change (run fuel Skip x) with (Go x) end. cbv iota.
          destruct (p_how p) eqn:HW; try discriminate; destruct x; try discriminate; destruct e; try discriminate;
          repeat match type of H with (if ?x then _ else _) = _ => destruct x eqn:?; try discriminate end;
          rewrite run_seq; cbn [A2lIR.exec]; rewrite (tailOf_run _ _ _ _ _ H); eexists;
          (split; [|destruct brk; [left; reflexivity|right; split; reflexivity]]; reflexivity).
    - destruct (p_how p) eqn:HW; try discriminate. destruct k as [|x k]; [discriminate|]. destruct x; try discriminate.
      destruct g as [[|] table| |]; try discriminate.
      destruct k as [|x k]; [discriminate|]. destruct x; try discriminate. destruct c; try discriminate. destruct o0; try discriminate.
      destruct (String.eqb f (p_field p) && _ && _) eqn:B; [|discriminate]. apply andb_true_iff in B. destruct B as [B B3]. apply andb_true_iff in B. destruct B as [B1 B2].
      apply String.eqb_eq in B1. subst f.
      assert (ESC : a = if leave then {{ Break }} else Skip).
      { destruct a as [|xa ka]; [destruct leave; [discriminate|reflexivity]|]. destruct xa; try discriminate. destruct ka; [|discriminate]. rewrite B2. reflexivity. }
      subst a.
      assert (K : isKeyword (current toks i) = false).
      { destruct KW as [K|K]; [exact K|]. unfold isAny in K. rewrite TY in K. discriminate. }
      rewrite run_seq. cbn [A2lIR.exec A2lIR.call s_idx]. rewrite (choice_table _ _ _ B3 K).
      destruct (existsb _ texts).
      + cbn [stored]. rewrite run_seq, exec_if. cbn [test s_err setErr setIdx].
        match goal with |- context [A2lIR.run _ _ _ _ Skip ?x] => change (run fuel Skip x) with (Go x) end. cbv iota.
        rewrite (tailOf_run _ _ _ _ _ H). eexists. unfold store. cbn [fst snd s_obj]. rewrite HW. reflexivity.
      + cbn [stored]. rewrite run_seq, exec_if. cbn [test s_err setErr setIdx]. destruct leave.
        * eexists. split; [|left; reflexivity]. reflexivity.
        * match goal with |- context [A2lIR.run _ _ _ _ Skip ?x] => change (run fuel Skip x) with (Go x) end. cbv iota.
          rewrite (tailOf_run _ _ _ _ _ H). eexists. split; [|destruct brk; [left; reflexivity|right; split; reflexivity]]. reflexivity.
  Qed.

  (** ** The chain of parameters *)

  Lemma run_cell : forall fuel m k fl kb s, nth_error (cellsOf k) m = Some (fl, kb) -> fbool fl (s_obj s) = false ->
      (forall n fl' kb', n < m -> nth_error (cellsOf k) n = Some (fl', kb') -> fbool fl' (s_obj s) = true) ->
      run fuel k s = run fuel kb s.
  Proof.
    intros fuel m. induction m as [|m IH]; intros k fl kb s H U L.
    - destruct k as [|[] [|]]; try discriminate; destruct c; try discriminate. cbn in H. injection H as -> ->.
      rewrite run_one, exec_if. cbn [test]. rewrite U. reflexivity.
    - destruct k as [|[] [|]]; try discriminate; destruct c; try discriminate. cbn in H.
      rewrite run_one, exec_if. cbn [test]. rewrite (L 0 f a) by (try lia; reflexivity). cbn [negb].
      apply (IH o fl kb s H U). intros n fl' kb' N E. apply (L (S n) fl' kb'); [lia|exact E].
  Qed.
  Lemma run_closed : forall fuel m k s, List.length (cellsOf k) = m -> closed k = true ->
      (forall n fl' kb', nth_error (cellsOf k) n = Some (fl', kb') -> fbool fl' (s_obj s) = true) ->
      run fuel k s = Go s.
  Proof.
    intros fuel m. induction m as [|m IH]; intros k s H C L.
    - destruct k as [|[] [|]]; try discriminate C; try reflexivity; destruct c; discriminate.
    - destruct k as [|[] [|]]; try discriminate; destruct c; try discriminate. cbn in H. cbn in C.
      rewrite run_one, exec_if. cbn [test]. rewrite (L 0 f a) by reflexivity. cbn [negb].
      apply (IH o s); [lia|exact C|]. intros n fl' kb' E. apply (L (S n) fl' kb'). exact E.
  Qed.

  Lemma lead_len : forall ps cs, lead ps cs <= List.length ps /\ lead ps cs <= List.length cs.
  Proof.
    induction ps as [|p ps IH]; intros [|[fl kb] cs]; cbn; try lia. destruct (flag_eq _ _); cbn; [|lia]. specialize (IH cs). lia.
  Qed.
  Lemma lead_nth : forall ps cs m, m < lead ps cs -> exists p fl kb, nth_error ps m = Some p /\ nth_error cs m = Some (fl, kb) /\ p_flag p = Some fl.
  Proof.
    induction ps as [|p ps IH]; intros [|[fl kb] cs] m H; cbn in H; try lia.
    destruct (flag_eq (p_flag p) (Some fl)) as [E|E]; cbn in H; [|lia]. destruct m as [|m].
    - exists p, fl, kb. auto.
    - apply (IH cs m). lia.
  Qed.
  Lemma storesAll_nth : forall leave n ps cs m p fl kb, storesAll leave ps cs n = true -> m < n ->
      nth_error ps m = Some p -> nth_error cs m = Some (fl, kb) -> isStore leave p kb = Some false.
  Proof.
    intros leave n. induction n as [|n IH]; intros ps cs m p fl kb H L H1 H2; [lia|].
    destruct ps as [|p' ps]; [destruct m; discriminate|]. destruct cs as [|c' cs]; [destruct m; discriminate|].
    unfold storesAll in H. cbn [firstn combine forallb fst snd] in H. apply andb_true_iff in H. destruct H as [HA HB].
    destruct m as [|m]; cbn in H1, H2.
    - injection H1 as ->. injection H2 as ->. cbn in HA. destruct (isStore leave p kb) as [[|]|]; try discriminate. reflexivity.
    - apply (IH ps cs m p fl kb HB); [lia|exact H1|exact H2].
  Qed.

  Section Chain.
    Variable ms : list string.
    Variable ps : list param.
    Variable r : option param.
    Variable its : list item.
    Variable ends : list string.
    Variable k : block.
    Hypothesis chain : chainOk ps r k = true.
    Hypothesis flags : flagsOk ms ps r its ends k = true.

    Notation L := (leadFlags ps k).
    Notation U := (tailFlags ps r k ++ ends).
    Notation n := (lead ps (cellsOf k)).

    Record inv (m : nat) (o : fields) : Prop := {
      i_lead : forall q fl, nth_error L q = Some fl -> fbool fl o = (q <? m)%nat;
      i_unset : forall fl, In fl U -> fbool fl o = false;
      i_maps : forall f, In f ms -> exists mm, fget f o = Some (VMap mm) }.

    Lemma flags_split : NoDup L /\ (forall s, In s L -> ~ In s U)
       /\ (forall s, In s (L ++ U) -> ~ In s (fieldsOf ps r its)) /\ (forall s, In s (L ++ U) -> ~ In s ms)
       /\ (forall s, In s (flagsOf r) -> ~ In s U) /\ (forall s, In s (flagsOf r) -> ~ In s ms)
       /\ (forall s, In s (map p_field ps ++ match r with Some q => [p_field q] | None => [] end) -> ~ In s ms)
       /\ (forall kw f p sub, In (Item kw f p sub) its -> match p with Under _ => In f ms | _ => ~ In f ms end).
    Proof.
      unfold flagsOk in flags. repeat match goal with H : _ && _ = true |- _ => apply andb_true_iff in H; destruct H end.
      repeat match goal with |- _ /\ _ => split end; try (intros s; apply noneOf_out; assumption).
      - apply distinct_nodup. assumption.
      - intros kw f p sub I. match goal with H : forallb _ its = true |- _ => rewrite forallb_forall in H; specialize (H _ I); cbn in H end.
        destruct p; [apply negb_true_iff, oneOf_out in H0|apply negb_true_iff, oneOf_out in H0|apply oneOf_in in H0]; exact H0.
    Qed.

    Lemma L_nth : forall q fl kb, q < n -> nth_error (cellsOf k) q = Some (fl, kb) -> nth_error L q = Some fl.
    Proof.
      intros q fl kb H E. unfold leadFlags. rewrite nth_error_map.
      assert (X : forall A (l : list A) x q, q < x -> nth_error (firstn x l) q = nth_error l q).
      { intros A l. induction l as [|y l IH]; intros [|x] [|q'] HL; cbn; try lia; try reflexivity. apply IH. lia. }
      rewrite X by exact H. rewrite E. reflexivity.
    Qed.
    Lemma L_len : List.length L = n.
    Proof. unfold leadFlags. rewrite map_length, firstn_length. pose proof (lead_len ps (cellsOf k)). lia. Qed.

    (** a field that is no flag *)
    Lemma inv_field : forall m o f v, inv m o -> ~ In f (L ++ U) -> (In f ms -> exists mm, v = VMap mm) -> inv m (fset f v o).
    Proof.
      intros m o f v [I1 I2 I3] N M. split.
      - intros q fl H. rewrite fbool_set. destruct (String.eqb_spec fl f) as [->|_]; [exfalso; apply N, in_or_app; left; eapply nth_error_In; eauto|auto].
      - intros fl H. rewrite fbool_set. destruct (String.eqb_spec fl f) as [->|_]; [exfalso; apply N, in_or_app; right; exact H|auto].
      - intros g H. destruct (String.eqb_spec g f) as [->|NE]; [rewrite fget_set; destruct (M H) as (mm & ->); eauto|rewrite fget_other by exact NE; auto].
    Qed.
    Lemma inv_put : forall m o h f v, inv m o -> ~ In f (L ++ U) -> ~ In f ms -> inv m (put h f v o).
    Proof. intros m o h f v I N M. destruct h; cbn [put]; try exact I; apply inv_field; auto; intros; contradiction. Qed.
    (** the flag of the next parameter *)
    Lemma inv_lead : forall m o fl, inv m o -> nth_error L m = Some fl -> inv (S m) (fset fl (VBool true) o).
    Proof.
      intros m o fl [I1 I2 I3] H. destruct flags_split as (ND & LU & _ & LM & _). assert (IL : In fl L) by (eapply nth_error_In; eauto). split.
      - intros q fl' H'. rewrite fbool_set. destruct (String.eqb_spec fl' fl) as [->|NE].
        + assert (q = m) by (eapply (proj1 (NoDup_nth_error L) ND); [apply nth_error_Some; congruence|congruence]). subst q.
          symmetry. apply Nat.ltb_lt. lia.
        + rewrite (I1 _ _ H'). destruct (Nat.ltb_spec q m), (Nat.ltb_spec q (S m)); try reflexivity; try lia.
          assert (q = m) by lia. subst q. congruence.
      - intros fl' H'. rewrite fbool_set. destruct (String.eqb_spec fl' fl) as [->|_]; [exfalso; apply (LU fl IL), H'|auto].
      - intros g H'. rewrite fget_other; [auto|]. intros ->. apply (LM fl); [apply in_or_app; left; exact IL|exact H'].
    Qed.
    (** beyond the flags *)
    Lemma inv_beyond : forall m m' o, n <= m -> n <= m' -> inv m o -> inv m' o.
    Proof.
      intros m m' o H H' [I1 I2 I3]. split; auto. intros q fl E. rewrite (I1 _ _ E).
      assert (q < n) by (rewrite <- L_len; apply nth_error_Some; congruence).
      destruct (Nat.ltb_spec q m), (Nat.ltb_spec q m'); try reflexivity; lia.
    Qed.
    Lemma inv_more : forall m o g, n <= m -> inv m o -> In g (flagsOf r) -> inv m (fset g (VBool true) o).
    Proof.
      intros m o g H [I1 I2 I3] IG. destruct flags_split as (ND & LU & _ & LM & FU & FM & _). split.
      - intros q fl E. rewrite fbool_set. destruct (String.eqb_spec fl g) as [->|_]; [|auto].
        assert (q < n) by (rewrite <- L_len; apply nth_error_Some; congruence). symmetry. apply Nat.ltb_lt. lia.
      - intros fl' H'. rewrite fbool_set. destruct (String.eqb_spec fl' g) as [->|_]; [exfalso; apply (FU g IG), H'|auto].
      - intros f' H'. rewrite fget_other; [auto|]. intros ->. apply (FM g IG), H'.
    Qed.

    (** what a word is stored as *)
    Definition target (m : nat) : option param :=
      match nth_error ps m with
      | Some p => Some p
      | None => r
      end.

    Lemma inv_store_lead : forall m o p v, inv m o -> m < n -> nth_error ps m = Some p -> inv (S m) (store true o (p, v)).
    Proof.
      intros m o p v I LT E. unfold store. cbn [fst snd]. destruct flags_split as (ND & LU & FF & LM & FU & FM & PM & _).
      destruct (lead_nth _ _ _ LT) as (p' & fl & kb & E1 & E2 & E3). rewrite E in E1. injection E1 as <-. rewrite E3. cbn [mark].
      apply inv_lead; [|eapply L_nth; eauto].
      assert (IF : In (p_field p) (map p_field ps)) by (apply in_map; eapply nth_error_In; eauto). apply inv_put; [exact I| |].
      - intros J. apply (FF _ J). unfold fieldsOf. apply in_or_app. left. exact IF.
      - apply PM. apply in_or_app. left. exact IF.
    Qed.

    Lemma inv_store : forall m o p v, inv m o -> target m = Some p -> inv (S m) (store true o (p, v)).
    Proof.
      intros m o p v I T. unfold store. cbn [fst snd]. destruct flags_split as (ND & LU & FF & LM & FU & FM & PM & _).
      assert (PP : forall m' o', inv m' o' -> inv m' (put (p_how p) (p_field p) v o')).
      { intros m' o' I'. assert (IF : In (p_field p) (map p_field ps ++ match r with Some q => [p_field q] | None => [] end)).
        { unfold target in T. apply in_or_app. destruct (nth_error ps m) as [p'|] eqn:E.
          - injection T as ->. left. apply in_map. eapply nth_error_In; eauto.
          - right. rewrite T. left. reflexivity. }
        apply inv_put; [exact I'| |].
        - intros J. apply (FF _ J). unfold fieldsOf. rewrite app_assoc. apply in_or_app. left. exact IF.
        - apply PM, IF. }
      destruct (Nat.lt_ge_cases m n) as [LT|GE].
      - destruct (lead_nth _ _ _ LT) as (p' & fl & kb & E1 & E2 & E3). unfold target in T. rewrite E1 in T. injection T as ->. rewrite E3. cbn [mark].
        apply inv_lead; [apply PP, I|]. eapply L_nth; eauto.
      - apply (inv_beyond m); [exact GE|lia|]. destruct (p_flag p) as [g|] eqn:PG; cbn [mark]; [|apply PP, I].
        apply inv_more; [exact GE|apply PP, I|].
        (* p is r *)
        assert (X : r = Some p \/ isNowhere p = true).
        { unfold target in T. destruct (nth_error ps m) as [p'|] eqn:E; [|left; exact T]. injection T as ->.
          assert (IS : In p (skipn n ps)).
          { apply nth_error_In with (n := m - n). rewrite nth_error_skipn. replace (n + (m - n)) with m by lia. exact E. }
          pose proof chain as C. unfold chainOk in C. apply andb_true_iff in C. destruct C as [_ C].
          assert (HR : exists r', r = r') by eauto. destruct HR as (r' & ER). rewrite ER in C. rewrite ER. destruct r' as [q|].
          - apply andb_true_iff in C. destruct C as [C _]. rewrite forallb_forall in C. specialize (C _ IS). apply yes_true in C. subst q. left. reflexivity.
          - apply andb_true_iff in C. destruct C as [C _]. rewrite forallb_forall in C. right. apply C, IS. }
        destruct X as [X|X]; [unfold flagsOf; rewrite X, PG; left; reflexivity|]. unfold isNowhere in X. rewrite PG in X. destruct (p_how p); discriminate.
    Qed.

    (** one word *)
    Lemma chain_run : forall fuel m s, inv m (s_obj s) -> s_err s = false ->
        (isKeyword (current toks (s_idx s)) = false \/ forallb isAny (ps ++ match r with Some q => [q] | None => [] end) = true) ->
        match target m with
        | Some p => stored true p false s (wordVal pf (p_type p) (current toks (s_idx s))) (run fuel k s)
        | None => run fuel k s = Go s
        end.
    Proof.
      intros fuel m s [I1 I2 I3] E KW. pose proof chain as C. unfold chainOk in C. apply andb_true_iff in C. destruct C as [SA C].
      assert (BEF : forall q fl kb, q < m -> q < n -> nth_error (cellsOf k) q = Some (fl, kb) -> fbool fl (s_obj s) = true).
      { intros q fl kb QM QN EQ. rewrite (I1 q fl); [apply Nat.ltb_lt; exact QM|]. eapply L_nth; eauto. }
      assert (KWP : forall p, In p (ps ++ match r with Some q => [q] | None => [] end) -> isKeyword (current toks (s_idx s)) = false \/ isAny p = true).
      { intros p IP. destruct KW as [KW|KW]; [left; exact KW|right]. rewrite forallb_forall in KW. apply KW, IP. }
      destruct (Nat.lt_ge_cases m n) as [LT|GE].
      - destruct (lead_nth _ _ _ LT) as (p & fl & kb & E1 & E2 & E3). unfold target. rewrite E1.
        rewrite (run_cell fuel m k fl kb s E2).
        + apply isStore_run; [|exact E|].
          * eapply storesAll_nth; eauto.
          * apply KWP, in_or_app. left. eapply nth_error_In; eauto.
        + rewrite (I1 m fl); [apply Nat.ltb_irrefl|]. eapply L_nth; eauto.
        + intros q fl' kb' Q EQ. apply (BEF q fl' kb'); auto. lia.
      - assert (PS : forall p, nth_error ps m = Some p -> In p (skipn n ps)).
        { intros p EP. apply nth_error_In with (n := m - n). rewrite nth_error_skipn. replace (n + (m - n)) with m by lia. exact EP. }
        assert (HR : exists r', r = r') by eauto. destruct HR as (r' & ER). rewrite ER in C, KWP. destruct r' as [q|].
        + apply andb_true_iff in C. destruct C as [C1 C2].
          assert (T : target m = Some q).
          { unfold target. destruct (nth_error ps m) as [p|] eqn:EP; [|exact ER]. rewrite forallb_forall in C1. specialize (C1 _ (PS p eq_refl)).
            apply yes_true in C1. subst. reflexivity. }
          rewrite T. destruct (skipn n (cellsOf k)) as [|[fl kb] cs'] eqn:ES; [discriminate|].
          assert (E2 : nth_error (cellsOf k) n = Some (fl, kb)).
          { replace n with (n + 0) by lia. rewrite <- nth_error_skipn, ES. reflexivity. }
          rewrite (run_cell fuel n k fl kb s E2).
          * apply isStore_run; [|exact E|].
            -- destruct (isStore true q kb) as [[|]|]; try discriminate. reflexivity.
            -- apply KWP, in_or_app. right. left. reflexivity.
          * apply I2. apply in_or_app. left. unfold tailFlags. rewrite ER, ES. left. reflexivity.
          * intros x fl' kb' Q EQ. apply (BEF x fl' kb'); auto. lia.
        + apply andb_true_iff in C. destruct C as [C1 C2]. destruct (skipn n (cellsOf k)) as [|] eqn:ES; [|discriminate].
          assert (LC : List.length (cellsOf k) <= n).
          { assert (X : List.length (skipn n (cellsOf k)) = 0) by (rewrite ES; reflexivity). rewrite skipn_length in X. lia. }
          assert (RC : run fuel k s = Go s).
          { apply (run_closed fuel _ k s eq_refl C2). intros x fl kb EQ. assert (x < List.length (cellsOf k)) by (apply nth_error_Some; congruence).
            apply (BEF x fl kb); auto; lia. }
          unfold target. destruct (nth_error ps m) as [p|] eqn:EP; [|rewrite ER; exact RC].
          rewrite forallb_forall in C1. specialize (C1 _ (PS p eq_refl)). unfold isNowhere in C1.
          destruct (p_how p) eqn:HW; try discriminate. destruct (p_flag p) eqn:PF; try discriminate. destruct (p_type p) eqn:TY; try discriminate.
          cbn [wordVal stored]. rewrite RC. exists (s_var s). destruct s as [so sv se si]. cbn in E. subst se. unfold store. cbn [fst snd]. rewrite HW, PF. reflexivity.
    Qed.
  End Chain.
  (** ** One round of a loop *)

  Lemma body_run : forall fuel body cs d s, bodyOf body = Some (cs, d) ->
      run fuel body s = match pick fuel cs (tok (S (s_idx s))) (setIdx (next toks (s_idx s)) s) with
                        | Some q => q | None => run fuel d (setIdx (next toks (s_idx s)) s) end.
  Proof.
    intros fuel body cs d s H. destruct body as [|[] kk]; try discriminate.
    - cbn in H. injection H as <- <-. reflexivity.
    - destruct s0; try discriminate. destruct kk; try discriminate. cbn in H. injection H as -> ->.
      rewrite run_one, exec_switch. cbn [readSrc fst snd]. rewrite nextTok_tok. reflexivity.
  Qed.
  Lemma eof_run : forall fuel d d1 s, eofOf d = Some d1 ->
      run fuel d s = if beqb (current toks (s_idx s)) [] then Out (setErr true s) else run fuel d1 s.
  Proof.
    intros fuel d d1 s H. unfold eofOf in H.
    repeat match type of H with match ?x with _ => _ end = _ => destruct x; try discriminate end. injection H as ->.
    rewrite run_one, exec_if. cbn [test]. change (b "") with (@nil ascii). destruct (beqb (current toks (s_idx s)) []); reflexivity.
  Qed.
  Lemma kwTest_run : forall fuel d d1 s, kwTest d = Some d1 ->
      run fuel d s = if isKeyword (current toks (s_idx s)) then Out (setErr true s) else run fuel d1 s.
  Proof.
    intros fuel d d1 s H. unfold kwTest in H.
    repeat match type of H with match ?x with _ => _ end = _ => destruct x; try discriminate end. injection H as ->.
    rewrite run_one, exec_if. cbn [test]. destruct (isKeyword (current toks (s_idx s))); reflexivity.
  Qed.

  Lemma sets_run : forall fuel k cs s, setsOf k = Some cs -> run fuel k s = Out (St (consts cs (s_obj s)) (s_var s) (s_err s) (s_idx s)).
  Proof.
    intros fuel. fix IH 1. intros k cs s H. destruct k as [|x k]; [discriminate|]. destruct x; try discriminate.
    - cbn in H. destruct e; try discriminate. destruct (setsOf k) as [cs'|] eqn:E; [|discriminate]. injection H as <-.
      rewrite run_seq. cbn [A2lIR.exec]. rewrite (IH k cs' _ E). reflexivity.
    - destruct k; [|discriminate]. injection H as <-. destruct s. reflexivity.
  Qed.
  Lemma ends_run : forall fuel k cs fls s, endsOf k = Some (cs, fls) -> (forall fl, In fl fls -> fbool fl (s_obj s) = false) ->
      run fuel k s = Out (St (consts cs (s_obj s)) (s_var s) (s_err s) (s_idx s)).
  Proof.
    intros fuel k cs fls s H U. unfold endsOf in H.
    repeat match type of H with
      | option_map _ _ = _ => fail 1
      | match ?x with _ => _ end = _ => destruct x
      end;
    try (match type of H with option_map _ (setsOf ?k) = _ => destruct (setsOf k) as [cs'|] eqn:E; [|discriminate H] end; injection H as <- <-; apply sets_run; exact E).
    injection H as <- <-. rewrite run_seq, exec_if. cbn [test]. rewrite (U f) by (left; reflexivity). reflexivity.
  Qed.
  Lemma back_run : forall fuel k cs s i, backOf k = Some cs -> s_idx s = S i -> run fuel k s = Out (St (consts cs (s_obj s)) (s_var s) (s_err s) i).
  Proof.
    intros fuel. fix IH 1. intros k cs s i H E. destruct k as [|x k]; [discriminate|]. destruct x; try discriminate.
    - destruct k as [|x k]; [discriminate|]. destruct x; try discriminate. destruct k; [|discriminate]. injection H as <-.
      destruct s as [so sv se si]. cbn in E. subst si. reflexivity.
    - cbn in H. destruct e; try discriminate. destruct (backOf k) as [cs'|] eqn:EB; [|discriminate]. injection H as <-.
      rewrite run_seq. cbn [A2lIR.exec]. rewrite (IH k cs' _ i EB); [reflexivity|exact E].
  Qed.

  Fixpoint caseFor (t : bytes) (cs : cases) : option block :=
    match cs with
    | Default => None
    | Case c k cs' => if beqb t (b c) then Some k else caseFor t cs'
    end.
  Lemma pick_for : forall fuel cs t s, pick fuel cs t s = match caseFor t cs with Some k => Some (run fuel k s) | None => None end.
  Proof.
    intros fuel. fix IH 1. intros cs t s. destruct cs as [|c k cs]; [reflexivity|]. rewrite pick_case. cbn [caseFor].
    destruct (beqb t (b c)); [reflexivity|apply IH].
  Qed.
  Lemma caseFor_key : forall cs t k, caseFor t cs = Some k -> exists c, In c (keysOf cs) /\ t = b c.
  Proof.
    fix IH 1. intros cs t k H. destruct cs as [|c k' cs]; [discriminate|]. cbn in H. destruct (beqb t (b c)) eqn:E.
    - apply beqb_eq in E. exists c. split; [left; reflexivity|exact E].
    - destruct (IH cs t k H) as (c' & I & E'). exists c'. split; [right; exact I|exact E'].
  Qed.
  Lemma key_caseFor : forall cs c, In c (keysOf cs) -> exists k, caseFor (b c) cs = Some k.
  Proof.
    fix IH 1. intros cs c H. destruct cs as [|c' k' cs]; [destruct H|]. cbn. destruct (beqb (b c) (b c')) eqn:E; [eauto|].
    destruct H as [->|H]; [rewrite beqb_refl in E; discriminate|apply IH, H].
  Qed.

  Variable own : string -> nat -> val -> nat -> Prop.
  Hypothesis own_len : forall stop i v j, In stop special -> i < len -> own stop i v j -> j < len.

  Notation reads := (reads toks pf own).
  Notation mixed := (mixed toks pf own).

  Definition good (g : fn) (f : form) : Prop :=
    forall i v j, i < len -> tok i <> [] -> (returns toks pf g i v false j <-> reads f i v j) /\ (reads f i v j -> j < len).

  (** the case of an object *)
  Definition itemBlock (g : fn) (kb : block) (f : string) (p : place) : Prop :=
    (p = Single /\ kb = {{ CallF f g; If ErrSet {{ Break }} Skip }})
    \/ exists v, (p = Several /\ kb = {{ CallV v g; If ErrSet {{ Break }} Skip; App f (Var v) }})
                 \/ exists key, p = Under key /\ kb = {{ CallV v g; If ErrSet {{ Break }} Skip; Put f v key }}.
  Definition itemCase (kb : block) (f : string) (p : place) (sub : form) : Prop := exists g, good g sub /\ itemBlock g kb f p.

  Lemma item_run : forall fuel g kb f p s, itemBlock g kb f p -> s_err s = false ->
      (match p with Under _ => exists mm, fget f (s_obj s) = Some (VMap mm) | _ => True end) ->
      match call fuel g (s_idx s) with
      | Ret v false j => exists vr, run fuel kb s = Go (St (place_in p f v (s_obj s)) vr false j)
      | Ret v true j => exists s', run fuel kb s = Out s' /\ s_err s' = true
      | FBad => run fuel kb s = Bad
      | FFuel => run fuel kb s = Fuel
      end.
  Proof.
    intros fuel g kb f p [o vr e i] C E M. cbn [s_err s_idx s_obj] in *. subst e.
    destruct C as [(-> & ->)|(v & [(-> & ->)|(key & -> & ->)])].
    - rewrite run_seq, exec_callF. cbn [s_idx]. destruct (call fuel g i) as [w e j| |]; try reflexivity.
      destruct e; [eexists; split; reflexivity|eexists; reflexivity].
    - rewrite run_seq, exec_callV. cbn [s_idx]. destruct (call fuel g i) as [w e j| |]; try reflexivity.
      destruct e; [eexists; split; reflexivity|]. cbn. rewrite fget_set. eexists. reflexivity.
    - rewrite run_seq, exec_callV. cbn [s_idx]. destruct (call fuel g i) as [w e j| |]; try reflexivity.
      destruct e; [eexists; split; reflexivity|]. destruct M as (mm & M). rewrite run_seq, exec_if. cbn [test s_err setErr setVar setIdx].
      match goal with |- context [A2lIR.run _ _ _ _ Skip ?x] => change (run fuel Skip x) with (Go x) end. cbv iota.
      rewrite run_one. cbn [A2lIR.exec s_obj setIdx setErr setVar]. rewrite M. eexists. unfold place_in, setObj, varName, eval, setIdx, setErr, setVar. cbn [s_obj s_var s_err s_idx].
      rewrite fget_set. unfold fmap. rewrite M. reflexivity.
  Qed.

  Section Rounds.
    Variable ms : list string.
    Variable ps : list param.
    Variable r : option param.
    Variable its : list item.
    Variable stop : string.
    Variable cs : list (string * const).
    Variable ends : list string.
    Variable k : block.
    Variable body : block.
    Variable cases : cases.
    Variable d : block.
    (** is it the end of the object? the index of its last token; may words be keywords? *)
    Variable stopAt : bytes -> bool.
    Variable fin : nat -> nat.
    Variable anyOk : bool.
    Hypothesis chain : chainOk ps r k = true.
    Hypothesis flags : flagsOk ms ps r its ends k = true.
    Hypothesis is_body : bodyOf body = Some (cases, d).
    Hypothesis d_eof : forall fuel s, current toks (s_idx s) = [] -> run fuel d s = Out (setErr true s).
    Hypothesis d_stop : forall fuel s i, s_idx s = S i -> current toks (s_idx s) <> [] -> s_err s = false -> stopAt (current toks (s_idx s)) = true ->
        (forall fl, In fl ends -> fbool fl (s_obj s) = false) ->
        run fuel d s = Out (St (consts cs (s_obj s)) (s_var s) false (fin i)).
    Hypothesis d_word : forall fuel s, current toks (s_idx s) <> [] -> s_err s = false -> stopAt (current toks (s_idx s)) = false ->
        run fuel d s = if negb anyOk && isKeyword (current toks (s_idx s)) then Out (setErr true s) else run fuel k s.
    Hypothesis anys : if anyOk then forallb isAny (ps ++ match r with Some q => [q] | None => [] end) = true /\ r <> None
                      else forallb (fun p => negb (isAny p)) (ps ++ match r with Some q => [q] | None => [] end) = true.
    Hypothesis stop_word : forall t, stopAt t = true -> plain its stop t -> anyOk = false /\ isKeyword t = true.
    Hypothesis stop_no : forall t, t <> [] -> stopAt t = false -> t <> b stop.
    Hypothesis stop_case : forall t, stopAt t = true -> t <> [] /\ caseFor t cases = None.
    Hypothesis empty_case : caseFor [] cases = None.
    Hypothesis item_case : forall kw f p sub, In (Item kw f p sub) its -> b kw <> [] /\ exists kb, caseFor (b kw) cases = Some kb /\ itemCase kb f p sub.
    Hypothesis other_case : forall t kb, caseFor t cases = Some kb ->
        (exists kw f p sub, In (Item kw f p sub) its /\ t = b kw)
        \/ anyOk = false /\ isKeyword t = true /\ forall fuel s, current toks (s_idx s) = t -> exists s', run fuel kb s = Out s' /\ s_err s' = true.

    Notation INV := (inv ms ps r ends k).
    Notation TGT := (target ps r).

    Inductive step : nat -> nat -> fields -> nat -> nat -> fields -> Prop :=
      | st_word : forall m i o p v, plain its stop (tok (S i)) -> TGT m = Some p -> fits pf (p_type p) (tok (S i)) v ->
          step m i o (S m) (S i) (store true o (p, v))
      | st_surplus : forall m i o, plain its stop (tok (S i)) -> TGT m = None -> tok (S i) <> [] -> isKeyword (tok (S i)) = false ->
          step m i o (S m) (S i) o
      | st_item : forall m i o kw f p sub v j, In (Item kw f p sub) its -> tok (S i) = b kw -> reads sub (S i) v j ->
          step m i o m j (place_in p f v o).
    Inductive steps : nat -> nat -> fields -> nat -> nat -> fields -> Prop :=
      | ss_nil : forall m i o, steps m i o m i o
      | ss_cons : forall m i o m1 i1 o1 m2 i2 o2, step m i o m1 i1 o1 -> steps m1 i1 o1 m2 i2 o2 -> steps m i o m2 i2 o2.

    Lemma mixed_steps : forall its' stop' l r' i j o o', mixed its' stop' l r' i j o o' -> its' = its -> stop' = stop -> r' = r ->
        forall m, l = skipn m ps -> exists m', steps m i o m' j o'.
    Proof.
      induction 1 as [| ? ? p l ? i j v o o' PL FI _ IH | ? ? p i j v o o' PL FI _ IH | ? ? i j o o' PL N K _ IH | ? ? l ? kw f p sub i v x j o o' I T RD _ IH];
        intros -> -> E m EL.
      - exists m. constructor.
      - assert (NP : nth_error ps m = Some p).
        { replace m with (m + 0) by lia. rewrite <- nth_error_skipn, <- EL. reflexivity. }
        destruct (IH eq_refl eq_refl E (S m)) as (m' & ST).
        + rewrite (skipn_cons _ _ _ _ NP) in EL. congruence.
        + exists m'. econstructor; [|exact ST]. eapply st_word; eauto. unfold target. rewrite NP. reflexivity.
      - assert (NP : nth_error ps m = None).
        { replace m with (m + 0) by lia. rewrite <- nth_error_skipn, <- EL. reflexivity. }
        destruct (IH eq_refl eq_refl E (S m)) as (m' & ST).
        + symmetry. apply skipn_all2. apply nth_error_None in NP. lia.
        + exists m'. econstructor; [|exact ST]. eapply st_word; eauto. unfold target. rewrite NP. symmetry. exact E.
      - assert (NP : nth_error ps m = None).
        { replace m with (m + 0) by lia. rewrite <- nth_error_skipn, <- EL. reflexivity. }
        destruct (IH eq_refl eq_refl E (S m)) as (m' & ST).
        + symmetry. apply skipn_all2. apply nth_error_None in NP. lia.
        + exists m'. econstructor; [|exact ST]. eapply st_surplus; eauto. unfold target. rewrite NP. symmetry. exact E.
      - destruct (IH eq_refl eq_refl E m EL) as (m' & ST). exists m'. econstructor; [|exact ST]. eapply st_item; eauto.
    Qed.
    Lemma steps_mixed : forall m i o m' j o', steps m i o m' j o' -> mixed its stop (skipn m ps) r i j o o'.
    Proof.
      induction 1 as [|m i o m1 i1 o1 m2 i2 o2 S1 _ IH]; [constructor|]. destruct S1 as [m i o p v PL T FI|m i o PL T N K|m i o kw f p sub v j I T RD].
      - unfold target in T. destruct (nth_error ps m) as [p'|] eqn:E.
        + injection T as ->. rewrite (skipn_cons _ _ _ _ E). eapply mi_param; eauto.
        + rewrite (skipn_none _ _ _ E). rewrite skipn_all2 in IH by (apply nth_error_None in E; lia). rewrite T in IH |- *. eapply mi_further; eauto.
      - unfold target in T. destruct (nth_error ps m) as [p'|] eqn:E; [discriminate|].
        rewrite (skipn_none _ _ _ E). rewrite skipn_all2 in IH by (apply nth_error_None in E; lia). rewrite T in IH |- *. eapply mi_surplus; eauto.
      - eapply mi_item; eauto.
    Qed.

    Lemma inv_item : forall m o kw f p sub v, INV m o -> In (Item kw f p sub) its -> INV m (place_in p f v o).
    Proof.
      intros m o kw f p sub v I J. destruct (flags_split ms ps r its ends k flags) as (ND & LU & FF & LM & FU & FM & PM & IM). specialize (IM _ _ _ _ J).
      assert (NF : ~ In f (leadFlags ps k ++ tailFlags ps r k ++ ends)).
      { intros X. apply (FF _ X). unfold fieldsOf. apply in_or_app. right. apply in_or_app. right. apply in_map_iff. exists (Item kw f p sub). auto. }
      destruct p; cbn [place_in]; (apply inv_field; [exact I|exact NF|]); intros Y; try contradiction. eauto.
    Qed.
    Lemma inv_surplus : forall m o, INV m o -> TGT m = None -> INV (S m) o.
    Proof.
      intros m o I T. unfold target in T. destruct (nth_error ps m) eqn:E; [discriminate|]. apply nth_error_None in E.
      pose proof (lead_len ps (cellsOf k)). apply (inv_beyond ms ps r ends k m); [lia|lia|exact I].
    Qed.

    Lemma any_target : forall m p, TGT m = Some p -> isAny p = anyOk.
    Proof.
      intros m p T. assert (IP : In p (ps ++ match r with Some q => [q] | None => [] end)).
      { unfold target in T. apply in_or_app. destruct (nth_error ps m) as [p'|] eqn:E.
        - injection T as ->. left. eapply nth_error_In; eauto.
        - right. rewrite T. left. reflexivity. }
      destruct anyOk.
      - destruct anys as [A _]. rewrite forallb_forall in A. apply A, IP.
      - rewrite forallb_forall in anys. apply negb_true_iff, anys, IP.
    Qed.
    Lemma fits_target : forall m p t v, TGT m = Some p -> t <> [] -> (anyOk = true \/ isKeyword t = false) ->
        (fits pf (p_type p) t v <-> wordVal pf (p_type p) t = Some v).
    Proof.
      intros m p t v T N [A|K].
      - apply fits_any; [|exact N]. pose proof (any_target _ _ T) as X. rewrite A in X. exact X.
      - apply fits_val; assumption.
    Qed.
    Lemma fits_free : forall m p t v, TGT m = Some p -> fits pf (p_type p) t v -> anyOk = true \/ isKeyword t = false.
    Proof.
      intros m p t v T F. pose proof (any_target _ _ T) as X. unfold isAny in X. destruct anyOk; [left; reflexivity|right]. eapply fits_kw; eauto.
    Qed.

    (** a word that is no case and no end *)
    Lemma word_run : forall fuel m s, s_idx s < len -> s_err s = false -> INV m (s_obj s) ->
        caseFor (tok (S (s_idx s))) cases = None -> tok (S (s_idx s)) <> [] -> stopAt (tok (S (s_idx s))) = false ->
        negb anyOk && isKeyword (tok (S (s_idx s))) = false ->
        match TGT m with
        | Some p => stored true p false (setIdx (S (s_idx s)) s) (wordVal pf (p_type p) (tok (S (s_idx s)))) (run fuel body s)
        | None => run fuel body s = Go (setIdx (S (s_idx s)) s)
        end.
    Proof.
      intros fuel m s L E I CF N SA KW. rewrite (body_run _ _ _ _ _ is_body), pick_for, CF. rewrite (next_word _ N).
      assert (CU : current toks (s_idx (setIdx (S (s_idx s)) s)) = tok (S (s_idx s))) by reflexivity.
      rewrite d_word; rewrite ?CU; auto. rewrite KW.
      pose proof (chain_run ms ps r its ends k chain flags fuel m (setIdx (S (s_idx s)) s) I E) as CR. rewrite CU in CR.
      apply CR. destruct anyOk; [right; exact (proj1 anys)|left; exact KW].
    Qed.

    Lemma round_sound : forall fuel m s, s_idx s < len -> s_err s = false -> INV m (s_obj s) ->
        match run fuel body s with
        | Go s' => exists m', step m (s_idx s) (s_obj s) m' (s_idx s') (s_obj s') /\ INV m' (s_obj s') /\ s_err s' = false /\ s_idx s' < len
        | Out s' => s_err s' = false -> stopAt (tok (S (s_idx s))) = true /\ s_obj s' = consts cs (s_obj s) /\ s_idx s' = fin (s_idx s)
        | _ => True
        end.
    Proof.
      intros fuel m s L E I. destruct (caseFor (tok (S (s_idx s))) cases) as [kb|] eqn:CF.
      - rewrite (body_run _ _ _ _ _ is_body), pick_for, CF.
        destruct (other_case _ _ CF) as [(kw & f & p & sub & IT & TK)|(A & K & D)].
        + destruct (item_case _ _ _ _ IT) as (NE & kb' & CF' & IC). rewrite TK in CF. rewrite CF in CF'. injection CF' as <-.
          assert (N : tok (S (s_idx s)) <> []) by congruence. rewrite (next_word _ N).
          assert (M : match p with Under _ => exists mm, fget f (s_obj s) = Some (VMap mm) | _ => True end).
          { destruct (flags_split ms ps r its ends k flags) as (_ & _ & _ & _ & _ & _ & _ & IM). specialize (IM _ _ _ _ IT).
            destruct p; auto. apply (i_maps _ _ _ _ _ _ _ I). exact IM. }
          destruct IC as (g & G & SH). pose proof (item_run fuel g kb f p (setIdx (S (s_idx s)) s) SH E M) as R. cbn [s_idx setIdx s_obj] in R.
          destruct (call fuel g (S (s_idx s))) as [v [|] j| |] eqn:CA.
          * destruct R as (s' & -> & ER). intros X. congruence.
          * destruct R as (vr & ->). pose proof (tok_lt _ N) as LT. destruct (G (S (s_idx s)) v j ltac:(lia) N) as [G1 G2].
            assert (RD : reads sub (S (s_idx s)) v j) by (apply G1; eapply returns_run; eauto).
            exists m. cbn [s_idx s_obj s_err]. repeat split; auto.
            -- eapply st_item; eauto.
            -- eapply inv_item; eauto.
            -- eapply inv_item; eauto.
            -- eapply inv_item; eauto.
          * rewrite R. exact Logic.I.
          * rewrite R. exact Logic.I.
        + destruct (D fuel (setIdx (next toks (s_idx s)) s)) as (s' & -> & ER); [apply current_next, L|]. intros X. congruence.
      - destruct (list_eq_dec ascii_dec (tok (S (s_idx s))) []) as [EM|NE].
        + rewrite (body_run _ _ _ _ _ is_body), pick_for, CF. rewrite d_eof; [|cbn [s_idx setIdx]; rewrite current_next by exact L; exact EM].
          cbn. discriminate.
        + destruct (stopAt (tok (S (s_idx s)))) eqn:SA.
          * rewrite (body_run _ _ _ _ _ is_body), pick_for, CF. rewrite (next_word _ NE).
            rewrite (d_stop fuel (setIdx (S (s_idx s)) s) (s_idx s)); auto.
            intros fl IF. apply (i_unset _ _ _ _ _ _ _ I). apply in_or_app. right. exact IF.
          * assert (PL : plain its stop (tok (S (s_idx s)))).
            { split; [apply stop_no; assumption|]. intros kw f p sub IT EQ. destruct (item_case _ _ _ _ IT) as (_ & kb & CK & _). rewrite <- EQ, CF in CK. discriminate. }
            destruct (negb anyOk && isKeyword (tok (S (s_idx s)))) eqn:KW.
            -- rewrite (body_run _ _ _ _ _ is_body), pick_for, CF. rewrite (next_word _ NE).
               rewrite d_word; auto. cbn [s_idx setIdx]. change (current toks (S (s_idx s))) with (tok (S (s_idx s))). rewrite KW. cbn. discriminate.
            -- pose proof (word_run fuel m s L E I CF NE SA KW) as W. pose proof (tok_lt _ NE) as LT.
               assert (FR : anyOk = true \/ isKeyword (tok (S (s_idx s))) = false) by (destruct anyOk; [left; reflexivity|right; exact KW]).
               destruct (TGT m) as [p|] eqn:T.
               ++ destruct (wordVal pf (p_type p) (tok (S (s_idx s)))) as [v|] eqn:WV; cbn [stored] in W.
                  ** destruct W as (vr & ->). exists (S m). cbn [s_idx s_obj s_err setIdx]. repeat match goal with |- _ /\ _ => split end; auto; try lia.
                     --- eapply st_word; eauto. apply (fits_target m p _ v T NE FR). exact WV.
                     --- apply (inv_store ms ps r its ends k chain flags); assumption.
                  ** destruct W as (s' & ER & [->|[X _]]); [intros Y; congruence|discriminate].
               ++ rewrite W. exists (S m). cbn [s_idx s_obj s_err setIdx]. repeat match goal with |- _ /\ _ => split end; auto; try lia.
                  ** eapply st_surplus; eauto. destruct FR as [A|K]; [|exact K]. exfalso. pose proof anys as AA. rewrite A in AA. destruct AA as [_ AA].
                     unfold target in T. destruct (nth_error ps m); [discriminate|]. contradiction.
                  ** apply inv_surplus; assumption.
    Qed.

    Lemma iter_sound : forall fuel x m s s', s_idx s < len -> s_err s = false -> INV m (s_obj s) ->
        iter x (run fuel body) s = Go s' -> s_err s' = false ->
        exists m' i o, steps m (s_idx s) (s_obj s) m' i o /\ stopAt (tok (S i)) = true /\ s_obj s' = consts cs o /\ s_idx s' = fin i /\ i < len.
    Proof.
      intros fuel x. induction x as [|x IH]; intros m s s' L E I H ER; [discriminate|]. cbn [iter] in H.
      pose proof (round_sound fuel m s L E I) as RS. destruct (run fuel body s) as [s1|s1| |]; try discriminate.
      - destruct RS as (m1 & ST & I1 & E1 & L1). destruct (IH m1 s1 s' L1 E1 I1 H ER) as (m' & i & o & SS & R). exists m', i, o. split; [|exact R].
        econstructor; eauto.
      - injection H as ->. destruct (RS ER) as (SA & OB & IX). exists m, (s_idx s), (s_obj s). split; [constructor|]. auto.
    Qed.

    Lemma step_complete : forall m i o m' i' o', step m i o m' i' o' -> i < len -> INV m o ->
        (exists N, forall fuel vr, N <= fuel -> exists vr', run fuel body (St o vr false i) = Go (St o' vr' false i')) /\ INV m' o' /\ i' < len.
    Proof.
      intros m i o m' i' o' H L I. destruct H as [m i o p v PL T FI|m i o PL T N K|m i o kw f p sub v j IT TK RD].
      - assert (NE : tok (S i) <> []) by apply FI. pose proof (fits_free _ _ _ _ T FI) as FR.
        assert (KW : negb anyOk && isKeyword (tok (S i)) = false) by (destruct FR as [->| ->]; [reflexivity|apply andb_false_r]).
        assert (SA : stopAt (tok (S i)) = false).
        { destruct (stopAt (tok (S i))) eqn:S1; [|reflexivity]. destruct (stop_word _ S1 PL) as [A B]. rewrite A, B in KW. discriminate. }
        assert (CF : caseFor (tok (S i)) cases = None).
        { destruct (caseFor (tok (S i)) cases) as [kb|] eqn:CF; [|reflexivity]. exfalso. destruct (other_case _ _ CF) as [(kw & f & p' & sub & IT & TK)|(A & K & _)].
          - apply (proj2 PL _ _ _ _ IT TK).
          - rewrite A, K in KW. discriminate. }
        split; [|split].
        + exists 0. intros fuel vr _. pose proof (word_run fuel m (St o vr false i) L eq_refl I CF NE SA KW) as W. rewrite T in W. cbn [s_idx] in W.
          rewrite (proj1 (fits_target m p _ v T NE FR) FI) in W. cbn [stored] in W. destruct W as (vr' & ->). exists vr'. reflexivity.
        + apply (inv_store ms ps r its ends k chain flags); assumption.
        + apply tok_lt in NE. lia.
      - assert (KW : negb anyOk && isKeyword (tok (S i)) = false) by (rewrite K; apply andb_false_r).
        assert (SA : stopAt (tok (S i)) = false).
        { destruct (stopAt (tok (S i))) eqn:S1; [|reflexivity]. destruct (stop_word _ S1 PL) as [A B]. rewrite A, B in KW. discriminate. }
        assert (CF : caseFor (tok (S i)) cases = None).
        { destruct (caseFor (tok (S i)) cases) as [kb|] eqn:CF; [|reflexivity]. exfalso. destruct (other_case _ _ CF) as [(kw & f & p' & sub & IT & TK)|(A & K' & _)].
          - apply (proj2 PL _ _ _ _ IT TK).
          - congruence. }
        split; [|split].
        + exists 0. intros fuel vr _. pose proof (word_run fuel m (St o vr false i) L eq_refl I CF N SA KW) as W. rewrite T in W. cbn [s_idx] in W.
          exists vr. rewrite W. reflexivity.
        + apply inv_surplus; assumption.
        + apply tok_lt in N. lia.
      - destruct (item_case _ _ _ _ IT) as (NE & kb & CF & IC). assert (N : tok (S i) <> []) by congruence. pose proof (tok_lt _ N) as LT.
        assert (M : match p with Under _ => exists mm, fget f o = Some (VMap mm) | _ => True end).
        { destruct (flags_split ms ps r its ends k flags) as (_ & _ & _ & _ & _ & _ & _ & IM). specialize (IM _ _ _ _ IT).
          destruct p; auto. apply (i_maps _ _ _ _ _ _ _ I). exact IM. }
        destruct IC as (g0 & G0 & SH).
        destruct (G0 (S i) v j ltac:(lia) N) as [G1 G2]. destruct (proj2 G1 RD) as (N0 & CA).
        split; [|split].
        + exists N0. intros fuel vr LF. rewrite (body_run _ _ _ _ _ is_body), pick_for. cbn [s_idx]. rewrite TK, CF. rewrite (next_word _ N).
          pose proof (item_run fuel g0 kb f p (St o vr false (S i)) SH eq_refl M) as R. cbn [s_idx s_obj] in R. rewrite (CA fuel LF) in R. exact R.
        + eapply inv_item; eauto.
        + apply G2, RD.
    Qed.

    Lemma steps_complete : forall m i o m' i' o', steps m i o m' i' o' -> i < len -> INV m o ->
        (exists N c, forall fuel vr, N <= fuel -> exists vr', forall x, iter (c + x) (run fuel body) (St o vr false i) = iter x (run fuel body) (St o' vr' false i'))
        /\ INV m' o' /\ i' < len.
    Proof.
      induction 1 as [m i o|m i o m1 i1 o1 m2 i2 o2 S1 _ IH]; intros L I.
      - split; [|auto]. exists 0, 0. intros fuel vr _. exists vr. reflexivity.
      - destruct (step_complete _ _ _ _ _ _ S1 L I) as ((N1 & R1) & I1 & L1). destruct (IH L1 I1) as ((N2 & c & R2) & I2 & L2).
        split; [|auto]. exists (Nat.max N1 N2), (S c). intros fuel vr LF. destruct (R1 fuel vr ltac:(lia)) as (vr1 & E1). destruct (R2 fuel vr1 ltac:(lia)) as (vr2 & E2).
        exists vr2. intros x. cbn [plus iter]. rewrite E1. apply E2.
    Qed.

    (** the whole loop *)
    Lemma loop_exact : forall pre i v j, i < len -> INV 0 (newMaps ms) ->
        (forall fuel, run fuel pre (St [] [] false i) = Go (St (newMaps ms) [] false i)) ->
        (returns toks pf (Loop pre body) i v false j <->
         exists i' o, mixed its stop ps r i i' (newMaps ms) o /\ stopAt (tok (S i')) = true /\ v = VObj (consts cs o) /\ j = fin i' /\ i' < len).
    Proof.
      intros pre i v j L I P. split.
      - intros (N & R). specialize (R N (le_n _)). rewrite call_loop, P in R.
        destruct (iter N (run N body) (St (newMaps ms) [] false i)) as [s'|s'| |] eqn:IT; try discriminate.
        + injection R as <- ER <-. destruct (iter_sound N N 0 (St (newMaps ms) [] false i) s' L eq_refl I IT ER) as (m' & i' & o & SS & SA & OB & IX & L').
          exists i', o. rewrite OB, IX. repeat split; auto. apply steps_mixed in SS. exact SS.
        + exfalso. clear - IT. revert IT. generalize (St (newMaps ms) [] false i). generalize N at 1. intros x.
          induction x as [|x IH]; intros s IT; [discriminate|]. cbn in IT. destruct (run N body s); try discriminate. apply (IH _ IT).
      - intros (i' & o & MX & SA & -> & -> & L').
        destruct (mixed_steps _ _ _ _ _ _ _ _ MX eq_refl eq_refl eq_refl 0 eq_refl) as (m' & SS).
        destruct (steps_complete _ _ _ _ _ _ SS L I) as ((N & c & R) & I' & _).
        exists (Nat.max N (S c)). intros fuel LF. rewrite call_loop, P.
        destruct (R fuel [] ltac:(lia)) as (vr & RR). replace fuel with (c + S (fuel - S c)) at 1 by lia. rewrite RR. cbn [iter].
        destruct (stop_case _ SA) as [NE CF].
        rewrite (body_run _ _ _ _ _ is_body), pick_for. cbn [s_idx]. rewrite CF, (next_word _ NE).
        rewrite (d_stop fuel (setIdx (S i') (St o vr false i')) i'); auto.
        intros fl IF. apply (i_unset _ _ _ _ _ _ _ I'). apply in_or_app. right. exact IF.
    Qed.
  End Rounds.

  (** ** Objects without an end keyword *)

  Lemma returns_iff : forall g i v e j, returns toks pf g i v e j <-> exists n, call n g i = Ret v e j.
  Proof.
    intros g i v e j. split.
    - intros (n & H). exists n. apply H. lia.
    - intros (n & H). eapply returns_run; eauto.
  Qed.

  Lemma value_good : forall g texts, shapeFn (fun _ => None) g (Value (Choice texts)) = true -> good g (Value (Choice texts)).
  Proof.
    intros g texts H. destruct g as [[|] table| |]; try discriminate. cbn [shapeFn] in H.
    apply andb_true_iff in H. destruct H as [H H3]. apply andb_true_iff in H. destruct H as [H1 H2].
    intros i v j L N.
    assert (KN : forall t w, findText t table = Some w -> isKeyword t = false /\ t <> []).
    { clear - H2 H3. induction table as [|[c x] table IH]; intros t w H; [discriminate|]. cbn in H, H2, H3.
      apply andb_true_iff in H2. apply andb_true_iff in H3. destruct H2 as [A2 B2], H3 as [A3 B3].
      destruct (beqb t (b c)) eqn:E; [|apply (IH B2 B3 t w H)]. apply beqb_eq in E. subst t. apply negb_true_iff in A2. apply negb_true_iff in A3.
      split; [exact A2|apply b_empty; exact A3]. }
    assert (CL : forall n, call n (Enum true table) i = match findText (tok (S i)) table with Some w => Ret (VStr w) false (next toks i) | None => Ret (VStr []) true (next toks i) end).
    { intros n. cbn [A2lIR.call]. rewrite nextTok_tok. reflexivity. }
    assert (RL : reads (Value (Choice texts)) i v j -> j = S i /\ tok (S i) <> []).
    { intros R. inversion R as [? ? ? F| | | |]; subst. split; [reflexivity|apply F]. }
    split.
    - rewrite returns_iff. split.
      + intros (n & C). rewrite CL in C. destruct (findText (tok (S i)) table) as [w|] eqn:F; [|discriminate]. destruct (KN _ _ F) as [K NE].
        injection C as <- <-. rewrite (next_word _ NE). constructor. apply fits_val; auto. cbn [wordVal].
        rewrite (choice_table _ _ _ H1 K) in F. destruct (existsb _ texts); [|discriminate]. injection F as <-. reflexivity.
      + intros R. destruct (RL R) as [-> NE]. inversion R as [? ? ? F| | | |]; subst. exists 0. rewrite CL.
        assert (K : isKeyword (tok (S i)) = false) by apply F. rewrite (choice_table _ _ _ H1 K).
        pose proof (proj1 (fits_val pf _ _ _ NE K) F) as W. cbn [wordVal] in W. destruct (existsb _ texts); [|discriminate]. injection W as <-.
        rewrite (next_word _ NE). reflexivity.
    - intros R. destruct (RL R) as [-> NE]. apply tok_lt in NE. lia.
  Qed.

  Lemma row_len : forall ps i vs, row toks pf ps (S i) vs -> i < len -> i + List.length ps < len.
  Proof.
    induction ps as [|p ps IH]; intros i vs R L; cbn; [lia|]. inversion R as [|? ? ? ? ? F R']; subst.
    assert (N : tok (S i) <> []) by apply F. apply tok_lt in N. specialize (IH (S i) _ R' ltac:(lia)). lia.
  Qed.
  Lemma fixed_len : forall ps cs i v j, i < len -> reads (Fixed ps cs) i v j -> j < len.
  Proof. intros ps cs i v j L R. inversion R as [|? ? ? vs RW| | |]; subst. eapply row_len; eauto. Qed.

  Lemma noParam_good : forall cs k, noParam cs k = true -> good (Straight k) (Fixed [] cs).
  Proof.
    intros cs k H i v j L N.
    assert (CL : forall n, call n (Straight k) i = Ret (VObj (consts cs [])) false i).
    { intros n. unfold noParam in H. change (tok i) with (current toks i) in N. apply beqb_neq in N.
      repeat match type of H with match ?x with _ => _ end = _ => destruct x; try discriminate H end;
      apply yes_true in H; subst cs; rewrite call_straight, run_one, exec_if; cbn [test s_idx];
      first [reflexivity | change (b "") with (@nil ascii); rewrite N; rewrite run_one, exec_if; reflexivity]. }
    split; [|apply fixed_len, L]. rewrite returns_iff. split.
    - intros (n & C). rewrite CL in C. injection C as <- <-. replace i with (i + List.length (@nil param)) at 2 by (cbn; lia).
      apply (re_fixed toks pf own [] cs i []). constructor.
    - intros R. inversion R as [|? ? ? vs RW| | |]; subst. inversion RW; subst. exists 0. rewrite CL. cbn. f_equal. lia.
  Qed.

  Lemma oneBody_run : forall n d kb s, oneBody d = Some kb -> s_obj s = [] ->
      run n d s = if beqb (current toks (s_idx s)) [] then Go (setErr true s) else if isKeyword (current toks (s_idx s)) then Go (setErr true s) else run n kb s.
  Proof.
    intros n d kb s H E. unfold oneBody in H.
    repeat match type of H with match ?x with _ => _ end = _ => destruct x; try discriminate H end. injection H as <-.
    rewrite run_one, exec_if. cbn [test]. change (b "") with (@nil ascii). destruct (beqb (current toks (s_idx s)) []); [reflexivity|].
    rewrite run_one, exec_if. cbn [test]. destruct (isKeyword (current toks (s_idx s))); [reflexivity|].
    repeat match goal with |- _ = run n (match ?x with _ => _ end) _ => destruct x; try reflexivity end.
    rewrite run_one, exec_if. cbn [test]. rewrite E. reflexivity.
  Qed.

  Lemma oneParam_good : forall p k, oneParam [p] k = true -> good (Straight k) (Fixed [p] []).
  Proof.
    intros p k H i v j L N. cbn [oneParam] in H. destruct k as [|x d]; [discriminate|]. destruct x; try discriminate.
    apply andb_true_iff in H. destruct H as [H NA]. apply negb_true_iff in NA.
    destruct (oneBody d) as [kb|] eqn:OB; [|discriminate]. assert (IS : isStore false p kb = Some false) by (destruct (isStore false p kb) as [[|]|]; try discriminate; reflexivity).
    assert (CL : forall n, call n (Straight (Seq Next d)) i = match run n d (St [] [] false (next toks i)) with
      | Go s | Out s => Ret (VObj (s_obj s)) (s_err s) (s_idx s) | Bad => FBad | Fuel => FFuel end) by (intros; reflexivity).
    assert (CL2 : forall n, tok (S i) <> [] -> isKeyword (tok (S i)) = false ->
       match wordVal pf (p_type p) (tok (S i)) with
       | Some w => call n (Straight (Seq Next d)) i = Ret (VObj (store true [] (p, w))) false (S i)
       | None => exists w j, call n (Straight (Seq Next d)) i = Ret w true j
       end).
    { intros n NE K. rewrite CL, (oneBody_run n d kb (St [] [] false (next toks i)) OB eq_refl). cbn [s_idx]. rewrite (next_word _ NE). change (current toks (S i)) with (tok (S i)).
      rewrite (proj2 (beqb_neq _ _) NE), K.
      pose proof (isStore_run false n p kb false (St [] [] false (S i)) IS eq_refl (or_introl K)) as ST. cbn [s_idx s_obj] in ST. change (current toks (S i)) with (tok (S i)) in ST.
      destruct (wordVal pf (p_type p) (tok (S i))) as [w|]; cbn [stored s_obj s_idx] in ST.
      - destruct ST as (vr & ->). reflexivity.
      - destruct ST as (s' & ER & [->|[_ ->]]); rewrite ER; eauto. }
    split; [|apply fixed_len, L]. rewrite returns_iff. split.
    - intros (n & C).
      assert (NE : tok (S i) <> []).
      { intros E. rewrite CL, (oneBody_run n d kb (St [] [] false (next toks i)) OB eq_refl) in C. cbn [s_idx] in C. rewrite current_next, E in C by exact L. discriminate. }
      assert (K : isKeyword (tok (S i)) = false).
      { destruct (isKeyword (tok (S i))) eqn:K; [|reflexivity]. rewrite CL, (oneBody_run n d kb (St [] [] false (next toks i)) OB eq_refl) in C. cbn [s_idx] in C.
        rewrite current_next, K, (proj2 (beqb_neq _ _) NE) in C by exact L. discriminate. }
      specialize (CL2 n NE K). destruct (wordVal pf (p_type p) (tok (S i))) as [w|] eqn:W.
      + rewrite CL2 in C. injection C as <- <-. replace (S i) with (i + List.length [p]) by (cbn; lia).
        apply (re_fixed toks pf own [p] [] i [w]). constructor; [|constructor]. apply fits_val; assumption.
      + destruct CL2 as (w & j' & CL2). congruence.
    - intros R. inversion R as [|? ? ? vs RW| | |]; subst. inversion RW as [|? ? ? w vs' F RW']; subst. inversion RW'; subst.
      assert (NE : tok (S i) <> []) by apply F. assert (K : isKeyword (tok (S i)) = false) by (eapply fits_kw; [exact NA|exact F]).
      exists 0. specialize (CL2 0 NE K). rewrite (proj1 (fits_val pf _ _ _ NE K) F) in CL2. rewrite CL2. cbn. f_equal. lia.
  Qed.

  (** ** A fixed number of parameters *)

  Lemma default_pick : forall n t s, pick n Default t s = None.
  Proof. reflexivity. Qed.

  Lemma fixed_good : forall ps body, fixedLoop ps body = true -> good (Loop Skip body) (Fixed ps []).
  Proof.
    intros ps body H i v j L N. unfold fixedLoop in H.
    destruct (bodyOf body) as [[[|] d]|] eqn:BO; try discriminate. destruct (eofOf d) as [d1|] eqn:EO; [|discriminate].
    destruct (kwTest d1) as [k|] eqn:KT; [|discriminate].
    apply andb_true_iff in H. destruct H as [H FL]. apply andb_true_iff in H. destruct H as [H NA].
    apply andb_true_iff in H. destruct H as [H LS]. apply andb_true_iff in H. destruct H as [H SA]. apply andb_true_iff in H. destruct H as [LD POS].
    apply Nat.eqb_eq in LD. apply Nat.ltb_lt in POS.
    set (nn := List.length ps) in *.
    pose (INV := inv [] ps None [] k).
    assert (RND : forall fuel m s, m < nn -> s_idx s < len -> s_err s = false -> INV m (s_obj s) ->
        exists p, nth_error ps m = Some p /\
        (tok (S (s_idx s)) = [] \/ isKeyword (tok (S (s_idx s))) = true -> exists s', run fuel body s = Out s' /\ s_err s' = true) /\
        (tok (S (s_idx s)) <> [] -> isKeyword (tok (S (s_idx s))) = false ->
           stored true p (S m =? nn)%nat (setIdx (S (s_idx s)) s) (wordVal pf (p_type p) (tok (S (s_idx s)))) (run fuel body s))).
    { intros fuel m s LM LI E I. assert (LT : m < lead ps (cellsOf k)) by lia. destruct (lead_nth _ _ _ LT) as (p & fl & kb & E1 & E2 & E3).
      exists p. split; [exact E1|].
      rewrite (body_run _ _ _ _ _ BO), default_pick, (eof_run _ _ _ _ EO). cbn [s_idx setIdx]. rewrite current_next by exact LI. split.
      - intros [EM|KW].
        + rewrite EM. eexists. split; reflexivity.
        + destruct (beqb (tok (S (s_idx s))) []) eqn:EB; [eexists; split; reflexivity|]. rewrite (kwTest_run _ _ _ _ KT). cbn [s_idx setIdx].
          rewrite current_next, KW by exact LI. eexists. split; reflexivity.
      - intros NE KW. rewrite (proj2 (beqb_neq _ _) NE), (kwTest_run _ _ _ _ KT). cbn [s_idx setIdx]. rewrite current_next, KW by exact LI. rewrite (next_word _ NE).
        rewrite (run_cell fuel m k fl kb).
        + apply (isStore_run true fuel p kb (S m =? nn)%nat (setIdx (S (s_idx s)) s)); [|exact E|left; exact KW].
          destruct (Nat.eqb_spec (S m) nn) as [EQ|NEQ].
          * replace (nn - 1) with m in LS by lia. rewrite E1, E2 in LS. destruct (isStore true p kb) as [[|]|]; try discriminate. reflexivity.
          * eapply storesAll_nth; eauto. lia.
        + exact E2.
        + cbn [s_obj setIdx]. rewrite (i_lead _ _ _ _ _ _ _ I m fl); [apply Nat.ltb_irrefl|]. eapply L_nth; eauto.
        + intros q fl' kb' Q EQ. cbn [s_obj setIdx]. rewrite (i_lead _ _ _ _ _ _ _ I q fl'); [apply Nat.ltb_lt; exact Q|]. eapply L_nth; eauto. lia. }
    assert (NK : forall m p t w, nth_error ps m = Some p -> fits pf (p_type p) t w -> isKeyword t = false).
    { intros m p t w E F. rewrite forallb_forall in NA. specialize (NA p (nth_error_In _ _ E)). apply negb_true_iff in NA. eapply fits_kw; [exact NA|exact F]. }
    assert (I0 : INV 0 []) by (split; [intros; reflexivity|intros; reflexivity|intros ? []]).
    split; [|apply fixed_len, L]. rewrite returns_iff. split.
    - intros (n & C). rewrite call_loop in C. change (run n Skip (St [] [] false i)) with (Go (St [] [] false i)) in C. cbv iota in C.
      assert (IT : forall x m s s', m < nn -> s_idx s < len -> s_err s = false -> INV m (s_obj s) -> iter x (run n body) s = Go s' -> s_err s' = false ->
         exists vs, row toks pf (skipn m ps) (S (s_idx s)) vs /\ s_obj s' = stores true (skipn m ps) vs (s_obj s) /\ s_idx s' = s_idx s + (nn - m)).
      { induction x as [|x IH]; intros m s s' LM LI E I IT ER; [discriminate|]. cbn [iter] in IT.
        destruct (RND n m s LM LI E I) as (p & EP & R1 & R2).
        destruct (list_eq_dec ascii_dec (tok (S (s_idx s))) []) as [EM|NE].
        { destruct (R1 (or_introl EM)) as (s1 & E1 & E2). rewrite E1 in IT. congruence. }
        destruct (isKeyword (tok (S (s_idx s)))) eqn:KW.
        { destruct (R1 (or_intror eq_refl)) as (s1 & E1 & E2). rewrite E1 in IT. congruence. }
        specialize (R2 NE eq_refl). rewrite (skipn_cons _ _ _ _ EP). pose proof (tok_lt _ NE) as LT.
        destruct (wordVal pf (p_type p) (tok (S (s_idx s)))) as [w|] eqn:W; cbn [stored s_obj s_idx setIdx] in R2.
        - destruct R2 as (vr & R2). assert (F : fits pf (p_type p) (tok (S (s_idx s))) w) by (apply fits_val; assumption).
          rewrite R2 in IT. destruct (Nat.eqb_spec (S m) nn) as [EQ|NEQ].
          + injection IT as <-. cbn [s_obj s_idx]. exists [w]. rewrite skipn_all2 by (unfold nn in EQ; lia). repeat split; [constructor; [exact F|constructor]|lia].
          + destruct (IH (S m) (St (store true (s_obj s) (p, w)) vr false (S (s_idx s))) s' ltac:(lia) ltac:(cbn [s_idx]; lia) eq_refl) as (vs & RW & OB & IX); cbn [s_obj s_idx] in *; auto.
            * apply (inv_store_lead [] ps None [] [] k FL); auto. lia.
            * exists (w :: vs). repeat split; [constructor; assumption|exact OB|lia].
        - destruct R2 as (s1 & E1 & [R2|[X _]]); [rewrite R2 in IT; congruence|discriminate]. }
      destruct (iter n (run n body) (St [] [] false i)) as [s'|s'| |] eqn:ITN; try discriminate.
      + injection C as <- ER <-. destruct (IT n 0 (St [] [] false i) s' POS L eq_refl I0 ITN ER) as (vs & RW & OB & IX). cbn [s_obj s_idx skipn] in *.
        rewrite OB, IX. replace (nn - 0) with (List.length ps) by (unfold nn; lia). apply (re_fixed toks pf own ps [] i vs RW).
      + exfalso. clear - ITN. revert ITN. generalize (St [] [] false i). generalize n at 1. intros x.
        induction x as [|x IH]; intros s ITN; [discriminate|]. cbn in ITN. destruct (run n body s); try discriminate. apply (IH _ ITN).
    - intros R. inversion R as [|? ? ? vs RW| | |]; subst.
      assert (IT : forall x fuel m o vr i vs, m < nn -> i < len -> INV m o -> row toks pf (skipn m ps) (S i) vs -> nn - m <= x ->
         exists vr', iter x (run fuel body) (St o vr false i) = Go (St (stores true (skipn m ps) vs o) vr' false (i + (nn - m)))).
      { clear - last_empty RND NK FL LD. induction x as [|x IH]; intros fuel m o vr i vs LM LI I RW LX; [lia|]. cbn [iter].
        destruct (RND fuel m (St o vr false i) LM LI eq_refl I) as (p & EP & _ & R2). cbn [s_idx s_obj] in R2. rewrite (skipn_cons _ _ _ _ EP) in *.
        inversion RW as [|? ? ? w vs' F RW']; subst. assert (NE : tok (S i) <> []) by apply F. pose proof (NK _ _ _ _ EP F) as KW.
        pose proof (tok_lt _ NE) as LT. specialize (R2 NE KW). rewrite (proj1 (fits_val pf _ _ _ NE KW) F) in R2. cbn [stored s_obj s_idx setIdx] in R2. destruct R2 as (vr' & ->).
        destruct (Nat.eqb_spec (S m) nn) as [EQ|NEQ].
        - assert (SK : skipn (S m) ps = []) by (apply skipn_all2; unfold nn in EQ; lia). change (row toks pf (skipn (S m) ps) (S (S i)) vs') in RW'. rewrite SK in *. inversion RW'; subst. exists vr'. replace (i + (nn - m)) with (S i) by lia. reflexivity.
        - destruct (IH fuel (S m) (store true o (p, w)) vr' (S i) vs' ltac:(lia) ltac:(lia)) as (vr2 & IT).
          + apply (inv_store_lead [] ps None [] [] k FL); auto. lia.
          + exact RW'.
          + lia.
          + exists vr2. rewrite IT. replace (S i + (nn - S m)) with (i + (nn - m)) by lia. reflexivity. }
      exists nn. rewrite call_loop. change (run nn Skip (St [] [] false i)) with (Go (St [] [] false i)). cbv iota.
      destruct (IT nn nn 0 [] [] i vs POS L I0 RW ltac:(lia)) as (vr' & ->). cbn [skipn s_obj s_err s_idx]. replace (nn - 0) with (List.length ps) by (unfold nn; lia). reflexivity.
  Qed.

  (** ** Objects that end before the next keyword *)

  Lemma new_inv : forall ms ps r its ends k, flagsOk ms ps r its ends k = true -> inv ms ps r ends k 0 (newMaps ms).
  Proof.
    intros ms ps r its ends k FL.
    assert (X : forall l o f, fget f (fold_left (fun o f => fset f (VMap []) o) l o) = if oneOf f l then Some (VMap []) else fget f o).
    { induction l as [|x l IH]; intros o f; [reflexivity|]. cbn [fold_left oneOf existsb]. rewrite IH. unfold oneOf at 1. destruct (existsb (String.eqb f) l); [rewrite orb_true_r; reflexivity|].
      rewrite orb_false_r. destruct (String.eqb_spec f x) as [->|NE]; [apply fget_set|apply fget_other, NE]. }
    assert (Y : forall fl, fbool fl (newMaps ms) = false) by (intros fl; unfold fbool, newMaps; rewrite X; destruct (oneOf fl ms); reflexivity).
    split; [intros; rewrite Y; reflexivity|auto|]. intros f I. unfold newMaps. rewrite X. apply oneOf_in in I. rewrite I. eauto.
  Qed.
  Lemma maps_run : forall fuel pre ms o vr e i, mapsOfPre pre = Some ms ->
      run fuel pre (St o vr e i) = Go (St (fold_left (fun o f => fset f (VMap []) o) ms o) vr e i).
  Proof.
    intros fuel. fix IH 1. intros pre ms o vr e i H. destruct pre as [|x k]; [injection H as <-; reflexivity|]. destruct x; try discriminate. cbn in H. destruct e0; try discriminate.
    destruct (mapsOfPre k) as [l|] eqn:E; [|discriminate]. injection H as <-. 
    change (run fuel (Seq (Set_ f EmptyMap) k) (St o vr e i)) with (run fuel k (St (fset f (VMap []) o) vr e i)). rewrite (IH k l _ _ _ _ E). reflexivity.
  Qed.

  Lemma ahead_good : forall ps gs cs nexts body, aheadLoop ps gs cs nexts body = true -> good (Loop Skip body) (Ahead ps gs cs nexts).
  Proof.
    intros ps gs cs nexts body H i v j L N. unfold aheadLoop in H.
    destruct (bodyOf body) as [[[|] d]|] eqn:BO; try discriminate. apply andb_true_iff in H. destruct H as [H NA].
    destruct (eofOf d) as [d1|] eqn:EO; [|discriminate]. destruct d1 as [|[] [|]]; try discriminate.
    destruct (backOf a) as [cs'|] eqn:BK; [|discriminate].
    set (r := further ps (Free gs) "") in *. set (stopAt := follows (Ahead ps gs cs nexts)).
    assert (X : exists k, chainOk ps r k = true /\ flagsOk [] ps r [] [] k = true /\ cs = cs'
        /\ (forall t, stopAt t = true -> t <> [] /\ isKeyword t = true)
        /\ (forall fuel s, run fuel {{ If c a o }} s = if stopAt (current toks (s_idx s)) then run fuel a s
                             else if isKeyword (current toks (s_idx s)) then Out (setErr true s) else run fuel k s)).
    { destruct c; try discriminate.
      - destruct nexts; try discriminate. apply andb_true_iff in H. destruct H as [H FL]. apply andb_true_iff in H. destruct H as [CE CH]. apply yes_true in CE.
        exists o. repeat split; auto.
        + intros ->. vm_compute in H. discriminate.
        + intros fuel s. rewrite run_one, exec_if. cbn [test stopAt follows]. destruct (isKeyword (current toks (s_idx s))); reflexivity.
      - destruct c1; try discriminate. destruct c2; try discriminate. destruct nexts as [|n1 [|n2 [|]]]; try discriminate.
        destruct (kwTest o) as [k|] eqn:KT; [|discriminate]. repeat match goal with H : _ && _ = true |- _ => apply andb_true_iff in H; destruct H end.
        repeat match goal with H : String.eqb _ _ = true |- _ => apply String.eqb_eq in H; subst | H : consts_eq _ _ = true |- _ => apply yes_true in H | H : negb _ = true |- _ => apply negb_true_iff in H end.
        exists k. split; [assumption|]. split; [assumption|]. split; [assumption|]. split.
        + intros t0 SA. cbn in SA. rewrite orb_false_r in SA. apply orb_true_iff in SA.
          destruct SA as [SA|SA]; apply beqb_eq in SA; subst t0; (split; [apply b_empty|]; assumption).
        + intros fuel s0. rewrite run_one, exec_if. cbn [test stopAt follows existsb]. rewrite orb_false_r.
          destruct (beqb (current toks (s_idx s0)) (b n1) || beqb (current toks (s_idx s0)) (b n2)); [reflexivity|]. apply (kwTest_run _ _ _ _ KT). }
    destruct X as (k & CH & FL & <- & SK & RN).
    assert (LP : returns toks pf (Loop Skip body) i v false j <->
         exists i' o, mixed [] "" ps r i i' (newMaps []) o /\ stopAt (tok (S i')) = true /\ v = VObj (consts cs o) /\ j = (fun i => i) i' /\ i' < len).
    { apply (loop_exact [] ps r [] "" cs [] k body Default d stopAt (fun i => i) false CH FL BO).
      - intros fuel s E. rewrite (eof_run _ _ _ _ EO), E. reflexivity.
      - intros fuel s i0 IX NE E SA _. rewrite (eof_run _ _ _ _ EO), (proj2 (beqb_neq _ _) NE), RN, SA, (back_run _ _ _ _ _ BK IX), E. reflexivity.
      - intros fuel s NE E SA. rewrite (eof_run _ _ _ _ EO), (proj2 (beqb_neq _ _) NE), RN, SA. reflexivity.
      - exact NA.
      - intros t SA _. split; [reflexivity|apply SK, SA].
      - intros t NE _. exact NE.
      - intros t SA. split; [apply SK, SA|reflexivity].
      - reflexivity.
      - intros ? ? ? ? [].
      - intros t kb E. discriminate.
      - exact L.
      - eapply new_inv; eauto.
      - intros fuel. reflexivity. }
    split.
    - rewrite LP. split.
      + intros (i' & o' & MX & SA & -> & -> & _). constructor; assumption.
      + intros R. inversion R as [| |? ? ? ? ? ? o' MX FO| |]; subst. exists j, o'. repeat split; auto.
        destruct (SK _ FO) as [NE _]. apply tok_lt in NE. lia.
    - intros R. inversion R as [| |? ? ? ? ? ? o' MX FO| |]; subst. destruct (SK _ FO) as [NE _]. apply tok_lt in NE. lia.
  Qed.

  (** ** Objects with an end keyword *)

  Lemma block_good : forall ms ps gr its stop cs pre body (cases : cases) d d1 stop' e d2 cs' ends k (anyOk : bool),
      ~ In stop special -> mapsOfPre pre = Some ms -> ~ In stop (map kwOf its) -> stop <> "" ->
      bodyOf body = Some (cases, d) -> eofOf d = Some d1 -> d1 = {{ If (CurIs stop') e d2 }} -> endsOf e = Some (cs', ends) ->
      stop = stop' -> cs = cs' ->
      (if anyOk then k = d2 else kwTest d2 = Some k : Prop) ->
      chainOk ps (further ps gr stop) k = true -> flagsOk ms ps (further ps gr stop) its ends k = true ->
      (if anyOk then forallb isAny (ps ++ match further ps gr stop with Some q => [q] | None => [] end) = true /\ further ps gr stop <> None
       else forallb (fun p => negb (isAny p)) (ps ++ match further ps gr stop with Some q => [q] | None => [] end) = true) ->
      caseFor (b stop) cases = None -> caseFor [] cases = None ->
      (forall kw f p sub, In (Item kw f p sub) its -> b kw <> [] /\ exists kb, caseFor (b kw) cases = Some kb /\ itemCase kb f p sub) ->
      (forall t kb, caseFor t cases = Some kb ->
        (exists kw f p sub, In (Item kw f p sub) its /\ t = b kw)
        \/ anyOk = false /\ isKeyword t = true /\ forall fuel s, current toks (s_idx s) = t -> exists s', run fuel kb s = Out s' /\ s_err s' = true) ->
      good (Loop pre body) (Block ms ps gr its stop cs).
  Proof.
    intros ms ps gr its stop cs pre body cases d d1 stop' e d2 cs' ends k anyOk NS MP NI NE BO EO -> EN <- <- KT CH FL AN CS C0 IC OC i v j L N.
    assert (NB : b stop <> []) by (intros X; apply NE; apply b_inj; exact X).
    assert (RN : forall fuel s, current toks (s_idx s) <> [] -> run fuel d s = if beqb (current toks (s_idx s)) (b stop) then run fuel e s else run fuel d2 s).
    { intros fuel s X. rewrite (eof_run _ _ _ _ EO), (proj2 (beqb_neq _ _) X), run_one, exec_if. reflexivity. }
    assert (LP : returns toks pf (Loop pre body) i v false j <->
         exists i' o, mixed its stop ps (further ps gr stop) i i' (newMaps ms) o /\ beqb (tok (S i')) (b stop) = true /\ v = VObj (consts cs o) /\ j = S i' /\ i' < len).
    { apply (loop_exact ms ps (further ps gr stop) its stop cs ends k body cases d (fun t => beqb t (b stop)) S anyOk CH FL BO).
      - intros fuel s E. rewrite (eof_run _ _ _ _ EO), E. reflexivity.
      - intros fuel s i0 IX X E SA U. rewrite RN, SA, (ends_run _ _ _ _ _ EN U), E, IX by exact X. reflexivity.
      - intros fuel s X E SA. rewrite RN, SA by exact X. destruct anyOk; [subst d2; reflexivity|]. apply (kwTest_run _ _ _ _ KT).
      - exact AN.
      - intros t SA [P _]. apply beqb_eq in SA. contradiction.
      - intros t _ SA. apply beqb_neq. exact SA.
      - intros t SA. apply beqb_eq in SA. subst t. split; assumption.
      - exact C0.
      - exact IC.
      - exact OC.
      - exact L.
      - eapply new_inv; eauto.
      - intros fuel. rewrite (maps_run _ _ _ _ _ _ _ MP). reflexivity. }
    assert (RL : reads (Block ms ps gr its stop cs) i v j -> exists i' o, mixed its stop ps (further ps gr stop) i i' (newMaps ms) o /\ tok (S i') = b stop /\ v = VObj (consts cs o) /\ j = S i' /\ S i' < len).
    { intros R. inversion R as [| | |? ? ? ? ? ? ? i' o' _ MX EQ|]; subst; [|contradiction]. exists i', o'. repeat split; auto. assert (X : tok (S i') <> []) by (rewrite EQ; exact NB). apply tok_lt in X. lia. }
    split.
    - rewrite LP. split.
      + intros (i' & o' & MX & SA & -> & -> & _). apply beqb_eq in SA. apply re_block; assumption.
      + intros R. destruct (RL R) as (i' & o' & MX & SA & -> & -> & LT). exists i', o'. repeat split; auto; [|lia]. apply beqb_eq. exact SA.
    - intros R. destruct (RL R) as (i' & o' & _ & _ & _ & -> & LT). lia.
  Qed.

  (** ** All parsers *)

  Variable ownFn : string -> option fn.
  Hypothesis own_is : forall stop h, In stop special -> ownFn stop = Some h ->
      forall i v j, i < len -> tok i <> [] -> (own stop i v j <-> returns toks pf h i v false j).
  Notation shapeFn := (shapeFn ownFn).
  Notation shapeCases := (shapeCases ownFn).

  Definition PF (g : fn) : Prop := forall f, shapeFn g f = true -> good g f.
  Definition PC (cs : cases) : Prop := forall its, shapeCases cs its = true -> NoDup (map kwOf its) ->
      (forall kw f p sub kb, In (Item kw f p sub) its -> caseFor (b kw) cs = Some kb -> itemCase kb f p sub)
      /\ (forall t kb, caseFor t cs = Some kb ->
           (exists kw f p sub, In (Item kw f p sub) its /\ t = b kw)
           \/ isKeyword t = true /\ forall fuel s, current toks (s_idx s) = t -> exists s', run fuel kb s = Out s' /\ s_err s' = true).
  Definition PS (x : stmt) : Prop := match x with CallF _ g | CallV _ g => PF g | Switch _ cs _ => PC cs | _ => True end.
  Definition PB (k : block) : Prop := match k with Seq x _ => PS x | Skip => True end.

  Lemma findItem_in : forall its kw f p sub, findItem kw its = Some (f, p, sub) -> In (Item kw f p sub) its.
  Proof.
    induction its as [|[kw' f' p' sub'] its IH]; intros kw f p sub H; [discriminate|]. cbn in H. destruct (String.eqb_spec kw kw') as [->|NE].
    - injection H as -> -> ->. left. reflexivity.
    - right. apply IH, H.
  Qed.
  Lemma in_findItem : forall its kw f p sub, NoDup (map kwOf its) -> In (Item kw f p sub) its -> findItem kw its = Some (f, p, sub).
  Proof.
    induction its as [|[kw' f' p' sub'] its IH]; intros kw f p sub ND I; [destruct I|]. cbn in ND |- *. inversion ND as [|? ? NI ND']; subst.
    destruct I as [E|I].
    - injection E as -> -> -> ->. rewrite String.eqb_refl. reflexivity.
    - destruct (String.eqb_spec kw kw') as [->|NE]; [|apply IH; assumption]. exfalso. apply NI. apply in_map_iff. exists (Item kw' f p sub). split; [reflexivity|exact I].
  Qed.

  Lemma dead_run : forall kw kb, dead kw kb = true ->
      isKeyword (b kw) = true /\ forall fuel s, current toks (s_idx s) = b kw -> exists s', run fuel kb s = Out s' /\ s_err s' = true.
  Proof.
    intros kw kb H. unfold dead in H.
    repeat match type of H with match ?x with _ => _ end = _ => destruct x; try discriminate H end.
    apply andb_true_iff in H. destruct H as [H K]. split; [exact K|]. intros fuel s E. apply negb_true_iff, oneOf_out in H.
    rewrite run_seq, exec_callF. cbn [A2lIR.call]. rewrite E.
    assert (F : findText (b kw) table = None).
    { clear - H. induction table as [|[c w] table IH]; [reflexivity|]. cbn. destruct (beqb (b kw) (b c)) eqn:EB.
      - exfalso. apply H. left. apply beqb_eq, b_inj in EB. symmetry. exact EB.
      - apply IH. intros X. apply H. right. exact X. }
    rewrite F. rewrite run_seq, exec_if. cbn [test s_err setIdx setErr setObj]. eexists. split; reflexivity.
  Qed.

  Lemma own_good : forall g ms ps gr its stop cs, oneOf stop special = true -> match ownFn stop with Some h => sameF g h | None => false end = true ->
      good g (Block ms ps gr its stop cs).
  Proof.
    intros g ms ps gr its stop cs SP H. apply oneOf_in in SP. destruct (ownFn stop) as [h|] eqn:OW; [|discriminate]. apply same_eq in H. subst h.
    intros i v j L N. assert (X : reads (Block ms ps gr its stop cs) i v j <-> own stop i v j).
    { split; [|apply re_own; exact SP]. intros R. inversion R; subst; [contradiction|assumption]. }
    rewrite X. split; [symmetry; apply (own_is stop g SP OW i v j L N)|]. apply own_len; assumption.
  Qed.

  Ltac parts H := repeat match type of H with _ && _ = true => let H' := fresh "Z" in apply andb_true_iff in H; destruct H as [H H']; parts H' end.

  Lemma all_good : (forall x, PS x) /\ (forall k, PB k) /\ (forall cs, PC cs) /\ (forall g, PF g).
  Proof.
    apply ir_ind; try (intros; exact Logic.I).
    - (* CallF *) intros f g IH. exact IH.
    - (* CallV *) intros f g IH. exact IH.
    - (* Switch *) intros r cs IH d _. exact IH.
    - (* Seq *) intros x IH k _. exact IH.
    - (* Default *) intros its _ _. split; intros; discriminate.
    - (* Case *) intros kw k IHk cs IHcs its H ND. cbn [A2lExact.shapeCases] in H. apply andb_true_iff in H. destruct H as [H1 H2].
      destruct (IHcs its H2 ND) as [A1 A2]. split.
      + intros kw' f p sub kb IN E. cbn in E. destruct (beqb (b kw') (b kw)) eqn:EB; [|eapply A1; eauto].
        injection E as <-. apply beqb_eq, b_inj in EB. subst kw'. rewrite (in_findItem _ _ _ _ _ ND IN) in H1. clear - H1 IHk.
        destruct k as [|x k1]; [discriminate|]. destruct x; try discriminate.
        * repeat match type of H1 with match ?x with _ => _ end = _ => destruct x; try discriminate H1 end.
          apply andb_true_iff in H1. destruct H1 as [E G]. apply String.eqb_eq in E. subst. exists g. split; [apply IHk, G|]. left. split; reflexivity.
        * destruct k1 as [|y k2]; [discriminate|]. destruct y; try discriminate. destruct c; try discriminate. destruct a as [|z a]; try discriminate. destruct z; try discriminate.
          destruct a; try discriminate. destruct o; try discriminate. destruct k2 as [|y k2]; [discriminate|]. destruct k2; [|destruct y; discriminate].
          apply andb_true_iff in H1. destruct H1 as [G E]. exists g. split; [apply IHk, G|]. right. exists v.
          destruct p; try discriminate; destruct y; try discriminate.
          -- left. destruct e; try discriminate. apply andb_true_iff in E. destruct E as [E1 E2]. apply String.eqb_eq in E1. apply String.eqb_eq in E2. subst. split; reflexivity.
          -- right. apply andb_true_iff in E. destruct E as [E E3]. apply andb_true_iff in E. destruct E as [E1 E2]. apply String.eqb_eq in E1. apply String.eqb_eq in E2. apply String.eqb_eq in E3. subst.
             eexists. split; reflexivity.
      + intros t kb E. cbn in E. destruct (beqb t (b kw)) eqn:EB; [|eapply A2; eauto]. injection E as <-. apply beqb_eq in EB. subst t.
        destruct (findItem kw its) as [[[f p] sub]|] eqn:FI.
        * left. apply findItem_in in FI. eauto 6.
        * right. apply dead_run, H1.
    - (* Enum *) intros adv table f H. destruct f as [[| | |texts]|ps cs|ps gs cs nexts|ms ps gr its stop cs]; cbn [A2lExact.shapeFn] in H; try discriminate.
      + apply value_good. exact H.
      + destruct (oneOf stop special) eqn:SP; [|discriminate]. apply own_good; assumption.
    - (* Straight *) intros k _ f H. destruct f as [[| | |texts]|ps cs|ps gs cs nexts|ms ps gr its stop cs]; cbn [A2lExact.shapeFn] in H; try discriminate.
      + destruct ps as [|p [|q ps]]; [apply noParam_good; exact H| |discriminate]. apply andb_true_iff in H. destruct H as [H E]. apply yes_true in E. subst cs.
        apply oneParam_good. exact H.
      + destruct (oneOf stop special) eqn:SP; [|discriminate]. apply own_good; assumption.
    - (* Loop *) intros pre _ body IHb f H. destruct f as [[| | |texts]|ps cs|ps gs cs nexts|ms ps gr its stop cs]; cbn [A2lExact.shapeFn] in H; try discriminate.
      + destruct pre; try discriminate. apply andb_true_iff in H. destruct H as [H E]. apply yes_true in E. subst cs. apply fixed_good. exact H.
      + destruct pre; try discriminate. apply ahead_good. exact H.
      + destruct (oneOf stop special) eqn:SP; [apply own_good; assumption|]. apply oneOf_out in SP.
        apply andb_true_iff in H. destruct H as [H B]. apply andb_true_iff in H. destruct H as [H NE]. apply andb_true_iff in H. destruct H as [H N0].
        apply andb_true_iff in H. destruct H as [H NI]. apply andb_true_iff in H. destruct H as [H ND].
        destruct (mapsOfPre pre) as [ms'|] eqn:MP; [|discriminate]. apply yes_true in H. subst ms'.
        apply distinct_nodup in ND. apply negb_true_iff, oneOf_out in NI. apply negb_true_iff, oneOf_out in N0. apply negb_true_iff in NE.
        assert (NE' : stop <> "") by (intros ->; discriminate).
        destruct body as [|x k0]; [discriminate|]. destruct x; try discriminate.
        * (* Next *) destruct its; [|discriminate]. destruct (eofOf k0) as [d1|] eqn:EO; [|discriminate].
          destruct d1 as [|[] [|]]; try discriminate; try (destruct c; discriminate). destruct c; try discriminate. destruct (endsOf a) as [[cs' ends]|] eqn:EN; [|discriminate].
          apply andb_true_iff in B. destruct B as [B K]. apply andb_true_iff in B. destruct B as [B1 B2]. apply String.eqb_eq in B1. apply yes_true in B2.
          destruct (kwTest o) as [k|] eqn:KT.
          -- apply andb_true_iff in K. destruct K as [K AN]. apply andb_true_iff in K. destruct K as [CH FL].
             apply (block_good ms ps gr [] stop cs pre (Seq Next k0) Default k0 _ _ a o cs' ends k false SP MP NI NE' eq_refl EO eq_refl EN B1 B2 KT CH FL AN eq_refl eq_refl).
             ++ intros ? ? ? ? [].
             ++ intros ? ? E. discriminate.
          -- apply andb_true_iff in K. destruct K as [K FU]. apply andb_true_iff in K. destruct K as [K AN]. apply andb_true_iff in K. destruct K as [CH FL].
             apply (block_good ms ps gr [] stop cs pre (Seq Next k0) Default k0 _ _ a o cs' ends o true SP MP NI NE' eq_refl EO eq_refl EN B1 B2 eq_refl CH FL).
             ++ split; [exact AN|]. intros X. rewrite X in FU. discriminate.
             ++ reflexivity.
             ++ reflexivity.
             ++ intros ? ? ? ? [].
             ++ intros ? ? E. discriminate.
        * (* Switch *) destruct s; [|discriminate]. destruct k0; [|discriminate].
          apply andb_true_iff in B. destruct B as [B D]. apply andb_true_iff in B. destruct B as [B K0]. apply andb_true_iff in B. destruct B as [B KS].
          apply andb_true_iff in B. destruct B as [B WI]. apply andb_true_iff in B. destruct B as [SC DK].
          apply negb_true_iff, oneOf_out in K0. apply negb_true_iff, oneOf_out in KS.
          destruct (eofOf d) as [d1|] eqn:EO; [|discriminate].
          destruct d1 as [|[] [|]]; try discriminate; try (destruct c; discriminate). destruct c; try discriminate. destruct (endsOf a) as [[cs' ends]|] eqn:EN; [|discriminate].
          destruct (kwTest o) as [k|] eqn:KT; [|discriminate].
          apply andb_true_iff in D. destruct D as [D AN]. apply andb_true_iff in D. destruct D as [D FL]. apply andb_true_iff in D. destruct D as [D CH].
          apply andb_true_iff in D. destruct D as [B1 B2]. apply String.eqb_eq in B1. apply yes_true in B2.
          destruct (IHb its SC ND) as [A1 A2].
          assert (NC : forall u, ~ In u (keysOf cs0) -> caseFor (b u) cs0 = None).
          { intros u NK. destruct (caseFor (b u) cs0) as [kb|] eqn:E; [|reflexivity]. destruct (caseFor_key _ _ _ E) as (c & IC & E'). apply b_inj in E'. subst c. contradiction. }
          apply (block_good ms ps gr its stop cs pre {{ Switch FromNext cs0 d }} cs0 d _ _ a o cs' ends k false SP MP NI NE' eq_refl EO eq_refl EN B1 B2 KT CH FL AN (NC stop KS) (NC "" K0)).
          -- intros kw f p sub IN. assert (IK : In kw (map kwOf its)) by (apply in_map_iff; exists (Item kw f p sub); split; [reflexivity|exact IN]).
             split.
             ++ intros X. apply N0. replace "" with kw; [exact IK|]. apply b_inj. exact X.
             ++ destruct (key_caseFor cs0 kw (within_in _ _ _ WI IK)) as (kb & E). exists kb. split; [exact E|]. eapply A1; eauto.
          -- intros t0 kb E. destruct (A2 t0 kb E) as [X|[X Y]]; [left; exact X|right; auto].
  Qed.

  (** the forms say exactly how the parsers read *)
  Theorem shape_exact : forall g f i v j, shapeFn g f = true -> i < len -> tok i <> [] ->
      (returns toks pf g i v false j <-> reads f i v j).
  Proof. intros g f i v j H L N. destruct all_good as (_ & _ & _ & A). apply (A g f H i v j L N). Qed.
End Run.
