(** What the sequential parser of modules returns, in terms of A2lModSpec.v. *)
From Coq Require Import String Ascii List Arith Bool Lia SpecFloat.
From Verif Require Import GoBase GoBaseFacts A2lIR A2lTokens A2lParsers A2lThm A2lSpec A2lModModel A2lModSpec A2lModStore.
Import ListNotations.

(** ** The statements of parseModule *)
Definition readCase (k : block) : option (fn * action) :=
  match k with
  | Seq (CallF f g) (Seq (If ErrSet (Seq Break Skip) Skip) Skip) => Some (g, Keep f)
  | Seq (CallV x g) (Seq (If ErrSet (Seq Break Skip) Skip) (Seq (Put f y q) Skip)) => if String.eqb x y then Some (g, Put_ f q) else None
  | _ => None
  end.
Fixpoint readCases (cs : cases) : option (list (string * (fn * action))) :=
  match cs with
  | Default => Some []
  | Case t k cs' => match readCase k, readCases cs' with Some x, Some l => Some ((t, x) :: l) | _, _ => None end
  end.

Definition modPre : block := match parseModule with Loop p _ => p | _ => Skip end.
Definition modCases : cases := match parseModule with Loop _ (Seq (Switch FromNext cs _) Skip) => cs | _ => Default end.
Definition modDefault : block :=
  {{ If (CurIs "") {{ Raise; Break }}
    {{ If (CurIs "/end MODULE") {{ Break }}
    {{ If CurKw {{ Raise; Break }}
    {{ If (NotSet "nameSet") {{ Set_ "Name" Cur; Set_ "nameSet" Tru }}
    {{ If (NotSet "longIdentifierSet") {{ Set_ "longIdentifier" Cur; Set_ "longIdentifierSet" Tru }} Skip }} }} }} }} }}.
Definition modBody : block := Seq (Switch FromNext modCases modDefault) Skip.

Lemma mod_shape : parseModule = Loop modPre modBody.
Proof. reflexivity. Qed.
Lemma mod_cases : readCases modCases = Some kinds.
Proof. reflexivity. Qed.

Definition findKind (t : bytes) (l : list (string * (fn * action))) : option (string * (fn * action)) := find (fun k => beqb t (b (fst k))) l.
Lemma rows_kinds : forall t, findKind t kinds =
  match findRow t rows with
  | Some r => match actOf (r_chan r) with Some a => Some (r_tok r, (r_parse r, a)) | None => None end
  | None => None
  end.
Proof.
  intros t. assert (E : map (fun r => match actOf (r_chan r) with Some a => Some (r_tok r, (r_parse r, a)) | None => None end) rows = map Some kinds) by reflexivity.
  revert E. unfold findKind. generalize kinds as ks. generalize rows as rs. induction rs as [|r rs IH]; intros [|[t' x] ks] E; try discriminate; [reflexivity|].
  cbn [map] in E. injection E as E1 E2. cbn [find findRow fst]. destruct (actOf (r_chan r)) as [a|] eqn:A; [|discriminate]. injection E1 as <- <-. cbn [fst].
  destruct (beqb t (b (r_tok r))); [rewrite A; reflexivity|]. apply IH. exact E2.
Qed.
Lemma findKind_some : forall t k, findKind t kinds = Some k -> In k kinds /\ t = b (fst k).
Proof. intros t k H. apply find_some in H. destruct H as [I E]. apply beqb_eq in E. auto. Qed.

(** Different kinds have different tokens, all of them keywords. *)
Lemma kinds_keywords : forallb (fun k => isKeyword (b (fst k))) kinds = true.
Proof. vm_compute. reflexivity. Qed.
Lemma kinds_not_end : forallb (fun k => negb (beqb (b (fst k)) (b "/end MODULE")) && negb (beqb (b (fst k)) [])) kinds = true.
Proof. vm_compute. reflexivity. Qed.
Lemma end_keyword : isKeyword (b "/end MODULE") = true.
Proof. vm_compute. reflexivity. Qed.
Lemma begins_keyword : forall t, begins t -> isKeyword t = true.
Proof. intros t (k & I & ->). exact (proj1 (forallb_forall _ _) kinds_keywords k I). Qed.
Lemma word_not_begins : forall t, word t -> ~ begins t.
Proof. intros t [_ W] B. apply begins_keyword in B. congruence. Qed.
Lemma word_not_end : forall t, word t -> t <> b "/end MODULE".
Proof. intros t [_ W] ->. rewrite end_keyword in W. discriminate. Qed.
Lemma begins_not_end : forall t, begins t -> t <> b "/end MODULE" /\ t <> [].
Proof.
  intros t (k & I & ->). pose proof (proj1 (forallb_forall _ _) kinds_not_end k I) as E. cbn beta in E. apply andb_true_iff in E. destruct E as [E1 E2].
  apply negb_true_iff in E1, E2. apply beqb_neq in E1, E2. auto.
Qed.
Lemma findKind_none : forall t, findKind t kinds = None <-> ~ begins t.
Proof.
  intros t. split.
  - intros H (k & I & ->). pose proof (find_none _ _ H k I) as E. cbn in E. rewrite beqb_refl in E. discriminate.
  - intros N. destruct (findKind t kinds) as [k|] eqn:E; [|reflexivity]. exfalso. apply N. exists k. apply findKind_some. exact E.
Qed.
Lemma tokens_nodup : NoDup (map fst kinds).
Proof. apply nodups_ok. vm_compute. reflexivity. Qed.
Lemma b_inj : forall s t, b s = b t -> s = t.
Proof. induction s as [|c s IH]; intros [|d t] H; cbn in H; try discriminate; [reflexivity|]. injection H as -> H. f_equal. auto. Qed.
Lemma findKind_in : forall t g a, In (t, (g, a)) kinds -> findKind (b t) kinds = Some (t, (g, a)).
Proof.
  intros t g a I. destruct (findKind (b t) kinds) as [k|] eqn:E.
  - apply findKind_some in E. destruct E as [J E]. apply b_inj in E. f_equal.
    eapply NoDup_map_inj; [exact tokens_nodup|exact J|exact I|]. symmetry. exact E.
  - exfalso. apply (findKind_none (b t)) in E. apply E. exists (t, (g, a)). auto.
Qed.

Section Seq.
  Variable toks : list bytes.
  Variable pf : bytes -> option spec_float.
  Variable fuel : nat.
  Hypothesis EN : ended toks.
  Notation run := (A2lIR.run isKeyword toks pf fuel).
  Notation pick := (A2lIR.pick isKeyword toks pf fuel).
  Notation call := (A2lIR.call isKeyword toks pf fuel).
  Notation exec := (A2lIR.exec isKeyword toks pf fuel).

  Definition present (a : action) (o : fields) : Prop := match a with Keep _ => True | Put_ f _ => exists m, fget f o = Some (VMap m) end.
  (** what a case does *)
  Definition does (g : fn) (a : action) (s : st) (q : res) : Prop :=
    match call g (s_idx s) with
    | Ret v e j => if e then exists s', q = Out s' /\ s_err s' = true
                   else present a (s_obj s) -> exists s', q = Go s' /\ s_obj s' = absorb a (s_obj s) v /\ s_err s' = false /\ s_idx s' = j
    | FBad => q = Bad
    | FFuel => q = A2lIR.Fuel
    end.

  Lemma run_seq : forall x k s, run (Seq x k) s = match exec x s with Go s' => run k s' | r => r end.
  Proof. reflexivity. Qed.
  Lemma run_skip : forall s, run Skip s = Go s.
  Proof. reflexivity. Qed.
  Lemma exec_callF : forall f g s, exec (CallF f g) s = match call g (s_idx s) with
    | Ret v e i => Go (setIdx i (setErr e (setObj f v s))) | FBad => Bad | FFuel => A2lIR.Fuel end.
  Proof. reflexivity. Qed.
  Lemma exec_callV : forall x g s, exec (CallV x g) s = match call g (s_idx s) with
    | Ret v e i => Go (setIdx i (setErr e (setVar x v s))) | FBad => Bad | FFuel => A2lIR.Fuel end.
  Proof. reflexivity. Qed.
  Lemma exec_if : forall c a o s, exec (If c a o) s = if test isKeyword toks c s then run a s else run o s.
  Proof. reflexivity. Qed.
  Lemma exec_put : forall f x k s, exec (Put f x k) s = match fget f (s_obj s) with
    | Some (VMap m) => Go (setObj f (VMap (mput (varName x k s) (eval toks (Var x) s) m)) s) | _ => Bad end.
  Proof. reflexivity. Qed.
  Lemma exec_switch : forall cs d s, exec (Switch FromNext cs d) s =
    match pick cs (nextTok toks (s_idx s)) (setIdx (next toks (s_idx s)) s) with Some q => q | None => run d (setIdx (next toks (s_idx s)) s) end.
  Proof. reflexivity. Qed.
  Lemma pick_case : forall c k cs t s, pick (Case c k cs) t s = if beqb t (b c) then Some (run k s) else pick cs t s.
  Proof. reflexivity. Qed.
  Lemma run_case : forall k g a s, readCase k = Some (g, a) -> does g a s (run k s).
  Proof.
    intros k g a s H. unfold does. unfold readCase in H.
    repeat (match type of H with context [match ?x with _ => _ end] => destruct x eqn:?; try discriminate H end); subst; injection H as <- <-.
    - rewrite run_seq, exec_callF. destruct (call _ (s_idx s)) as [w [|] j| |]; try reflexivity.
      + rewrite run_seq, exec_if. cbn [test setIdx setErr s_err]. eexists. split; reflexivity.
      + intros _. rewrite run_seq, exec_if. cbn [test setIdx setErr s_err]. eexists. split; [reflexivity|]. split; [reflexivity|]. split; reflexivity.
    - match goal with E : String.eqb _ _ = true |- _ => apply String.eqb_eq in E; subst end.
      rewrite run_seq, exec_callV. destruct (call _ (s_idx s)) as [w [|] j| |]; try reflexivity.
      + rewrite run_seq, exec_if. cbn [test setIdx setErr s_err]. eexists. split; reflexivity.
      + intros [m P]. rewrite run_seq, exec_if. cbn [test setIdx setErr s_err]. rewrite run_skip, run_seq, exec_put. cbn [s_obj setVar setIdx setErr eval s_var]. rewrite P.
        unfold varName. cbn [s_var setIdx setErr setVar]. rewrite !fget_fset, !String.eqb_refl. eexists. split; [reflexivity|].
        cbn [setObj s_obj s_err s_idx absorb]. rewrite P. split; [|split; reflexivity]. reflexivity.
  Qed.

  Lemma pick_read : forall cs l t s, readCases cs = Some l ->
    match findKind t l with
    | Some (_, (g, a)) => exists q, pick cs t s = Some q /\ does g a s q
    | None => pick cs t s = None
    end.
  Proof.
    induction cs as [|c k cs IH]; intros l t s H; cbn in H.
    - injection H as <-. reflexivity.
    - destruct (readCase k) as [[g a]|] eqn:K; [|discriminate]. destruct (readCases cs) as [l'|]; [|discriminate]. injection H as <-.
      unfold findKind in *. cbn [find fst]. rewrite pick_case. destruct (beqb t (b c)).
      + eexists. split; [reflexivity|]. apply run_case. exact K.
      + apply IH. reflexivity.
  Qed.

  Definition ready (o : fields) : Prop := forall a, In a actions -> present a o.
  Lemma absorb_ready : forall a o v, In a actions -> ready o -> ready (absorb a o v).
  Proof.
    intros a o v I R x J. specialize (R x J). destruct x as [f|f k]; [exact R|]. cbn in *. destruct R as [m R].
    destruct (string_dec (fieldOf a) f) as [E|E]; [|rewrite absorb_other by exact E; eauto].
    assert (a = Put_ f k) as -> by (eapply NoDup_map_inj; [exact actions_fields|exact I|exact J|exact E]).
    cbn. rewrite R, fget_fset, String.eqb_refl. eauto.
  Qed.
  Lemma absorb_flag : forall a o v f, In a actions -> ~ In f (map fieldOf actions) -> fget f (absorb a o v) = fget f o.
  Proof. intros a o v f I N. apply absorb_other. intros <-. apply N. apply in_map. exact I. Qed.
  Lemma flags_free : forall f, In f ["Name"; "nameSet"; "longIdentifier"; "longIdentifierSet"]%string -> ~ In f (map fieldOf actions).
  Proof.
    intros f I J. assert (E : existsb (fun f => existsb (String.eqb f) (map fieldOf actions)) ["Name"; "nameSet"; "longIdentifier"; "longIdentifierSet"]%string = true).
    { apply existsb_exists. exists f. split; [exact I|]. apply existsb_exists. exists f. split; [exact J|apply String.eqb_refl]. }
    vm_compute in E. discriminate.
  Qed.

  Lemma current_next : forall i, nextTok toks i <> [] -> next toks i = S i /\ nextTok toks i = tok toks (S i) /\ current toks (next toks i) = tok toks (S i).
  Proof. intros i H. unfold nextTok, next in *. destruct (moves toks i); [auto|destruct H; reflexivity]. Qed.

  Lemma last_empty : forall i, moves toks i = false -> current toks i = [].
  Proof.
    intros i M. destruct EN as [l ->]. unfold moves in M. apply Nat.ltb_ge in M. rewrite app_length in M. cbn in M. unfold current.
    rewrite app_nth2 by lia. destruct (i - length l) as [|[|k]]; reflexivity.
  Qed.

  (** The round of a token that begins no object. *)
  Lemma default_round : forall s, findKind (nextTok toks (s_idx s)) kinds = None ->
    run modBody s = match run modDefault (setIdx (next toks (s_idx s)) s) with Go s' => Go s' | r => r end.
  Proof.
    intros s H. unfold modBody. rewrite run_seq, exec_switch. pose proof (pick_read modCases kinds (nextTok toks (s_idx s)) (setIdx (next toks (s_idx s)) s) mod_cases) as P.
    rewrite H in P. rewrite P. destruct (run modDefault _); reflexivity.
  Qed.
  Lemma object_round : forall s t g a, findKind (nextTok toks (s_idx s)) kinds = Some (t, (g, a)) ->
    does g a (setIdx (next toks (s_idx s)) s) (run modBody s).
  Proof.
    intros s t g a H. unfold modBody. rewrite run_seq, exec_switch. pose proof (pick_read modCases kinds (nextTok toks (s_idx s)) (setIdx (next toks (s_idx s)) s) mod_cases) as P.
    rewrite H in P. destruct P as (q & -> & D). unfold does in *. destruct (call g _) as [v [|] j| |].
    - destruct D as (s' & -> & E). eauto.
    - intros PR. destruct (D PR) as (s' & -> & E). eauto.
    - rewrite D. reflexivity.
    - rewrite D. reflexivity.
  Qed.

  Lemma default_steps : forall s, let t := current toks (s_idx s) in
    run modDefault s =
      if beqb t [] then Out (setErr true s)
      else if beqb t (b "/end MODULE") then Out s
      else if isKeyword t then Out (setErr true s)
      else if fbool "nameSet" (s_obj s)
           then if fbool "longIdentifierSet" (s_obj s) then Go s
                else Go (setObj "longIdentifierSet" (VBool true) (setObj "longIdentifier" (VStr t) s))
           else Go (setObj "nameSet" (VBool true) (setObj "Name" (VStr t) s)).
  Proof.
    intros s t. unfold modDefault. change (b "") with (@nil ascii).
    rewrite run_seq, exec_if. cbn [test]. fold t. change (b "") with (@nil ascii). destruct (beqb t []); [reflexivity|].
    rewrite run_seq, exec_if. cbn [test]. fold t. destruct (beqb t (b "/end MODULE")); [reflexivity|].
    rewrite run_seq, exec_if. cbn [test]. fold t. destruct (isKeyword t); [reflexivity|].
    rewrite run_seq, exec_if. cbn [test]. destruct (fbool "nameSet" (s_obj s)); cbn [negb]; [|reflexivity].
    rewrite run_seq, exec_if. cbn [test]. destruct (fbool "longIdentifierSet" (s_obj s)); reflexivity.
  Qed.

  Definition headed (o : fields) : Prop := fbool "nameSet" o = true /\ fbool "longIdentifierSet" o = true.

  Lemma call_returns : forall g i v e j, call g i = Ret v e j -> returns toks pf g i v e j.
  Proof.
    intros g i v e j H. exists fuel. intros n L. rewrite (proj2 (proj2 (proj2 (fuel_mono isKeyword toks pf _ _ L)))), H by (rewrite H; discriminate). reflexivity.
  Qed.

  Lemma loop_content : forall n s s', ready (s_obj s) -> headed (s_obj s) -> s_err s = false ->
    iter n (run modBody) s = Go s' -> s_err s' = false ->
    exists items, content toks pf (s_idx s) items (s_idx s') /\ s_obj s' = store (stored items) (s_obj s).
  Proof.
    induction n as [|n IH]; intros s s' R HD E H E'; [discriminate|]. cbn [iter] in H.
    destruct (findKind (nextTok toks (s_idx s)) kinds) as [[t [g a]]|] eqn:K.
    - pose proof (object_round s t g a K) as D. apply findKind_some in K. destruct K as [I K]. cbn [fst] in K.
      assert (BG : begins (nextTok toks (s_idx s))) by (exists (t, (g, a)); auto).
      destruct (current_next (s_idx s) (proj2 (begins_not_end _ BG))) as (N1 & N2 & _).
      assert (IA : In a actions) by (unfold actions; apply (in_map (fun k => snd (snd k)) _ _ I)).
      unfold does in D. cbn [setIdx s_idx s_obj] in D. destruct (call g (next toks (s_idx s))) as [v [|] j| |] eqn:C.
      + destruct D as (s1 & D & E1). rewrite D in H. injection H as <-. congruence.
      + destruct (D (R a IA)) as (s1 & D1 & O1 & E1 & J1). rewrite D1 in H.
        destruct (IH s1 s') as (items & CT & OB); auto.
        * rewrite O1. apply absorb_ready; auto.
        * rewrite O1. destruct HD as [H1 H2]. unfold headed, fbool in *. rewrite !absorb_flag; auto; apply flags_free; cbn; tauto.
        * exists (Item (S (s_idx s)) j a v :: items). split.
          -- rewrite N1 in C. econstructor; [exact I|congruence|apply call_returns; exact C|rewrite J1 in CT; exact CT].
          -- rewrite OB, O1. reflexivity.
      + rewrite D in H. discriminate.
      + rewrite D in H. discriminate.
    - rewrite (default_round s K), default_steps in H. cbn [setIdx s_idx s_obj] in H.
      destruct (beqb (current toks (next toks (s_idx s))) []) eqn:B1; [injection H as <-; discriminate|]. apply beqb_neq in B1.
      assert (NE : nextTok toks (s_idx s) <> []).
      { intros Z. apply B1. unfold nextTok, next in *. destruct (moves toks (s_idx s)) eqn:M; [exact Z|]. apply last_empty; assumption. }
      destruct (current_next (s_idx s) NE) as (N1 & N2 & N3). rewrite N3 in *.
      destruct (beqb (tok toks (S (s_idx s))) (b "/end MODULE")) eqn:B2.
      + apply beqb_eq in B2. injection H as <-. exists []. cbn. rewrite N1. split; [constructor; exact B2|reflexivity].
      + destruct (isKeyword (tok toks (S (s_idx s)))) eqn:KW; [injection H as <-; discriminate|]. destruct HD as [H1 H2]. rewrite H1, H2 in H. cbv iota in H.
        destruct (IH (setIdx (next toks (s_idx s)) s) s' R (conj H1 H2) E H E') as (items & CT & OB). exists items. split; [|exact OB].
        cbn [setIdx s_idx] in CT. rewrite N1 in CT. apply ContWord; [split; assumption|exact CT].
  Qed.

  (** The first two words. *)
  Lemma word_round : forall s, word (tok toks (S (s_idx s))) ->
    run modBody s =
      (let s1 := setIdx (S (s_idx s)) s in
       if fbool "nameSet" (s_obj s)
       then if fbool "longIdentifierSet" (s_obj s) then Go s1
            else Go (setObj "longIdentifierSet" (VBool true) (setObj "longIdentifier" (VStr (tok toks (S (s_idx s)))) s1))
       else Go (setObj "nameSet" (VBool true) (setObj "Name" (VStr (tok toks (S (s_idx s)))) s1))).
  Proof.
    intros s W. assert (L : moves toks (s_idx s) = true).
    { unfold moves. apply Nat.ltb_lt. destruct (lt_dec (S (s_idx s)) (length toks)) as [L|L]; [exact L|]. exfalso. apply (proj1 W). unfold tok. apply nth_overflow. lia. }
    assert (N : nextTok toks (s_idx s) = tok toks (S (s_idx s)) /\ next toks (s_idx s) = S (s_idx s)) by (unfold nextTok, next; rewrite L; auto). destruct N as [N1 N2].
    rewrite default_round by (rewrite N1; apply findKind_none; apply word_not_begins; exact W). rewrite N2, default_steps. cbn [setIdx s_idx s_obj].
    change (current toks (S (s_idx s))) with (tok toks (S (s_idx s))). destruct W as [W1 W2] eqn:WE.
    rewrite (proj2 (beqb_neq _ _) W1), (proj2 (beqb_neq _ _) (word_not_end _ W)), W2.
    destruct (fbool "nameSet" (s_obj s)); [destruct (fbool "longIdentifierSet" (s_obj s))|]; reflexivity.
  Qed.

  Definition headOf (name long : bytes) : fields :=
    fset "longIdentifierSet" (VBool true) (fset "longIdentifier" (VStr long) (fset "nameSet" (VBool true) (fset "Name" (VStr name) emptyModule))).
  Lemma head_ready : forall name long, ready (headOf name long).
  Proof.
    intros name long a I.
    assert (E : forallb (fun a => match a with Keep _ => true | Put_ f _ => match fget f emptyModule with Some (VMap []) => true | _ => false end end) actions = true) by (vm_compute; reflexivity).
    pose proof (proj1 (forallb_forall _ _) E a I) as Q. destruct a as [f|f k]; [exact Logic.I|]. cbn [present].
    assert (NF : forall g, In g ["Name"; "nameSet"; "longIdentifier"; "longIdentifierSet"]%string -> String.eqb f g = false).
    { intros g J. apply String.eqb_neq. intros ->. apply (flags_free g J). apply (in_map fieldOf _ _ I). }
    unfold headOf. rewrite !fget_fset, !NF by (cbn; tauto). cbn beta in Q. destruct (fget f emptyModule) as [[]|]; try discriminate. eauto.
  Qed.
  Lemma head_fresh : forall name long, fresh (headOf name long).
  Proof.
    intros name long a I.
    assert (E : forallb (fun a => match a with Keep f => match fget f emptyModule with None => true | _ => false end
       | Put_ f _ => match fget f emptyModule with Some (VMap []) => true | _ => false end end) actions = true) by (vm_compute; reflexivity).
    pose proof (proj1 (forallb_forall _ _) E a I) as Q.
    assert (NF : forall g, In g ["Name"; "nameSet"; "longIdentifier"; "longIdentifierSet"]%string -> String.eqb (fieldOf a) g = false).
    { intros g J. apply String.eqb_neq. intros E'. apply (flags_free g J). rewrite <- E'. apply (in_map fieldOf _ _ I). }
    unfold headOf. destruct a as [f|f k]; cbn [fieldOf] in NF; rewrite !fget_fset, !NF by (cbn; tauto); cbn beta in Q.
    - destruct (fget f emptyModule); [discriminate|reflexivity].
    - destruct (fget f emptyModule) as [[]|]; try discriminate. destruct m; [|discriminate]. exists []. auto.
  Qed.
  Lemma store_named : forall l name long, (forall x, In x l -> In (fst x) actions) -> named (store l (headOf name long)) name long.
  Proof.
    intros l name long H. unfold named.
    assert (O : forall f, In f ["Name"; "nameSet"; "longIdentifier"; "longIdentifierSet"]%string -> fget f (store l (headOf name long)) = fget f (headOf name long)).
    { intros f J. apply store_other. intros x I <-. apply (flags_free _ J). apply in_map. auto. }
    rewrite !O by (cbn; tauto). unfold headOf. rewrite !fget_fset. cbn. auto.
  Qed.
  Lemma content_actions : forall i items e, content toks pf i items e -> forall x, In x (stored items) -> In (fst x) actions.
  Proof.
    induction 1 as [? ?|? ? ? ? ? IH|i t g a v j items e I ? ? ? IH]; intros x H'; [destruct H'|auto|]. cbn in H'. destruct H' as [<-|H']; [|auto].
    cbn. unfold actions. apply (in_map (fun k => snd (snd k)) _ _ I).
  Qed.

  Lemma call_loop : forall pre body i s, run pre (St [] [] false i) = Go s ->
    call (Loop pre body) i = match iter fuel (run body) s with
                             | Go s' | Out s' => Ret (VObj (s_obj s')) (s_err s') (s_idx s')
                             | Bad => FBad
                             | A2lIR.Fuel => FFuel
                             end.
  Proof.
    intros pre body i s H. transitivity (match run pre (St [] [] false i) with
                       | Go s => match iter fuel (run body) s with
                                 | Go s' | Out s' => Ret (VObj (s_obj s')) (s_err s') (s_idx s')
                                 | Bad => FBad
                                 | A2lIR.Fuel => FFuel
                                 end
                       | Out s => Ret (VObj (s_obj s)) (s_err s) (s_idx s)
                       | Bad => FBad
                       | A2lIR.Fuel => FFuel
                       end); [reflexivity|rewrite H; reflexivity].
  Qed.

  Lemma iter_out : forall n f s s', iter n f s = Out s' -> False.
  Proof. induction n as [|n IH]; cbn [iter]; intros f s s' H; [discriminate|]. destruct (f s); try discriminate. eapply IH. exact H. Qed.

  Lemma seq_content : forall i v j, word (tok toks (i + 1)) -> word (tok toks (i + 2)) -> call parseModule i = Ret v false j ->
    exists items, isModule toks pf i items j /\ v = VObj (store (stored items) (headOf (tok toks (i + 1)) (tok toks (i + 2)))).
  Proof.
    intros i v j W1 W2 H. rewrite mod_shape in H.
    assert (P : run modPre (St [] [] false i) = Go (St emptyModule [] false i)) by reflexivity. rewrite (call_loop _ _ _ _ P) in H. clear P.
    destruct (iter fuel (run modBody) (St emptyModule [] false i)) as [s'|s'| |] eqn:IT; try discriminate; [|destruct (iter_out _ _ _ _ IT)].
    injection H as <- E <-. replace (i + 1) with (S i) in * by lia. replace (i + 2) with (S (S i)) in * by lia.
    revert IT. generalize fuel at 1. intros [|n] IT; [discriminate|].
    cbn [iter] in IT. rewrite word_round in IT by exact W1. cbn [s_obj s_idx] in IT.
    change (fbool "nameSet" emptyModule) with false in IT. cbv iota zeta in IT.
    destruct n as [|n]; [discriminate|]. cbn [iter] in IT. rewrite word_round in IT by exact W2. cbn [s_obj s_idx setObj setIdx s_var s_err] in IT. 
    assert (B1 : fbool "nameSet" (fset "nameSet" (VBool true) (fset "Name" (VStr (tok toks (S i))) emptyModule)) = true) by reflexivity.
    assert (B2 : fbool "longIdentifierSet" (fset "nameSet" (VBool true) (fset "Name" (VStr (tok toks (S i))) emptyModule)) = false) by reflexivity.
    rewrite B1, B2 in IT. cbv iota zeta in IT.
    destruct (loop_content n (St (headOf (tok toks (S i)) (tok toks (S (S i)))) [] false (S (S i))) s' (head_ready (tok toks (S i)) (tok toks (S (S i)))) (conj eq_refl eq_refl) eq_refl IT E) as (items & C & O).
    exists items. split; [|f_equal; exact O]. unfold isModule. replace (i + 1) with (S i) by lia. replace (i + 2) with (S (S i)) by lia.
    split; [exact W1|]. split; [exact W2|exact C].
  Qed.
End Seq.
