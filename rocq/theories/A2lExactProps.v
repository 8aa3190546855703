(** Theorems of property C88: exactly what every parser reads. *)
From Coq Require Import String Ascii List Arith NArith ZArith Bool Lia SpecFloat.
From Verif Require Import GoBase GoBaseFacts A2lModModel A2lModSpec A2lModProps A2lProps A2lIR A2lTokens A2lSpec A2lGrammar A2lForms A2lParsers A2lCheck
  A2lExactSpec A2lExact A2lExactThm.
From Verif Require A2lExploreThm TokModel TokThm A2lTextModel A2lFileModel A2lFileProps A2lNestProps A2lAcceptProps OriginProps.
Import ListNotations.
Local Open Scope string_scope.
Local Open Scope list_scope.

(** ** Forms *)

(** The forms in A2lForms.v, with NO_RESCALE_X, which is left out there because its
    parser takes the keyword for a parameter. *)
Definition recordLayoutExact : form :=
  match recordLayoutRead with
  | Block ms ps g its stop cs => Block ms ps g (Item "NO_RESCALE_X" "NoRescaleX" Single noRescaleXRead :: its) stop cs
  | f => f
  end.
Definition within_form (kw : string) (sub : form) (f : form) : form :=
  match f with
  | Block ms ps g its stop cs => Block ms ps g (map (fun it => match it with Item k x p s => Item k x p (if String.eqb k kw then sub else s) end) its) stop cs
  | f => f
  end.
Definition moduleExact : form := within_form "/begin RECORD_LAYOUT" recordLayoutExact moduleRead.
Definition projectExact : form := within_form "/begin MODULE" moduleExact projectRead.
Definition exactForms : list (string * form) :=
  map (fun e => (fst e, if String.eqb (fst e) "parseRecordLayout" then recordLayoutExact
                        else if String.eqb (fst e) "parseModule" then moduleExact
                        else if String.eqb (fst e) "parseProject" then projectExact else snd e)) readForms.

(** the parsers of the special objects *)
Definition ownParsers : list (string * (string * fn)) :=
  [("/end FRAME", ("parseFrame", parseFrame)); ("/end BIT_OPERATION", ("parseBitOperation", parseBitOperation));
   ("/end OVERWRITE", ("parseOverwrite", parseOverwrite)); ("/end MEMORY_LAYOUT", ("parseMemoryLayout", parseMemoryLayout));
   ("/end VAR_FORBIDDEN_COMB", ("parseVarForbiddenComb", parseVarForbiddenComb)); ("/end COMPU_TAB", ("parseCompuTab", parseCompuTab));
   ("/end COMPU_VTAB", ("parseCompuVtab", parseCompuVtab)); ("/end COMPU_VTAB_RANGE", ("parseCompuVtabRange", parseCompuVtabRange));
   ("/end VARIANT_CODING", ("parseVariantCoding", parseVariantCoding))].
(** [ownReads stop i v j]: the parser of this special object returns [v] and no error. *)
Definition ownReads (toks : list bytes) (pf : bytes -> option spec_float) (stop : string) (i : nat) (v : val) (j : nat) : Prop :=
  exists name h, In (stop, (name, h)) ownParsers /\ returns toks pf h i v false j.

Definition ownFn (stop : string) : option fn := option_map (fun e => snd (snd e)) (find (fun e => String.eqb stop (fst e)) ownParsers).

Lemma exact_check : forallb (fun p => forallb (fun q => if String.eqb (fst p) (fst q) then shapeFn ownFn (snd q) (snd p) else true) allParsers) exactForms = true.
Proof. vm_compute. reflexivity. Qed.

Lemma own_check : forallb (fun e => existsb (fun q => String.eqb (fst (snd e)) (fst q) && sameF (snd (snd e)) (snd q)) allParsers) ownParsers = true.
Proof. vm_compute. reflexivity. Qed.
Lemma own_listed : forall stop name h, In (stop, (name, h)) ownParsers -> In (name, h) allParsers.
Proof.
  intros stop name h I. pose proof (proj1 (forallb_forall _ _) own_check _ I) as K. cbv beta in K. apply existsb_exists in K. destruct K as ([n g] & K1 & K2). cbn [fst snd] in K2.
  apply andb_true_iff in K2. destruct K2 as [K2 K3]. apply String.eqb_eq in K2. apply same_eq in K3. subst. exact K1.
Qed.
Lemma own_found : forall stop h, ownFn stop = Some h <-> exists name, In (stop, (name, h)) ownParsers.
Proof.
  intros stop h. unfold ownFn. split.
  - destruct (find (fun e => String.eqb stop (fst e)) ownParsers) as [[s [n g]]|] eqn:F; [|discriminate]. intros E. injection E as <-.
    apply find_some in F. destruct F as [F E]. cbn in E. apply String.eqb_eq in E. subst s. exists n. exact F.
  - intros (name & I). unfold ownParsers in I. repeat (destruct I as [I|I]; [injection I as <- <- <-; reflexivity|]). destruct I.
Qed.

Section Tokens.
  Variable toks : list bytes.
  Variable pf : bytes -> option spec_float.
  Hypothesis EN : ended toks.
  Notation own := (ownReads toks pf).

  Lemma own_len : forall stop i v j, In stop special -> i < length toks -> own stop i v j -> j < length toks.
  Proof.
    intros stop i v j _ L (name & h & I & R). destruct (C59_terminates name h toks pf i (own_listed _ _ _ I) EN L) as (v' & e' & j' & R' & J).
    destruct (OriginProps.returns_fun _ _ _ _ _ _ _ _ _ _ R R') as (_ & _ & ->). lia.
  Qed.
  Lemma own_is : forall stop h, In stop special -> ownFn stop = Some h ->
      forall i v j, i < length toks -> tok toks i <> [] -> (own stop i v j <-> returns toks pf h i v false j).
  Proof.
    intros stop h _ H i v j _ _. apply own_found in H. destruct H as (name & I). split.
    - intros (n' & h' & I' & R). assert (E : ownFn stop = Some h) by (apply own_found; eauto). assert (E' : ownFn stop = Some h') by (apply own_found; eauto). congruence.
    - intros R. exists name, h. auto.
  Qed.
End Tokens.

(** For any list of tokens, a parser returns an object and no error if and only if
    the tokens from its cursor on are read as this object in the object's form. *)
Theorem C88_exact : forall name f g toks pf i v j, In (name, f) exactForms -> In (name, g) allParsers -> ended toks -> nth i toks [] <> [] ->
    (returns toks pf g i v false j <-> reads toks pf (ownReads toks pf) f i v j).
Proof.
  intros name f g toks pf i v j I J EN N.
  pose proof (proj1 (forallb_forall _ _) exact_check _ I) as K. cbv beta in K. pose proof (proj1 (forallb_forall _ _) K _ J) as L. cbn [fst snd] in L.
  rewrite String.eqb_refl in L.
  assert (LT : i < length toks) by (destruct (Nat.lt_ge_cases i (length toks)) as [H|H]; [exact H|]; exfalso; apply N; apply nth_overflow; exact H).
  apply (shape_exact toks pf EN (ownReads toks pf) (own_len toks pf EN) ownFn (own_is toks pf) g f i v j L LT N).
Qed.
Print Assumptions C88_exact.

(** So the tokens determine the object: there is one way to read them. *)
Theorem C88_unique : forall name f toks pf i v j v' j', In (name, f) exactForms -> ended toks -> nth i toks [] <> [] ->
    reads toks pf (ownReads toks pf) f i v j -> reads toks pf (ownReads toks pf) f i v' j' -> v = v' /\ j = j'.
Proof.
  intros name f toks pf i v j v' j' I EN N R R'.
  assert (X : exists g, In (name, g) allParsers).
  { assert (E : forallb (fun p => existsb (fun q => String.eqb (fst p) (fst q)) allParsers) exactForms = true) by (vm_compute; reflexivity).
    pose proof (proj1 (forallb_forall _ _) E _ I) as K. cbv beta in K. apply existsb_exists in K. destruct K as ([n g] & K1 & K2). cbn [fst] in K2.
    apply String.eqb_eq in K2. subst n. exists g. exact K1. }
  destruct X as (g & J). apply (C88_exact name f g) in R; auto. apply (C88_exact name f g) in R'; auto.
  destruct (OriginProps.returns_fun _ _ _ _ _ _ _ _ _ _ R R') as (? & _ & ?). auto.
Qed.
Print Assumptions C88_unique.

(** ** Modules *)

Definition moduleItems : list item := match moduleExact with Block _ _ _ its _ _ => its | _ => [] end.

(** All objects that the module [o] holds are read from the tokens, in the form of
    their kind; those in maps are filed under their names. *)
Definition allRead (toks : list bytes) (pf : bytes -> option spec_float) (o : fields) : Prop :=
  forall kw f p sub, In (Item kw f p sub) moduleItems ->
    match p with
    | Under k => exists m, fget f o = Some (VMap m) /\ forall key v, In (key, v) m -> key = A2lGrammar.keyOf k v /\
                   exists i j, nth i toks [] = b kw /\ reads toks pf (ownReads toks pf) sub i v j
    | _ => forall v, fget f o = Some v -> exists i j, nth i toks [] = b kw /\ reads toks pf (ownReads toks pf) sub i v j
    end.

(** the items of a module and the table of kinds in A2lModSpec.v *)
Definition itemOf (k : string * (fn * action)) : option (string * form) :=
  match find (fun it => match it with Item kw _ _ _ => String.eqb kw (fst k) end) moduleItems with
  | Some (Item kw f p sub) => Some (f, sub)
  | None => None
  end.
Lemma kinds_items : forallb (fun it => match it with Item kw f p sub =>
     existsb (fun k => String.eqb (fst k) kw && String.eqb f (match snd (snd k) with Keep f' => f' | Put_ f' _ => f' end)
              && match p, snd (snd k) with Under x, Put_ _ y => String.eqb x y | Single, Keep _ => true | _, _ => false end) kinds end) moduleItems = true.
Proof. vm_compute. reflexivity. Qed.

Lemma kinds_shape : forallb (fun k => forallb (fun it => match it with Item kw f p sub => if String.eqb kw (fst k) then shapeFn ownFn (fst (snd k)) sub else true end) moduleItems) kinds = true.
Proof. vm_compute. reflexivity. Qed.

(** A module, parsed with or without several goroutines, in any order: all its
    objects are read from the file, as C88_exact says. *)
Theorem C88_module : forall toks pf np mt i v j, ended toks -> A2lFileModel.parsesModule toks pf np mt i v false j ->
    exists o, v = VObj o /\ allRead toks pf o.
Proof.
  intros toks pf np mt i v j EN H.
  set (R := fun (x : string) (v : val) => forall f p sub, In (Item ("/begin " ++ x) f p sub) moduleItems ->
     exists i j, nth i toks [] = b ("/begin " ++ x) /\ reads toks pf (ownReads toks pf) sub i v j).
  assert (RO : forall x g a i v j, In (("/begin " ++ x)%string, (g, a)) kinds -> nth i toks [] = b ("/begin " ++ x) -> returns toks pf g i v false j -> R x v).
  { intros x g a i0 v0 j0 IK T RT f p sub IM. exists i0, j0. split; [exact T|].
    pose proof (proj1 (forallb_forall _ _) kinds_shape _ IK) as K. cbv beta in K. pose proof (proj1 (forallb_forall _ _) K _ IM) as L. cbn [fst snd] in L.
    rewrite String.eqb_refl in L.
    assert (N : tok toks i0 <> []) by (unfold tok; rewrite T; discriminate).
    assert (LT : i0 < length toks) by (destruct (Nat.lt_ge_cases i0 (length toks)) as [X|X]; [exact X|]; exfalso; apply N; apply nth_overflow; exact X).
    apply (shape_exact toks pf EN (ownReads toks pf) (own_len toks pf EN) ownFn (own_is toks pf) g sub i0 v0 j0 L LT N). exact RT. }
  assert (X : exists o, v = VObj o /\ OriginProps.holds R o).
  { unfold A2lFileModel.parsesModule in H. destruct mt; [eapply OriginProps.parallel_stand|eapply OriginProps.sequential_stand]; eauto. }
  destruct X as (o & -> & HO). exists o. split; [reflexivity|]. intros kw f p sub IM.
  pose proof (proj1 (forallb_forall _ _) kinds_items _ IM) as K. cbv beta iota in K. apply existsb_exists in K. destruct K as ([t [g a]] & IK & E). cbn [fst snd] in E.
  apply andb_true_iff in E. destruct E as [E E3]. apply andb_true_iff in E. destruct E as [E1 E2]. apply String.eqb_eq in E1. apply String.eqb_eq in E2. subst t f.
  destruct (OriginProps.kinds_named _ _ _ IK) as (x & ->). specialize (HO x g a IK).
  destruct a as [f|f k]; destruct p as [| |k']; try discriminate.
  - intros w W. exact (HO w W _ _ _ IM).
  - apply String.eqb_eq in E3. subst k'. destruct HO as (m & F & M). exists m. split; [exact F|]. intros key w W. destruct (M key w W) as [KE HR]. split; [exact KE|exact (HR _ _ _ IM)].
Qed.
Print Assumptions C88_module.

(** ** Files *)

Definition topItems : list (string * (string * form)) := [
  ("ASAP2_VERSION", ("Asap2Version", asap2VersionForm)); ("A2ML_VERSION", ("A2mlVersion", a2mlVersionForm)); ("/begin PROJECT", ("Project", projectExact))].

(** [file i o o']: the tokens from [i] to the end of the file are version numbers
    and projects, and words that are skipped; they turn [o] into [o']. *)
Inductive file (toks : list bytes) (pf : bytes -> option spec_float) : nat -> fields -> fields -> Prop :=
  | fi_end : forall i o, tok toks i = [] -> file toks pf i o o
  | fi_word : forall i o o', tok toks i <> [] -> isKeyword (tok toks i) = false -> file toks pf (S i) o o' -> file toks pf i o o'
  | fi_item : forall i kw f sub v k o o', In (kw, (f, sub)) topItems -> tok toks i = b kw -> reads toks pf (ownReads toks pf) sub i v k ->
      file toks pf (S k) (fset f v o) o' -> file toks pf i o o'.

Section Top.
  Variable toks : list bytes.
  Variable pf : bytes -> option spec_float.
  Hypothesis EN : ended toks.
  Notation len := (length toks).
  Notation tok := (tok toks).
  Notation reads := (reads toks pf (ownReads toks pf)).
  Notation file := (file toks pf).

  (** a round of parseA2l's loop *)
  Definition topParser (t : bytes) : option (string * (fn * form)) :=
    if beqb t (b "ASAP2_VERSION") then Some ("Asap2Version", (parseASAP2Version, asap2VersionForm))
    else if beqb t (b "A2ML_VERSION") then Some ("A2mlVersion", (parseA2MLVersion, a2mlVersionForm))
    else if beqb t (b "/begin PROJECT") then Some ("Project", (parseProject, projectExact)) else None.
  Lemma top_round : forall fuel s, s_err s = false -> run isKeyword toks pf fuel A2lAcceptProps.a2lBody s =
      match topParser (current toks (s_idx s)) with
      | Some (f, (g, _)) => match call isKeyword toks pf fuel g (s_idx s) with
                       | Ret v e j => if e then Out (St (fset f v (s_obj s)) (s_var s) true j) else Go (St (fset f v (s_obj s)) (s_var s) false (next toks j))
                       | FBad => Bad | FFuel => Fuel end
      | None => if beqb (current toks (s_idx s)) [] then Out s else if isKeyword (current toks (s_idx s)) then Out (setErr true s) else Go (setIdx (next toks (s_idx s)) s)
      end.
  Proof.
    intros fuel [o vr e i] E. cbn [s_err s_idx s_obj s_var] in *. subst e. unfold A2lAcceptProps.a2lBody, parseA2l.
    rewrite run_seq, exec_switch. cbn [readSrc fst snd s_idx].
    assert (NX : forall s, run isKeyword toks pf fuel {{ Next }} s = Go (setIdx (next toks (s_idx s)) s)) by (intros; reflexivity).
    rewrite !pick_case. unfold topParser.
    destruct (beqb (current toks i) (b "ASAP2_VERSION")).
    { rewrite run_seq, exec_callF. cbn [s_idx]. destruct (call isKeyword toks pf fuel parseASAP2Version i) as [v [|] j| |]; reflexivity. }
    destruct (beqb (current toks i) (b "A2ML_VERSION")).
    { rewrite run_seq, exec_callF. cbn [s_idx]. destruct (call isKeyword toks pf fuel parseA2MLVersion i) as [v [|] j| |]; reflexivity. }
    destruct (beqb (current toks i) (b "/begin PROJECT")).
    { rewrite run_seq, exec_callF. cbn [s_idx]. destruct (call isKeyword toks pf fuel parseProject i) as [v [|] j| |]; reflexivity. }
    change (A2lIR.pick isKeyword toks pf fuel Default (current toks i) (St o vr false i)) with (@None res). cbv iota.
    rewrite run_one, exec_if. cbn [test s_idx]. change (b "") with (@nil ascii). destruct (beqb (current toks i) []); [reflexivity|].
    rewrite run_one, exec_if. cbn [test s_idx]. destruct (isKeyword (current toks i)); reflexivity.
  Qed.

  Lemma top_sub : forall t f g sub, topParser t = Some (f, (g, sub)) ->
      t <> [] /\ isKeyword t = true /\ (exists kw, In (kw, (f, sub)) topItems /\ t = b kw) /\ shapeFn ownFn g sub = true.
  Proof.
    intros t f g sub H. unfold topParser in H.
    repeat match type of H with (if beqb t (b ?s) then _ else _) = _ => destruct (beqb t (b s)) eqn:?X end; try discriminate; injection H as <- <- <-;
    match goal with X : beqb t (b ?s) = true |- _ => apply beqb_eq in X; subst t; (split; [discriminate|]; split; [reflexivity|]; split; [exists s; split; [cbn; tauto|reflexivity]|vm_compute; reflexivity]) end.
  Qed.
  Lemma sub_top : forall kw f sub, In (kw, (f, sub)) topItems -> exists g, topParser (b kw) = Some (f, (g, sub)).
  Proof. intros kw f sub [E|[E|[E|[]]]]; injection E as <- <- <-; eexists; reflexivity. Qed.

  Lemma sub_len : forall kw f sub i v k, In (kw, (f, sub)) topItems -> tok i = b kw -> i < len -> reads sub i v k -> k < len.
  Proof.
    intros kw f sub i v k I T L R. destruct (sub_top _ _ _ I) as (g & P). destruct (top_sub _ _ _ _ P) as (NE & _ & _ & SH).
    destruct (all_good toks pf EN (ownReads toks pf) (own_len toks pf EN) ownFn (own_is toks pf)) as (_ & _ & _ & A).
    apply (A g sub SH i v k L); [rewrite T; exact NE|exact R].
  Qed.

  Lemma at_end : forall i, i < len -> next toks i <> S i -> tok i = [] /\ next toks i = i /\ tok (S i) = [].
  Proof.
    intros i L N. destruct (next_cases toks (S len) (Nat.lt_succ_diag_r _) i L) as [(M & E & L2)|(M & E & L2)]; [contradiction|].
    split; [apply (at_last toks (S len) EN (Nat.lt_succ_diag_r _) i L2)|]. split; [exact E|]. apply nth_overflow. lia.
  Qed.

  Lemma next_lt : forall i, i < len -> next toks i < len.
  Proof. intros i L. destruct (next_cases toks (S len) (Nat.lt_succ_diag_r _) i L) as [(_ & -> & ?)|(_ & -> & ?)]; lia. Qed.

  Lemma file_sound : forall n m s s', s_idx s < len -> s_err s = false -> iter m (run isKeyword toks pf n A2lAcceptProps.a2lBody) s = Go s' -> s_err s' = false ->
      file (s_idx s) (s_obj s) (s_obj s').
  Proof.
    intros n m. induction m as [|m IH]; intros s s' L E IT ER; [discriminate|]. cbn [iter] in IT. rewrite (top_round n s E) in IT.
    destruct (topParser (current toks (s_idx s))) as [[f [g sub]]|] eqn:TP.
    - destruct (top_sub _ _ _ _ TP) as (NE & KW & (kw & IK & T) & SH). destruct (call isKeyword toks pf n g (s_idx s)) as [v e j| |] eqn:C; try discriminate.
      destruct e; [injection IT as <-; discriminate|].
      assert (R : reads sub (s_idx s) v j).
      { apply (shape_exact toks pf EN (ownReads toks pf) (own_len toks pf EN) ownFn (own_is toks pf) g sub _ _ _ SH L NE). eapply returns_run. exact C. }
      pose proof (sub_len _ _ _ _ _ _ IK T L R) as LJ.
      eapply fi_item; [exact IK|exact T|exact R|]. destruct (Nat.eq_dec (next toks j) (S j)) as [NX|NX].
      + rewrite NX in IT. assert (LX : S j < len) by (rewrite <- NX; apply next_lt; exact LJ). exact (IH (St (fset f v (s_obj s)) (s_var s) false (S j)) s' LX eq_refl IT ER).
      + destruct (at_end _ LJ NX) as (T1 & NX' & T2). rewrite NX' in IT.
        specialize (IH (St (fset f v (s_obj s)) (s_var s) false j) s' LJ eq_refl IT ER). cbn [s_idx s_obj] in IH. inversion IH; subst; [|congruence|].
        * apply fi_end. exact T2.
        * exfalso. match goal with X : In _ topItems, Y : tok j = b ?k |- _ => rewrite T1 in Y; destruct X as [X|[X|[X|[]]]]; injection X as <- _ _; discriminate end.
    - destruct (beqb (current toks (s_idx s)) []) eqn:B.
      + injection IT as <-. apply fi_end. apply beqb_eq. exact B.
      + apply beqb_neq in B. destruct (isKeyword (current toks (s_idx s))) eqn:K; [injection IT as <-; discriminate|].
        pose proof (tok_lt toks EN _ B) as LT. assert (NX : next toks (s_idx s) = S (s_idx s)).
        { destruct (Nat.eq_dec (next toks (s_idx s)) (S (s_idx s))) as [X|X]; [exact X|]. destruct (at_end _ L X) as (T1 & _). contradiction. }
        rewrite NX in IT. apply fi_word; [exact B|exact K|]. apply (IH (setIdx (S (s_idx s)) s) s'); auto.
  Qed.

  Lemma file_complete : forall i o o', file i o o' -> i <= len -> forall i', (i' = i \/ tok i = [] /\ tok i' = []) -> i' < len -> forall vr,
      exists n0, forall n m, n0 <= n -> n0 <= m -> exists s', iter m (run isKeyword toks pf n A2lAcceptProps.a2lBody) (St o vr false i') = Go s' /\ s_err s' = false /\ s_obj s' = o'.
  Proof.
    induction 1 as [i o T|i o o' T K F IH|i kw f sub v k o o' IK T R F IH]; intros L i' CL L' vr.
    - assert (T' : tok i' = []) by (destruct CL as [->|[_ X]]; assumption). exists 1. intros n m _ M. destruct m; [lia|]. cbn [iter].
      rewrite top_round by reflexivity. cbn [s_idx s_obj s_var]. change (current toks i') with (tok i'). rewrite T'. cbn. eexists. split; [reflexivity|]. split; reflexivity.
    - destruct CL as [->|[X _]]; [|congruence]. pose proof (tok_lt toks EN _ T) as LT.
      destruct (IH ltac:(lia) (S i) (or_introl eq_refl) LT vr) as (n0 & H). exists (S n0). intros n m N M. destruct m as [|m]; [lia|]. cbn [iter].
      rewrite top_round by reflexivity. cbn [s_idx s_obj s_var]. change (current toks i) with (tok i).
      destruct (topParser (tok i)) as [[f [g sub]]|] eqn:TP; [destruct (top_sub _ _ _ _ TP) as (_ & KW & _); congruence|].
      rewrite (proj2 (beqb_neq _ _) T), K. assert (NX : next toks i = S i).
      { destruct (Nat.eq_dec (next toks i) (S i)) as [X|X]; [exact X|]. destruct (at_end _ L' X) as (T1 & _). contradiction. }
      rewrite NX. apply H; lia.
    - destruct (sub_top _ _ _ IK) as (g & TP). destruct (top_sub _ _ _ _ TP) as (NE & _ & _ & SH). rewrite <- T in NE.
      destruct CL as [->|[X _]]; [|congruence]. pose proof (sub_len _ _ _ _ _ _ IK T L' R) as LK.
      apply (shape_exact toks pf EN (ownReads toks pf) (own_len toks pf EN) ownFn (own_is toks pf) g sub _ _ _ SH L' NE) in R. destruct R as (n1 & R).
      assert (CL' : next toks k = S k \/ tok (S k) = [] /\ tok (next toks k) = []).
      { destruct (Nat.eq_dec (next toks k) (S k)) as [X|X]; [left; exact X|right]. destruct (at_end _ LK X) as (T1 & -> & T2). auto. }
      destruct (IH ltac:(lia) (next toks k) CL' ltac:(apply next_lt; exact LK) vr) as (n0 & H).
      exists (S (n0 + n1)). intros n m N M. destruct m as [|m]; [lia|]. cbn [iter]. rewrite top_round by reflexivity. cbn [s_idx s_obj s_var]. change (current toks i) with (tok i).
      rewrite T, TP, R by lia. apply H; lia.
  Qed.
End Top.

(** The sequential parser reads exactly the files that consist of version numbers and
    projects, as C88_exact says, and words between them. *)
Theorem C88_a2l : forall toks pf v, ended toks -> ((exists j, returns toks pf parseA2l 0 v false j) <-> exists o, v = VObj o /\ file toks pf 0 [] o).
Proof.
  intros toks pf v EN. assert (L : 0 < length toks) by (destruct EN as (l & ->); rewrite app_length; cbn; lia).
  rewrite A2lAcceptProps.a2l_loop. split.
  - intros (j & n & R). specialize (R n (le_n _)). rewrite call_loop in R.
    change (run isKeyword toks pf n Skip (St [] [] false 0)) with (Go (St [] [] false 0)) in R. cbv beta iota in R.
    destruct (iter n (run isKeyword toks pf n A2lAcceptProps.a2lBody) (St [] [] false 0)) as [s'|s'| |] eqn:IT; try discriminate.
    + injection R as <- ER <-. exists (s_obj s'). split; [reflexivity|]. apply (file_sound toks pf EN n n (St [] [] false 0) s' L eq_refl IT ER).
    + exfalso. exact (A2lExploreThm.iter_noout _ _ _ _ IT).
  - intros (o & -> & F). destruct (file_complete toks pf EN _ _ _ F ltac:(lia) 0 (or_introl eq_refl) L []) as (n & H).
    destruct (H n n (le_n _) (le_n _)) as (s' & IT & ER & OB). exists (s_idx s'). apply (returns_run n). rewrite call_loop.
    change (run isKeyword toks pf n Skip (St [] [] false 0)) with (Go (St [] [] false 0)). cbv beta iota. rewrite IT, ER, OB. reflexivity.
Qed.
Print Assumptions C88_a2l.

(** ParseFromFile on a file that is not read in parallel. *)
Theorem C88_file : forall gr pf cpus content t a, A2lFileModel.fileTokens gr cpus content (Some t) -> TokModel.tk_multithreading t = false ->
    (A2lFileModel.parseFromFile gr pf cpus (Some content) (A2lFileModel.Returned a false) <-> file (TokModel.tk_list t) pf 0 [] a).
Proof.
  intros gr pf cpus content t a T MT. destruct (A2lNestProps.C68_tokens _ _ _ T) as (t' & ET & C). injection ET as <-.
  assert (EN : ended (TokModel.tk_list t)) by (destruct C as (l & E & _); exists l; exact E).
  rewrite (A2lFileProps.C65_sequential gr pf cpus content t _ T MT). split.
  - intros (a' & e & j & EQ & R). injection EQ as <- <-. destruct (proj1 (C88_a2l _ pf (VObj a) EN) (ex_intro _ j R)) as (o & E & F). injection E as <-. exact F.
  - intros F. destruct (proj2 (C88_a2l _ pf (VObj a) EN) (ex_intro _ a (conj eq_refl F))) as (j & R). exists a, false, j. split; [reflexivity|exact R].
Qed.
Print Assumptions C88_file.

(** ** Examples *)

(** A group with its parameters and objects in an unusual order, and a word too many. *)
Definition mixedTokens : list bytes := map b
  ["/begin GROUP"; "g1"; "ROOT"; "words"; "/begin SUB_GROUP"; "g2"; "/end SUB_GROUP"; "surplus"; "/end GROUP"; ""].
Definition mixedGroup : val := VObj
  [("groupName", VStr (b "g1")); ("groupNameSet", VBool true); ("root", VObj [("value", VBool true); ("valueSet", VBool true)]);
   ("groupLongIdentifier", VStr (b "words")); ("groupLongIdentifierSet", VBool true);
   ("subGroup", VObj [("identifier", VList [VStr (b "g2")]); ("identifierSet", VBool true)])].
Lemma group_listed : In ("parseGroup", groupForm) exactForms /\ In ("parseGroup", parseGroup) allParsers.
Proof.
  split; [unfold exactForms; apply in_map_iff; exists ("parseGroup", groupForm); split; [reflexivity|unfold readForms; repeat (first [left; reflexivity|right])]|].
  unfold allParsers; repeat (first [left; reflexivity|right]).
Qed.
Example C88_example : forall pf, ended mixedTokens /\ nth 0 mixedTokens [] <> []
  /\ returns mixedTokens pf parseGroup 0 mixedGroup false 8 /\ reads mixedTokens pf (ownReads mixedTokens pf) groupForm 0 mixedGroup 8.
Proof.
  intros pf. assert (EN : ended mixedTokens) by (exists (firstn 9 mixedTokens); reflexivity). assert (N : nth 0 mixedTokens [] <> []) by discriminate.
  assert (R : returns mixedTokens pf parseGroup 0 mixedGroup false 8) by (apply (returns_run 50); vm_compute; reflexivity).
  split; [exact EN|]. split; [exact N|]. split; [exact R|]. destruct group_listed as [L1 L2]. apply (C88_exact "parseGroup" groupForm parseGroup); assumption.
Qed.
(** An unknown keyword, or no end: no object. *)
Example C88_excludes : forall pf, let toks := map b ["/begin GROUP"; "g1"; "words"; "/begin MEASUREMENT"; "/end GROUP"; ""] in
  ended toks /\ nth 0 toks [] <> [] /\ forall v j, ~ reads toks pf (ownReads toks pf) groupForm 0 v j.
Proof.
  intros pf toks. assert (EN : ended toks) by (exists (firstn 5 toks); reflexivity). assert (N : nth 0 toks [] <> []) by discriminate.
  split; [exact EN|]. split; [exact N|]. intros v j R. destruct group_listed as [L1 L2]. apply (C88_exact "parseGroup" groupForm parseGroup) in R; try assumption.
  assert (Q : exists v', returns toks pf parseGroup 0 v' true 3) by (eexists; apply (returns_run 50); vm_compute; reflexivity).
  destruct Q as (v' & Q). destruct (OriginProps.returns_fun _ _ _ _ _ _ _ _ _ _ R Q) as (_ & E & _). discriminate.
Qed.
(** A module in both modes. *)
Definition unitTokens : list bytes := map b
  ["/begin MODULE"; "m"; "text"; "/begin GROUP"; "g1"; "ROOT"; "words"; "/end GROUP"; "/end MODULE"; ""].
Example C88_module_example : forall pf, exists v j, ended unitTokens /\ A2lFileModel.parsesModule unitTokens pf 2 false 0 v false j
  /\ (exists o m w, v = VObj o /\ fget "Groups" o = Some (VMap m) /\ In (b "g1", w) m).
Proof.
  intros pf. do 2 eexists. split; [exists (firstn 9 unitTokens); reflexivity|]. split.
  - apply (returns_run 50). vm_compute. reflexivity.
  - do 3 eexists. split; [reflexivity|]. split; [reflexivity|]. left. reflexivity.
Qed.
(** The file of C75_file_example. *)
Example C88_file_example : exists a, forall gr pf, A2lFileModel.fileTokens gr 1 A2lAcceptProps.shortFile (Some (TokModel.Tokens A2lAcceptProps.shortTokens false))
  /\ file A2lAcceptProps.shortTokens pf 0 [] a.
Proof.
  destruct A2lAcceptProps.C75_file_example as (a & H). exists a. intros gr pf. destruct (H gr pf) as [T P]. split; [exact T|].
  apply (C88_file gr pf 1 A2lAcceptProps.shortFile _ a T eq_refl). exact P.
Qed.
