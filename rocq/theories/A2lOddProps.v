(** Theorems of property C89: exactly what the special objects are read as. *)
From Coq Require Import String Ascii List Arith NArith ZArith Bool Lia SpecFloat.
From Verif Require Import GoBase GoBaseFacts A2lModModel A2lModSpec A2lModProps A2lProps A2lIR A2lTokens A2lSpec A2lGrammar A2lForms A2lParsers A2lCheck
  A2lExactSpec A2lExact A2lExactThm A2lExactProps A2lOddSpec A2lOddThm A2lOddParsers A2lOddTables A2lOddRest.
From Verif Require A2lExploreThm A2lStrictProps TokModel A2lTextModel A2lFileModel A2lFileProps A2lNestProps A2lAcceptProps OriginProps.
Import ListNotations.
Local Open Scope string_scope.
Local Open Scope list_scope.

Lemma odd_parser : forall toks pf stop name h i v j, ended toks -> In (stop, (name, h)) ownParsers -> i < length toks ->
    (returns toks pf h i v false j <-> odd toks pf stop i v j).
Proof.
  intros toks pf stop name h i v j EN I L. unfold ownParsers in I.
  repeat (destruct I as [I|I]; [injection I as <- <- <-|]); [| | | | | | | | |destruct I].
  - rewrite (frame_exact toks pf EN i v j L). split; [apply od_frame|]. intros H. inversion H. assumption.
  - rewrite (bit_exact toks pf EN i v j L). split; [apply od_bit|]. intros H. inversion H. assumption.
  - rewrite (overwrite_exact toks pf EN i v j L). split; [apply od_overwrite|]. intros H. inversion H. assumption.
  - rewrite (layout_exact toks pf EN i v j L). split; [apply od_layout|]. intros H. inversion H. assumption.
  - rewrite (comb_exact toks pf EN i v j L). split; [apply od_comb|]. intros H. inversion H. assumption.
  - rewrite (tab_exact toks pf EN i v j L). split; [apply od_tab|]. intros H. inversion H. assumption.
  - rewrite (vtab_exact toks pf EN i v j L). split; [apply od_vtab|]. intros H. inversion H. assumption.
  - rewrite (range_exact toks pf EN i v j L). split; [apply od_range|]. intros H. inversion H. assumption.
  - rewrite (variant_exact toks pf EN i v j L). split; [apply od_variant|]. intros H. inversion H. assumption.
Qed.

(** The nine special parsers: each returns an object and no error if and only if
    the tokens are read as this object. *)
Theorem C89_odd : forall toks pf stop name h i v j, ended toks -> nth i toks [] <> [] -> In (stop, (name, h)) ownParsers ->
    (returns toks pf h i v false j <-> odd toks pf stop i v j).
Proof.
  intros toks pf stop name h i v j EN N I. apply (odd_parser toks pf stop name h); [exact EN|exact I|].
  destruct (Nat.lt_ge_cases i (length toks)) as [H|H]; [exact H|]. exfalso. apply N. apply nth_overflow. exact H.
Qed.
Print Assumptions C89_odd.

Section Tokens.
  Variable toks : list bytes.
  Variable pf : bytes -> option spec_float.
  Hypothesis EN : ended toks.
  Lemma odd_own : forall stop i v j, i < length toks -> (odd toks pf stop i v j <-> ownReads toks pf stop i v j).
  Proof.
    intros stop i v j L. split.
    - intros H. assert (E : exists name h, In (stop, (name, h)) ownParsers).
      { destruct H; eexists _, _; unfold ownParsers; cbn [In];
          repeat (first [left; reflexivity|right]). }
      destruct E as (name & h & I). exists name, h. split; [exact I|]. apply (odd_parser toks pf stop name h); assumption.
    - intros (name & h & I & R). apply (odd_parser toks pf stop name h); assumption.
  Qed.
  Lemma odd_len : forall stop i v j, In stop special -> i < length toks -> odd toks pf stop i v j -> j < length toks.
  Proof. intros stop i v j I L H. apply (own_len toks pf EN stop i v j I L). apply odd_own; assumption. Qed.
  Lemma odd_is : forall stop h, In stop special -> ownFn stop = Some h ->
      forall i v j, i < length toks -> tok toks i <> [] -> (odd toks pf stop i v j <-> returns toks pf h i v false j).
  Proof. intros stop h I F i v j L N. rewrite (odd_own stop i v j L). apply (own_is toks pf stop h I F i v j L N). Qed.
  (** the two ways to say it agree for every parser *)
  Lemma reads_same : forall g f i v j, shapeFn ownFn g f = true -> i < length toks -> tok toks i <> [] ->
      (reads toks pf (ownReads toks pf) f i v j <-> reads toks pf (odd toks pf) f i v j).
  Proof.
    intros g f i v j SH L N. rewrite <- (shape_exact toks pf EN (ownReads toks pf) (own_len toks pf EN) ownFn (own_is toks pf) g f i v j SH L N).
    apply (shape_exact toks pf EN (odd toks pf) odd_len ownFn odd_is g f i v j SH L N).
  Qed.
End Tokens.

(** All parsers with a form: no parser is mentioned on the right any more. *)
Theorem C89_exact : forall name f g toks pf i v j, In (name, f) exactForms -> In (name, g) allParsers -> ended toks -> nth i toks [] <> [] ->
    (returns toks pf g i v false j <-> reads toks pf (odd toks pf) f i v j).
Proof.
  intros name f g toks pf i v j I J EN N.
  pose proof (proj1 (forallb_forall _ _) exact_check _ I) as K. cbv beta in K. pose proof (proj1 (forallb_forall _ _) K _ J) as L. cbn [fst snd] in L.
  rewrite String.eqb_refl in L.
  assert (LT : i < length toks) by (destruct (Nat.lt_ge_cases i (length toks)) as [H|H]; [exact H|]; exfalso; apply N; apply nth_overflow; exact H).
  apply (shape_exact toks pf EN (odd toks pf) (odd_len toks pf EN) ownFn (odd_is toks pf EN) g f i v j L LT N).
Qed.
Print Assumptions C89_exact.

(** ** Modules and files *)

Definition allReadExactly (toks : list bytes) (pf : bytes -> option spec_float) (o : fields) : Prop :=
  forall kw f p sub, In (Item kw f p sub) moduleItems ->
    match p with
    | Under k => exists m, fget f o = Some (VMap m) /\ forall key v, In (key, v) m -> key = A2lGrammar.keyOf k v /\
                   exists i j, nth i toks [] = b kw /\ reads toks pf (odd toks pf) sub i v j
    | _ => forall v, fget f o = Some v -> exists i j, nth i toks [] = b kw /\ reads toks pf (odd toks pf) sub i v j
    end.

Lemma module_shape : forall kw f p sub, In (Item kw f p sub) moduleItems -> kw <> "" /\ exists g, shapeFn ownFn g sub = true.
Proof.
  assert (C : forallb (fun it => match it with Item kw f p sub => negb (String.eqb kw "") && existsb (fun k => shapeFn ownFn (fst (snd k)) sub) kinds end) moduleItems = true) by (vm_compute; reflexivity).
  intros kw f p sub I. pose proof (proj1 (forallb_forall _ _) C _ I) as K. cbv beta iota in K. apply andb_true_iff in K. destruct K as [K1 K2].
  apply negb_true_iff, String.eqb_neq in K1. split; [exact K1|]. apply existsb_exists in K2. destruct K2 as (k & _ & K2). exists (fst (snd k)). exact K2.
Qed.

Theorem C89_module : forall toks pf np mt i v j, ended toks -> A2lFileModel.parsesModule toks pf np mt i v false j ->
    exists o, v = VObj o /\ allReadExactly toks pf o.
Proof.
  intros toks pf np mt i v j EN H. destruct (C88_module toks pf np mt i v j EN H) as (o & -> & A). exists o. split; [reflexivity|].
  intros kw f p sub I. specialize (A kw f p sub I). destruct (module_shape kw f p sub I) as (NE & g & SH).
  assert (X : forall w, (exists i j, nth i toks [] = b kw /\ reads toks pf (ownReads toks pf) sub i w j) -> exists i j, nth i toks [] = b kw /\ reads toks pf (odd toks pf) sub i w j).
  { intros w (i0 & j0 & T & R). exists i0, j0. split; [exact T|].
    assert (N : tok toks i0 <> []) by (unfold tok; rewrite T; intros Z; apply NE, b_inj; exact Z).
    assert (LT : i0 < length toks) by (destruct (Nat.lt_ge_cases i0 (length toks)) as [Y|Y]; [exact Y|]; exfalso; apply N; apply nth_overflow; exact Y).
    apply (reads_same toks pf EN g sub i0 w j0 SH LT N). exact R. }
  destruct p as [| |k].
  - intros w W. apply X. exact (A w W).
  - intros w W. apply X. exact (A w W).
  - destruct A as (m & F & M). exists m. split; [exact F|]. intros key w W. destruct (M key w W) as [K R]. split; [exact K|]. apply X. exact R.
Qed.
Print Assumptions C89_module.

(** [exactFile i o o']: the tokens from [i] to the end of the file are version
    numbers and projects, and words that are skipped; they turn [o] into [o']. *)
Inductive exactFile (toks : list bytes) (pf : bytes -> option spec_float) : nat -> fields -> fields -> Prop :=
  | ef_end : forall i o, tok toks i = [] -> exactFile toks pf i o o
  | ef_word : forall i o o', tok toks i <> [] -> isKeyword (tok toks i) = false -> exactFile toks pf (S i) o o' -> exactFile toks pf i o o'
  | ef_item : forall i kw f sub v k o o', In (kw, (f, sub)) topItems -> tok toks i = b kw -> reads toks pf (odd toks pf) sub i v k ->
      exactFile toks pf (S k) (fset f v o) o' -> exactFile toks pf i o o'.
Lemma file_same : forall toks pf i o o', ended toks -> (file toks pf i o o' <-> exactFile toks pf i o o').
Proof.
  intros toks pf i o o' EN.
  assert (X : forall i kw f sub v k, In (kw, (f, sub)) topItems -> tok toks i = b kw -> (reads toks pf (ownReads toks pf) sub i v k <-> reads toks pf (odd toks pf) sub i v k)).
  { intros i0 kw f sub v k I T. destruct (sub_top _ _ _ I) as (g & P). destruct (top_sub _ _ _ _ P) as (NE & _ & _ & SH).
    assert (N : tok toks i0 <> []) by (rewrite T; exact NE).
    assert (LT : i0 < length toks) by (destruct (Nat.lt_ge_cases i0 (length toks)) as [Y|Y]; [exact Y|]; exfalso; apply N; apply nth_overflow; exact Y).
    exact (reads_same toks pf EN g sub i0 v k SH LT N). }
  split; (induction 1; [econstructor; assumption|econstructor; assumption|]).
  - eapply ef_item; [eassumption|eassumption| |eassumption]. eapply X; eassumption.
  - eapply fi_item; [eassumption|eassumption| |eassumption]. eapply X; eassumption.
Qed.
Theorem C89_file : forall gr pf cpus content t a, A2lFileModel.fileTokens gr cpus content (Some t) -> TokModel.tk_multithreading t = false ->
    (A2lFileModel.parseFromFile gr pf cpus (Some content) (A2lFileModel.Returned a false) <-> exactFile (TokModel.tk_list t) pf 0 [] a).
Proof.
  intros gr pf cpus content t a T MT. rewrite (C88_file gr pf cpus content t a T MT). apply file_same.
  destruct (A2lNestProps.C68_tokens _ _ _ T) as (t' & ET & C). injection ET as <-. destruct C as (l & E & _). exists l. exact E.
Qed.
Print Assumptions C89_file.

(** ** The columns of tables *)

(** [n] rows, and the flags [full], which say that these are all rows: [columns nf cols o n full]. *)
Definition columns (nf : string) (cols : list (string * string)) (o : fields) (n : nat) (full : bool) : Prop :=
  (forall f g, In (f, g) cols -> length (flist f o) = n /\ fbool g o = full) /\
  (0 <= fint nf o < 65536)%Z /\ n <= limit (fint nf o) /\ (full = true <-> n = limit (fint nf o)).

Section Columns.
  Variable toks : list bytes.
  Variable pf : bytes -> option spec_float.
  Variable its : list item.
  Variable stop : string.
  Variable all cols : list param.
  Variable nf : string.
  Definition colNames : list string := nf :: map colFlag cols ++ map p_field cols.
  Hypothesis ND : NoDup colNames.
  Hypothesis CO : forall c, In c cols -> p_how c = Append /\ p_flag c = Some (colFlag c).
  Hypothesis IT : forall kw f p sub, In (Item kw f p sub) its -> ~ In f colNames /\ match p with Under _ => False | _ => True end.
  Hypothesis PA : forall m p, nth_error all m = Some p -> p_how p = One /\ (exists f, p_flag p = Some f /\ ~ In f colNames) /\
      if (S m =? length all)%nat then p_field p = nf /\ p_type p = Number (NUint 16) else ~ In (p_field p) colNames.

  Definition colState (a : phase) (o : fields) : Prop :=
    match a with
    | Params ps => (exists m, ps = skipn m all) /\ fint nf o = 0%Z /\ forall c, In c cols -> flist (p_field c) o = [] /\ fbool (colFlag c) o = false
    | Rows r => (0 <= fint nf o < 65536)%Z /\ exists x, r + x = limit (fint nf o) /\ forall c, In c cols -> length (flist (p_field c) o) = x /\ fbool (colFlag c) o = (r =? 0)%nat
    end.
  Lemma limit_pos : forall n, (0 <= n)%Z -> 0 < limit n.
  Proof. intros n H. unfold limit. destruct (Z.eqb_spec n 0); lia. Qed.
  Lemma col_names : forall c, In c cols -> In (p_field c) colNames /\ In (colFlag c) colNames.
  Proof. intros c I. split; right; apply in_or_app; [right|left]; apply in_map; exact I. Qed.
  Lemma state_same : forall a o o', colState a o -> (forall f, In f colNames -> fget f o' = fget f o) -> colState a o'.
  Proof.
    intros a o o' H E.
    assert (E1 : fint nf o' = fint nf o) by (unfold fint; rewrite E by (left; reflexivity); reflexivity).
    assert (E2 : forall c, In c cols -> flist (p_field c) o' = flist (p_field c) o /\ fbool (colFlag c) o' = fbool (colFlag c) o).
    { intros c I. destruct (col_names c I). unfold flist, fbool. rewrite !E by assumption. auto. }
    destruct a; cbn [colState] in *; rewrite E1.
    - destruct H as (M & F & C). split; [exact M|]. split; [exact F|]. intros c I. destruct (E2 c I) as [-> ->]. auto.
    - destruct H as (R & x & X & C). split; [exact R|]. exists x. split; [exact X|]. intros c I. destruct (E2 c I) as [-> ->]. auto.
  Qed.
  Lemma word_state : forall a i o a' i' o', table toks pf cols a i o a' i' o' -> colState a o -> colState a' o'.
  Proof.
    intros a i o a' i' o' H Q. destruct H as [p q ps i o v F|p i o n F|r i o vs (_ & _ & C)|i o W]; [| | |exact Q].
    - destruct Q as ((m & M) & FN & CL). assert (NP : nth_error all m = Some p) by (replace m with (m + 0) by lia; rewrite <- nth_error_skipn, <- M; reflexivity).
      assert (LM : S m < length all).
      { assert (X : length (skipn m all) = S (S (length ps))) by (rewrite <- M; reflexivity). rewrite skipn_length in X. lia. }
      destruct (PA m p NP) as (HW & (f & FL & NF) & PF). rewrite (proj2 (Nat.eqb_neq _ _)) in PF by lia.
      apply (state_same (Params (q :: ps)) o).
      + split; [exists (S m); rewrite (skipn_cons _ _ _ _ NP) in M; injection M as M; exact M|]. auto.
      + intros g G. unfold store. cbn [fst snd]. rewrite HW, FL. cbn [put mark]. rewrite !fget_other; [reflexivity|intros ->; contradiction|intros ->; contradiction].
    - destruct Q as ((m & M) & FN & CL). assert (NP : nth_error all m = Some p) by (replace m with (m + 0) by lia; rewrite <- nth_error_skipn, <- M; reflexivity).
      assert (LM : S m = length all).
      { assert (X : length (skipn m all) = 1) by (rewrite <- M; reflexivity). rewrite skipn_length in X. lia. }
      destruct (PA m p NP) as (HW & (f & FL & NF) & PF). rewrite (proj2 (Nat.eqb_eq _ _) LM) in PF. destruct PF as [PN TY].
      assert (RG : (0 <= n < 65536)%Z).
      { rewrite TY in F. destruct F as (_ & _ & RN). cbn [readNum] in RN. destruct (ParseUint 16 (tok toks (S i))) as [z|] eqn:PU; [|discriminate]. injection RN as ->.
        apply A2lStrictProps.uint_iff in PU. destruct PU as [NU LE]. apply A2lStrictProps.numeral_nonneg in NU. cbn in LE. lia. }
      assert (ST : store true o (p, VInt n) = fset f (VBool true) (fset nf (VInt n) o)) by (unfold store; cbn [fst snd]; rewrite HW, FL, PN; reflexivity).
      assert (FI : fint nf (store true o (p, VInt n)) = n).
      { rewrite ST, fint_set. destruct (String.eqb_spec nf f) as [X|_]; [exfalso; apply NF; left; exact X|]. rewrite fint_set, String.eqb_refl. reflexivity. }
      cbn [colState]. rewrite FI. split; [exact RG|]. exists 0. split; [lia|]. intros c I. destruct (col_names c I) as [C1 C2]. destruct (CL c I) as [L1 L2].
      pose proof (limit_pos n (proj1 RG)) as LP. assert (N1 : p_field c <> nf /\ colFlag c <> nf).
      { unfold colNames in ND. inversion ND as [|? ? NI _]; subst. split; intros X; apply NI; rewrite <- X; apply in_or_app; [right|left]; apply in_map; exact I. }
      destruct N1 as [N1 N2]. rewrite ST. unfold flist, fbool in *. rewrite !fget_other; try (intros X; subst; contradiction); try (intros X; apply NF; rewrite <- X; assumption).
      rewrite L1, L2. split; [reflexivity|]. symmetry. apply Nat.eqb_neq. lia.
    - destruct Q as (RG & x & X & CL). assert (NDC : NoDup (map colFlag cols ++ map p_field cols)) by (unfold colNames in ND; inversion ND; assumption).
      destruct (stores_cols (r =? 0)%nat cols vs o NDC CO (cells_length toks pf _ _ _ C)) as [S1 S2].
      assert (FI : fint nf (stores (r =? 0)%nat cols vs o) = fint nf o).
      { unfold fint. rewrite S1; [reflexivity|]. unfold colNames in ND. inversion ND; assumption. }
      cbn [colState]. rewrite FI. split; [exact RG|]. exists (S x). split; [lia|]. intros c I. destruct (S2 c I) as [U1 U2]. destruct (CL c I) as [L1 L2].
      rewrite U1, U2, L1, L2. split; [reflexivity|]. cbn [Nat.eqb]. destruct (r =? 0)%nat; reflexivity.
  Qed.
  Lemma rounds_state : forall own a i o a' i' o', rounds toks pf own its stop (table toks pf cols) a i o a' i' o' -> colState a o -> colState a' o'.
  Proof.
    induction 1 as [a i o|a i o a1 i1 o1 a2 i2 o2 PL W _ IH|a i o kw f p sub v k a2 i2 o2 I T RD _ IH]; intros Q; [exact Q| |].
    - apply IH. eapply word_state; eassumption.
    - apply IH. destruct (IT _ _ _ _ I) as [NI U]. eapply state_same; [exact Q|]. intros g G. destruct p; try contradiction; cbn [place_in]; apply fget_other; intros ->; contradiction.
  Qed.
  Lemma object_columns : forall own i v j, object toks pf own its stop (table toks pf cols) [] (Params all) i v j ->
      exists o n full, v = VObj o /\ columns nf (map (fun c => (p_field c, colFlag c)) cols) o n full.
  Proof.
    intros own i v j (a' & i' & o & RR & _ & -> & _). exists o.
    assert (Q : colState (Params all) []) by (split; [exists 0; reflexivity|split; [reflexivity|intros c _; split; reflexivity]]).
    pose proof (rounds_state _ _ _ _ _ _ _ RR Q) as Z. destruct a' as [ps|r]; cbn [colState] in Z.
    - destruct Z as (_ & FN & C). exists 0, false. split; [reflexivity|]. unfold columns. rewrite FN. split; [|split; [lia|split; [lia|]]].
      + intros f g I. apply in_map_iff in I. destruct I as (c & E & I). injection E as <- <-. destruct (C c I) as [-> ->]. auto.
      + pose proof (limit_pos 0 ltac:(lia)). split; [discriminate|lia].
    - destruct Z as (RG & x & X & C). exists x, (r =? 0)%nat. split; [reflexivity|]. split; [|split; [exact RG|split; [lia|]]].
      + intros f g I. apply in_map_iff in I. destruct I as (c & E & I). injection E as <- <-. exact (C c I).
      + rewrite Nat.eqb_eq. lia.
  Qed.
End Columns.

Definition numberColumns : list (string * string) := [("InVal", "InValSet"); ("OutVal", "OutValSet")].
Definition rangeColumns : list (string * string) := [("InValMin", "InValMinSet"); ("InValMax", "InValMaxSet"); ("OutVal", "OutValSet")].

Ltac nodup_ok := apply distinct_nodup; vm_compute; reflexivity.
Ltac cols_ok := let c := fresh in let I := fresh in intros c I; cbn [In] in I; repeat (destruct I as [<-|I]; [split; reflexivity|]); destruct I.
Ltac items_ok := let I := fresh in let X := fresh in intros ? ? ? ? I; cbn [In] in I;
  repeat (destruct I as [I|I]; [injection I as <- <- <- <-; split; [intros X; vm_compute in X; repeat (destruct X as [X|X]; [discriminate X|]); destruct X|exact Logic.I]|]); destruct I.
Ltac params_ok := let m := fresh in let p := fresh in let N := fresh in let X := fresh in
  intros m p N; do 5 (destruct m as [|m]; [cbn in N; first [discriminate N|injection N as <-; split; [reflexivity|]; split;
    [eexists; split; [reflexivity|intros X; vm_compute in X; repeat (destruct X as [X|X]; [discriminate X|]); destruct X]
    |cbn [Nat.eqb List.length]; first [split; reflexivity|intros X; vm_compute in X; repeat (destruct X as [X|X]; [discriminate X|]); destruct X]]]|]);
  cbn in N; destruct m; discriminate N.

(** The columns of a table that is read without an error are equally long, never
    longer than announced, and their flags are set if and only if they are complete.
    An announced 0 means 65536. *)
Theorem C89_columns : forall toks pf i v j, ended toks -> nth i toks [] <> [] ->
    (returns toks pf parseCompuTab i v false j -> exists o n full, v = VObj o /\ columns "NumberValuePairs" numberColumns o n full) /\
    (returns toks pf parseCompuVtab i v false j -> exists o n full, v = VObj o /\ columns "NumberValuePairs" numberColumns o n full) /\
    (returns toks pf parseCompuVtabRange i v false j -> exists o n full, v = VObj o /\ columns "NumberValueTriples" rangeColumns o n full).
Proof.
  intros toks pf i v j EN N. assert (L : i < length toks) by (destruct (Nat.lt_ge_cases i (length toks)) as [H|H]; [exact H|]; exfalso; apply N; apply nth_overflow; exact H).
  split; [|split]; intros R.
  - apply (tab_exact toks pf EN i v j L) in R. unfold tableObject, compuTabForm in R. apply (object_columns toks pf _ _ _ _ "NumberValuePairs") in R; [exact R|nodup_ok|cols_ok|items_ok|params_ok].
  - apply (vtab_exact toks pf EN i v j L) in R. unfold tableObject, compuVtabForm in R. apply (object_columns toks pf _ _ _ _ "NumberValuePairs") in R; [exact R|nodup_ok|cols_ok|items_ok|params_ok].
  - apply (range_exact toks pf EN i v j L) in R. unfold tableObject, compuVtabRangeForm in R. apply (object_columns toks pf _ _ _ _ "NumberValueTriples") in R; [exact R|nodup_ok|cols_ok|items_ok|params_ok].
Qed.
Print Assumptions C89_columns.

(** ** Examples *)

Definition zero (t : bytes) : option spec_float := Some (S754_zero false).
Definition textTokens : list bytes := map b
  ["/begin COMPU_VTAB"; "V"; "a table"; "TAB_VERB"; "DEFAULT_VALUE"; "else"; "2"; "1"; "on"; "2"; "off"; "surplus"; "/end COMPU_VTAB"; ""].
Lemma odd_run : forall toks pf stop name h i v j n, ended toks -> nth i toks [] <> [] -> In (stop, (name, h)) ownParsers -> call isKeyword toks pf n h i = Ret v false j -> odd toks pf stop i v j.
Proof. intros toks pf stop name h i v j n EN N I C. apply (C89_odd toks pf stop name h i v j EN N I). apply (returns_run n). exact C. Qed.
Ltac own_listed := unfold ownParsers; cbn [In]; repeat (first [left; reflexivity|right]).
Ltac tokens_end := match goal with |- ended ?l => exists (removelast l); reflexivity end.
Example C89_example : ended textTokens /\ nth 0 textTokens [] <> [] /\ exists o,
  odd textTokens zero "/end COMPU_VTAB" 0 (VObj o) 12 /\ flist "OutVal" o = [VStr (b "on"); VStr (b "off")] /\ columns "NumberValuePairs" numberColumns o 2 true.
Proof.
  split; [tokens_end|]. split; [discriminate|]. eexists. split; [|split].
  - eapply (odd_run _ _ _ "parseCompuVtab" _ _ _ _ 50); [tokens_end|discriminate|own_listed|vm_compute; reflexivity].
  - reflexivity.
  - split; [|split; [|split]].
    + intros f g [E|[E|[]]]; injection E as <- <-; split; reflexivity.
    + vm_compute. split; [discriminate|reflexivity].
    + vm_compute. repeat constructor.
    + split; reflexivity.
Qed.
(** The first word of a row is checked, the others are not: the end of a table may be
    taken for a text, and the table goes on to the end of the next one. *)
Theorem C89_swallows_refuted : let toks := map b
    ["/begin COMPU_VTAB"; "V"; "a table"; "TAB_VERB"; "1"; "1"; "/end COMPU_VTAB"; "surplus"; "/end COMPU_VTAB"; ""] in
  exists o, odd toks zero "/end COMPU_VTAB" 0 (VObj o) 8 /\ flist "OutVal" o = [VStr (b "/end COMPU_VTAB")].
Proof.
  eexists. split.
  - eapply (odd_run _ _ _ "parseCompuVtab" _ _ _ _ 50); [tokens_end|discriminate|own_listed|vm_compute; reflexivity].
  - reflexivity.
Qed.
(** In OVERWRITE the keyword CONVERSION is stored, and its method is taken for the name. *)
Theorem C89_overwrite_refuted : let toks := map b ["/begin OVERWRITE"; "CONVERSION"; "cm"; "1"; "/end OVERWRITE"; ""] in
  exists o, odd toks zero "/end OVERWRITE" 0 (VObj o) 4 /\ fget "conversion" o = Some (VStr (b "CONVERSION")) /\ fget "name" o = Some (VStr (b "cm")).
Proof.
  eexists. split.
  - eapply (odd_run _ _ _ "parseOverwrite" _ _ _ _ 50); [tokens_end|discriminate|own_listed|vm_compute; reflexivity].
  - split; reflexivity.
Qed.
(** BIT_OPERATION forgets an unexpected keyword at the next object in it. *)
Theorem C89_bits_refuted : let toks := map b ["/begin BIT_OPERATION"; "/begin MEASUREMENT"; "LEFT_SHIFT"; "1"; "/end BIT_OPERATION"; ""] in
  (exists o, odd toks zero "/end BIT_OPERATION" 0 (VObj o) 4) /\
  let toks' := map b ["/begin BIT_OPERATION"; "LEFT_SHIFT"; "1"; "/begin MEASUREMENT"; "/end BIT_OPERATION"; ""] in
  forall v j, ~ odd toks' zero "/end BIT_OPERATION" 0 v j.
Proof.
  split.
  - eexists. eapply (odd_run _ _ _ "parseBitOperation" _ _ _ _ 50); [tokens_end|discriminate|own_listed|vm_compute; reflexivity].
  - cbv zeta. match goal with |- forall v j, ~ odd ?t _ _ _ _ _ => set (toks := t) end. intros v j R.
    apply (C89_odd toks zero _ "parseBitOperation" parseBitOperation) in R; [|unfold toks; tokens_end|discriminate|own_listed].
    assert (Q : exists v', returns toks zero parseBitOperation 0 v' true 4) by (eexists; apply (returns_run 50); vm_compute; reflexivity).
    destruct Q as (v' & Q). destruct (OriginProps.returns_fun _ _ _ _ _ _ _ _ _ _ R Q) as (_ & E & _). discriminate.
Qed.
(** A FRAME without end is read without an error. *)
Example C89_frame : let toks := map b ["/begin FRAME"; "f"; "text"; "1"; "2"; ""] in
  exists o, odd toks zero "/end FRAME" 0 (VObj o) 5 /\ fget "name" o = Some (VStr (b "2")).
Proof.
  eexists. split.
  - eapply (odd_run _ _ _ "parseFrame" _ _ _ _ 50); [tokens_end|discriminate|own_listed|vm_compute; reflexivity].
  - reflexivity.
Qed.
(** A keyword as a value, and a first word that is taken for VAR_SEPARATOR. *)
Example C89_exact_example : let toks := map b ["/begin VARIANT_CODING"; "x"; "."; "/begin VAR_FORBIDDEN_COMB"; "c1"; "v1"; "c2"; "/end X"; "/end VAR_FORBIDDEN_COMB"; "/end VARIANT_CODING"; ""] in
  ended toks /\ nth 0 toks [] <> [] /\ In ("parseVariantCoding", variantCodingRead) exactForms /\ In ("parseVariantCoding", parseVariantCoding) allParsers /\
  exists v, reads toks zero (odd toks zero) variantCodingRead 0 v 9.
Proof.
  split; [tokens_end|]. split; [discriminate|].
  assert (L1 : In ("parseVariantCoding", variantCodingRead) exactForms) by (unfold exactForms; apply in_map_iff; exists ("parseVariantCoding", variantCodingRead); split; [reflexivity|unfold readForms; repeat (first [left; reflexivity|right])]).
  assert (L2 : In ("parseVariantCoding", parseVariantCoding) allParsers) by (unfold allParsers; repeat (first [left; reflexivity|right])).
  split; [exact L1|]. split; [exact L2|]. eexists. apply (C89_exact _ _ _ _ _ _ _ _ L1 L2); [tokens_end|discriminate|]. apply (returns_run 50). vm_compute. reflexivity.
Qed.
(** The file of C88_file_example. *)
Example C89_file_example : exists a, forall gr pf, A2lFileModel.fileTokens gr 1 A2lAcceptProps.shortFile (Some (TokModel.Tokens A2lAcceptProps.shortTokens false))
  /\ exactFile A2lAcceptProps.shortTokens pf 0 [] a.
Proof.
  destruct C88_file_example as (a & H). exists a. intros gr pf. destruct (H gr pf) as [T P]. split; [exact T|].
  apply file_same; [|exact P]. exists (removelast A2lAcceptProps.shortTokens). reflexivity.
Qed.
