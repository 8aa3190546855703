(** C68: begin and end keywords. *)
From Coq Require Import String Ascii List Arith NArith ZArith Bool Lia SpecFloat.
From Verif Require Import GoBase GoBaseFacts A2lIR A2lTokens A2lParsers A2lSpec A2lCheck A2lThm A2lModProps A2lProps A2lNestSpec A2lNest A2lNestThm.
From Verif Require TokModel TokSpec TokThm TokProps A2lFileModel A2lFileProps.
Import ListNotations.

(** The objects whose contents are skipped. *)
Definition skipped : list string := ["IF_DATA"; "A2ML"]%string.
(** The objects whose parsers take keywords for words. *)
Definition careless : list string := ["COMPU_VTAB"; "COMPU_VTAB_RANGE"; "BIT_OPERATION"; "VAR_FORBIDDEN_COMB"]%string.

(** ** The tokens *)

(** Only the last token of a text is empty. *)
Theorem C68_tokens : forall np text r, TokModel.tok_exec np text r -> exists t, r = Some t /\ closed (TokModel.tk_list t).
Proof.
  intros np text r H. destruct (TokProps.C44_no_error np text r H) as (tk & E0 & L0). exists tk. split; [exact E0|].
  rewrite L0. eexists. split; [reflexivity|]. clear E0 L0 H. intros I.
  assert (W : forall m w m' t, TokSpec.wstep m w = (m', t) -> w <> [] ->
      (forall x, m = TokSpec.Quote x \/ m = TokSpec.Pair x -> x <> []) ->
      ~ In [] t /\ forall x, m' = TokSpec.Quote x \/ m' = TokSpec.Pair x -> x <> []).
  { intros m w m' t E NW NM. unfold TokSpec.wstep in E.
    assert (A : forall x, x ++ b " " ++ w <> []) by (intros [|]; discriminate).
    destruct m as [| |q|q| |].
    - destruct (TokSpec.kind_of w); try (injection E as <- <-; split; [intros [|[]]; congruence|intros x [|]; congruence]).
      + destruct (Nat.even _); injection E as <- <-; (split; [intros J; cbn in J; intuition congruence|intros x [|]; congruence]).
      + destruct (TokSpec.hasb _ w); injection E as <- <-; (split; [intros J; destruct J|intros x X; destruct X; discriminate]).
      + injection E as <- <-. split; [intros J; destruct J|intros x X; destruct X; congruence].
      + injection E as <- <-. split; [intros J; destruct J|intros x X; destruct X; congruence].
      + injection E as <- <-. split; [intros J; destruct J|intros x X; destruct X; congruence].
    - destruct (TokSpec.hasb _ w); injection E as <- <-; (split; [intros J; destruct J|intros x X; destruct X; discriminate]).
    - cbv zeta in E. destruct (Nat.even _); injection E as <- <-; (split; [intros J; cbn in J; try destruct J as [J|J]; try contradiction; exact (A _ J)|intros x [J|J]; inversion J; subst; apply A]).
    - injection E as <- <-. split; [intros [J|[]]; exact (A _ J)|intros x [|]; discriminate].
    - injection E as <- <-. split; [intros J; destruct J|intros x X; destruct X; discriminate].
    - injection E as <- <-. split; [intros J; destruct J|intros x X; destruct X; discriminate]. }
  assert (WS : forall ws m m' t, TokSpec.lex_words m ws = (m', t) -> Forall (fun w => w <> []) ws ->
      (forall x, m = TokSpec.Quote x \/ m = TokSpec.Pair x -> x <> []) ->
      ~ In [] t /\ forall x, m' = TokSpec.Quote x \/ m' = TokSpec.Pair x -> x <> []).
  { induction ws as [|w ws IH]; intros m m' t E F M; cbn [TokSpec.lex_words] in E.
    - injection E as <- <-. split; [intros []|exact M].
    - inversion F as [|? ? F1 F2]; subst. destruct (TokSpec.wstep m w) as [m1 t1] eqn:E1. destruct (TokSpec.lex_words m1 ws) as [m2 t2] eqn:E2.
      injection E as <- <-. destruct (W _ _ _ _ E1 F1 M) as [N1 M1]. destruct (IH _ _ _ E2 F2 M1) as [N2 M2].
      split; [intros J; apply in_app_or in J; tauto|exact M2]. }
  assert (LS : forall ls m m' t, TokSpec.lex_lines m ls = (m', t) -> Forall (Forall (fun w => w <> [])) ls ->
      (forall x, m = TokSpec.Quote x \/ m = TokSpec.Pair x -> x <> []) -> ~ In [] t).
  { induction ls as [|l ls IH]; intros m m' t E F M; cbn [TokSpec.lex_lines] in E.
    - injection E as <- <-. intros [].
    - inversion F as [|? ? F1 F2]; subst. destruct (TokSpec.lex_words m l) as [m1 t1] eqn:E1.
      destruct (TokSpec.lex_lines (TokSpec.eol m1) ls) as [m2 t2] eqn:E2. injection E as <- <-.
      destruct (WS _ _ _ _ E1 F1 M) as [N1 M1]. intros J. apply in_app_or in J. destruct J as [J|J]; [contradiction|].
      refine (IH _ _ _ E2 F2 _ J). intros x X. apply M1. destruct m1; cbn [TokSpec.eol] in X; intuition congruence. }
  apply in_concat in I. destruct I as (ts & J & I). apply in_map_iff in J. destruct J as (c & <- & _).
  unfold TokSpec.lex in I. destruct (TokSpec.lex_lines TokSpec.Normal (map TokModel.fields c)) as [m t] eqn:E.
  refine (LS _ _ _ _ E _ _ I); [|intros x [|]; discriminate].
  apply Forall_forall. intros l L. apply in_map_iff in L. destruct L as (x & <- & _). apply TokThm.fields_aux_nonempty.
Qed.
Print Assumptions C68_tokens.

(** ** Objects *)

(** Every begin keyword of the tokens is matched. *)
Lemma nested_less : forall op op' l, nested op l -> (forall x, In x op -> In x op' \/ ~ In (beginOf x) l) -> nested op' l.
Proof.
  intros op op' l H. induction H as [|t l B _ IH|x l l' B1 B2 H IH1 H' IH2|x l l' I H' IH]; intros L.
  - constructor.
  - constructor; [exact B|]. apply IH. intros x X. destruct (L x X) as [J|J]; [left; exact J|right]. intros K. apply J. right. exact K.
  - apply NObj; [exact B1|exact B2|apply IH1|apply IH2]; intros y Y; (destruct (L y Y) as [J|J]; [left; exact J|right]); intros K; apply J; right; apply in_or_app; [left|right; right]; exact K.
  - destruct (L x I) as [J|J]; [|exfalso; apply J; left; reflexivity].
    apply NOpaque; [exact J|]. apply IH. intros y Y. destruct (L y Y) as [K|K]; [left; exact K|right]. intros Z. apply K. right. apply in_or_app. right. right. exact Z.
Qed.

Definition kindIs (stop : string) (last : bool) (k : kind) : bool :=
  match k with Closes t l => if String.eqb t stop then if l then last else true else false | _ => false end.
Definition nestCheck : bool :=
  forallb (fun p => forallb (fun q => if String.eqb (fst p) (fst q)
    then if existsb (fun x => String.eqb (snd p) ("/end " ++ x)) (skipped ++ careless) then true
         else kindIs (snd p) (String.eqb (fst p) "parseFrame") (kindFn (skipped ++ careless) (snd q))
    else true) allParsers) brackets.
Lemma nest_check : nestCheck = true. Proof. vm_compute. reflexivity. Qed.

Lemma length_fuel : forall toks pf g i v e j, returns toks pf g i v e j -> exists fuel, length toks < fuel /\ call isKeyword toks pf fuel g i = Ret v e j.
Proof. intros toks pf g i v e j [n H]. exists (n + S (length toks)). split; [lia|]. apply H. lia. Qed.

Lemma append_inj : forall p x y, (p ++ x = p ++ y -> x = y)%string.
Proof. induction p as [|c p IH]; intros x y H; [exact H|]. injection H as H. apply IH, H. Qed.

Lemma object : forall name x g toks pf i v j,
    In (name, ("/end " ++ x)%string) brackets -> In (name, g) allParsers -> ~ In x (skipped ++ careless) ->
    closed toks -> rejects pf -> nth i toks [] = beginOf x -> returns toks pf g i v false j ->
    (i < j < length toks /\ nth j toks [] = endOf x /\ nested (skipped ++ careless) (section toks (S i) j)) \/ (name = "parseFrame"%string /\ S j = length toks).
Proof.
  intros name x g toks pf i v j HB HI NX CL RJ TK R. destruct (length_fuel _ _ _ _ _ _ _ R) as (fuel & FU & C).
  assert (L : i < length toks) by (destruct (Nat.lt_ge_cases i (length toks)); [assumption|rewrite nth_overflow in TK by assumption; discriminate]).
  assert (L' : S i < length toks) by (apply (nonempty_not_last toks fuel CL FU); [exact L|unfold current; rewrite TK; discriminate]).
  pose proof (kind_sound toks pf fuel (skipped ++ careless) CL RJ FU g i v j L' C) as K.
  pose proof (proj1 (forallb_forall _ _) (proj1 (forallb_forall _ _) nest_check _ HB) _ HI) as O. cbn [fst snd] in O. rewrite String.eqb_refl in O.
  destruct (existsb _ (skipped ++ careless)) eqn:X.
  - exfalso. apply existsb_exists in X. destruct X as (y & Y & E). apply String.eqb_eq in E. apply append_inj in E. subst y. contradiction.
  - destruct (kindFn (skipped ++ careless) g) as [|t last| |]; try discriminate. cbn [kindIs] in O.
    destruct (String.eqb t ("/end " ++ x)) eqn:E; [|discriminate]. apply String.eqb_eq in E. subst t.
    destruct K as [(A & B & N)|(-> & A)]; [left; auto|right]. split; [apply String.eqb_eq, O|exact A].
Qed.

(** The parser of an object, called at its begin keyword, returns without error
    only if the tokens up to its end keyword are properly nested: no begin or end
    keyword of another object is taken for a word.  The contents of IF_DATA and
    A2ML are skipped; the four careless parsers are refuted below. *)
Theorem C68_nested : forall name x g toks pf i v j,
    In (name, ("/end " ++ x)%string) brackets -> In (name, g) allParsers -> x <> "FRAME"%string -> ~ In x (skipped ++ careless) ->
    closed toks -> rejects pf -> nth i toks [] = beginOf x -> returns toks pf g i v false j ->
    i < j < length toks /\ nth j toks [] = endOf x /\ nested (skipped ++ careless) (section toks (S i) j).
Proof.
  intros name x g toks pf i v j HB HI NF NX CL RJ TK R.
  destruct (object name x g toks pf i v j HB HI NX CL RJ TK R) as [K|(-> & _)]; [exact K|]. exfalso. apply NF.
  assert (Q : forall s, In ("parseFrame"%string, s) brackets -> s = "/end FRAME"%string).
  { intros s H. assert (B : forallb (fun p => if String.eqb (fst p) "parseFrame" then String.eqb (snd p) "/end FRAME" else true) brackets = true) by (vm_compute; reflexivity).
    pose proof (proj1 (forallb_forall _ _) B _ H) as O. cbn [fst snd] in O. rewrite String.eqb_refl in O. apply String.eqb_eq, O. }
  apply Q in HB. change "/end FRAME"%string with ("/end " ++ "FRAME")%string in HB. apply append_inj in HB. exact HB.
Qed.
Print Assumptions C68_nested.

(** Without objects of the careless parsers all contents but those of IF_DATA and
    A2ML are nested. *)
Theorem C68_strict_guarded : forall name x g toks pf i v j,
    In (name, ("/end " ++ x)%string) brackets -> In (name, g) allParsers -> x <> "FRAME"%string -> ~ In x (skipped ++ careless) ->
    closed toks -> rejects pf -> nth i toks [] = beginOf x -> returns toks pf g i v false j ->
    (forall y, In y careless -> ~ In (beginOf y) (section toks (S i) j)) ->
    i < j < length toks /\ nth j toks [] = endOf x /\ nested skipped (section toks (S i) j).
Proof.
  intros name x g toks pf i v j HB HI NF NX CL RJ TK R NC.
  destruct (C68_nested name x g toks pf i v j HB HI NF NX CL RJ TK R) as (A & B & N). split; [exact A|]. split; [exact B|].
  eapply nested_less; [exact N|]. intros y Y. apply in_app_or in Y. destruct Y as [Y|Y]; [left; exact Y|right; apply NC, Y].
Qed.
Print Assumptions C68_strict_guarded.

(** FRAME: likewise, or the tokens end. *)
Theorem C68_frame : forall toks pf i v j,
    closed toks -> rejects pf -> nth i toks [] = beginOf "FRAME" -> returns toks pf parseFrame i v false j ->
    (i < j < length toks /\ nth j toks [] = endOf "FRAME" /\ nested (skipped ++ careless) (section toks (S i) j)) \/ S j = length toks.
Proof.
  intros toks pf i v j CL RJ TK R.
  destruct (object "parseFrame" "FRAME" parseFrame toks pf i v j ltac:(listed) ltac:(listed)) as [K|(_ & K)]; auto.
  intros K. apply (in_map (fun z => String.eqb z "FRAME")) in K. vm_compute in K. intuition discriminate.
Qed.
Print Assumptions C68_frame.

(** A whole file, parsed sequentially: all its tokens are nested. *)
Theorem C68_file : forall gr pf cpus content t a, rejects pf -> A2lFileModel.fileTokens gr cpus content (Some t) -> TokModel.tk_multithreading t = false ->
    A2lFileModel.parseFromFile gr pf cpus (Some content) (A2lFileModel.Returned a false) ->
    exists l, TokModel.tk_list t = l ++ [[]] /\ nested (skipped ++ careless) l.
Proof.
  intros gr pf cpus content t a RJ T MT H. destruct (C68_tokens _ _ _ T) as (t' & E & CL). injection E as <-.
  apply (A2lFileProps.C65_sequential gr pf cpus content t _ T MT) in H. destruct H as (a' & e & j & E & R). injection E as <- <-.
  destruct (length_fuel _ _ _ _ _ _ _ R) as (fuel & FU & C).
  assert (NF : nestedFile (skipped ++ careless) parseA2l = true) by (vm_compute; reflexivity).
  destruct (file_sound _ pf fuel (skipped ++ careless) CL RJ FU parseA2l NF _ _ C) as [LJ N].
  exists (section (TokModel.tk_list t) 0 j). split; [|exact N]. destruct CL as (l & TL & _). rewrite TL in LJ |- *. rewrite app_length in LJ. cbn in LJ.
  unfold section. replace (j - 0) with (length l + 0) by lia. cbn [skipn]. rewrite firstn_app_2. cbn. rewrite app_nil_r. reflexivity.
Qed.
Print Assumptions C68_file.

(** ** The careless parsers *)

Fixpoint count (f : bytes -> bool) (l : list bytes) : nat := match l with [] => 0 | t :: l' => (if f t then 1 else 0) + count f l' end.
Definition isBegin (t : bytes) : bool := isKeyword t && startsWith (b "/begin ") t.
Definition isEnd (t : bytes) : bool := isKeyword t && startsWith (b "/end ") t.

Lemma count_app : forall f l m, count f (l ++ m) = count f l + count f m.
Proof. intros f l m. induction l as [|t l IH]; [reflexivity|]. cbn [app count]. rewrite IH. lia. Qed.
Lemma nested_count : forall l, nested [] l -> count isBegin l = count isEnd l.
Proof.
  intros l H. induction H as [|t l B _ IH|x l l' B1 B2 H IH1 H' IH2|x l l' [] H' IH]; [reflexivity| |].
  - cbn [count]. unfold isBegin at 1, isEnd at 1. unfold bracket in B. destruct (isKeyword t); cbn [andb] in *; [|lia].
    apply orb_false_iff in B. destruct B as [-> ->]. lia.
  - cbn [count]. rewrite !count_app. cbn [count].
    assert (E1 : isBegin (beginOf x) = true /\ isEnd (beginOf x) = false /\ isBegin (endOf x) = false /\ isEnd (endOf x) = true).
    { unfold bracket in B1, B2. apply andb_true_iff in B1, B2. destruct B1 as [K1 _], B2 as [K2 _]. unfold isBegin, isEnd. rewrite K1, K2. repeat split; reflexivity. }
    destruct E1 as (-> & -> & -> & ->). lia.
Qed.
(** The numbers of begin and end keywords differ. *)
Lemma not_nested : forall op l, forallb (fun x => negb (existsb (beqb (beginOf x)) l)) op = true -> (count isBegin l =? count isEnd l) = false -> ~ nested op l.
Proof.
  intros op l H C N. apply Nat.eqb_neq in C. apply C, nested_count. eapply nested_less; [exact N|]. intros x X. right. intros I.
  rewrite forallb_forall in H. specialize (H x X). apply negb_true_iff in H.
  assert (E : existsb (beqb (beginOf x)) l = true) by (apply existsb_exists; exists (beginOf x); split; [exact I|apply beqb_refl]). congruence.
Qed.

(** Decimal digits are numbers. *)
Definition digitsOnly (t : bytes) : option spec_float := match ParseUint 8 t with Some z => Some (S754_finite false (Z.to_pos z) 0) | None => None end.
Lemma digits_rejects : rejects digitsOnly.
Proof.
  intros t [K| ->]; [|reflexivity]. assert (E : forallb (fun k => match digitsOnly (b k) with Some _ => false | None => true end) keywords = true) by (vm_compute; reflexivity).
  unfold isKeyword in K. apply existsb_exists in K. destruct K as (k & I & E'). apply beqb_eq in E'. subst t.
  pose proof (proj1 (forallb_forall _ _) E k I) as D. cbv beta in D. destruct (digitsOnly (b k)); [discriminate|reflexivity].
Qed.

(** [badly p x l]: the parser [p] accepts the tokens [l] as an object [x] although they
    are not nested. *)
Definition badly (g : fn) (x : string) (l : list bytes) : Prop :=
  exists toks i v j, closed toks /\ nth i toks [] = beginOf x /\ returns toks digitsOnly g i v false j /\
    section toks (S i) j = l /\ ~ nested skipped l.
Ltac accepted ts := exists (map b ts ++ [[]]), 0; do 2 eexists; split; [eexists; split; [reflexivity|vm_compute; intuition discriminate]|];
  split; [reflexivity|]; split; [apply (returns_run 50); vm_compute; reflexivity|]; split; [vm_compute; reflexivity|];
  apply not_nested; vm_compute; reflexivity.

(** The text of a value pair is not looked at: a begin or end keyword is taken for
    the text. *)
Theorem C68_compu_vtab_refuted : exists l, badly parseCompuVtab "COMPU_VTAB" l.
Proof.
  eexists. accepted ["/begin COMPU_VTAB"; "T"; "long"; "TAB_VERB"; "1"; "7"; "/end COMPU_VTAB"; "/end COMPU_VTAB"]%string.
Qed.
Print Assumptions C68_compu_vtab_refuted.
Theorem C68_compu_vtab_range_refuted : exists l, badly parseCompuVtabRange "COMPU_VTAB_RANGE" l.
Proof.
  eexists. accepted ["/begin COMPU_VTAB_RANGE"; "T"; "long"; "1"; "7"; "8"; "/end COMPU_VTAB_RANGE"; "/end COMPU_VTAB_RANGE"]%string.
Qed.
Print Assumptions C68_compu_vtab_range_refuted.
(** The value of a criterion is not looked at either. *)
Theorem C68_var_forbidden_comb_refuted : exists l, badly parseVarForbiddenComb "VAR_FORBIDDEN_COMB" l.
Proof.
  eexists. accepted ["/begin VAR_FORBIDDEN_COMB"; "Car"; "Limousine"; "Gear"; "/end VAR_FORBIDDEN_COMB"; "/end VAR_FORBIDDEN_COMB"]%string.
Qed.
Print Assumptions C68_var_forbidden_comb_refuted.
(** An unexpected keyword is an error, but does not end the loop: the error is
    overwritten by the result of the next call. *)
Theorem C68_bit_operation_refuted : exists l, badly parseBitOperation "BIT_OPERATION" l.
Proof.
  eexists. accepted ["/begin BIT_OPERATION"; "/begin MODULE"; "LEFT_SHIFT"; "1"; "/end BIT_OPERATION"]%string.
Qed.
Print Assumptions C68_bit_operation_refuted.

(** The parallel parser does not look at keywords between the objects of a module:
    C48_keyword_refuted. *)

(** ** Example *)

Definition group : list bytes := map b
  ["/begin GROUP"; "G"; "long"; "ROOT"; "/begin IF_DATA"; "X"; "/begin BLOB"; "/end IF_DATA";
   "/begin ANNOTATION"; "ANNOTATION_LABEL"; "a"; "/begin ANNOTATION_TEXT"; "t"; "/end ANNOTATION_TEXT"; "/end ANNOTATION"; "/end GROUP"; ""]%string.
Example C68_example : exists v, returns group digitsOnly parseGroup 0 v false 15 /\ closed group /\ nth 0 group [] = beginOf "GROUP" /\
  In ("parseGroup", "/end " ++ "GROUP")%string brackets /\ In ("parseGroup"%string, parseGroup) allParsers /\ ~ In "GROUP"%string (skipped ++ careless) /\
  (forall y, In y careless -> ~ In (beginOf y) (section group 1 15)).
Proof.
  eexists. split; [apply (returns_run 50); vm_compute; reflexivity|].
  split; [exists (firstn 16 group); split; [reflexivity|vm_compute; intuition discriminate]|]. split; [reflexivity|].
  split; [change ("/end " ++ "GROUP")%string with "/end GROUP"%string; listed|]. split; [listed|].
  split; [intros K; apply (in_map (fun z => String.eqb z "GROUP")) in K; vm_compute in K; intuition discriminate|].
  intros y Y. vm_compute in Y. intuition (subst y; vm_compute in *; intuition discriminate).
Qed.

Definition twoModules : bytes := b "/begin PROJECT P L /begin MODULE A a /end MODULE /begin MODULE B b /end MODULE /end PROJECT".
Definition twoTokens : list bytes := map b
  ["/begin PROJECT"; "P"; "L"; "/begin MODULE"; "A"; "a"; "/end MODULE"; "/begin MODULE"; "B"; "b"; "/end MODULE"; "/end PROJECT"; ""]%string.
Example C68_file_example : exists a, forall gr,
  A2lFileModel.fileTokens gr 1 twoModules (Some (TokModel.Tokens twoTokens false)) /\
  A2lFileModel.parseFromFile gr digitsOnly 1 (Some twoModules) (A2lFileModel.Returned a false).
Proof.
  eexists. intros gr. assert (T : A2lFileModel.fileTokens gr 1 twoModules (Some (TokModel.Tokens twoTokens false))).
  { unfold A2lFileModel.fileTokens. replace (A2lTextModel.cleanBytesString gr twoModules) with twoModules by (vm_compute; reflexivity).
    apply TokThm.exec_lex. vm_compute. reflexivity. }
  split; [exact T|]. apply (A2lFileProps.C65_sequential gr digitsOnly 1 twoModules _ _ T eq_refl). do 3 eexists. split; [reflexivity|].
  apply (returns_run 50). vm_compute. reflexivity.
Qed.
