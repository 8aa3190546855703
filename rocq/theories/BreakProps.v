(** C101: an A2L file that breaks off. *)
From Coq Require Import String Ascii List Arith NArith Bool Lia SpecFloat.
From Verif Require Import GoBase GoBaseFacts A2lIR A2lTokens A2lParsers A2lThm A2lSpec A2lProps A2lGrammar A2lForms A2lAcceptSpec A2lModModel A2lModSpec
  A2lTextSpec A2lTextModel A2lTextProps A2lFileModel A2lFileSpec A2lFileThm A2lFileProps A2lTripSpec A2lTripThm CalibModel CalibFileModel CalibFileProps WrittenSpec WrittenProps A2lTripProps A2lModProps.
From Verif Require TokModel TokSpec TokThm TokProps A2lAcceptProps A2lNestSpec A2lNestProps TokWords.
Import ListNotations.

(** A version is read from two numbers; neither is the beginning of a project. *)
Lemma version_words : forall name f g toks pf i v j, In (name, f) readForms -> In (name, g) allParsers -> (exists p1 p2, f = Fixed [p1; p2] [] /\ p_type p1 = Number (NUint 16) /\ p_type p2 = Number (NUint 16)) ->
    ended toks -> current toks i <> [] -> returns toks pf g i v false j ->
    j = i + 2 /\ forall q, i < q <= j -> nth q toks [] <> b "/begin PROJECT".
Proof.
  intros name f g toks pf i v j I J (p1 & p2 & -> & T1 & T2) EN N R. destruct (A2lAcceptProps.C75_accepted _ _ _ _ _ _ _ _ I J EN N R) as (ts & EJ & SL & A).
  inversion A as [|? ? ? F| |]; subst. inversion F as [|? t1 ? r1 F1 F' E1 E2]; subst. inversion F' as [|? t2 ? r2 F2 F'' E1 E2]; subst. inversion F''; subst. clear F F' F'' A.
  cbn [length] in *. split; [reflexivity|]. intros q Q. rewrite T1 in F1. rewrite T2 in F2.
  assert (NT : forall k, k < 2 -> nth (S i + k) toks [] = nth k [t1; t2] []).
  { intros k K. rewrite <- SL. rewrite <- (firstn_skipn (S i) toks) at 1. destruct (Nat.le_gt_cases (S i) (length toks)) as [L|L].
    - rewrite app_nth2; rewrite firstn_length, Nat.min_l by exact L; [|lia]. replace (S i + k - S i) with k by lia. rewrite <- (firstn_skipn 2 (skipn (S i) toks)) at 1.
      assert (L2 : length (firstn 2 (skipn (S i) toks)) = 2) by (rewrite SL; reflexivity). rewrite app_nth1 by lia. reflexivity.
    - exfalso. rewrite skipn_all2 in SL by lia. discriminate SL. }
  assert (H : q = S i + 0 \/ q = S i + 1) by lia. destruct H as [-> | ->]; rewrite NT by lia; cbn [nth]; intros ->; [revert F1|revert F2]; clear; intros (_ & w & F); vm_compute in F; discriminate F.
Qed.

(** The loop over a file that contains the beginning of a project: without an error
    the project has been read up to its end. *)
Lemma open_project : forall toks pf module a i a' e j q, A2lNestSpec.closed toks -> a2l toks pf module a i a' e j -> e = false ->
    i <= q -> nth q toks [] = b "/begin PROJECT" -> In (b "/end PROJECT") toks.
Proof.
  intros toks pf module a i a' e j q CL A E. assert (EN : ended toks) by (destruct CL as (l & H & _); exists l; exact H).
  assert (BIG : forall x, nth x toks [] = b "/begin PROJECT" -> S x < length toks).
  { intros x TX. destruct (Nat.lt_ge_cases (S x) (length toks)) as [L|L]; [exact L|]. exfalso. destruct CL as (l & EL & _). rewrite EL, app_length in L. cbn in L.
    rewrite EL in TX. destruct (Nat.eq_dec x (length l)) as [->|NX]; [rewrite nth_middle in TX; discriminate TX|]. rewrite nth_overflow in TX by (rewrite app_length; cbn; lia). discriminate TX. }
  induction A as [a i f v j a' e k P A IH|a i f v j P|a i o a' e k N D A IH|a i e N D]; intros Q TQ; try discriminate E.
  - pose proof (BIG q TQ) as LQ. assert (CI : current toks i <> []) by (apply A2lFileThm.part_in in P; intros Z; rewrite Z in P; destruct P as [K|[K|[K|[]]]]; discriminate K).
    assert (V : In (b "/end PROJECT") toks \/ j = i + 2 /\ (forall x, i < x <= j -> nth x toks [] <> b "/begin PROJECT") /\ current toks i <> b "/begin PROJECT").
    { remember (current toks i) as t eqn:ET. remember false as e0 eqn:E0. destruct P as [i v e0 j R|i v e0 j R|i p e0 j PR]; subst e0.
      - right. destruct (version_words "parseASAP2Version" asap2VersionForm parseASAP2Version toks pf i v j) as [J1 J2]; [listed|listed|do 2 eexists; split; [reflexivity|split; reflexivity]|exact EN|rewrite <- ET; discriminate|exact R|]. split; [exact J1|]. split; [exact J2|discriminate].
      - right. destruct (version_words "parseA2MLVersion" a2mlVersionForm parseA2MLVersion toks pf i v j) as [J1 J2]; [listed|listed|do 2 eexists; split; [reflexivity|split; reflexivity]|exact EN|rewrite <- ET; discriminate|exact R|]. split; [exact J1|]. split; [exact J2|discriminate].
      - left. exact (proj1 (project_end _ _ _ _ _ _ _ _ EN PR eq_refl)). }
    destruct V as [V|(EJ & J2 & NB)]; [exact V|]. apply IH; [exact E| |exact TQ].
    assert (QI : q <> i) by (intros ->; apply NB; exact TQ). assert (QJ : j < q) by (destruct (Nat.lt_ge_cases j q) as [L|L]; [exact L|exfalso; apply (J2 q); [lia|exact TQ]]).
    unfold next. destruct (moves toks j); lia.
  - apply IH; [exact E| |exact TQ]. assert (QI : q <> i) by (intros ->; apply N; right; right; left; symmetry; exact TQ). unfold next. destruct (moves toks i); lia.
  - subst e. exfalso. unfold a2lOther in D. destruct (beqb (current toks i) []) eqn:B; [|destruct (isKeyword (current toks i)); discriminate D]. apply beqb_eq in B. pose proof (BIG q TQ) as LQ.
    destruct CL as (l & EL & NE). rewrite EL, app_length in LQ. cbn in LQ. apply NE. unfold current in B. rewrite EL, app_nth1 in B by lia. rewrite <- B. apply nth_In. lia.
Qed.

(** Whatever the file contains: if its tokens begin a project and do not end one, an
    error is returned, with every number of CPUs and every schedule, whether the module is parsed
    by one goroutine or by several. *)
Theorem C101_open : forall gr pf cpus content t r, 0 < cpus -> fileTokens gr cpus content (Some t) ->
    In (b "/begin PROJECT") (TokModel.tk_list t) -> ~ In (b "/end PROJECT") (TokModel.tk_list t) ->
    parseFromFile gr pf cpus (Some content) r -> exists a, r = Returned a true.
Proof.
  intros gr pf cpus content t r CP T B NE H. inversion H as [|? T'|? t' a e j T' A]; subst; [pose proof (tokens_one _ _ _ _ _ T T'); discriminate|].
  pose proof (tokens_one _ _ _ _ _ T T') as E. injection E as <-. exists a. f_equal. destruct e; [reflexivity|]. exfalso. apply NE.
  destruct (A2lNestProps.C68_tokens _ _ _ T) as (t' & ET & C). injection ET as <-. destruct (In_nth _ _ [] B) as (q & _ & TQ).
  eapply open_project; [exact C|exact A|reflexivity|apply Nat.le_0_l|exact TQ].
Qed.
Print Assumptions C101_open.

(** A file in any layout with some of the first tokens of a file: the calibration data
    are refused with every hex file. *)
Theorem C101_cut : forall gr pf cpus us k content, 0 < cpus -> ~ In (b "/end PROJECT") us -> In (b "/begin PROJECT") (firstn k us) -> writtenAs gr content (firstn k us) ->
    (forall r, parseFromFile gr pf cpus (Some content) r -> exists a, r = Returned a true) /\
    forall path hex cd err, calibration gr pf cpus true (Some content) path hex (RReturned cd err) -> cd = CD None None /\ err <> None.
Proof.
  intros gr pf cpus us k content CP NE B W.
  assert (F : forall r, parseFromFile gr pf cpus (Some content) r -> exists a, r = Returned a true).
  { intros r H. inversion H as [|? T'|? t a e j T A]; subst; [exfalso; exact (proj2 (proj2 (proj2 (TokProps.C47_terminates (cpus * 2) (cleanBytesString gr content) ltac:(lia)))) _ T' eq_refl)|].
    destruct (proj1 (C99_tokens gr cpus content (firstn k us) _ CP W) T) as (t' & ET & L & _). injection ET as <-.
    apply (C101_open gr pf cpus content t _ CP T); [| |exact H]; rewrite L.
    - apply in_or_app. left. exact B.
    - intros I. apply in_app_or in I. destruct I as [I|[I|[]]]; [|discriminate I]. apply NE. rewrite <- (firstn_skipn k us). apply in_or_app. left. exact I. }
  split; [exact F|]. intros path hex cd err C. pose proof (C66_results gr pf cpus _ path hex cd err CP C) as R. destruct err as [e|].
  - split; [exact (proj1 R)|discriminate].
  - exfalso. destruct R as (a & m & _ & P & _). destruct (F _ P) as (a' & E). discriminate E.
Qed.
Print Assumptions C101_cut.

(** ** Inside a line *)

(** The end of the project comes from the word PROJECT. *)
Definition quoteOpen (m : TokSpec.mode) : Prop := match m with TokSpec.Quote t => 0 < TokSpec.quotes t | _ => True end.
Lemma pair_end : forall v w : bytes, v ++ b " " ++ w = b "/end PROJECT" -> w = b "PROJECT".
Proof.
  intros v w H. change (b " ") with [" "%char] in H. change (b "/end PROJECT") with ["/"; "e"; "n"; "d"; " "; "P"; "R"; "O"; "J"; "E"; "C"; "T"]%char in H.
  do 4 (destruct v as [|? v]; [discriminate H|]; injection H as _ H). destruct v as [|? v]; [injection H as H; exact H|]. injection H as _ H.
  do 7 (destruct v as [|? v]; [discriminate H|]; injection H as _ H). destruct v; discriminate H.
Qed.
Lemma end_step : forall m w m1 t1, TokSpec.wstep m w = (m1, t1) -> quoteOpen m -> quoteOpen m1 /\ (In (b "/end PROJECT") t1 -> w = b "PROJECT").
Proof.
  intros m w m1 t1 W Q. destruct m as [| |t|v| |]; cbn [TokSpec.wstep] in W.
  - destruct (TokSpec.kind_of w) eqn:K.
    + injection W as <- <-. split; [exact Logic.I|]. intros [->|[]]. vm_compute in K. discriminate K.
    + assert (Q0 : 0 < TokSpec.quotes w).
      { unfold TokSpec.kind_of in K. destruct (0 <? TokSpec.quotes w) eqn:L; [apply Nat.ltb_lt; exact L|]. exfalso. destruct (TokSpec.hasb "//" w); [discriminate|]. destruct (TokSpec.hasb "/*" w); [discriminate|].
        destruct (TokSpec.hasb "/" w && negb (TokSpec.hasb "*/" w)); [|discriminate]. destruct (TokSpec.hasb "/begin" w || TokSpec.hasb "/end" w); discriminate. }
      destruct (Nat.even (TokSpec.quotes w)); injection W as <- <-; (split; [cbn; auto|]); [|intros []]. intros [->|[]]. vm_compute in Q0. lia.
    + injection W as <- <-. split; [destruct (TokSpec.hasb "*/" w); exact Logic.I|intros []].
    + injection W as <- <-. split; [exact Logic.I|intros []].
    + injection W as <- <-. split; [exact Logic.I|intros []].
    + injection W as <- <-. split; [exact Logic.I|intros []].
  - injection W as <- <-. split; [destruct (TokSpec.hasb "*/" w); exact Logic.I|intros []].
  - cbn [quoteOpen] in Q. assert (Q' : 0 < TokSpec.quotes (t ++ b " " ++ w)) by (unfold TokSpec.quotes in *; rewrite count_occ_app; lia).
    destruct (Nat.even (TokSpec.quotes (t ++ b " " ++ w))); injection W as <- <-; (split; [cbn [quoteOpen]; auto|]); [|intros []]. intros [H|[]]. assert (Q2 : TokSpec.quotes (t ++ b " " ++ w) = TokSpec.quotes (b "/end PROJECT")) by (rewrite <- H; reflexivity). rewrite Q2 in Q'. vm_compute in Q'. lia.
  - injection W as <- <-. split; [exact Logic.I|]. intros [H|[]]. exact (pair_end v w H).
  - injection W as <- <-. split; [exact Logic.I|intros []].
  - injection W as <- <-. split; [exact Logic.I|intros []].
Qed.
Lemma end_word : forall ws m, quoteOpen m -> In (b "/end PROJECT") (snd (TokSpec.lex_words m ws)) -> In (b "PROJECT") ws.
Proof.
  induction ws as [|w ws IH]; intros m Q I; [destruct I|]. cbn [TokSpec.lex_words] in I.
  destruct (TokSpec.wstep m w) as [m1 t1] eqn:W. destruct (TokSpec.lex_words m1 ws) as [m2 t2] eqn:LW. cbn [snd] in I. destruct (end_step _ _ _ _ W Q) as [Q1 E].
  apply in_app_or in I. destruct I as [I|I]; [left; exact (E I)|right]. apply (IH m1 Q1). rewrite LW. exact I.
Qed.

Lemma end_lines : forall ls m, quoteOpen m -> In (b "/end PROJECT") (snd (TokSpec.lex_lines m ls)) -> exists ws, In ws ls /\ In (b "PROJECT") ws.
Proof.
  assert (F : forall ws m, quoteOpen m -> quoteOpen (fst (TokSpec.lex_words m ws))).
  { induction ws as [|w ws IH]; intros m Q; [exact Q|]. cbn [TokSpec.lex_words]. destruct (TokSpec.wstep m w) as [m1 t1] eqn:W. pose proof (IH m1 (proj1 (end_step _ _ _ _ W Q))) as H.
    destruct (TokSpec.lex_words m1 ws) as [m2 t2]. exact H. }
  induction ls as [|ws ls IH]; intros m Q I; [destruct I|]. cbn [TokSpec.lex_lines] in I. pose proof (F ws m Q) as Q1. pose proof (end_word ws m Q) as E.
  destruct (TokSpec.lex_words m ws) as [m1 t1]. cbn [fst snd] in Q1, E. destruct (TokSpec.lex_lines (TokSpec.eol m1) ls) as [m2 t2] eqn:L. cbn [snd] in I. apply in_app_or in I. destruct I as [I|I].
  - exists ws. split; [left; reflexivity|exact (E I)].
  - destruct (IH (TokSpec.eol m1)) as (v & V & P); [destruct m1; cbn [TokSpec.eol]; first [exact Logic.I|exact Q1]|rewrite L; exact I|]. exists v. split; [right; exact V|exact P].
Qed.

(** Complete lines and some more, which may be anything, divided among goroutines. *)
Lemma last_lines : forall cs A R, Forall TokThm.closed_line A -> concat cs = A ++ R -> exists X,
    concat (map (fun c => TokSpec.lex (map TokModel.fields c)) cs) = concat (map TokThm.line_lex A) ++ X /\
    (In (b "/end PROJECT") X -> exists l, In l R /\ In (b "PROJECT") (TokModel.fields l)).
Proof.
  induction cs as [|c cs IH]; intros A R C E.
  - cbn [concat] in E. symmetry in E. apply app_eq_nil in E. destruct E as [-> ->]. exists []. split; [reflexivity|intros []].
  - cbn [concat map] in *. unfold TokSpec.lex at 1. destruct (Nat.le_gt_cases (length c) (length A)) as [L|L].
    + assert (EA : A = c ++ skipn (length c) A).
      { pose proof (f_equal (firstn (length c)) E) as H. rewrite firstn_app, Nat.sub_diag, firstn_all, firstn_O, app_nil_r, firstn_app in H. replace (length c - length A) with 0 in H by lia. rewrite firstn_O, app_nil_r in H.
        rewrite H at 1. symmetry. apply firstn_skipn. }
      remember (skipn (length c) A) as A2 eqn:Z. clear Z. subst A. rewrite <- app_assoc in E. apply app_inv_head in E. apply Forall_app in C. destruct C as [C1 C2].
      destruct (IH A2 R C2 E) as (X & EX & NX). exists X. split; [|exact NX]. rewrite (TokThm.closed_lex c C1). cbn [snd]. rewrite EX, map_app, concat_app, app_assoc. reflexivity.
    + assert (EC : c = A ++ skipn (length A) c).
      { pose proof (f_equal (firstn (length A)) E) as H. rewrite (firstn_app (length A) A R), Nat.sub_diag, firstn_all, firstn_O, app_nil_r, firstn_app in H. replace (length A - length c) with 0 in H by lia. rewrite firstn_O, app_nil_r in H.
        rewrite <- H at 1. symmetry. apply firstn_skipn. }
      remember (skipn (length A) c) as R1 eqn:Z. clear Z L. subst c. rewrite <- app_assoc in E. apply app_inv_head in E. subst R.
      destruct (IH [] (concat cs) (Forall_nil _) eq_refl) as (X & EX & NX). cbn [map concat app] in EX.
      rewrite map_app, TokThm.lex_lines_app, (TokThm.closed_lex A C). cbn [fst snd]. rewrite EX. eexists. split; [rewrite <- app_assoc; reflexivity|].
      intros I. apply in_app_or in I. destruct I as [I|I].
      * destruct (end_lines _ _ (Logic.I : quoteOpen TokSpec.Normal) I) as (ws & W & P). apply in_map_iff in W. destruct W as (l & <- & W). exists l. split; [apply in_or_app; left; exact W|exact P].
      * destruct (NX I) as (l & W & P). exists l. split; [apply in_or_app; right; exact W|exact P].
Qed.

(** The text of a file breaks off: complete lines with the tokens [ts], and more lines
    without the word PROJECT that may be anything, such as the first lines of a comment or
    text over several lines and a part of a line.  Around the text may be characters that do
    not print. *)
Definition breaksOff (gr : N -> bool) (content : bytes) (ts : list bytes) : Prop :=
  exists p q c s d lines gss rest, content = p ++ (c :: s ++ [d]) ++ q /\ unprintable gr p /\ unprintable gr q /\
    (32 <= N_of_ascii c <= 126)%N /\ (32 <= N_of_ascii d <= 126)%N /\ TokSpec.text_of (lines ++ rest) (c :: s ++ [d]) /\
    Forall2 (fun l gs => exists us, TokWords.separated l us /\ TokSpec.line_items us gs) lines gss /\ ts = map TokSpec.unwords (concat gss) /\
    Forall (fun l => exists us, TokWords.separated l us /\ ~ In (b "PROJECT") us) rest.
Theorem C101_text : forall gr pf cpus content ts, 0 < cpus -> breaksOff gr content ts -> In (b "/begin PROJECT") ts -> ~ In (b "/end PROJECT") ts ->
    (forall r, parseFromFile gr pf cpus (Some content) r -> exists a, r = Returned a true) /\
    forall path hex cd err, calibration gr pf cpus true (Some content) path hex (RReturned cd err) -> cd = CD None None /\ err <> None.
Proof.
  intros gr pf cpus content ts CP (p & q & c & s & d & lines & gss & rest & EC & P & Q & C & D & T & L & ET & NP) B NE.
  assert (CLN : cleanBytesString gr content = c :: s ++ [d]).
  { rewrite EC. apply clean_ends; try assumption. destruct T as (E & _ & F). rewrite E. clear - F. intros I. revert I. induction F as [|l ls [H1 H2] F IH]; [intros []|].
    destruct ls as [|l' ls]; cbn [HexSpec.join]; [exact H2|]. intros I. rewrite !in_app_iff in I. destruct I as [I|[I|I]]; [exact (H2 I)|destruct I as [I|[]]; discriminate|exact (IH I)]. }
  assert (CL : Forall TokThm.closed_line lines /\ concat (map TokThm.line_lex lines) = ts).
  { subst ts. clear - L. induction L as [|l gs lines gss (us & S1 & S2) L [IH1 IH2]]; [split; [constructor|reflexivity]|]. apply TokWords.C42_white_space in S1. destruct (TokThm.line_items_lex _ _ S2) as (m & E & EM). rewrite <- S1 in E.
    split; [constructor; [|exact IH1]; unfold TokThm.closed_line; rewrite E; exact EM|]. cbn [map concat]. rewrite map_app, IH2. f_equal. unfold TokThm.line_lex. rewrite E. reflexivity. }
  destruct CL as [CL LT].
  assert (TK : forall t, fileTokens gr cpus content (Some t) -> In (b "/begin PROJECT") (TokModel.tk_list t) /\ ~ In (b "/end PROJECT") (TokModel.tk_list t)).
  { intros t H. unfold fileTokens in H. destruct (TokProps.C44_no_error _ _ _ H) as (t' & E & TL). injection E as <-. rewrite CLN, (TokThm.text_lines _ _ T) in TL.
    match type of TL with context [map _ ?cs] => destruct (last_lines cs lines rest CL ltac:(apply concat_chunks; lia)) as (X & EX & NX) end. rewrite EX, LT in TL. rewrite TL. split; [apply in_or_app; left; apply in_or_app; left; exact B|].
    intros I. apply in_app_or in I. destruct I as [I|[I|[]]]; [|discriminate I]. apply in_app_or in I. destruct I as [I|I]; [exact (NE I)|].
    destruct (NX I) as (l & IL & W). rewrite Forall_forall in NP. destruct (NP l IL) as (us & SE & NW). apply NW. apply TokWords.C42_white_space in SE. rewrite <- SE. exact W. }
  assert (F : forall r, parseFromFile gr pf cpus (Some content) r -> exists a, r = Returned a true).
  { intros r H. inversion H as [|? T'|? t a e j T' A]; subst r; [exfalso; exact (proj2 (proj2 (proj2 (TokProps.C47_terminates (cpus * 2) (cleanBytesString gr content) ltac:(lia)))) _ T' eq_refl)|].
    destruct (TK t T') as [B' N']. exact (C101_open gr pf cpus content t _ CP T' B' N' H). }
  split; [exact F|]. intros path hex cd err R0. pose proof (C66_results gr pf cpus _ path hex cd err CP R0) as R. destruct err as [e|].
  - split; [exact (proj1 R)|discriminate].
  - exfalso. destruct R as (a & m & _ & PF & _). destruct (F _ PF) as (a' & E). discriminate E.
Qed.
Print Assumptions C101_text.

(** Before the project nothing is noticed: this file breaks off after its version, and is
    read without an error and without a project. *)
Definition wholeFile : list bytes := map b ["ASAP2_VERSION"; "1"; "60"; "/begin PROJECT"; "p"; "q"; "/begin MODULE"; "m"; "n"; "/end MODULE"; "/end PROJECT"]%string.
Theorem C101_silent_refuted : exists n, forall gr pf cpus, tableOk gr -> 0 < cpus ->
    (exists a, returns (wholeFile ++ [[]]) pf parseA2l 0 (VObj a) false (length wholeFile) /\ fget "Project" a <> None) /\
    (exists r, parseFromFile gr pf cpus (Some (firstn n (write wholeFile))) r) /\
    forall r, parseFromFile gr pf cpus (Some (firstn n (write wholeFile))) r -> exists a, r = Returned a false /\ fget "Project" a = None.
Proof.
  exists 18. intros gr pf cpus G CP. split; [eexists; split; [apply (returns_run 50); vm_compute; reflexivity|vm_compute; discriminate]|]. split; [apply C65_total; exact CP|]. intros r H.
  set (ts := map b ["ASAP2_VERSION"; "1"; "60"]%string). change (firstn 18 (write wholeFile)) with (write ts) in H.
  assert (W : Forall writable ts) by (apply Forall_forall; intros t I; apply writableb_ok; revert t I; apply forallb_forall; vm_compute; reflexivity).
  assert (T : fileTokens gr cpus (write ts) (Some (TokModel.Tokens (ts ++ [[]]) true))).
  { apply C69_tokens; [exact CP|exact G|exact W|vm_compute; lia|]. eexists. split; [reflexivity|]. cbn [TokModel.tk_list TokModel.tk_multithreading]. split; [reflexivity|]. split; [intros _; vm_compute; discriminate|reflexivity]. }
  assert (R : exists a, returns (ts ++ [[]]) pf parseA2l 0 (VObj a) false 3 /\ fget "Project" a = None) by (eexists; split; [apply (returns_run 50); vm_compute; reflexivity|reflexivity]).
  destruct R as (a & R & N). destruct (C65_as_read gr pf cpus (write ts) _ a 3 r CP T eq_refl R) as (a' & -> & L); [|exact H|].
  - cbn [TokModel.tk_list]. intros i K. exfalso. do 5 (destruct i as [|i]; [discriminate K|]). destruct i; discriminate K.
  - exists a'. split; [reflexivity|]. destruct L as [_ L]. rewrite N in L. destruct (fget "Project" a'); [destruct L|reflexivity].
Qed.
Print Assumptions C101_silent_refuted.

(** The same file on five lines.  It breaks off in the line of the module, within its
    end, in the last line and in a comment over several lines. *)
Definition lineText : list bytes := [b "ASAP2_VERSION 1 60"; b "/begin PROJECT p q"; b "  /begin MODULE m n"; b "  /end MODULE"; b "/end PROJECT"].
Definition upTo (n : nat) : list bytes := firstn n (map b ["ASAP2_VERSION"; "1"; "60"; "/begin PROJECT"; "p"; "q"; "/begin MODULE"; "m"; "n"; "/end MODULE"]%string).
Example C101_example : forall gr,
  breaksOff gr (firstn 51 (HexSpec.join [HexSpec.LF] lineText)) (upTo 6) /\ breaksOff gr (firstn 62 (HexSpec.join [HexSpec.LF] lineText)) (upTo 9) /\
  breaksOff gr (firstn 83 (HexSpec.join [HexSpec.LF] lineText)) (upTo 10) /\
  breaksOff gr (HexSpec.join [HexSpec.LF] (firstn 2 lineText ++ [b "/* a comment"; b "over several li"])) (upTo 6) /\
  In (b "/begin PROJECT") (upTo 6) /\ ~ In (b "/end PROJECT") (upTo 10).
Proof.
  intros gr.
  assert (U : unprintable gr []) by (exists []; split; [reflexivity|constructor]).
  assert (L1 : exists us, TokWords.separated (b "ASAP2_VERSION 1 60") us /\ TokSpec.line_items us [[b "ASAP2_VERSION"]; [b "1"]; [b "60"]]).
  { eexists. split; [apply TokWords.C42_white_space; reflexivity|]. apply TokSpec.li_items. cbn. repeat (apply TokProps.items_plain; [apply TokProps.plain_dec; reflexivity|]). constructor. }
  assert (L2 : exists us, TokWords.separated (b "/begin PROJECT p q") us /\ TokSpec.line_items us [[b "/begin"; b "PROJECT"]; [b "p"]; [b "q"]]).
  { eexists. split; [apply TokWords.C42_white_space; reflexivity|]. apply TokSpec.li_items. apply TokProps.items_pair; [left; reflexivity|]. repeat (apply TokProps.items_plain; [apply TokProps.plain_dec; reflexivity|]). constructor. }
  assert (L3 : exists us, TokWords.separated (b "  /begin MODULE m n") us /\ TokSpec.line_items us [[b "/begin"; b "MODULE"]; [b "m"]; [b "n"]]).
  { eexists. split; [apply TokWords.C42_white_space; reflexivity|]. apply TokSpec.li_items. apply TokProps.items_pair; [left; reflexivity|]. repeat (apply TokProps.items_plain; [apply TokProps.plain_dec; reflexivity|]). constructor. }
  assert (L4 : exists us, TokWords.separated (b "  /end MODULE") us /\ TokSpec.line_items us [[b "/end"; b "MODULE"]]).
  { eexists. split; [apply TokWords.C42_white_space; reflexivity|]. apply TokSpec.li_items. apply TokProps.items_pair; [right; reflexivity|]. constructor. }
  assert (K : forall text c s d lines gss rest ts, text = c :: s ++ [d] -> (32 <= N_of_ascii c <= 126)%N -> (32 <= N_of_ascii d <= 126)%N -> TokSpec.text_of (lines ++ rest) text ->
      Forall2 (fun l gs => exists us, TokWords.separated l us /\ TokSpec.line_items us gs) lines gss -> ts = map TokSpec.unwords (concat gss) -> Forall (fun l => ~ In (b "PROJECT") (TokModel.fields l)) rest -> breaksOff gr text ts).
  { intros text c s d lines gss rest ts E C D T F ET NP. exists [], [], c, s, d, lines, gss, rest. cbn [app]. rewrite app_nil_r, <- E.
    repeat (split; [assumption || reflexivity|]). eapply Forall_impl; [|exact NP]. intros l H. exists (TokModel.fields l). split; [apply TokWords.C42_white_space; reflexivity|exact H]. }
  set (g1 := [[b "ASAP2_VERSION"]; [b "1"]; [b "60"]]) in *. set (g2 := [[b "/begin"; b "PROJECT"]; [b "p"]; [b "q"]]) in *. set (g3 := [[b "/begin"; b "MODULE"]; [b "m"]; [b "n"]]) in *. set (g4 := [[b "/end"; b "MODULE"]]) in *.
  repeat split.
  - apply (K _ "A"%char (removelast (tl (firstn 51 (HexSpec.join [HexSpec.LF] lineText)))) "U"%char (firstn 2 lineText) [g1; g2] [b "  /begin MODU"]); try (vm_compute; reflexivity); try (vm_compute; split; discriminate);
      [split; [vm_compute; reflexivity|split; [discriminate|repeat constructor; apply TokProps.no_byte; reflexivity]]|repeat (constructor; [assumption|]); constructor|repeat constructor; vm_compute; intuition discriminate].
  - apply (K _ "A"%char (removelast (tl (firstn 62 (HexSpec.join [HexSpec.LF] lineText)))) "e"%char (firstn 3 lineText) [g1; g2; g3] [b "  /e"]); try (vm_compute; reflexivity); try (vm_compute; split; discriminate);
      [split; [vm_compute; reflexivity|split; [discriminate|repeat constructor; apply TokProps.no_byte; reflexivity]]|repeat (constructor; [assumption|]); constructor|repeat constructor; vm_compute; intuition discriminate].
  - apply (K _ "A"%char (removelast (tl (firstn 83 (HexSpec.join [HexSpec.LF] lineText)))) "C"%char (firstn 4 lineText) [g1; g2; g3; g4] [b "/end PROJEC"]); try (vm_compute; reflexivity); try (vm_compute; split; discriminate);
      [split; [vm_compute; reflexivity|split; [discriminate|repeat constructor; apply TokProps.no_byte; reflexivity]]|repeat (constructor; [assumption|]); constructor|repeat constructor; vm_compute; intuition discriminate].
  - apply (K _ "A"%char (removelast (tl (HexSpec.join [HexSpec.LF] (firstn 2 lineText ++ [b "/* a comment"; b "over several li"])))) "i"%char (firstn 2 lineText) [g1; g2] [b "/* a comment"; b "over several li"]); try (vm_compute; reflexivity); try (vm_compute; split; discriminate);
      [split; [vm_compute; reflexivity|split; [discriminate|repeat constructor; apply TokProps.no_byte; reflexivity]]|repeat (constructor; [assumption|]); constructor|repeat constructor; vm_compute; intuition discriminate].
  - vm_compute. auto.
  - vm_compute. intuition discriminate.
Qed.
