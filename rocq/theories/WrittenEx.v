(** C99: a comment over two lines. *)
From Coq Require Import String Ascii List Arith NArith Bool Lia.
From Verif Require Import GoBase HexSpec A2lIR A2lParsers A2lTextSpec A2lTextModel A2lTextProps A2lFileModel A2lFileProps A2lTripSpec.
From Verif Require Import LookModel ValuesModel TreeModel WrittenSpec WrittenProps.
From Verif Require TokThm TokModel TokSpec TokWords TokProps A2lSpec A2lFileThm A2lModProps.
Import ListNotations.

Definition commentBefore : bytes := b "/begin PROJECT P L /begin MODULE M L /*".
Definition commentAfter : bytes := b "/begin GROUP G a /end GROUP */ /end MODULE /begin MODULE N L /end MODULE /end PROJECT".
Definition oneLine : bytes := commentBefore ++ b " " ++ commentAfter.
Definition twoLines : bytes := commentBefore ++ [LF] ++ commentAfter.
Definition bothToks : list bytes := map b ["/begin PROJECT"; "P"; "L"; "/begin MODULE"; "M"; "L"; "/end MODULE"; "/begin MODULE"; "N"; "L"; "/end MODULE"; "/end PROJECT"]%string.

Lemma comment_words : TokSpec.comment (map b ["/*"; "/begin"; "GROUP"; "G"; "a"; "/end"; "GROUP"; "*/"]%string).
Proof.
  right. exists (b "/*"), (map b ["/begin"; "GROUP"; "G"; "a"; "/end"; "GROUP"]%string), (b "*/"). split; [reflexivity|]. split; [split; [exists []; reflexivity|apply TokProps.no_has; reflexivity]|].
  split; [apply TokProps.no_has; reflexivity|]. split; [|exists [], []; reflexivity]. apply Forall_forall. intros w I. apply TokProps.no_has. revert w I. 
  assert (F : forallb (fun w => negb (TokSpec.hasb "*/" w)) (map b ["/begin"; "GROUP"; "G"; "a"; "/end"; "GROUP"]%string) = true) by reflexivity. rewrite forallb_forall in F.
  intros w I. apply negb_true_iff, F, I.
Qed.
Lemma one_says : linesSay oneLine bothToks.
Proof.
  exists [oneLine], [map TokModel.fields bothToks]. split; [split; [reflexivity|split; [discriminate|repeat constructor; apply TokProps.no_byte; reflexivity]]|]. split; [|vm_compute; reflexivity].
  constructor; [|constructor]. exists (TokModel.fields oneLine). split; [apply TokWords.C42_white_space; reflexivity|]. apply TokSpec.li_items.
  replace (TokModel.fields oneLine) with (map b ["/begin"; "PROJECT"; "P"; "L"; "/begin"; "MODULE"; "M"; "L"]%string ++
    map b ["/*"; "/begin"; "GROUP"; "G"; "a"; "/end"; "GROUP"; "*/"]%string ++ map b ["/end"; "MODULE"; "/begin"; "MODULE"; "N"; "L"; "/end"; "MODULE"; "/end"; "PROJECT"]%string) by (vm_compute; reflexivity).
  replace (map TokModel.fields bothToks) with ([[b "/begin"; b "PROJECT"]; [b "P"]; [b "L"]; [b "/begin"; b "MODULE"]; [b "M"]; [b "L"]] ++
    [] ++ [[b "/end"; b "MODULE"]; [b "/begin"; b "MODULE"]; [b "N"]; [b "L"]; [b "/end"; b "MODULE"]; [b "/end"; b "PROJECT"]]) by (vm_compute; reflexivity).
  assert (P : forall u g w h, TokSpec.items u g -> TokSpec.items w h -> TokSpec.items (u ++ map b ["/*"; "/begin"; "GROUP"; "G"; "a"; "/end"; "GROUP"; "*/"]%string ++ w) (g ++ [] ++ h)).
  { intros u g w h U W. apply TokThm.items_app; [exact U|]. apply (TokSpec.its_cons _ [] w h); [|exact W]. apply TokSpec.it_comment. exact comment_words. }
  apply P; cbn [map]; repeat first [apply TokProps.items_pair; [first [left; reflexivity|right; reflexivity]|] | apply TokProps.items_plain; [apply TokProps.plain_dec; reflexivity|]]; constructor.
Qed.
(** With a byte order mark (if it does not print) before and line feeds after it. *)
Example C99_example : forall gr, writtenAs gr oneLine bothToks /\ (gr 65279%N = false -> writtenAs gr (map ascii_of_N [239; 187; 191]%N ++ oneLine ++ [LF; LF]) bothToks).
Proof.
  assert (K : forall gr p q, unprintable gr p -> unprintable gr q -> writtenAs gr (p ++ oneLine ++ q) bothToks).
  { intros gr p q P Q. exists p, q, "/"%char, (removelast (tl oneLine)), "T"%char. split; [do 2 f_equal; vm_compute; reflexivity|]. split; [exact P|]. split; [exact Q|]. split; [vm_compute; split; discriminate|].
    split; [vm_compute; split; discriminate|]. replace ("/"%char :: removelast (tl oneLine) ++ ["T"%char]) with oneLine by (vm_compute; reflexivity). exact one_says. }
  intros gr. split.
  - rewrite <- (app_nil_r oneLine). apply (K gr [] []); exists []; (split; [reflexivity|constructor]).
  - intros E. assert (M : character 65279 /\ ~ prints gr 65279) by (split; [right; vm_compute; split; [discriminate|reflexivity]|intros [[_ H]|[_ H]]; [apply H; reflexivity|congruence]]).
    assert (L : character 10 /\ ~ prints gr 10) by (split; [left; reflexivity|intros [[H _]|[H _]]; apply H; reflexivity]).
    apply K; [exists [65279%N]; split; [vm_compute; reflexivity|constructor; [exact M|constructor]]|exists [10%N; 10%N]; split; [vm_compute; reflexivity|constructor; [exact L|constructor; [exact L|constructor]]]].
Qed.

(** The words of both files are the same.  The group stands in a comment and is not read from the first file; on a computer
    with one CPU it is read from the second one, without an error. *)
Theorem C99_comment_refuted : exists c1 c2 ws ts, TokWords.separated c1 ws /\ TokWords.separated c2 ws /\ ~ In (b "/begin GROUP") ts /\ forall gr, writtenAs gr c1 ts /\ exists a1 a2,
    forall pf, (forall r, parseFromFile gr pf 1 (Some c1) r <-> r = Returned a1 false) /\ (forall r, parseFromFile gr pf 1 (Some c2) r <-> r = Returned a2 false) /\
      forall hex, objectsByIdent (calibOf a1 0 hex) (b "G") = Ok [] /\ exists g, objectsByIdent (calibOf a2 0 hex) (b "G") = Ok [Group_ g].
Proof.
  exists oneLine, twoLines, (TokModel.fields oneLine), bothToks. split; [apply TokWords.C42_white_space; reflexivity|]. split; [apply TokWords.C42_white_space; vm_compute; reflexivity|].
  split; [vm_compute; intuition discriminate|]. intros gr. split; [apply C99_example|].
  assert (R : forall c t, cleanBytesString gr c = c -> TokProps.run 2 c = Some t -> TokModel.tk_multithreading t = false -> forall pf a j, A2lSpec.returns (TokModel.tk_list t) pf parseA2l 0 (VObj a) false j ->
      forall r, parseFromFile gr pf 1 (Some c) r <-> r = Returned a false).
  { intros c t E RU M pf a j RE r. assert (T : fileTokens gr 1 c (Some t)) by (unfold fileTokens; rewrite E, <- RU; apply TokProps.run_is).
    rewrite (C65_sequential gr pf 1 c t r T M). split.
    - intros (a' & e & j' & -> & RE'). destruct (A2lFileThm.returns_fun _ _ _ _ _ _ _ _ _ _ RE RE') as (EV & <- & _). congruence.
    - intros ->. eauto. }
  do 2 eexists. intros pf. split; [|split].
  - eapply R; [vm_compute; reflexivity|vm_compute; reflexivity|reflexivity|]. cbn [TokModel.tk_list]. apply (A2lModProps.returns_run 50). vm_compute. reflexivity.
  - eapply R; [vm_compute; reflexivity|vm_compute; reflexivity|reflexivity|]. cbn [TokModel.tk_list]. apply (A2lModProps.returns_run 50). vm_compute. reflexivity.
  - intros hex. split; [vm_compute; reflexivity|eexists; vm_compute; reflexivity].
Qed.
Print Assumptions C99_comment_refuted.
