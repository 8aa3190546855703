(** C91 for files whose only module is parsed by several goroutines. *)
From Coq Require Import String Ascii List Arith NArith ZArith Bool Lia SpecFloat Sorted.
From Verif Require Import GoBase GoBaseFacts A2lModStore A2lIR A2lTokens A2lSpec A2lParsers A2lFileThm A2lGrammar A2lForms A2lTripSpec A2lFormProps A2lProps.
From Verif Require Import CompuModel LookModel LookProps TreeModel TreeSpec TreeThm TreeLook.
From Verif Require Import A2lFileModel A2lFileSpec A2lExactSpec A2lExact A2lExactThm A2lExactProps A2lOddSpec A2lOddProps ConvFileProps LookFileSpec LookFileThm LookFileProps LookFileName.
From Verif Require A2lModSpec A2lModModel A2lModProps ValuesModel ValuesThm A2lLayoutModel TokModel A2lFileProps A2lFileLost.
Import ListNotations.

(** If the module can be shared out and no object begins at a border (the guard of
    C65), every schedule gives a tree in which under each name exactly what is listed
    in the module is found. *)
Theorem C91_shared_guarded : forall gr pf cpus content t a j n i l hex k r, 0 < cpus -> fileTokens gr cpus content (Some t) -> TokModel.tk_multithreading t = true ->
    returns (TokModel.tk_list t) pf parseA2l 0 (VObj a) false j ->
    (forall i, A2lModSpec.tok (TokModel.tk_list t) i = b "/begin MODULE" -> divisible (TokModel.tk_list t) pf (cpus * 2) i /\ inside (TokModel.tk_list t) pf (cpus * 2) i) ->
    moduleAt (TokModel.tk_list t) pf n i -> holdsAt (TokModel.tk_list t) pf moduleExact i l ->
    parseFromFile gr pf cpus (Some content) r ->
    exists a' res, r = Returned a' false /\ objectsByIdent (calibOf a' n hex) k = Ok res
      /\ (forall x, In x res <-> listed (TokModel.tk_list t) pf l k x) /\ StronglySorted (fun x y => rank x < rank y) res.
Proof.
  intros gr pf cpus content t a j n i l hex k r CP T MT R DV M H P. pose proof (tokens_ended _ _ _ _ T) as EN.
  destruct (A2lFileProps.C65_guarded gr pf cpus content t a j r CP T MT R DV P) as (a' & -> & L).
  destruct (proj1 (C88_a2l _ pf (VObj a) EN) (ex_intro _ j R)) as (o & E & F). injection E as <-. apply file_same in F; [|exact EN].
  destruct (proj2 (modules_at _ _ EN _ F) n i M) as (v & q & NV & RD).
  destruct (C91_module _ _ _ _ _ _ (calibOf a n hex) k EN RD H NV) as (res & O & I & S0). exists a', res. split; [reflexivity|]. split; [|auto]. rewrite <- (C70_same a a' n hex k L). exact O.
Qed.
Print Assumptions C91_shared_guarded.

(** What else can happen: the second group of this file is not found on one CPU (C70_one_module_refuted). *)

Lemma lost_ended : ended A2lFileLost.lostToks.
Proof. exists (firstn 17 A2lFileLost.lostToks). reflexivity. Qed.
Ltac run1 g := apply (reads_run _ _ g); [exact lost_ended|discriminate|vm_compute; reflexivity|apply (A2lModProps.returns_run 80); vm_compute; reflexivity].
Ltac member1 k g := eapply co_item; [apply (nth_error_In _ k); reflexivity|reflexivity|run1 g|].
Example shared_example : exists i l, forall gr pf, A2lModSpec.tok A2lFileLost.lostToks i = b "/begin MODULE" /\ fileTokens gr 2 A2lFileLost.lostText (Some (TokModel.Tokens A2lFileLost.lostToks true))
  /\ (exists a j, returns A2lFileLost.lostToks pf parseA2l 0 (VObj a) false j)
  /\ (forall i, A2lModSpec.tok A2lFileLost.lostToks i = b "/begin MODULE" -> divisible A2lFileLost.lostToks pf (2 * 2) i /\ inside A2lFileLost.lostToks pf (2 * 2) i)
  /\ moduleAt A2lFileLost.lostToks pf 0 i /\ holdsAt A2lFileLost.lostToks pf moduleExact i l /\ length l = 2.
Proof.
  exists 3. eexists. intros gr pf. split; [reflexivity|]. split; [apply A2lFileLost.lost_tokens; lia|]. split; [do 2 eexists; apply (A2lModProps.returns_run 50); vm_compute; reflexivity|]. split; [|split; [|split]].
  - intros i0 T. split; [apply A2lFileLost.lost_divisible; exact T|]. apply A2lFileLost.lost_only in T. subst i0. intros items stop x (_ & _ & C) X (k & K & E).
    pose proof (A2lFileLost.lost_isModule pf) as (_ & _ & C0). destruct (A2lModProps.content_fun _ _ _ _ _ C0 _ _ C) as [-> ->]. change ((15 - (3 + 2)) / (2 * 2)) with 2 in E.
    destruct X as [<-|[<-|[]]]; cbn [A2lModSpec.it_from] in E; lia.
  - do 4 eexists. split; [|split; [|split; [|split]]].
    + eapply fh_item; [right; right; left; reflexivity|reflexivity|run1 parseProject|]. apply fh_end. reflexivity.
    + eexists [], []. split; [reflexivity|]. split; [reflexivity|constructor].
    + exists 15. split; [|reflexivity]. do 2 word_. member1 1 parseModule. apply co_end.
    + reflexivity.
    + reflexivity.
  - exists 14. split; [|reflexivity]. do 2 word_. member1 10 parseGroup. member1 10 parseGroup. apply co_end.
  - reflexivity.
Qed.
