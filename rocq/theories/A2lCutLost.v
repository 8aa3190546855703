(** C65: a file with data of an object that is taken for data of the module. *)
From Coq Require Import String Ascii List Arith NArith Bool Lia SpecFloat.
From Verif Require Import GoBase GoBaseFacts A2lIR A2lTokens A2lParsers A2lThm A2lSpec A2lProps A2lModModel A2lModSpec A2lModStore A2lModSeq A2lModProps
  A2lTextModel A2lTextProps A2lFileModel A2lFileSpec A2lFileThm A2lFileProps A2lCutSpec A2lCut A2lCutProps.
From Verif Require TokModel TokSpec TokThm TokProps.
Import ListNotations.

Definition cutText : bytes := b "/begin PROJECT P L /begin MODULE M L /begin GROUP G a ROOT /begin IF_DATA XCP /end IF_DATA /end GROUP /end MODULE /end PROJECT".
Definition cutToks : list bytes := map b ["/begin PROJECT"; "P"; "L"; "/begin MODULE"; "M"; "L"; "/begin GROUP"; "G"; "a"; "ROOT";
  "/begin IF_DATA"; "XCP"; "/end IF_DATA"; "/end GROUP"; "/end MODULE"; "/end PROJECT"; ""]%string.
Definition cutGroup : item := Item 6 13 (Put_ "Groups" "groupName") (readOr cutToks parseGroup 6).
Definition cutData : item := Item 10 12 (Put_ "ifData" "name") (readOr cutToks parseIfData 10).
(** The interface data of this name in the only module of a file. *)
Definition dataOf (a : fields) (x : bytes) : option val :=
  match fget "Project" a with
  | Some (VObj p) => match flist "Modules" p with [VObj m] => match fget "ifData" m with Some (VMap g) => mget x g | _ => None end | _ => None end
  | _ => None
  end.

Lemma cut_tokens : forall gr cpus, 0 < cpus -> fileTokens gr cpus cutText (Some (TokModel.Tokens cutToks true)).
Proof.
  intros gr cpus CP. unfold fileTokens. replace (cleanBytesString gr cutText) with cutText by (vm_compute; reflexivity).
  apply (TokProps.C42_lines_guarded _ _ [cutText] [map TokModel.fields (firstn 16 cutToks)]); [lia|split; [reflexivity|split; [discriminate|repeat constructor; apply TokProps.no_byte; reflexivity]]| |].
  - constructor; [|constructor]. apply TokSpec.li_items. change (map TokModel.fields (firstn 16 cutToks)) with
      [[b "/begin"; b "PROJECT"]; [b "P"]; [b "L"]; [b "/begin"; b "MODULE"]; [b "M"]; [b "L"]; [b "/begin"; b "GROUP"]; [b "G"]; [b "a"]; [b "ROOT"];
       [b "/begin"; b "IF_DATA"]; [b "XCP"]; [b "/end"; b "IF_DATA"]; [b "/end"; b "GROUP"]; [b "/end"; b "MODULE"]; [b "/end"; b "PROJECT"]].
    change (TokModel.fields cutText) with (map b ["/begin"; "PROJECT"; "P"; "L"; "/begin"; "MODULE"; "M"; "L"; "/begin"; "GROUP"; "G"; "a"; "ROOT";
       "/begin"; "IF_DATA"; "XCP"; "/end"; "IF_DATA"; "/end"; "GROUP"; "/end"; "MODULE"; "/end"; "PROJECT"]%string). cbn [map].
    repeat first [apply TokProps.items_pair; [first [left; reflexivity|right; reflexivity]|] | apply TokProps.items_plain; [apply TokProps.plain_dec; reflexivity|]]. constructor.
  - eexists. split; [reflexivity|]. split; [reflexivity|]. cbn [TokModel.tk_multithreading]. split; [intros _|reflexivity]. vm_compute. discriminate.
Qed.
Lemma cut_isModule : forall pf, isModule cutToks pf 3 [cutGroup] 14.
Proof. intros pf. split; [aWord|]. split; [aWord|]. unfold cutGroup. anObject "/begin GROUP"%string. apply ContEnd. reflexivity. Qed.
Lemma cut_only : forall i, tok cutToks i = b "/begin MODULE" -> i = 3.
Proof. intros i. do 17 (destruct i as [|i]; [intros H; first [reflexivity|discriminate H]|]). destruct i; discriminate. Qed.
Lemma cut_nested : forall pf, nestedIn cutToks pf 9 13 [cutData].
Proof.
  intros pf. unfold cutData. eapply (NestObj cutToks pf 9 "/begin IF_DATA"%string); [inKinds|reflexivity|apply (returns_run 50); vm_compute; reflexivity|].
  apply NestOther; [apply findKind_none; vm_compute; reflexivity|apply NestEnd].
Qed.
Lemma cut_shared : forall pf i, tok cutToks i = b "/begin MODULE" -> exists items stop, isModule cutToks pf i items stop /\ clean cutToks stop /\ complete cutToks pf (1 * 2) (i + 2) stop items.
Proof.
  intros pf i T. apply cut_only in T. subst i. exists [cutGroup], 14. split; [apply cut_isModule|]. split; [intros p P; do 14 (destruct p as [|p]; [split; discriminate|]); lia|].
  intros p x (k & K & ->) [<-|[]] CU. assert (k = 1) as -> by lia. exists [cutData]. exact (cut_nested pf).
Qed.

(** On a computer with one CPU the module of this file holds interface data that
    is part of a group; the sequential parser finds none in the module. *)
Theorem C65_foreign_refuted : exists content, forall gr pf,
    (exists t a j, fileTokens gr 1 content (Some t) /\ returns (TokModel.tk_list t) pf parseA2l 0 (VObj a) false j /\ dataOf a (b "XCP") = None) /\
    (exists r, parseFromFile gr pf 1 (Some content) r) /\
    (forall r, parseFromFile gr pf 1 (Some content) r -> exists a w, r = Returned a false /\ dataOf a (b "XCP") = Some w).
Proof.
  exists cutText. intros gr pf.
  assert (R0 : exists a0 p0 m0, returns cutToks pf parseA2l 0 (VObj a0) false 16 /\ dataOf a0 (b "XCP") = None /\ fget "Project" a0 = Some (VObj p0) /\ flist "Modules" p0 = [m0]).
  { do 3 eexists. split; [apply (returns_run 50); vm_compute; reflexivity|]. split; [vm_compute; reflexivity|]. split; vm_compute; reflexivity. }
  destruct R0 as (a0 & p0 & m0 & R0 & D0 & P0 & M0). split; [do 3 eexists; split; [apply cut_tokens; lia|]; split; [exact R0|exact D0]|]. split; [apply C65_total; lia|].
  intros r H. destruct (C65_any_guarded gr pf 1 cutText _ a0 16 r ltac:(lia) (cut_tokens gr 1 ltac:(lia)) eq_refl R0 (cut_shared pf) H) as (a & -> & _ & L).
  rewrite P0 in L. unfold dataOf. exists a. destruct (fget "Project" a) as [[| | | | | |p]|]; try contradiction. destruct L as [_ L]. rewrite M0 in L. inversion L as [|? w ? ws S L']; subst. inversion L'; subst.
  destruct S as (i & items & stop & o & o' & name & long & shares & T & IM & -> & -> & _ & _ & SH & _ & HL). cbn [TokModel.tk_list] in *.
  apply cut_only in T. subst i. pose proof IM as (_ & _ & C). pose proof (cut_isModule pf) as (_ & _ & C0). destruct (content_fun _ _ _ _ _ C0 _ _ C) as [-> ->].
  cbn in SH. inversion SH as [|? s0 ? ? S0 SH1]; subst. inversion SH1 as [|? s1 ? ? S1 SH2]; subst. inversion SH2; subst.
  assert (EN : ended cutToks) by (eexists (firstn 16 cutToks); reflexivity).
  assert (s1 = [cutData]) as ->.
  { eapply (share_fun cutToks pf EN 2 5 [cutGroup] 14 1); [exact C0| |exact S1]. exists [cutData]. split; [|reflexivity]. left. exists cutGroup. split; [left; reflexivity|]. split; [unfold cuts, edge; cbn; lia|exact (cut_nested pf)]. }
  assert (I : In ("/begin IF_DATA", (parseIfData, Put_ "ifData" "name"))%string kinds) by inKinds.
  destruct (HL _ _ _ (b "XCP") I) as [_ N]. cbn [found] in N.
  assert (LA : lastAt (Put_ "ifData" "name") (b "XCP") (stored [cutData]) (it_val cutData)) by (exists [], []; split; [reflexivity|split; [vm_compute; reflexivity|intros w []]]).
  destruct (fget "ifData" o') as [[| | | | |g|]|]; try (destruct (N eq_refl _ _ ltac:(right; left; reflexivity) LA)).
  destruct (mget (b "XCP") g) as [w|]; [exists w; auto|]. destruct (N eq_refl _ _ ltac:(right; left; reflexivity) LA).
Qed.
Print Assumptions C65_foreign_refuted.

(** The file meets the hypotheses of C65_any_guarded. *)
Example C65_any_example : forall gr pf, exists t a j, fileTokens gr 1 cutText (Some t) /\ TokModel.tk_multithreading t = true /\
    returns (TokModel.tk_list t) pf parseA2l 0 (VObj a) false j /\ (exists i, tok (TokModel.tk_list t) i = b "/begin MODULE") /\
    forall i, tok (TokModel.tk_list t) i = b "/begin MODULE" -> exists items stop, isModule (TokModel.tk_list t) pf i items stop /\ clean (TokModel.tk_list t) stop
      /\ complete (TokModel.tk_list t) pf (1 * 2) (i + 2) stop items.
Proof.
  intros gr pf. do 3 eexists. split; [apply cut_tokens; lia|]. split; [reflexivity|]. cbn [TokModel.tk_list]. split; [apply (returns_run 50); vm_compute; reflexivity|]. split; [exists 3; reflexivity|]. exact (cut_shared pf).
Qed.
