(** C65: a file that is read differently on different computers. *)
From Coq Require Import String Ascii List Arith NArith Bool Lia SpecFloat.
From Verif Require Import GoBase GoBaseFacts A2lIR A2lTokens A2lParsers A2lThm A2lSpec A2lProps A2lModModel A2lModSpec A2lModStore A2lModSeq A2lModProps
  A2lTextModel A2lTextProps A2lFileModel A2lFileSpec A2lFileThm A2lFileProps.
From Verif Require TokModel TokSpec TokThm TokProps.
Import ListNotations.

Definition lostText : bytes := b "/begin PROJECT P L /begin MODULE M L /begin GROUP G1 a /end GROUP /begin GROUP G2 b ROOT /end GROUP /end MODULE /end PROJECT".
Definition lostToks : list bytes := map b ["/begin PROJECT"; "P"; "L"; "/begin MODULE"; "M"; "L"; "/begin GROUP"; "G1"; "a"; "/end GROUP";
  "/begin GROUP"; "G2"; "b"; "ROOT"; "/end GROUP"; "/end MODULE"; "/end PROJECT"; ""]%string.
Definition lostGroups : list item :=
  [Item 6 9 (Put_ "Groups" "groupName") (readOr lostToks parseGroup 6); Item 10 14 (Put_ "Groups" "groupName") (readOr lostToks parseGroup 10)].
(** The group of this name in the only module of a file. *)
Definition group (a : fields) (x : bytes) : option val :=
  match fget "Project" a with
  | Some (VObj p) => match flist "Modules" p with [VObj m] => match fget "Groups" m with Some (VMap g) => mget x g | _ => None end | _ => None end
  | _ => None
  end.

Lemma lost_tokens : forall gr cpus, 0 < cpus -> fileTokens gr cpus lostText (Some (TokModel.Tokens lostToks true)).
Proof.
  intros gr cpus CP. unfold fileTokens. replace (cleanBytesString gr lostText) with lostText by (vm_compute; reflexivity).
  apply (TokProps.C42_lines_guarded _ _ [lostText] [map TokModel.fields (firstn 17 lostToks)]); [lia|split; [reflexivity|split; [discriminate|repeat constructor; apply TokProps.no_byte; reflexivity]]| |].
  - constructor; [|constructor]. apply TokSpec.li_items. change (map TokModel.fields (firstn 17 lostToks)) with
      [[b "/begin"; b "PROJECT"]; [b "P"]; [b "L"]; [b "/begin"; b "MODULE"]; [b "M"]; [b "L"]; [b "/begin"; b "GROUP"]; [b "G1"]; [b "a"]; [b "/end"; b "GROUP"];
       [b "/begin"; b "GROUP"]; [b "G2"]; [b "b"]; [b "ROOT"]; [b "/end"; b "GROUP"]; [b "/end"; b "MODULE"]; [b "/end"; b "PROJECT"]].
    change (TokModel.fields lostText) with (map b ["/begin"; "PROJECT"; "P"; "L"; "/begin"; "MODULE"; "M"; "L"; "/begin"; "GROUP"; "G1"; "a"; "/end"; "GROUP";
       "/begin"; "GROUP"; "G2"; "b"; "ROOT"; "/end"; "GROUP"; "/end"; "MODULE"; "/end"; "PROJECT"]%string). cbn [map].
    repeat first [apply TokProps.items_pair; [first [left; reflexivity|right; reflexivity]|] | apply TokProps.items_plain; [apply TokProps.plain_dec; reflexivity|]]. constructor.
  - eexists. split; [reflexivity|]. split; [reflexivity|]. cbn [TokModel.tk_multithreading]. split; [intros _|reflexivity]. vm_compute. discriminate.
Qed.
Lemma lost_isModule : forall pf, isModule lostToks pf 3 lostGroups 15.
Proof.
  intros pf. split; [aWord|]. split; [aWord|]. unfold lostGroups.
  anObject "/begin GROUP"%string. anObject "/begin GROUP"%string. apply ContEnd. reflexivity.
Qed.
Lemma lost_only : forall i, tok lostToks i = b "/begin MODULE" -> i = 3.
Proof. intros i. do 18 (destruct i as [|i]; [intros H; first [reflexivity|discriminate H]|]). destruct i; discriminate. Qed.
Lemma lost_divisible : forall pf np i, tok lostToks i = b "/begin MODULE" -> divisible lostToks pf np i.
Proof.
  intros pf np i T. apply lost_only in T. subst i. exists lostGroups, 15. split; [apply lost_isModule|]. split; [|split].
  - intros p P. do 15 (destruct p as [|p]; [split; discriminate|]). lia.
  - intros p x q _ X F Q BG. assert (N : findKind (tok lostToks q) kinds = None).
    { destruct X as [<-|[<-|[]]]; cbn in F, Q.
      - assert (C : q = 7 \/ q = 8 \/ q = 9) by lia. destruct C as [->|[->| ->]]; vm_compute; reflexivity.
      - assert (C : q = 11 \/ q = 12 \/ q = 13 \/ q = 14) by lia. destruct C as [->|[->|[->| ->]]]; vm_compute; reflexivity. }
    apply findKind_none in N. exact (N BG).
  - unfold distinct. vm_compute. repeat constructor; cbn; intuition discriminate.
Qed.
Lemma lost_read : forall pf np a a' j, returns lostToks pf parseA2l 0 (VObj a) false j -> likeFile (lacksBorders lostToks pf np) a a' ->
  forall x it, In it lostGroups -> keyOf "groupName" (it_val it) = x ->
  (border np 5 15 (it_from it) -> group a' x = None) /\ (~ border np 5 15 (it_from it) -> group a' x = Some (it_val it)).
Proof.
  intros pf np a a' j R [_ LP] x it IT KX.
  assert (P : exists p m, fget "Project" a = Some (VObj p) /\ flist "Modules" p = [m]).
  { assert (R0 : exists a0 p m, returns lostToks pf parseA2l 0 (VObj a0) false 17 /\ fget "Project" a0 = Some (VObj p) /\ flist "Modules" p = [m]).
    { do 3 eexists. split; [apply (returns_run 50); vm_compute; reflexivity|]. split; vm_compute; reflexivity. }
    destruct R0 as (a0 & p & m & R0 & K). destruct (returns_fun _ _ _ _ _ _ _ _ _ _ R R0) as (E & _ & _). injection E as ->. eauto. }
  destruct P as (p & m & P & M). rewrite P in LP. unfold group. destruct (fget "Project" a') as [[| | | | | |p']|]; try contradiction. destruct LP as [_ F].
  rewrite M in F. inversion F as [|? w ? ws L F']; subst. inversion F'; subst.
  destruct L as (i & items & stop & o & o' & name & long & kept & T & IM & -> & -> & N & N' & HO & HO' & K).
  apply lost_only in T. subst i. destruct IM as (_ & _ & C). pose proof (lost_isModule pf) as (_ & _ & C0). destruct (content_fun _ _ _ _ _ C0 _ _ C) as [-> ->].
  assert (I : In ("/begin GROUP", (parseGroup, Put_ "Groups" "groupName"))%string kinds) by inKinds.
  destruct (HO' _ _ _ I) as (g & G & MM). rewrite G. 
  assert (IA : it_act it = Put_ "Groups" "groupName") by (destruct IT as [<-|[<-|[]]]; reflexivity).
  split.
  - intros B. destruct (mget (keyOf "groupName" (it_val it)) g) as [w|] eqn:E; [|reflexivity]. exfalso. apply MM in E. destruct E as [E1 E2]. apply in_map_iff in E1. destruct E1 as (y & E1 & Y).
    apply K in Y. destruct Y as [Y NB]. injection E1 as _ <-.
    assert (y = it) as ->; [|exact (NB B)]. destruct IT as [<-|[<-|[]]], Y as [<-|[<-|[]]]; try reflexivity; vm_compute in E2; discriminate.
  - intros B. apply MM. split; [|reflexivity]. apply in_map_iff. exists it. split; [rewrite IA; reflexivity|]. apply K. auto.
Qed.

(** Without an error, this file has the groups G1 and G2 on a computer with two
    CPUs, and only G1 on a computer with one CPU. *)
Theorem C65_refuted : exists content, forall gr pf,
    (exists r, parseFromFile gr pf 1 (Some content) r) /\ (exists r, parseFromFile gr pf 2 (Some content) r) /\
    (forall r, parseFromFile gr pf 1 (Some content) r -> exists a, r = Returned a false /\ group a (b "G1") <> None /\ group a (b "G2") = None) /\
    (forall r, parseFromFile gr pf 2 (Some content) r -> exists a, r = Returned a false /\ group a (b "G1") <> None /\ group a (b "G2") <> None).
Proof.
  exists lostText. intros gr pf. split; [apply C65_total; lia|]. split; [apply C65_total; lia|].
  assert (R0 : exists a0, returns lostToks pf parseA2l 0 (VObj a0) false 17) by (eexists; apply (returns_run 50); vm_compute; reflexivity). destruct R0 as (a0 & R0).
  assert (G1 : In (Item 6 9 (Put_ "Groups" "groupName") (readOr lostToks parseGroup 6)) lostGroups) by (left; reflexivity).
  assert (G2 : In (Item 10 14 (Put_ "Groups" "groupName") (readOr lostToks parseGroup 10)) lostGroups) by (right; left; reflexivity).
  split; intros r H.
  - destruct (C65_as_read gr pf 1 _ _ a0 17 r ltac:(lia) (lost_tokens gr 1 ltac:(lia)) eq_refl R0 (fun i => lost_divisible pf 2 i) H) as (a & -> & L). exists a. split; [reflexivity|]. split.
    + rewrite (proj2 (lost_read pf 2 a0 a 17 R0 L (b "G1") _ G1 eq_refl)); [discriminate|]. cbn [it_from]. intros (k & K & E). assert (k = 1) as -> by lia. discriminate.
    + apply (proj1 (lost_read pf 2 a0 a 17 R0 L (b "G2") _ G2 eq_refl)). exists 1. split; [lia|reflexivity].
  - destruct (C65_as_read gr pf 2 _ _ a0 17 r ltac:(lia) (lost_tokens gr 2 ltac:(lia)) eq_refl R0 (fun i => lost_divisible pf 4 i) H) as (a & -> & L). exists a. split; [reflexivity|].
    assert (NB : forall p, p = 6 \/ p = 10 -> ~ border 4 5 15 p) by (intros p C (k & K & E); change ((15 - 5) / 4) with 2 in E; lia).
    split.
    + rewrite (proj2 (lost_read pf 4 a0 a 17 R0 L (b "G1") _ G1 eq_refl)); [discriminate|]. apply NB. left. reflexivity.
    + rewrite (proj2 (lost_read pf 4 a0 a 17 R0 L (b "G2") _ G2 eq_refl)); [discriminate|]. apply NB. right. reflexivity.
Qed.
Print Assumptions C65_refuted.

(** With two CPUs the same file meets the hypotheses of C65_guarded. *)
Example C65_guarded_example : forall gr pf, exists t a j, fileTokens gr 2 lostText (Some t) /\ TokModel.tk_multithreading t = true /\
    returns (TokModel.tk_list t) pf parseA2l 0 (VObj a) false j /\
    (exists i, tok (TokModel.tk_list t) i = b "/begin MODULE") /\
    forall i, tok (TokModel.tk_list t) i = b "/begin MODULE" -> divisible (TokModel.tk_list t) pf (2 * 2) i /\ inside (TokModel.tk_list t) pf (2 * 2) i.
Proof.
  intros gr pf. do 3 eexists. split; [apply lost_tokens; lia|]. split; [reflexivity|]. cbn [TokModel.tk_list]. split; [apply (returns_run 50); vm_compute; reflexivity|].
  split; [exists 3; reflexivity|]. intros i T. split; [apply lost_divisible; exact T|]. apply lost_only in T. subst i. intros items stop x (_ & _ & C) X (k & K & E).
  pose proof (lost_isModule pf) as (_ & _ & C0). destruct (content_fun _ _ _ _ _ C0 _ _ C) as [-> ->]. change ((15 - (3 + 2)) / (2 * 2)) with 2 in E.
  destruct X as [<-|[<-|[]]]; cbn [it_from] in E; lia.
Qed.
Example C65_tokens_example : (32 <= N_of_ascii "h" <= 126)%N /\ TokSpec.text_of [b "hello"; b "world"] (b "hello" ++ [ascii_of_N 10] ++ b "world")
  /\ Forall2 TokSpec.line_items (map TokModel.fields [b "hello"; b "world"]) [[[b "hello"]]; [[b "world"]]].
Proof.
  split; [vm_compute; split; discriminate|]. split; [split; [reflexivity|split; [discriminate|repeat constructor; apply TokProps.no_byte; reflexivity]]|].
  constructor; [|constructor; [|constructor]]; apply TokSpec.li_items; (apply TokProps.items_plain; [apply TokProps.plain_dec; reflexivity|constructor]).
Qed.
