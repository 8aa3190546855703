(** Theorems of property C93: what is parsed fits the struct declarations. *)
From Coq Require Import String Ascii List Arith NArith ZArith Bool Lia SpecFloat.
From Verif Require Import GoBase GoBaseFacts A2lIR A2lTokens A2lParsers A2lThm A2lSpec A2lProps FanModel A2lModModel A2lModSpec A2lModStore A2lModSeq A2lModPar A2lFileModel OriginSpec OriginThm GoTypes A2lStructs A2lTypeThm.
From Verif Require TokModel A2lNestProps OriginProps A2lModProps.
Import ListNotations.
Local Open Scope string_scope.
Local Open Scope list_scope.

(** ** Parsers *)

(** Every parser, with or without an error, for any tokens: what it returns is a value of
    its result type.  In particular every number is in the range of the field that it is
    stored in, so that the conversions uint16(buf), int16(buf), uint32(buf), int32(buf) of
    the source change nothing. *)
Theorem C93_parser : forall name g toks pf i v e j, In (name, g) allParsers -> returns toks pf g i v e j ->
    exists t, declared name results = Some t /\ conforms t v.
Proof.
  intros name g toks pf i v e j I [n R]. pose proof (proj1 (forallb_forall _ _) all_typed _ I) as C. unfold typed in C. cbn [fst snd] in C.
  destruct (declared name results) as [t|]; [|discriminate]. exists t. split; [reflexivity|].
  exact (proj2 (proj2 (proj2 (types toks pf n))) g t C i v e j (R n (le_n n))).
Qed.
Print Assumptions C93_parser.

(** ** Modules *)

Section Module.
  Variable toks : list bytes.
  Variable pf : bytes -> option spec_float.

  Definition moduleFields : list (string * gty) := match type_Module with GStruct fs => fs | _ => [] end.
  Definition isModule (o : fields) : Prop := conforms type_Module (VObj o).

  (** What a collector stores has the type of the field. *)
  Definition storeOk (p : row) : bool :=
    match actOf (r_chan p) with
    | Some (Keep f) => match declared f moduleFields with Some t => tyf t (r_parse p) | None => false end
    | Some (Put_ f _) => match declared f moduleFields with Some (GMap t) => tyf t (r_parse p) | _ => false end
    | None => false
    end.
  Lemma stores_ok : forallb storeOk rows = true.
  Proof. vm_compute. reflexivity. Qed.

  Lemma is_set : forall o f t v, isModule o -> declared f moduleFields = Some t -> conforms t v -> isModule (fset f v o).
  Proof. intros o f t v H D C. exact (struct_set moduleFields (St o [] false 0) f t v H D C). Qed.
  Lemma is_get : forall o f v, isModule o -> fget f o = Some v -> exists t, declared f moduleFields = Some t /\ conforms t v.
  Proof. intros o f v H. exact (field_of moduleFields (St o [] false 0) f v H). Qed.

  Lemma is_absorb : forall r a o v i e j, In r rows -> actOf (r_chan r) = Some a -> returns toks pf (r_parse r) i v e j -> isModule o -> isModule (absorb a o v).
  Proof.
    intros r a o v i e j I A [n R] H. pose proof (proj1 (forallb_forall _ _) stores_ok _ I) as C. unfold storeOk in C. rewrite A in C.
    assert (T : forall t, tyf t (r_parse r) = true -> conforms t v) by (intros t Q; exact (proj2 (proj2 (proj2 (types toks pf n))) _ t Q i v e j (R n (le_n n)))).
    destruct a as [f|f k]; cbn [absorb].
    - destruct (declared f moduleFields) as [t|] eqn:D; [|discriminate]. eapply is_set; [exact H|exact D|]. apply T, C.
    - destruct (declared f moduleFields) as [[]|] eqn:D; try discriminate. destruct (fget f o) as [[]|] eqn:F; try exact H.
      eapply is_set; [exact H|exact D|]. destruct (is_get _ _ _ H F) as (u & E & K). rewrite D in E. injection E as <-.
      inversion K as [| | | | | | |? ? K1 K2|]; subst. constructor; [apply mput_once, K1|]. intros k0 w W. apply in_mput in W.
      destruct W as [W|W]; [injection W as -> ->; apply T, C|eapply K2; exact W].
  Qed.
  Lemma is_store : forall l o, (forall a v, In (a, v) l -> exists r i e j, In r rows /\ actOf (r_chan r) = Some a /\ returns toks pf (r_parse r) i v e j) ->
    isModule o -> isModule (store l o).
  Proof.
    induction l as [|[a v] l IH]; intros o H S1; [exact S1|]. cbn [store fold_left fst snd]. apply IH.
    - intros a' v' I. apply H. right. exact I.
    - destruct (H a v (or_introl eq_refl)) as (r & i & e & j & I & A & R). eapply is_absorb; eassumption.
  Qed.
  Lemma is_empty : isModule emptyModule.
  Proof.
    constructor. intros f v F. unfold emptyModule in F. cbn [map fget] in F.
    repeat match type of F with context [String.eqb f ?g] => destruct (String.eqb_spec f g); [subst f; injection F as <-; eexists; split; [reflexivity|]; constructor; [constructor|intros k w []]|] end.
    discriminate.
  Qed.
  Lemma is_header : forall i o e j, header toks i = (o, e, j) -> isModule o.
  Proof.
    intros i o e j H. unfold header in H. pose proof is_empty as SE. revert SE H. generalize emptyModule. intros em SE H.
    destruct (beqb (current toks (next toks i)) []); [injection H as <- _ _; exact SE|].
    destruct (beqb (current toks (next toks (next toks i))) []); injection H as <- _ _;
      repeat (eapply is_set; [|reflexivity|constructor]); exact SE.
  Qed.

  Lemma module_typed : forall np mt i v e j, ended toks -> parsesModule toks pf np mt i v e j -> conforms type_Module v.
  Proof.
    intros np mt i v e j EN H. unfold parsesModule in H. destruct mt.
    - destruct H as [o e start HD _|o e start stop outs s HD _ _ F2 ST _]; [exact (is_header _ _ _ _ HD)|].
      rewrite collected_store. apply is_store; [|exact (is_header _ _ _ _ HD)].
      intros a w I. unfold gathered in I. apply in_flat_map in I. destruct I as (p & P & I). apply in_map_iff in I. destruct I as (w' & E & I). injection E as <- ->.
      set (P1 := fun (c : string) (v : val) => c = errChan \/ exists r k j, In r rows /\ r_chan r = c /\ nth k toks [] = b (r_tok r) /\ returns toks pf (r_parse r) k v false j).
      assert (G : P1 (fst p) w).
      { apply (OriginProps.fan_source (capOf np) P1 _ _ ST); [|exact I]. cbn [finit f_work f_buf f_got]. split; [|split; intros c v' []].
        intros l c v' IL IV. clear - EN F2 IL IV. induction F2 as [|k out ks outs L F2 IH]; [destruct IL|]. destruct IL as [->|IL]; [|exact (IH IL)].
        exact (OriginProps.loop_source toks pf _ _ _ EN L c v' IV). }
      destruct G as [G|(r & k & j & IR & EC & T & R)]; [destruct OriginProps.errChan_none; rewrite <- G; apply in_map; exact P|].
      exists r, k, false, j. split; [exact IR|]. split; [|exact R]. rewrite EC. apply OriginProps.actOf_in, P.
    - destruct (C93_parser "parseModule" parseModule toks pf i v e j) as (t & D & C); [apply (nth_error_In allParsers 206); reflexivity|exact H|].
      assert (E : declared "parseModule" results = Some type_Module) by reflexivity. rewrite E in D. injection D as <-. exact C.
  Qed.
End Module.

(** A module, parsed with or without several goroutines (in any order). *)
Theorem C93_module : forall toks pf np mt i v e j, ended toks -> parsesModule toks pf np mt i v e j -> conforms type_Module v.
Proof. exact module_typed. Qed.
Print Assumptions C93_module.

(** ** Files *)

Definition projectFields : list (string * gty) := match type_Project with GStruct fs => fs | _ => [] end.
Definition fileFields : list (string * gty) := match type_A2L with GStruct fs => fs | _ => [] end.
Lemma set_typed : forall fs o f t v, conforms (GStruct fs) (VObj o) -> declared f fs = Some t -> conforms t v -> conforms (GStruct fs) (VObj (fset f v o)).
Proof. intros fs o f t v H D C. exact (struct_set fs (St o [] false 0) f t v H D C). Qed.
Lemma parser_typed : forall name g t toks pf i v e j, In (name, g) allParsers -> declared name results = Some t -> returns toks pf g i v e j -> conforms t v.
Proof. intros name g t toks pf i v e j I D R. destruct (C93_parser _ _ _ _ _ _ _ _ I R) as (u & E & C). congruence. Qed.

Lemma project_typed : forall toks pf np mt p i p' e j, ended toks -> project toks pf (parsesModule toks pf np mt) p i p' e j ->
    conforms type_Project (VObj p) -> conforms type_Project (VObj p').
Proof.
  intros toks pf np mt p i p' e j EN H.
  assert (HD : In ("parseHeader", parseHeader) allParsers) by (apply (nth_error_In allParsers 21); reflexivity).
  assert (HT : forall i v e j, returns toks pf parseHeader i v e j -> conforms type_header v) by (intros; eapply parser_typed; [exact HD|reflexivity|eassumption]).
  change type_Project with (GStruct projectFields).
  induction H as [p i v j p' e k T R _ IH|p i v j T R|p i v j p' e k T R _ IH|p i v j T R|p i q p' e k N1 N2 O _ IH|p i e N1 N2 O]; intros S1.
  - apply IH. eapply set_typed; [exact S1|reflexivity|]. exact (HT _ _ _ _ R).
  - eapply set_typed; [exact S1|reflexivity|]. exact (HT _ _ _ _ R).
  - apply IH. eapply set_typed; [exact S1|reflexivity|]. constructor. intros w I. apply in_app_or in I. destruct I as [I|[<-|[]]].
    + exact (slice_of projectFields (St p [] false 0) "Modules" type_Module S1 eq_refl w I).
    + exact (module_typed _ _ _ _ _ _ _ _ EN R).
  - exact S1.
  - apply IH. unfold projectOther in O. repeat match type of O with (if ?c then _ else _) = _ => destruct c; try discriminate end; injection O as <-; auto;
      repeat (eapply set_typed; [|reflexivity|constructor]); exact S1.
  - exact S1.
Qed.
Lemma a2l_typed : forall toks pf np mt a i a' e j, ended toks -> a2l toks pf (parsesModule toks pf np mt) a i a' e j ->
    conforms type_A2L (VObj a) -> conforms type_A2L (VObj a').
Proof.
  intros toks pf np mt a i a' e j EN H. change type_A2L with (GStruct fileFields).
  assert (PT : forall t i f v e j a, part toks pf (parsesModule toks pf np mt) t i f v e j -> conforms (GStruct fileFields) (VObj a) -> conforms (GStruct fileFields) (VObj (fset f v a))).
  { clear - EN. intros t i f v e j a P S0. destruct P as [i v e j R|i v e j R|i p e j R]; (eapply set_typed; [exact S0|reflexivity|]).
    - apply (parser_typed "parseASAP2Version" parseASAP2Version type_asap2Version toks pf i v e j); [apply (nth_error_In allParsers 18); reflexivity|reflexivity|exact R].
    - apply (parser_typed "parseA2MLVersion" parseA2MLVersion type_a2mlVersion toks pf i v e j); [apply (nth_error_In allParsers 17); reflexivity|reflexivity|exact R].
    - refine (project_typed _ _ _ _ _ _ _ _ _ EN R _). constructor; intros g w G; discriminate. }
  induction H as [a i f v j a' e k P _ IH|a i f v j P|a i q a' e k N O _ IH|a i e N O]; intros S1.
  - apply IH. exact (PT _ _ _ _ _ _ _ P S1).
  - exact (PT _ _ _ _ _ _ _ P S1).
  - apply IH. unfold a2lOther in O. repeat match type of O with (if ?c then _ else _) = _ => destruct c; try discriminate end. injection O as <-. exact S1.
  - exact S1.
Qed.

(** Any file, any outcome: the tree is a value of type A2L. *)
Theorem C93_file : forall gr pf cpus file a e, parseFromFile gr pf cpus file (Returned a e) -> conforms type_A2L (VObj a).
Proof.
  intros gr pf cpus file a e H. inversion H as [| |content t a' e' j T A]; subst.
  - constructor. intros f v F. discriminate.
  - destruct (A2lNestProps.C68_tokens _ _ _ T) as (t' & ET & (l & EL & _)). injection ET as <-.
    assert (EN : ended (TokModel.tk_list t)) by (exists l; exact EL). apply (a2l_typed _ _ _ _ _ _ _ _ _ EN A). constructor. intros f v F. discriminate.
Qed.
Print Assumptions C93_file.

(** ** Examples *)

Example typed_refresh : forall pf, let toks := map b ["MAX_REFRESH"; "65535"; "4294967295"; ""] in
  exists o j, returns toks pf parseMaxRefresh 0 (VObj o) false j /\ conforms type_MaxRefresh (VObj o) /\ fget "scalingUnit" o = Some (VInt 65535) /\ fget "rate" o = Some (VInt 4294967295).
Proof.
  intros pf toks. assert (R : exists o j, returns toks pf parseMaxRefresh 0 (VObj o) false j /\ fget "scalingUnit" o = Some (VInt 65535) /\ fget "rate" o = Some (VInt 4294967295)).
  { eexists. eexists. split; [apply (A2lModProps.returns_run 50); vm_compute; reflexivity|]. split; reflexivity. }
  destruct R as (o & j & R & E1 & E2). exists o, j. split; [exact R|]. split; [|split; assumption].
  apply (parser_typed "parseMaxRefresh" parseMaxRefresh type_MaxRefresh toks pf 0 (VObj o) false j); [apply (nth_error_In allParsers 44); reflexivity|reflexivity|exact R].
Qed.
(** A number out of range, a name that is not declared and a text in a number field do not fit. *)
Example untyped_values : ~ conforms type_MaxRefresh (VObj [("scalingUnit", VInt 65536)]) /\ ~ conforms type_MaxRefresh (VObj [("scale", VInt 1)])
  /\ ~ conforms type_MaxRefresh (VObj [("rate", VStr (b "1"))]).
Proof.
  assert (K : forall f v, conforms type_MaxRefresh (VObj [(f, v)]) -> exists t, declared f (match type_MaxRefresh with GStruct fs => fs | _ => [] end) = Some t /\ conforms t v).
  { intros f v H. inversion H as [| | | | | | | |? ? K]; subst. apply K. cbn [fget]. rewrite String.eqb_refl. reflexivity. }
  repeat split; intros H; apply K in H; destruct H as (t & D & C); cbn in D; try discriminate; injection D as <-; inversion C; subst. cbn in *. lia.
Qed.
