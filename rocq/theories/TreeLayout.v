(** Record layouts as written in an A2L file (C78) and the values they describe (C79). *)
From Coq Require Import String Ascii List Arith NArith ZArith Bool Lia SpecFloat.
From Verif Require Import GoBase GoBaseFacts A2lModStore A2lIR A2lSpec A2lParsers A2lFileThm A2lGrammar A2lForms A2lTripSpec A2lFormProps A2lProps.
From Verif Require Import LookModel TreeModel TreeSpec TreeThm TreeLook TreeConv A2lLayoutSpec TreeLayoutSpec.
From Verif Require Import A2lDescribe A2lTextProps A2lFileModel A2lFileSpec A2lFileProps A2lTripThm A2lTripProps.
From Verif Require A2lModSpec ValuesModel ValuesSpec ValuesThm ValuesProps HexSpec A2lLayoutModel A2lLayoutProps MemModel MemSpec MemProps.
Import ListNotations.

(** ** Parameters of an object *)

Lemma first_field : forall f g ty ps v vs o, f <> g -> forallb (spares f) ps = true ->
    fget f (stores true (P f g ty :: ps) (v :: vs) o) = Some v.
Proof.
  intros f g ty ps v vs o N SP. unfold stores. cbn [combine fold_left]. fold (stores true ps vs (store true o (P f g ty, v))). rewrite stores_other by exact SP.
  unfold store. cbn. rewrite !fget_fset. destruct (String.eqb_spec f g); [contradiction|]. rewrite String.eqb_refl. reflexivity.
Qed.
Lemma first_flag : forall f g ty ps v vs o, forallb (spares g) ps = true ->
    fget g (stores true (P f g ty :: ps) (v :: vs) o) = Some (VBool true).
Proof.
  intros f g ty ps v vs o SP. unfold stores. cbn [combine fold_left]. fold (stores true ps vs (store true o (P f g ty, v))). rewrite stores_other by exact SP.
  unfold store. cbn. rewrite fget_fset, String.eqb_refl. reflexivity.
Qed.
Lemma next_field : forall p ps v vs o, stores true (p :: ps) (v :: vs) o = stores true ps vs (store true o (p, v)).
Proof. reflexivity. Qed.

(** ** Components *)

Definition posField (c : string) : string := if hidden c then "position" else "Position".
Definition posFlag (c : string) : string := if hidden c then "positionSet" else "PositionSet".
Definition typeField (c : string) : string := if hidden c then "datatype" else "Datatype".
Definition typeFlag (c : string) : string := if hidden c then "datatypeSet" else "DatatypeSet".

(** the form of component [c] *)
Definition compForm (c : string) (f : form) : Prop :=
  exists p2 f2 g2 ts2 ps, f = Fixed (P (posField c) (posFlag c) (Number (NUint 16)) :: p2 :: ps) [] /\ p2 = P f2 g2 (Choice ts2) /\
    forallb (spares (posField c)) (p2 :: ps) = true /\ forallb (spares (posFlag c)) (p2 :: ps) = true /\
    (c = "Reserved"%string \/
     f2 = typeField c /\ g2 = typeFlag c /\ forallb (spares (typeField c)) ps = true /\ forallb (spares (typeFlag c)) ps = true).

Lemma components_words : forall c, In c components -> exists kw, In (kw, c) componentWords.
Proof.
  intros c I. assert (E : incl components (map snd componentWords)) by (apply A2lLayoutProps.within_ok; vm_compute; reflexivity).
  apply E in I. apply in_map_iff in I. destruct I as ([kw c'] & <- & I). exists kw. exact I.
Qed.
Lemma words_components : forall kw c, In (kw, c) componentWords -> In c components.
Proof.
  intros kw c I. assert (E : incl (map snd componentWords) components) by (apply A2lLayoutProps.within_ok; vm_compute; reflexivity).
  apply E. apply (in_map snd) in I. exact I.
Qed.
Lemma words_one : forall kw kw' c, In (kw, c) componentWords -> In (kw', c) componentWords -> kw = kw'.
Proof.
  assert (ND : NoDup (map snd componentWords)) by (apply A2lLayoutProps.distinctb_ok; vm_compute; reflexivity).
  revert ND. generalize componentWords. induction l as [|[k d] l IH]; intros ND kw kw' c I I'; [destruct I|].
  cbn [map snd] in ND. inversion ND as [|? ? N1 N2]; subst.
  destruct I as [E|I]; destruct I' as [E'|I']; [congruence| | |eapply IH; eauto].
  - exfalso. apply N1. injection E as <- <-. apply (in_map snd) in I'. exact I'.
  - exfalso. apply N1. injection E' as <- <-. apply (in_map snd) in I. exact I.
Qed.

Notation rlItems := (itemsOf recordLayoutRead).
Definition rlParams : list param := match recordLayoutRead with Block _ ps _ _ _ _ => ps | _ => [] end.
Definition placedIn (kc : string * string) : Prop :=
  let '(kw, c) := kc in
  if String.eqb c "NoRescaleX" then ~ In kw (kws rlItems) /\ forallb (fun i => match i with Item _ f' _ _ => negb (String.eqb c f') end) rlItems = true
  else owns rlItems c kw = true /\ slot rlItems kw = Some (c, Single) /\ exists f, In (Item kw c Single f) rlItems /\ compForm c f.
Lemma item_unique : forall its, NoDup (kws its) -> forall kw f p sub f' p' sub', In (Item kw f p sub) its -> In (Item kw f' p' sub') its -> sub = sub'.
Proof.
  induction its as [|[k1 f1 p1 s1] its IH]; intros ND kw f p sub f' p' sub' I1 I2; [destruct I1|]. cbn [kws map] in ND. inversion ND as [|? ? N1 N2]; subst.
  assert (NI : forall k f0 p0 s0, In (Item k f0 p0 s0) its -> In k (kws its)) by (intros; apply in_map_iff; eexists; split; [|eassumption]; reflexivity).
  destruct I1 as [I1|I1], I2 as [I2|I2]; [congruence| | |eapply IH; eauto].
  - exfalso. apply N1. injection I1; intros; subst. eapply NI; eauto.
  - exfalso. apply N1. injection I2; intros; subst. eapply NI; eauto.
Qed.
Lemma item_found : forall its kw c f, find (fun i => match i with Item kw' _ _ _ => String.eqb kw kw' end) its = Some (Item kw c Single f) -> In (Item kw c Single f) its.
Proof. intros its kw c f F. apply find_some in F. apply F. Qed.
Lemma words_placed : forall kc, In kc componentWords -> placedIn kc.
Proof.
  apply Forall_forall. cbv [componentWords axisWords axes flat_map map app fst snd].
  cbv [String.append].
  repeat (apply Forall_cons; [|]); [..|apply Forall_nil]; unfold placedIn;
  match goal with |- (if String.eqb ?c _ then _ else _) => let r := eval vm_compute in (String.eqb c "NoRescaleX") in change (String.eqb c "NoRescaleX") with r; cbv iota end;
  try (split; [vm_compute; reflexivity|split; [vm_compute; reflexivity|eexists; split;
      [apply item_found; vm_compute; reflexivity
      |do 5 eexists; split; [reflexivity|]; split; [reflexivity|]; split; [reflexivity|]; split; [reflexivity|]; first [left; reflexivity|right; repeat split; reflexivity]]]]).
  split; [|vm_compute; reflexivity]. intro I. assert (X : existsb (String.eqb "NO_RESCALE_X") (kws rlItems) = true) by (apply existsb_exists; eexists; split; [exact I|reflexivity]).
  vm_compute in X. discriminate.
Qed.

Lemma layout_entries : forall pf ts v l, den pf recordLayoutRead ts v -> layoutHas pf ts l ->
    exists name, v = VObj (addEntries rlItems l (stores true rlParams [VStr name] [])) /\ hd [] ts = name.
Proof.
  intros pf ts v l D H.
  destruct (block_entries "parseRecordLayout" parseRecordLayout pf [] rlParams rlItems "/end RECORD_LAYOUT" [] ts v) as (ws & vs & c & E & W & _ & U);
    [listed|listed|nodup|exact D|]. destruct H as (name & c' & E' & X). rewrite E in E'. clear D.
  inversion W as [|? ? t1 ? v1 ? S1 W1]; subst. inversion W1; subst. cbn [app] in E'. injection E' as -> E'. destruct (ends_with _ _ _ _ _ E') as [-> _].
  destruct S1 as (_ & _ & ->). exists name. split; [apply (U l X)|reflexivity].
Qed.
Lemma layout_has : forall pf ts v, den pf recordLayoutRead ts v -> exists l, layoutHas pf ts l.
Proof.
  intros pf ts v D.
  destruct (block_entries "parseRecordLayout" parseRecordLayout pf [] rlParams rlItems "/end RECORD_LAYOUT" [] ts v) as (ws & vs & c & E & W & (l & X) & _);
    [listed|listed|nodup|exact D|]. inversion W as [|? ? t1 ? v1 ? S1 W1]; subst. inversion W1; subst. exists l, t1, c. split; [reflexivity|exact X].
Qed.

(** the components as the words describe them *)
Lemma comp_value : forall pf c f ts v, compForm c f -> den pf f ts v -> exists o t u r z, v = VObj o /\ ts = t :: u :: r /\ ParseUint 16 t = Some z /\
    fget (posField c) o = Some (VInt z) /\ fget (posFlag c) o = Some (VBool true) /\
    (c <> "Reserved"%string -> fget (typeField c) o = Some (VStr u) /\ fget (typeFlag c) o = Some (VBool true)).
Proof.
  intros pf c f ts v (p2 & f2 & g2 & ts2 & ps & -> & -> & S1 & S2 & R) D. inversion D as [|? ? ? vs W EQ| |]; subst.
  inversion W as [|? ? t ts' x vs' ST W']; subst. inversion W' as [|? ? u r y vs'' SU W'']; subst.
  destruct ST as (_ & _ & RN). cbn [readNum p_type] in RN. destruct (ParseUint 16 t) as [z|] eqn:PU; [|discriminate]. injection RN as <-.
  destruct SU as (_ & _ & ->). cbn [consts fold_left]. eexists. exists t, u, r, z. split; [reflexivity|]. split; [reflexivity|]. split; [exact PU|].
  split; [apply first_field; [unfold posField, posFlag; destruct (hidden c); discriminate|exact S1]|]. split; [apply first_flag; exact S2|].
  intros N. destruct R as [R|(-> & -> & T1 & T2)]; [contradiction|]. rewrite next_field.
  split; [apply first_field; [unfold typeField, typeFlag; destruct (hidden c); discriminate|exact T1]|apply first_flag; exact T2].
Qed.

Section Layout.
  Variable pf : bytes -> option spec_float.
  Variable ts : list bytes.
  Variable rl : fields.
  Variable l : list entry.
  Hypothesis D : den pf recordLayoutRead ts (VObj rl).
  Hypothesis H : layoutHas pf ts l.

  Lemma no_component : forall kw c, In (kw, c) componentWords -> lastVal (fun e => String.eqb (e_kw e) kw) l = None -> fget c rl = None.
  Proof.
    intros kw c I L. destruct (layout_entries _ _ _ _ D H) as (name & E & _). injection E as ->. pose proof (words_placed _ I) as Q. unfold placedIn in Q.
    assert (Z : fget c (stores true rlParams [VStr name] []) = None).
    { rewrite stores_other; [reflexivity|]. revert kw c I L Q. clear. intros kw c I _ _.
      assert (F : forallb (fun kc => forallb (spares (snd kc)) rlParams) componentWords = true) by (vm_compute; reflexivity).
      rewrite forallb_forall in F. exact (F _ I). }
    destruct (String.eqb c "NoRescaleX").
    - destruct Q as [_ Q]. rewrite (unowned _ _ Q). exact Z.
    - destruct Q as (OW & SL & _). rewrite (single_entries _ _ _ OW SL), L. exact Z.
  Qed.
  Lemma some_component : forall kw c e, In (kw, c) componentWords -> lastVal (fun e => String.eqb (e_kw e) kw) l = Some e ->
      fget c rl = Some (e_val e) /\ exists f, compForm c f /\ den pf f (e_words e) (e_val e).
  Proof.
    intros kw c e I L. pose proof (proj1 (lastVal_such (isKw kw) _ l e (fun x _ => String.eqb_eq _ _)) L) as LS. destruct (lastSuch_in _ _ _ LS) as [IE KE].
    destruct (layout_entries _ _ _ _ D H) as (name & E & _). injection E as ->. pose proof (words_placed _ I) as Q. unfold placedIn in Q.
    destruct H as (nm & c0 & _ & EN). destruct (entries_in _ _ _ _ _ _ EN IE) as (f' & p & sub & II & DE). unfold isKw in KE. rewrite KE in II.
    destruct (String.eqb c "NoRescaleX").
    - destruct Q as [Q _]. exfalso. apply Q. apply in_map_iff. eexists. split; [|exact II]. reflexivity.
    - destruct Q as (OW & SL & f & IF & CF). split; [rewrite (single_entries _ _ _ OW SL), L; reflexivity|]. exists f. split; [exact CF|].
      assert (ND : NoDup (kws rlItems)) by nodup. rewrite (item_unique _ ND _ _ _ _ _ _ _ IF II). exact DE.
  Qed.

  Lemma placed_iff : forall c p, In c components -> (placed rl c p <-> writtenAt l c p).
  Proof.
    intros c p IC. destruct (components_words _ IC) as (kw & I).
    assert (PL : placed rl c p <-> member rl c (posFlag c) = Some (VBool true) /\ number rl c (posField c) = p).
    { unfold placed, flag, posFlag, posField. destruct (hidden c); reflexivity. }
    rewrite PL. clear PL. unfold number, member. destruct (lastVal (fun e => String.eqb (e_kw e) kw) l) as [e|] eqn:L.
    - destruct (some_component _ _ _ I L) as (FC & f & CF & DE). destruct (comp_value _ _ _ _ _ CF DE) as (o & t & u & r & z & EV & EW & PU & F1 & F2 & _).
      rewrite FC, EV, F1, F2. pose proof (proj1 (lastVal_such (isKw kw) _ l e (fun x _ => String.eqb_eq _ _)) L) as LS. split.
      + intros [_ <-]. exists kw, e. split; [exact I|]. split; [exact LS|]. rewrite EW. exact PU.
      + intros (kw' & e' & I' & LS' & PU'). split; [reflexivity|]. rewrite (words_one _ _ _ I' I) in LS'.
        apply (lastVal_such (isKw kw) _ l e' (fun x _ => String.eqb_eq _ _)) in LS'. rewrite L in LS'. injection LS' as <-. rewrite EW in PU'. cbn [hd] in PU'. congruence.
    - rewrite (no_component _ _ I L). split; [intros [? _]; discriminate|]. intros (kw' & e' & I' & LS' & _). rewrite (words_one _ _ _ I' I) in LS'.
      apply (lastVal_such (isKw kw) _ l e' (fun x _ => String.eqb_eq _ _)) in LS'. congruence.
  Qed.
  Lemma typed_iff : forall c d, In c components -> c <> "Reserved"%string -> (typed rl c d <-> writtenType l c d).
  Proof.
    intros c d IC NR. destruct (components_words _ IC) as (kw & I).
    assert (PL : typed rl c d <-> member rl c (typeFlag c) = Some (VBool true) /\ text rl c (typeField c) = d).
    { unfold typed, flag, typeFlag, typeField. destruct (hidden c); reflexivity. }
    rewrite PL. clear PL. unfold text, member. destruct (lastVal (fun e => String.eqb (e_kw e) kw) l) as [e|] eqn:L.
    - destruct (some_component _ _ _ I L) as (FC & f & CF & DE). destruct (comp_value _ _ _ _ _ CF DE) as (o & t & u & r & z & EV & EW & _ & _ & _ & TY).
      destruct (TY NR) as [F1 F2]. rewrite FC, EV, F1, F2. pose proof (proj1 (lastVal_such (isKw kw) _ l e (fun x _ => String.eqb_eq _ _)) L) as LS. split.
      + intros [_ <-]. exists kw, e, t, r. auto.
      + intros (kw' & e' & t' & r' & I' & LS' & EW'). split; [reflexivity|]. rewrite (words_one _ _ _ I' I) in LS'.
        apply (lastVal_such (isKw kw) _ l e' (fun x _ => String.eqb_eq _ _)) in LS'. rewrite L in LS'. injection LS' as <-. congruence.
    - rewrite (no_component _ _ I L). split; [intros [? _]; discriminate|]. intros (kw' & e' & t' & r' & I' & LS' & _). rewrite (words_one _ _ _ I' I) in LS'.
      apply (lastVal_such (isKw kw) _ l e' (fun x _ => String.eqb_eq _ _)) in LS'. congruence.
  Qed.
  Lemma writtenAt_component : forall c p, writtenAt l c p -> In c components.
  Proof. intros c p (kw & e & I & _). eapply words_components; eauto. Qed.
  Lemma writtenType_component : forall c d, writtenType l c d -> In c components.
  Proof. intros c d (kw & e & t & r & I & _). eapply words_components; eauto. Qed.
End Layout.

(** ** C78 *)

(** The position map of a record layout is the one that stands in the file. *)
Theorem C78_positions : forall pf ts rl l, den pf recordLayoutRead ts (VObj rl) -> layoutHas pf ts l ->
    (forall c d p, writtenAt l c p -> writtenAt l d p -> c = d) ->
    exists m, A2lLayoutModel.GetRecordLayoutRelativePositions rl = (m, false) /\ forall p c, A2lLayoutModel.pget p m = Some c <-> writtenAt l c p.
Proof.
  intros pf ts rl l D H U. destruct (A2lLayoutProps.C49_positions rl) as (m & E & M).
  - intros c d p IC ID PC PD. apply (U c d p); eapply placed_iff; eauto.
  - exists m. split; [exact E|]. intros p c. rewrite M. split.
    + intros [IC P]. eapply placed_iff; eauto.
    + intros W. pose proof (writtenAt_component _ _ _ W) as IC. split; [exact IC|]. eapply placed_iff; eauto.
Qed.
Print Assumptions C78_positions.

(** An error tells that two components were written with the same position. *)
Theorem C78_error : forall pf ts rl l, den pf recordLayoutRead ts (VObj rl) -> layoutHas pf ts l ->
    (snd (A2lLayoutModel.GetRecordLayoutRelativePositions rl) = true <-> exists c d p, c <> d /\ writtenAt l c p /\ writtenAt l d p).
Proof.
  intros pf ts rl l D H. rewrite A2lLayoutProps.C49_error. split.
  - intros (c & d & p & IC & ID & N & PC & PD). exists c, d, p. split; [exact N|]. split; eapply placed_iff; eauto.
  - intros (c & d & p & N & WC & WD). pose proof (writtenAt_component _ _ _ WC) as IC. pose proof (writtenAt_component _ _ _ WD) as ID.
    exists c, d, p. split; [exact IC|]. split; [exact ID|]. split; [exact N|]. split; eapply placed_iff; eauto.
Qed.
Print Assumptions C78_error.

(** The data type of a component is the second word after its keyword. *)
Theorem C78_datatype : forall pf ts rl l c d, den pf recordLayoutRead ts (VObj rl) -> layoutHas pf ts l ->
    (A2lLayoutModel.GetDatatypeByFieldName rl c = Some d <-> c <> "Reserved"%string /\ writtenType l c d).
Proof.
  intros pf ts rl l c d D H. rewrite A2lLayoutProps.C50_datatype. split.
  - intros (IC & N & T). split; [exact N|]. eapply typed_iff; eauto.
  - intros (N & W). pose proof (writtenType_component _ _ _ W) as IC. split; [exact IC|]. split; [exact N|]. eapply typed_iff; eauto.
Qed.
Print Assumptions C78_datatype.

(** ** Alignments and byte order *)

Import ValuesModel ValuesSpec ValuesProps MemModel MemSpec.

Definition borderForm : form := Fixed [P "AlignmentBorder" "AlignmentBorderSet" (Number (NUint 16))] [].
Definition alignField (kw : string) : string :=
  if String.eqb kw "ALIGNMENT_BYTE" then "AlignmentByte" else if String.eqb kw "ALIGNMENT_WORD" then "AlignmentWord"
  else if String.eqb kw "ALIGNMENT_LONG" then "AlignmentLong" else if String.eqb kw "ALIGNMENT_INT64" then "AlignmentInt64"
  else if String.eqb kw "ALIGNMENT_FLOAT16_IEEE" then "AlignmentFloat16Ieee" else if String.eqb kw "ALIGNMENT_FLOAT32_IEEE" then "AlignmentFloat32Ieee"
  else "AlignmentFloat64Ieee".

Lemma border_value : forall pf t z v, den pf borderForm [t] v -> ParseUint 16 t = Some z ->
    fint "AlignmentBorder" (objOf v) = z /\ fbool "AlignmentBorderSet" (objOf v) = true.
Proof.
  intros pf t z v D PU. inversion D as [|? ? ? vs W| |]; subst. row W. destruct S as (_ & _ & RN). cbn [readNum p_type P] in RN. rewrite PU in RN. injection RN as <-. split; reflexivity.
Qed.
Lemma part_obj : forall f o v, fget f o = Some v -> A2lLayoutModel.part f o = objOf v.
Proof. intros f o v E. unfold A2lLayoutModel.part, objOf. rewrite E. reflexivity. Qed.

Lemma alignment_said : forall pf its stop c l base kw f n, entries pf its stop c l -> owns its f kw = true -> slot its kw = Some (f, Single) -> formOf its kw borderForm ->
    says kw l n -> alignmentOf (addEntries its l base) f = Align n true.
Proof.
  intros pf its stop c l base kw f n EN OW SL FO (t & LW & PU). destruct (entry_den _ _ _ _ _ _ _ _ EN FO LW) as (e & E & DE).
  unfold alignmentOf, A2lLayoutModel.pint, A2lLayoutModel.pbool. cbn [fst snd].
  assert (FE : fget f (addEntries its l base) = Some (e_val e)) by (rewrite (single_entries _ _ _ OW SL); unfold entryOf in E; rewrite E; reflexivity).
  rewrite (part_obj _ _ _ FE). destruct (border_value _ _ _ _ DE PU) as [-> ->]. rewrite N2Z.id. reflexivity.
Qed.
Lemma alignment_unsaid : forall its l base kw f, owns its f kw = true -> slot its kw = Some (f, Single) -> fget f base = None ->
    lastWords kw l None -> alignmentOf (addEntries its l base) f = Align 0 false.
Proof.
  intros its l base kw f OW SL Z LW. unfold alignmentOf, A2lLayoutModel.pint, A2lLayoutModel.pbool, A2lLayoutModel.part. cbn [fst snd].
  rewrite (single_entries _ _ _ OW SL). pose proof (entryOf_none _ _ LW) as E. unfold entryOf in E. rewrite E, Z. reflexivity.
Qed.

Notation mcItems := (itemsOf modCommonForm).
Definition mcParams : list param := match modCommonForm with Block _ ps _ _ _ _ => ps | _ => [] end.
Lemma common_entries : forall pf ts v l, den pf modCommonForm ts v -> commonHas pf ts l ->
    exists comment, v = VObj (addEntries mcItems l (stores true mcParams [VStr comment] [])).
Proof.
  intros pf ts v l D H.
  destruct (block_entries "parseModCommon" parseModCommon pf [] mcParams mcItems "/end MOD_COMMON" [] ts v) as (ws & vs & c & E & W & _ & U);
    [listed|listed|nodup|exact D|]. destruct H as (name & c' & E' & X). rewrite E in E'. clear D.
  inversion W as [|? ? t1 ? v1 ? S1 W1]; subst. inversion W1; subst. cbn [app] in E'. injection E' as -> E'. destruct (ends_with _ _ _ _ _ E') as [-> _].
  destruct S1 as (_ & _ & ->). exists name. apply (U l X).
Qed.

(** the part ModCommon of the module *)
Lemma chosen_common : forall pf cd lm lc, chosen pf cd lm -> commonOf pf lm lc -> exists m base, theModule cd = Some m /\
    A2lLayoutModel.part "ModCommon" m = addEntries mcItems lc base /\ (forall f, f <> "comment"%string -> f <> "commentSet"%string -> fget f base = None) /\
    exists stop c, entries pf mcItems stop c lc.
Proof.
  intros pf cd lm lc (ws & v & D & H & NE) CM. destruct (module_entries _ _ _ D) as [_ U]. destruct (U lm H) as (vs & ->). clear U. destruct H as (n & lg & c & _ & EN).
  eexists. assert (OW : owns (itemsOf moduleRead) "ModCommon" "/begin MOD_COMMON" = true) by (vm_compute; reflexivity).
  assert (SL : slot (itemsOf moduleRead) "/begin MOD_COMMON" = Some ("ModCommon", Single)%string) by reflexivity.
  destruct CM as [(e & LS & HC)|[NO ->]].
  - destruct (lastSuch_in _ _ _ LS) as [IE KE]. destruct (entries_in _ _ _ _ _ _ EN IE) as (f' & p & sub & II & DE). unfold isKw in KE. rewrite KE in II.
    assert (sub = modCommonForm) by (revert II; revert f' p sub DE; intros f' p sub _; revert f' p sub; modForm_). subst sub.
    destruct (common_entries _ _ _ _ DE HC) as (cm & EV). exists (stores true mcParams [VStr cm] []). split; [unfold theModule; rewrite NE; reflexivity|].
    assert (LV : lastVal (fun x => String.eqb (e_kw x) "/begin MOD_COMMON") lm = Some e) by (apply (lastVal_such (isKw "/begin MOD_COMMON") _ lm e (fun x _ => String.eqb_eq _ _)); exact LS).
    split; [|split].
    + rewrite (part_obj "ModCommon" _ (e_val e)); [rewrite EV; reflexivity|]. rewrite (single_entries _ _ _ OW SL), LV. reflexivity.
    + intros f N1 N2. apply stores_other. change (forallb (spares f) mcParams) with (spares f (P "comment" "commentSet" Text) && true). unfold spares. cbn [P p_field p_flag].
      apply String.eqb_neq in N1, N2. rewrite N1, N2. reflexivity.
    + destruct HC as (x & c' & _ & EN'). eauto.
  - exists []. split; [unfold theModule; rewrite NE; reflexivity|]. split; [|split; [reflexivity|exists ""%string, []; constructor]].
    unfold A2lLayoutModel.part. rewrite (single_entries _ _ _ OW SL). pose proof (entryOf_none _ _ NO) as E. unfold entryOf in E. rewrite E.
    rewrite stores_other by (vm_compute; reflexivity). reflexivity.
Qed.

Definition alignOk (its : list item) (kw : string) : Prop :=
  owns its (alignField kw) kw = true /\ slot its kw = Some (alignField kw, Single) /\ formOf its kw borderForm.
Lemma align_layout : forall d kw n, alignmentWord d = Some (kw, n) -> alignOk rlItems kw.
Proof.
  intros d kw n E. assert (ND : NoDup (kws rlItems)) by nodup.
  destruct d; try discriminate; injection E as <- <-; (split; [vm_compute; reflexivity|split; [reflexivity|]]); intros f' p sub I;
    refine (item_unique _ ND _ _ _ _ _ _ _ I (item_found _ _ _ _ _)); vm_compute; reflexivity.
Qed.
Lemma align_common : forall d kw n, alignmentWord d = Some (kw, n) -> alignOk mcItems kw.
Proof.
  intros d kw n E. assert (ND : NoDup (kws mcItems)) by nodup.
  destruct d; try discriminate; injection E as <- <-; (split; [vm_compute; reflexivity|split; [reflexivity|]]); intros f' p sub I;
    refine (item_unique _ ND _ _ _ _ _ _ _ I (item_found _ _ _ _ _)); vm_compute; reflexivity.
Qed.
Lemma alignField_fresh : forall d kw n, alignmentWord d = Some (kw, n) -> alignField kw <> "comment"%string /\ alignField kw <> "commentSet"%string /\ forallb (spares (alignField kw)) rlParams = true.
Proof. intros d kw n E. destruct d; try discriminate; injection E as <- <-; (split; [discriminate|split; [discriminate|reflexivity]]). Qed.
Lemma governs : forall d kw n, alignmentWord d = Some (kw, n) -> exists get, governing d = Some (get, n) /\ forall o, get (alignmentsOf o) = alignmentOf o (alignField kw).
Proof. intros d kw n E. destruct d; try discriminate; injection E as <- <-; eexists; (split; [reflexivity|]); intro o; reflexivity. Qed.

(** ** C79 *)

(** The border in force for a data type is the one that stands in the record
    layout, else the one of MOD_COMMON, else that of ASAP2. *)
Theorem C79_border : forall pf cd lm lc m ts rl lr d n, chosen pf cd lm -> commonOf pf lm lc -> theModule cd = Some m ->
    den pf recordLayoutRead ts (VObj rl) -> layoutHas pf ts lr -> border lr lc d n ->
    in_force (alignmentsOf rl) (cx_common (contextOf cd m)) d n.
Proof.
  intros pf cd lm lc m ts rl lr d n CH CM EM D H B. destruct (chosen_common _ _ _ _ CH CM) as (m' & base & EM' & EP & FR & stop & c & EC). rewrite EM in EM'. injection EM' as <-.
  destruct (layout_entries _ _ _ _ D H) as (name & E & _). assert (E' : rl = addEntries rlItems lr (stores true rlParams [VStr name] [])) by congruence. rewrite E'. clear E E' D. destruct H as (nm & c0 & _ & EL). unfold contextOf. cbn [cx_common]. rewrite EP.
  destruct B as [kw n0 n AW SA|kw n0 n AW NO SA|kw n0 AW NO NO'];
    destruct (align_layout _ _ _ AW) as (OW & SL & FO), (align_common _ _ _ AW) as (OW' & SL' & FO'), (governs _ _ _ AW) as (get & GV & GE), (alignField_fresh _ _ _ AW) as (N1 & N2 & SP).
  - pose proof (alignment_said _ _ _ _ _ (stores true rlParams [VStr name] []) _ _ _ EL OW SL FO SA) as A. rewrite <- GE in A.
    replace n with (AlignmentBorder (get (alignmentsOf (addEntries rlItems lr (stores true rlParams [VStr name] []))))) by (rewrite A; reflexivity).
    apply (from_layout _ _ d get n0 GV). rewrite A. reflexivity.
  - pose proof (alignment_unsaid rlItems lr (stores true rlParams [VStr name] []) _ _ OW SL ltac:(rewrite stores_other by exact SP; reflexivity) NO) as A. rewrite <- GE in A.
    pose proof (alignment_said _ _ _ _ _ base _ _ _ EC OW' SL' FO' SA) as A'. rewrite <- GE in A'.
    replace n with (AlignmentBorder (get (alignmentsOf (addEntries mcItems lc base)))) by (rewrite A'; reflexivity).
    apply (from_common _ _ d get n0 GV); [rewrite A; reflexivity|rewrite A'; reflexivity].
  - pose proof (alignment_unsaid rlItems lr (stores true rlParams [VStr name] []) _ _ OW SL ltac:(rewrite stores_other by exact SP; reflexivity) NO) as A. rewrite <- GE in A.
    pose proof (alignment_unsaid mcItems lc base _ _ OW' SL' (FR _ N1 N2) NO') as A'. rewrite <- GE in A'.
    apply (from_default _ _ d get n0 GV); [rewrite A; reflexivity|rewrite A'; reflexivity].
Qed.
Print Assumptions C79_border.

(** The bytes of numbers are taken in the order of BYTE_ORDER in MOD_COMMON. *)
Theorem C79_order : forall pf cd lm lc m big, chosen pf cd lm -> commonOf pf lm lc -> theModule cd = Some m -> byteOrder lc big -> ordered (contextOf cd m) big.
Proof.
  intros pf cd lm lc m big CH CM EM BO. destruct (chosen_common _ _ _ _ CH CM) as (m' & base & EM' & EP & FR & stop & c & EC). rewrite EM in EM'. injection EM' as <-.
  assert (OW : owns mcItems "ByteOrder" "BYTE_ORDER" = true) by (vm_compute; reflexivity).
  assert (SL : slot mcItems "BYTE_ORDER" = Some ("ByteOrder", Single)%string) by reflexivity.
  assert (FO : formOf mcItems "BYTE_ORDER" byteOrderForm).
  { intros f' p sub I; cbn [itemsOf modCommonForm] in I; repeat (destruct I as [I|I]; [injection I; intros; subst; (discriminate || reflexivity)|]); destruct I. }
  destruct BO as [(o & LW & FH)|[NO ->]].
  - destruct (entry_den _ _ _ _ _ _ _ _ EC FO LW) as (e & E & DE).
    assert (FE : fget "ByteOrder" (A2lLayoutModel.part "ModCommon" m) = Some (e_val e)) by (rewrite EP, (single_entries _ _ _ OW SL); unfold entryOf in E; rewrite E; reflexivity).
    assert (EV : fstr "ByteOrder" (objOf (e_val e)) = b o /\ fbool "ByteOrderSet" (objOf (e_val e)) = true).
    { inversion DE as [|? ? ? vs W| |]; subst. row W. destruct S as (_ & _ & ->). split; reflexivity. }
    destruct EV as [V1 V2]. assert (CO : cx_order (contextOf cd m) = orderOf (b o) /\ cx_orderSet (contextOf cd m) = true).
    { unfold contextOf, A2lLayoutModel.pstr, A2lLayoutModel.pbool. cbn [cx_order cx_orderSet fst snd]. rewrite (part_obj _ _ _ FE), V1, V2. auto. }
    destruct CO as [C1 C2]. unfold firstIsHigh in FH. cbn [existsb] in FH.
    destruct (String.eqb_spec o "BIG_ENDIAN") as [->|_]; [injection FH as <-; apply order_big; [exact C2|left; rewrite C1; reflexivity]|].
    destruct (String.eqb_spec o "MSB_FIRST") as [->|_]; [injection FH as <-; apply order_big; [exact C2|right; rewrite C1; reflexivity]|].
    destruct (String.eqb_spec o "LITTLE_ENDIAN") as [->|_]; [injection FH as <-; apply order_little; [exact C2|left; rewrite C1; reflexivity]|].
    destruct (String.eqb_spec o "MSB_LAST") as [->|_]; [injection FH as <-; apply order_little; [exact C2|right; rewrite C1; reflexivity]|]. discriminate.
  - assert (FE : fget "ByteOrder" (A2lLayoutModel.part "ModCommon" m) = None).
    { rewrite EP, (single_entries _ _ _ OW SL). pose proof (entryOf_none _ _ NO) as E. unfold entryOf in E. rewrite E. apply FR; discriminate. }
    apply order_none; unfold contextOf, A2lLayoutModel.pstr, A2lLayoutModel.pbool; cbn [cx_order cx_orderSet fst snd]; unfold A2lLayoutModel.part at 1; rewrite FE; reflexivity.
Qed.
Print Assumptions C79_order.

(** ** Characteristics *)

Lemma mget_same : forall k (m : list (bytes * val)), ValuesModel.mget k m = A2lModSpec.mget k m.
Proof. intros k m. induction m as [|[k' v] m IH]; [reflexivity|]. cbn. destruct (beqb k k'); [reflexivity|exact IH]. Qed.

Definition chParams : list param := match characteristicRead with Block _ ps _ _ _ _ => ps | _ => [] end.
Lemma characteristic_value : forall pf ts ch address layout, den pf characteristicRead ts (VObj ch) -> characteristicHas ts address layout ->
    fstr "Address" ch = address /\ fstr "Deposit" ch = layout /\ fget "DepositSet" ch = Some (VBool true).
Proof.
  intros pf ts ch address layout D (name & long & kind & r & EQ). inversion D as [| | |? ? ? ? ? ? ws ts' c vs o o' W R PA]; subst.
  destruct R as [-> ->]. match goal with H : _ ++ _ = _ :: _ |- _ => rename H into EQ end. row W. cbn [app] in EQ. injection EQ as -> -> -> -> -> _.
  repeat match goal with S : stands _ _ (p_type (P _ _ Text)) _ _ |- _ => destruct S as (_ & _ & ->) | S : stands _ _ (p_type (P _ _ (Choice _))) _ _ |- _ => destruct S as (_ & _ & ->) end.
  unfold fstr. cbn [consts fold_left] in *. rewrite !(parts_other _ _ _ _ _ _ _ PA) by (vm_compute; reflexivity). repeat split; reflexivity.
Qed.

Section Chosen.
  Variable pf : bytes -> option spec_float.
  Variable cd : calib.
  Variable lm : list entry.
  Hypothesis CH : chosen pf cd lm.

  Lemma layout_object : forall e k, lastSuch (isNamed "/begin RECORD_LAYOUT" k) lm e -> exists rl, e_val e = VObj rl /\ den pf recordLayoutRead (e_words e) (VObj rl).
  Proof.
    intros e k L. destruct (lastSuch_in _ _ _ L) as [_ [KE _]].
    pose proof (chosen_den _ _ _ "/begin RECORD_LAYOUT" recordLayoutRead _ _ CH ltac:(modForm_) L KE) as DE.
    pose proof DE as DE'. inversion DE'; subst. eexists. split; [reflexivity|]. congruence.
  Qed.
End Chosen.

(** The record layout of a characteristic is the last one with the name that the
    characteristic gives; without one there is an error. *)
Theorem C79_layout : forall pf cd lm kc ec ch address layout, chosen pf cd lm ->
    lastSuch (isNamed "/begin CHARACTERISTIC" kc) lm ec -> e_val ec = VObj ch -> characteristicHas (e_words ec) address layout ->
    (forall rl, getRecordLayout cd ch = Ok rl <-> exists e, lastSuch (isNamed "/begin RECORD_LAYOUT" layout) lm e /\ e_val e = VObj rl) /\
    (getRecordLayout cd ch = Err tt <-> forall e, ~ lastSuch (isNamed "/begin RECORD_LAYOUT" layout) lm e).
Proof.
  intros pf cd lm kc ec ch address layout CH LC EC HC. destruct (lastSuch_in _ _ _ LC) as [_ [KC _]].
  pose proof (chosen_den _ _ _ "/begin CHARACTERISTIC" characteristicRead _ _ CH ltac:(modForm_) LC KC) as DC. rewrite EC in DC.
  destruct (characteristic_value _ _ _ _ _ DC HC) as (_ & DP & DS). destruct (chosen_map _ _ _ CH) as (m & EM & MM).
  specialize (MM "/begin RECORD_LAYOUT" "RecordLayouts" "Name" ltac:(vm_compute; reflexivity) layout)%string.
  unfold getRecordLayout, fbool. rewrite DS, EM, DP, mget_same. cbn [negb].
  destruct (A2lModSpec.mget layout (fmap "RecordLayouts" m)) as [v|].
  - destruct (proj1 (MM v) eq_refl) as (e & LE & EV). destruct (layout_object _ _ _ CH _ _ LE) as (rl & EL & _). rewrite EL in EV. subst v. split.
    + intros rl'. split.
      * intros E. injection E as <-. exists e. auto.
      * intros (e' & LE' & E'). assert (X : Some (VObj rl) = Some (VObj rl')) by (apply (MM (VObj rl')); eauto). injection X as <-. reflexivity.
    + split; [discriminate|]. intros N. destruct (N e LE).
  - assert (NO : forall e, ~ lastSuch (isNamed "/begin RECORD_LAYOUT" layout) lm e).
    { intros e LE. assert (X : None = Some (e_val e)) by (apply (MM (e_val e)); eauto). discriminate. }
    split; [|split; auto]. intros rl. split; [discriminate|]. intros (e & LE & _). destruct (NO e LE).
Qed.
Print Assumptions C79_layout.

(** False: no value of a characteristic of an A2L file is ever read.  The result
    is empty (without an error) though record layout and address are in order. *)
Theorem C79_nothing_read_refuted : forall pf cd lm lc kc ec ch layout t bs er rl r, chosen pf cd lm -> commonOf pf lm lc -> byteOrder lc true ->
    lastSuch (isNamed "/begin CHARACTERISTIC" kc) lm ec -> e_val ec = VObj ch -> characteristicHas (e_words ec) (b "0x" ++ t) layout ->
    HexSpec.hex_text_any t bs -> length bs = 4 ->
    lastSuch (isNamed "/begin RECORD_LAYOUT" layout) lm er -> e_val er = VObj rl ->
    (getValuesFromHex cd (NewCharacteristicValues ch (Some rl)) r <-> r = Some []).
Proof.
  intros pf cd lm lc kc ec ch layout t bs er rl r CH CM BO LC EC HC HT L4 LR ER. destruct (lastSuch_in _ _ _ LC) as [_ [KC _]].
  pose proof (chosen_den _ _ _ "/begin CHARACTERISTIC" characteristicRead _ _ CH ltac:(modForm_) LC KC) as DC. rewrite EC in DC.
  destruct (characteristic_value _ _ _ _ _ DC HC) as (AD & _ & _). destruct (layout_object _ _ _ CH _ _ LR) as (rl' & EL & DL). rewrite ER in EL. injection EL as <-.
  assert (GL : getRecordLayout cd ch = Ok rl) by (apply (proj1 (C79_layout _ _ _ _ _ _ _ _ CH LC EC HC)); eauto).
  destruct (chosen_map _ _ _ CH) as (m & EM & _). pose proof (C79_order _ _ _ _ _ _ CH CM EM BO) as OR.
  assert (NP : relativePositions rl = []).
  { pose proof (C64_reads "parseRecordLayout" recordLayoutRead parseRecordLayout pf _ _ ltac:(listed) ltac:(listed) DL [] (b "x") [[]] ltac:(discriminate) ltac:(exists []; reflexivity) eq_refl) as R.
    destruct (ValuesThm.layout_spares _ _ _ _ _ _ R) as (o & E & N). injection E as <-. unfold relativePositions, flist. rewrite N. reflexivity. }
  assert (V : valuesAlong getBytes cd (NewCharacteristicValues ch (Some rl)) [] = Some []).
  { unfold valuesAlong. cbn [cv_char cv_values NewCharacteristicValues]. rewrite GL, EM, AD, (MemProps.C32_address_guarded _ (b "0x") t bs OR (or_introl eq_refl) HT L4). reflexivity. }
  unfold getValuesFromHex. cbn [cv_layout NewCharacteristicValues]. rewrite NP. split.
  - intros (order & PE & ->). apply Permutation.Permutation_sym, Permutation.Permutation_nil in PE. subst order. exact V.
  - intros ->. exists []. split; [constructor|symmetry; exact V].
Qed.
Print Assumptions C79_nothing_read_refuted.

(** False: a characteristic whose record layout is not in the file crashes the program. *)
Theorem C79_missing_layout_refuted : forall pf cd lm kc ec ch address layout l r, chosen pf cd lm ->
    lastSuch (isNamed "/begin CHARACTERISTIC" kc) lm ec -> e_val ec = VObj ch -> characteristicHas (e_words ec) address layout ->
    (forall e, ~ lastSuch (isNamed "/begin RECORD_LAYOUT" layout) lm e) ->
    getValuesFromHex cd (NewCharacteristicValues ch l) r -> r = None.
Proof.
  intros pf cd lm kc ec ch address layout l r CH LC EC HC NO G. pose proof (proj2 (proj2 (C79_layout _ _ _ _ _ _ _ _ CH LC EC HC)) NO) as GL.
  unfold getValuesFromHex in G. cbn [cv_layout NewCharacteristicValues] in G. destruct l as [l|]; [|exact G]. destruct G as (order & _ & ->).
  unfold valuesAlong. cbn [cv_char NewCharacteristicValues]. rewrite GL. reflexivity.
Qed.
Print Assumptions C79_missing_layout_refuted.

(** With the byte access repaired (see C26) an integer of a record layout is read
    as the file and the image say. *)
Theorem C79_value_guarded : forall pf cd lm lc kc ec ch layout t bs er lr c d sg z n l, chosen pf cd lm -> commonOf pf lm lc -> byteOrder lc true ->
    lastSuch (isNamed "/begin CHARACTERISTIC" kc) lm ec -> e_val ec = VObj ch -> characteristicHas (e_words ec) (b "0x" ++ t) layout ->
    HexSpec.hex_text_any t bs -> length bs = 4 ->
    lastSuch (isNamed "/begin RECORD_LAYOUT" layout) lm er -> layoutHas pf (e_words er) lr ->
    In c integers -> writtenType lr c (b (typeName d)) -> d = UBYTE \/ d = SBYTE \/ d = AUint64 \/ d = AInt64 ->
    int_type d = Some sg -> in_range sg (size_bytes d) z -> (Z.abs z < 2 ^ 53)%Z ->
    border lr lc d n -> n <> 0%N -> (n | MemSpec.number bs)%N ->
    bytes_at (cd_hex cd) (MemSpec.number bs) (encode true (size_bytes d) (twos (size_bytes d) z)) ->
    exists v, valuesAlong getBytes_repaired cd (NewCharacteristicValues ch l) [c] = Some v /\ vint (valueField c) v = z.
Proof.
  intros pf cd lm lc kc ec ch layout t bs er lr c d sg z n l CH CM BO LC EC HC HT L4 LR HL IC WT DD IT IR ZB BD N0 DV BA. destruct (lastSuch_in _ _ _ LC) as [_ [KC _]].
  pose proof (chosen_den _ _ _ "/begin CHARACTERISTIC" characteristicRead _ _ CH ltac:(modForm_) LC KC) as DC. rewrite EC in DC.
  destruct (characteristic_value _ _ _ _ _ DC HC) as (AD & _ & _). destruct (layout_object _ _ _ CH _ _ LR) as (rl & EL & DL).
  assert (GL : getRecordLayout cd ch = Ok rl) by (apply (proj1 (C79_layout _ _ _ _ _ _ _ _ CH LC EC HC)); eauto).
  destruct (chosen_map _ _ _ CH) as (m & EM & _). pose proof (C79_order _ _ _ _ _ _ CH CM EM BO) as OR.
  pose proof (C79_border _ _ _ _ _ _ _ _ _ _ CH CM EM DL HL BD) as IFO.
  assert (NR : c <> "Reserved"%string).
  { intros ->. assert (X : existsb (String.eqb "Reserved") integers = true) by (apply existsb_exists; eexists; split; [exact IC|reflexivity]). vm_compute in X. discriminate. }
  pose proof (proj2 (typed_iff _ _ _ _ DL HL c _ (writtenType_component _ _ _ WT) NR) WT) as TY.
  unfold valuesAlong. cbn [cv_char cv_values NewCharacteristicValues]. rewrite GL, EM, AD, (MemProps.C32_address_guarded _ (b "0x") t bs OR (or_introl eq_refl) HT L4). cbn [readFields].
  destruct (C61_integer_guarded (contextOf cd m) rl c d sg z true [] (MemSpec.number bs) n IC TY DD IT OR IR ZB IFO N0 DV BA) as (v & q & E & V & _).
  rewrite E. exists v. auto.
Qed.
Print Assumptions C79_value_guarded.
