(** C69: reading an A2L file gives back what was written. *)
From Coq Require Import String Ascii List Arith NArith ZArith Bool Lia SpecFloat.
From Verif Require Import GoBase GoBaseFacts HexSpec A2lIR A2lTokens A2lParsers A2lThm A2lSpec A2lProps A2lGrammar A2lForms A2lDescribe
  A2lModModel A2lModSpec A2lModProps A2lTextModel A2lTextProps A2lFileModel A2lFileSpec A2lFileThm A2lFileProps A2lFileLost A2lTripSpec A2lMeetThm A2lTripThm.
From Verif Require TokModel TokSpec TokProps.
Import ListNotations.

(** ** Tokens *)

(** The tokens of a written file are those that were written. *)
Theorem C69_tokens : forall gr cpus ts r, 0 < cpus -> tableOk gr -> Forall writable ts -> 1 < length (write ts) ->
    (fileTokens gr cpus (write ts) r <->
     exists t, r = Some t /\ TokModel.tk_list t = ts ++ [[]] /\ (TokModel.tk_multithreading t = true <-> (moduleCount ts mod 2 ^ 32 <= 1)%N)).
Proof.
  intros gr cpus ts r CP G W L. destruct (write_ends ts W L) as (c & s & d & E & PC & PD). destruct (writable_lines ts W) as (F & gs & LI & U).
  assert (T : TokSpec.text_of ts (c :: s ++ [d])) by (split; [symmetry; exact E|split; [intros ->; cbn in L; lia|exact F]]).
  pose proof (C65_tokens_guarded gr cpus c s d ts _ CP G PC PD T LI r) as K. rewrite <- E in K. rewrite K. rewrite concat_singles.
  unfold TokProps.delivers, TokProps.modules, moduleCount. rewrite U. reflexivity.
Qed.
Print Assumptions C69_tokens.

(** ** Sequential parsing *)

Lemma written_long : forall pf project ts a, describes pf project ts a -> ts <> [] -> 1 < length (write ts).
Proof.
  intros pf project ts a D N. unfold describes in D. inversion D as [|? ? kw f p sub ts1 ts' v o o' I]; subst; [contradiction|].
  rewrite write_first, app_length. destruct I as [I|[I|[I|[]]]]; injection I as <- _ _ _; cbn [b list_ascii_of_string length]; lia.
Qed.

(** The parser of the file, called for the tokens of a described file, returns
    the description without an error. *)
Theorem C69_parsed : forall pf ts a, describes pf projectRead ts a -> returns (ts ++ [[]]) pf parseA2l 0 (VObj a) false (length ts).
Proof.
  intros pf ts a D. pose proof (file_read pf _ _ _ _ _ D eq_refl eq_refl [] (ts ++ [[]]) eq_refl) as A.
  assert (EN : ended (ts ++ [[]])) by (eexists; reflexivity).
  destruct (C59_terminates "parseA2l" parseA2l (ts ++ [[]]) pf 0) as (v & e & j & R & _); [listed|exact EN|apply ended_length; exact EN|].
  pose proof R as R0. destruct R0 as [n R0]. destruct (a2l_call _ _ _ _ _ _ _ (R0 n (le_n _))) as (a' & -> & A').
  destruct (a2l_fun _ _ _ (returns_fun _ _ _) _ _ _ _ _ A _ _ _ A') as (-> & <- & <-). exact R.
Qed.
Print Assumptions C69_parsed.

(** No text describes two files. *)
Theorem C69_unique : forall pf ts a a', describes pf projectRead ts a -> describes pf projectRead ts a' -> a = a'.
Proof. intros pf ts a a' D D'. destruct (returns_fun _ _ _ _ _ _ _ _ _ _ (C69_parsed _ _ _ D) (C69_parsed _ _ _ D')) as (E & _). congruence. Qed.
Print Assumptions C69_unique.

(** Several modules: whatever the number of CPUs and the schedule, reading gives
    what was written. *)
Theorem C69_sequential : forall gr pf cpus ts a, 0 < cpus -> tableOk gr -> describes pf projectRead ts a -> Forall writable ts ->
    (1 < moduleCount ts mod 2 ^ 32)%N ->
    forall r, parseFromFile gr pf cpus (Some (write ts)) r <-> r = Returned a false.
Proof.
  intros gr pf cpus ts a CP G D W MC r. assert (N : ts <> []) by (intros ->; cbn in MC; lia).
  assert (T : fileTokens gr cpus (write ts) (Some (TokModel.Tokens (ts ++ [[]]) false))).
  { apply C69_tokens; [exact CP|exact G|exact W|eapply written_long; eauto|]. eexists. split; [reflexivity|]. cbn [TokModel.tk_list TokModel.tk_multithreading]. split; [reflexivity|].
    split; [discriminate|intros H; lia]. }
  rewrite (C65_sequential gr pf cpus (write ts) _ r T eq_refl). cbn [TokModel.tk_list]. pose proof (C69_parsed pf ts a D) as R. split.
  - intros (a' & e & j & -> & R'). destruct (returns_fun _ _ _ _ _ _ _ _ _ _ R R') as (E & <- & _). congruence.
  - intros ->. eauto.
Qed.
Print Assumptions C69_sequential.

(** ** Parallel parsing *)

Lemma one_module : forall gr pf cpus ts a, 0 < cpus -> tableOk gr -> describes pf projectRead ts a -> Forall writable ts -> ts <> [] ->
    (moduleCount ts mod 2 ^ 32 <= 1)%N -> fileTokens gr cpus (write ts) (Some (TokModel.Tokens (ts ++ [[]]) true)).
Proof.
  intros gr pf cpus ts a CP G D W N MC. apply C69_tokens; [exact CP|exact G|exact W|eapply written_long; eauto|]. eexists. split; [reflexivity|].
  cbn [TokModel.tk_list TokModel.tk_multithreading]. split; [reflexivity|]. split; [intros _; exact MC|reflexivity].
Qed.

(** One module: what was written, but for the objects at a border between two
    goroutines' shares. *)
Theorem C69_one_module_as_read : forall gr pf cpus ts a, 0 < cpus -> tableOk gr -> describes pf projectRead ts a -> Forall writable ts -> ts <> [] ->
    (moduleCount ts mod 2 ^ 32 <= 1)%N ->
    (forall i, tok (ts ++ [[]]) i = b "/begin MODULE" -> divisible (ts ++ [[]]) pf (cpus * 2) i) ->
    forall r, parseFromFile gr pf cpus (Some (write ts)) r -> exists a', r = Returned a' false /\ likeFile (lacksBorders (ts ++ [[]]) pf (cpus * 2)) a a'.
Proof.
  intros gr pf cpus ts a CP G D W N MC DV r H. pose proof (one_module gr pf cpus ts a CP G D W N MC) as T.
  exact (C65_as_read gr pf cpus (write ts) _ a _ r CP T eq_refl (C69_parsed pf ts a D) DV H).
Qed.
Print Assumptions C69_one_module_as_read.

(** If there are none, what was written. *)
Theorem C69_one_module_guarded : forall gr pf cpus ts a, 0 < cpus -> tableOk gr -> describes pf projectRead ts a -> Forall writable ts -> ts <> [] ->
    (moduleCount ts mod 2 ^ 32 <= 1)%N ->
    (forall i, tok (ts ++ [[]]) i = b "/begin MODULE" -> divisible (ts ++ [[]]) pf (cpus * 2) i /\ inside (ts ++ [[]]) pf (cpus * 2) i) ->
    forall r, parseFromFile gr pf cpus (Some (write ts)) r -> exists a', r = Returned a' false /\ likeFile sameModule a a'.
Proof.
  intros gr pf cpus ts a CP G D W N MC DV r H. pose proof (one_module gr pf cpus ts a CP G D W N MC) as T.
  exact (C65_guarded gr pf cpus (write ts) _ a _ r CP T eq_refl (C69_parsed pf ts a D) DV H).
Qed.
Print Assumptions C69_one_module_guarded.

(** ** ASAP2 *)

Lemma plain_meet : meet projectForm projectRead = Some plainProject.
Proof. vm_cast_no_check (eq_refl (Some plainProject)). Qed.

(** A file with a plain project is a file of ASAP2, and read as such. *)
Theorem C69_plain : forall pf ts a, describes pf plainProject ts a -> describes pf projectForm ts a /\ describes pf projectRead ts a.
Proof.
  intros pf ts a D. unfold describes in D. refine (proj2 (meet_den_parts pf) _ _ _ _ _ D (fileItems projectForm) (fileItems projectRead) _).
  assert (E : meetItems (fileItems projectForm) (fileItems projectRead) = fileItems plainProject).
  { unfold meetItems, fileItems. cbn [flat_map]. cbn [String.eqb Ascii.eqb Bool.eqb andb placeEqb]. rewrite plain_meet. reflexivity. }
  rewrite E. apply incl_refl.
Qed.
Print Assumptions C69_plain.

Theorem C69_standard_guarded : forall gr pf cpus ts a, 0 < cpus -> tableOk gr -> describes pf plainProject ts a -> Forall writable ts ->
    (1 < moduleCount ts mod 2 ^ 32)%N ->
    describes pf projectForm ts a /\ forall r, parseFromFile gr pf cpus (Some (write ts)) r <-> r = Returned a false.
Proof.
  intros gr pf cpus ts a CP G D W MC. destruct (C69_plain pf ts a D) as [D1 D2]. split; [exact D1|]. apply C69_sequential; assumption.
Qed.
Print Assumptions C69_standard_guarded.

Definition quote (s : string) : string := String TokSpec.QM (s ++ String TokSpec.QM EmptyString).
Ltac described := unfold describes; refine (fileD_ok _ _ _ 5 _ _ _ _); [reflexivity|vm_compute; reflexivity].

(** Of all files of ASAP2 this does not hold: the long identifier of a unit is lost. *)
Definition unitFile : list bytes := map b ["ASAP2_VERSION"; "1"; "71"; "/begin PROJECT"; "P"; quote "a project";
  "/begin MODULE"; "M1"; quote ""; "/begin UNIT"; "kmh"; quote "kilometres per hour"; quote "kmh"; "DERIVED"; "/end UNIT"; "/end MODULE";
  "/begin MODULE"; "M2"; quote ""; "/end MODULE"; "/end PROJECT"]%string.
Theorem C69_refuted : exists ts, Forall writable ts /\ (1 < moduleCount ts mod 2 ^ 32)%N /\ forall pf, exists a a',
    describes pf projectForm ts a /\ a <> a' /\
    forall gr cpus, 0 < cpus -> tableOk gr -> forall r, parseFromFile gr pf cpus (Some (write ts)) r <-> r = Returned a' false.
Proof.
  assert (W : Forall writable unitFile) by (apply Forall_forall; intros t I; apply writableb_ok; revert t I; apply forallb_forall; vm_compute; reflexivity).
  assert (M : (1 < moduleCount unitFile mod 2 ^ 32)%N) by (vm_compute; reflexivity).
  exists unitFile. split; [exact W|]. split; [exact M|]. intros pf.
  assert (D : exists a, describes pf projectForm unitFile a /\ exists a', describes pf projectRead unitFile a' /\ a <> a').
  { eexists. split; [described|]. eexists. split; [described|]. vm_compute. discriminate. }
  destruct D as (a & D & a' & D' & N). exists a, a'. split; [exact D|]. split; [exact N|]. intros gr cpus CP G. apply C69_sequential; assumption.
Qed.
Print Assumptions C69_refuted.

(** A plain file *)
Definition plainFile : list bytes := map b ["ASAP2_VERSION"; "1"; "71"; "/begin PROJECT"; "P"; quote "a project"; "/begin HEADER"; quote "comment here"; "VERSION"; quote "v 1"; "/end HEADER";
  "/begin MODULE"; "M1"; quote ""; "/begin COMPU_METHOD"; "CM"; quote "a table"; "TAB_VERB"; quote "%4.2"; quote ""; "COMPU_TAB_REF"; "T"; "/end COMPU_METHOD";
    "/begin COMPU_VTAB"; "T"; quote "table"; "TAB_VERB"; "2"; "0"; quote "off"; "0"; quote "on"; "/end COMPU_VTAB";
    "/begin RECORD_LAYOUT"; "R"; "FNC_VALUES"; "1"; "UBYTE"; "ROW_DIR"; "DIRECT"; "/end RECORD_LAYOUT";
    "/begin CHARACTERISTIC"; "C"; quote "a value"; "VALUE"; "0x1000"; "R"; "0"; "CM"; "0"; "0"; "BIT_MASK"; "0x0F"; "/end CHARACTERISTIC"; "/end MODULE";
  "/begin MODULE"; "M2"; quote ""; "/begin GROUP"; "G"; quote "a group"; "ROOT"; "/begin REF_CHARACTERISTIC"; "C"; "/end REF_CHARACTERISTIC"; "/end GROUP"; "/end MODULE"; "/end PROJECT"]%string.
Example C69_example : Forall writable plainFile /\ (1 < moduleCount plainFile mod 2 ^ 32)%N /\ exists a, describes A2lFormProps.zeroFloat plainProject plainFile a
  /\ A2lFormSpec.look [A2lFormSpec.Fld "Project"; A2lFormSpec.Fld "Modules"; A2lFormSpec.Nth 1; A2lFormSpec.Fld "Name"] (VObj a) = Some (A2lFormSpec.LText (b "M2")).
Proof.
  split; [apply Forall_forall; intros t I; apply writableb_ok; revert t I; apply forallb_forall; vm_compute; reflexivity|].
  split; [vm_compute; reflexivity|]. eexists. split; [described|]. vm_compute. reflexivity.
Qed.

(** The keywords of a module of ASAP2 that are not plain. *)
Definition keywords (f : option form) : list string := match f with Some (Block _ _ _ its _ _) => map kwOf its | _ => [] end.
Example C69_plain_example :
  filter (fun k => negb (existsb (String.eqb k) (keywords (meet moduleForm moduleRead)))) (keywords (Some moduleForm))
  = ["/begin BLOB"; "/begin FRAME"; "/begin MEASUREMENT"; "/begin TYPEDEF_MEASUREMENT"; "/begin UNIT"]%string.
Proof. vm_compute. reflexivity. Qed.

(** A plain file with one module and two groups: on a computer with one CPU one of
    the groups is lost; with two CPUs it meets the hypotheses of [C69_one_module_guarded]. *)
Definition lostFile : list bytes := firstn 17 lostToks.
Lemma lost_file : Forall writable lostFile /\ (moduleCount lostFile mod 2 ^ 32 <= 1)%N /\ lostFile ++ [[]] = lostToks
  /\ forall pf, exists a, describes pf plainProject lostFile a /\ group a (b "G1") <> None /\ group a (b "G2") <> None.
Proof.
  split; [apply Forall_forall; intros t I; apply writableb_ok; revert t I; apply forallb_forall; vm_compute; reflexivity|].
  split; [vm_compute; discriminate|]. split; [reflexivity|]. intros pf. eexists. split; [described|]. vm_compute. split; discriminate.
Qed.
Theorem C69_one_module_refuted : exists ts, Forall writable ts /\ forall gr pf, tableOk gr -> exists a,
    describes pf plainProject ts a /\ group a (b "G2") <> None /\
    (exists r, parseFromFile gr pf 1 (Some (write ts)) r) /\
    forall r, parseFromFile gr pf 1 (Some (write ts)) r -> exists a', r = Returned a' false /\ group a' (b "G1") = group a (b "G1") /\ group a' (b "G2") = None.
Proof.
  destruct lost_file as (W & M & E & DD). exists lostFile. split; [exact W|]. intros gr pf G. destruct (DD pf) as (a & D & N1 & N2). exists a. split; [exact D|]. split; [exact N2|].
  split; [apply C65_total; lia|]. intros r H. destruct (C69_plain pf _ _ D) as [_ D'].
  assert (DV : forall i, tok (lostFile ++ [[]]) i = b "/begin MODULE" -> divisible (lostFile ++ [[]]) pf (1 * 2) i) by (rewrite E; apply lost_divisible).
  destruct (C69_one_module_as_read gr pf 1 lostFile a ltac:(lia) G D' W ltac:(discriminate) M DV r H) as (a' & -> & L). rewrite E in L. exists a'. split; [reflexivity|].
  pose proof (C69_parsed pf lostFile a D') as R. rewrite E in R.
  assert (R0 : exists a0, returns lostToks pf parseA2l 0 (VObj a0) false 17 /\ group a0 (b "G1") = Some (readOr lostToks parseGroup 6)) by (eexists; split; [apply (returns_run 50); vm_compute; reflexivity|vm_compute; reflexivity]).
  destruct R0 as (a0 & R0 & GR). destruct (returns_fun _ _ _ _ _ _ _ _ _ _ R R0) as (EA & _). assert (a = a0) as -> by congruence.
  split.
  - rewrite GR. apply (proj2 (lost_read pf (1 * 2) a0 a' _ R L (b "G1") _ (or_introl eq_refl) eq_refl)). cbn [it_from]. intros (k & K & K'). assert (k = 1) as -> by lia. discriminate.
  - apply (proj1 (lost_read pf (1 * 2) a0 a' _ R L (b "G2") _ (or_intror (or_introl eq_refl)) eq_refl)). exists 1. split; [lia|reflexivity].
Qed.
Print Assumptions C69_one_module_refuted.
Example C69_one_module_example : forall pf, (exists a, describes pf projectRead lostFile a) /\
    forall i, tok (lostFile ++ [[]]) i = b "/begin MODULE" -> divisible (lostFile ++ [[]]) pf (2 * 2) i /\ inside (lostFile ++ [[]]) pf (2 * 2) i.
Proof.
  intros pf. destruct lost_file as (_ & _ & E & DD). destruct (DD pf) as (a & D & _). split; [exists a; apply C69_plain; exact D|]. rewrite E.
  destruct (C65_guarded_example (fun _ => true) pf) as (t & a' & j & T & _ & _ & _ & K).
  pose proof (tokens_one _ _ _ _ _ T (lost_tokens (fun _ => true) 2 ltac:(lia))) as ET. injection ET as ->. exact K.
Qed.
