(** The parsers read the objects of ASAP2 (C64), and single objects (C51-C53, C55-C57). *)
From Coq Require Import String Ascii List Arith NArith ZArith Bool Lia SpecFloat.
From Verif Require Import GoBase GoBaseFacts A2lIR A2lTokens A2lParsers A2lCheck A2lThm A2lSpec A2lProps.
From Verif Require Import A2lGrammar A2lForms A2lSym A2lSymThm A2lSymSound A2lDescribe A2lFormSpec.
Import ListNotations.

(** ** C64: every object *)

Lemma sf_reads : forall name f g pf ts v, In (name, g) allParsers -> sf g f = true -> den pf f ts v -> reads pf f g ts v.
Proof.
  intros name f g pf ts v HI H D before first after FN EN FO.
  assert (EN' : ended (before ++ first :: ts ++ after)).
  { destruct EN as (l & ->). exists (before ++ first :: ts ++ l). rewrite <- !app_assoc. cbn. rewrite <- app_assoc. reflexivity. }
  destruct (C59_terminates name g (before ++ first :: ts ++ after) pf (length before) HI EN') as (v' & e & j & (n & R) & _).
  { rewrite app_length. cbn. lia. }
  pose proof (proj2 (proj2 (proj2 (sound pf n))) g f ts v H D before first after FN FO) as P.
  exists n. intros fuel L. pose proof (R n (le_n n)) as R1. rewrite R1 in P. destruct P as (-> & -> & ->). apply R. exact L.
Qed.

Lemma readForms_ok :
  forallb (fun p => forallb (fun q => if String.eqb (fst p) (fst q) then sf (snd q) (snd p) else true) allParsers) readForms = true.
Proof. vm_compute. reflexivity. Qed.

(** Every parser reads the form that [readForms] gives for it: for all words that
    describe an object of that form, wherever they stand, the parser returns
    exactly that object and the position of the last word. *)
Theorem C64_reads : forall name f g pf ts v, In (name, f) readForms -> In (name, g) allParsers -> den pf f ts v -> reads pf f g ts v.
Proof.
  intros name f g pf ts v HF HG D. eapply sf_reads; [exact HG| |exact D].
  pose proof (proj1 (forallb_forall _ _) (proj1 (forallb_forall _ _) readForms_ok _ HF) _ HG) as O. cbn [fst snd] in O.
  rewrite String.eqb_refl in O. exact O.
Qed.
Print Assumptions C64_reads.

Lemma standard_ok :
  forallb (fun p => existsb (String.eqb (fst p)) misread ||
     forallb (fun q => if String.eqb (fst p) (fst q) then sf (snd q) (snd p) else true) allParsers) standardForms = true.
Proof. vm_compute. reflexivity. Qed.

(** With 28 exceptions, this is the form that the struct declarations and ASAP2
    require. *)
Theorem C64_standard_guarded : forall name f g pf ts v, In (name, f) standardForms -> ~ In name misread -> In (name, g) allParsers ->
    den pf f ts v -> reads pf f g ts v.
Proof.
  intros name f g pf ts v HF NM HG D. eapply sf_reads; [exact HG| |exact D].
  pose proof (proj1 (forallb_forall _ _) standard_ok _ HF) as O. apply orb_true_iff in O. destruct O as [O|O].
  - apply existsb_exists in O. destruct O as (n & I & E). apply String.eqb_eq in E. cbn in E. subst n. contradiction.
  - pose proof (proj1 (forallb_forall _ _) O _ HG) as O'. cbn [fst snd] in O'. rewrite String.eqb_refl in O'. exact O'.
Qed.
Print Assumptions C64_standard_guarded.

(** The exceptions.  A number is a float only if it is written as 0; the parsers do not read more. *)
Definition zeroFloat : bytes -> option spec_float := fun t => if beqb t (b "0") then Some (S754_zero false) else None.

Definition leaf_eqb (x y : option leaf) : bool :=
  match x, y with
  | None, None | Some LTrue, Some LTrue => true
  | Some (LText s), Some (LText t) => beqb s t
  | Some (LInt m), Some (LInt n) => (m =? n)%Z
  | _, _ => false
  end.
Lemma leaf_eqb_refl : forall x, leaf_eqb x x = true.
Proof. intros [[s|z|]|]; cbn; auto using beqb_refl, Z.eqb_refl. Qed.

Definition badly (f : form) (g : fn) (ts : list bytes) (way : list step) : bool :=
  match describe zeroFloat 20 f ts with
  | Some (v, []) =>
      if follows f (b "/end MODULE") then
        match call isKeyword (b "KEYWORD" :: ts ++ [b "/end MODULE"; []]) zeroFloat 1000 g 0 with
        | Ret v' e j => if e then true else if j =? length ts then negb (leaf_eqb (look way v) (look way v')) else true
        | _ => false
        end
      else false
  | _ => false
  end.

Lemma badly_ok : forall f g ts way, badly f g ts way = true -> exists v, den zeroFloat f ts v /\ misreads zeroFloat f g ts v.
Proof.
  intros f g ts way H. unfold badly in H. destruct (describe zeroFloat 20 f ts) as [[v [|]]|] eqn:D; try discriminate.
  destruct (describe_ok _ _ _ _ _ _ D) as (ts1 & E & DN). rewrite app_nil_r in E. subst ts1.
  destruct (follows f (b "/end MODULE")) eqn:FO; [|discriminate].
  destruct (call isKeyword (b "KEYWORD" :: ts ++ [b "/end MODULE"; []]) zeroFloat 1000 g 0) as [v' e j| |] eqn:C; try discriminate.
  exists v. split; [exact DN|]. exists [], (b "KEYWORD"), [b "/end MODULE"; []]. split; [discriminate|]. split; [exists [b "/end MODULE"]; reflexivity|].
  split; [exact FO|]. exists v', e, j. split.
  - exists 1000. intros fuel F. cbn [app length]. rewrite (proj2 (proj2 (proj2 (fuel_mono isKeyword _ _ _ _ F)))), C by (rewrite C; discriminate). reflexivity.
  - destruct e; [left; reflexivity|]. destruct (j =? length ts) eqn:J; [|right; left; apply Nat.eqb_neq in J; exact J].
    right. right. exists way. intros E. rewrite E, leaf_eqb_refl in H. discriminate.
Qed.

Definition ws (s : list string) : list bytes := map b s.
Definition witnesses : list (string * (list string * list step)) := [
  (* PLONGLONG is not known *)
  ("parseAxisPts4", (["1"; "UBYTE"; "INDEX_INCR"; "PLONGLONG"], []));
  ("parseAxisPts5", (["1"; "UBYTE"; "INDEX_INCR"; "PLONGLONG"], []));
  ("parseAxisPtsX", (["1"; "UBYTE"; "INDEX_INCR"; "PLONGLONG"], []));
  ("parseAxisPtsY", (["1"; "UBYTE"; "INDEX_INCR"; "PLONGLONG"], []));
  ("parseAxisPtsZ", (["1"; "UBYTE"; "INDEX_INCR"; "PLONGLONG"], []));
  ("parseAxisRescaleX", (["1"; "UBYTE"; "1"; "INDEX_INCR"; "PLONGLONG"], []));
  (* ADDRESS_TYPE is never accepted *)
  ("parseBlob", (["N"; "L"; "0x1"; "1"; "ADDRESS_TYPE"; "PBYTE"; "/end BLOB"], []));
  ("parseInstance", (["N"; "L"; "T"; "0x1"; "ADDRESS_TYPE"; "PBYTE"; "/end INSTANCE"], []));
  ("parseStructureComponent", (["N"; "T"; "0"; "ADDRESS_TYPE"; "PBYTE"; "/end STRUCTURE_COMPONENT"], []));
  ("parseTypeDefBlob", (["N"; "L"; "1"; "ADDRESS_TYPE"; "PBYTE"; "/end TYPEDEF_BLOB"], []));
  ("parseTypeDefStructure", (["N"; "L"; "1"; "ADDRESS_TYPE"; "PBYTE"; "/end TYPEDEF_STRUCTURE"], []));
  (* ENCODING is never accepted *)
  ("parseCharacteristic", (["N"; "L"; "ASCII"; "0x1"; "D"; "0"; "C"; "0"; "0"; "ENCODING"; "UTF8"; "/end CHARACTERISTIC"], []));
  ("parseTypeDefCharacteristic", (["N"; "L"; "ASCII"; "R"; "0"; "C"; "0"; "0"; "ENCODING"; "UTF8"; "/end TYPEDEF_CHARACTERISTIC"], []));
  (* index modes that are taken for keywords *)
  ("parseFncValues", (["1"; "UBYTE"; "ALTERNATE_CURVES"; "DIRECT"], []));
  ("parseLayout", (["ALTERNATE_WITH_X"], []));
  ("parseRecordLayout", (["R"; "FNC_VALUES"; "1"; "UBYTE"; "ALTERNATE_WITH_X"; "DIRECT"; "/end RECORD_LAYOUT"], []));
  (* parameters stored in the wrong place *)
  ("parseFrame", (["F"; "L"; "1"; "2"; "/end FRAME"], [Fld "name"]));
  ("parseMatrixDim", (["1"; "2"; "3"; "4"; "5"], [Fld "DimY"]));
  ("parseMeasurement", (["N"; "L"; "UBYTE"; "C"; "1"; "0"; "0"; "0"; "/end MEASUREMENT"], [Fld "conversion"]));
  ("parseTypeDefMeasurement", (["N"; "L"; "UBYTE"; "C"; "1"; "0"; "0"; "0"; "/end TYPEDEF_MEASUREMENT"], [Fld "conversion"]));
  ("parseMemorySegment", (["N"; "L"; "CODE"; "RAM"; "INTERN"; "0x0"; "0x1"; "1"; "2"; "3"; "4"; "5"; "/end MEMORY_SEGMENT"], [Fld "offset"; Nth 1]));
  ("parseModPar", (["C"; "/begin MEMORY_SEGMENT"; "N"; "L"; "CODE"; "RAM"; "INTERN"; "0x0"; "0x1"; "1"; "2"; "3"; "4"; "5"; "/end MEMORY_SEGMENT"; "/end MOD_PAR"],
     [Fld "memorySegment"; Nth 0; Fld "offset"; Nth 1]));
  ("parseNoRescaleX", (["1"; "UBYTE"], []));
  ("parseOverwrite", (["N"; "1"; "CONVERSION"; "C"; "/end OVERWRITE"], [Fld "conversion"]));
  ("parseUnit", (["N"; "L"; "D"; "DERIVED"; "/end UNIT"], [Fld "longIdentifier"]));
  ("parseModule", (["M"; "L"; "/begin FRAME"; "F"; "L"; "1"; "2"; "/end FRAME"; "/end MODULE"], [Fld "frame"; Fld "name"]));
  ("parseProject", (["P"; "L"; "/begin MODULE"; "M"; "L"; "/begin FRAME"; "F"; "L"; "1"; "2"; "/end FRAME"; "/end MODULE"; "/end PROJECT"],
     [Fld "Modules"; Nth 0; Fld "frame"; Fld "name"]))]%string.

Lemma witnesses_ok :
  forallb (fun p => forallb (fun q => forallb (fun w =>
      if String.eqb (fst p) (fst q) then if String.eqb (fst p) (fst w) then badly (snd p) (snd q) (ws (fst (snd w))) (snd (snd w)) else true else true)
    witnesses) allParsers) standardForms = true.
Proof. vm_compute. reflexivity. Qed.

(** All exceptions but one are real: there are words that describe an object and
    that the parser of the object misreads.  (VARIANT_CODING is an exception
    because VAR_SEPARATOR is not a keyword; see [C64_separator_example].) *)
Theorem C64_standard_refuted : forall name f g, In name misread -> name <> "parseVariantCoding"%string ->
    In (name, f) standardForms -> In (name, g) allParsers ->
    exists ts v, den zeroFloat f ts v /\ misreads zeroFloat f g ts v.
Proof.
  intros name f g HM NV HF HG.
  assert (W : exists ts way, In (name, (ts, way)) witnesses).
  { assert (A : forallb (fun n => String.eqb n "parseVariantCoding" || existsb (fun w => String.eqb n (fst w)) witnesses) misread = true) by (vm_compute; reflexivity).
    pose proof (proj1 (forallb_forall _ _) A _ HM) as B. apply orb_true_iff in B. destruct B as [B|B]; [apply String.eqb_eq in B; contradiction|].
    apply existsb_exists in B. destruct B as ([n [ts way]] & I & E). apply String.eqb_eq in E. cbn in E. subst n. eauto. }
  destruct W as (ts & way & HW).
  pose proof (proj1 (forallb_forall _ _) (proj1 (forallb_forall _ _) (proj1 (forallb_forall _ _) witnesses_ok _ HF) _ HG) _ HW) as O.
  cbn [fst snd] in O. rewrite !String.eqb_refl in O. destruct (badly_ok _ _ _ _ O) as (v & D & M). eauto.
Qed.
Print Assumptions C64_standard_refuted.

Example C64_separator_example : exists v, call isKeyword (ws ["/begin VARIANT_CODING"; "VAR_SEPARATOR"; "."; "/end VARIANT_CODING"; ""]%string) zeroFloat 100 parseVariantCoding 0 = Ret v false 3
  /\ look [Fld "varSeparator"; Fld "separator"] v = Some (LText (b ".")).
Proof. eexists. split; [vm_compute; reflexivity|reflexivity]. Qed.

(** Words for an object with several levels. *)
Definition groupWords : list bytes := ws ["G"; "a group"; "ROOT"; "/begin REF_CHARACTERISTIC"; "a"; "b"; "/end REF_CHARACTERISTIC";
  "/begin ANNOTATION"; "ANNOTATION_LABEL"; "x"; "/begin ANNOTATION_TEXT"; "some"; "text"; "/end ANNOTATION_TEXT"; "/end ANNOTATION"; "/end GROUP"]%string.
Example C64_example : In ("parseGroup", groupForm)%string standardForms /\ ~ In "parseGroup"%string misread
  /\ In ("parseGroup", parseGroup)%string allParsers /\ exists v, den zeroFloat groupForm groupWords v
  /\ look [Fld "annotation"; Nth 0; Fld "annotationText"; Nth 0; Fld "annotationText"] v = Some (LText (b " some text")).
Proof.
  split; [listed|]. split; [vm_compute; intuition discriminate|]. split; [listed|].
  destruct (describe zeroFloat 10 groupForm groupWords) as [[v r]|] eqn:D; [|vm_compute in D; discriminate].
  destruct (describe_ok _ _ _ _ _ _ D) as (ts1 & E & DN). vm_compute in D. injection D as <- <-. rewrite app_nil_r in E. subst ts1.
  eexists. split; [exact DN|]. vm_compute. reflexivity.
Qed.

(** and the whole file: a project with a module *)
Definition projectWords : list bytes := ws ["P"; "a project"; "/begin HEADER"; "comment"; "VERSION"; "v1"; "/end HEADER";
  "/begin MODULE"; "M"; "a module"; "/begin COMPU_VTAB"; "T"; "table"; "TAB_VERB"; "2"; "0"; "off"; "0"; "on"; "/end COMPU_VTAB";
  "/begin CHARACTERISTIC"; "C"; "a value"; "VALUE"; "0x1000"; "R"; "0"; "T"; "0"; "0"; "MATRIX_DIM"; "7"; "/end CHARACTERISTIC";
  "/end MODULE"; "/end PROJECT"]%string.
Example C64_project_example : In ("parseProject", projectRead)%string readForms /\ In ("parseProject", parseProject)%string allParsers
  /\ exists v, den zeroFloat projectRead projectWords v /\ look [Fld "header"; Fld "version"; Fld "versionIdentifier"] v = Some (LText (b "v1")).
Proof.
  split; [listed|]. split; [listed|].
  destruct (describe zeroFloat 10 projectRead projectWords) as [[v r]|] eqn:D; [|vm_compute in D; discriminate].
  destruct (describe_ok _ _ _ _ _ _ D) as (ts1 & E & DN). vm_compute in D. injection D as <- <-. rewrite app_nil_r in E. subst ts1.
  eexists. split; [exact DN|]. vm_compute. reflexivity.
Qed.
