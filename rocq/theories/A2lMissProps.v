(** C74: missing parameters. *)
From Coq Require Import String Ascii List Arith NArith ZArith Bool Lia SpecFloat.
From Verif Require Import GoBase GoBaseFacts A2lIR A2lTokens A2lParsers A2lSpec A2lModProps A2lProps A2lGrammar A2lForms.
From Verif Require TokModel TokSpec TokThm A2lTextModel A2lFileModel A2lFileProps.
Import ListNotations.

(** An object that ends at once. *)
Definition endsAtOnce (stop : string) : list bytes := [b "/begin"; b stop; []].

(** The mandatory parameters of an object with begin and end keyword, and the end keyword. *)
Definition mandatory (f : form) : option (list param * string) :=
  match f with Block _ (p :: ps) _ _ stop _ => Some (p :: ps, stop) | _ => None end.

Definition lacks (ps : list param) (o : fields) : bool := forallb (fun p => match fget (p_field p) o with None => true | Some _ => false end) ps.

Lemma empty_check : forall pf, forallb (fun p => match mandatory (snd p) with None => true | Some (ps, stop) =>
    forallb (fun q => if String.eqb (fst p) (fst q) then
      match call isKeyword (endsAtOnce stop) pf 9 (snd q) 0 with Ret (VObj o) false 1 => lacks ps o | _ => false end else true) allParsers end) standardForms = true.
Proof. intros pf. vm_compute. reflexivity. Qed.

(** Each object with a begin and an end keyword that has mandatory parameters may
    end at once: its parser reports no error and returns an object without any of them. *)
Theorem C74_empty_refuted : forall name f ps stop g pf, In (name, f) standardForms -> mandatory f = Some (ps, stop) -> In (name, g) allParsers ->
    exists o, returns (endsAtOnce stop) pf g 0 (VObj o) false 1 /\ forall p, In p ps -> fget (p_field p) o = None.
Proof.
  intros name f ps stop g pf I M J. pose proof (proj1 (forallb_forall _ _) (empty_check pf) _ I) as K.
  cbn [fst snd] in K. rewrite M in K. pose proof (proj1 (forallb_forall _ _) K _ J) as L. cbn [fst snd] in L. rewrite String.eqb_refl in L.
  destruct (call isKeyword (endsAtOnce stop) pf 9 g 0) as [[| | | | | |o] [|] [|[|j]]| |] eqn:E; try discriminate.
  exists o. split; [apply (returns_run 9), E|]. intros p P. pose proof (proj1 (forallb_forall _ _) L _ P) as F. cbv beta in F. destruct (fget (p_field p) o); [discriminate|reflexivity].
Qed.
Print Assumptions C74_empty_refuted.

(** These are 38 kinds of objects. *)
Example C74_kinds : length (filter (fun p => match mandatory (snd p) with Some _ => true | None => false end) standardForms) = 38.
Proof. vm_compute. reflexivity. Qed.

(** A file with a measurement without name, type and limits is read without an error. *)
Definition nameless : bytes := b "/begin PROJECT /begin MODULE /begin MEASUREMENT /end MEASUREMENT /end MODULE /begin MODULE /end MODULE /end PROJECT".
Definition namelessTokens : list bytes := map b
  ["/begin PROJECT"; "/begin MODULE"; "/begin MEASUREMENT"; "/end MEASUREMENT"; "/end MODULE"; "/begin MODULE"; "/end MODULE"; "/end PROJECT"; ""]%string.
Theorem C74_file_refuted : exists a, forall gr pf, A2lFileModel.parseFromFile gr pf 1 (Some nameless) (A2lFileModel.Returned a false).
Proof.
  eexists. intros gr pf. assert (T : A2lFileModel.fileTokens gr 1 nameless (Some (TokModel.Tokens namelessTokens false))).
  { unfold A2lFileModel.fileTokens. replace (A2lTextModel.cleanBytesString gr nameless) with nameless by (vm_compute; reflexivity).
    apply TokThm.exec_lex. vm_compute. reflexivity. }
  apply (A2lFileProps.C65_sequential gr pf 1 nameless _ _ T eq_refl). do 3 eexists. split; [reflexivity|].
  apply (returns_run 50). vm_compute. reflexivity.
Qed.
Print Assumptions C74_file_refuted.

Example C74_example : exists f ps, In ("parseMeasurement"%string, f) standardForms /\ mandatory f = Some (ps, "/end MEASUREMENT"%string)
  /\ In ("parseMeasurement"%string, parseMeasurement) allParsers /\ length ps = 8.
Proof.
  do 2 eexists. split; [unfold standardForms; repeat (first [left; reflexivity|right])|]. split; [reflexivity|].
  split; [unfold allParsers; repeat (first [left; reflexivity|right])|reflexivity].
Qed.
