(** Theorems of property C94: toHashMap. *)
From Coq Require Import String Ascii List Arith NArith ZArith Bool Lia SpecFloat.
From Verif Require Import GoBase GoBaseFacts StrconvModel FloatSpec A2lIR A2lTokens A2lParsers A2lSpec A2lFileModel OriginSpec OriginThm GoTypes A2lStructs A2lTypeProps HashModel HashSpec HashThm.
From Verif Require TokModel TokThm A2lTextModel A2lNestProps OriginProps A2lFileProps A2lModProps.
Import ListNotations.
Local Open Scope string_scope.
Local Open Scope list_scope.

Lemma tree_narrow : narrow type_A2L = true. Proof. vm_compute. reflexivity. Qed.
Lemma tree_distinct : distinct type_A2L = true. Proof. vm_compute. reflexivity. Qed.

(** ** Errors *)

(** Any file, any outcome: there is no hash map if and only if a public field that is read
    from the file is NaN or infinite. *)
Theorem C94_error : forall gr pf cpus file a e, parseFromFile gr pf cpus file (Returned a e) ->
    (toHashMap a = None <-> exists p f, leads type_A2L (Some (VObj a)) p GFloat (Some (VFloat f)) /\ (f = S754_nan \/ exists s, f = S754_infinity s)).
Proof.
  intros gr pf cpus file a e H. pose proof (C93_file _ _ _ _ _ _ H) as C. unfold toHashMap.
  assert (K : forall f, finite f = false <-> (f = S754_nan \/ exists s, f = S754_infinity s)).
  { intros [s|s| |s m x]; cbn; split; try discriminate; try (intros [E|[s' E]]; discriminate); eauto. }
  split.
  - intros N. destruct (fails type_A2L (Some (VObj a)) tree_distinct C N) as (p & f & L & F). exists p, f. split; [exact L|apply K, F].
  - intros (p & f & L & F). eapply leads_fails; [exact L|]. apply K, F.
Qed.
Print Assumptions C94_error.

(** The tokens of a tree that can be one: a value at a place of it is made of tokens. *)
Lemma leads_origin : forall (g : bytes -> Prop) pf x t v p u w, leads t v p u w -> zeroOr (origin g pf x) v -> zeroOr (origin g pf x) w.
Proof.
  intros g pf x t v p u w L. induction L as [t v|fs o f t p u w P D _ IH|fs f t p u w P D _ IH|t l n y p u w N _ IH|k t l n y p u w N _ IH|k t n p u w N _ IH|t m k y p u w I _ IH]; intros O; try exact O.
  - apply IH. destruct (fget f o) as [y|] eqn:F; [|exact Logic.I]. inversion O as [| | | | | | | | | | |? K]; subst. destruct (fget_in _ _ _ F) as [f' I]. exact (K _ _ I).
  - apply IH. exact Logic.I.
  - apply IH. inversion O as [| | | | | | | | |? K| |]; subst. apply K. eapply nth_error_In. exact N.
  - apply IH. inversion O as [| | | | | | | | |? K| |]; subst. apply K. eapply nth_error_In. exact N.
  - apply IH. exact Logic.I.
  - apply IH. inversion O as [| | | | | | | | | |? K _|]; subst. exact (K _ _ I).
Qed.

(** A file that is read without an error: there is a hash map unless one of its tokens is
    read as NaN or infinite. *)
Theorem C94_no_error : forall gr pf cpus content t a, parseFromFile gr pf cpus (Some content) (Returned a false) -> fileTokens gr cpus content (Some t) ->
    (forall s f, In s (TokModel.tk_list t) -> pf s = Some f -> f <> S754_nan /\ forall x, f <> S754_infinity x) -> exists h, toHashMap a = Some h.
Proof.
  intros gr pf cpus content t a P T F. destruct (toHashMap a) as [h|] eqn:H; [eauto|]. exfalso.
  apply (C94_error _ _ _ _ _ _ P) in H. destruct H as (p & f & L & NF). destruct (OriginProps.C86_file _ _ _ _ _ _ P) as (t' & T' & O & _).
  pose proof (A2lFileProps.tokens_one _ _ _ _ _ T' T) as ET. injection ET as ->. pose proof (leads_origin _ _ _ _ _ _ _ _ L O) as OF. cbn [zeroOr] in OF.
  inversion OF as [| | | | |s ? I E| |? ? X| | | |]; subst; [|discriminate]. destruct (F s f I E) as [F1 F2]. destruct NF as [NF|[x NF]]; [exact (F1 NF)|exact (F2 x NF)].
Qed.
Print Assumptions C94_no_error.

(** ** What is in the hash map *)

Lemma utf8_app : forall s t, utf8 s -> utf8 t -> utf8 (s ++ t).
Proof. intros s t U V. induction U; cbn [app]; [exact V|apply u_1|apply u_2|apply u_3|apply u_4]; assumption. Qed.
Lemma origin_encoded : forall (g : bytes -> Prop) pf x v, (forall s, g s -> utf8 s) -> origin g pf x v -> encoded v.
Proof.
  intros g pf x v G O. induction O as [s H| | |s t _ IH H|t z _ _|t f _ _|t z _ _ _|t f _ _ _| |l _ IH|m _ IH K|o _ IH]; try constructor.
  - apply G, H.
  - constructor.
  - vm_compute. repeat (apply u_1; [split; vm_compute; discriminate|]). constructor.
  - inversion IH as [? U| | | | | |]; subst. apply utf8_app; [exact U|]. cbn [app b list_ascii_of_string]. apply u_1; [split; vm_compute; discriminate|]. apply G, H.
  - exact IH.
  - intros k v I. split; [|exact (IH _ _ I)]. destruct (K _ _ I) as [->|(o & f & -> & F)]; [constructor|].
    specialize (IH _ _ I). inversion IH as [| | | | | |? KE]; subst. specialize (KE _ _ F). inversion KE; subst; assumption.
  - intros f v F. destruct (fget_in _ _ _ F) as [f' I]. exact (IH _ _ I).
Qed.

(** A file whose tokens are UTF-8, any outcome: at each place of the tree that is public
    the hash map has what it should have, and it has nothing else. *)
Theorem C94_places_guarded : forall gr pf cpus content t a e h, parseFromFile gr pf cpus (Some content) (Returned a e) -> fileTokens gr cpus content (Some t) ->
    (forall s, In s (TokModel.tk_list t) -> utf8 s) -> toHashMap a = Some h -> forall p,
    (forall u w, leads type_A2L (Some (VObj a)) p u w -> exists x, at_ h p = Some x /\ shows u w x) /\
    (forall x, at_ h p = Some x -> exists u w, leads type_A2L (Some (VObj a)) p u w /\ shows u w x).
Proof.
  intros gr pf cpus content t a e h P T U H p. apply places; [exact tree_narrow|exact (C93_file _ _ _ _ _ _ P)| |exact H].
  destruct (OriginProps.C86_file _ _ _ _ _ _ P) as (t' & T' & O & _). pose proof (A2lFileProps.tokens_one _ _ _ _ _ T' T) as ET. injection ET as ->.
  exact (origin_encoded _ _ _ _ U O).
Qed.
Print Assumptions C94_places_guarded.

(** Trees that differ in other fields only have the same hash map. *)
Theorem C94_hidden : forall a a', alike type_A2L (Some (VObj a)) (Some (VObj a')) -> toHashMap a = toHashMap a'.
Proof. intros a a' A. apply hidden; [exact tree_distinct|exact A]. Qed.
Print Assumptions C94_hidden.

(** ** Files *)

Ltac file_tokens := intros gr; unfold fileTokens; change (1 * 2) with 2;
  match goal with |- context [A2lTextModel.cleanBytesString gr ?f] => replace (A2lTextModel.cleanBytesString gr f) with f by (vm_compute; reflexivity); apply (proj2 (TokThm.exec_lex 2 f _)) end;
  vm_compute; reflexivity.

Definition hashFile (x y : bytes) : bytes := b "ASAP2_VERSION 1 60 /begin PROJECT p q /begin MODULE m n " ++ x ++ b " " ++ y ++ b " /end MODULE /begin MODULE m n /end MODULE /end PROJECT".
Definition hashTokens (l : list bytes) : list bytes := map b ["ASAP2_VERSION"; "1"; "60"; "/begin PROJECT"; "p"; "q"; "/begin MODULE"; "m"; "n"] ++ l ++
  map b ["/end MODULE"; "/begin MODULE"; "m"; "n"; "/end MODULE"; "/end PROJECT"; ""].
Definition method (name unit coeff : bytes) : bytes := b "/begin COMPU_METHOD " ++ name ++ b " c LINEAR %3.1 " ++ unit ++ b " COEFFS_LINEAR " ++ coeff ++ b " 0 /end COMPU_METHOD".
Definition methodTokens (name unit coeff : bytes) : list bytes := [b "/begin COMPU_METHOD"; name; b "c"; b "LINEAR"; b "%3.1"; unit; b "COEFFS_LINEAR"; coeff; b "0"; b "/end COMPU_METHOD"].
Definition measured (type : string) : bytes := b ("/begin MEASUREMENT s l " ++ type ++ " NO 0 0 0 255 /end MEASUREMENT").
Definition measuredTokens (type : string) : list bytes := map b ["/begin MEASUREMENT"; "s"; "l"; type; "NO"; "0"; "0"; "0"; "255"; "/end MEASUREMENT"].

(** [C94_places_guarded] and [C94_no_error]: a file with a conversion method. *)
Definition goodFile : bytes := hashFile (method (b "cm") (b "km") (b "1.5")) (measured "UBYTE").
Lemma good_tokens : forall gr, fileTokens gr 1 goodFile (Some (TokModel.Tokens (hashTokens (methodTokens (b "cm") (b "km") (b "1.5") ++ measuredTokens "UBYTE")) false)).
Proof. file_tokens. Qed.
Example C94_example : exists a h, (forall gr, parseFromFile gr ParseFloat 1 (Some goodFile) (Returned a false)) /\ toHashMap a = Some h /\
    let cm := [Key (b "Project"); Key (b "Modules"); Item 0; Key (b "CompuMethods"); Key (b "cm")] in
    (exists f, at_ h (cm ++ [Key (b "CoeffsLinear"); Key (b "A")]) = Some (HNum f) /\ ParseFloat (b "1.5") = Some f) /\ at_ h (cm ++ [Key (b "Unit")]) = Some (HStr (b "km")) /\
    at_ h [Key (b "Project"); Key (b "Modules"); Item 0; Key (b "Measurements"); Key (b "s"); Key (b "datatype")] = None /\
    (forall p u w, leads type_A2L (Some (VObj a)) p u w -> exists x, at_ h p = Some x /\ shows u w x).
Proof.
  assert (X : exists a, (forall gr, parseFromFile gr ParseFloat 1 (Some goodFile) (Returned a false)) /\ exists h, toHashMap a = Some h /\
    let cm := [Key (b "Project"); Key (b "Modules"); Item 0; Key (b "CompuMethods"); Key (b "cm")] in
    (exists f, at_ h (cm ++ [Key (b "CoeffsLinear"); Key (b "A")]) = Some (HNum f) /\ ParseFloat (b "1.5") = Some f) /\ at_ h (cm ++ [Key (b "Unit")]) = Some (HStr (b "km")) /\
    at_ h [Key (b "Project"); Key (b "Modules"); Item 0; Key (b "Measurements"); Key (b "s"); Key (b "datatype")] = None).
  { eexists. split.
    - intros gr. apply (A2lFileProps.C65_sequential _ ParseFloat 1 goodFile _ _ (good_tokens gr) eq_refl). do 3 eexists. split; [reflexivity|]. apply (A2lModProps.returns_run 80). vm_compute. reflexivity.
    - eexists. split; [vm_compute; reflexivity|]. split; [eexists; split; vm_compute; reflexivity|]. split; vm_compute; reflexivity. }
  destruct X as (a & P & h & H & X). exists a, h. split; [exact P|]. split; [exact H|]. cbv zeta in *. destruct X as (X1 & X2 & X3). split; [exact X1|]. split; [exact X2|]. split; [exact X3|].
  intros p. apply (C94_places_guarded (fun _ => false) ParseFloat 1 goodFile _ a false h (P _) (good_tokens _)); [|exact H].
  intros s I. vm_compute in I. repeat (destruct I as [<-|I]; [repeat (apply u_1; [split; vm_compute; discriminate|]); constructor|]). destruct I.
Qed.

(** The comment promises "all structs and their values".  Most fields are not public: a
    MEASUREMENT with another datatype gives the same hash map. *)
Lemma hidden_tokens : forall gr, fileTokens gr 1 (hashFile (b "") (measured "UBYTE")) (Some (TokModel.Tokens (hashTokens (measuredTokens "UBYTE")) false)) /\
   fileTokens gr 1 (hashFile (b "") (measured "SLONG")) (Some (TokModel.Tokens (hashTokens (measuredTokens "SLONG")) false)).
Proof. intros gr. split; revert gr; file_tokens. Qed.
Theorem C94_hidden_refuted : exists x y a c h, (forall gr, parseFromFile gr ParseFloat 1 (Some x) (Returned a false)) /\ (forall gr, parseFromFile gr ParseFloat 1 (Some y) (Returned c false)) /\
    toHashMap a = Some h /\ toHashMap c = Some h /\ a <> c.
Proof.
  exists (hashFile (b "") (measured "UBYTE")), (hashFile (b "") (measured "SLONG")). do 3 eexists. split; [|split; [|split; [|split]]].
  - intros gr. apply (A2lFileProps.C65_sequential _ ParseFloat 1 _ _ _ (proj1 (hidden_tokens gr)) eq_refl). do 3 eexists. split; [reflexivity|]. apply (A2lModProps.returns_run 80). vm_compute. reflexivity.
  - intros gr. apply (A2lFileProps.C65_sequential _ ParseFloat 1 _ _ _ (proj2 (hidden_tokens gr)) eq_refl). do 3 eexists. split; [reflexivity|]. apply (A2lModProps.returns_run 80). vm_compute. reflexivity.
  - vm_compute. reflexivity.
  - vm_compute. reflexivity.
  - discriminate.
Qed.
Print Assumptions C94_hidden_refuted.

(** A file with NAN for a coefficient is read without an error, but has no hash map. *)
Lemma nan_tokens : forall gr, fileTokens gr 1 (hashFile (method (b "cm") (b "km") (b "NAN")) (b "")) (Some (TokModel.Tokens (hashTokens (methodTokens (b "cm") (b "km") (b "NAN"))) false)).
Proof. file_tokens. Qed.
Theorem C94_nan_refuted : exists x a, (forall gr, parseFromFile gr ParseFloat 1 (Some x) (Returned a false)) /\ toHashMap a = None.
Proof.
  exists (hashFile (method (b "cm") (b "km") (b "NAN")) (b "")). eexists. split.
  - intros gr. apply (A2lFileProps.C65_sequential _ ParseFloat 1 _ _ _ (nan_tokens gr) eq_refl). do 3 eexists. split; [reflexivity|]. apply (A2lModProps.returns_run 80). vm_compute. reflexivity.
  - vm_compute. reflexivity.
Qed.
Print Assumptions C94_nan_refuted.

(** In a file in another encoding (here ISO 8859-1) texts are changed, so that of two
    methods with different names only one is in the hash map. *)
Definition degree : bytes := [ascii_of_N 0xB0].
Definition plusMinus : bytes := [ascii_of_N 0xB1].
Lemma latin_tokens : forall gr, fileTokens gr 1 (hashFile (method degree (degree ++ b "C") (b "1")) (method plusMinus (b "K") (b "1")))
  (Some (TokModel.Tokens (hashTokens (methodTokens degree (degree ++ b "C") (b "1") ++ methodTokens plusMinus (b "K") (b "1"))) false)).
Proof. file_tokens. Qed.
Theorem C94_places_refuted : exists x a h c d y, (forall gr, parseFromFile gr ParseFloat 1 (Some x) (Returned a false)) /\ toHashMap a = Some h /\
    let methods := [Key (b "Project"); Key (b "Modules"); Item 0; Key (b "CompuMethods")] in
    leads type_A2L (Some (VObj a)) (methods ++ [Key degree]) type_CompuMethod (Some (VObj c)) /\ fstr "Unit" c = degree ++ b "C" /\
    leads type_A2L (Some (VObj a)) (methods ++ [Key plusMinus]) type_CompuMethod (Some (VObj d)) /\ fstr "Unit" d = b "K" /\
    at_ h methods = Some (HMap [(map ascii_of_N [239; 191; 189]%N, y)]) /\ at_ y [Key (b "Unit")] = Some (HStr (b "K")) /\ at_ h (methods ++ [Key degree]) = None.
Proof.
  exists (hashFile (method degree (degree ++ b "C") (b "1")) (method plusMinus (b "K") (b "1"))). do 5 eexists. split; [|split; [|cbv zeta; split; [|split; [|split; [|split; [|split; [|split]]]]]]].
  - intros gr. apply (A2lFileProps.C65_sequential _ ParseFloat 1 _ _ _ (latin_tokens gr) eq_refl). do 3 eexists. split; [reflexivity|]. apply (A2lModProps.returns_run 80). vm_compute. reflexivity.
  - vm_compute. reflexivity.
  - cbn [app]. eapply le_field; [exists "P"%char; eexists; split; [reflexivity|cbn; tauto]|reflexivity|]. eapply le_field; [exists "M"%char; eexists; split; [reflexivity|cbn; tauto]|reflexivity|].
    eapply le_slice; [reflexivity|]. eapply le_field; [exists "C"%char; eexists; split; [reflexivity|cbn; tauto]|reflexivity|]. eapply le_map; [left; reflexivity|]. constructor.
  - reflexivity.
  - cbn [app]. eapply le_field; [exists "P"%char; eexists; split; [reflexivity|cbn; tauto]|reflexivity|]. eapply le_field; [exists "M"%char; eexists; split; [reflexivity|cbn; tauto]|reflexivity|].
    eapply le_slice; [reflexivity|]. eapply le_field; [exists "C"%char; eexists; split; [reflexivity|cbn; tauto]|reflexivity|]. eapply le_map; [right; left; reflexivity|]. constructor.
  - reflexivity.
  - vm_compute. reflexivity.
  - vm_compute. reflexivity.
  - vm_compute. reflexivity.
Qed.
Print Assumptions C94_places_refuted.
