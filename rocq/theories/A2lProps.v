(** Properties of the parsers of package a2l. *)
From Coq Require Import String Ascii List Arith NArith ZArith Bool Lia SpecFloat.
From Verif Require Import GoBase GoBaseFacts A2lIR A2lTokens A2lParsers A2lCheck A2lThm A2lSpec TokSpec TokModel TokProps.
Import ListNotations.

(** Membership in a long list of named entries. *)
Fixpoint index (name : string) (l : list string) : nat :=
  match l with [] => 0 | n :: l' => if String.eqb name n then 0 else S (index name l') end.
Ltac listed :=
  match goal with |- In (?n, ?x) ?l => let k := eval vm_compute in (index n (map fst l)) in apply (@nth_error_In _ l k); reflexivity end.

Definition noFloats : bytes -> option spec_float := fun _ => None.

(** ** C59: parsing ends; truncated objects are errors *)

Lemma allParsers_ok : forallb (fun p => okfn (snd p)) allParsers = true.
Proof. vm_compute. reflexivity. Qed.

(** Every parser returns on every token list from every position: it does not
    loop, does not panic, and does not move the cursor backwards. *)
Theorem C59_terminates : forall name g toks pf i, In (name, g) allParsers -> ended toks -> i < length toks ->
    exists v e j, returns toks pf g i v e j /\ i <= j < length toks.
Proof.
  intros name g toks pf i HI HE L. pose proof (proj1 (forallb_forall _ _) allParsers_ok _ HI) as O. cbn [snd] in O.
  destruct (okfn_sound isKeyword toks pf (S (length toks)) eq_refl HE (le_n _) g O i L) as (v & e & j & C & J).
  exists v, e, j. split; [|exact J]. exists (S (length toks)). intros fuel F.
  rewrite (proj2 (proj2 (proj2 (fuel_mono isKeyword toks pf _ _ F)))), C by (rewrite C; discriminate). reflexivity.
Qed.
Print Assumptions C59_terminates.

Example C59_terminates_example :
  In ("parseModule", parseModule)%string allParsers /\ ended [b "/begin MODULE"; b "M"; b "/begin UNIT"; []].
Proof. split; [listed|exists [b "/begin MODULE"; b "M"; b "/begin UNIT"]; reflexivity]. Qed.

Lemma brackets_ok :
  forallb (fun p => forallb (fun q => if String.eqb (fst p) (fst q) then if String.eqb (fst p) "parseFrame" then true else endsAt (snd q) (snd p) else true) allParsers) brackets = true.
Proof. vm_compute. reflexivity. Qed.

(** Without an error, the cursor has moved to the end keyword of the object. *)
Theorem C59_end_guarded : forall name stop g toks pf i,
    In (name, stop) brackets -> In (name, g) allParsers -> name <> "parseFrame"%string -> ended toks -> i < length toks ->
    exists v e j, returns toks pf g i v e j /\ (e = false -> i < j < length toks /\ nth j toks [] = b stop).
Proof.
  intros name stop g toks pf i HB HI NF HE L.
  pose proof (proj1 (forallb_forall _ _) (proj1 (forallb_forall _ _) brackets_ok _ HB) _ HI) as O. cbn [fst snd] in O.
  rewrite String.eqb_refl in O. apply String.eqb_neq in NF. rewrite NF in O.
  destruct (endsAt_sound isKeyword toks pf (S (length toks)) eq_refl HE (le_n _) g stop O i L) as (v & e & j & C & J).
  exists v, e, j. split; [|exact J]. exists (S (length toks)). intros fuel F.
  rewrite (proj2 (proj2 (proj2 (fuel_mono isKeyword toks pf _ _ F)))), C by (rewrite C; discriminate). reflexivity.
Qed.
Print Assumptions C59_end_guarded.

(** An object whose end keyword does not follow is an error. *)
Theorem C59_truncated_guarded : forall name stop g toks pf i,
    In (name, stop) brackets -> In (name, g) allParsers -> name <> "parseFrame"%string -> ended toks -> i < length toks ->
    (forall k, i < k < length toks -> nth k toks [] <> b stop) ->
    exists v j, returns toks pf g i v true j.
Proof.
  intros name stop g toks pf i HB HI NF HE L N.
  destruct (C59_end_guarded name stop g toks pf i HB HI NF HE L) as (v & e & j & R & J).
  destruct e; [exists v, j; exact R|]. destruct (J eq_refl) as [L' E]. destruct (N j L' E).
Qed.
Print Assumptions C59_truncated_guarded.

(** Not so for FRAME. *)
Theorem C59_frame_refuted : exists toks i, In ("parseFrame", "/end FRAME")%string brackets /\ In ("parseFrame", parseFrame)%string allParsers
    /\ ended toks /\ i < length toks /\ (forall k, i < k < length toks -> nth k toks [] <> b "/end FRAME")
    /\ forall pf, exists v j, returns toks pf parseFrame i v false j.
Proof.
  exists [b "/begin FRAME"; b "F"; []], 0. split; [listed|]. split; [listed|].
  split; [exists [b "/begin FRAME"; b "F"]; reflexivity|]. split; [cbn; lia|]. split.
  - intros k K. destruct k as [|[|[|k]]]; cbn [length] in K; try lia; vm_compute; discriminate.
  - intros pf. eexists. eexists. exists 5. intros fuel F. rewrite (proj2 (proj2 (proj2 (fuel_mono isKeyword _ pf _ _ F)))); vm_compute; [reflexivity|discriminate].
Qed.
Print Assumptions C59_frame_refuted.

(** All end keywords have their parser in the table but two without a parser. *)
Example C59_brackets : filter (fun k => negb (existsb (String.eqb k) (map snd brackets)) && prefix "/end" k) keywords
  = ["/end FIX_AXIS_PAR"; "/end USER"]%string.
Proof. vm_compute. reflexivity. Qed.

Example C59_truncated_example : let toks := [b "/begin UNIT"; b "U"; b "/begin COMPU_TAB"; []] in
  In ("parseUnit", "/end UNIT")%string brackets /\ In ("parseUnit", parseUnit)%string allParsers
  /\ forall k, 0 < k < length toks -> nth k toks [] <> b "/end UNIT".
Proof.
  split; [listed|]. split; [listed|].
  intros k K. destruct k as [|[|[|[|k]]]]; cbn [length] in K; try lia; vm_compute; discriminate.
Qed.

(** ** C63: no text makes the parser loop or panic *)

Theorem C63_any_text : forall np text r pf, tok_exec np text r ->
    exists t v e j, r = Some t /\ returns (tk_list t) pf parseA2l 0 v e j.
Proof.
  intros np text r pf H. destruct (C44_no_error np text r H) as (t & -> & L).
  assert (E : ended (tk_list t)) by (eexists; exact L).
  destruct (C59_terminates "parseA2l" parseA2l (tk_list t) pf 0) as (v & e & j & R & _); [|exact E| |].
  - listed.
  - rewrite L, app_length. cbn. lia.
  - exists t, v, e, j. split; [reflexivity|exact R].
Qed.
Print Assumptions C63_any_text.
