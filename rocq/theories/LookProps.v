(** Properties of the lookups. *)
From Coq Require Import String Ascii List Arith NArith ZArith Bool Lia Sorted.
From Verif Require Import GoBase GoBaseFacts CompuModel LookModel.
Import ListNotations.

(** ** Specification *)

(** The object [o] is declared under the name [k] in the module. *)
Inductive declared {obj} (m : moduleMaps obj) (k : bytes) : object obj -> Prop :=
  | d_axis o : In (k, o) (m_axisPts m) -> declared m k (AxisPts o)
  | d_char o : In (k, o) (m_characteristics m) -> declared m k (Characteristic o)
  | d_cm o : In (k, o) (m_compuMethods m) -> declared m k (CompuMethodO o)
  | d_ct o : In (k, o) (m_compuTabs m) -> declared m k (CompuTabO o)
  | d_cv o : In (k, o) (m_compuVTabs m) -> declared m k (CompuVTabO o)
  | d_cr o : In (k, o) (m_compuVTabRanges m) -> declared m k (CompuVTabRangeO o)
  | d_fn o : In (k, o) (m_functions m) -> declared m k (Function_ o)
  | d_gr o : In (k, o) (m_groups m) -> declared m k (Group_ o)
  | d_ms o : In (k, o) (m_measurements m) -> declared m k (Measurement o)
  | d_rl o : In (k, o) (m_recordLayouts m) -> declared m k (RecordLayout o)
  | d_sc o : In (k, o) (m_systemConstants m) -> declared m k (SystemConstantO o)
  | d_un o : In (k, o) (m_units m) -> declared m k (Unit_ o).

(** the place of a kind in the fixed order *)
Definition rank {obj} (o : object obj) : nat :=
  match o with
  | AxisPts _ => 0 | Characteristic _ => 1 | CompuMethodO _ => 2 | CompuTabO _ => 3 | CompuVTabO _ => 4
  | CompuVTabRangeO _ => 5 | Function_ _ => 6 | Group_ _ => 7 | Measurement _ => 8 | RecordLayout _ => 9
  | SystemConstantO _ => 10 | Unit_ _ => 11
  end.

Definition keyed {A} (m : smap A) : Prop := NoDup (map fst m).

(** the maps are Go maps: one entry per key *)
Definition are_maps {obj} (m : moduleMaps obj) : Prop :=
  keyed (m_axisPts m) /\ keyed (m_characteristics m) /\ keyed (m_compuMethods m) /\ keyed (m_compuTabs m)
  /\ keyed (m_compuVTabs m) /\ keyed (m_compuVTabRanges m) /\ keyed (m_functions m) /\ keyed (m_groups m)
  /\ keyed (m_measurements m) /\ keyed (m_recordLayouts m) /\ keyed (m_systemConstants m) /\ keyed (m_units m).

(** ** Proofs *)

Lemma sfind_in : forall A k (m : smap A) o, keyed m -> (sfind k m = Some o <-> In (k, o) m).
Proof.
  intros A k m o. induction m as [|[k' v] m IH]; intros K; cbn [sfind].
  - split; [discriminate|intros []].
  - inversion K as [|? ? K1 K2]; subst. destruct (beqb k k') eqn:E.
    + apply beqb_eq in E. subst k'. split.
      * intros [= ->]. left. reflexivity.
      * intros [[= ->]|H]; [reflexivity|]. exfalso. apply K1. apply in_map_iff. exists (k, o). auto.
    + assert (k <> k') by (intros ->; rewrite (proj2 (beqb_eq k' k') eq_refl) in E; discriminate).
      rewrite IH by exact K2. split; [right; assumption|intros [[= <- <-]|H']; [congruence|exact H']].
Qed.

Lemma addFound_in : forall A obj (mk : A -> object obj) k (m : smap A) acc x, keyed m ->
    (In x (addFound mk k m acc) <-> In x acc \/ exists o, x = mk o /\ In (k, o) m).
Proof.
  intros A obj mk k m acc x K. unfold addFound. destruct (sfind k m) as [o|] eqn:E.
  - apply sfind_in in E; [|exact K]. rewrite in_app_iff. cbn [In]. split.
    + intros [H|[H|[]]]; [left; exact H|right; exists o; auto].
    + intros [H|(o' & -> & H)]; [left; exact H|]. right. left. f_equal.
      apply sfind_in in E; [|exact K]. apply sfind_in in H; [|exact K]. congruence.
  - split; [left; assumption|]. intros [H|(o & _ & H)]; [exact H|]. apply sfind_in in H; [congruence|exact K].
Qed.

Definition below {obj} (n : nat) (l : list (object obj)) : Prop :=
  StronglySorted (fun x y => rank x < rank y) l /\ Forall (fun x => rank x < n) l.

Lemma addFound_below : forall A obj (mk : A -> object obj) k (m : smap A) acc n, (forall o, rank (mk o) = n) ->
    below n acc -> below (S n) (addFound mk k m acc).
Proof.
  intros A obj mk k m acc n R [H1 H2]. unfold addFound.
  assert (H3 : Forall (fun x : object obj => rank x < S n) acc).
  { refine (Forall_impl _ _ H2). intros a L. lia. }
  destruct (sfind k m) as [o|]; [|split; assumption]. split.
  - clear H3. induction acc as [|x acc IH]; [repeat constructor|].
    inversion H1; inversion H2; subst. cbn [app]. constructor; [apply IH; assumption|].
    apply Forall_app. split; [assumption|]. constructor; [rewrite R; assumption|constructor].
  - apply Forall_app. split; [exact H3|]. constructor; [rewrite R; lia|constructor].
Qed.

(** ** C40 *)

(** Exactly the declared objects, in the order of the kinds, hence each once. *)
Theorem C40_lookup : forall obj (modules : list (moduleMaps obj)) index m k,
    nth_error modules index = Some m -> are_maps m ->
    exists l, GetObjectByIdent modules index k = Ok l
      /\ (forall x, In x l <-> declared m k x)
      /\ StronglySorted (fun x y => rank x < rank y) l.
Proof.
  intros obj modules index m k E K. unfold GetObjectByIdent. rewrite E. eexists. split; [reflexivity|]. split.
  - intros x. destruct K as (K1 & K2 & K3 & K4 & K5 & K6 & K7 & K8 & K9 & K10 & K11 & K12).
    rewrite !addFound_in by assumption. split.
    + intros H. repeat (destruct H as [H|(o & -> & H)]; [|constructor; exact H]). destruct H.
    + intros H. destruct H; try (right; eexists; split; [reflexivity|eassumption]); left;
        try (right; eexists; split; [reflexivity|eassumption]); left;
        try (right; eexists; split; [reflexivity|eassumption]); left;
        try (right; eexists; split; [reflexivity|eassumption]); left;
        try (right; eexists; split; [reflexivity|eassumption]); left;
        try (right; eexists; split; [reflexivity|eassumption]); left;
        try (right; eexists; split; [reflexivity|eassumption]); left;
        try (right; eexists; split; [reflexivity|eassumption]); left;
        try (right; eexists; split; [reflexivity|eassumption]); left;
        try (right; eexists; split; [reflexivity|eassumption]); left;
        try (right; eexists; split; [reflexivity|eassumption]); left;
        right; eexists; split; [reflexivity|eassumption].
  - cut (below 12 (match GetObjectByIdent modules index k with Ok l => l | _ => [] end)).
    { unfold GetObjectByIdent. rewrite E. intros [H _]. exact H. }
    unfold GetObjectByIdent. rewrite E.
    do 12 (apply addFound_below; [reflexivity|]). split; constructor.
Qed.
Print Assumptions C40_lookup.

(** A module index out of range panics. *)
Theorem C40_index_refuted : forall obj (modules : list (moduleMaps obj)) index k,
    (length modules <= index)%nat -> GetObjectByIdent modules index k = Panic.
Proof.
  intros obj modules index k H. unfold GetObjectByIdent. apply nth_error_None in H. rewrite H. reflexivity.
Qed.
Print Assumptions C40_index_refuted.

Definition exModule : moduleMaps nat :=
  ModuleMaps [(b "A", 1)] [(b "A", 2); (b "B", 3)] [] [] [] [] [] [] [(b "C", 4); (b "A", 5)] []
             [(b "S", SysConst (b "S") (b "42") true); (b "N", SysConst (b "N") [] false)] [(b "A", 6)].

Example C40_example :
  are_maps exModule
  /\ GetObjectByIdent [exModule] 0 (b "A") = Ok [AxisPts 1; Characteristic 2; Measurement 5; Unit_ 6].
Proof.
  split; [|vm_compute; reflexivity].
  unfold are_maps, keyed, exModule; cbn.
  repeat split; repeat constructor; cbn; intuition (try discriminate).
Qed.

(** ** C41 *)

(** The value is always the empty string. *)
Theorem C41_value_refuted : forall obj (modules : list (moduleMaps obj)) index k v,
    getSystemConstantValue modules index k = Ok v -> v = [].
Proof.
  intros obj modules index k v. unfold getSystemConstantValue.
  destruct (getSystemConstant modules index k) as [sc| |]; try discriminate.
  destruct (sc_valueSet sc); [|discriminate]. intros [= <-]. reflexivity.
Qed.
Print Assumptions C41_value_refuted.

(** Right for the errors, and for the constants whose value is empty. *)
Theorem C41_errors_guarded : forall obj (modules : list (moduleMaps obj)) index m k,
    nth_error modules index = Some m -> are_maps m ->
    ((forall s, ~ In (k, s) (m_systemConstants m)) -> getSystemConstantValue modules index k = Err SCMissing)
    /\ (forall s, In (k, s) (m_systemConstants m) ->
          (sc_valueSet s = false -> getSystemConstantValue modules index k = Err SCNoValue)
          /\ (sc_valueSet s = true -> sc_value s = [] -> getSystemConstantValue modules index k = Ok (sc_value s))).
Proof.
  intros obj modules index m k E K. destruct K as (_ & _ & _ & _ & _ & _ & _ & _ & _ & _ & K & _).
  unfold getSystemConstantValue, getSystemConstant. rewrite E. split.
  - intros H. destruct (sfind k (m_systemConstants m)) as [s|] eqn:F; [|reflexivity].
    apply sfind_in in F; [|exact K]. exfalso. eapply H. exact F.
  - intros s H. apply sfind_in in H; [|exact K]. rewrite H. split; [intros -> |intros -> ->]; reflexivity.
Qed.
Print Assumptions C41_errors_guarded.

Example C41_example :
  getSystemConstantValue [exModule] 0 (b "S") = Ok [] /\ sfind (b "S") (m_systemConstants exModule) = Some (SysConst (b "S") (b "42") true)
  /\ getSystemConstantValue [exModule] 0 (b "N") = Err SCNoValue
  /\ getSystemConstantValue [exModule] 0 (b "X") = Err SCMissing.
Proof. vm_compute. auto. Qed.
