(** Single objects of ASAP2: C51-C53, C55-C58. *)
From Coq Require Import String Ascii List Arith NArith ZArith Bool Lia SpecFloat.
From Verif Require Import GoBase GoBaseFacts A2lIR A2lTokens A2lParsers A2lCheck A2lSpec A2lProps.
From Verif Require Import A2lGrammar A2lForms A2lDescribe A2lFormSpec A2lFormProps.
Import ListNotations.

(** ** Specification *)

(** A word that is neither empty nor a keyword. *)
Definition word (t : bytes) : Prop := t <> [] /\ reserved t = false.
(** A word for a number. *)
Definition natural (t : bytes) (n : Z) : Prop := word t /\ ParseUint 16 t = Some n.
Definition float (pf : bytes -> option spec_float) (t : bytes) (x : spec_float) : Prop := word t /\ pf t = Some x.

(** Parser [g], called on the word before [ts], returns the object [o] and stops on the last word of [ts]. *)
Definition yields (pf : bytes -> option spec_float) (g : fn) (ts : list bytes) (o : fields) : Prop :=
  forall (before : list bytes) (first : bytes) (after : list bytes), first <> [] -> ended after ->
    returns (before ++ first :: ts ++ after) pf g (length before) (VObj o) false (length before + length ts).

(** ** Proofs *)

Lemma yields_reads : forall name f g pf ts o, In (name, f) readForms -> In (name, g) allParsers ->
    (forall t, follows f t = true) -> den pf f ts (VObj o) -> yields pf g ts o.
Proof. intros name f g pf ts o HF HG FO D before first after FN EN. exact (C64_reads name f g pf ts (VObj o) HF HG D before first after FN EN (FO _)). Qed.

Lemma natural_bound : forall t n, natural t (Z.of_nat n) -> n < 2 ^ 16.
Proof.
  intros t n [_ W]. unfold ParseUint in W. destruct t; [discriminate|]. destruct (digits _ _) as [m|]; [|discriminate].
  destruct (m <? 2 ^ 16)%N eqn:E; [|discriminate]. apply N.ltb_lt in E. injection W as W.
  apply Nat2Z.inj_lt. rewrite Nat2Z.inj_pow, <- W. change (Z.of_nat 2 ^ Z.of_nat 16)%Z with (Z.of_N (2 ^ 16)). apply N2Z.inj_lt. exact E.
Qed.
Lemma w_text : forall pf stop p ps t ts vs, p_type p = Text -> word t -> words pf stop ps ts vs -> words pf stop (p :: ps) (t :: ts) (VStr t :: vs).
Proof. intros pf stop p ps t ts vs E [W1 W2] W. constructor; [|exact W]. rewrite E. split; [exact W1|]. split; [exact W2|reflexivity]. Qed.
Lemma w_any : forall pf stop p ps t ts vs, p_type p = Any -> t <> [] -> t <> b stop -> words pf stop ps ts vs -> words pf stop (p :: ps) (t :: ts) (VStr t :: vs).
Proof. intros pf stop p ps t ts vs E W1 W2 W. constructor; [|exact W]. rewrite E. split; [exact W1|]. split; [exact W2|reflexivity]. Qed.
Lemma w_nat : forall pf stop p ps t n ts vs, p_type p = Number (NUint 16) -> natural t n -> words pf stop ps ts vs -> words pf stop (p :: ps) (t :: ts) (VInt n :: vs).
Proof. intros pf stop p ps t n ts vs E [[W1 W2] W3] W. constructor; [|exact W]. rewrite E. split; [exact W1|]. split; [exact W2|]. cbn. rewrite W3. reflexivity. Qed.
Lemma w_float : forall pf stop p ps t x ts vs, p_type p = Number NFloat -> float pf t x -> words pf stop ps ts vs -> words pf stop (p :: ps) (t :: ts) (VFloat x :: vs).
Proof. intros pf stop p ps t x ts vs E [[W1 W2] W3] W. constructor; [|exact W]. rewrite E. split; [exact W1|]. split; [exact W2|]. cbn. rewrite W3. reflexivity. Qed.
Lemma w_choice : forall pf stop p ps s l ts vs, p_type p = Choice l -> In s l -> s <> ""%string -> words pf stop ps ts vs -> words pf stop (p :: ps) (b s :: ts) (VStr (b s) :: vs).
Proof.
  intros pf stop p ps s l ts vs E I N W. constructor; [|exact W]. rewrite E. split; [destruct s; [congruence|discriminate]|]. split; [|reflexivity]. eauto.
Qed.

Ltac wds := repeat first
  [ apply w_nil
  | apply w_text; [reflexivity|assumption|]
  | eapply w_nat; [reflexivity|eassumption|]
  | eapply w_float; [reflexivity|eassumption|]
  | eapply w_choice; [reflexivity|eassumption|assumption|] ].

(** ** C51: MATRIX_DIM *)

(** One dimension before a keyword, as ASAP2 wants it. *)
Theorem C51_one_guarded : forall pf t x k (before : list bytes) (first : bytes) (after : list bytes),
    natural t x -> isKeyword k = true -> first <> [] ->
    returns (before ++ first :: t :: k :: after ++ [[]]) pf parseMatrixDim (length before)
      (VObj [("DimX", VInt x); ("DimXSet", VBool true)]%string) false (length before + 1).
Proof.
  intros pf t x k before first after W K FN.
  refine (C64_reads "parseMatrixDim" matrixDimRead parseMatrixDim pf [t] _ ltac:(listed) ltac:(listed) _ before first (k :: after ++ [[]]) FN _ K).
  - change [t] with ([t] ++ []). refine (d_ahead pf _ _ [] _ _ _ _ _ _ _); [wds|]. exists 0. constructor.
  - exists (k :: after). reflexivity.
Qed.
Print Assumptions C51_one_guarded.

(** Two and three dimensions: the last number is stored as the second dimension,
    no flag is set for it, and the third is lost. *)
Theorem C51_more_as_read : forall pf tx ty tz x y z k (before : list bytes) (first : bytes) (after : list bytes),
    natural tx x -> natural ty y -> natural tz z -> isKeyword k = true -> first <> [] ->
    returns (before ++ first :: tx :: ty :: k :: after ++ [[]]) pf parseMatrixDim (length before)
      (VObj [("DimX", VInt x); ("DimXSet", VBool true); ("DimY", VInt y)]%string) false (length before + 2)
    /\ returns (before ++ first :: tx :: ty :: tz :: k :: after ++ [[]]) pf parseMatrixDim (length before)
      (VObj [("DimX", VInt x); ("DimXSet", VBool true); ("DimY", VInt z)]%string) false (length before + 3).
Proof.
  intros pf tx ty tz x y z k before first after Wx Wy Wz K FN. split.
  - refine (C64_reads "parseMatrixDim" matrixDimRead parseMatrixDim pf [tx; ty] _ ltac:(listed) ltac:(listed) _ before first (k :: after ++ [[]]) FN _ K).
    + change [tx; ty] with ([tx] ++ [ty] ++ []). refine (d_ahead pf _ _ [] _ _ _ _ _ _ _); [wds|]. exists 1. eapply r_cons; [wds|constructor].
    + exists (k :: after). reflexivity.
  - refine (C64_reads "parseMatrixDim" matrixDimRead parseMatrixDim pf [tx; ty; tz] _ ltac:(listed) ltac:(listed) _ before first (k :: after ++ [[]]) FN _ K).
    + change [tx; ty; tz] with ([tx] ++ [ty] ++ [tz] ++ []). refine (d_ahead pf _ _ [] _ _ _ _ _ _ _); [wds|]. exists 2.
      eapply r_cons; [wds|]. eapply r_cons; [wds|constructor].
    + exists (k :: after). reflexivity.
Qed.
Print Assumptions C51_more_as_read.

Example C51_example : natural (b "2") 2 /\ natural (b "3") 3 /\ natural (b "4") 4 /\ isKeyword (b "MAX_REFRESH") = true.
Proof. repeat split; discriminate. Qed.

(** A third dimension is lost, whatever it is. *)
Theorem C51_refuted : forall pf, exists toks v j, returns toks pf parseMatrixDim 0 v false j
    /\ toks = ws ["MATRIX_DIM"; "2"; "3"; "4"; "MAX_REFRESH"; ""]%string
    /\ look [Fld "DimX"] v = Some (LInt 2) /\ look [Fld "DimY"] v = Some (LInt 4) /\ look [Fld "DimZ"] v = None.
Proof.
  intros pf. do 3 eexists. split; [|split; [reflexivity|]].
  - refine (proj2 (C51_more_as_read pf (b "2") (b "3") (b "4") 2 3 4 (b "MAX_REFRESH") [] (b "MATRIX_DIM") [] _ _ _ _ _)%Z); try (repeat split; discriminate); reflexivity.
  - repeat split.
Qed.
Print Assumptions C51_refuted.

(** ** C52, C53: conversion tables *)

(** rows of a table *)
Fixpoint table (ps : list param) (rows : list (list bytes * list val)) (o : fields) : fields :=
  match rows with
  | [] => o
  | r :: rows' => table ps rows' (stores (length rows' =? 0) ps (snd r) o)
  end.
Lemma table_repeats : forall pf stop ps rows o, Forall (fun r => words pf stop ps (fst r) (snd r)) rows ->
    repeats pf stop true ps (length rows) (concat (map fst rows)) o (table ps rows o).
Proof.
  intros pf stop ps rows. induction rows as [|r rows IH]; intros o F; inversion F as [|? ? F1 F2]; subst; cbn [length map concat table].
  - constructor.
  - econstructor; [exact F1|]. apply IH. exact F2.
Qed.

Section Default.
  Variables (pf : bytes -> option spec_float) (its : list item) (stop : string).
  (** the words of an optional default value, and the field *)
  Definition defaultWords (d : option bytes) : list bytes := match d with Some t => [b "DEFAULT_VALUE"; t] | None => [] end.
  Definition defaultField (d : option bytes) : fields :=
    match d with Some t => [("DefaultValue", VObj [("DisplayString", VStr t); ("DisplayStringSet", VBool true)])]%string | None => [] end.
  Lemma default_parts : forall d o, In (Item "DEFAULT_VALUE" "DefaultValue" Single defaultValueForm) its ->
      (forall t, d = Some t -> word t) -> fget "DefaultValue" o = None ->
      parts pf its stop (defaultWords d) o (o ++ defaultField d).
  Proof.
    intros [t|] o HI W N; cbn [defaultWords defaultField].
    - change [b "DEFAULT_VALUE"; t] with (b "DEFAULT_VALUE" :: [t] ++ []). econstructor; [exact HI| | |].
      + apply d_fixed. apply w_text; [reflexivity|apply W; reflexivity|apply w_nil].
      + reflexivity.
      + replace (o ++ _) with (place_in Single "DefaultValue" (VObj [("DisplayString", VStr t); ("DisplayStringSet", VBool true)]%string) o); [apply p_nil|].
        cbn [place_in]. clear W HI. induction o as [|[g v] o IH]; [reflexivity|]. cbn [fget fset app] in *.
        destruct (String.eqb "DefaultValue" g) eqn:E; [discriminate|]. rewrite IH by exact N. reflexivity.
    - rewrite app_nil_r. constructor.
  Qed.
End Default.

(** two objects with the same fields *)
Definition same (o o' : fields) : Prop := forall f, fget f o = fget f o'.

Lemma same_app : forall o o' x, same o o' -> same (o ++ x) (o' ++ x).
Proof.
  assert (A : forall f o x, fget f (o ++ x) = match fget f o with Some v => Some v | None => fget f x end).
  { intros f o x. induction o as [|[g v] o IH]; [reflexivity|]. cbn. destruct (String.eqb f g); [reflexivity|exact IH]. }
  intros o o' x S f. rewrite !A, (S f). reflexivity.
Qed.

Lemma flist_same : forall f o o', fget f o = fget f o' -> flist f o = flist f o'.
Proof. intros f o o' E. unfold flist. rewrite E. reflexivity. Qed.

(** a row: words and their values *)
Definition row := list (bytes * val).
Definition column (k : nat) (rows : list row) : list val := map (fun r => snd (nth k r ([], VBool false))) rows.
Definition rowWords (rows : list row) : list bytes := concat (map (map fst) rows).
Definition split_row (r : row) : list bytes * list val := (map fst r, map snd r).

  Definition flags (ps : list param) : list string := concat (map (fun p => match p_flag p with Some g => [g] | None => [] end) ps).

  Lemma row_other : forall ps m f, (m = false \/ ~ In f (flags ps)) -> ~ In f (map p_field ps) ->
      forall vs o, fget f (stores m ps vs o) = fget f o.
  Proof.
    intros ps m f. induction ps as [|p l IH]; intros M N vs o; [reflexivity|]. destruct vs as [|v vs]; [reflexivity|].
    change (stores m (p :: l) (v :: vs) o) with (stores m l vs (store m o (p, v))). rewrite IH.
    - assert (NF : f <> p_field p) by (intros E; apply N; left; congruence).
      assert (P : fget f (put (p_how p) (p_field p) v o) = fget f o) by (destruct (p_how p); cbn [put]; rewrite ?fget_other by exact NF; reflexivity).
      unfold store. cbn [fst snd]. destruct m; [|exact P]. destruct M as [M|M]; [discriminate|]. unfold flags in M. cbn [map concat] in M.
      destruct (p_flag p) as [g|]; cbn [mark]; [|exact P]. rewrite fget_other; [exact P|]. intros ->. apply M. left. reflexivity.
    - destruct M as [M|M]; [left; exact M|right]. intros I. apply M. unfold flags. cbn [map concat]. apply in_or_app. right. exact I.
    - intros I. apply N. right. exact I.
  Qed.

  Lemma row_flag : forall ps f, In f (flags ps) -> ~ In f (map p_field ps) ->
      forall vs o, length vs = length ps -> fget f (stores true ps vs o) = Some (VBool true).
  Proof.
    intros ps f. induction ps as [|p l IH]; intros M N vs o L; [destruct M|]. destruct vs as [|v vs]; [discriminate|].
    change (stores true (p :: l) (v :: vs) o) with (stores true l vs (store true o (p, v))).
    destruct (in_dec string_dec f (flags l)) as [I|I].
    - apply IH; [exact I| |injection L; auto]. intros J. apply N. right. exact J.
    - rewrite (row_other l); [|right; exact I|intros J; apply N; right; exact J].
      unfold flags in M. cbn [map concat] in M. apply in_app_or in M. destruct M as [M|M]; [|contradiction].
      unfold store. cbn [fst snd]. destruct (p_flag p) as [g|]; [|destruct M]. destruct M as [->|[]]. cbn [mark]. apply fget_set.
  Qed.

Lemma row_col : forall m ps, NoDup (map p_field ps) -> Forall (fun p => p_how p = Append) ps ->
    forall k f, nth_error (map p_field ps) k = Some f -> ~ In f (flags ps) ->
    forall vs o d, length vs = length ps -> fget f (stores m ps vs o) = Some (VList (flist f o ++ [nth k vs d])).
Proof.
  intros m ps. induction ps as [|p l IH]; intros ND AP k f K NF vs o d L; [destruct k; discriminate|].
  destruct vs as [|v vs]; [discriminate|]. injection L as L. inversion ND as [|? ? ND1 ND2]; subst. inversion AP as [|? ? A1 A2]; subst.
  change (stores m (p :: l) (v :: vs) o) with (stores m l vs (store m o (p, v))).
  assert (NFl : ~ In f (flags l)) by (intros J; apply NF; unfold flags; cbn [map concat]; apply in_or_app; right; exact J).
  assert (NFp : forall g, p_flag p = Some g -> f <> g).
  { intros g E ->. apply NF. unfold flags. cbn [map concat]. rewrite E. left. reflexivity. }
  assert (MK : forall x, fget f (if m then mark (p_flag p) x else x) = fget f x).
  { intros x. destruct m; [|reflexivity]. destruct (p_flag p) as [g|]; [|reflexivity]. cbn [mark]. apply fget_other. apply NFp. reflexivity. }
  destruct k as [|k]; cbn [map nth_error] in K.
  - injection K as <-. rewrite row_other; [|right; exact NFl|exact ND1]. unfold store. cbn [fst snd]. rewrite MK, A1. cbn [put nth]. apply fget_set.
  - rewrite (IH ND2 A2 k f K NFl vs _ d L). cbn [nth]. do 3 f_equal. apply flist_same. unfold store. cbn [fst snd]. rewrite MK, A1. cbn [put].
    apply fget_other. intros ->. apply ND1. eapply nth_error_In. exact K.
Qed.

Section Table.
  Variable ps : list param.
  Hypothesis ND : NoDup (map p_field ps).
  Hypothesis AP : Forall (fun p => p_how p = Append) ps.
  Hypothesis DJ : forall f, In f (flags ps) -> ~ In f (map p_field ps).

  Lemma table_other : forall f, ~ In f (flags ps) -> ~ In f (map p_field ps) -> forall rows o, fget f (table ps rows o) = fget f o.
  Proof. intros f N1 N2. induction rows as [|r rows IH]; intros o; [reflexivity|]. cbn [table]. rewrite IH, row_other by auto. reflexivity. Qed.
  Lemma table_col : forall k f, nth_error (map p_field ps) k = Some f -> forall rows o, rows <> [] -> Forall (fun r : row => length r = length ps) rows ->
      fget f (table ps (map split_row rows) o) = Some (VList (flist f o ++ column k rows)).
  Proof.
    intros k f K. assert (NF : ~ In f (flags ps)) by (intros J; apply (DJ f J); eapply nth_error_In; exact K).
    induction rows as [|r rows IH]; intros o NE F; [congruence|]. inversion F as [|? ? F1 F2]; subst. cbn [map table split_row snd column].
    assert (E : forall m, fget f (stores m ps (map snd r) o) = Some (VList (flist f o ++ [snd (nth k r ([], VBool false))]))).
    { intros m. rewrite (row_col m ps ND AP k f K NF _ _ (VBool false)) by (rewrite map_length; exact F1).
      change (VBool false) with (snd (@nil Ascii.ascii, VBool false)) at 1. rewrite map_nth. reflexivity. }
    destruct rows as [|r' rows]; [cbn [map table]; apply E|]. rewrite IH by (discriminate || assumption).
    unfold flist at 1. rewrite E, <- app_assoc. reflexivity.
  Qed.
  Lemma table_flag : forall f, In f (flags ps) -> forall rows o, rows <> [] -> Forall (fun r : row => length r = length ps) rows ->
      fget f (table ps (map split_row rows) o) = Some (VBool true).
  Proof.
    intros f I. induction rows as [|r rows IH]; intros o NE F; [congruence|]. inversion F as [|? ? F1 F2]; subst. cbn [map table split_row snd].
    destruct rows as [|r' rows]; [|apply IH; [discriminate|assumption]]. cbn [map table length Nat.eqb].
    apply row_flag; [exact I|apply DJ; exact I|rewrite map_length; exact F1].
  Qed.
End Table.

Lemma rowWords_concat : forall rows : list row, concat (map fst (map split_row rows)) = rowWords rows.
Proof. intros rows. unfold rowWords. rewrite map_map. reflexivity. Qed.

(** a row with a float first *)
Definition pairRow (pf : bytes -> option spec_float) (second : bytes -> val -> Prop) (r : row) : Prop :=
  exists t1 x t2 y, r = [(t1, VFloat x); (t2, y)] /\ float pf t1 x /\ second t2 y.
Definition isFloat (pf : bytes -> option spec_float) (t : bytes) (v : val) : Prop := exists x, v = VFloat x /\ float pf t x.
Definition isText (t : bytes) (v : val) : Prop := v = VStr t /\ word t.

(** COMPU_TAB: name, long identifier, type, the number of pairs, the pairs, and a default value. *)
Theorem C52_compu_tab : forall pf name long ty count (rows : list row) d,
    word name -> word long -> In ty conversionTypeTexts -> natural count (Z.of_nat (length rows)) -> rows <> [] ->
    Forall (pairRow pf (isFloat pf)) rows -> (forall t, d = Some t -> word t) ->
    exists o, yields pf parseCompuTab ([name; long; b ty; count] ++ rowWords rows ++ defaultWords d ++ [b "/end COMPU_TAB"]) o
      /\ same o ([("Name", VStr name); ("NameSet", VBool true); ("longIdentifier", VStr long); ("longIdentifierSet", VBool true); ("ConversionType", VStr (b ty)); ("ConversionTypeSet", VBool true); ("NumberValuePairs", VInt (Z.of_nat (length rows))); ("NumberValuePairsSet", VBool true);
                  ("InVal", VList (column 0 rows)); ("InValSet", VBool true); ("OutVal", VList (column 1 rows)); ("OutValSet", VBool true)]%string
                 ++ defaultField d).
Proof.
  intros pf name long ty count rows d Wn Wl It Wc NE F Wd.
  assert (SN : ty <> ""%string) by (intros ->; revert It; cbn; intuition discriminate).
  set (ps := [Param Append "InVal" (Some "InValSet"%string) (Number NFloat); Param Append "OutVal" (Some "OutValSet"%string) (Number NFloat)]).
  set (head := [("Name", VStr name); ("NameSet", VBool true); ("longIdentifier", VStr long); ("longIdentifierSet", VBool true); ("ConversionType", VStr (b ty)); ("ConversionTypeSet", VBool true); ("NumberValuePairs", VInt (Z.of_nat (length rows))); ("NumberValuePairsSet", VBool true)]%string).
  assert (FL : Forall (fun r : row => length r = length ps) rows).
  { eapply Forall_impl; [|exact F]. intros r (t1 & x & t2 & y & -> & X & (z & -> & Y)). reflexivity. }
  assert (FW : Forall (fun r => words pf "/end COMPU_TAB" ps (fst r) (snd r)) (map split_row rows)).
  { apply Forall_map. eapply Forall_impl; [|exact F]. intros r (t1 & x & t2 & y & -> & X & (z & -> & Y)). cbn. unfold ps. wds. }
  assert (ND : NoDup (map p_field ps)) by (repeat constructor; cbn; intuition discriminate).
  assert (AP : Forall (fun p => p_how p = Append) ps) by (repeat constructor).
  assert (DJ : forall f, In f (flags ps) -> ~ In f (map p_field ps)) by (cbn; intuition (subst; discriminate)).
  set (o1 := table ps (map split_row rows) head).
  assert (S1 : same o1 (head ++ [("InVal", VList (column 0 rows)); ("InValSet", VBool true); ("OutVal", VList (column 1 rows)); ("OutValSet", VBool true)]%string)).
  { intros f. unfold o1.
    destruct (string_dec f "InVal") as [->|N0]; [rewrite (table_col ps ND AP DJ 0) by (reflexivity || assumption); reflexivity|].
    destruct (string_dec f "OutVal") as [->|N1]; [rewrite (table_col ps ND AP DJ 1) by (reflexivity || assumption); reflexivity|].
    destruct (string_dec f "InValSet") as [->|N2]; [rewrite (table_flag ps DJ) by (assumption || (cbn; auto)); reflexivity|].
    destruct (string_dec f "OutValSet") as [->|N3]; [rewrite (table_flag ps DJ) by (assumption || (cbn; auto)); reflexivity|].
    rewrite table_other by (cbn; intuition congruence). apply String.eqb_neq in N0, N1, N2, N3. unfold head. cbn [app fget]. rewrite N0, N1, N2, N3. reflexivity. }
  exists (o1 ++ defaultField d). split.
  - eapply (yields_reads "parseCompuTab" compuTabForm); [listed|listed|reflexivity|].
    refine (d_block pf [] _ _ _ "/end COMPU_TAB" [] [name; long; b ty; count] (rowWords rows) (defaultWords d) _ o1 _ _ _ _).
    + wds.
    + exists (length rows). split; [destruct rows; [congruence|cbn; lia]|]. split; [apply (natural_bound _ _ Wc)|]. split; [reflexivity|].
      pose proof (table_repeats pf "/end COMPU_TAB" ps (map split_row rows) head FW) as R. rewrite map_length, rowWords_concat in R. exact R.
    + apply default_parts; [left; reflexivity|exact Wd|]. rewrite (S1 "DefaultValue"%string). reflexivity.
  - unfold head in S1. cbn [app] in S1. apply (same_app _ _ (defaultField d) S1).
Qed.
Print Assumptions C52_compu_tab.

(** COMPU_VTAB: the second column are texts. *)
Theorem C53_compu_vtab : forall pf name long ty count (rows : list row) d,
    word name -> word long -> In ty conversionTypeTexts -> natural count (Z.of_nat (length rows)) -> rows <> [] ->
    Forall (pairRow pf isText) rows -> (forall t, d = Some t -> word t) ->
    exists o, yields pf parseCompuVtab ([name; long; b ty; count] ++ rowWords rows ++ defaultWords d ++ [b "/end COMPU_VTAB"]) o
      /\ same o ([("Name", VStr name); ("NameSet", VBool true); ("LongIdentifier", VStr long); ("LongIdentifierSet", VBool true); ("ConversionType", VStr (b ty)); ("ConversionTypeSet", VBool true); ("NumberValuePairs", VInt (Z.of_nat (length rows))); ("NumberValuePairsSet", VBool true);
                  ("InVal", VList (column 0 rows)); ("InValSet", VBool true); ("OutVal", VList (column 1 rows)); ("OutValSet", VBool true)]%string
                 ++ defaultField d).
Proof.
  intros pf name long ty count rows d Wn Wl It Wc NE F Wd.
  assert (SN : ty <> ""%string) by (intros ->; revert It; cbn; intuition discriminate).
  set (ps := [Param Append "InVal" (Some "InValSet"%string) (Number NFloat); Param Append "OutVal" (Some "OutValSet"%string) (Text)]).
  set (head := [("Name", VStr name); ("NameSet", VBool true); ("LongIdentifier", VStr long); ("LongIdentifierSet", VBool true); ("ConversionType", VStr (b ty)); ("ConversionTypeSet", VBool true); ("NumberValuePairs", VInt (Z.of_nat (length rows))); ("NumberValuePairsSet", VBool true)]%string).
  assert (FL : Forall (fun r : row => length r = length ps) rows).
  { eapply Forall_impl; [|exact F]. intros r (t1 & x & t2 & y & -> & X & -> & Y). reflexivity. }
  assert (FW : Forall (fun r => words pf "/end COMPU_VTAB" ps (fst r) (snd r)) (map split_row rows)).
  { apply Forall_map. eapply Forall_impl; [|exact F]. intros r (t1 & x & t2 & y & -> & X & -> & Y). cbn. unfold ps. wds. }
  assert (ND : NoDup (map p_field ps)) by (repeat constructor; cbn; intuition discriminate).
  assert (AP : Forall (fun p => p_how p = Append) ps) by (repeat constructor).
  assert (DJ : forall f, In f (flags ps) -> ~ In f (map p_field ps)) by (cbn; intuition (subst; discriminate)).
  set (o1 := table ps (map split_row rows) head).
  assert (S1 : same o1 (head ++ [("InVal", VList (column 0 rows)); ("InValSet", VBool true); ("OutVal", VList (column 1 rows)); ("OutValSet", VBool true)]%string)).
  { intros f. unfold o1.
    destruct (string_dec f "InVal") as [->|N0]; [rewrite (table_col ps ND AP DJ 0) by (reflexivity || assumption); reflexivity|].
    destruct (string_dec f "OutVal") as [->|N1]; [rewrite (table_col ps ND AP DJ 1) by (reflexivity || assumption); reflexivity|].
    destruct (string_dec f "InValSet") as [->|N2]; [rewrite (table_flag ps DJ) by (assumption || (cbn; auto)); reflexivity|].
    destruct (string_dec f "OutValSet") as [->|N3]; [rewrite (table_flag ps DJ) by (assumption || (cbn; auto)); reflexivity|].
    rewrite table_other by (cbn; intuition congruence). apply String.eqb_neq in N0, N1, N2, N3. unfold head. cbn [app fget]. rewrite N0, N1, N2, N3. reflexivity. }
  exists (o1 ++ defaultField d). split.
  - eapply (yields_reads "parseCompuVtab" compuVtabForm); [listed|listed|reflexivity|].
    refine (d_block pf [] _ _ _ "/end COMPU_VTAB" [] [name; long; b ty; count] (rowWords rows) (defaultWords d) _ o1 _ _ _ _).
    + wds.
    + exists (length rows). split; [destruct rows; [congruence|cbn; lia]|]. split; [apply (natural_bound _ _ Wc)|]. split; [reflexivity|].
      pose proof (table_repeats pf "/end COMPU_VTAB" ps (map split_row rows) head FW) as R. rewrite map_length, rowWords_concat in R. exact R.
    + apply default_parts; [left; reflexivity|exact Wd|]. rewrite (S1 "DefaultValue"%string). reflexivity.
  - unfold head in S1. cbn [app] in S1. apply (same_app _ _ (defaultField d) S1).
Qed.
Print Assumptions C53_compu_vtab.

Definition tripleRow (pf : bytes -> option spec_float) (r : row) : Prop :=
  exists t1 x t2 y t3, r = [(t1, VFloat x); (t2, VFloat y); (t3, VStr t3)] /\ float pf t1 x /\ float pf t2 y /\ word t3.

(** COMPU_VTAB_RANGE *)
Theorem C53_compu_vtab_range : forall pf name long count (rows : list row) d,
    word name -> word long -> natural count (Z.of_nat (length rows)) -> rows <> [] ->
    Forall (tripleRow pf) rows -> (forall t, d = Some t -> word t) ->
    exists o, yields pf parseCompuVtabRange ([name; long; count] ++ rowWords rows ++ defaultWords d ++ [b "/end COMPU_VTAB_RANGE"]) o
      /\ same o ([("Name", VStr name); ("NameSet", VBool true); ("LongIdentifier", VStr long); ("LongIdentifierSet", VBool true); ("NumberValueTriples", VInt (Z.of_nat (length rows))); ("NumberValueTriplesSet", VBool true);
                  ("InValMin", VList (column 0 rows)); ("InValMinSet", VBool true); ("InValMax", VList (column 1 rows)); ("InValMaxSet", VBool true); ("OutVal", VList (column 2 rows)); ("OutValSet", VBool true)]%string
                 ++ defaultField d).
Proof.
  intros pf name long count rows d Wn Wl Wc NE F Wd.
  set (ps := [Param Append "InValMin" (Some "InValMinSet"%string) (Number NFloat); Param Append "InValMax" (Some "InValMaxSet"%string) (Number NFloat); Param Append "OutVal" (Some "OutValSet"%string) (Text)]).
  set (head := [("Name", VStr name); ("NameSet", VBool true); ("LongIdentifier", VStr long); ("LongIdentifierSet", VBool true); ("NumberValueTriples", VInt (Z.of_nat (length rows))); ("NumberValueTriplesSet", VBool true)]%string).
  assert (FL : Forall (fun r : row => length r = length ps) rows).
  { eapply Forall_impl; [|exact F]. intros r (t1 & x & t2 & y & t3 & -> & X & Y & Z). reflexivity. }
  assert (FW : Forall (fun r => words pf "/end COMPU_VTAB_RANGE" ps (fst r) (snd r)) (map split_row rows)).
  { apply Forall_map. eapply Forall_impl; [|exact F]. intros r (t1 & x & t2 & y & t3 & -> & X & Y & Z). cbn. unfold ps. wds. }
  assert (ND : NoDup (map p_field ps)) by (repeat constructor; cbn; intuition discriminate).
  assert (AP : Forall (fun p => p_how p = Append) ps) by (repeat constructor).
  assert (DJ : forall f, In f (flags ps) -> ~ In f (map p_field ps)) by (cbn; intuition (subst; discriminate)).
  set (o1 := table ps (map split_row rows) head).
  assert (S1 : same o1 (head ++ [("InValMin", VList (column 0 rows)); ("InValMinSet", VBool true); ("InValMax", VList (column 1 rows)); ("InValMaxSet", VBool true); ("OutVal", VList (column 2 rows)); ("OutValSet", VBool true)]%string)).
  { intros f. unfold o1.
    destruct (string_dec f "InValMin") as [->|N0]; [rewrite (table_col ps ND AP DJ 0) by (reflexivity || assumption); reflexivity|].
    destruct (string_dec f "InValMax") as [->|N1]; [rewrite (table_col ps ND AP DJ 1) by (reflexivity || assumption); reflexivity|].
    destruct (string_dec f "OutVal") as [->|N2]; [rewrite (table_col ps ND AP DJ 2) by (reflexivity || assumption); reflexivity|].
    destruct (string_dec f "InValMinSet") as [->|N3]; [rewrite (table_flag ps DJ) by (assumption || (cbn; auto)); reflexivity|].
    destruct (string_dec f "InValMaxSet") as [->|N4]; [rewrite (table_flag ps DJ) by (assumption || (cbn; auto)); reflexivity|].
    destruct (string_dec f "OutValSet") as [->|N5]; [rewrite (table_flag ps DJ) by (assumption || (cbn; auto)); reflexivity|].
    rewrite table_other by (cbn; intuition congruence). apply String.eqb_neq in N0, N1, N2, N3, N4, N5. unfold head. cbn [app fget]. rewrite N0, N1, N2, N3, N4, N5. reflexivity. }
  exists (o1 ++ defaultField d). split.
  - eapply (yields_reads "parseCompuVtabRange" compuVtabRangeForm); [listed|listed|reflexivity|].
    refine (d_block pf [] _ _ _ "/end COMPU_VTAB_RANGE" [] [name; long; count] (rowWords rows) (defaultWords d) _ o1 _ _ _ _).
    + wds.
    + exists (length rows). split; [destruct rows; [congruence|cbn; lia]|]. split; [apply (natural_bound _ _ Wc)|]. split; [reflexivity|].
      pose proof (table_repeats pf "/end COMPU_VTAB_RANGE" ps (map split_row rows) head FW) as R. rewrite map_length, rowWords_concat in R. exact R.
    + apply default_parts; [left; reflexivity|exact Wd|]. rewrite (S1 "DefaultValue"%string). reflexivity.
  - unfold head in S1. cbn [app] in S1. apply (same_app _ _ (defaultField d) S1).
Qed.
Print Assumptions C53_compu_vtab_range.

Example C52_example :
  let rows := [[(b "0", VFloat (S754_zero false)); (b "0", VFloat (S754_zero false))]; [(b "0", VFloat (S754_zero false)); (b "0", VFloat (S754_zero false))]] in
  word (b "T") /\ In "TAB_INTP"%string conversionTypeTexts /\ natural (b "2") (Z.of_nat (length rows)) /\ Forall (pairRow zeroFloat (isFloat zeroFloat)) rows.
Proof.
  cbv zeta. assert (Z0 : float zeroFloat (b "0") (S754_zero false)) by (repeat split; discriminate).
  split; [split; [discriminate|reflexivity]|]. split; [cbn; auto 20|]. split; [repeat split; discriminate|].
  repeat constructor; do 4 eexists; (split; [reflexivity|]); (split; [exact Z0|eexists; split; [reflexivity|exact Z0]]).
Qed.

Example C53_example :
  Forall (pairRow zeroFloat isText) [[(b "0", VFloat (S754_zero false)); (b "off", VStr (b "off"))]]
  /\ Forall (tripleRow zeroFloat) [[(b "0", VFloat (S754_zero false)); (b "0", VFloat (S754_zero false)); (b "off", VStr (b "off"))]].
Proof.
  assert (Z0 : float zeroFloat (b "0") (S754_zero false)) by (repeat split; discriminate).
  assert (W : word (b "off")) by (split; [discriminate|reflexivity]).
  split; repeat constructor.
  - exists (b "0"), (S754_zero false), (b "off"), (VStr (b "off")). repeat split; try apply Z0; apply W.
  - exists (b "0"), (S754_zero false), (b "0"), (S754_zero false), (b "off"). repeat split; try apply Z0; apply W.
Qed.

(** ** C55: UNIT *)

(** Display text and type are stored over the long identifier. *)
Theorem C55_as_read : forall pf name long display ty, word name -> word long -> word display -> In ty typeTexts ->
    yields pf parseUnit [name; long; display; b ty; b "/end UNIT"] [("name", VStr name); ("nameSet", VBool true); ("longIdentifier", VStr (b ty))]%string.
Proof.
  intros pf name long display ty Wn Wl Wd It.
  assert (Wt : word (b ty)).
  { assert (A : forallb (fun s => negb (reserved (b s)) && negb (beqb (b s) [])) typeTexts = true) by (vm_compute; reflexivity).
    rewrite forallb_forall in A. specialize (A _ It). apply andb_true_iff in A. destruct A as [A1 A2]. apply negb_true_iff in A1, A2.
    split; [intros E; rewrite E in A2; discriminate|exact A1]. }
  eapply (yields_reads "parseUnit" unitRead); [listed|listed|reflexivity|].
  refine (d_block pf [] _ NoGroup _ "/end UNIT" [] [name; long; display; b ty] [] [] _ _ _ _ _ _); [wds|split; reflexivity|apply p_nil].
Qed.
Print Assumptions C55_as_read.

(** So no unit is read as ASAP2 requires. *)
Theorem C55_refuted : forall pf name long display ty o, word name -> word long -> word display -> In ty typeTexts -> long <> b ty ->
    yields pf parseUnit [name; long; display; b ty; b "/end UNIT"] o -> fget "longIdentifier" o <> Some (VStr long) /\ fget "display" o = None /\ fget "Type" o = None.
Proof.
  intros pf name long display ty o Wn Wl Wd It NE Y. pose proof (C55_as_read pf name long display ty Wn Wl Wd It) as Y'.
  assert (E : o = [("name", VStr name); ("nameSet", VBool true); ("longIdentifier", VStr (b ty))]%string).
  { destruct (Y [] (b "x") [[]] ltac:(discriminate) ltac:(exists []; reflexivity)) as (n & R).
    destruct (Y' [] (b "x") [[]] ltac:(discriminate) ltac:(exists []; reflexivity)) as (n' & R').
    specialize (R (n + n') ltac:(lia)). specialize (R' (n + n') ltac:(lia)). rewrite R in R'. injection R' as ->. reflexivity. }
  subst o. cbn. split; [congruence|]. split; reflexivity.
Qed.
Print Assumptions C55_refuted.

Example C55_example : word (b "U") /\ word (b "a unit") /\ word (b "km") /\ In "DERIVED"%string typeTexts.
Proof. repeat split; try discriminate. cbn. auto 20. Qed.

(** ** C56: IF_DATA *)

(** All words up to the end keyword are stored as they are, keywords included. *)
Theorem C56_if_data : forall pf name (data : list bytes), name <> [] -> name <> b "/end IF_DATA" ->
    (forall t, In t data -> t <> [] /\ t <> b "/end IF_DATA") ->
    exists o, yields pf parseIfData (name :: data ++ [b "/end IF_DATA"]) o
      /\ fget "name" o = Some (VStr name) /\ flist "data" o = map VStr data /\ fget "dataSet" o = Some (VBool true)
      /\ forall f, ~ In f ["name"; "nameSet"; "data"; "dataSet"]%string -> fget f o = None.
Proof.
  intros pf name data N1 N2 D.
  set (head := [("name", VStr name); ("nameSet", VBool true)]%string).
  set (ps := [Param Append "data" None Any]).
  assert (R : forall o, exists o', repeats pf "/end IF_DATA" false ps (length data) data o o' /\ flist "data" o' = flist "data" o ++ map VStr data
                                  /\ forall f, f <> "data"%string -> fget f o' = fget f o).
  { induction data as [|t data IH]; intros o.
    - exists o. split; [constructor|]. split; [rewrite app_nil_r; reflexivity|reflexivity].
    - destruct (IH (fun t' I => D t' (or_intror I)) (stores false ps [VStr t] o)) as (o' & R & L & O). exists o'. split; [|split].
      + change (t :: data) with ([t] ++ data). eapply r_cons; [|exact R]. destruct (D t (or_introl eq_refl)) as [D1 D2].
        unfold ps. apply w_any; [reflexivity|exact D1|exact D2|apply w_nil].
      + rewrite L. unfold flist at 1. cbn [stores ps combine fold_left store fst snd p_how p_field put]. rewrite fget_set, <- app_assoc. reflexivity.
      + intros f NF. rewrite O by exact NF. cbn [stores ps combine fold_left store fst snd p_how p_field put]. apply fget_other. exact NF. }
  destruct (R head) as (o & RP & L & O). exists (fset "dataSet" (VBool true) o). split.
  - eapply (yields_reads "parseIfData" ifDataForm); [listed|listed|reflexivity|].
    change (name :: data ++ [b "/end IF_DATA"]) with ([name] ++ data ++ [] ++ [b "/end IF_DATA"]).
    refine (d_block pf [] _ _ _ "/end IF_DATA" [("dataSet"%string, CTrue)] [name] data [] _ o o _ _ _).
    + apply w_any; [reflexivity|exact N1|exact N2|apply w_nil].
    + exists (length data). exact RP.
    + apply p_nil.
  - split; [rewrite fget_other, O by discriminate; reflexivity|]. split; [|split].
    + unfold flist. rewrite fget_other by discriminate. exact L.
    + apply fget_set.
    + intros f NF. rewrite fget_other, O by (intros ->; apply NF; cbn; auto). unfold head. cbn [fget].
      destruct (String.eqb f "name") eqn:E1; [apply String.eqb_eq in E1; subst; destruct NF; cbn; auto|].
      destruct (String.eqb f "nameSet") eqn:E2; [apply String.eqb_eq in E2; subst; destruct NF; cbn; auto|]. reflexivity.
Qed.
Print Assumptions C56_if_data.

(** Without an end keyword it is an error. *)
Theorem C56_no_end : forall toks pf i, ended toks -> i < length toks -> (forall k, i < k < length toks -> nth k toks [] <> b "/end IF_DATA") ->
    exists v j, returns toks pf parseIfData i v true j.
Proof.
  intros toks pf i E L N. apply (C59_truncated_guarded "parseIfData" "/end IF_DATA"); [listed|listed|discriminate|exact E|exact L|exact N].
Qed.
Print Assumptions C56_no_end.

Example C56_example : let data := ws ["/begin SOURCE"; "10"; "/end SOURCE"; "/begin MEASUREMENT"]%string in
  forall t, In t data -> t <> [] /\ t <> b "/end IF_DATA".
Proof. intros data t I. cbn in I. repeat (destruct I as [<-|I]; [split; vm_compute; discriminate|]). destruct I. Qed.

(** ** C57: CHARACTERISTIC *)

Theorem C57_characteristic : forall pf name long ty address deposit diff conversion low high d l h,
    word name -> word long -> In ty typeTexts -> word address -> word deposit -> float pf diff d -> word conversion -> float pf low l -> float pf high h ->
    yields pf parseCharacteristic [name; long; b ty; address; deposit; diff; conversion; low; high; b "/end CHARACTERISTIC"]
      [("Name", VStr name); ("nameSet", VBool true); ("LongIdentifier", VStr long); ("longIdentifierSet", VBool true);
       ("Type", VStr (b ty)); ("TypeSet", VBool true); ("Address", VStr address); ("addressSet", VBool true);
       ("Deposit", VStr deposit); ("DepositSet", VBool true); ("maxDiff", VFloat d); ("maxDiffSet", VBool true);
       ("conversion", VStr conversion); ("conversionSet", VBool true); ("lowerLimit", VFloat l); ("lowerLimitSet", VBool true);
       ("upperLimit", VFloat h); ("upperLimitSet", VBool true)]%string.
Proof.
  intros pf name long ty address deposit diff conversion low high d l h Wn Wl It Wa Wd Fd Wc Fl Fh.
  assert (SN : ty <> ""%string) by (intros ->; revert It; cbn; intuition discriminate).
  eapply (yields_reads "parseCharacteristic" characteristicRead); [listed|listed|reflexivity|].
  refine (d_block pf [] _ NoGroup _ "/end CHARACTERISTIC" [] [name; long; b ty; address; deposit; diff; conversion; low; high] [] [] _ _ _ _ _ _);
    [wds|split; reflexivity|apply p_nil].
Qed.
Print Assumptions C57_characteristic.

Example C57_example : word (b "speed") /\ In "VALUE"%string typeTexts /\ float zeroFloat (b "0") (S754_zero false).
Proof. repeat split; try discriminate. cbn. auto 20. Qed.
