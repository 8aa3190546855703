(** C91: the names of objects; objects with the same name. *)
From Coq Require Import String Ascii List Arith NArith ZArith Bool Lia SpecFloat Sorted.
From Verif Require Import GoBase GoBaseFacts A2lModStore A2lIR A2lTokens A2lSpec A2lParsers A2lFileThm A2lGrammar A2lForms A2lTripSpec A2lFormProps A2lProps.
From Verif Require Import CompuModel LookModel LookProps TreeModel TreeSpec TreeThm TreeLook.
From Verif Require Import A2lFileModel A2lFileSpec A2lExactSpec A2lExact A2lExactThm A2lExactProps A2lOddSpec A2lOddProps ConvFileProps LookFileSpec LookFileThm LookFileProps.
From Verif Require A2lModSpec A2lModProps ValuesModel ValuesThm A2lLayoutModel A2lNestProps OriginProps A2lTextModel TokModel TokThm A2lFileProps.
Import ListNotations.

(** Keywords of parts that are missing in the table of keywords (a2l/tokens.go). *)
Definition unlisted : list string := ["READ_ONLY"; "READ_WRITE"; "RESERVED"]%string.
Definition ordinary (t : bytes) : Prop := t <> [] /\ isKeyword t = false /\ ~ In t (map b unlisted).
Definition opens (kw : string) : bool := isKeyword (b kw) || oneOf kw unlisted.
Lemma opens_not : forall kw t, opens kw = true -> ordinary t -> t <> b kw.
Proof.
  intros kw t O (_ & K & U) ->. unfold opens in O. rewrite K in O. cbn [orb] in O. apply oneOf_in in O. apply U. apply in_map. exact O.
Qed.

(** the first parameter is the name, and nothing else is stored in its field *)
Definition nameFirst (f : form) (key : string) : bool :=
  match f with
  | Block ms (p :: ps) g its stop cs =>
      String.eqb (p_field p) key && match p_how p with One => true | _ => false end && match p_type p with Text => true | _ => false end
      && match p_flag p with Some h => negb (String.eqb key h) | None => true end
      && forallb (spares key) ps
      && forallb (fun it => match it with Item kw f _ _ => negb (String.eqb key f) && opens kw end) its
      && forallb (fun fc => negb (String.eqb key (fst fc))) cs && isKeyword (b stop)
      && match g with Free [q] => spares key q | Counted _ qs => forallb (spares key) qs | _ => true end
      && (match ps with [] => false | _ => true end || negb (oneOf stop sticky) && match g with Counted _ _ => false | _ => true end)
  | _ => false
  end.

Section Tokens.
  Variable toks : list bytes.
  Variable pf : bytes -> option spec_float.
  Notation tok := (tok toks).

  Lemma mixed_keeps : forall own key its stop ps r i j o o', mixed toks pf own its stop ps r i j o o' ->
      forallb (spares key) ps = true -> optParam (spares key) r = true -> forallb (fun it => match it with Item kw f _ _ => negb (String.eqb key f) && opens kw end) its = true ->
      fget key o' = fget key o.
  Proof.
    intros own key its stop ps r i j o o' H. induction H as [its stop ps r i o|its stop p ps r i j v o o' PL FI M IH|its stop p i j v o o' PL FI M IH|its stop i j o o' PL N K M IH|its stop ps r kw f p sub i v k j o o' IN T R M IH]; intros SP SR SI.
    - reflexivity.
    - cbn [forallb] in SP. apply andb_true_iff in SP. destruct SP as [SP1 SP2]. rewrite IH by assumption. apply store_other. exact SP1.
    - cbn [optParam] in SR. rewrite IH by assumption. apply store_other. exact SR.
    - apply IH; assumption.
    - rewrite IH by assumption. pose proof (proj1 (forallb_forall _ _) SI _ IN) as K. cbv beta iota in K. apply andb_true_iff in K. destruct K as [K _].
      apply negb_true_iff, String.eqb_neq in K. apply place_other. exact K.
  Qed.

  Definition spareState (key : string) (a : phase) : bool := match a with Params ps => forallb (spares key) ps | Rows _ => true end.
  Lemma rounds_keep : forall own key its stop cols a i o a' i' o', rounds toks pf own its stop (table toks pf cols) a i o a' i' o' ->
      spareState key a = true -> forallb (spares key) cols = true -> forallb (fun it => match it with Item kw f _ _ => negb (String.eqb key f) && opens kw end) its = true ->
      fget key o' = fget key o.
  Proof.
    intros own key its stop cols a i o a' i' o' H. induction H as [a i o|a i o a1 i1 o1 a2 i2 o2 PL W R IH|a i o kw f p sub v k a2 i2 o2 IN T RD R IH]; intros SA SC SI.
    - reflexivity.
    - destruct W as [p q ps i o v FI|p i o n FI|r i o vs RO|i o IW]; cbn [spareState] in *.
      + cbn [forallb] in SA. apply andb_true_iff in SA. destruct SA as [S1 S2]. rewrite (IH S2 SC SI). apply store_other. exact S1.
      + cbn [forallb] in SA. apply andb_true_iff in SA. destruct SA as [S1 S2]. rewrite (IH eq_refl SC SI). apply store_other. exact S1.
      + rewrite (IH eq_refl SC SI). apply stores_other. exact SC.
      + apply IH; auto.
    - rewrite (IH SA SC SI). pose proof (proj1 (forallb_forall _ _) SI _ IN) as K. cbv beta iota in K. apply andb_true_iff in K. destruct K as [K _].
      apply negb_true_iff, String.eqb_neq in K. apply place_other. exact K.
  Qed.

  Lemma further_spared : forall key p ps g stop, forallb (spares key) ps = true ->
      match g with Free [q] => spares key q | Counted _ qs => forallb (spares key) qs | _ => true end = true ->
      match ps with [] => false | _ => true end || negb (oneOf stop sticky) && match g with Counted _ _ => false | _ => true end = true ->
      optParam (spares key) (further (p :: ps) g stop) = true.
  Proof.
    intros key p ps g stop SP G NE.
    assert (L : oneOf stop sticky = true -> optParam (spares key) (last (map Some (p :: ps)) None) = true).
    { intros ST. rewrite ST in NE. destruct ps as [|q ps]; [discriminate|]. clear NE G ST. revert q SP. cbn [map]. generalize (Some p). intros s. revert s. induction ps as [|q' ps IH]; intros s q SP.
      - cbn. cbn [forallb] in SP. apply andb_true_iff in SP. apply SP.
      - change (last (s :: Some q :: map Some (q' :: ps)) None) with (last (Some q :: map Some (q' :: ps)) None). apply IH. cbn [forallb] in SP. apply andb_true_iff in SP. apply SP. }
    unfold further. destruct g as [|gs|nf qs]; [|destruct gs as [|q [|q' gs]]|]; try exact G; destruct (oneOf stop sticky); try reflexivity; apply L; reflexivity.
  Qed.

  Lemma store_name : forall p key v o, p_field p = key -> p_how p = One -> match p_flag p with Some h => negb (String.eqb key h) | None => true end = true ->
      fget key (store true o (p, v)) = Some v.
  Proof.
    intros p key v o E H F. unfold store. cbn [fst snd]. rewrite H, E. cbn [put]. unfold mark. destruct (p_flag p) as [h|].
    - apply negb_true_iff in F. rewrite fget_fset, F, fget_fset, String.eqb_refl. reflexivity.
    - rewrite fget_fset, String.eqb_refl. reflexivity.
  Qed.

  Lemma first_name : forall ms ps g its stop cs key i v j, nameFirst (Block ms ps g its stop cs) key = true -> ~ In stop special ->
      reads toks pf (odd toks pf) (Block ms ps g its stop cs) i v j -> ordinary (tok (S i)) -> keyOf key v = tok (S i).
  Proof.
    intros ms ps g its stop cs key i v j NF NS R OW. pose proof (proj1 (proj2 OW)) as WK. destruct ps as [|p ps]; [discriminate|]. cbn [nameFirst] in NF. rewrite !andb_true_iff in NF.
    destruct NF as [[[[[[[[[N1 N2] N3] N4] N5] N6] N7] N8] N9] N10]. apply String.eqb_eq in N1. destruct (p_how p) eqn:HO; try discriminate. destruct (p_type p) eqn:TY; try discriminate.
    inversion R as [| | |ms' ps' g' its' stop' cs' i' j' o NS' M TS|ms' ps' g' its' stop' cs' i' v' j' IS _]; subst; [|contradiction].
    cbn [keyOf]. unfold fstr. rewrite consts_other by exact N7.
    inversion M as [|its0 stop0 p0 ps0 r0 i0 j0 v0 o0 o1 PL FI M1| | |its0 stop0 ps0 r0 kw f pl sub i0 v0 k0 j0 o0 o1 IN T RD M1]; subst.
    - rewrite TS in WK. rewrite N8 in WK. discriminate.
    - rewrite TY in FI. destruct FI as [_ [_ ->]].
      rewrite (mixed_keeps _ _ _ _ _ _ _ _ _ _ M1 N5 (further_spared _ _ _ _ _ N5 N9 N10) N6). rewrite (store_name p (p_field p)) by auto. reflexivity.
    - pose proof (proj1 (forallb_forall _ _) N6 _ IN) as K. cbv beta iota in K. apply andb_true_iff in K. exfalso. exact (opens_not _ _ (proj2 K) OW T).
  Qed.

  Lemma table_name : forall ms ps nf qs its stop cs key i v j, nameFirst (Block ms ps (Counted nf qs) its stop cs) key = true ->
      tableObject toks pf (Block ms ps (Counted nf qs) its stop cs) i v j -> ordinary (tok (S i)) -> keyOf key v = tok (S i).
  Proof.
    intros ms ps nf qs its stop cs key i v j NF (a' & i' & o & RO & TS & -> & ->) OW. pose proof (proj1 (proj2 OW)) as WK. destruct ps as [|p ps]; [discriminate|]. cbn [nameFirst] in NF. rewrite !andb_true_iff in NF.
    destruct NF as [[[[[[[[[N1 N2] N3] N4] N5] N6] N7] N8] N9] N10]. apply String.eqb_eq in N1. destruct (p_how p) eqn:HO; try discriminate. destruct (p_type p) eqn:TY; try discriminate.
    cbn [keyOf]. unfold fstr. rewrite consts_other by exact N7.
    inversion RO as [|a0 i0 o0 a1 i1 o1 a2 i2 o2 PL W R1|a0 i0 o0 kw f pl sub v0 k0 a2 i2 o2 IN T RD R1]; subst.
    - rewrite TS in WK. rewrite N8 in WK. discriminate.
    - destruct ps as [|q ps]; [cbn [orb] in N10; rewrite andb_false_r in N10; discriminate N10|]. inversion W as [p0 q0 ps0 i3 o3 v3 FI| | |]; subst. rewrite TY in FI. destruct FI as [_ [_ ->]].
      rewrite (rounds_keep _ (p_field p) _ _ _ _ _ _ _ _ _ R1 N5 N9 N6). rewrite (store_name p (p_field p)) by auto. reflexivity.
    - pose proof (proj1 (forallb_forall _ _) N6 _ IN) as K. cbv beta iota in K. apply andb_true_iff in K. exfalso. exact (opens_not _ _ (proj2 K) OW T).
  Qed.
End Tokens.

(** An object whose keyword is followed by a word is called by this word. *)
Theorem C91_name : forall toks pf kw key mk f sub i w j, In (kw, (key, mk)) lookedUp -> In (Item kw f (Under key) sub) moduleItems ->
    reads toks pf (odd toks pf) sub i w j -> ordinary (tok toks (S i)) -> keyOf key w = tok toks (S i).
Proof.
  assert (C : forallb (fun e => forallb (fun it => match it with Item kw f (Under key) sub =>
      if String.eqb kw (fst e) && String.eqb key (fst (snd e)) then
        match sub with
        | Block _ _ _ _ stop _ => if oneOf stop special then String.eqb key "Name" && oneOf stop ["/end COMPU_TAB"; "/end COMPU_VTAB"; "/end COMPU_VTAB_RANGE"]%string else nameFirst sub key
        | _ => false
        end
      else true | _ => true end) moduleItems) lookedUp = true) by (vm_compute; reflexivity).
  intros toks pf kw key mk f sub i w j IL IM R W. rewrite forallb_forall in C. specialize (C _ IL). cbn [fst snd] in C. rewrite forallb_forall in C.
  pose proof (C _ IM) as C1. cbv beta iota in C1. rewrite !String.eqb_refl in C1. cbn [andb] in C1. clear C IL IM.
  destruct sub as [ty|ps cs|ps gs cs nexts|ms ps g its stop cs]; try discriminate C1. destruct (oneOf stop special) eqn:OS.
  - apply oneOf_in in OS. apply andb_true_iff in C1. destruct C1 as [K SP]. apply String.eqb_eq in K. subst key. apply oneOf_in in SP.
    inversion R as [| | |ms' ps' g' its' stop' cs' i' j' o NS' M TS|ms' ps' g' its' stop' cs' i' v' j' IS OD]; subst; [contradiction|].
    destruct SP as [<-|[<-|[<-|[]]]]; inversion OD as [i0 v0 j0 TO|i0 v0 j0 TO|i0 v0 j0 TO| | | | | |]; subst.
    + unfold compuTabForm in TO. eapply table_name; [|exact TO|exact W]. vm_compute. reflexivity.
    + unfold compuVtabForm in TO. eapply table_name; [|exact TO|exact W]. vm_compute. reflexivity.
    + unfold compuVtabRangeForm in TO. eapply table_name; [|exact TO|exact W]. vm_compute. reflexivity.
  - apply oneOf_out in OS. eapply first_name; eauto.
Qed.
Print Assumptions C91_name.

(** ** Objects that are not found: of two with the same name the first one, and those
    whose name is the keyword of a part that is missing in the table *)

Definition twiceFile : bytes := b
  "ASAP2_VERSION 1 60 /begin PROJECT p q /begin MODULE m n /begin GROUP G one /end GROUP /begin GROUP G two /end GROUP /begin GROUP /end GROUP /begin MEASUREMENT READ_WRITE M /end MEASUREMENT /begin MOD_PAR c SYSTEM_CONSTANT N 5 /end MOD_PAR /end MODULE /begin MODULE m n /end MODULE /end PROJECT".
Definition twiceTokens : list bytes := map b
  ["ASAP2_VERSION"; "1"; "60"; "/begin PROJECT"; "p"; "q"; "/begin MODULE"; "m"; "n";
   "/begin GROUP"; "G"; "one"; "/end GROUP"; "/begin GROUP"; "G"; "two"; "/end GROUP"; "/begin GROUP"; "/end GROUP";
   "/begin MEASUREMENT"; "READ_WRITE"; "M"; "/end MEASUREMENT"; "/begin MOD_PAR"; "c"; "SYSTEM_CONSTANT"; "N"; "5"; "/end MOD_PAR";
   "/end MODULE"; "/begin MODULE"; "m"; "n"; "/end MODULE"; "/end PROJECT"; ""]%string.
Lemma twice_tokens : forall gr, fileTokens gr 1 twiceFile (Some (TokModel.Tokens twiceTokens false)).
Proof.
  intros gr. unfold fileTokens. change (1 * 2) with 2. replace (A2lTextModel.cleanBytesString gr twiceFile) with twiceFile by (vm_compute; reflexivity).
  apply (proj2 (TokThm.exec_lex 2 twiceFile _)). vm_compute. reflexivity.
Qed.
Lemma twice_ended : ended twiceTokens.
Proof. exists (firstn 35 twiceTokens). reflexivity. Qed.
Lemma reads_run : forall toks pf g f i v j, ended toks -> tok toks i <> [] -> shapeFn ownFn g f = true -> returns toks pf g i v false j -> reads toks pf (odd toks pf) f i v j.
Proof.
  intros toks pf g f i v j EN N SH R.
  assert (LT : i < length toks) by (destruct (Nat.lt_ge_cases i (length toks)) as [H|H]; [exact H|]; exfalso; apply N; apply nth_overflow; exact H).
  apply (shape_exact toks pf EN (odd toks pf) (odd_len toks pf EN) ownFn (odd_is toks pf EN) g f i v j SH LT N). exact R.
Qed.
Ltac run_ g := apply (reads_run _ _ g); [exact twice_ended|discriminate|vm_compute; reflexivity|apply (A2lModProps.returns_run 80); vm_compute; reflexivity].
Ltac word_ := apply co_word; [discriminate|reflexivity|].
Ltac member_ k g := eapply co_item; [apply (nth_error_In _ k); reflexivity|reflexivity|run_ g|].

Lemma twice_group : exists v1 v2 v3 v4 v5, forall pf, holdsAt twiceTokens pf moduleExact 6
    [Member "/begin GROUP" 9 v1; Member "/begin GROUP" 13 v2; Member "/begin GROUP" 17 v3; Member "/begin MEASUREMENT" 19 v4; Member "/begin MOD_PAR" 23 v5] /\
    v1 <> v2 /\ keyOf "groupName" v1 = b "G" /\ keyOf "groupName" v2 = b "G" /\ keyOf "groupName" v3 = [] /\ keyOf "name" v4 = b "M".
Proof.
  do 5 eexists. intros pf. split.
  - exists 28. split; [|reflexivity]. word_. word_. member_ 10 parseGroup. member_ 10 parseGroup. member_ 10 parseGroup. member_ 13 parseMeasurement. member_ 15 parseModPar. apply co_end.
  - vm_compute. repeat match goal with |- _ /\ _ => split end; try reflexivity. discriminate.
Qed.
Lemma twice_module : forall pf, moduleAt twiceTokens pf 0 6.
Proof.
  intros pf. do 4 eexists. split; [|split; [|split; [|split]]].
  - eapply fh_item; [left; reflexivity|reflexivity|run_ parseASAP2Version|]. eapply fh_item; [right; right; left; reflexivity|reflexivity|run_ parseProject|].
    apply fh_end. reflexivity.
  - eexists [_], []. split; [reflexivity|]. split; [reflexivity|constructor].
  - exists 33. split; [|reflexivity]. do 2 word_. member_ 1 parseModule. member_ 1 parseModule. apply co_end.
  - reflexivity.
  - reflexivity.
Qed.
Lemma twice_file : exists a, (forall gr pf, parseFromFile gr pf 1 (Some twiceFile) (Returned a false)) /\ forall hex, objectsByIdent (calibOf a 0 hex) (b "READ_WRITE") = Ok [].
Proof.
  eexists. split.
  - intros gr pf. apply (A2lFileProps.C65_sequential _ pf 1 twiceFile _ _ (twice_tokens gr) eq_refl). do 3 eexists. split; [reflexivity|].
    apply (A2lModProps.returns_run 80). vm_compute. reflexivity.
  - intros hex. vm_compute. reflexivity.
Qed.

Lemma listed_group : forall toks pf l k v, listed toks pf l k (Group_ v) -> exists m, lastOf (called "/begin GROUP" "groupName" k) l m /\ m_val m = v.
Proof.
  intros toks pf l k v I. inversion I as [kw key mk m IL L E|p l' c L1 H L2 E]; clear I. unfold lookedUp in IL. cbn [In] in IL.
  repeat match type of IL with _ \/ _ => destruct IL as [IL|IL] end; try contradiction; pose proof (f_equal fst IL) as I1; pose proof (f_equal fst (f_equal snd IL)) as I2; pose proof (f_equal snd (f_equal snd IL)) as I3;
    cbn [fst snd] in I1, I2, I3; subst kw key mk; try discriminate E. injection E as E. eauto.
Qed.

(** Not every object of a file that is read without an error is found under its name. *)
Theorem C91_refuted : exists content t a i l m, forall gr pf, fileTokens gr 1 content (Some t) /\ TokModel.tk_multithreading t = false /\
    parseFromFile gr pf 1 (Some content) (Returned a false) /\ moduleAt (TokModel.tk_list t) pf 0 i /\ holdsAt (TokModel.tk_list t) pf moduleExact i l /\
    In m l /\ called "/begin GROUP" "groupName" (b "G") m /\
    forall hex, exists r, objectsByIdent (calibOf a 0 hex) (b "G") = Ok r /\ ~ In (Group_ (m_val m)) r.
Proof.
  destruct twice_file as (a & A & N). destruct twice_group as (v1 & v2 & v3 & v4 & v5 & G).
  exists twiceFile, (TokModel.Tokens twiceTokens false), a, 6, [Member "/begin GROUP" 9 v1; Member "/begin GROUP" 13 v2; Member "/begin GROUP" 17 v3; Member "/begin MEASUREMENT" 19 v4; Member "/begin MOD_PAR" 23 v5]%string, (Member "/begin GROUP" 9 v1).
  intros gr pf. destruct (G pf) as (H & NE & K1 & K2 & K3 & _). split; [apply twice_tokens|]. split; [reflexivity|]. split; [apply A|]. split; [apply twice_module|]. split; [exact H|].
  split; [left; reflexivity|]. split; [split; [reflexivity|exact K1]|]. intros hex.
  destruct (C91_file gr pf 1 twiceFile _ a 0 6 _ hex (b "G") (twice_tokens gr) eq_refl (A gr pf) (twice_module pf) H) as (r & O & F & _). exists r. split; [exact O|].
  intros I. apply F in I. apply listed_group in I. destruct I as (m & L & E).
  assert (L' : lastOf (called "/begin GROUP" "groupName" (b "G")) [Member "/begin GROUP" 9 v1; Member "/begin GROUP" 13 v2; Member "/begin GROUP" 17 v3; Member "/begin MEASUREMENT" 19 v4; Member "/begin MOD_PAR" 23 v5]%string (Member "/begin GROUP" 13 v2)).
  { eexists [_], _. split; [reflexivity|]. split; [split; [reflexivity|exact K2]|]. repeat constructor; intros [Q1 Q2]; try discriminate Q1. cbn [m_val] in Q2. rewrite K3 in Q2. discriminate. }
  rewrite (lastOf_fun _ _ _ _ _ L L') in E. cbn [m_val] in E. congruence.
Qed.
Print Assumptions C91_refuted.

(** A measurement called READ_WRITE, which is no keyword, is not found under its name. *)
Theorem C91_unlisted_refuted : exists content t a i l m, forall gr pf, fileTokens gr 1 content (Some t) /\ TokModel.tk_multithreading t = false /\
    parseFromFile gr pf 1 (Some content) (Returned a false) /\ moduleAt (TokModel.tk_list t) pf 0 i /\ holdsAt (TokModel.tk_list t) pf moduleExact i l /\
    In m l /\ m_kw m = "/begin MEASUREMENT"%string /\ tok (TokModel.tk_list t) (S (m_at m)) = b "READ_WRITE" /\ isKeyword (b "READ_WRITE") = false /\
    forall hex, exists r, objectsByIdent (calibOf a 0 hex) (b "READ_WRITE") = Ok [] /\ objectsByIdent (calibOf a 0 hex) (b "M") = Ok r /\ In (Measurement (m_val m)) r.
Proof.
  destruct twice_file as (a & A & N). destruct twice_group as (v1 & v2 & v3 & v4 & v5 & G).
  exists twiceFile, (TokModel.Tokens twiceTokens false), a, 6, [Member "/begin GROUP" 9 v1; Member "/begin GROUP" 13 v2; Member "/begin GROUP" 17 v3; Member "/begin MEASUREMENT" 19 v4; Member "/begin MOD_PAR" 23 v5]%string, (Member "/begin MEASUREMENT" 19 v4).
  intros gr pf. destruct (G pf) as (H & _ & K1 & K2 & K3 & K4). split; [apply twice_tokens|]. split; [reflexivity|]. split; [apply A|]. split; [apply twice_module|]. split; [exact H|].
  split; [do 3 right; left; reflexivity|]. split; [reflexivity|]. split; [reflexivity|]. split; [reflexivity|]. intros hex.
  destruct (C91_file gr pf 1 twiceFile _ a 0 6 _ hex (b "M") (twice_tokens gr) eq_refl (A gr pf) (twice_module pf) H) as (r & O & F & _). exists r. split; [|split; [exact O|]].
  - apply N.
  - apply F. apply (li_object _ _ _ _ "/begin MEASUREMENT"%string "name"%string _ (Member "/begin MEASUREMENT" 19 v4)); [unfold lookedUp; do 8 right; left; reflexivity|].
    eexists [_; _; _], _. split; [reflexivity|]. split; [split; [reflexivity|exact K4]|]. repeat constructor; intros [Q1 Q2]; discriminate Q1.
Qed.
Print Assumptions C91_unlisted_refuted.

(** ** Examples: the file above *)

(** [C91_file]: the second group under G, the nameless one under the empty name, the
    system constant under N. *)
Example twice_found : exists a v2 v3, (forall gr pf, parseFromFile gr pf 1 (Some twiceFile) (Returned a false)) /\ forall hex,
    objectsByIdent (calibOf a 0 hex) (b "G") = Ok [Group_ v2] /\ keyOf "groupLongIdentifier" v2 = b "two" /\
    objectsByIdent (calibOf a 0 hex) [] = Ok [Group_ v3] /\
    objectsByIdent (calibOf a 0 hex) (b "N") = Ok [SystemConstantO (SysConst (b "N") (b "5") true)] /\
    objectsByIdent (calibOf a 1 hex) (b "G") = Ok [].
Proof.
  do 3 eexists. split.
  - intros gr pf. apply (A2lFileProps.C65_sequential _ pf 1 twiceFile _ _ (twice_tokens gr) eq_refl). do 3 eexists. split; [reflexivity|].
    apply (A2lModProps.returns_run 80). vm_compute. reflexivity.
  - intros hex. vm_compute. repeat split.
Qed.

(** [C91_file] and [C91_module]: their hypotheses hold of this file. *)
Example twice_files : exists a l, forall pf hex k, exists r, objectsByIdent (calibOf a 0 hex) k = Ok r /\
    (forall x, In x r <-> listed twiceTokens pf l k x) /\ StronglySorted (fun x y => rank x < rank y) r.
Proof.
  destruct twice_file as (a & A & N). destruct twice_group as (v1 & v2 & v3 & v4 & v5 & G). do 2 eexists. intros pf hex k. destruct (G pf) as (H & _).
  exact (C91_file (fun _ => false) pf 1 twiceFile _ a 0 6 _ hex k (twice_tokens _) eq_refl (A _ pf) (twice_module pf) H).
Qed.

(** [C91_found]: what is found in it stands in it. *)
Example twice_stands : forall pf, exists v, standsThere twiceTokens pf (b "G") (Group_ v) /\ keyOf "groupLongIdentifier" v = b "two".
Proof.
  intros pf. destruct twice_found as (a & v2 & v3 & A & F). destruct (F []) as (F1 & K & _). exists v2. split; [|exact K].
  destruct (C91_found (fun _ => false) pf 1 twiceFile a 0 [] (b "G") _ _ (A _ pf) F1 (or_introl eq_refl)) as (t & T & ST).
  pose proof (A2lFileProps.tokens_one _ _ _ _ _ T (twice_tokens _)) as ET. injection ET as ->. exact ST.
Qed.

Definition groupHere : form := match nth_error moduleItems 10 with Some (Item _ _ _ sub) => sub | None => Value Text end.
(** [C91_name]: the first group is called by the word after its keyword. *)
Example twice_name : forall pf, exists v, reads twiceTokens pf (odd twiceTokens pf) groupHere 9 v 12 /\ keyOf "groupName" v = b "G".
Proof.
  intros pf. assert (X : exists v, reads twiceTokens pf (odd twiceTokens pf) groupHere 9 v 12) by (eexists; run_ parseGroup). destruct X as (v & R). exists v. split; [exact R|].
  apply (C91_name _ _ "/begin GROUP"%string "groupName"%string (@Group_ val) "Groups"%string groupHere _ _ _ (nth_error_In lookedUp 7 eq_refl) (nth_error_In moduleItems 10 eq_refl) R).
  split; [discriminate|]. split; [reflexivity|]. vm_compute. intros H. repeat destruct H as [H|H]; solve [discriminate H|destruct H].
Qed.
