(** Theorems of property C86: nothing in the parsed tree is invented. *)
From Coq Require Import String Ascii List Arith ZArith NArith Bool Lia SpecFloat Permutation.
From Verif Require Import GoBase GoBaseFacts A2lIR A2lTokens A2lParsers A2lThm A2lSpec A2lProps FanModel A2lModModel A2lModSpec A2lModStore A2lModSeq A2lModPar A2lFileModel OriginSpec OriginThm.
From Verif Require FanProofs TokModel A2lNestProps A2lModProps A2lNestSpec.
Import ListNotations.

(** ** Parsers *)

(** Every parser, with or without an error, for any tokens. *)
Theorem C86_parser : forall name g toks pf i v e j, In (name, g) allParsers -> ended toks -> returns toks pf g i v e j ->
    i <= j /\ origin (between toks i j) pf e v.
Proof.
  intros name g toks pf i v e j I EN [n R]. pose proof (proj1 (forallb_forall _ _) parsers_checked _ I) as C. cbn [snd] in C.
  exact (proj2 (proj2 (proj2 (origins toks pf n EN))) g C i v e j (R n (le_n n))).
Qed.
Print Assumptions C86_parser.

(** ** Modules *)

(** The kinds of objects with the names of their parsers. *)
Definition kindParsers : list (string * string) := [
  ("A2ML", "parseA2ML"); ("AXIS_PTS", "parseAxisPts"); ("BLOB", "parseBlob"); ("CHARACTERISTIC", "parseCharacteristic");
  ("COMPU_METHOD", "parseCompuMethod"); ("COMPU_TAB", "parseCompuTab"); ("COMPU_VTAB", "parseCompuVtab"); ("COMPU_VTAB_RANGE", "parseCompuVtabRange");
  ("FRAME", "parseFrame"); ("FUNCTION", "parseFunction"); ("GROUP", "parseGroup"); ("IF_DATA", "parseIfData"); ("INSTANCE", "parseInstance");
  ("MEASUREMENT", "parseMeasurement"); ("MOD_COMMON", "parseModCommon"); ("MOD_PAR", "parseModPar"); ("RECORD_LAYOUT", "parseRecordLayout");
  ("TRANSFORMER", "parseTransformer"); ("TYPEDEF_AXIS", "parseTypeDefAxis"); ("TYPEDEF_BLOB", "parseTypeDefBlob");
  ("TYPEDEF_CHARACTERISTIC", "parseTypeDefCharacteristic"); ("TYPEDEF_MEASUREMENT", "parseTypeDefMeasurement");
  ("TYPEDEF_STRUCTURE", "parseTypeDefStructure"); ("UNIT", "parseUnit"); ("USER_RIGHTS", "parseUserRights"); ("VARIANT_CODING", "parseVariantCoding")]%string.

Lemma kinds_parsers : map (fun k => (fst k, fst (snd k))) kinds
  = map (fun p => (("/begin " ++ fst p)%string, match find (fun q => String.eqb (fst q) (snd p)) allParsers with Some (_, g) => g | None => parseHeader end)) kindParsers.
Proof. vm_compute. reflexivity. Qed.
Lemma kindParsers_ok : forallb (fun p => existsb (fun q => String.eqb (fst q) (snd p)) allParsers
    && existsb (fun q => String.eqb (fst q) (snd p) && String.eqb (snd q) ("/end " ++ fst p)) brackets
    && (negb (String.eqb (snd p) "parseFrame") || String.eqb (fst p) "FRAME")) kindParsers = true.
Proof. vm_compute. reflexivity. Qed.
Lemma append_inj : forall p x y, (p ++ x = p ++ y)%string -> x = y.
Proof. induction p as [|c p IH]; intros x y H; [exact H|]. injection H as H. apply IH, H. Qed.
Lemma kind_parser : forall x g a, In (("/begin " ++ x)%string, (g, a)) kinds ->
    exists name, In (name, g) allParsers /\ In (name, ("/end " ++ x)%string) brackets /\ (name = "parseFrame"%string -> x = "FRAME"%string).
Proof.
  intros x g a I. apply (in_map (fun k => (fst k, fst (snd k)))) in I. cbn [fst snd] in I. rewrite kinds_parsers in I. apply in_map_iff in I.
  destruct I as ([y name] & E & I). cbn [fst snd] in E. pose proof (proj1 (forallb_forall _ _) kindParsers_ok _ I) as K. cbn [fst snd] in K.
  apply andb_true_iff in K. destruct K as [K K3]. apply andb_true_iff in K. destruct K as [K1 K2].
  assert (E1 : x = y) by (apply (append_inj "/begin "); congruence). subst y. exists name.
  destruct (find (fun q => String.eqb (fst q) name) allParsers) as [[name' g']|] eqn:F.
  - apply find_some in F. destruct F as [F1 F2]. cbn [fst] in F2. apply String.eqb_eq in F2. subst name'. injection E as <-. split; [exact F1|]. split.
    + apply existsb_exists in K2. destruct K2 as ([q1 q2] & Q1 & Q2). cbn [fst snd] in Q2. apply andb_true_iff in Q2. destruct Q2 as [Q2 Q3].
      apply String.eqb_eq in Q2, Q3. subst. exact Q1.
    + intros ->. cbn in K3. apply String.eqb_eq. exact K3.
  - exfalso. apply existsb_exists in K1. destruct K1 as (q & Q1 & Q2). pose proof (find_none _ _ F _ Q1) as N. cbv beta in N. congruence.
Qed.
Lemma kinds_named : forall t g a, In (t, (g, a)) kinds -> exists x, t = ("/begin " ++ x)%string.
Proof.
  intros t g a I. apply (in_map (fun k => (fst k, fst (snd k)))) in I. cbn [fst snd] in I. rewrite kinds_parsers in I. apply in_map_iff in I.
  destruct I as ([y name] & E & _). cbn [fst] in E. exists y. congruence.
Qed.

Lemma returns_fun : forall toks pf g i v e j v' e' j', returns toks pf g i v e j -> returns toks pf g i v' e' j' -> v = v' /\ e = e' /\ j = j'.
Proof. intros toks pf g i v e j v' e' j' [n H] [m K]. specialize (H (n + m) ltac:(lia)). specialize (K (n + m) ltac:(lia)). rewrite H in K. injection K as -> -> ->. auto. Qed.

Lemma object_stands : forall toks pf x g a i v j, ended toks -> In (("/begin " ++ x)%string, (g, a)) kinds -> nth i toks [] = b ("/begin " ++ x) ->
    returns toks pf g i v false j -> stands toks pf x v.
Proof.
  intros toks pf x g a i v j EN I T R. destruct (kind_parser x g a I) as (name & IP & IB & FR).
  assert (L : i < length toks) by (destruct (Nat.lt_ge_cases i (length toks)); [assumption|rewrite nth_overflow in T by assumption; discriminate]).
  destruct (C59_terminates name g toks pf i IP EN L) as (v1 & e1 & j1 & R1 & J1). destruct (returns_fun _ _ _ _ _ _ _ _ _ _ R R1) as (<- & <- & <-).
  exists i, j. split; [exact J1|]. split; [exact T|]. split; [|exact (proj2 (C86_parser _ _ _ _ _ _ _ _ IP EN R))].
  intros NF. destruct (string_dec name "parseFrame") as [E|E]; [destruct (NF (FR E))|].
  destruct (C59_end_guarded name _ g toks pf i IB IP E EN L) as (v2 & e2 & j2 & R2 & J2). destruct (returns_fun _ _ _ _ _ _ _ _ _ _ R R2) as (<- & <- & <-).
  apply J2. reflexivity.
Qed.

(** *** What the module holds while it is filled *)

(** All objects that the module holds are [R] of their kind. *)
Definition holds (R : string -> val -> Prop) (o : fields) : Prop :=
  forall x g a, In (("/begin " ++ x)%string, (g, a)) kinds ->
    match a with
    | Keep f => forall v, fget f o = Some v -> R x v
    | Put_ f k => exists m, fget f o = Some (VMap m) /\ forall key v, In (key, v) m -> key = keyOf k v /\ R x v
    end.

Section Fill.
  Variable R : string -> val -> Prop.

  Lemma stand_flag : forall o f v, ~ In f (map fieldOf actions) -> holds R o -> holds R (fset f v o).
  Proof.
    intros o f v N H x g a I. specialize (H x g a I). 
    assert (J : In (fieldOf a) (map fieldOf actions)) by (apply in_map; unfold actions; apply (in_map (fun k => snd (snd k)) _ _ I)).
    destruct a as [f'|f' k]; cbn [fieldOf] in J; rewrite fget_fset; (destruct (String.eqb_spec f' f); [subst; contradiction|exact H]).
  Qed.
  Lemma stand_absorb : forall o x g a v, In (("/begin " ++ x)%string, (g, a)) kinds -> R x v -> holds R o -> holds R (absorb a o v).
  Proof.
    intros o x g a v I S1 H y g' a' I'. specialize (H y g' a' I').
    assert (J : In a actions) by (unfold actions; apply (in_map (fun k => snd (snd k)) _ _ I)).
    assert (J' : In a' actions) by (unfold actions; apply (in_map (fun k => snd (snd k)) _ _ I')).
    destruct (string_dec (fieldOf a) (fieldOf a')) as [E|E].
    - assert (a' = a) as -> by (eapply NoDup_map_inj; [exact actions_fields|exact J'|exact J|congruence]).
      assert (X : y = x).
      { assert (ND : NoDup (map (fun k => snd (snd k)) kinds)) by (eapply NoDup_map_inv; exact actions_fields).
        apply (append_inj "/begin "). pose proof (NoDup_map_inj _ _ (fun k : string * (fn * action) => snd (snd k)) kinds _ _ ND I I' eq_refl) as Q. congruence. }
      subst y. destruct a as [f|f k]; cbn [absorb].
      + intros w. rewrite fget_fset, String.eqb_refl. intros W. injection W as <-. exact S1.
      + destruct H as (m & F & M). rewrite F. exists (mput (keyOf k v) v m). rewrite fget_fset, String.eqb_refl. split; [reflexivity|].
        intros key w W. apply in_mput in W. destruct W as [W|W]; [injection W as -> ->; auto|exact (M _ _ W)].
    - destruct a' as [f|f k]; cbn [fieldOf] in E; rewrite (absorb_other f a o v) by congruence; exact H.
  Qed.
  Lemma stand_store : forall l o, (forall a v, In (a, v) l -> exists x g, In (("/begin " ++ x)%string, (g, a)) kinds /\ R x v) ->
    holds R o -> holds R (store l o).
  Proof.
    induction l as [|[a v] l IH]; intros o H S1; [exact S1|]. cbn [store fold_left fst snd]. apply IH.
    - intros a' v' I. apply H. right. exact I.
    - destruct (H a v (or_introl eq_refl)) as (x & g & I & SV). eapply stand_absorb; eassumption.
  Qed.
  Lemma stand_empty : holds R emptyModule.
  Proof.
    intros x g a I. assert (J : In a actions) by (unfold actions; apply (in_map (fun k => snd (snd k)) _ _ I)).
    assert (E : forallb (fun a => match a with Keep f => match fget f emptyModule with None => true | _ => false end
       | Put_ f _ => match fget f emptyModule with Some (VMap []) => true | _ => false end end) actions = true) by (vm_compute; reflexivity).
    pose proof (proj1 (forallb_forall _ _) E a J) as Q. destruct a as [f|f k].
    - destruct (fget f emptyModule); [discriminate|]. intros v V. discriminate.
    - destruct (fget f emptyModule) as [[]|]; try discriminate. destruct m; [|discriminate]. exists []. split; [reflexivity|]. intros key v [].
  Qed.
End Fill.

(** *** The sequential parser *)
Lemma sequential_stand : forall toks pf (R : string -> val -> Prop) i v j, ended toks ->
    (forall x g a i v j, In (("/begin " ++ x)%string, (g, a)) kinds -> nth i toks [] = b ("/begin " ++ x) -> returns toks pf g i v false j -> R x v) ->
    returns toks pf parseModule i v false j -> exists o, v = VObj o /\ holds R o.
Proof.
  intros toks pf R i v j EN RO [n RT]. specialize (RT n (le_n n)). rewrite mod_shape in RT.
  assert (P : A2lIR.run isKeyword toks pf n modPre (St [] [] false i) = Go (St emptyModule [] false i)) by reflexivity.
  rewrite (A2lModSeq.call_loop _ _ _ _ _ _ _ P) in RT. clear P.
  destruct (iter n (A2lIR.run isKeyword toks pf n modBody) (St emptyModule [] false i)) as [s'|s'| |] eqn:IT; try discriminate; [|destruct (iter_out _ _ _ _ IT)].
  injection RT as <- E <-. exists (s_obj s'). split; [reflexivity|].
  assert (K : forall m s s', ready (s_obj s) -> holds R (s_obj s) -> iter m (A2lIR.run isKeyword toks pf n modBody) s = Go s' -> s_err s' = false -> holds R (s_obj s')).
  { clear s' IT E. induction m as [|m IH]; intros s s' RD H IT E'; [discriminate|]. cbn [iter] in IT.
    destruct (findKind (nextTok toks (s_idx s)) kinds) as [[t [g a]]|] eqn:F.
    - pose proof (object_round toks pf n s t g a F) as D. apply findKind_some in F. destruct F as [I F]. cbn [fst] in F.
      destruct (kinds_named _ _ _ I) as [x ->].
      assert (BG : begins (nextTok toks (s_idx s))) by (eexists; split; [exact I|exact F]).
      destruct (current_next toks (s_idx s) (proj2 (begins_not_end _ BG))) as (N1 & N2 & _).
      assert (IA : In a actions) by (unfold actions; apply (in_map (fun k => snd (snd k)) _ _ I)).
      unfold does in D. cbn [setIdx s_idx s_obj] in D. destruct (A2lIR.call isKeyword toks pf n g (next toks (s_idx s))) as [w [|] j1| |] eqn:C.
      + destruct D as (s1 & D & E1). rewrite D in IT. injection IT as <-. congruence.
      + destruct (D (RD a IA)) as (s1 & D1 & O1 & E1 & J1). rewrite D1 in IT. apply (IH s1 s'); auto; rewrite O1.
        * apply absorb_ready; auto.
        * eapply stand_absorb; [exact I| |exact H]. eapply (RO x g a (S (s_idx s))); [exact I|unfold tok in N2; congruence|].
          apply (call_returns toks pf n). rewrite <- N1. exact C.
      + rewrite D in IT. discriminate.
      + rewrite D in IT. discriminate.
    - rewrite (default_round toks pf n s F), default_steps in IT. cbn [setIdx s_idx s_obj] in IT.
      destruct (beqb (current toks (next toks (s_idx s))) []); [injection IT as <-; discriminate|].
      destruct (beqb (current toks (next toks (s_idx s))) (b "/end MODULE")); [injection IT as <-; exact H|].
      destruct (isKeyword (current toks (next toks (s_idx s)))); [injection IT as <-; discriminate|].
      assert (FR : forall f v, In f ["Name"; "nameSet"; "longIdentifier"; "longIdentifierSet"]%string -> forall o, ready o -> holds R o -> ready (fset f v o) /\ holds R (fset f v o)).
      { intros f v0 IF o RDY HO. pose proof (flags_free f IF) as NF. split; [|apply stand_flag; assumption].
        intros a IA. specialize (RDY a IA). destruct a as [f'|f' k]; [exact RDY|]. cbn [present] in *. rewrite fget_fset. destruct (String.eqb_spec f' f); [|exact RDY].
        subst f'. destruct NF. apply (in_map fieldOf _ _ IA). }
      destruct (fbool "nameSet" (s_obj s)); [destruct (fbool "longIdentifierSet" (s_obj s))|].
      + refine (IH _ s' _ _ IT E'); assumption.
      + destruct (FR "longIdentifier"%string (VStr (current toks (next toks (s_idx s)))) ltac:(cbn; tauto) _ RD H) as [A1 B1].
        destruct (FR "longIdentifierSet"%string (VBool true) ltac:(cbn; tauto) _ A1 B1) as [A2 B2]. refine (IH _ s' _ _ IT E'); assumption.
      + destruct (FR "Name"%string (VStr (current toks (next toks (s_idx s)))) ltac:(cbn; tauto) _ RD H) as [A1 B1].
        destruct (FR "nameSet"%string (VBool true) ltac:(cbn; tauto) _ A1 B1) as [A2 B2]. refine (IH _ s' _ _ IT E'); assumption. }
  apply (K n (St emptyModule [] false i) s'); [|apply stand_empty|exact IT|exact E].
  intros a IA. pose proof (stand_empty R) as SE. unfold actions in IA. apply in_map_iff in IA. destruct IA as ([t [g a']] & EA & IK). cbn [snd] in EA. subst a'.
  destruct (kinds_named _ _ _ IK) as [x ->]. specialize (SE x g a IK). destruct a as [f|f k]; [exact Logic.I|]. destruct SE as (m & F & _). exists m. exact F.
Qed.

(** *** The parallel parser *)

(** Only what was to be sent is received. *)
Lemma fan_source : forall (cap : string -> nat) (P : string -> val -> Prop) s s', fsteps cap s s' ->
    (forall l c v, In l (f_work s) -> In (c, v) l -> P c v) /\ (forall c v, In v (f_buf s c) -> P c v) /\ (forall c v, In v (f_got s c) -> P c v) ->
    (forall c v, In v (f_got s' c) -> P c v).
Proof.
  intros cap P s s' ST. induction ST as [s|s1 s2 s3 ST _ IH]; intros (W & B & G); [exact G|]. apply IH. clear IH. inversion ST; subst; cbn [f_work f_buf f_got] in *.
  - split; [|split; [|exact G]].
    + intros l c0 v0 I J. apply FanProofs.put_in in I. destruct I as [->|I]; [|exact (W _ _ _ I J)]. apply nth_error_In in H. apply (W _ _ _ H). right. exact J.
    + intros c0 v0 I. unfold upd in I. destruct (String.eqb_spec c0 c) as [->|]; [|exact (B _ _ I)]. apply in_app_or in I. destruct I as [I|[<-|[]]]; [exact (B _ _ I)|].
      apply nth_error_In in H. apply (W _ _ _ H). left. reflexivity.
  - split; [exact W|]. split.
    + intros c0 v0 I. unfold upd in I. destruct (String.eqb_spec c0 c) as [->|]; [|exact (B _ _ I)]. apply B. rewrite H0. right. exact I.
    + intros c0 v0 I. unfold upd in I. destruct (String.eqb_spec c0 c) as [->|]; [|exact (G _ _ I)]. apply in_app_or in I. destruct I as [I|[<-|[]]]; [exact (G _ _ I)|].
      apply B. rewrite H0. left. reflexivity.
  - auto.
  - auto.
Qed.

Lemma loop_source : forall toks pf max i out, ended toks -> loops toks pf max i out ->
    forall c v, In (c, v) out -> c = errChan \/ exists r k j, In r rows /\ r_chan r = c /\ nth k toks [] = b (r_tok r) /\ returns toks pf (r_parse r) k v false j.
Proof.
  intros toks pf max i out EN [n L]. specialize (L n (le_n n)). revert L. generalize n at 2 as m. intros m. revert i out.
  induction m as [|m IH]; intros i out L c v I; [discriminate|]. cbn [mainLoop] in L.
  destruct (max <=? i); [injection L as <-; destruct I|]. destruct (findRow (nextTok toks i) rows) as [r|] eqn:F.
  - destruct (A2lIR.call isKeyword toks pf n (r_parse r) (next toks i)) as [w e j| |] eqn:C; try discriminate. destruct e.
    + injection L as <-. destruct I as [I|[]]. left. injection I as <- _. reflexivity.
    + destruct (mainLoop toks pf n m max j) as [out'|] eqn:M; [|discriminate]. injection L as <-. destruct I as [I|I]; [|exact (IH _ _ M _ _ I)].
      injection I as <- <-. right. exists r, (next toks i), j. split; [eapply findRow_in; exact F|]. split; [reflexivity|]. split.
      * assert (E : forall rs, findRow (nextTok toks i) rs = Some r -> nextTok toks i = b (r_tok r)).
        { clear. induction rs as [|r' rs IH]; cbn [findRow]; intros H; [discriminate|]. destruct (beqb (nextTok toks i) (b (r_tok r'))) eqn:B; [|exact (IH H)].
          injection H as ->. apply beqb_eq. exact B. }
        rewrite <- (E rows F). rewrite (nextTok_current toks EN). reflexivity.
      * apply (call_returns toks pf n). exact C.
  - destruct (beqb (current toks (next toks i)) []); [injection L as <-; destruct I as [I|[]]; left; injection I as <- _; reflexivity|].
    destruct (beqb (current toks (next toks i)) (b "/end MODULE")); [injection L as <-; destruct I|].
    destruct (max <=? next toks i); [injection L as <-; destruct I|]. exact (IH _ _ L _ _ I).
Qed.

Lemma actOf_in : forall p, In p channels -> actOf (fst p) = Some (snd (snd p)).
Proof.
  intros p I. unfold actOf. destruct (find (fun q => String.eqb (fst q) (fst p)) channels) as [q|] eqn:F.
  - apply find_some in F. destruct F as [F1 F2]. apply String.eqb_eq in F2. rewrite (NoDup_map_inj _ _ fst channels q p channels_nodup F1 I F2). reflexivity.
  - pose proof (find_none _ _ F _ I) as N. cbv beta in N. rewrite String.eqb_refl in N. discriminate.
Qed.
Lemma rows_kind : forall r p, In r rows -> In p channels -> r_chan r = fst p -> In (r_tok r, (r_parse r, snd (snd p))) kinds.
Proof.
  intros r p I J E.
  assert (Q : map (fun r => match actOf (r_chan r) with Some a => Some (r_tok r, (r_parse r, a)) | None => None end) rows = map Some kinds) by reflexivity.
  apply (in_map (fun r => match actOf (r_chan r) with Some a => Some (r_tok r, (r_parse r, a)) | None => None end)) in I. rewrite Q in I.
  rewrite E, (actOf_in p J) in I. apply in_map_iff in I. destruct I as (k & K & I). injection K as <-. exact I.
Qed.
Lemma errChan_none : ~ In errChan (map fst channels).
Proof.
  intros I. assert (E : existsb (String.eqb errChan) (map fst channels) = true) by (apply existsb_exists; exists errChan; split; [exact I|apply String.eqb_refl]).
  vm_compute in E. discriminate.
Qed.

Lemma header_stand : forall toks R i o e j, header toks i = (o, e, j) -> holds R o.
Proof.
  intros toks R i o e j H. unfold header in H. pose proof (stand_empty R) as SE. revert SE H. generalize emptyModule. intros em SE H.
  destruct (beqb (current toks (next toks i)) []); [injection H as <- _ _; exact SE|].
  assert (FR : forall f v, In f ["Name"; "nameSet"; "longIdentifier"; "longIdentifierSet"]%string -> forall o, holds R o -> holds R (fset f v o)).
  { intros f v IF o' HO. apply stand_flag; [exact (flags_free f IF)|exact HO]. }
  destruct (beqb (current toks (next toks (next toks i))) []); injection H as <- _ _; repeat (apply FR; [cbn; tauto|]); exact SE.
Qed.

Lemma parallel_stand : forall toks pf (R : string -> val -> Prop) np i v e j, ended toks ->
    (forall x g a i v j, In (("/begin " ++ x)%string, (g, a)) kinds -> nth i toks [] = b ("/begin " ++ x) -> returns toks pf g i v false j -> R x v) ->
    parallel toks pf np i v e j -> exists o, v = VObj o /\ holds R o.
Proof.
  intros toks pf R np i v e j EN RO H. destruct H as [o e start HD _|o e start stop outs s HD _ _ F2 ST _].
  - exists o. split; [reflexivity|]. eapply header_stand. exact HD.
  - eexists. split; [reflexivity|]. rewrite collected_store. apply stand_store; [|eapply header_stand; exact HD].
    intros a w I. unfold gathered in I. apply in_flat_map in I. destruct I as (p & P & I). apply in_map_iff in I. destruct I as (w' & E & I). injection E as <- ->.
    set (P1 := fun (c : string) (v : val) => c = errChan \/ exists r k j, In r rows /\ r_chan r = c /\ nth k toks [] = b (r_tok r) /\ returns toks pf (r_parse r) k v false j).
    assert (G : P1 (fst p) w).
    { apply (fan_source (capOf np) P1 _ _ ST); [|exact I]. cbn [finit f_work f_buf f_got]. split; [|split; intros c v' []].
      intros l c v' IL IV. clear - EN F2 IL IV. induction F2 as [|k out ks outs L F2 IH]; [destruct IL|]. destruct IL as [->|IL]; [|exact (IH IL)].
      exact (loop_source toks pf _ _ _ EN L c v' IV). }
    destruct G as [G|(r & k & j & IR & EC & T & RT)]; [destruct errChan_none; rewrite <- G; apply in_map; exact P|].
    pose proof (rows_kind r p IR P EC) as K. destruct (kinds_named _ _ _ K) as [x X]. rewrite X in *. exists x, (r_parse r). split; [exact K|].
    eapply RO; eassumption.
Qed.

(** A module, parsed with or without several goroutines (in any order): all its
    objects are in the file. *)
Theorem C86_module : forall toks pf np mt i v j, ended toks -> parsesModule toks pf np mt i v false j -> exists o, v = VObj o /\ allStand toks pf o.
Proof.
  intros toks pf np mt i v j EN H. unfold parsesModule in H. destruct mt; [eapply (parallel_stand toks pf (stands toks pf)); [exact EN| |exact H]|eapply (sequential_stand toks pf (stands toks pf)); [exact EN| |exact H]];
    intros; eapply object_stands; eassumption.
Qed.
Print Assumptions C86_module.

(** ** Files *)

Lemma between_in : forall toks i j t, ended toks -> between toks i j t -> In t toks.
Proof.
  intros toks i j t [l ->] (k & _ & E). destruct (Nat.lt_ge_cases k (length (l ++ [[]]))) as [L|L].
  - rewrite <- E. apply nth_In. exact L.
  - rewrite nth_overflow in E by exact L. subst t. apply in_or_app. right. left. reflexivity.
Qed.
Definition inside (toks : list bytes) (t : bytes) : Prop := In t toks.
Lemma parser_inside : forall name g toks pf i v e j, In (name, g) allParsers -> ended toks -> returns toks pf g i v e j -> origin (inside toks) pf e v.
Proof.
  intros name g toks pf i v e j I EN R. eapply origin_mono; [|exact (proj2 (C86_parser _ _ _ _ _ _ _ _ I EN R))]. intros t. apply between_in. exact EN.
Qed.
Lemma current_in : forall toks i, ended toks -> inside toks (current toks i).
Proof. intros toks i EN. apply (between_in toks i i); [exact EN|]. exists i. split; [lia|reflexivity]. Qed.

Lemma kept_absorb : forall g pf l0 a o v, kept g pf l0 o -> origin g pf l0 v -> kept g pf l0 (absorb a o v).
Proof.
  intros g pf l0 a o v K O. destruct a as [f|f k]; cbn [absorb]; [apply kept_set; assumption|]. destruct (fget f o) as [[]|] eqn:F; try exact K.
  apply kept_set; [exact K|]. pose proof (kept_get _ _ _ _ _ _ K F) as M. inversion M as [| | | | | | | | | |? M1 M2|]; subst.
  apply OrMap; intros k0 v0 I; apply in_mput in I; (destruct I as [I|I]; [injection I as -> ->|]); eauto.
  unfold keyOf. destruct v as [| | | | | |vo]; auto. unfold fstr. destruct (fget k vo) as [[]|] eqn:FK; auto. right. exists vo, k. auto.
Qed.
Lemma kept_store : forall g pf l0 l o, (forall a v, In (a, v) l -> origin g pf l0 v) -> kept g pf l0 o -> kept g pf l0 (store l o).
Proof.
  intros g pf l0. induction l as [|[a v] l IH]; intros o H K; [exact K|]. cbn [store fold_left fst snd]. apply IH; [intros; eapply H; right; eassumption|].
  apply kept_absorb; [exact K|]. eapply H. left. reflexivity.
Qed.
Lemma kept_empty : forall g pf l0, kept g pf l0 emptyModule.
Proof.
  intros g pf l0 f v I. unfold emptyModule in I. apply in_map_iff in I. destruct I as (x & E & _). injection E as _ <-. apply OrMap; intros k w [].
Qed.
Lemma kept_header : forall toks pf l0 i o e j, ended toks -> header toks i = (o, e, j) -> kept (inside toks) pf l0 o.
Proof.
  intros toks pf l0 i o e j EN H. unfold header in H. pose proof (kept_empty (inside toks) pf l0) as SE. revert SE H. generalize emptyModule. intros em SE H.
  destruct (beqb (current toks (next toks i)) []); [injection H as <- _ _; exact SE|].
  destruct (beqb (current toks (next toks (next toks i))) []); injection H as <- _ _;
    repeat (apply kept_set; [|first [apply OrSet|apply OrText; apply current_in; exact EN]]); exact SE.
Qed.
Lemma rows_parsers : forall r, In r rows -> exists name, In (name, r_parse r) allParsers.
Proof.
  intros r I. assert (K : exists a, In (r_tok r, (r_parse r, a)) kinds).
  { assert (Q : map (fun r => match actOf (r_chan r) with Some a => Some (r_tok r, (r_parse r, a)) | None => None end) rows = map Some kinds) by reflexivity.
    apply (in_map (fun r => match actOf (r_chan r) with Some a => Some (r_tok r, (r_parse r, a)) | None => None end)) in I. rewrite Q in I.
    apply in_map_iff in I. destruct I as (k & K & I). destruct (actOf (r_chan r)) as [a|]; [|discriminate]. injection K as ->. exists a. exact I. }
  destruct K as [a K]. destruct (kinds_named _ _ _ K) as [x X]. rewrite X in K. destruct (kind_parser _ _ _ K) as (name & P & _). eauto.
Qed.
Lemma module_inside : forall toks pf np mt i v e j, ended toks -> parsesModule toks pf np mt i v e j -> origin (inside toks) pf e v.
Proof.
  intros toks pf np mt i v e j EN H. unfold parsesModule in H. destruct mt.
  - destruct H as [o e start HD _|o e start stop outs s HD _ _ F2 ST _]; apply OrObj; [exact (kept_header _ _ _ _ _ _ _ EN HD)|].
    rewrite collected_store. apply kept_store; [|exact (kept_header _ _ _ _ _ _ _ EN HD)].
    intros a w I. unfold gathered in I. apply in_flat_map in I. destruct I as (p & P & I). apply in_map_iff in I. destruct I as (w' & E & I). injection E as <- ->.
    set (P1 := fun (c : string) (v : val) => c = errChan \/ exists r k j, In r rows /\ r_chan r = c /\ nth k toks [] = b (r_tok r) /\ returns toks pf (r_parse r) k v false j).
    assert (G : P1 (fst p) w).
    { apply (fan_source (capOf np) P1 _ _ ST); [|exact I]. cbn [finit f_work f_buf f_got]. split; [|split; intros c v' []].
      intros l c v' IL IV. clear - EN F2 IL IV. induction F2 as [|k out ks outs L F2 IH]; [destruct IL|]. destruct IL as [->|IL]; [|exact (IH IL)].
      exact (loop_source toks pf _ _ _ EN L c v' IV). }
    destruct G as [G|(r & k & j & IR & EC & T & R)]; [destruct errChan_none; rewrite <- G; apply in_map; exact P|].
    destruct (rows_parsers r IR) as [name IP]. eapply origin_lax; [|exact (parser_inside _ _ _ _ _ _ _ _ IP EN R)]. discriminate.
  - apply (parser_inside "parseModule"%string parseModule toks pf i v e j); [|exact EN|exact H]. unfold allParsers. repeat (first [left; reflexivity|right]).
Qed.

(** The struct for the project: what it is made of, and its modules. *)
Definition sound (toks : list bytes) (pf : bytes -> option spec_float) (l : bool) (p : fields) : Prop :=
  kept (inside toks) pf l p /\ forall m, In m (flist "Modules" p) -> exists o, m = VObj o /\ allStand toks pf o.
Lemma sound_lax : forall toks pf l p, sound toks pf false p -> sound toks pf l p.
Proof. intros toks pf l p [K M]. split; [eapply kept_lax; [|exact K]; discriminate|exact M]. Qed.
Lemma sound_set : forall toks pf l p f v, f <> "Modules"%string -> sound toks pf l p -> origin (inside toks) pf l v -> sound toks pf l (fset f v p).
Proof.
  intros toks pf l p f v N [K M] O. split; [apply kept_set; assumption|]. intros m I. apply M. unfold flist in *. rewrite fget_fset in I.
  destruct (String.eqb_spec "Modules" f); [congruence|exact I].
Qed.
Lemma project_sound : forall toks pf np mt p i p' e j, ended toks -> project toks pf (parsesModule toks pf np mt) p i p' e j -> sound toks pf false p -> sound toks pf e p'.
Proof.
  intros toks pf np mt p i p' e j EN H.
  assert (HD : In ("parseHeader"%string, parseHeader) allParsers) by (unfold allParsers; repeat (first [left; reflexivity|right])).
  induction H as [p i v j p' e k T R _ IH|p i v j T R|p i v j p' e k T R _ IH|p i v j T R|p i q p' e k N1 N2 O _ IH|p i e N1 N2 O]; intros S1.
  - apply IH. apply sound_set; [discriminate|exact S1|exact (parser_inside _ _ _ _ _ _ _ _ HD EN R)].
  - apply sound_set; [discriminate|apply sound_lax; exact S1|exact (parser_inside _ _ _ _ _ _ _ _ HD EN R)].
  - apply IH. pose proof (module_inside _ _ _ _ _ _ _ _ EN R) as OV. destruct (C86_module _ _ _ _ _ _ _ EN R) as (o & -> & A). destruct S1 as [K M]. split.
    + apply kept_set; [exact K|]. apply OrList. intros w I. apply in_app_or in I. destruct I as [I|[<-|[]]]; [exact (kept_list _ _ _ _ _ _ K I)|exact OV].
    + intros m I. unfold flist in I at 1. rewrite fget_fset in I. change (String.eqb "Modules" "Modules") with true in I. cbv iota in I. apply in_app_or in I.
      destruct I as [I|[<-|[]]]; [exact (M _ I)|]. exists o. auto.
  - apply sound_lax. exact S1.
  - apply IH. unfold projectOther in O. repeat match type of O with (if ?c then _ else _) = _ => destruct c; try discriminate end; injection O as <-; auto;
      (apply sound_set; [discriminate|apply sound_set; [discriminate|exact S1|apply OrText; apply current_in; exact EN]|apply OrSet]).
  - apply sound_lax. exact S1.
Qed.

Definition soundFile (toks : list bytes) (pf : bytes -> option spec_float) (l : bool) (a : fields) : Prop :=
  kept (inside toks) pf l a /\ forall p, fget "Project" a = Some (VObj p) -> sound toks pf l p.
Lemma soundFile_lax : forall toks pf l a, soundFile toks pf false a -> soundFile toks pf l a.
Proof. intros toks pf l a [K M]. split; [eapply kept_lax; [|exact K]; discriminate|]. intros p E. apply sound_lax, M, E. Qed.
Lemma part_sound : forall toks pf np mt t i f v e j a, ended toks -> part toks pf (parsesModule toks pf np mt) t i f v e j -> soundFile toks pf false a -> soundFile toks pf e (fset f v a).
Proof.
  intros toks pf np mt t i f v e j a EN P S0. apply (soundFile_lax _ _ e) in S0. destruct S0 as [K M]. destruct P as [i v e j R|i v e j R|i p e j R].
  - assert (IP : In ("parseASAP2Version"%string, parseASAP2Version) allParsers) by (unfold allParsers; repeat (first [left; reflexivity|right])).
    split; [apply kept_set; [exact K|exact (parser_inside _ _ _ _ _ _ _ _ IP EN R)]|]. intros p. rewrite fget_fset. exact (M p).
  - assert (IP : In ("parseA2MLVersion"%string, parseA2MLVersion) allParsers) by (unfold allParsers; repeat (first [left; reflexivity|right])).
    split; [apply kept_set; [exact K|exact (parser_inside _ _ _ _ _ _ _ _ IP EN R)]|]. intros p. rewrite fget_fset. exact (M p).
  - pose proof (project_sound _ _ _ _ _ _ _ _ _ EN R) as S1. assert (S0 : sound toks pf false []) by (split; [intros f v []|intros m []]). specialize (S1 S0).
    split; [apply kept_set; [exact K|apply OrObj; apply S1]|]. intros p'. rewrite fget_fset. change (String.eqb "Project" "Project") with true. cbv iota.
    intros E. injection E as <-. exact S1.
Qed.
Lemma a2l_sound : forall toks pf np mt a i a' e j, ended toks -> a2l toks pf (parsesModule toks pf np mt) a i a' e j -> soundFile toks pf false a -> soundFile toks pf e a'.
Proof.
  intros toks pf np mt a i a' e j EN H. induction H as [a i f v j a' e k P _ IH|a i f v j P|a i q a' e k N O _ IH|a i e N O]; intros S1.
  - apply IH. exact (part_sound _ _ _ _ _ _ _ _ _ _ _ EN P S1).
  - exact (part_sound _ _ _ _ _ _ _ _ _ _ _ EN P S1).
  - apply IH. unfold a2lOther in O. repeat match type of O with (if ?c then _ else _) = _ => destruct c; try discriminate end. injection O as <-. exact S1.
  - apply soundFile_lax. exact S1.
Qed.

(** Any file, any outcome: everything in the tree is made of tokens of the file, and the
    objects of each module stand in the file.  With an error, there can be numbers in
    place of tokens that could not be read. *)
Theorem C86_file : forall gr pf cpus content a e, parseFromFile gr pf cpus (Some content) (Returned a e) ->
    exists t, fileTokens gr cpus content (Some t) /\
      let toks := TokModel.tk_list t in
      origin (fun s => In s toks) pf e (VObj a) /\
      forall p m, fget "Project" a = Some (VObj p) -> In m (flist "Modules" p) -> exists o, m = VObj o /\ allStand toks pf o.
Proof.
  intros gr pf cpus content a e H. inversion H as [| |content' t a' e' j T A]; subst. exists t. split; [exact T|]. cbv zeta.
  destruct (A2lNestProps.C68_tokens _ _ _ T) as (t' & ET & (l & EL & _)). injection ET as <-.
  assert (EN : ended (TokModel.tk_list t)) by (exists l; exact EL).
  assert (S0 : soundFile (TokModel.tk_list t) pf false []) by (split; [intros f v []|intros p E; discriminate]).
  pose proof (a2l_sound _ _ _ _ _ _ _ _ _ EN A S0) as [K M]. split; [apply OrObj; exact K|]. intros p m P I. apply (M p P). exact I.
Qed.
Print Assumptions C86_file.

Lemma spaced : forall s t, existsb (Ascii.eqb " ") (s ++ " "%char :: t) = true.
Proof. intros s t. rewrite existsb_app. apply orb_true_iff. right. reflexivity. Qed.

(** With an error this is false without the exception: NUMBER 70000 is reported and
    read as 65535, NUMBER X is reported and read as 0. *)
Definition tooMuch (t : string) : list bytes := [b "NUMBER"; b t; []].
Theorem C86_error_refuted : forall pf, exists v w,
    returns (tooMuch "70000") pf parseNumber 0 v true 1 /\ v = VObj [("number"%string, VInt 65535); ("numberSet"%string, VBool true)]
    /\ ~ origin (between (tooMuch "70000") 0 1) pf false v
    /\ returns (tooMuch "X") pf parseNumber 0 w true 1 /\ w = VObj [("number"%string, VInt 0); ("numberSet"%string, VBool true)]
    /\ ~ origin (between (tooMuch "X") 0 1) pf false w.
Proof.
  intros pf. assert (K : forall t z, (forall s, s = b "NUMBER" \/ s = b t -> ~ A2lStrictProps.signed s z) -> ~ origin (between (tooMuch t) 0 1) pf false (VObj [("number"%string, VInt z); ("numberSet"%string, VBool true)])).
  { intros t z N O. inversion O as [| | | | | | | | | | |? K]; subst. specialize (K _ _ (or_introl eq_refl)). inversion K as [| | | |s ? (k & L & E) SG| |? ? X| | | | |]; subst; [|discriminate].
    assert (C : k = 0 \/ k = 1) by lia. destruct C as [->| ->]; [apply (N (b "NUMBER")); auto|apply (N (b t)); auto]. }
  assert (ND : forall s z, digits s 0 = None -> ~ A2lStrictProps.numeral s z) by (intros s z D N; apply A2lStrictProps.numeral_digits in N; destruct N as [_ (n & D' & _)]; congruence).
  do 2 eexists. split; [apply (A2lModProps.returns_run 50); vm_compute; reflexivity|]. split; [reflexivity|]. split.
  - apply K. intros s [->| ->] [N|[(r & E & _)|(r & E & _)]]; try discriminate.
    + revert N. apply ND. reflexivity.
    + apply A2lStrictProps.numeral_digits in N. destruct N as [_ (n & D & E)]. vm_compute in D. injection D as <-. discriminate.
  - split; [apply (A2lModProps.returns_run 50); vm_compute; reflexivity|]. split; [reflexivity|]. apply K. intros s [->| ->] [N|[(r & E & _)|(r & E & _)]]; try discriminate;
      revert N; apply ND; reflexivity.
Qed.
Print Assumptions C86_error_refuted.

(** A module with two groups: the second one is in the map, and it stands in the file
    from index 7 to index 11; [origin] is not true of everything. *)
Example C86_example : forall pf,
  (exists o m w, returns A2lModProps.lost pf parseModule 0 (VObj o) false 12 /\ fget "Groups" o = Some (VMap m) /\ In (b "G2", w) m
     /\ stands A2lModProps.lost pf "GROUP" w /\ origin (between A2lModProps.lost 7 11) pf false w /\ ~ origin (between A2lModProps.lost 3 6) pf true w)
  /\ ~ origin (fun t => t = b "G") pf true (VStr (b "H")) /\ ~ origin (fun t => t = b "12") pf false (VInt 13) /\ origin (fun t => t = b "-12") pf false (VInt (-12))
  /\ ~ origin (fun t => True) pf true (VBool false).
Proof.
  intros pf. assert (EN : ended A2lModProps.lost) by (eexists (firstn 13 A2lModProps.lost); reflexivity).
  assert (RM : exists o m w, returns A2lModProps.lost pf parseModule 0 (VObj o) false 12 /\ fget "Groups" o = Some (VMap m) /\ In (b "G2", w) m /\ w = A2lModProps.readOr A2lModProps.lost parseGroup 7).
  { do 3 eexists. split; [apply (A2lModProps.returns_run 50); vm_compute; reflexivity|]. split; [vm_compute; reflexivity|]. split; [right; left; reflexivity|vm_compute; reflexivity]. }
  assert (RG : returns A2lModProps.lost pf parseGroup 7 (A2lModProps.readOr A2lModProps.lost parseGroup 7) false 11) by (apply (A2lModProps.returns_run 50); vm_compute; reflexivity).
  assert (IP : In ("parseGroup"%string, parseGroup) allParsers) by (unfold allParsers; repeat (first [left; reflexivity|right])).
  assert (WO : exists o, A2lModProps.readOr A2lModProps.lost parseGroup 7 = VObj o /\ In ("groupName"%string, VStr (b "G2")) o) by (eexists; split; [vm_compute; reflexivity|left; reflexivity]).
  split; [|split; [|split; [|split]]].
  - destruct RM as (o & m & w & R & F & I & ->). exists o, m, (A2lModProps.readOr A2lModProps.lost parseGroup 7). split; [exact R|]. split; [exact F|]. split; [exact I|].
    split; [|split; [exact (proj2 (C86_parser _ _ _ _ _ _ _ _ IP EN RG))|]].
    + assert (PM : parsesModule A2lModProps.lost pf 1 false 0 (VObj o) false 12) by exact R. destruct (C86_module _ _ _ _ _ _ _ EN PM) as (o' & E & A). injection E as <-.
      specialize (A "GROUP"%string parseGroup (Put_ "Groups" "groupName") ltac:(A2lModProps.inKinds)). cbn beta iota in A. destruct A as (m' & F' & A).
      rewrite F in F'. injection F' as <-. exact (proj2 (A _ _ I)).
    + destruct WO as (wo & -> & IN). intros O. inversion O as [| | | | | | | | | | |? K]; subst. specialize (K _ _ IN). inversion K as [? (k & KB & KE)| | |? ? _ _ E| | | | | | | |]; subst.
      * assert (C : k = 3 \/ k = 4 \/ k = 5 \/ k = 6) by lia. destruct C as [->|[->|[->| ->]]]; vm_compute in KE; discriminate.
      * apply (f_equal (existsb (Ascii.eqb " "))) in E. rewrite spaced in E. vm_compute in E. discriminate.
  - intros O. inversion O as [? G| | |? ? _ _ E| | | | | | | |]; subst; [discriminate|].
    apply (f_equal (existsb (Ascii.eqb " "))) in E. rewrite spaced in E. vm_compute in E. discriminate.
  - intros O. inversion O as [| | | |t z T SG| |t z LX T RP| | | | |]; [subst t|discriminate]. destruct SG as [N|[(s & E & _)|(s & E & _)]]; try discriminate.
    apply A2lStrictProps.numeral_digits in N. destruct N as [_ (n & D & E)]. vm_compute in D. injection D as <-. discriminate.
  - apply (OrInt _ _ _ (b "-12")); [reflexivity|]. right. right. exists (b "12"). split; [reflexivity|].
    apply (A2lStrictProps.More [("1")%char] 1 "2"%char 2); [constructor|]; split; [lia|reflexivity|lia|reflexivity].
  - intros O. inversion O.
Qed.
