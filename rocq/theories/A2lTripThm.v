(** Lemmas for C69: the tokens of a written file, and their parsing. *)
From Coq Require Import String Ascii List Arith NArith ZArith Bool Lia SpecFloat.
From Verif Require Import GoBase GoBaseFacts HexSpec A2lIR A2lTokens A2lParsers A2lThm A2lSpec A2lProps A2lCheck A2lGrammar A2lForms A2lDescribe A2lFormProps
  A2lModModel A2lTextModel A2lTextProps A2lFileModel A2lFileThm A2lFileProps A2lTripSpec.
From Verif Require TokModel TokSpec TokThm TokProps.
Import ListNotations.

(** ** Text *)

Lemma visible_not : forall c w, (N_of_ascii c < 33)%N -> Forall TokSpec.visible w -> ~ In c w.
Proof. intros c w L V I. rewrite Forall_forall in V. specialize (V _ I). unfold TokSpec.visible in V. lia. Qed.
Lemma unwords_in : forall c ws, In c (TokSpec.unwords ws) -> c = " "%char \/ exists w, In w ws /\ In c w.
Proof.
  induction ws as [|w ws IH]; [intros []|]. destruct ws as [|w' ws].
  - intros I. right. exists w. split; [left; reflexivity|exact I].
  - change (TokSpec.unwords (w :: w' :: ws)) with (w ++ b " " ++ TokSpec.unwords (w' :: ws)). rewrite !in_app_iff. intros [I|[[I|[]]|I]].
    + right. exists w. split; [left; reflexivity|exact I].
    + left. symmetry. exact I.
    + destruct (IH I) as [E|(x & X & Y)]; [auto|]. right. exists x. split; [right; exact X|exact Y].
Qed.

(** What one line is for the tokenizer *)
Lemma writable_line : forall t, writable t ->
    (~ In LF t /\ ~ In TokSpec.BS t) /\ exists g, TokSpec.line_items (TokModel.fields t) [g] /\ TokSpec.unwords g = t.
Proof.
  intros t W. destruct W as [w V P N|x w X V N|ws s V E Q N].
  - split; [split; [apply visible_not; [reflexivity|apply V]|exact N]|]. exists [w]. split; [|reflexivity].
    rewrite TokThm.word_fields by exact V. apply TokSpec.li_items, TokProps.items_plain; [exact P|constructor].
  - assert (VX : TokSpec.word x /\ ~ In TokSpec.BS x).
    { destruct X as [-> | ->]; (split; [split; [discriminate|repeat constructor; cbn; lia]|apply TokProps.no_byte; reflexivity]). }
    destruct VX as [VX NX]. split; [split|].
    + rewrite !in_app_iff. intros [I|[I|I]]; [exact (visible_not LF x eq_refl (proj2 VX) I)|destruct I as [I|[]]; discriminate|exact (visible_not LF w eq_refl (proj2 V) I)].
    + rewrite !in_app_iff. intros [I|[I|I]]; [exact (NX I)|destruct I as [I|[]]; discriminate|exact (N I)].
    + exists [x; w]. split; [|reflexivity]. change (x ++ b " " ++ w) with (TokSpec.unwords [x; w]). rewrite TokThm.fields_unwords.
      * apply TokSpec.li_items, TokProps.items_pair; [exact X|constructor].
      * repeat constructor; apply TokThm.word_fields; assumption.
  - rewrite <- E. assert (NB : ~ In TokSpec.BS (TokSpec.unwords ws)).
    { rewrite E. cbn. rewrite in_app_iff. intros [I|[I|[I|[]]]]; [discriminate|exact (N I)|discriminate]. }
    split; [split; [|exact NB]|].
    + intros I. apply unwords_in in I. destruct I as [I|(w & I & I')]; [discriminate|]. rewrite Forall_forall in V. exact (visible_not LF w eq_refl (proj2 (V w I)) I').
    + exists ws. split; [|reflexivity]. rewrite TokThm.fields_unwords.
      * apply TokSpec.li_items, TokProps.items_one. constructor. apply (TokThm.quoted_words ws s); [|exact E|exact Q]. eapply Forall_impl; [|exact V]. intros w [H _]. exact H.
      * eapply Forall_impl; [|exact V]. intros w H. apply TokThm.word_fields. exact H.
Qed.

Lemma writable_lines : forall ts, Forall writable ts ->
    Forall (fun l => ~ In LF l /\ ~ In TokSpec.BS l) ts /\ exists gs, Forall2 TokSpec.line_items (map TokModel.fields ts) (map (fun g => [g]) gs) /\ map TokSpec.unwords gs = ts.
Proof.
  intros ts W. induction W as [|t ts H W (F & gs & G & E)].
  - split; [constructor|]. exists []. split; [constructor|reflexivity].
  - destruct (writable_line t H) as (L & g & LI & U). split; [constructor; assumption|]. exists (g :: gs). split; [constructor; assumption|cbn; congruence].
Qed.
Lemma concat_singles : forall A (gs : list A), concat (map (fun g => [g]) gs) = gs.
Proof. induction gs as [|g gs IH]; [reflexivity|]. cbn. rewrite IH. reflexivity. Qed.

(** ** The ends of the text *)

Definition printable (c : ascii) : Prop := (32 <= N_of_ascii c <= 126)%N.
Lemma unwords_printable : forall ws, Forall TokSpec.word ws -> Forall printable (TokSpec.unwords ws).
Proof.
  intros ws V. apply Forall_forall. intros c I. apply unwords_in in I. destruct I as [->|(w & I & I')]; [cbv; split; discriminate|].
  rewrite Forall_forall in V. specialize (V w I). destruct V as [_ V]. rewrite Forall_forall in V. specialize (V c I'). unfold TokSpec.visible in V. unfold printable. lia.
Qed.
Lemma writable_printable : forall t, writable t -> t <> [] /\ Forall printable t.
Proof.
  intros t W. destruct W as [w V P N|x w X V N|ws s V E Q N].
  - split; [apply V|]. pose proof (unwords_printable [w] ltac:(repeat constructor; apply V)) as U. exact U.
  - split; [destruct X as [-> | ->]; discriminate|]. change (x ++ b " " ++ w) with (TokSpec.unwords [x; w]). apply unwords_printable. constructor; [|constructor; [exact V|constructor]].
    destruct X as [-> | ->]; (split; [discriminate|repeat constructor; cbn; lia]).
  - split; [discriminate|]. rewrite <- E. apply unwords_printable. exact V.
Qed.
Lemma write_first : forall t ts, write (t :: ts) = t ++ match ts with [] => [] | _ => LF :: write ts end.
Proof. intros t [|t' ts]; cbn [write join]; [rewrite app_nil_r; reflexivity|reflexivity]. Qed.
Lemma write_last : forall ts, Forall writable ts -> ts <> [] -> exists s d, write ts = s ++ [d] /\ printable d.
Proof.
  intros ts W. induction W as [|t ts H W IH]; intros N; [contradiction|]. rewrite write_first. destruct ts as [|t' ts].
  - destruct (writable_printable t H) as [NE P]. rewrite app_nil_r. destruct (exists_last NE) as (s & d & ->). exists s, d. split; [reflexivity|]. apply Forall_app in P. destruct P as [_ P]. inversion P. assumption.
  - destruct (IH ltac:(discriminate)) as (s & d & E & P). exists (t ++ LF :: s), d. split; [|exact P]. rewrite E, <- app_assoc. reflexivity.
Qed.
Lemma write_ends : forall ts, Forall writable ts -> 1 < length (write ts) -> exists c s d, write ts = c :: s ++ [d] /\ printable c /\ printable d.
Proof.
  intros ts W L. destruct ts as [|t ts]; [cbn in L; lia|]. destruct (write_last (t :: ts) W ltac:(discriminate)) as (s & d & E & P).
  inversion W as [|? ? H W']; subst. destruct (writable_printable t H) as [NE PT]. destruct t as [|c t]; [contradiction|]. inversion PT; subst.
  destruct s as [|c' s]; [rewrite E in L; cbn in L; lia|]. exists c', s, d. split; [exact E|]. split; [|exact P].
  rewrite write_first in E. cbn in E. injection E as -> _. assumption.
Qed.

(** ** Parsing *)

Lemma file_read : forall pf its stop ts o o', parts pf its stop ts o o' -> its = fileItems projectRead -> stop = ""%string ->
    forall before toks, toks = before ++ ts ++ [[]] ->
    a2l toks pf (returns toks pf parseModule) o (length before) o' false (length before + length ts).
Proof.
  intros pf its stop ts o o' PA. induction PA as [its stop o|its stop kw f p sub ts ts' v o o' IN D FO PA IH]; intros EI ES before toks ET.
  - rewrite Nat.add_0_r. assert (C : current toks (length before) = []).
    { subst toks. unfold current. cbn [app]. rewrite app_nth2, Nat.sub_diag by lia. reflexivity. }
    apply AlStop; rewrite C; [intros [K|[K|[K|[]]]]; discriminate|reflexivity].
  - subst its stop.
    assert (ET' : toks = before ++ b kw :: ts ++ (ts' ++ [[]])) by (rewrite ET; cbn [app]; rewrite <- app_assoc; reflexivity).
    assert (C : current toks (length before) = b kw).
    { rewrite ET'. unfold current. rewrite app_nth2, Nat.sub_diag by lia. reflexivity. }
    assert (EN : ended (ts' ++ [[]])) by (eexists; reflexivity).
    assert (NX : next toks (length before + length ts) = length (before ++ b kw :: ts)).
    { unfold next, moves. rewrite ET'. rewrite !app_length. cbn [length]. rewrite !app_length. cbn [length].
      destruct (Nat.ltb_spec (S (length before + length ts)) (length before + S (length ts + (length ts' + 1)))); lia. }
    assert (R : forall name g, In (name, sub) readForms -> In (name, g) allParsers -> kw <> ""%string -> (forall t, follows sub t = true) ->
       returns toks pf g (length before) v false (length before + length ts)).
    { intros name g I1 I2 K F. rewrite ET'. apply (C64_reads name sub g pf ts v I1 I2 D); [destruct kw; [contradiction|discriminate]|exact EN|apply F]. }
    specialize (IH eq_refl eq_refl (before ++ b kw :: ts) toks).
    replace (length before + length (b kw :: ts ++ ts')) with (length (before ++ b kw :: ts) + length ts') by (rewrite app_length; cbn [length]; rewrite app_length; lia).
    assert (PT : part toks pf (returns toks pf parseModule) (b kw) (length before) f v false (length before + length ts) /\ p = Single).
    { destruct IN as [I|[I|[I|[]]]]; injection I as <- <- <- <-; (split; [|reflexivity]).
      - apply PartAsap2. eapply (R "parseASAP2Version"%string); [listed|listed|discriminate|reflexivity].
      - apply PartA2ml. eapply (R "parseA2MLVersion"%string); [listed|listed|discriminate|reflexivity].
      - assert (R' : returns toks pf parseProject (length before) v false (length before + length ts)) by (eapply (R "parseProject"%string); [listed|listed|discriminate|reflexivity]).
        destruct R' as [n R']. destruct (proj_call _ _ _ _ _ _ _ (R' n (le_n _))) as (q & -> & Q). apply PartProject. exact Q. }
    destruct PT as [PT ->]. eapply AlPart; [rewrite C; exact PT|]. rewrite NX. apply IH. rewrite ET'. rewrite <- !app_assoc. reflexivity.
Qed.

(** ** Checks for examples *)

Definition wordb (w : bytes) : bool := negb (beqb w []) && forallb (fun c => (33 <=? N_of_ascii c)%N && (N_of_ascii c <=? 126)%N) w.
Definition lacks (c : ascii) (w : bytes) : bool := negb (existsb (Ascii.eqb c) w).
Definition writableb (t : bytes) : bool :=
  match TokModel.fields t with
  | [x; w] => if (beqb x (b "/begin") || beqb x (b "/end")) && beqb t (x ++ b " " ++ w) then wordb w && lacks TokSpec.BS w else
      let s := removelast (tl t) in beqb t (TokSpec.QM :: s ++ [TokSpec.QM]) && beqb t (TokSpec.unwords [x; w]) && wordb x && wordb w && lacks TokSpec.QM s && lacks TokSpec.BS s
  | ws => if wordb t && lacks TokSpec.QM t then lacks "/" t && lacks TokSpec.BS t else
      let s := removelast (tl t) in beqb t (TokSpec.QM :: s ++ [TokSpec.QM]) && beqb t (TokSpec.unwords ws) && forallb wordb ws && lacks TokSpec.QM s && lacks TokSpec.BS s
  end.
Lemma wordb_ok : forall w, wordb w = true -> TokSpec.word w.
Proof.
  intros w H. apply andb_true_iff in H. destruct H as [N F]. apply negb_true_iff, beqb_neq in N. split; [exact N|]. apply Forall_forall. intros c I.
  rewrite forallb_forall in F. specialize (F c I). apply andb_true_iff in F. destruct F as [A B]. apply N.leb_le in A, B. split; assumption.
Qed.
Lemma lacks_ok : forall c w, lacks c w = true -> ~ In c w.
Proof. intros c w H. apply TokProps.no_byte. apply negb_true_iff in H. exact H. Qed.
Lemma writableb_ok : forall t, writableb t = true -> writable t.
Proof.
  assert (Q : forall t ws, beqb t (TokSpec.QM :: removelast (tl t) ++ [TokSpec.QM]) && beqb t (TokSpec.unwords ws) && forallb wordb ws
      && lacks TokSpec.QM (removelast (tl t)) && lacks TokSpec.BS (removelast (tl t)) = true -> writable t).
  { intros t ws H. rewrite !andb_true_iff in H. destruct H as ((((E & U) & F) & ?) & ?). apply beqb_eq in E. apply beqb_eq in U. rewrite E. apply (wr_text ws).
    - apply Forall_forall. intros w I. rewrite forallb_forall in F. apply wordb_ok. auto.
    - congruence.
    - apply lacks_ok. assumption.
    - apply lacks_ok. assumption. }
  intros t H. unfold writableb in H. destruct (TokModel.fields t) as [|x [|w [|y l]]].
  2: { destruct (wordb t && lacks TokSpec.QM t) eqn:E; [|exact (Q _ _ H)]. apply andb_true_iff in E, H. destruct E, H.
       apply wr_word; [apply wordb_ok; assumption|split; apply lacks_ok; assumption|apply lacks_ok; assumption]. }
  3: { destruct (wordb t && lacks TokSpec.QM t) eqn:E; [|exact (Q _ _ H)]. apply andb_true_iff in E, H. destruct E, H.
       apply wr_word; [apply wordb_ok; assumption|split; apply lacks_ok; assumption|apply lacks_ok; assumption]. }
  { destruct (wordb t && lacks TokSpec.QM t) eqn:E; [|exact (Q _ _ H)]. apply andb_true_iff in E, H. destruct E, H.
       apply wr_word; [apply wordb_ok; assumption|split; apply lacks_ok; assumption|apply lacks_ok; assumption]. }
  destruct ((beqb x (b "/begin") || beqb x (b "/end")) && beqb t (x ++ b " " ++ w)) eqn:E.
  - apply andb_true_iff in E, H. destruct E as [E1 E2], H. apply beqb_eq in E2. subst t. apply wr_pair; [|apply wordb_ok; assumption|apply lacks_ok; assumption].
    apply orb_true_iff in E1. destruct E1 as [E1|E1]; apply beqb_eq in E1; auto.
  - apply (Q t [x; w]). rewrite <- H. cbn [forallb]. rewrite andb_true_r, !andb_assoc. reflexivity.
Qed.

Fixpoint fileD (pf : bytes -> option spec_float) (project : form) (n : nat) (ts : list bytes) (o : fields) : option fields :=
  match n, ts with
  | _, [] => Some o
  | S n', k :: ts' =>
      match find (fun it => match it with Item kw _ _ _ => beqb k (b kw) end) (fileItems project) with
      | Some (Item _ f Single sub) => match describe pf 20 sub ts' with Some (v, rest) => fileD pf project n' rest (fset f v o) | None => None end
      | _ => None
      end
  | O, _ => None
  end.
Lemma fileD_ok : forall pf project, (forall t, follows project t = true) -> forall n ts o o', fileD pf project n ts o = Some o' -> parts pf (fileItems project) "" ts o o'.
Proof.
  intros pf project FO n. induction n as [|n IH]; intros ts o o' H; destruct ts as [|k ts]; cbn [fileD] in H; try discriminate; try (injection H as <-; apply p_nil).
  destruct (find _ _) as [[kw f p sub]|] eqn:E; [|discriminate]. apply find_some in E. destruct E as [I E]. apply beqb_eq in E. subst k.
  destruct p; try discriminate. destruct (describe pf 20 sub ts) as [[v rest]|] eqn:D; [|discriminate].
  destruct (describe_ok _ _ _ _ _ _ D) as (ts1 & -> & DN). eapply p_cons; [exact I|exact DN| |apply IH; exact H].
  destruct I as [I|[I|[I|[]]]]; injection I as _ _ <-; [reflexivity|reflexivity|apply FO].
Qed.
