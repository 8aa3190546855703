(** C99: the layout of an A2L file. *)
From Coq Require Import String Ascii List Arith NArith ZArith Bool Lia SpecFloat Permutation.
From Verif Require Import GoBase HexSpec CalibModel CalibFileModel A2lIR A2lParsers A2lTextSpec A2lTextModel A2lTextProps A2lFileModel A2lFileSpec A2lFileProps A2lGrammar A2lForms A2lTripSpec A2lTripThm A2lTripProps.
From Verif Require Import LookModel ValuesModel TreeModel TreeSpec TreeThm TreeLook FilesSpec FilesThm FilesProps OrderSpec OrderProps SameMemSpec SameMemProps WrittenSpec.
From Verif Require TokModel TokSpec TokWords TokProps A2lSpec A2lFileThm A2lModProps.
Import ListNotations.

(** ** Cleaning removes what does not print at both ends *)
Lemma unprintable_ascii : forall gr s c, unprintable gr s -> In c s -> N_of_ascii c <> 92%N.
Proof.
  intros gr s c (rs & -> & F) I E. apply in_concat in I. destruct I as (u & U & I). apply in_map_iff in U. destruct U as (r & <- & R). rewrite Forall_forall in F. destruct (F r R) as [C NP].
  destruct (utf8_cases r C) as [(x & X & E' & L)|[(x & x2 & X & H)|[(x & x2 & x3 & X & H)|(x & x2 & x3 & x4 & X & H)]]]; rewrite X in I; cbn [In] in I.
  - destruct I as [->|[]]. apply NP. left. lia.
  - destruct I as [->|[->|[]]]; lia.
  - destruct I as [->|[->|[->|[]]]]; lia.
  - destruct I as [->|[->|[->|[->|[]]]]]; lia.
Qed.
Lemma utf8_nonempty : forall r, character r -> utf8 r <> [].
Proof. intros r C. destruct (utf8_cases r C) as [(x & -> & _)|[(x & x2 & -> & H)|[(x & x2 & x3 & -> & H)|(x & x2 & x3 & x4 & -> & H)]]]; discriminate. Qed.
Lemma not_graphic : forall gr r, ~ prints gr r -> isGraphic gr r = false.
Proof. intros gr r H. destruct (isGraphic gr r) eqn:E; [|reflexivity]. destruct (H (proj1 (graphic_prints gr r) E)). Qed.
Lemma left_end : forall gr rs c t fuel, Forall (fun r => character r /\ ~ prints gr r) rs -> (32 <= N_of_ascii c <= 126)%N -> length (concat (map utf8 rs) ++ c :: t) <= fuel ->
    trimLeft gr fuel (concat (map utf8 rs) ++ c :: t) = c :: t.
Proof.
  intros gr rs c t fuel F C. revert fuel. induction F as [|r rs [CH NP] F IH]; intros fuel L.
  - cbn [map concat app]. destruct fuel as [|fuel]; [reflexivity|]. cbn [trimLeft decodeRune]. rewrite (proj2 (N.ltb_lt _ _)) by lia.
    rewrite (proj2 (graphic_prints gr _)); [reflexivity|left; exact C].
  - cbn [map concat] in *. rewrite <- app_assoc in *. pose proof (utf8_nonempty r CH) as NE. destruct fuel as [|fuel]; [destruct (utf8 r); [contradiction|cbn in L; lia]|].
    cbn [trimLeft]. destruct (utf8 r ++ concat (map utf8 rs) ++ c :: t) as [|x y] eqn:E; [destruct (utf8 r); [contradiction|discriminate]|]. rewrite <- E in *. clear x y E.
    rewrite (decode_encode r _ CH). rewrite (not_graphic gr r NP). rewrite skipn_app, skipn_all, Nat.sub_diag. cbn [skipn app]. apply IH.
    rewrite app_length in L. destruct (utf8 r); [contradiction|cbn [length] in L; lia].
Qed.
Lemma right_end : forall gr rs d t fuel, Forall (fun r => character r /\ ~ prints gr r) rs -> (32 <= N_of_ascii d <= 126)%N -> length (rev (concat (map utf8 rs)) ++ d :: t) <= fuel ->
    trimRight gr fuel (rev (concat (map utf8 rs)) ++ d :: t) = d :: t.
Proof.
  intros gr rs d t fuel F D. revert fuel. induction rs as [|r rs IH] using rev_ind; intros fuel L.
  - cbn [map concat rev app]. destruct fuel as [|fuel]; [reflexivity|]. cbn [trimRight decodeLastRune]. rewrite (proj2 (N.ltb_lt _ _)) by lia.
    rewrite (proj2 (graphic_prints gr _)); [reflexivity|left; exact D].
  - apply Forall_app in F. destruct F as [F FR]. inversion FR as [|? ? [CH NP] _]; subst. rewrite map_app, concat_app in *. cbn [map concat] in *. rewrite app_nil_r, rev_app_distr, <- app_assoc in *.
    pose proof (utf8_nonempty r CH) as NE. assert (NR : rev (utf8 r) <> []) by (intros E; apply (f_equal (@rev _)) in E; rewrite rev_involutive in E; contradiction).
    destruct fuel as [|fuel]; [destruct (rev (utf8 r)); [contradiction|cbn in L; lia]|].
    cbn [trimRight]. destruct (rev (utf8 r) ++ rev (concat (map utf8 rs)) ++ d :: t) as [|x y] eqn:E; [destruct (rev (utf8 r)); [contradiction|discriminate]|]. rewrite <- E in *. clear x y E.
    rewrite (decodeLast_encode r _ CH). rewrite (not_graphic gr r NP). rewrite <- (rev_length (utf8 r)), skipn_app, skipn_all, Nat.sub_diag. cbn [skipn app]. apply IH; [exact F|].
    rewrite app_length in L. destruct (rev (utf8 r)); [contradiction|cbn [length] in L; lia].
Qed.
Lemma clean_ends : forall gr p q c s d, unprintable gr p -> unprintable gr q -> (32 <= N_of_ascii c <= 126)%N -> (32 <= N_of_ascii d <= 126)%N -> ~ In esc (c :: s ++ [d]) ->
    cleanBytesString gr (p ++ (c :: s ++ [d]) ++ q) = c :: s ++ [d].
Proof.
  intros gr p q c s d P Q C D NE. unfold cleanBytesString.
  assert (U : unescape (p ++ (c :: s ++ [d]) ++ q) = p ++ (c :: s ++ [d]) ++ q).
  { symmetry. apply unescaped_fun, unescaped_same. rewrite !in_app_iff. intros [I|[I|I]]; [exact (unprintable_ascii gr p esc P I eq_refl)|exact (NE I)|exact (unprintable_ascii gr q esc Q I eq_refl)]. }
  rewrite U. unfold trim. destruct P as (rp & -> & FP), Q as (rq & -> & FQ). cbv zeta. cbn [app]. rewrite left_end; [|exact FP|exact C|lia].
  assert (R : rev (c :: (s ++ [d]) ++ concat (map utf8 rq)) = rev (concat (map utf8 rq)) ++ d :: rev (c :: s)).
  { rewrite app_comm_cons, rev_app_distr. f_equal. rewrite app_comm_cons, rev_app_distr. reflexivity. }
  rewrite R. rewrite right_end; [|exact FQ|exact D|rewrite <- R, rev_length; lia]. change (d :: rev (c :: s)) with ([d] ++ rev (c :: s)). rewrite rev_app_distr, rev_involutive. reflexivity.
Qed.

(** ** Tokens *)
Theorem C99_tokens : forall gr cpus content ts r, (0 < cpus)%nat -> writtenAs gr content ts ->
    (fileTokens gr cpus content r <-> exists t, r = Some t /\ TokModel.tk_list t = ts ++ [[]] /\ (TokModel.tk_multithreading t = true <-> (moduleCount ts mod 2 ^ 32 <= 1)%N)).
Proof.
  intros gr cpus content ts r CP (p & q & c & s & d & -> & P & Q & C & D & (lines & gss & T & L & ->)). unfold fileTokens.
  rewrite clean_ends; [|assumption..|].
  - apply (TokProps.C42_lines_guarded (cpus * 2) _ lines gss); [lia|exact T|]. clear - L. induction L as [|l gs lines gss (ws & S1 & S2) L IH]; [constructor|]. cbn [map]. constructor; [|exact IH].
    apply TokWords.C42_white_space in S1. rewrite S1. exact S2.
  - destruct T as (E & _ & F). rewrite E. clear - F. intros I. revert I. induction F as [|l ls [H1 H2] F IH]; [intros []|].
    destruct ls as [|l' ls]; cbn [HexSpec.join]; [exact H2|]. intros I. rewrite !in_app_iff in I. destruct I as [I|[I|I]]; [exact (H2 I)|destruct I as [I|[]]; discriminate|exact (IH I)].
Qed.
Print Assumptions C99_tokens.

(** ** Every layout of the same tokens is read alike *)
Lemma rsteps_mono : forall (A H E : Type) (RA RA' : outcome E A -> Prop) (RH : outcome E H -> Prop), (forall x, RA x -> RA' x) -> forall s s', rsteps RA RH s s' -> rsteps RA' RH s s'.
Proof.
  intros A H E RA RA' RH M s s' R. induction R as [|s1 s2 s3 ST R IH]; [constructor|]. apply RTrans with s2; [|exact IH].
  destruct ST; econstructor; eauto.
Qed.
Lemma calibration_mono : forall gr pf cpus log f1 f2 path hex r, (forall x, parseFromFile gr pf cpus f1 x -> parseFromFile gr pf cpus f2 x) ->
    calibration gr pf cpus log f1 path hex r -> calibration gr pf cpus log f2 path hex r.
Proof.
  intros gr pf cpus log f1 f2 path hex r M C. unfold calibration, readCalibrationFiles, readCalibration in *. destruct log; [|exact C].
  destruct C as (s & R & K). exists s. split; [|exact K]. refine (rsteps_mono _ _ _ _ _ _ _ _ _ R). intros x (f & F & ->). exists f. auto.
Qed.

(** Files with the same tokens have the same results; [C85_file] says which the tokens of a file are. *)
Theorem C99_same_tokens : forall gr pf cpus c1 c2, (forall t, fileTokens gr cpus c1 t <-> fileTokens gr cpus c2 t) ->
    (forall r, parseFromFile gr pf cpus (Some c1) r <-> parseFromFile gr pf cpus (Some c2) r) /\
    forall log path hex r, calibration gr pf cpus log (Some c1) path hex r <-> calibration gr pf cpus log (Some c2) path hex r.
Proof.
  intros gr pf cpus c1 c2 T. assert (P : forall r, parseFromFile gr pf cpus (Some c1) r <-> parseFromFile gr pf cpus (Some c2) r).
  { intros r. split; intros F; inversion F; subst; econstructor; try (apply T; eassumption); eassumption. }
  split; [exact P|]. intros log path hex r. split; apply calibration_mono; intros x; apply P.
Qed.
Print Assumptions C99_same_tokens.
Theorem C99_layout : forall gr pf cpus c1 c2 ts, (0 < cpus)%nat -> writtenAs gr c1 ts -> writtenAs gr c2 ts ->
    (forall r, parseFromFile gr pf cpus (Some c1) r <-> parseFromFile gr pf cpus (Some c2) r) /\
    forall log path hex r, calibration gr pf cpus log (Some c1) path hex r <-> calibration gr pf cpus log (Some c2) path hex r.
Proof. intros gr pf cpus c1 c2 ts CP W1 W2. apply C99_same_tokens. intros t. rewrite (C99_tokens gr cpus c1 ts t CP W1), (C99_tokens gr cpus c2 ts t CP W2). reflexivity. Qed.
Print Assumptions C99_layout.

(** The file with one token in each line (of which C69 to C80 speak) is one of the layouts. *)
Theorem C99_write : forall gr pf ts, Forall writable ts -> ts <> [] -> (exists a, describes pf projectRead ts a) -> writtenAs gr (write ts) ts.
Proof.
  intros gr pf ts W N (a & D). destruct (write_ends ts W (written_long pf _ ts a D N)) as (c & s & d & E & PC & PD). destruct (writable_lines ts W) as (F & gs & LI & U).
  assert (UN : unprintable gr []) by (exists []; split; [reflexivity|constructor]). exists [], [], c, s, d. split; [rewrite app_nil_r; exact E|]. split; [exact UN|]. split; [exact UN|]. split; [exact PC|]. split; [exact PD|].
  exists ts, (map (fun g => [g]) gs). split; [split; [symmetry; exact E|split; [exact N|exact F]]|]. split; [|rewrite concat_singles; symmetry; exact U].
  clear - LI. revert LI. generalize (map (fun g => [g]) gs). induction ts as [|t ts IH]; intros l LI; inversion LI; subst; constructor; [|apply IH; assumption].
  exists (TokModel.fields t). split; [apply TokWords.C42_white_space; reflexivity|assumption].
Qed.
Print Assumptions C99_write.

(** Both files written in any way: layout, line ends, comments, order of the objects; records, order, format. *)
Theorem C99_calibration : forall gr pf cpus1 cpus2 c1 c2 ts1 ts2 path1 path2 content1 content2 img1 img2 r1 r2, (0 < cpus1)%nat -> (0 < cpus2)%nat ->
    writtenAs gr c1 ts1 -> writtenAs gr c2 ts2 -> a2lText gr pf cpus1 ts1 -> a2lText gr pf cpus2 ts2 ->
    hexText path1 content1 img1 -> hexText path2 content2 img2 -> Permutation img1 img2 ->
    calibration gr pf cpus1 true (Some c1) path1 (Some content1) r1 -> calibration gr pf cpus2 true (Some c2) path2 (Some content2) r2 ->
    exists a1 a2 m1 m2, r1 = RReturned (CD (Some a1) (Some m1)) None /\ r2 = RReturned (CD (Some a2) (Some m2)) None /\
      forall n1 n2 words1 words2 l1 l2, fileModule pf ts1 n1 words1 -> moduleHas pf words1 l1 -> fileModule pf ts2 n2 words2 -> moduleHas pf words2 l2 ->
        Permutation l1 l2 -> unambiguous l1 -> alike (calibOf a1 n1 m1) (calibOf a2 n2 m2).
Proof.
  assert (K : forall gr pf cpus c ts path content r, (0 < cpus)%nat -> writtenAs gr c ts -> a2lText gr pf cpus ts -> calibration gr pf cpus true (Some c) path (Some content) r -> calibration gr pf cpus true (Some (write ts)) path (Some content) r).
  { intros gr pf cpus c ts path content r CP W A C. assert (N : ts <> []) by (destruct (at_modules _ _ _ _ A) as [M|(N & _)]; [intros ->; cbn in M; lia|exact N]).
    apply (proj2 (C99_layout gr pf cpus c (write ts) ts CP W (C99_write gr pf ts (at_writable _ _ _ _ A) N (at_words _ _ _ _ A)))). exact C. }
  intros gr pf cpus1 cpus2 c1 c2 ts1 ts2 path1 path2 content1 content2 img1 img2 r1 r2 CP1 CP2 W1 W2 A1 A2 H1 H2 P R1 R2.
  exact (C98_calibration gr pf cpus1 cpus2 ts1 ts2 path1 path2 content1 content2 img1 img2 r1 r2 CP1 CP2 A1 A2 H1 H2 P (K _ _ _ _ _ _ _ _ CP1 W1 A1 R1) (K _ _ _ _ _ _ _ _ CP2 W2 A2 R2)).
Qed.
Print Assumptions C99_calibration.
