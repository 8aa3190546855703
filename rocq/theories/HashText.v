(** A file in UTF-8 has tokens in UTF-8, so that its tree is shown rightly by toHashMap. *)
From Coq Require Import String Ascii List Arith NArith ZArith Bool Lia SpecFloat.
From Verif Require Import GoBase GoStrings TokModel TokSpec TokThm TokWords A2lTextModel A2lTextSpec A2lTextProps A2lIR A2lFileModel GoTypes A2lStructs HashModel HashSpec HashThm HashProps StrconvModel.
From Verif Require TokModel.
Import ListNotations.

Notation coded := HashSpec.utf8.

Definition starts (s : bytes) : Prop := match s with c :: _ => ~ tail c | [] => True end.

Ltac no_tail := unfold tail, byteIn in *; lia.

Lemma cut : forall s, coded s -> forall x y, s = x ++ y -> starts y -> coded x /\ coded y.
Proof.
  intros s U. induction U as [|c s C U IH|c d s C D U IH|c d e s CD E U IH|c d e f s CD E F U IH]; intros x y EQ ST.
  - symmetry in EQ. apply app_eq_nil in EQ. destruct EQ as [-> ->]. split; constructor.
  - destruct x as [|x0 x]; cbn [app] in EQ; [subst y; split; [constructor|apply u_1; assumption]|]. injection EQ as -> EQ. destruct (IH x y EQ ST). split; [apply u_1; assumption|assumption].
  - destruct x as [|x0 [|x1 x]]; cbn [app] in EQ.
    + subst y; split; [constructor|apply u_2; assumption].
    + injection EQ as -> EQ. subst y. destruct (ST D).
    + injection EQ as -> -> EQ. destruct (IH x y EQ ST). split; [apply u_2; assumption|assumption].
  - assert (D : tail d) by (destruct CD as [[? D]|[[? D]|[[? D]|[? D]]]]; no_tail).
    destruct x as [|x0 [|x1 [|x2 x]]]; cbn [app] in EQ.
    + subst y; split; [constructor|apply u_3; assumption].
    + injection EQ as -> EQ. subst y. destruct (ST D).
    + injection EQ as -> -> EQ. subst y. destruct (ST E).
    + injection EQ as -> -> -> EQ. destruct (IH x y EQ ST). split; [apply u_3; assumption|assumption].
  - assert (D : tail d) by (destruct CD as [[? D]|[[? D]|[? D]]]; no_tail).
    destruct x as [|x0 [|x1 [|x2 [|x3 x]]]]; cbn [app] in EQ.
    + subst y; split; [constructor|apply u_4; assumption].
    + injection EQ as -> EQ. subst y. destruct (ST D).
    + injection EQ as -> -> EQ. subst y. destruct (ST E).
    + injection EQ as -> -> -> EQ. subst y. destruct (ST F).
    + injection EQ as -> -> -> -> EQ. destruct (IH x y EQ ST). split; [apply u_4; assumption|assumption].
Qed.

(** The first character of a text *)
Lemma first_char : forall s, coded s -> s <> [] -> exists r n, decodeRune s = (r, n) /\ 0 < n <= length s /\ coded (skipn n s).
Proof.
  intros s U NE. destruct U as [|c s C U|c d s C D U|c d e s CD E U|c d e f s CD E F U]; [destruct NE; reflexivity| | | |]; cbn [decodeRune].
  - rewrite (proj2 (N.ltb_lt _ _)) by no_tail. do 2 eexists. split; [reflexivity|]. cbn. split; [lia|exact U].
  - rewrite (high c 0xC2) by no_tail. assert (L : lead c = Some (2, (0x80, 0xBF)%N)) by (lead_is; reflexivity). rewrite L, (proj2 (HashThm.within_iff _ _ d) D). do 2 eexists. split; [reflexivity|]. cbn. split; [lia|exact U].
  - assert (H : exists lo hi, lead c = Some (3, (lo, hi)) /\ within lo hi d = true /\ (128 <= N_of_ascii c)%N).
    { destruct CD as [[C D]|[[C D]|[[C D]|[C D]]]]; unfold tail, byteIn in *;
      [exists 0xA0%N, 0xBF%N|exists 0x80%N, 0xBF%N|exists 0x80%N, 0x9F%N|exists 0x80%N, 0xBF%N]; (split; [lead_is; reflexivity|]); (split; [apply HashThm.within_iff; exact D|lia]). }
    destruct H as (lo & hi & L & W & HI). rewrite (high c 128) by lia. rewrite L, W, (proj2 (HashThm.within_iff _ _ e) E). cbn [andb]. do 2 eexists. split; [reflexivity|]. cbn. split; [lia|exact U].
  - assert (H : exists lo hi, lead c = Some (4, (lo, hi)) /\ within lo hi d = true /\ (128 <= N_of_ascii c)%N).
    { destruct CD as [[C D]|[[C D]|[C D]]]; unfold tail, byteIn in *;
      [exists 0x90%N, 0xBF%N|exists 0x80%N, 0xBF%N|exists 0x80%N, 0x8F%N]; (split; [lead_is; reflexivity|]); (split; [apply HashThm.within_iff; exact D|lia]). }
    destruct H as (lo & hi & L & W & HI). rewrite (high c 128) by lia. rewrite L, W, (proj2 (HashThm.within_iff _ _ e) E), (proj2 (HashThm.within_iff _ _ f) F). cbn [andb]. do 2 eexists. split; [reflexivity|]. cbn. split; [lia|exact U].
Qed.

Lemma encoding_starts : forall r t, character r -> starts (A2lTextSpec.utf8 r ++ t) /\ A2lTextSpec.utf8 r <> [].
Proof.
  intros r t C. destruct (utf8_cases r C) as [(c & E & N & L)|[(c & c2 & E & H)|[(c & c2 & c3 & E & H)|(c & c2 & c3 & c4 & E & H)]]]; rewrite E; (split; [|discriminate]); cbn [app starts]; no_tail.
Qed.
Lemma drop_char : forall r t, character r -> coded (A2lTextSpec.utf8 r ++ t) -> coded t.
Proof.
  intros r t C U. assert (NE : A2lTextSpec.utf8 r ++ t <> []). { intros K. apply app_eq_nil in K. exact (proj2 (encoding_starts r t C) (proj1 K)). }
  destruct (first_char _ U NE) as (r' & n & D & _ & R). rewrite (decode_encode r t C) in D. injection D as <- <-. rewrite skipn_app, skipn_all, Nat.sub_diag in R. exact R.
Qed.

(** ** Cleaning *)

Lemma not_escape : forall c, (128 <= N_of_ascii c)%N -> Ascii.eqb c backslash = false.
Proof. intros c H. apply Ascii.eqb_neq. intros ->. vm_compute in H. apply H. reflexivity. Qed.
Lemma unescape_step : forall c s, (128 <= N_of_ascii c)%N -> unescape (c :: s) = c :: unescape s.
Proof. intros c s H. unfold unescape. cbn [unescape_aux]. rewrite (not_escape c H). reflexivity. Qed.

Lemma unescape_coded : forall n s, length s <= n -> coded s -> coded (unescape s).
Proof.
  induction n as [|n IH]; intros s L U; [destruct s; [constructor|cbn in L; lia]|].
  destruct U as [|c s C U|c d s C D U|c d e s CD E U|c d e f s CD E F U]; cbn [length] in L.
  - constructor.
  - unfold unescape. cbn [unescape_aux]. destruct (Ascii.eqb c backslash) eqn:B.
    + destruct s as [|d s]; [apply u_1; [exact C|constructor]|]. destruct (byte_is 10 d).
      * apply u_1; [exact C|]. apply IH; [lia|exact U].
      * rewrite unescape_skip. destruct (first_char (d :: s) U) as (r & k & DR & K & R); [discriminate|]. rewrite DR. cbn [snd]. apply IH; [rewrite skipn_length; lia|exact R].
    + apply u_1; [exact C|]. apply IH; [lia|exact U].
  - rewrite !unescape_step by no_tail. apply u_2; try assumption. apply IH; [lia|exact U].
  - assert (H : (128 <= N_of_ascii c)%N /\ (128 <= N_of_ascii d)%N) by (destruct CD as [[? D]|[[? D]|[[? D]|[? D]]]]; no_tail).
    rewrite !unescape_step by no_tail. apply u_3; try assumption. apply IH; [lia|exact U].
  - assert (H : (128 <= N_of_ascii c)%N /\ (128 <= N_of_ascii d)%N) by (destruct CD as [[? D]|[[? D]|[? D]]]; no_tail).
    rewrite !unescape_step by no_tail. apply u_4; try assumption. apply IH; [lia|exact U].
Qed.

Lemma drop_chars : forall rs t, Forall character rs -> coded (concat (map A2lTextSpec.utf8 rs) ++ t) -> coded t.
Proof. induction rs as [|r rs IH]; intros t F U; [exact U|]. inversion F; subst. cbn [map concat] in U. rewrite <- app_assoc in U. apply IH; [assumption|]. eapply drop_char; eassumption. Qed.
Lemma chars_start : forall rs, Forall character rs -> starts (concat (map A2lTextSpec.utf8 rs)).
Proof. intros [|r rs] F; [exact Logic.I|]. inversion F; subst. cbn [map concat]. apply encoding_starts. assumption. Qed.

Lemma clean_coded : forall gr s, tableOk gr -> coded s -> coded (cleanBytesString gr s).
Proof.
  intros gr s G U. destruct (trim_spec gr G (unescape s)) as (p & q & T & (rs & -> & P) & (rs' & -> & Q) & _).
  assert (P' : Forall character rs) by (eapply Forall_impl; [|exact P]; intros a [H _]; exact H). assert (Q' : Forall character rs') by (eapply Forall_impl; [|exact Q]; intros a [H _]; exact H).
  pose proof (unescape_coded _ s (Nat.le_refl _) U) as V. rewrite T in V. apply drop_chars in V; [|exact P']. eapply (proj1 (cut _ V _ _ eq_refl (chars_start _ Q'))).
Qed.

(** ** Lines and words *)

Lemma lines_coded : forall s cur, coded (rev cur ++ s) -> Forall coded (split_aux [ascii_of_N 10] 0 cur s).
Proof.
  induction s as [|c s IH]; intros cur U; cbn [split_aux].
  - rewrite app_nil_r in U. constructor; [exact U|constructor].
  - cbn [prefixb length Nat.sub]. destruct (Ascii.eqb (ascii_of_N 10) c) eqn:B; cbn [andb].
    + apply Ascii.eqb_eq in B. subst c. destruct (cut _ U _ _ eq_refl) as [U1 U2]; [cbn; unfold tail, byteIn; cbn; lia|].
      constructor; [exact U1|]. apply IH. cbn [rev app]. inversion U2 as [|? ? _ U3|? ? ? X|? ? ? ? X|? ? ? ? ? X]; subst; [exact U3|exfalso..]; unfold byteIn in X; cbn in X; lia.
    + apply IH. cbn [rev]. rewrite <- app_assoc. exact U.
Qed.

Lemma space_char : forall r, In r whiteSpace -> character r.
Proof. intros r H. cbn [whiteSpace In] in H. unfold character. repeat (destruct H as [<-|H]; [lia|]). destruct H. Qed.

Lemma words_coded : forall l ws, separated l ws -> coded l -> Forall coded ws.
Proof.
  intros l ws S. induction S as [|r l ws R _ IH|w _|w r l ws _ R _ IH]; intros U.
  - constructor.
  - apply IH. eapply drop_char; [apply space_char, R|exact U].
  - constructor; [exact U|constructor].
  - destruct (cut _ U _ _ eq_refl) as [U1 U2]; [apply encoding_starts, space_char, R|]. constructor; [exact U1|]. apply IH. eapply drop_char; [apply space_char, R|exact U2].
Qed.

(** ** Tokens *)

Lemma joined_coded : forall x y, coded x -> coded y -> coded (x ++ b " " ++ y).
Proof. intros x y U V. apply utf8_app; [exact U|]. apply u_1; [unfold byteIn; cbn; lia|exact V]. Qed.
Definition holds (m : mode) : Prop := match m with Quote t | Pair t => coded t | _ => True end.
Lemma wstep_coded : forall m w, holds m -> coded w -> holds (fst (wstep m w)) /\ Forall coded (snd (wstep m w)).
Proof.
  intros m w M W. destruct m as [| |t|v| |]; cbn [wstep holds] in *.
  - destruct (kind_of w); cbn [fst snd holds]; try (split; [exact Logic.I|repeat constructor; exact W]); try (destruct (hasb "*/" w); split; [exact Logic.I|constructor|exact Logic.I|constructor]).
    + destruct (Nat.even (quotes w)); cbn; split; auto.
    + split; [exact W|constructor].
  - destruct (hasb "*/" w); cbn; auto.
  - cbv zeta. pose proof (joined_coded t w M W). destruct (Nat.even _); cbn; auto.
  - pose proof (joined_coded v w M W). cbn; auto.
  - cbn; auto.
  - cbn; auto.
Qed.
Lemma lex_words_coded : forall ws m, holds m -> Forall coded ws -> holds (fst (lex_words m ws)) /\ Forall coded (snd (lex_words m ws)).
Proof.
  induction ws as [|w ws IH]; intros m M F; cbn [lex_words]; [split; [exact M|constructor]|]. inversion F; subst. destruct (wstep_coded m w M) as [M1 T1]; [assumption|].
  destruct (wstep m w) as [m1 t1]. cbn [fst snd] in *. destruct (IH m1 M1) as [M2 T2]; [assumption|]. destruct (lex_words m1 ws) as [m2 t2]. cbn [fst snd] in *. split; [exact M2|]. apply Forall_app. auto.
Qed.
Lemma lex_lines_coded : forall ls m, holds m -> Forall (Forall coded) ls -> Forall coded (snd (lex_lines m ls)).
Proof.
  induction ls as [|l ls IH]; intros m M F; cbn [lex_lines]; [constructor|]. inversion F; subst. destruct (lex_words_coded l m M) as [M1 T1]; [assumption|]. destruct (lex_words m l) as [m1 t1]. cbn [fst snd] in *.
  specialize (IH (eol m1)). destruct (lex_lines (eol m1) ls) as [m2 t2]. cbn [snd] in *. apply Forall_app. split; [exact T1|]. apply IH; [destruct m1; exact M1|assumption].
Qed.

Lemma tokens_coded : forall gr cpus content t, tableOk gr -> coded content -> fileTokens gr cpus content (Some t) -> forall s, In s (TokModel.tk_list t) -> coded s.
Proof.
  intros gr cpus content t G U T s I. unfold fileTokens in T. apply TokThm.exec_lex in T. injection T as ->. rewrite (C62_quotes_lost gr content G) in I.
  cbn [result TokModel.tk_list] in I. apply in_app_or in I. destruct I as [I|[<-|[]]]; [|constructor].
  assert (L : Forall coded (split [ascii_of_N 10] (cleanBytesString gr content))) by (apply lines_coded; cbn [rev app]; apply clean_coded; assumption).
  apply in_concat in I. destruct I as (ts & I1 & I2). unfold tokens_of in I1. apply in_map_iff in I1. destruct I1 as (c & <- & I1). unfold chunk_lex, lex in I2.
  assert (F : Forall coded (snd (lex_lines Normal (map TokModel.fields c)))).
  { apply lex_lines_coded; [exact Logic.I|]. apply Forall_forall. intros ws W. apply in_map_iff in W. destruct W as (l & <- & W). apply (words_coded l); [apply C42_white_space; reflexivity|].
    rewrite Forall_forall in L. apply L. exact (chunk_incl _ _ _ _ I1 _ W). }
  rewrite Forall_forall in F. exact (F s I2).
Qed.

(** A file in UTF-8: the map of every tree read from it has, at every public place, what it
    should have, and nothing else. *)
Theorem C94_utf8_guarded : forall gr pf cpus content a e h, tableOk gr -> HashSpec.utf8 content -> parseFromFile gr pf cpus (Some content) (Returned a e) -> toHashMap a = Some h -> forall p,
    (forall u w, leads type_A2L (Some (VObj a)) p u w -> exists x, at_ h p = Some x /\ shows u w x) /\
    (forall x, at_ h p = Some x -> exists u w, leads type_A2L (Some (VObj a)) p u w /\ shows u w x).
Proof.
  intros gr pf cpus content a e h G U P H. destruct (OriginProps.C86_file _ _ _ _ _ _ P) as (t & T & _).
  exact (C94_places_guarded gr pf cpus content t a e h P T (tokens_coded _ _ _ _ G U T) H).
Qed.
Print Assumptions C94_utf8_guarded.

(** the unit is two characters of two bytes *)
Definition micro : bytes := map ascii_of_N [0xC2; 0xB5; 0xCE; 0xA9]%N.
Example C94_utf8_example : tableOk (fun _ => true) /\ HashSpec.utf8 (hashFile (method (b "cm") micro (b "1.5")) (b "")) /\ exists a h,
    parseFromFile (fun _ => true) ParseFloat 1 (Some (hashFile (method (b "cm") micro (b "1.5")) (b ""))) (Returned a false) /\ toHashMap a = Some h /\
    at_ h [Key (b "Project"); Key (b "Modules"); Item 0; Key (b "CompuMethods"); Key (b "cm"); Key (b "Unit")] = Some (HStr micro).
Proof.
  split; [reflexivity|]. split.
  - cbn. repeat first [apply u_nil | apply u_1; [split; vm_compute; discriminate|] | apply u_2; [split; vm_compute; discriminate|split; vm_compute; discriminate|]].
  - do 2 eexists. split; [|split].
    + assert (T : fileTokens (fun _ => true) 1 (hashFile (method (b "cm") micro (b "1.5")) (b "")) (Some (TokModel.Tokens (hashTokens (methodTokens (b "cm") micro (b "1.5"))) false))).
      { generalize (fun _ : N => true). file_tokens. }
      apply (A2lFileProps.C65_sequential _ ParseFloat 1 _ _ _ T eq_refl). do 3 eexists. split; [reflexivity|]. apply (A2lModProps.returns_run 80). vm_compute. reflexivity.
    + vm_compute. reflexivity.
    + vm_compute. reflexivity.
Qed.
