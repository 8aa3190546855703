(** Properties of cleanBytesString. *)
From Coq Require Import String Ascii List Arith NArith ZArith Bool Lia.
From Verif Require Import GoBase GoBaseFacts GoStrings TokModel A2lTextModel A2lTextSpec.
Import ListNotations.
Ltac Zify.zify_post_hook ::= Z.to_euclidean_division_equations.

Lemma byte_bound : forall c, (N_of_ascii c < 256)%N.
Proof. intros [[] [] [] [] [] [] [] []]; reflexivity. Qed.

Lemma within_iff : forall lo hi c, within lo hi c = true <-> (lo <= N_of_ascii c <= hi)%N.
Proof. intros lo hi c. unfold within. rewrite andb_true_iff, !N.leb_le. reflexivity. Qed.

Lemma lead_cases : forall c n lo hi, lead c = Some (n, (lo, hi)) ->
  let v := N_of_ascii c in
  (n = 2 /\ (0xC2 <= v <= 0xDF /\ lo = 0x80 /\ hi = 0xBF)%N) \/
  (n = 3 /\ (0xE0 <= v <= 0xEF /\ (v = 0xE0 /\ lo = 0xA0 \/ v <> 0xE0 /\ lo = 0x80) /\ (v = 0xED /\ hi = 0x9F \/ v <> 0xED /\ hi = 0xBF))%N) \/
  (n = 4 /\ (0xF0 <= v <= 0xF4 /\ (v = 0xF0 /\ lo = 0x90 \/ v <> 0xF0 /\ lo = 0x80) /\ (v = 0xF4 /\ hi = 0x8F \/ v <> 0xF4 /\ hi = 0xBF))%N).
Proof.
  intros c n lo hi H v. subst v. unfold lead in H.
  repeat match type of H with (if within ?l ?h c then _ else _) = _ => destruct (within l h c) eqn:?; [|] end; try discriminate;
    injection H as <- <- <-; match goal with E : within _ _ c = true |- _ => apply within_iff in E end; lia.
Qed.

Lemma of_byte : forall c x, x = N_of_ascii c -> ascii_of_N x = c.
Proof. intros c x ->. apply ascii_N_embedding. Qed.

(** Decoding gives a character whose encoding was read, or the error of one byte. *)
Lemma decode_utf8 : forall s r n, decodeRune s = (r, n) -> s <> [] ->
  (r = runeError /\ n = 1) \/ (firstn n s = utf8 r /\ character r /\ 1 <= n <= 4 /\ length (firstn n s) = n).
Proof.
  intros s r n H NE. destruct s as [|c s]; [congruence|]. clear NE. pose proof (byte_bound c) as BC. cbn [decodeRune] in H.
  destruct (N_of_ascii c <? 128)%N eqn:A.
  { injection H as <- <-. right. apply N.ltb_lt in A. split; [|unfold character, low6; cbn; lia]. unfold utf8. replace (N_of_ascii c <? 128)%N with true by (symmetry; apply N.ltb_lt; lia).
    cbn. rewrite ascii_N_embedding. reflexivity. }
  destruct (lead c) as [[m [lo hi]]|] eqn:E; [|injection H as <- <-; auto].
  apply lead_cases in E. cbv zeta in E.
  destruct E as [(-> & E)|[(-> & E)|(-> & E)]].
  - destruct s as [|c2 s]; [injection H as <- <-; auto|]. destruct (within lo hi c2) eqn:W; [|injection H as <- <-; auto].
    apply within_iff in W. injection H as <- <-. right. split; [|unfold character, low6; cbn; lia]. unfold utf8, low6. cbn [firstn].
    set (r := (N_of_ascii c mod 32 * 64 + N_of_ascii c2 mod 64)%N). 
    assert (R : (128 <= r < 2048)%N) by (subst r; lia).
    rewrite (proj2 (N.ltb_ge _ _)) by lia. rewrite (proj2 (N.ltb_lt _ _)) by lia. cbn [map].
    rewrite (of_byte c), (of_byte c2); [reflexivity|subst r; lia|subst r; lia].
  - destruct s as [|c2 [|c3 s]]; try (injection H as <- <-; auto). destruct (within lo hi c2 && within 128 191 c3) eqn:W; [|injection H as <- <-; auto].
    apply andb_true_iff in W. rewrite !within_iff in W. injection H as <- <-. right. split; [|unfold character, low6; cbn; lia]. unfold utf8, low6. cbn [firstn].
    set (r := ((N_of_ascii c mod 16 * 64 + N_of_ascii c2 mod 64) * 64 + N_of_ascii c3 mod 64)%N).
    assert (R : (2048 <= r < 65536)%N) by (subst r; lia).
    rewrite !(proj2 (N.ltb_ge _ _)) by lia. rewrite (proj2 (N.ltb_lt _ _)) by lia. cbn [map].
    rewrite (of_byte c), (of_byte c2), (of_byte c3); [reflexivity|subst r; lia|subst r; lia|subst r; lia].
  - destruct s as [|c2 [|c3 [|c4 s]]]; try (injection H as <- <-; auto).
    destruct (within lo hi c2 && within 128 191 c3 && within 128 191 c4) eqn:W; [|injection H as <- <-; auto].
    rewrite !andb_true_iff, !within_iff in W. injection H as <- <-. right. split; [|unfold character, low6; cbn; lia]. unfold utf8, low6. cbn [firstn].
    set (r := (((N_of_ascii c mod 8 * 64 + N_of_ascii c2 mod 64) * 64 + N_of_ascii c3 mod 64) * 64 + N_of_ascii c4 mod 64)%N).
    assert (R : (65536 <= r)%N) by (subst r; lia).
    rewrite !(proj2 (N.ltb_ge _ _)) by lia. cbn [map].
    rewrite (of_byte c), (of_byte c2), (of_byte c3), (of_byte c4); [reflexivity|subst r; lia|subst r; lia|subst r; lia|subst r; lia].
Qed.

Lemma ascii_of : forall x, (x < 256)%N -> N_of_ascii (ascii_of_N x) = x.
Proof. intros x L. apply N_ascii_embedding. exact L. Qed.

Lemma within_true : forall lo hi c, (lo <= N_of_ascii c <= hi)%N -> within lo hi c = true.
Proof. intros. apply within_iff. assumption. Qed.
Lemma within_false : forall lo hi c, (N_of_ascii c < lo \/ hi < N_of_ascii c)%N -> within lo hi c = false.
Proof. intros lo hi c H. destruct (within lo hi c) eqn:E; [apply within_iff in E; lia|reflexivity]. Qed.
Ltac range := first [rewrite within_true by lia|rewrite within_false by lia].

Lemma lead2 : forall c, (194 <= N_of_ascii c <= 223)%N -> lead c = Some (2, (128, 191)%N).
Proof. intros c H. unfold lead. range. reflexivity. Qed.
Lemma lead3 : forall c, (224 <= N_of_ascii c <= 239)%N ->
  exists lo hi, lead c = Some (3, (lo, hi)) /\ (N_of_ascii c = 224 /\ lo = 160 \/ N_of_ascii c <> 224 /\ lo = 128)%N /\ (N_of_ascii c = 237 /\ hi = 159 \/ N_of_ascii c <> 237 /\ hi = 191)%N.
Proof.
  intros c H. assert (D : (N_of_ascii c = 224 \/ 225 <= N_of_ascii c <= 236 \/ N_of_ascii c = 237 \/ 238 <= N_of_ascii c)%N) by lia.
  unfold lead. destruct D as [D|[D|[D|D]]]; repeat range; eexists; eexists; (split; [reflexivity|lia]).
Qed.
Lemma lead4 : forall c, (240 <= N_of_ascii c <= 244)%N ->
  exists lo hi, lead c = Some (4, (lo, hi)) /\ (N_of_ascii c = 240 /\ lo = 144 \/ N_of_ascii c <> 240 /\ lo = 128)%N /\ (N_of_ascii c = 244 /\ hi = 143 \/ N_of_ascii c <> 244 /\ hi = 191)%N.
Proof.
  intros c H. assert (D : (N_of_ascii c = 240 \/ 241 <= N_of_ascii c <= 243 \/ N_of_ascii c = 244)%N) by lia.
  unfold lead. destruct D as [D|[D|D]]; repeat range; eexists; eexists; (split; [reflexivity|lia]).
Qed.

(** The shapes of encodings. *)
Lemma utf8_cases : forall r, character r ->
  (exists c, utf8 r = [c] /\ N_of_ascii c = r /\ (r < 128)%N) \/
  (exists c c2, utf8 r = [c; c2] /\ (194 <= N_of_ascii c <= 223 /\ 128 <= N_of_ascii c2 <= 191 /\ N_of_ascii c mod 32 * 64 + low6 c2 = r)%N) \/
  (exists c c2 c3, utf8 r = [c; c2; c3] /\ (224 <= N_of_ascii c <= 239 /\ 128 <= N_of_ascii c2 <= 191 /\ 128 <= N_of_ascii c3 <= 191
     /\ (N_of_ascii c = 224 -> 160 <= N_of_ascii c2) /\ (N_of_ascii c = 237 -> N_of_ascii c2 <= 159)
     /\ (N_of_ascii c mod 16 * 64 + low6 c2) * 64 + low6 c3 = r)%N) \/
  (exists c c2 c3 c4, utf8 r = [c; c2; c3; c4] /\ (240 <= N_of_ascii c <= 244 /\ 128 <= N_of_ascii c2 <= 191 /\ 128 <= N_of_ascii c3 <= 191 /\ 128 <= N_of_ascii c4 <= 191
     /\ (N_of_ascii c = 240 -> 144 <= N_of_ascii c2) /\ (N_of_ascii c = 244 -> N_of_ascii c2 <= 143)
     /\ ((N_of_ascii c mod 8 * 64 + low6 c2) * 64 + low6 c3) * 64 + low6 c4 = r)%N).
Proof.
  intros r C. unfold character in C. unfold utf8, low6.
  destruct (r <? 128)%N eqn:E1; [|destruct (r <? 2048)%N eqn:E2; [|destruct (r <? 65536)%N eqn:E3]];
    repeat match goal with E : (_ <? _)%N = true |- _ => apply N.ltb_lt in E | E : (_ <? _)%N = false |- _ => apply N.ltb_ge in E end;
    cbn [map].
  - left. eexists. split; [reflexivity|]. rewrite ascii_of by lia. lia.
  - right. left. eexists. eexists. split; [reflexivity|]. rewrite !ascii_of by lia. lia.
  - right. right. left. eexists. eexists. eexists. split; [reflexivity|]. rewrite !ascii_of by lia. lia.
  - right. right. right. eexists. eexists. eexists. eexists. split; [reflexivity|]. rewrite !ascii_of by lia. lia.
Qed.

(** The bytes of a character are decoded to it. *)
Lemma decode_encode : forall r q, character r -> decodeRune (utf8 r ++ q) = (r, length (utf8 r)).
Proof.
  intros r q C. destruct (utf8_cases r C) as [(c & -> & E & L)|[(c & c2 & -> & H)|[(c & c2 & c3 & -> & H)|(c & c2 & c3 & c4 & -> & H)]]]; cbn [app decodeRune length].
  - rewrite E. rewrite (proj2 (N.ltb_lt _ _)) by lia. reflexivity.
  - rewrite (proj2 (N.ltb_ge _ _)) by lia. rewrite lead2 by lia. range. f_equal. lia.
  - rewrite (proj2 (N.ltb_ge _ _)) by lia. destruct (lead3 c) as (lo & hi & -> & LO & HI); [lia|]. repeat range. cbn [andb]. f_equal. lia.
  - rewrite (proj2 (N.ltb_ge _ _)) by lia. destruct (lead4 c) as (lo & hi & -> & LO & HI); [lia|]. repeat range. cbn [andb]. f_equal. lia.
Qed.

(** The same from the end. *)
Lemma decodeLast_encode : forall r q, character r -> decodeLastRune (rev (utf8 r) ++ q) = (r, length (utf8 r)).
Proof.
  intros r q C. pose proof (decode_encode r [] C) as D. rewrite app_nil_r in D.
  destruct (utf8_cases r C) as [(c & E & N & L)|[(c & c2 & E & H)|[(c & c2 & c3 & E & H)|(c & c2 & c3 & c4 & E & H)]]]; rewrite E in *; cbn [rev app decodeLastRune length].
  - rewrite N. rewrite (proj2 (N.ltb_lt _ _)) by lia. reflexivity.
  - rewrite (proj2 (N.ltb_ge _ _)) by lia. cbn [back]. unfold runeStart. repeat range. cbn [negb firstn rev app]. rewrite D. reflexivity.
  - rewrite (proj2 (N.ltb_ge _ _)) by lia. cbn [back]. unfold runeStart. repeat range. cbn [negb firstn rev app]. rewrite D. reflexivity.
  - rewrite (proj2 (N.ltb_ge _ _)) by lia. cbn [back]. unfold runeStart. repeat range. cbn [negb firstn rev app]. rewrite D. reflexivity.
Qed.

Lemma back_bound : forall n k r, k <= back n k r <= k + n.
Proof. induction n as [|n IH]; intros k [|c r]; cbn; try lia. destruct (runeStart c); [lia|]. specialize (IH (S k) r). lia. Qed.

Lemma decodeLast_utf8 : forall s r n, decodeLastRune s = (r, n) -> s <> [] ->
  (r = runeError /\ n = 1) \/ (rev (firstn n s) = utf8 r /\ character r /\ 1 <= n).
Proof.
  intros s r n H NE. destruct s as [|c s]; [congruence|]. clear NE. cbn [decodeLastRune] in H. cbv zeta in H.
  destruct (N_of_ascii c <? 128)%N eqn:A.
  - injection H as <- <-. right. apply N.ltb_lt in A. split; [|unfold character; lia]. unfold utf8. rewrite (proj2 (N.ltb_lt _ _)) by lia. cbn. rewrite ascii_N_embedding. reflexivity.
  - set (t := rev (firstn (back 3 2 s) (c :: s))) in H. destruct (snd (decodeRune t) =? length t) eqn:E; [|injection H as <- <-; auto].
    apply Nat.eqb_eq in E. rewrite H in E. cbn [snd] in E.
    assert (T : t <> []). { intros T. apply (f_equal (@length _)) in T. unfold t in T. rewrite rev_length, firstn_length in T. pose proof (back_bound 3 2 s). cbn [length] in T. lia. }
    destruct (decode_utf8 t r n H T) as [D|(F & C & B & L)]; [auto|]. right. split; [|split; [exact C|lia]].
    rewrite <- F, E, firstn_all. unfold t. f_equal. rewrite rev_length. rewrite firstn_length.
    destruct (Nat.le_ge_cases (back 3 2 s) (length (c :: s))) as [LE|LE].
    + rewrite Nat.min_l by exact LE. reflexivity.
    + rewrite Nat.min_r by exact LE. rewrite !firstn_all2 by lia. reflexivity.
Qed.

Section Trim.
  Variable gr : N -> bool.
  Hypothesis GE : gr runeError = true.

  Lemma graphic_prints : forall r, isGraphic gr r = true <-> prints gr r.
  Proof.
    intros r. unfold isGraphic, prints. destruct (r <? 128)%N eqn:E; [apply N.ltb_lt in E|apply N.ltb_ge in E].
    - rewrite andb_true_iff, !N.leb_le. lia.
    - split; [auto|]. intros [H|[_ H]]; [lia|exact H].
  Qed.
  Lemma error_graphic : isGraphic gr runeError = true.
  Proof. exact GE. Qed.

  Lemma trimLeft_spec : forall fuel s, length s <= fuel -> exists p, s = p ++ trimLeft gr fuel s /\ unprintable gr p
      /\ forall p' t, trimLeft gr fuel s = p' ++ t -> unprintable gr p' -> p' = [].
  Proof.
    induction fuel as [|f IH]; intros s L.
    - destruct s; [|cbn in L; lia]. exists []. split; [reflexivity|]. split; [exists []; split; [reflexivity|constructor]|].
      intros p' t E _. symmetry in E. apply app_eq_nil in E. exact (proj1 E).
    - destruct s as [|c s]; [exists []; split; [reflexivity|]; split; [exists []; split; [reflexivity|constructor]|]; intros p' t E _; symmetry in E; apply app_eq_nil in E; exact (proj1 E)|].
      cbn [trimLeft]. destruct (decodeRune (c :: s)) as [r n] eqn:D. destruct (isGraphic gr r) eqn:G.
      + exists []. split; [reflexivity|]. split; [exists []; split; [reflexivity|constructor]|].
        intros p' t E (rs & P & F). destruct rs as [|r' rs]; [exact P|]. inversion F as [|? ? [C NP] F']; subst. exfalso. apply NP.
        cbn [map concat] in E. rewrite <- app_assoc in E. rewrite E, decode_encode in D by exact C. injection D as -> _. apply graphic_prints. exact G.
      + destruct (decode_utf8 (c :: s) r n D ltac:(discriminate)) as [[-> ->]|(U & C & B & LN)]; [rewrite error_graphic in G; discriminate|].
        destruct (IH (skipn n (c :: s))) as (p & E & (rs & P & F) & M).
        { rewrite skipn_length. cbn [length] in *. lia. }
        exists (utf8 r ++ p). split; [|split; [|exact M]].
        * rewrite <- app_assoc, <- E, <- U, firstn_skipn. reflexivity.
        * exists (r :: rs). split; [cbn; rewrite P; reflexivity|]. constructor; [|exact F]. split; [exact C|]. intros N. apply graphic_prints in N. congruence.
  Qed.

  Lemma trimRight_spec : forall fuel s, length s <= fuel -> exists q, s = rev q ++ trimRight gr fuel s /\ unprintable gr q
      /\ forall q' t, rev (trimRight gr fuel s) = t ++ q' -> unprintable gr q' -> q' = [].
  Proof.
    assert (NIL : forall q' t : bytes, rev [] = t ++ q' -> unprintable gr q' -> q' = []) by (intros q' t E _; symmetry in E; apply app_eq_nil in E; exact (proj2 E)).
    assert (UN : unprintable gr []) by (exists []; split; [reflexivity|constructor]).
    induction fuel as [|f IH]; intros s L.
    - destruct s; [|cbn in L; lia]. exists []. auto.
    - destruct s as [|c s]; [exists []; auto|].
      cbn [trimRight]. destruct (decodeLastRune (c :: s)) as [r n] eqn:D. destruct (isGraphic gr r) eqn:G.
      + exists []. split; [reflexivity|]. split; [exact UN|].
        intros q' t E (rs & P & F). destruct (rev rs) as [|r' rs'] eqn:RS.
        { apply (f_equal (@rev _)) in RS. rewrite rev_involutive in RS. subst rs. exact P. }
        apply (f_equal (@rev _)) in RS. rewrite rev_involutive in RS. cbn in RS. subst rs.
        apply Forall_app in F. destruct F as [_ F]. inversion F as [|? ? [C NP] _]; subst. exfalso. apply NP.
        rewrite map_app, concat_app in E. cbn [map concat] in E. rewrite app_nil_r in E.
        apply (f_equal (@rev _)) in E. rewrite rev_involutive in E. rewrite E, app_assoc, rev_app_distr, decodeLast_encode in D by exact C.
        injection D as -> _. apply graphic_prints. exact G.
      + destruct (decodeLast_utf8 (c :: s) r n D ltac:(discriminate)) as [[-> ->]|(U & C & B)]; [rewrite error_graphic in G; discriminate|].
        destruct (IH (skipn n (c :: s))) as (q & E & (rs & P & F) & M).
        { rewrite skipn_length. cbn [length] in *. lia. }
        exists (q ++ utf8 r). split; [|split; [|exact M]].
        * rewrite rev_app_distr, <- app_assoc, <- E, <- U, rev_involutive, firstn_skipn. reflexivity.
        * exists (rs ++ [r]). split; [rewrite map_app, concat_app, P; cbn; rewrite app_nil_r; reflexivity|].
          apply Forall_app. split; [exact F|]. constructor; [|constructor]. split; [exact C|]. intros N. apply graphic_prints in N. congruence.
  Qed.

  Lemma trim_spec : forall s, exists p q, s = p ++ trim gr s ++ q /\ unprintable gr p /\ unprintable gr q
      /\ (forall p' t, trim gr s = p' ++ t -> unprintable gr p' -> p' = []) /\ (forall t q', trim gr s = t ++ q' -> unprintable gr q' -> q' = []).
  Proof.
    intros s. unfold trim. destruct (trimLeft_spec (length s) s (le_n _)) as (p & E & P & ML). cbv zeta.
    set (l := trimLeft gr (length s) s) in *. destruct (trimRight_spec (length l) (rev l)) as (q & E' & Q & MR); [rewrite rev_length; lia|].
    set (r := trimRight gr (length l) (rev l)) in *. assert (EL : l = rev r ++ q).
    { apply (f_equal (@rev _)) in E'. rewrite rev_involutive, rev_app_distr, rev_involutive in E'. exact E'. }
    exists p, q. split; [rewrite <- EL; exact E|]. split; [exact P|]. split; [exact Q|]. split.
    - intros p' t F U. apply (ML p' (t ++ q)); [|exact U]. rewrite EL, F, app_assoc. reflexivity.
    - intros t q' F U. apply (MR q' t); assumption.
  Qed.
End Trim.

(** ** Escapes *)
Lemma unescape_skip : forall n s, unescape_aux n s = unescape (skipn n s).
Proof. induction n as [|n IH]; intros s; [reflexivity|]. destruct s; [reflexivity|]. cbn. apply IH. Qed.

Lemma unescape_spec : forall s, unescaped s (unescape s).
Proof.
  intros s. remember (length s) as n eqn:L. revert s L. induction n as [n IH] using lt_wf_ind. intros s ->.
  destruct s as [|c s]; [constructor|]. unfold unescape. cbn [unescape_aux]. destruct (Ascii.eqb c backslash) eqn:E.
  - apply Ascii.eqb_eq in E. subst c. change backslash with esc. destruct s as [|d s]; [exact UnLast|].
    unfold byte_is. destruct (N_of_ascii d =? 10)%N eqn:D.
    + apply N.eqb_eq in D. assert (d = newline) as -> by (unfold newline; rewrite <- D, ascii_N_embedding; reflexivity).
      cbn [unescape_aux]. change (Ascii.eqb newline backslash) with false. cbv iota. apply UnLine. apply (IH (length s)); [cbn; lia|reflexivity].
    + rewrite unescape_skip. destruct (decodeRune (d :: s)) as [r n] eqn:R. cbn [snd].
      assert (NL : forall r, utf8 r = [newline] -> d :: s = utf8 r ++ s -> False).
      { intros x U E. rewrite U in E. injection E as ->. discriminate. }
      destruct (decode_utf8 (d :: s) r n R ltac:(discriminate)) as [[-> ->]|(U & C & B & LN)].
      * (* a character U+FFFD, or an invalid byte *)
        apply UnByte; [|apply (IH (length s)); [cbn; lia|reflexivity]].
        intros x q X EQ. rewrite EQ, decode_encode in R by exact X. injection R as -> L1. vm_compute in L1. discriminate.
      * rewrite <- (firstn_skipn n (d :: s)) at 1. rewrite U. apply UnEscape; [exact C| |].
        -- intros N. assert (n = 1) as ->. { rewrite U, N in LN. cbn in LN. lia. } apply (NL r N). rewrite <- U. reflexivity.
        -- apply (IH (length (skipn n (d :: s)))); [rewrite skipn_length; cbn [length]; lia|reflexivity].
  - constructor; [intros ->; rewrite Ascii.eqb_refl in E; discriminate|]. apply (IH (length s)); [cbn; lia|reflexivity].
Qed.

Lemma unescaped_fun : forall s t, unescaped s t -> t = unescape s.
Proof.
  intros s t U. induction U as [|c s t N U IH|r s t C N U IH|c s t N U IH|s t U IH|].
  - reflexivity.
  - unfold unescape. cbn [unescape_aux]. destruct (Ascii.eqb c backslash) eqn:E; [apply Ascii.eqb_eq in E; destruct (N E)|]. rewrite IH. reflexivity.
  - unfold unescape. cbn [unescape_aux]. change (Ascii.eqb esc backslash) with true. cbv iota.
    destruct (utf8 r ++ s) as [|d q] eqn:E.
    + apply app_eq_nil in E. destruct E as [E _]. destruct (utf8_cases r C) as [(c & E' & _)|[(c & c2 & E' & _)|[(c & c2 & c3 & E' & _)|(c & c2 & c3 & c4 & E' & _)]]]; congruence.
    + unfold byte_is. destruct (N_of_ascii d =? 10)%N eqn:D.
      * exfalso. apply N. apply N.eqb_eq in D. assert (d = newline) as -> by (unfold newline; rewrite <- D, ascii_N_embedding; reflexivity).
        destruct (utf8_cases r C) as [(c & E' & _)|[(c & c2 & E' & H)|[(c & c2 & c3 & E' & H)|(c & c2 & c3 & c4 & E' & H)]]]; rewrite E' in *; injection E as -> E; try (rewrite D in H; lia); reflexivity.
      * rewrite <- E, decode_encode by exact C. cbn [snd]. rewrite unescape_skip, skipn_app, skipn_all, Nat.sub_diag. exact IH.
  - unfold unescape. cbn [unescape_aux]. change (Ascii.eqb esc backslash) with true. cbv iota.
    assert (NL : byte_is 10 c = false).
    { unfold byte_is. destruct (N_of_ascii c =? 10)%N eqn:D; [|reflexivity]. exfalso. apply N.eqb_eq in D. apply (N 10%N s); [unfold character; lia|].
      change (utf8 10) with [newline]. assert (c = newline) as -> by (unfold newline; rewrite <- D, ascii_N_embedding; reflexivity). reflexivity. }
    rewrite NL. destruct (decodeRune (c :: s)) as [r n] eqn:R. destruct (decode_utf8 _ _ _ R ltac:(discriminate)) as [[-> ->]|(F & C & _)].
    + cbn [snd unescape_aux]. exact IH.
    + exfalso. apply (N r (skipn n (c :: s)) C). rewrite <- F, firstn_skipn. reflexivity.
  - unfold unescape. cbn [unescape_aux]. change (Ascii.eqb esc backslash) with true. change (byte_is 10 newline) with true. change (Ascii.eqb newline backslash) with false. cbv iota. rewrite IH. reflexivity.
  - reflexivity.
Qed.

(** ** C62: cleaning the text of a file *)

(** The rune for bytes that are not UTF-8 prints (it is a symbol). *)
Definition tableOk (gr : N -> bool) : Prop := gr 0xFFFD%N = true.

(** For every text: the result is the text without its escape sequences, and
    without the unprintable characters before and after. *)
Theorem C62_as_read : forall gr s, tableOk gr ->
    exists t p q, unescaped s t /\ (forall t', unescaped s t' -> t' = t) /\ t = p ++ cleanBytesString gr s ++ q
      /\ unprintable gr p /\ unprintable gr q
      /\ (forall p' r, cleanBytesString gr s = p' ++ r -> unprintable gr p' -> p' = [])
      /\ (forall r q', cleanBytesString gr s = r ++ q' -> unprintable gr q' -> q' = []).
Proof.
  intros gr s G. destruct (trim_spec gr G (unescape s)) as (p & q & E & P & Q & L & R).
  exists (unescape s), p, q. split; [apply unescape_spec|]. split; [apply unescaped_fun|]. split; [exact E|]. auto.
Qed.
Print Assumptions C62_as_read.

Lemma unescaped_same : forall s, ~ In esc s -> unescaped s s.
Proof. induction s as [|c s IH]; intros N; constructor; [intros ->; apply N; left; reflexivity|]. apply IH. intros I. apply N. right. exact I. Qed.

(** Without a backslash only unprintable characters at the ends are removed. *)
Theorem C62_ends_guarded : forall gr s, tableOk gr -> ~ In esc s ->
    exists p q, s = p ++ cleanBytesString gr s ++ q /\ unprintable gr p /\ unprintable gr q.
Proof.
  intros gr s G N. destruct (C62_as_read gr s G) as (t & p & q & U & F & E & P & Q & _).
  rewrite <- (F s (unescaped_same s N)) in E. exists p, q. auto.
Qed.
Print Assumptions C62_ends_guarded.

Lemma prints_utf8 : forall c, (32 <= N_of_ascii c <= 126)%N -> utf8 (N_of_ascii c) = [c].
Proof. intros c H. unfold utf8. rewrite (proj2 (N.ltb_lt _ _)) by lia. cbn. rewrite ascii_N_embedding. reflexivity. Qed.

Lemma unprintable_first : forall gr c s, (32 <= N_of_ascii c <= 126)%N -> ~ unprintable gr (c :: s).
Proof.
  intros gr c s H (rs & E & F). destruct rs as [|r rs]; [discriminate|]. inversion F as [|? ? [C NP] _]; subst. apply NP. left.
  cbn [map concat] in E. pose proof (decode_encode r (concat (map utf8 rs)) C) as D. rewrite <- E in D.
  cbn [decodeRune] in D. rewrite (proj2 (N.ltb_lt _ _)) in D by lia. injection D as <- _. lia.
Qed.
Lemma unprintable_last : forall gr c s, (32 <= N_of_ascii c <= 126)%N -> ~ unprintable gr (s ++ [c]).
Proof.
  intros gr c s H (rs & E & F). destruct (rev rs) as [|r rs'] eqn:RS.
  { apply (f_equal (@rev _)) in RS. rewrite rev_involutive in RS. subst rs. destruct s; discriminate. }
  apply (f_equal (@rev _)) in RS. rewrite rev_involutive in RS. cbn in RS. subst rs. apply Forall_app in F. destruct F as [_ F]. inversion F as [|? ? [C NP] _]; subst. apply NP. left.
  rewrite map_app, concat_app in E. cbn [map concat] in E. rewrite app_nil_r in E. apply (f_equal (@rev _)) in E. rewrite !rev_app_distr in E. cbn [rev app] in E.
  pose proof (decodeLast_encode r (rev (concat (map utf8 (rev rs')))) C) as D. rewrite <- E in D.
  cbn [decodeLastRune] in D. rewrite (proj2 (N.ltb_lt _ _)) in D by lia. injection D as <- _. lia.
Qed.

(** A text without backslash that begins and ends with printing ASCII characters
    is not changed. *)
Theorem C62_unchanged_guarded : forall gr c s d, tableOk gr -> ~ In esc (c :: s ++ [d]) -> (32 <= N_of_ascii c <= 126)%N -> (32 <= N_of_ascii d <= 126)%N ->
    cleanBytesString gr (c :: s ++ [d]) = c :: s ++ [d].
Proof.
  intros gr c s d G N C D. destruct (C62_ends_guarded gr _ G N) as (p & q & E & P & Q). set (r := cleanBytesString gr (c :: s ++ [d])) in *.
  destruct p as [|x p].
  - destruct (rev q) as [|y q'] eqn:RQ.
    + apply (f_equal (@rev _)) in RQ. rewrite rev_involutive in RQ. subst q. rewrite app_nil_r in E. symmetry. exact E.
    + exfalso. apply (f_equal (@rev _)) in RQ. rewrite rev_involutive in RQ. cbn in RQ. subst q.
      cbn [app] in E. rewrite app_comm_cons, app_assoc in E. apply app_inj_tail in E. destruct E as [_ ->]. apply (unprintable_last gr y (rev q') D Q).
  - exfalso. injection E as -> _. apply (unprintable_first gr x p C P).
Qed.
Print Assumptions C62_unchanged_guarded.

Example C62_unchanged_example : cleanBytesString (fun _ => true) (b "/begin PROJECT P """" /end PROJECT") = b "/begin PROJECT P """" /end PROJECT".
Proof. apply (C62_unchanged_guarded (fun _ => true) _ (b "begin PROJECT P """" /end PROJEC")); [reflexivity| |vm_compute; split; discriminate|vm_compute; split; discriminate]. vm_compute. intuition discriminate. Qed.

(** A byte order mark in front and white space behind are removed. *)
Example C62_bom_example : forall gr, gr 0xFEFF%N = false ->
  cleanBytesString gr (map ascii_of_N [0xEF; 0xBB; 0xBF]%N ++ b "ASAP2" ++ map ascii_of_N [13; 10]%N) = b "ASAP2".
Proof. intros gr G. unfold cleanBytesString, trim. cbn. rewrite G. reflexivity. Qed.

(** Not so for texts with backslashes: they lose characters. *)
Theorem C62_refuted : exists s t, (forall c, In c s -> (32 <= N_of_ascii c <= 126)%N) /\ s <> t /\ forall gr, cleanBytesString gr s = t.
Proof.
  exists (b """C:\temp"""), (b """C:emp"""). split; [|split; [discriminate|]].
  - intros c I. vm_compute in I. repeat destruct I as [<-|I]; try (vm_compute; split; discriminate). destruct I.
  - intros gr. vm_compute. reflexivity.
Qed.
Print Assumptions C62_refuted.

Lemma no_escapes : forall s t, unescaped s t -> forall p q, t = p ++ esc :: q -> q = [] \/ exists q', q = newline :: q'.
Proof.
  intros s t U. induction U as [|c s t N U IH|r s t C N U IH|c s t N U IH|s t U IH|]; intros p q E.
  - destruct p; discriminate.
  - destruct p as [|x p]; [injection E as -> _; destruct (N eq_refl)|]. injection E as _ E. exact (IH p q E).
  - exact (IH p q E).
  - exact (IH p q E).
  - destruct p as [|x [|y p]]; [injection E as <-; right; exists t; reflexivity|injection E as _ E _; discriminate|]. injection E as _ _ E. exact (IH p q E).
  - destruct p as [|x [|y p]]; [injection E as <-; left; reflexivity|discriminate|discriminate].
Qed.

Lemma replace_nothing : forall s, (forall p q, s = p ++ esc :: q -> q = [] \/ exists q', q = newline :: q') -> forall d, replace_all s [backslash; quote] d = s.
Proof.
  intros s N d. unfold replace_all. induction s as [|c s IH]; [reflexivity|]. cbn [replace_aux].
  assert (P : prefixb [backslash; quote] (c :: s) = false).
  { cbn [prefixb]. destruct (Ascii.eqb backslash c) eqn:E; [|reflexivity]. apply Ascii.eqb_eq in E. subst c.
    destruct (N [] s eq_refl) as [->|[q' ->]]; reflexivity. }
  rewrite P. f_equal. apply IH. intros p q E. apply (N (c :: p) q). rewrite E. reflexivity.
Qed.

(** The tokenizer's treatment of escaped quotation marks (C45) has no effect on any
    file: the escapes are removed before, together with what they protect. *)
Theorem C62_quotes_lost : forall gr s, tableOk gr -> textLines (cleanBytesString gr s) = split (b (String (ascii_of_N 10) EmptyString)) (cleanBytesString gr s).
Proof.
  intros gr s G. unfold textLines. f_equal. apply replace_nothing. intros p q E.
  destruct (C62_as_read gr s G) as (t & p1 & q1 & U & _ & T & _). 
  destruct (no_escapes s t U (p1 ++ p) (q ++ q1)) as [F|[q' F]].
  - rewrite T, E, <- !app_assoc. reflexivity.
  - apply app_eq_nil in F. left. exact (proj1 F).
  - destruct q as [|x q]; [left; reflexivity|]. injection F as -> _. right. exists q. reflexivity.
Qed.
Print Assumptions C62_quotes_lost.

(** A string of the three characters a, escaped quotation mark, b: two arrive. *)
Theorem C62_quotes_refuted : exists s, textLines s = [b """a'b"""] /\ forall gr, textLines (cleanBytesString gr s) = [b """ab"""].
Proof. exists (b """a\""b"""). split; [reflexivity|]. intros gr. vm_compute. reflexivity. Qed.
Print Assumptions C62_quotes_refuted.
