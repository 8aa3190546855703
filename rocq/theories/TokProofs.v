(** The token generator implements the automaton [lex]. *)
From Coq Require Import String Ascii List Arith NArith Bool Lia.
From Verif Require Import GoBase GoBaseFacts GoStrings TokModel TokSpec.
Import ListNotations.

(** ** Strings *)

Lemma count_quotes : forall w, count_byte quote w = quotes w.
Proof.
  unfold count_byte, quotes. change quote with QM. induction w as [|c w IH]; [reflexivity|]. cbn [filter count_occ].
  destruct (ascii_dec c QM) as [->|N].
  - rewrite Ascii.eqb_refl. cbn [List.length]. rewrite IH. reflexivity.
  - destruct (Ascii.eqb_spec QM c) as [E|_]; [congruence|exact IH].
Qed.

Lemma contains_quote : forall w, containsb quotationMarkToken w = (0 <? quotes w).
Proof.
  induction w as [|c w IH]; [reflexivity|]. cbn [containsb]. unfold quotationMarkToken in *. cbn [prefixb].
  unfold quotes in *. cbn [count_occ]. change quote with QM in *. destruct (ascii_dec c QM) as [->|N].
  - rewrite Ascii.eqb_refl. reflexivity.
  - destruct (Ascii.eqb_spec QM c) as [E|_]; [congruence|exact IH].
Qed.

Lemma quotes_in : forall w, quotes w = 0 <-> ~ In QM w.
Proof. intros w. unfold quotes. rewrite (count_occ_not_In ascii_dec). reflexivity. Qed.

Lemma before_quote_none : forall w, quotes w = 0 -> before_quote w = w.
Proof.
  intros w H. apply quotes_in in H. induction w as [|c w IH]; [reflexivity|]. cbn [before_quote].
  destruct (Ascii.eqb_spec c QM) as [->|N]; [exfalso; apply H; left; reflexivity|].
  rewrite IH; [reflexivity|]. intros K. apply H. right. exact K.
Qed.

Lemma before_index : forall c1 c2 w, c1 <> QM -> c2 <> QM -> 0 < quotes w ->
    beforeb (find_index [c1; c2] w) (find_index quotationMarkToken w) = containsb [c1; c2] (before_quote w).
Proof.
  intros c1 c2 w N1 N2. induction w as [|c w IH]; intros H; [inversion H|].
  unfold quotationMarkToken in *. change quote with QM in *.
  destruct (Ascii.eqb_spec c QM) as [->|N].
  - cbn [before_quote]. rewrite Ascii.eqb_refl. cbn [containsb prefixb orb].
    assert (P : prefixb [QM] (QM :: w) = true) by (cbn [prefixb]; rewrite Ascii.eqb_refl; reflexivity).
    cbn [find_index]. rewrite P. unfold beforeb. destruct (if prefixb [c1; c2] (QM :: w) then _ else _) eqn:F; [|reflexivity].
    reflexivity.
  - assert (H' : 0 < quotes w).
    { unfold quotes in *. cbn [count_occ] in H. destruct (ascii_dec c QM); [contradiction|exact H]. }
    specialize (IH H'). cbn [before_quote]. destruct (Ascii.eqb_spec c QM) as [E|_]; [contradiction|].
    assert (P : prefixb [QM] (c :: w) = false).
    { cbn [prefixb]. destruct (Ascii.eqb_spec QM c) as [E|_]; [congruence|reflexivity]. }
    assert (Q : exists q, find_index [QM] w = Some q).
    { clear - H'. induction w as [|d w IHw]; [inversion H'|]. cbn [find_index].
      destruct (prefixb [QM] (d :: w)) eqn:PP; [eauto|].
      assert (0 < quotes w).
      { unfold quotes in *. cbn [count_occ] in H'. destruct (ascii_dec d QM) as [->|]; [|exact H'].
        cbn [prefixb] in PP. rewrite Ascii.eqb_refl in PP. discriminate. }
      destruct (IHw H) as [q ->]. eauto. }
    destruct Q as [q Q].
    change (find_index [QM] (c :: w)) with
      (if prefixb [QM] (c :: w) then Some 0 else match find_index [QM] w with Some i => Some (S i) | None => None end).
    rewrite P, Q.
    change (find_index [c1; c2] (c :: w)) with
      (if prefixb [c1; c2] (c :: w) then Some 0 else match find_index [c1; c2] w with Some i => Some (S i) | None => None end).
    change (containsb [c1; c2] (c :: before_quote w)) with
      (prefixb [c1; c2] (c :: before_quote w) || containsb [c1; c2] (before_quote w)).
    assert (E : prefixb [c1; c2] (c :: before_quote w) = prefixb [c1; c2] (c :: w)).
    { cbn [prefixb]. f_equal. destruct w as [|d w]; [reflexivity|]. cbn [before_quote].
      destruct (Ascii.eqb_spec d QM) as [->|_]; [|reflexivity].
      destruct (Ascii.eqb_spec c2 QM) as [E|_]; [contradiction|reflexivity]. }
    rewrite E. destruct (prefixb [c1; c2] (c :: w)); [reflexivity|]. cbn [orb]. rewrite <- IH, Q.
    unfold beforeb. destruct (find_index [c1; c2] w); reflexivity.
Qed.

(** ** The automaton on a stream: the rest of a line and the lines after it *)

Definition stream := (list bytes * list (list bytes))%type.
Definition lexS (m : mode) (st : stream) : list bytes :=
  snd (lex_words m (fst st)) ++ snd (lex_lines (eol (fst (lex_words m (fst st)))) (snd st)).
Definition size (st : stream) : nat := List.length (fst st) + List.length (concat (snd st)).

Lemma lexS_cons : forall m w rest ls, lexS m (w :: rest, ls) = snd (wstep m w) ++ lexS (fst (wstep m w)) (rest, ls).
Proof.
  intros. unfold lexS. cbn [fst snd lex_words]. destruct (wstep m w) as [m1 t1]. cbn [fst snd].
  destruct (lex_words m1 rest) as [m2 t2]. cbn [fst snd]. rewrite app_assoc. reflexivity.
Qed.

Lemma lexS_line : forall m l ls, lexS m ([], l :: ls) = lexS (eol m) (l, ls).
Proof.
  intros. unfold lexS. cbn [fst snd lex_words lex_lines app].
  destruct (lex_words (eol m) l) as [m1 t1]. cbn [fst snd].
  destruct (lex_lines (eol m1) ls) as [m2 t2]. reflexivity.
Qed.

Lemma lexS_end : forall m, lexS m ([], []) = [].
Proof. reflexivity. Qed.

Lemma lexS_dead : forall rest ls, lexS Dead (rest, ls) = [].
Proof.
  assert (W : forall ws, lex_words Dead ws = (Dead, [])).
  { induction ws as [|w ws IH]; [reflexivity|]. cbn [lex_words wstep]. rewrite IH. reflexivity. }
  intros rest ls. unfold lexS. cbn [fst snd]. rewrite W. cbn [fst snd eol app].
  induction ls as [|l ls IH]; [reflexivity|]. cbn [lex_lines]. rewrite W. cbn [eol].
  destruct (lex_lines Dead ls). exact IH.
Qed.

Lemma lexS_rest : forall rest ls, lexS Rest (rest, ls) = lexS Normal ([], ls).
Proof.
  assert (W : forall ws, lex_words Rest ws = (Rest, [])).
  { induction ws as [|w ws IH]; [reflexivity|]. cbn [lex_words wstep]. rewrite IH. reflexivity. }
  intros rest ls. unfold lexS. cbn [fst snd]. rewrite W. reflexivity.
Qed.

Section Str.
Variable str : list (list bytes).
Hypothesis lines_ok : Forall (fun l => l <> [] /\ Forall (fun w => w <> []) l) str.

(** [at_ cu w st]: the cursor is on the word [w] and the stream [st] follows. *)
Definition at_ (cu : cursor) (w : bytes) (st : stream) : Prop :=
  exists line, nth_error str (fst cu) = Some line /\ nth_error line (snd cu) = Some w
    /\ st = (skipn (S (snd cu)) line, skipn (S (fst cu)) str).

Lemma line_ok : forall o l, nth_error str o = Some l -> l <> [] /\ Forall (fun w => w <> []) l.
Proof. intros o l H. rewrite Forall_forall in lines_ok. apply lines_ok. eapply nth_error_In. exact H. Qed.

Lemma at_word : forall cu w st, at_ cu w st -> word_at str cu = Ok w.
Proof. intros cu w st (l & H1 & H2 & _). unfold word_at, index. rewrite H1. cbn. rewrite H2. reflexivity. Qed.

Lemma at_nonempty : forall cu w st, at_ cu w st -> w <> [].
Proof.
  intros cu w st (l & H1 & H2 & _). apply line_ok in H1. destruct H1 as [_ H1]. rewrite Forall_forall in H1.
  apply H1. eapply nth_error_In. exact H2.
Qed.

Lemma skipn_cons : forall A (l : list A) i x, nth_error l i = Some x -> skipn i l = x :: skipn (S i) l.
Proof.
  intros A l. induction l as [|y l IH]; intros i x H; destruct i; cbn in H; try discriminate.
  - injection H as ->. reflexivity.
  - cbn [skipn]. apply IH. exact H.
Qed.

Lemma skipn_end : forall A (l : list A) i, nth_error l i = None -> skipn i l = [].
Proof. intros A l i H. apply nth_error_None in H. apply skipn_all2. exact H. Qed.

Lemma move_spec : forall cu w st, at_ cu w st ->
    match st with
    | (w' :: rest, ls) => exists cu', moveToNextRawValue str cu = Ok (w', cu') /\ at_ cu' w' (rest, ls)
    | ([], (w' :: rest) :: ls) => exists cu', moveToNextRawValue str cu = Ok (w', cu') /\ at_ cu' w' (rest, ls)
    | ([], [] :: _) => False
    | ([], []) => moveToNextRawValue str cu = Err TEof
    end.
Proof.
  intros [o i] w st (line & H1 & H2 & ->). cbn [fst snd] in *.
  unfold moveToNextRawValue. destruct (List.length str) as [|n] eqn:Ls; [destruct str; [destruct o; discriminate|discriminate]|].
  cbn [moveNext]. rewrite H1. rewrite Ls.
  assert (Li : i < List.length line) by (apply nth_error_Some; congruence).
  destruct (nth_error line (S i)) as [w'|] eqn:Hn.
  - rewrite (skipn_cons _ _ _ _ Hn).
    assert (S i < List.length line) by (apply nth_error_Some; congruence).
    replace (i + 1) with (S i) by lia.
    assert ((S i <? List.length line) = true) as -> by (apply Nat.ltb_lt; lia).
    assert ((0 <? List.length line) = true) as -> by (apply Nat.ltb_lt; lia). cbn [andb].
    unfold index. rewrite Hn. cbn [obind]. eexists. split; [reflexivity|]. exists line. cbn [fst snd]. auto.
  - rewrite (skipn_end _ _ _ Hn). apply nth_error_None in Hn.
    replace (i + 1) with (S i) by lia.
    assert ((S i <? List.length line) = false) as -> by (apply Nat.ltb_ge; lia). cbn [andb].
    assert ((List.length line =? S i) = true) as -> by (apply Nat.eqb_eq; lia). cbn [andb].
    replace (o + 1) with (S o) by lia.
    destruct (nth_error str (S o)) as [line'|] eqn:Ho.
    + rewrite (skipn_cons _ _ _ _ Ho).
      assert (S o < List.length str) by (apply nth_error_Some; congruence).
      assert ((S n =? S o) = false) as -> by (apply Nat.eqb_neq; lia).
      assert ((S o <? S n) = true) as -> by (apply Nat.ltb_lt; lia). cbn [obind].
      destruct (line_ok _ _ Ho) as [NE _]. destruct line' as [|w' rest]; [contradiction|].
      eexists. split; [reflexivity|]. exists (w' :: rest). cbn [fst snd nth_error skipn]. auto.
    + rewrite (skipn_end _ _ _ Ho). apply nth_error_None in Ho.
      assert (o < List.length str) by (apply nth_error_Some; congruence).
      assert ((S n =? S o) = true) as -> by (apply Nat.eqb_eq; lia).
      unfold index. rewrite H2. cbn [obind].
      assert (w <> []) by (eapply at_nonempty with (cu := (o, i)); exists line; cbn; eauto).
      destruct w; [contradiction|]. reflexivity.
Qed.

(** The result of a function that skips: the cursor is on the next word to be
    looked at, or the text is exhausted. *)
Definition skips (m : mode) (st : stream) (r : outcome terr (bytes * cursor)) : Prop :=
  match r with
  | Ok (w, cu) => exists st', at_ cu w st' /\ size st' < size st /\ lexS m st = lexS Normal (w :: fst st', snd st')
  | Err TFuel => False
  | Err _ => lexS m st = []
  | Panic => False
  end.

Definition pulled (st : stream) : option (bytes * stream) :=
  match st with
  | (w' :: rest, ls) => Some (w', (rest, ls))
  | ([], (w' :: rest) :: ls) => Some (w', (rest, ls))
  | _ => None
  end.

Lemma pull_spec : forall cu w st, at_ cu w st ->
    (exists w' cu' st', pulled st = Some (w', st') /\ moveToNextRawValue str cu = Ok (w', cu') /\ at_ cu' w' st'
       /\ size st' < size st /\ forall m, eol m = m -> lexS m st = lexS m (w' :: fst st', snd st'))
    \/ (st = ([], []) /\ moveToNextRawValue str cu = Err TEof).
Proof.
  intros cu w st H. pose proof (move_spec cu w st H) as M.
  destruct st as [[|w' rest] ls].
  - destruct ls as [|[|w' rest] ls].
    + right. auto.
    + contradiction.
    + left. destruct M as (cu' & M1 & M2). exists w', cu', (rest, ls). repeat split; auto.
      * unfold size. cbn. rewrite app_length. lia.
      * intros m E. cbn [fst snd]. rewrite lexS_line, E. reflexivity.
  - left. destruct M as (cu' & M1 & M2). exists w', cu', (rest, ls). repeat split; auto.
Qed.

Lemma skipLoop_spec : forall fuel cu w st, at_ cu w st -> size st < fuel -> skips Comment st (skipLoop str fuel cu).
Proof.
  induction fuel as [|f IH]; intros cu w st H Hs; [lia|]. cbn [skipLoop].
  destruct (pull_spec cu w st H) as [(w' & cu' & st' & P & M & A & S & L)|[-> M]]; rewrite M; cbn [obind fst snd].
  - assert (E : lexS Comment st = lexS (if hasb "*/" w' then Normal else Comment) st').
    { rewrite (L Comment eq_refl), lexS_cons. cbn [wstep fst snd app]. rewrite <- surjective_pairing. reflexivity. }
    unfold endMultilineCommentToken. fold (hasb "*/" w'). destruct (hasb "*/" w').
    + unfold skips. rewrite E.
      destruct (pull_spec cu' w' st' A) as [(w2 & cu2 & st2 & P2 & M2 & A2 & S2 & L2)|[-> M2]]; rewrite M2.
      * exists st2. split; [exact A2|]. split; [lia|]. apply L2. reflexivity.
      * reflexivity.
    + assert (NE : w' <> []) by (eapply at_nonempty; exact A).
      destruct (beqb w' emptyToken) eqn:B; [apply beqb_eq in B; contradiction|].
      specialize (IH cu' w' st' A ltac:(lia)). unfold skips in *. rewrite E.
      destruct (skipLoop str f cu') as [[w2 cu2]|[]|]; try exact IH.
      destruct IH as (st2 & I1 & I2 & I3). exists st2. split; [exact I1|]. split; [lia|exact I3].
  - reflexivity.
Qed.

Lemma size_words : forall cu w st, at_ cu w st -> size st < words str.
Proof.
  intros cu w st (line & H1 & H2 & ->). unfold size, words. cbn [fst snd].
  rewrite <- (firstn_skipn (fst cu) str) at 2. rewrite (skipn_cons _ _ _ _ H1).
  rewrite concat_app, app_length. cbn [concat]. rewrite app_length, skipn_length.
  assert (snd cu < List.length line) by (apply nth_error_Some; congruence). lia.
Qed.

Lemma multi_spec : forall cu w st, at_ cu w st -> hasb "/*" w = true ->
    skips (if hasb "*/" w then Normal else Comment) st (skipMultilineComment str cu).
Proof.
  intros cu w st H HC. unfold skipMultilineComment. rewrite (at_word _ _ _ H). cbn [obind].
  unfold beginMultilineCommentToken, endMultilineCommentToken. fold (hasb "/*" w) (hasb "*/" w).
  rewrite HC. destruct (hasb "*/" w); cbn [andb negb].
  - destruct (pull_spec cu w st H) as [(w' & cu' & st' & P & M & A & S & L)|[-> M]]; rewrite M.
    + exists st'. split; [exact A|]. split; [exact S|]. apply L. reflexivity.
    + reflexivity.
  - pose proof (size_words _ _ _ H). eapply skipLoop_spec; [exact H|lia].
Qed.

Lemma line_spec : forall cu w st, at_ cu w st -> hasb "//" w = true -> skips Rest st (skipLineComment str cu).
Proof.
  intros cu w st H HC. unfold skipLineComment. rewrite (at_word _ _ _ H). cbn [obind].
  unfold beginLineCommentToken. fold (hasb "//" w). rewrite HC. destruct H as (line & H1 & H2 & ->).
  replace (fst cu + 1) with (S (fst cu)) by lia.
  destruct (nth_error str (S (fst cu))) as [line'|] eqn:E.
  - assert (S (fst cu) < List.length str) by (apply nth_error_Some; congruence).
    assert ((S (fst cu) <? List.length str) = true) as -> by (apply Nat.ltb_lt; lia).
    destruct (line_ok _ _ E) as [NE _]. destruct line' as [|w' rest]; [contradiction|].
    unfold word_at, index. cbn [fst snd]. rewrite E. cbn [obind nth_error].
    exists (rest, skipn (S (S (fst cu))) str). split; [|split].
    + exists (w' :: rest). cbn [fst snd nth_error skipn]. auto.
    + rewrite (skipn_cons _ _ _ _ E). unfold size. cbn [fst snd concat]. rewrite app_length. cbn [List.length]. lia.
    + rewrite lexS_rest. rewrite (skipn_cons _ _ _ _ E), lexS_line. reflexivity.
  - assert ((S (fst cu) <? List.length str) = false) as ->.
    { apply nth_error_None in E. apply Nat.ltb_ge. lia. }
    cbn [skips]. rewrite lexS_rest. rewrite (skipn_end _ _ _ E). reflexivity.
Qed.

(** The result of a function that delivers a token; [l] is what the automaton
    still delivers. *)
Definition yields (l : list bytes) (n : nat) (r : outcome terr (bytes * cursor)) : Prop :=
  match r with
  | Ok (t, cu) => t <> [] /\ exists w' st', at_ cu w' st' /\ size st' < n /\ l = t :: lexS Normal st'
  | Err TFuel => False
  | Err _ => l = []
  | Panic => False
  end.

Lemma yields_weaken : forall l n n' r, n <= n' -> yields l n r -> yields l n' r.
Proof.
  intros l n n' [[t cu]|[]|] H Y; try exact Y. destruct Y as (Y0 & w' & st' & Y1 & Y2 & Y3).
  split; [exact Y0|]. exists w', st'. split; [exact Y1|]. split; [lia|exact Y3].
Qed.

Lemma quoteLoop_spec : forall fuel cu w st text, at_ cu w st -> size st < fuel ->
    yields (lexS (Quote text) st) (S (size st)) (quoteLoop str fuel cu text).
Proof.
  induction fuel as [|f IH]; intros cu w st text H Hs; [lia|]. cbn [quoteLoop].
  destruct (pull_spec cu w st H) as [(w' & cu' & st' & P & M & A & S & L)|[-> M]]; rewrite M; cbn [obind fst snd].
  - rewrite count_quotes. rewrite (L _ eq_refl), lexS_cons. cbn [wstep].
    change (spaceToken ++ w') with (b " " ++ w').
    destruct (Nat.even (quotes (text ++ b " " ++ w'))); cbn [fst snd app].
    + split; [destruct text; discriminate|]. exists w', st'. split; [exact A|]. split; [lia|].
      rewrite <- surjective_pairing. reflexivity.
    + rewrite <- surjective_pairing. eapply yields_weaken; [|eapply IH; [exact A|lia]]. lia.
  - reflexivity.
Qed.

Lemma two_spec : forall cu w st, at_ cu w st -> hasb "/begin" w || hasb "/end" w = true ->
    yields (lexS (Pair w) st) (S (size st)) (getTwoWordedToken str cu).
Proof.
  intros cu w st H HC. unfold getTwoWordedToken. rewrite (at_word _ _ _ H). cbn [obind].
  fold (hasb "/begin" w) (hasb "/end" w). rewrite HC.
  destruct (pull_spec cu w st H) as [(w' & cu' & st' & P & M & A & S & L)|[-> M]]; rewrite M; cbn [obind fst snd].
  - split; [destruct w; discriminate|]. exists w', st'. split; [exact A|]. split; [lia|].
    rewrite (L _ eq_refl), lexS_cons. cbn [wstep fst snd app]. rewrite <- surjective_pairing. reflexivity.
  - reflexivity.
Qed.

Lemma contains_app : forall p x y, containsb p x = true -> containsb p (x ++ y) = true.
Proof.
  assert (P : forall p x y, prefixb p x = true -> prefixb p (x ++ y) = true).
  { induction p as [|c p IH]; intros x y H; [reflexivity|]. destruct x as [|d x]; [discriminate|].
    cbn [prefixb app] in *. apply andb_true_iff in H. destruct H as [-> H]. apply IH. exact H. }
  intros p x y. induction x as [|c x IH]; intros H.
  - cbn [containsb] in H. rewrite orb_false_r in H. destruct p; [destruct y; reflexivity|discriminate].
  - cbn [containsb app] in *. apply orb_true_iff in H. apply orb_true_iff.
    destruct H as [H|H]; [left; exact (P _ _ y H)|right; apply IH; exact H].
Qed.

Lemma before_quote_prefix : forall w, exists y, w = before_quote w ++ y.
Proof.
  induction w as [|c w [y IH]]; [exists []; reflexivity|]. cbn [before_quote].
  destruct (Ascii.eqb c QM); [exists (c :: w); reflexivity|]. exists y. cbn [app]. rewrite <- IH. reflexivity.
Qed.

Lemma contains_before : forall p w, containsb p (before_quote w) = true -> containsb p w = true.
Proof.
  intros p w H. destruct (before_quote_prefix w) as [y E]. rewrite E. apply contains_app. exact H.
Qed.

Lemma bind_skips : forall m st l n f r, skips m st r -> l = lexS m st -> S (size st) <= n ->
    (forall w cu st', at_ cu w st' -> size st' < size st ->
        yields (lexS Normal (w :: fst st', snd st')) (S (size st')) (f w cu)) ->
    yields l n (obind r (fun x => f (fst x) (snd x))).
Proof.
  intros m st l n f r HS -> HN HF. destruct r as [[w cu]|[]|]; cbn [obind fst snd]; try exact HS.
  destruct HS as (st' & S1 & S2 & S3). rewrite S3. eapply yields_weaken; [|apply HF; assumption]. lia.
Qed.

Lemma valid_spec : forall fuel w cu st, at_ cu w st -> size st < fuel ->
    yields (lexS Normal (w :: fst st, snd st)) (S (size st)) (validToken str fuel w cu).
Proof.
  induction fuel as [|f IH]; intros w cu st H Hs; [lia|]. cbn [validToken].
  assert (NE : w <> []) by (eapply at_nonempty; exact H).
  destruct (beqb w emptyToken) eqn:B; [apply beqb_eq in B; contradiction|]. clear B.
  rewrite lexS_cons. cbn [wstep]. rewrite <- surjective_pairing.
  rewrite contains_quote. unfold kind_of.
  assert (C : forall l, hasb "/*" w = true -> l = lexS (if hasb "*/" w then Normal else Comment) st ->
      yields l (S (size st)) (obind (skipMultilineComment str cu) (fun r => validToken str f (fst r) (snd r)))).
  { intros l HC ->. eapply bind_skips; [eapply multi_spec; eassumption|reflexivity|lia|].
    intros w' cu' st' A S. apply IH; [exact A|lia]. }
  assert (R : forall l, hasb "//" w = true -> l = lexS Rest st ->
      yields l (S (size st)) (obind (skipLineComment str cu) (fun r => validToken str f (fst r) (snd r)))).
  { intros l HC ->. eapply bind_skips; [eapply line_spec; eassumption|reflexivity|lia|].
    intros w' cu' st' A S. apply IH; [exact A|lia]. }
  destruct (0 <? quotes w) eqn:Q.
  - apply Nat.ltb_lt in Q.
    unfold beginMultilineCommentToken, beginLineCommentToken.
    change (b "/*") with ["/"%char; "*"%char]. change (b "//") with ["/"%char; "/"%char].
    rewrite !before_index by (try discriminate; exact Q).
    change ["/"%char; "*"%char] with (b "/*"). change ["/"%char; "/"%char] with (b "//").
    fold (hasb "/*" (before_quote w)) (hasb "//" (before_quote w)).
    destruct (hasb "/*" (before_quote w)) eqn:E1; [apply C; [apply contains_before; exact E1|reflexivity]|].
    destruct (hasb "//" (before_quote w)) eqn:E2; [apply R; [apply contains_before; exact E2|reflexivity]|].
    unfold getTextInQuotationMarks. rewrite (at_word _ _ _ H). cbn [obind]. rewrite count_quotes.
    assert ((quotes w =? 0) = false) as -> by (apply Nat.eqb_neq; lia).
    destruct (Nat.even (quotes w)); cbn [negb fst snd app].
    + split; [exact NE|]. exists w, st. split; [exact H|]. split; [lia|reflexivity].
    + pose proof (size_words _ _ _ H). eapply quoteLoop_spec; [exact H|lia].
  - unfold beginMultilineCommentToken, beginLineCommentToken, slashToken, endMultilineCommentToken.
    fold (hasb "//" w) (hasb "/*" w) (hasb "/" w) (hasb "*/" w).
    destruct (hasb "//" w) eqn:E1; [apply R; reflexivity|].
    destruct (hasb "/*" w) eqn:E2; [apply C; reflexivity|].
    destruct (hasb "/" w && negb (hasb "*/" w)).
    + destruct (hasb "/begin" w || hasb "/end" w) eqn:E3; cbn [fst snd app].
      * eapply two_spec; eassumption.
      * unfold getTwoWordedToken. rewrite (at_word _ _ _ H). cbn [obind]. fold (hasb "/begin" w) (hasb "/end" w).
        rewrite E3. cbn [yields]. destruct st. apply lexS_dead.
    + cbn [fst snd app yields]. split; [exact NE|]. exists w, st. split; [exact H|]. split; [lia|reflexivity].
Qed.

Lemma tokenLoop_spec : forall fuel cu w st tl, at_ cu w st -> size st < fuel ->
    tokenLoop str fuel cu false tl = Ok (tl ++ lexS Normal st).
Proof.
  induction fuel as [|f IH]; intros cu w st tl H Hs; [lia|]. cbn [tokenLoop].
  assert (Y : yields (lexS Normal st) (size st) (buildNextValidToken str cu false)).
  { unfold buildNextValidToken. cbn [negb].
    destruct (pull_spec cu w st H) as [(w' & cu' & st' & P & M & A & S & L)|[-> M]]; rewrite M; cbn [obind fst snd].
    - rewrite (L Normal eq_refl). pose proof (size_words _ _ _ A).
      eapply yields_weaken; [|apply valid_spec; [exact A|lia]]. lia.
    - reflexivity. }
  destruct (buildNextValidToken str cu false) as [[t cu']|[]|]; cbn [yields] in Y;
    try (rewrite Y, app_nil_r; reflexivity); try contradiction.
  destruct Y as (NE & w' & st' & A & S & ->).
  destruct (beqb t emptyToken) eqn:B; [apply beqb_eq in B; contradiction|]. cbn [negb].
  rewrite andb_negb_r. rewrite (IH cu' w' st' _ A) by lia. rewrite <- app_assoc. reflexivity.
Qed.

Theorem buildTokenList_lex : buildTokenList str = Ok (lex str).
Proof.
  unfold buildTokenList. destruct (Nat.eq_dec (List.length str) 0) as [Z|N].
  - destruct str; [reflexivity|discriminate].
  - cbn [tokenLoop]. unfold buildNextValidToken. cbn [negb fst snd].
    destruct (nth_error str 0) as [line|] eqn:E; [|apply nth_error_None in E; lia].
    destruct (line_ok _ _ E) as [NE _]. destruct (nth_error line 0) as [w|] eqn:F.
    2:{ destruct line; [contradiction|discriminate]. }
    assert (A : at_ (0, 0) w (skipn 1 line, skipn 1 str)) by (exists line; cbn [fst snd]; auto).
    pose proof (size_words _ _ _ A) as SW.
    pose proof (valid_spec (S (words str)) w (0, 0) _ A ltac:(lia)) as Y. cbn [fst snd] in Y.
    assert (L : lex str = lexS Normal (w :: skipn 1 line, skipn 1 str)).
    { destruct line as [|w0 line]; [discriminate|]. injection F as <-. cbn [skipn].
      unfold lex. destruct str as [|l ls]; [discriminate|]. injection E as ->.
      unfold lexS. cbn [lex_lines fst snd skipn]. destruct (lex_words Normal (w0 :: line)) as [m1 t1]. cbn [fst snd].
      destruct (lex_lines (eol m1) ls). reflexivity. }
    rewrite L.
    destruct (validToken str (S (words str)) w (0, 0)) as [[t cu']|[]|]; cbn [yields] in Y;
      try (rewrite Y; reflexivity); try contradiction.
    destruct Y as (NT & w' & st' & A' & S & ->).
    destruct (beqb t emptyToken) eqn:B; [apply beqb_eq in B; contradiction|]. cbn [negb].
    rewrite andb_negb_r. cbn [app]. rewrite (tokenLoop_spec _ cu' w' st' _ A') by lia. reflexivity.
Qed.
End Str.
