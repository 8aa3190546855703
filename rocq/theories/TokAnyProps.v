(** Property C85: the tokens of any text. *)
From Coq Require Import String Ascii List Arith NArith Bool Lia.
From Verif Require Import GoBase GoStrings HexSpec HexSpecFacts HexParts A2lTextModel TokModel TokSpec TokThm TokWords TokAnySpec.
From Verif Require A2lTextProps A2lFileModel TokProps.
Import ListNotations.

(** ** Words *)
Lemma before_is : forall w, before w (before_quote w).
Proof.
  induction w as [|c w (N & E)]; [split; [intros []|left; reflexivity]|]. cbn [before_quote]. destruct (Ascii.eqb_spec c QM) as [->|NE].
  - split; [intros []|]. right. exists w. reflexivity.
  - split; [intros [K|K]; [congruence|exact (N K)]|]. destruct E as [E|(y & E)]; [left; congruence|right]. exists y. cbn [app]. congruence.
Qed.
Lemma before_one : forall w x, before w x -> x = before_quote w.
Proof.
  intros w x (N & [->|(y & ->)]).
  - induction x as [|c x IH]; [reflexivity|]. cbn [before_quote]. destruct (Ascii.eqb_spec c QM) as [->|NE]; [destruct N; left; reflexivity|].
    f_equal. apply IH. intros K. apply N. right. exact K.
  - induction x as [|c x IH]; cbn [app before_quote]; [rewrite Ascii.eqb_refl; reflexivity|]. destruct (Ascii.eqb_spec c QM) as [->|NE]; [destruct N; left; reflexivity|].
    f_equal. apply IH. intros K. apply N. right. exact K.
Qed.
Lemma opens_iff : forall p w, hasb p (before_quote w) = true <-> opens p w.
Proof.
  intros p w. rewrite has_iff. split; [intros H; exists (before_quote w); split; [apply before_is|exact H]|].
  intros (x & B & H). rewrite <- (before_one _ _ B). exact H.
Qed.
Lemma before_no : forall w, ~ In QM w -> before_quote w = w.
Proof. intros w N. symmetry. apply before_one. split; [exact N|left; reflexivity]. Qed.
Lemma quotes_pos : forall w, (0 <? quotes w) = true <-> In QM w.
Proof. intros w. rewrite Nat.ltb_lt. unfold quotes. symmetry. apply count_occ_In. Qed.
Lemma quotes_no : forall w, (0 <? quotes w) = false <-> ~ In QM w.
Proof. intros w. rewrite <- quotes_pos. destruct (0 <? quotes w); split; congruence. Qed.
Lemma hasb_no : forall p w, hasb p w = false <-> ~ has p w.
Proof. intros p w. rewrite <- has_iff. destruct (hasb p w); split; congruence. Qed.
Lemma opens_no : forall p w, hasb p (before_quote w) = false <-> ~ opens p w.
Proof. intros p w. rewrite <- opens_iff. destruct (hasb p (before_quote w)); split; congruence. Qed.
Lemma slash_has : forall w, hasb "/" w = true <-> In "/"%char w.
Proof.
  intros w. rewrite has_iff. split.
  - intros (x & y & ->). apply in_or_app. right. left. reflexivity.
  - intros H. apply in_split in H. destruct H as (x & y & ->). exists x, y. reflexivity.
Qed.
Lemma slash_no : forall w, hasb "/" w = false <-> ~ In "/"%char w.
Proof. intros w. rewrite <- slash_has. destruct (hasb "/" w); split; congruence. Qed.

Definition of_kind (k : kind) (w : bytes) : Prop :=
  match k with
  | KPlain => ordinary w | KQuote => text_word w | KComment => comment_word w
  | KLine => line_word w | KPair => pair_word w | KStray => stray_word w
  end.

(** Every word is of exactly one kind. *)
Lemma kind_is : forall w, of_kind (kind_of w) w.
Proof.
  intros w. unfold kind_of. destruct (0 <? quotes w) eqn:Q.
  - apply quotes_pos in Q. destruct (hasb "/*" (before_quote w)) eqn:C.
    + apply opens_iff in C. split; auto.
    + apply opens_no in C. destruct (hasb "//" (before_quote w)) eqn:L.
      * apply opens_iff in L. split; auto.
      * apply opens_no in L. repeat split; auto.
  - apply quotes_no in Q. pose proof (before_no w Q) as B. destruct (hasb "//" w) eqn:L.
    + split; [apply opens_iff; rewrite B; exact L|auto].
    + destruct (hasb "/*" w) eqn:C; [split; [apply opens_iff; rewrite B; exact C|right; apply hasb_no; exact L]|].
      apply hasb_no in L. apply hasb_no in C. destruct (hasb "/" w) eqn:S1; [destruct (hasb "*/" w) eqn:E|]; cbn [andb negb].
      * repeat split; auto. right. apply has_iff. exact E.
      * apply slash_has in S1. apply hasb_no in E. destruct (hasb "/begin" w) eqn:B1; cbn [orb].
        -- repeat split; auto. left. apply has_iff. exact B1.
        -- destruct (hasb "/end" w) eqn:B2.
           ++ repeat split; auto. right. apply has_iff. exact B2.
           ++ repeat split; auto; apply hasb_no; assumption.
      * apply slash_no in S1. repeat split; auto.
Qed.
Lemma kind_one : forall w k k', of_kind k w -> of_kind k' w -> k = k'.
Proof.
  assert (O : forall p w, opens p w -> has p w).
  { intros p w (x & (_ & [->|(y & ->)]) & (u & v & ->)); [exists u, v; reflexivity|]. exists u, (v ++ QM :: y). rewrite <- !app_assoc. reflexivity. }
  intros w k k' H H'.
  destruct k; destruct k'; try reflexivity; exfalso; cbn in H, H';
    unfold ordinary, text_word, comment_word, line_word, pair_word, stray_word, slashed, simple in *;
    repeat match goal with H : _ /\ _ |- _ => destruct H | H : opens ?p ?w |- _ => pose proof (O p w H); revert H end; intros; tauto.
Qed.
Lemma kind_iff : forall w k, of_kind k w -> kind_of w = k.
Proof. intros w k H. eapply kind_one; [apply kind_is|exact H]. Qed.

(** ** Streams *)
Fixpoint lexs (m : mode) (s : list sym) : list bytes :=
  match s with
  | [] => []
  | Eol :: s' => lexs (eol m) s'
  | W w :: s' => snd (wstep m w) ++ lexs (fst (wstep m w)) s'
  end.
Lemma lexs_words : forall ws m s, lexs m (map W ws ++ s) = snd (lex_words m ws) ++ lexs (fst (lex_words m ws)) s.
Proof.
  induction ws as [|w ws IH]; intros m s; [reflexivity|]. cbn [map app lexs lex_words]. rewrite IH.
  destruct (wstep m w) as [m1 t1]. cbn [fst snd]. destruct (lex_words m1 ws) as [m2 t2]. cbn [fst snd]. rewrite app_assoc. reflexivity.
Qed.
Lemma lexs_lines : forall ls m, lexs m (stream ls) = snd (lex_lines m ls).
Proof.
  induction ls as [|l ls IH]; intros m; [reflexivity|]. cbn [stream flat_map lex_lines]. rewrite <- app_assoc, lexs_words. cbn [app lexs].
  change (flat_map (fun ws => map W ws ++ [Eol]) ls) with (stream ls). rewrite IH.
  destruct (lex_words m l) as [m1 t1]. cbn [fst snd]. destruct (lex_lines (eol m1) ls). reflexivity.
Qed.
Lemma lexs_dead : forall s, lexs Dead s = [].
Proof. induction s as [|[w|] s IH]; [reflexivity| |]; cbn; exact IH. Qed.
Lemma lexs_rest : forall ws s, lexs Rest (map W ws ++ Eol :: s) = lexs Normal s.
Proof. induction ws as [|w ws IH]; intros s; [reflexivity|]. cbn [map app lexs wstep fst snd]. apply IH. Qed.
Lemma lexs_pair : forall g v w s, words_in g = [] -> lexs (Pair w) (g ++ W v :: s) = (w ++ b " " ++ v) :: lexs Normal s.
Proof. induction g as [|[x|] g IH]; intros v w s E; [reflexivity|discriminate|]. cbn [app lexs eol]. apply IH. exact E. Qed.
Lemma lexs_pair_open : forall s w, words_in s = [] -> lexs (Pair w) s = [].
Proof. induction s as [|[x|] s IH]; intros w E; [reflexivity|discriminate|]. cbn [lexs eol]. apply IH. exact E. Qed.
Lemma lexs_comment : forall g z s, Forall (fun x => ~ has "*/" x) (words_in g) -> has "*/" z -> lexs Comment (g ++ W z :: s) = lexs Normal s.
Proof.
  induction g as [|[x|] g IH]; intros z s F Z; cbn [app lexs wstep eol fst snd].
  - rewrite has_true by exact Z. reflexivity.
  - inversion F as [|? ? X F']; subst. rewrite has_false by exact X. cbn [app]. apply IH; assumption.
  - apply IH; assumption.
Qed.
Lemma lexs_comment_open : forall s, Forall (fun x => ~ has "*/" x) (words_in s) -> lexs Comment s = [].
Proof.
  induction s as [|[x|] s IH]; intros F; cbn [lexs wstep eol fst snd]; [reflexivity| |apply IH; exact F].
  inversion F as [|? ? X F']; subst. rewrite has_false by exact X. apply IH. exact F'.
Qed.
Lemma quotes_app : forall x y, quotes (x ++ y) = quotes x + quotes y.
Proof. intros x y. unfold quotes. apply count_occ_app. Qed.
Lemma quotes_unwords : forall ws, quotes (unwords ws) = quotes (concat ws).
Proof.
  intros ws. rewrite unwords_quotes. induction ws as [|w ws IH]; [reflexivity|]. cbn [concat]. rewrite quotes_app, <- IH. reflexivity.
Qed.
(** In a text: [acc] has been read. *)
Lemma lexs_text : forall g acc s, acc <> [] -> up_to_word g ->
    (forall k, List.length acc < k <= List.length (acc ++ words_in g) -> (paired (acc ++ words_in g) k <-> k = List.length (acc ++ words_in g))) ->
    lexs (Quote (unwords acc)) (g ++ s) = unwords (acc ++ words_in g) :: lexs Normal s.
Proof.
  induction g as [|[x|] g IH]; intros acc s NE UP P.
  - destruct UP as ([|? ?] & z & K); discriminate.
  - cbn [app lexs wstep words_in]. rewrite <- unwords_snoc by exact NE.
    assert (PK : paired (acc ++ words_in (W x :: g)) (S (List.length acc)) <-> words_in g = []).
    { rewrite (P (S (List.length acc))) by (rewrite app_length; cbn; lia). rewrite app_length. cbn. destruct (words_in g); cbn; split; intros; try discriminate; try lia; reflexivity. }
    cbn [words_in] in *. unfold paired in PK. replace (firstn (S (List.length acc)) (acc ++ x :: words_in g)) with (acc ++ [x]) in PK.
    2: { change (x :: words_in g) with ([x] ++ words_in g). rewrite app_assoc. replace (S (List.length acc)) with (List.length (acc ++ [x])) by (rewrite app_length; cbn; lia).
         rewrite firstn_app, Nat.sub_diag, firstn_O, app_nil_r, firstn_all. reflexivity. }
    rewrite <- quotes_unwords in PK. destruct (Nat.even (quotes (unwords (acc ++ [x])))) eqn:EV.
    + cbn [fst snd app]. apply Nat.even_spec in EV. apply PK in EV. rewrite EV. f_equal.
      clear - EV. induction g as [|[y|] g IH]; cbn in *; [reflexivity|discriminate|apply IH; exact EV].
    + cbn [fst snd app]. assert (NG : words_in g <> []) by (intros K; apply PK in K; apply Nat.even_spec in K; congruence).
      rewrite IH.
      * rewrite <- app_assoc. reflexivity.
      * destruct acc; discriminate.
      * destruct UP as ([|? g'] & z & E); [injection E as _ ->; destruct NG; reflexivity|]. injection E as _ ->. exists g', z. reflexivity.
      * rewrite <- app_assoc. cbn [app]. intros k K. apply P. rewrite app_length in K. cbn in K. lia.
  - cbn [app lexs eol words_in]. apply IH; auto. destruct UP as ([|? g'] & z & E); [discriminate|]. injection E as _ ->. exists g', z. reflexivity.
Qed.
Lemma lexs_text_open : forall s acc, acc <> [] ->
    (forall k, List.length acc < k <= List.length (acc ++ words_in s) -> ~ paired (acc ++ words_in s) k) -> lexs (Quote (unwords acc)) s = [].
Proof.
  induction s as [|[x|] s IH]; intros acc NE P; [reflexivity| |cbn [lexs eol]; apply IH; assumption].
  cbn [lexs wstep]. rewrite <- unwords_snoc by exact NE. cbn [words_in] in P.
  assert (PK : ~ Nat.Even (quotes (unwords (acc ++ [x])))).
  { intros EV. apply (P (S (List.length acc))); [rewrite app_length; cbn; lia|]. unfold paired.
    change (x :: words_in s) with ([x] ++ words_in s). rewrite app_assoc. replace (S (List.length acc)) with (List.length (acc ++ [x])) by (rewrite app_length; cbn; lia).
    rewrite firstn_app, Nat.sub_diag, firstn_O, app_nil_r, firstn_all, <- quotes_unwords. exact EV. }
  destruct (Nat.even (quotes (unwords (acc ++ [x])))) eqn:EV; [apply Nat.even_spec in EV; destruct (PK EV)|]. cbn [fst snd app]. apply IH.
  - destruct acc; discriminate.
  - rewrite <- app_assoc. cbn [app]. intros k K. apply P. rewrite app_length in K. cbn in K. lia.
Qed.

Lemma says_lex : forall s ts, says s ts -> lexs Normal s = ts.
Proof.
  induction 1 as [|s ts _ IH|w s ts O _ IH|w s ts T E _ IH|w g s ts T U P _ IH|w s T P|w s ts C Z _ IH|w g z s ts C NZ F Z _ IH|w s C F|w ws s ts L _ IH|w g v s ts P G _ IH|w s P G|w s S1];
    cbn [lexs wstep].
  - reflexivity.
  - exact IH.
  - rewrite (kind_iff w KPlain O). cbn. rewrite IH. reflexivity.
  - rewrite (kind_iff w KQuote T). apply Nat.even_spec in E. rewrite E. cbn. rewrite IH. reflexivity.
  - rewrite (kind_iff w KQuote T). assert (NE : words_in g <> []).
    { destruct U as (g' & z & ->). clear. induction g' as [|[x|] g' IH]; cbn; [discriminate|discriminate|exact IH]. }
    assert (OD : Nat.even (quotes w) = false).
    { destruct (Nat.even (quotes w)) eqn:EV; [|reflexivity]. exfalso. apply Nat.even_spec in EV. destruct (P 1) as [K _]; [cbn; lia|].
      assert (PA : paired (w :: words_in g) 1) by (unfold paired; cbn [firstn concat]; rewrite app_nil_r; exact EV).
      specialize (K PA). destruct (words_in g); [congruence|discriminate]. }
    rewrite OD. cbn [fst snd app]. change (Quote w) with (Quote (unwords [w])). rewrite (lexs_text g [w] s); [rewrite IH; reflexivity|discriminate|exact U|].
    cbn [app]. intros k K. apply P. cbn in K. cbn. lia.
  - rewrite (kind_iff w KQuote T).
    assert (OD : Nat.even (quotes w) = false).
    { destruct (Nat.even (quotes w)) eqn:EV; [|reflexivity]. exfalso. apply Nat.even_spec in EV. apply (P 1); [cbn; lia|].
      unfold paired. cbn [firstn concat]. rewrite app_nil_r. exact EV. }
    rewrite OD. cbn [fst snd app]. change (Quote w) with (Quote (unwords [w])). apply (lexs_text_open s [w]); [discriminate|].
    cbn [app]. intros k K. apply P. cbn in K. cbn. lia.
  - rewrite (kind_iff w KComment C), has_true by exact Z. exact IH.
  - rewrite (kind_iff w KComment C), has_false by exact NZ. cbn [fst snd app]. rewrite lexs_comment by assumption. exact IH.
  - inversion F as [|? ? NZ F']; subst. rewrite (kind_iff w KComment C), has_false by exact NZ. cbn [fst snd app]. apply lexs_comment_open. exact F'.
  - rewrite (kind_iff w KLine L). cbn [fst snd app]. rewrite lexs_rest. exact IH.
  - rewrite (kind_iff w KPair P). cbn [fst snd app]. rewrite lexs_pair by exact G. rewrite IH. reflexivity.
  - rewrite (kind_iff w KPair P). cbn [fst snd app]. apply lexs_pair_open. exact G.
  - rewrite (kind_iff w KStray S1). cbn [fst snd app]. apply lexs_dead.
Qed.

(** ** Every sequence can be read *)
Definition ended (s : list sym) : Prop := s = [] \/ exists s', s = s' ++ [Eol].
Lemma ended_tail : forall x s, ended (x :: s) -> ended s.
Proof. intros x s [K|([|y s'] & E)]; [discriminate|injection E as -> ->; left; reflexivity|]. injection E as -> ->. right. exists s'. reflexivity. Qed.
Lemma ended_app : forall g s, ended (g ++ s) -> ended s.
Proof. induction g as [|x g IH]; intros s H; [exact H|]. apply IH. eapply ended_tail. exact H. Qed.
Lemma words_app : forall g s, words_in (g ++ s) = words_in g ++ words_in s.
Proof. induction g as [|[x|] g IH]; intros s; cbn; [reflexivity|f_equal; apply IH|apply IH]. Qed.
Lemma has_dec : forall p w, {has p w} + {~ has p w}.
Proof. intros p w. destruct (hasb p w) eqn:E; [left; apply has_iff; exact E|right; apply hasb_no; exact E]. Qed.

Lemma find_word : forall (P : bytes -> Prop) (dec : forall w, {P w} + {~ P w}) s,
    (exists g z s', s = g ++ W z :: s' /\ Forall (fun x => ~ P x) (words_in g) /\ P z) \/ Forall (fun x => ~ P x) (words_in s).
Proof.
  intros P dec. induction s as [|[x|] s [(g & z & s' & -> & F & Z)|F]]; [right; constructor| | | |].
  - destruct (dec x) as [X|X]; [left; exists [], x, (g ++ W z :: s'); repeat split; [constructor|exact X]|].
    left. exists (W x :: g), z, s'. repeat split; [constructor; assumption|exact Z].
  - destruct (dec x) as [X|X]; [left; exists [], x, s; repeat split; [constructor|exact X]|right; constructor; assumption].
  - left. exists (Eol :: g), z, s'. repeat split; assumption.
  - right. exact F.
Qed.
Lemma find_close : forall s acc, (forall k, 0 < k <= List.length acc -> ~ paired acc k) ->
    (exists g s', s = g ++ s' /\ up_to_word g /\
       forall k, 0 < k <= List.length (acc ++ words_in g) -> (paired (acc ++ words_in g) k <-> k = List.length (acc ++ words_in g)))
    \/ (forall k, 0 < k <= List.length (acc ++ words_in s) -> ~ paired (acc ++ words_in s) k).
Proof.
  assert (FS : forall (l : list bytes) x k, k <= List.length l -> firstn k (l ++ x) = firstn k l).
  { intros l x k K. rewrite firstn_app. replace (k - List.length l) with 0 by lia. rewrite firstn_O, app_nil_r. reflexivity. }
  induction s as [|[x|] s IH]; intros acc N.
  - right. cbn [words_in]. rewrite app_nil_r. exact N.
  - destruct (Nat.even (quotes (concat (acc ++ [x])))) eqn:EV.
    + left. exists [W x], s. split; [reflexivity|]. split; [exists [], x; reflexivity|]. cbn [words_in]. intros k K. split.
      * intros PK. destruct (Nat.eq_dec k (List.length (acc ++ [x]))) as [E|NE]; [exact E|exfalso].
        rewrite app_length in *. cbn in K, NE. apply (N k); [lia|]. unfold paired in *. rewrite FS in PK by lia. exact PK.
      * intros ->. unfold paired. rewrite firstn_all. apply Nat.even_spec. exact EV.
    + destruct (IH (acc ++ [x])) as [(g & s' & -> & (g' & z & ->) & P)|P].
      * intros k K PK. rewrite app_length in K. cbn in K. destruct (Nat.eq_dec k (S (List.length acc))) as [->|NE].
        -- unfold paired in PK. replace (S (List.length acc)) with (List.length (acc ++ [x])) in PK by (rewrite app_length; cbn; lia).
           rewrite firstn_all in PK. apply Nat.even_spec in PK. congruence.
        -- apply (N k); [lia|]. unfold paired in *. rewrite FS in PK by lia. exact PK.
      * left. exists (W x :: g' ++ [W z]), s'. split; [reflexivity|]. split; [exists (W x :: g'), z; reflexivity|].
        cbn [words_in]. rewrite <- app_assoc in P. exact P.
      * right. cbn [words_in]. rewrite <- app_assoc in P. exact P.
  - destruct (IH acc N) as [(g & s' & -> & (g' & z & ->) & P)|P]; [left|right; exact P].
    exists (Eol :: g' ++ [W z]), s'. split; [reflexivity|]. split; [exists (Eol :: g'), z; reflexivity|exact P].
Qed.

Lemma says_total : forall n s, List.length s <= n -> ended s -> exists ts, says s ts.
Proof.
  induction n as [|n IH]; intros s L EN.
  - destruct s; [exists []; constructor|cbn in L; lia].
  - destruct s as [|[w|] s]; [exists []; constructor| |].
    2: { destruct (IH s) as (ts & H); [cbn in L; lia|eapply ended_tail; exact EN|]. exists ts. constructor. exact H. }
    assert (SUF : forall g s', s = g ++ s' -> exists ts, says s' ts).
    { intros g s' ->. apply IH; [cbn in L; rewrite app_length in L; lia|]. apply (ended_app (W w :: g)). exact EN. }
    pose proof (kind_is w) as K. destruct (kind_of w); cbn in K.
    + destruct (SUF [] s eq_refl) as (ts & H). eexists. apply s_word; eassumption.
    + destruct (Nat.even (quotes w)) eqn:EV.
      * apply Nat.even_spec in EV. destruct (SUF [] s eq_refl) as (ts & H). eexists. apply s_text1; eassumption.
      * destruct (find_close s [w]) as [(g & s' & -> & U & P)|P].
        -- intros k KK PK. replace k with 1 in PK by (cbn in KK; lia). unfold paired in PK. cbn [firstn concat] in PK. rewrite app_nil_r in PK. apply Nat.even_spec in PK. congruence.
        -- destruct (SUF g s' eq_refl) as (ts & H). eexists. apply s_text; eassumption.
        -- eexists. apply s_text_open; eassumption.
    + destruct (has_dec "*/" w) as [Z|Z]; [destruct (SUF [] s eq_refl) as (ts & H); eexists; apply s_comment1; eassumption|].
      destruct (find_word (has "*/") (has_dec "*/") s) as [(g & z & s' & -> & F & HZ)|F].
      * destruct (SUF (g ++ [W z]) s') as (ts & H); [rewrite <- app_assoc; reflexivity|]. eexists. apply s_comment; eassumption.
      * eexists. apply s_comment_open; [exact K|]. constructor; assumption.
    + assert (X : exists ws s', s = map W ws ++ Eol :: s').
      { destruct EN as [E|([|y s0] & E)]; [discriminate|discriminate|]. injection E as _ ->. clear. induction s0 as [|[x|] s0 (ws & s' & E)].
        - exists [], []. reflexivity.
        - exists (x :: ws), s'. cbn. rewrite E. reflexivity.
        - exists [], (s0 ++ [Eol]). reflexivity. }
      destruct X as (ws & s' & ->). destruct (SUF (map W ws ++ [Eol]) s') as (ts & H); [rewrite <- app_assoc; reflexivity|]. eexists. apply s_line; eassumption.
    + destruct (find_word (fun _ => True) (fun _ => left I) s) as [(g & z & s' & -> & F & _)|F].
      * destruct (SUF (g ++ [W z]) s') as (ts & H); [rewrite <- app_assoc; reflexivity|]. eexists. apply s_pair; [exact K| |exact H].
        destruct (words_in g) as [|x l]; [reflexivity|]. inversion F as [|? ? X _]; subst. destruct (X I).
      * eexists. apply s_pair_open; [exact K|]. destruct (words_in s) as [|x l]; [reflexivity|]. inversion F as [|? ? X _]; subst. destruct (X I).
    + eexists. apply s_stray. exact K.
Qed.
Lemma stream_ended : forall ls, ended (stream ls).
Proof.
  induction ls as [|l ls IH]; [left; reflexivity|]. right. cbn [stream flat_map]. destruct IH as [E|(s' & E)].
  - change (flat_map (fun ws => map W ws ++ [Eol]) ls) with (stream ls). rewrite E, app_nil_r. eauto.
  - change (flat_map (fun ws => map W ws ++ [Eol]) ls) with (stream ls). rewrite E, app_assoc. eauto.
Qed.
Lemma says_iff : forall ls ts, says (stream ls) ts <-> lex ls = ts.
Proof.
  intros ls ts. unfold lex. rewrite <- lexs_lines. split; [apply says_lex|]. intros <-.
  destruct (says_total _ (stream ls) (le_n _) (stream_ended ls)) as (ts & H). rewrite (says_lex _ _ H). exact H.
Qed.

(** ** C85 *)

(** The words of any lines are read in exactly one way. *)
Theorem C85_one_reading : forall lines, exists ts, says (stream lines) ts /\ forall ts', says (stream lines) ts' -> ts' = ts.
Proof. intros lines. exists (lex lines). split; [apply says_iff; reflexivity|]. intros ts' H. symmetry. apply says_iff. exact H. Qed.
Print Assumptions C85_one_reading.

(** [read np text tss]: the lines of the text are divided among [np] goroutines, each of
    which reads the words of its lines by itself. *)
Definition read (np : nat) (text : bytes) (tss : list (list bytes)) : Prop :=
  exists lines, text = join [LF] lines /\ lines <> [] /\ Forall (fun l => ~ In LF l) lines
    /\ Forall2 (fun k ts => exists words, Forall2 separated (part np lines k) words /\ says (stream words) ts) (seq 0 np) tss.
(** What the parser gets: the tokens, an empty one at the end, and whether there is at most
    one module (the counter has 32 bits). *)
Definition delivered (tss : list (list bytes)) (r : option tokens) : Prop :=
  exists mt, r = Some (Tokens (concat tss ++ [[]]) mt)
    /\ (mt = true <-> N.of_nat (count_occ (list_eq_dec ascii_dec) (concat tss) (b "/begin MODULE")) mod 2 ^ 32 <= 1)%N.

Lemma separated_map : forall ls words, Forall2 separated ls words <-> words = map fields ls.
Proof.
  intros ls words. split.
  - induction 1 as [|l ws ls words H _ IH]; [reflexivity|]. cbn. f_equal; [symmetry; apply C42_white_space; exact H|exact IH].
  - intros ->. induction ls as [|l ls IH]; constructor; [apply C42_white_space; reflexivity|exact IH].
Qed.
Lemma lines_exist : forall text, exists lines, text = join [LF] lines /\ lines <> [] /\ Forall (fun l => ~ In LF l) lines.
Proof.
  induction text as [|c text (lines & E & N & F)]; [exists [[]]; repeat split; [discriminate|constructor; [intros []|constructor]]|].
  destruct lines as [|l lines]; [contradiction|]. inversion F as [|? ? F1 F2]; subst. destruct (ascii_dec c LF) as [->|NC].
  - exists ([] :: l :: lines). split; [reflexivity|]. split; [discriminate|]. constructor; [intros []|exact F].
  - exists ((c :: l) :: lines). split; [destruct lines; reflexivity|]. split; [discriminate|]. constructor; [|exact F2]. intros [K|K]; [congruence|exact (F1 K)].
Qed.
Lemma read_iff : forall np text tss, read np text tss <-> tss = tokens_of np (split [LF] text).
Proof.
  assert (T : forall np lines tss, Forall2 (fun k ts => exists words, Forall2 separated (part np lines k) words /\ says (stream words) ts) (seq 0 np) tss
    <-> tss = tokens_of np lines).
  { intros np lines tss. unfold tokens_of, chunks. rewrite map_map.
    assert (G : forall ks, (forall k, In k ks -> k < np) -> forall tss, Forall2 (fun k ts => exists words, Forall2 separated (part np lines k) words /\ says (stream words) ts) ks tss
      <-> tss = map (fun k => chunk_lex (chunk np lines k)) ks).
    { clear tss. induction ks as [|k ks IH]; intros LT tss.
      - split; [intros H; inversion H; reflexivity|intros ->; constructor].
      - assert (HK : forall ts, (exists words, Forall2 separated (part np lines k) words /\ says (stream words) ts) <-> ts = chunk_lex (chunk np lines k)).
        { intros ts. rewrite <- part_chunk by (apply LT; left; reflexivity). unfold chunk_lex. split.
          - intros (words & S1 & S2). apply separated_map in S1. subst words. apply says_iff in S2. congruence.
          - intros ->. exists (map fields (part np lines k)). split; [apply separated_map; reflexivity|apply says_iff; reflexivity]. }
        split.
        + intros H. inversion H as [|? ts ? tss' H1 H2]; subst. cbn [map]. f_equal; [apply HK; exact H1|]. apply IH; [|exact H2]. intros j J. apply LT. right. exact J.
        + intros ->. cbn [map]. constructor; [apply HK; reflexivity|]. apply IH; [|reflexivity]. intros j J. apply LT. right. exact J. }
    apply G. intros k K. apply in_seq in K. lia. }
  intros np text tss. split.
  - intros (lines & -> & N & F & H). rewrite split_join by assumption. apply T. exact H.
  - intros ->. destruct (lines_exist text) as (lines & -> & N & F). rewrite split_join by assumption. exists lines. repeat split; try assumption. apply T. reflexivity.
Qed.
Lemma delivered_iff : forall tss r, delivered tss r <-> r = Some (result tss (concat tss)).
Proof.
  intros tss r. unfold delivered, result. rewrite TokProps.count_filter. change (b "/begin MODULE") with beginModuleToken. change emptyToken with (@nil ascii).
  set (n := N.of_nat _). unfold u32. change 4294967296%N with (2 ^ 32)%N. generalize (n mod 2 ^ 32)%N as k. intros k. split.
  - intros (mt & -> & M). do 2 f_equal. destruct (N.ltb_spec 1 k) as [L|L]; cbn [negb]; destruct mt; try reflexivity.
    + exfalso. destruct M as [M _]. specialize (M eq_refl). lia.
    + apply M. exact L.
  - intros ->. eexists. split; [reflexivity|]. destruct (N.ltb_spec 1 k) as [L|L]; cbn [negb]; split; intros; try discriminate; try lia; reflexivity.
Qed.

(** Whatever the text is (but for escaped quotation marks, which no file has left when
    it gets here, C62_quotes_lost): the tokens are those of its lines, by parts. *)
Theorem C85_tokens : forall np text r, ~ (exists x y, text = x ++ BS :: QM :: y) ->
    (tok_exec np text r <-> exists tss, read np text tss /\ delivered tss r).
Proof.
  intros np text r NE. assert (TL : textLines text = split [LF] text).
  { unfold textLines. change (b (String (ascii_of_N 10) EmptyString)) with [LF]. f_equal. unfold replace_all.
    induction text as [|c s IH]; [reflexivity|]. cbn [replace_aux]. assert (P : prefixb [backslash; quote] (c :: s) = false).
    { cbn [prefixb]. destruct (Ascii.eqb backslash c) eqn:E; [|reflexivity]. apply Ascii.eqb_eq in E. subst c. destruct s as [|d s]; [reflexivity|].
      cbn [prefixb]. destruct (Ascii.eqb quote d) eqn:E; [|reflexivity]. apply Ascii.eqb_eq in E. subst d. destruct NE. exists [], s. reflexivity. }
    rewrite P. f_equal. apply IH. intros (x & y & ->). apply NE. exists (c :: x), y. reflexivity. }
  rewrite exec_lex, TL. split.
  - intros ->. exists (tokens_of np (split [LF] text)). split; [apply read_iff; reflexivity|apply delivered_iff; reflexivity].
  - intros (tss & R & D). apply read_iff in R. subst tss. apply delivered_iff in D. exact D.
Qed.
Print Assumptions C85_tokens.

(** The same for a file of any content. *)
Theorem C85_file : forall gr cpus content r, A2lTextProps.tableOk gr ->
    (A2lFileModel.fileTokens gr cpus content r <-> exists tss, read (cpus * 2) (cleanBytesString gr content) tss /\ delivered tss r).
Proof.
  intros gr cpus content r G. unfold A2lFileModel.fileTokens. rewrite exec_lex, (A2lTextProps.C62_quotes_lost gr content G).
  change (b (String (ascii_of_N 10) EmptyString)) with [LF]. split.
  - intros ->. eexists. split; [apply read_iff; reflexivity|apply delivered_iff; reflexivity].
  - intros (tss & R & D). apply read_iff in R. subst tss. apply delivered_iff in D. exact D.
Qed.
Print Assumptions C85_file.

(** A text that follows no rules: on one CPU (two goroutines) the first goroutine takes
    the beginning of a comment for the second word of a pair and stops at km/h; the
    second takes a quotation mark for the second word of a pair, and skips everything after a
    comment that is not closed. *)
Definition ex_any : bytes :=
  join [LF] [b "a*/b /beginning"; []; b "/* km/h km/h"; b "still */ x""y // /*z"; b "A /end"; b """B C"; b "D/* ""E"; b "F"].
Example C85_example : ~ (exists x y, ex_any = x ++ BS :: QM :: y)
  /\ read 2 ex_any [[b "a*/b"; b "/beginning /*"]; [b "A"; b "/end ""B"; b "C"]]
  /\ read 1 ex_any [[b "a*/b"; b "/beginning /*"]]
  /\ (forall r, tok_exec 2 ex_any r <-> r = Some (Tokens [b "a*/b"; b "/beginning /*"; b "A"; b "/end ""B"; b "C"; []] true)).
Proof.
  assert (N : ~ (exists x y, ex_any = x ++ BS :: QM :: y)).
  { intros (x & y & E). assert (K : In BS ex_any) by (rewrite E; apply in_or_app; right; left; reflexivity). revert K. apply TokProps.no_byte. vm_compute. reflexivity. }
  split; [exact N|]. split; [apply read_iff; vm_compute; reflexivity|]. split; [apply read_iff; vm_compute; reflexivity|].
  intros r. rewrite exec_lex. replace (Some _) with (Some (Tokens [b "a*/b"; b "/beginning /*"; b "A"; b "/end ""B"; b "C"; []] true)); [reflexivity|]. vm_compute. reflexivity.
Qed.
Print Assumptions C85_example.
