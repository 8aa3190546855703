From Coq Require Import String Ascii List Arith NArith Bool Lia.
From Verif Require Import GoBase GoBaseFacts GoStrings ConcModel ConcProofs HexSpec HexSpecFacts TokModel TokSpec TokProofs.
Import ListNotations.

(** ** Words of a line *)

Lemma space_width_app : forall x y, x <> [] -> space_width (x ++ b " " ++ y) = space_width x.
Proof.
  intros x y N. destruct x as [|c1 [|c2 [|c3 x]]]; [contradiction| | |reflexivity].
  - cbn [app b list_ascii_of_string space_width].
    destruct ((9 <=? N_of_ascii c1)%N && (N_of_ascii c1 <=? 13)%N || byte_is 32 c1); [reflexivity|].
    change (byte_is 0x85 " " || byte_is 0xA0 " ") with false. rewrite andb_false_r.
    destruct y as [|c3 y]; [reflexivity|].
    change (byte_is 0x9A " ") with false. change (byte_is 0x80 " ") with false. change (byte_is 0x81 " ") with false.
    rewrite !andb_false_r. reflexivity.
  - cbn [app b list_ascii_of_string space_width].
    destruct ((9 <=? N_of_ascii c1)%N && (N_of_ascii c1 <=? 13)%N || byte_is 32 c1); [reflexivity|].
    destruct (byte_is 0xC2 c1 && (byte_is 0x85 c2 || byte_is 0xA0 c2)); [reflexivity|].
    change (byte_is 0x80 " ") with false. change (byte_is 0x9F " ") with false.
    change (byte_is 0xA8 " ") with false. change (byte_is 0xA9 " ") with false. change (byte_is 0xAF " ") with false.
    change ((0x80 <=? N_of_ascii " ")%N) with false. cbn [andb orb]. rewrite !andb_false_r. reflexivity.
Qed.

Lemma space_width_prefix : forall x y k, space_width x = S k -> space_width (x ++ y) = S k.
Proof.
  intros x y k. destruct x as [|c1 [|c2 [|c3 x]]]; cbn [app space_width]; try discriminate.
  - destruct ((9 <=? N_of_ascii c1)%N && (N_of_ascii c1 <=? 13)%N || byte_is 32 c1); [|discriminate].
    destruct y as [|? [|? ?]]; auto.
  - destruct ((9 <=? N_of_ascii c1)%N && (N_of_ascii c1 <=? 13)%N || byte_is 32 c1); [auto|].
    destruct (byte_is 0xC2 c1 && (byte_is 0x85 c2 || byte_is 0xA0 c2)); [auto|discriminate].
  - auto.
Qed.

Lemma space_width_le : forall x, space_width x <= List.length x.
Proof.
  intros x. destruct x as [|c1 [|c2 [|c3 x]]]; cbn [space_width List.length];
    repeat match goal with |- context [if ?c then _ else _] => destruct c end; lia.
Qed.

Lemma emit_app : forall cur l l', emit cur l ++ l' = emit cur (l ++ l').
Proof. intros [|c cur] l l'; reflexivity. Qed.

Lemma fields_app : forall x k cur y, k <= List.length x ->
    fields_aux k cur (x ++ b " " ++ y) = fields_aux k cur x ++ fields y.
Proof.
  induction x as [|c x IH]; intros k cur y Hk.
  - cbn [List.length] in Hk. assert (k = 0) as -> by lia.
    change ([] ++ b " " ++ y) with (" "%char :: y).
    cbn [fields_aux]. rewrite emit_app. cbn [app].
    assert (W : space_width (" "%char :: y) = 1) by reflexivity. rewrite W. reflexivity.
  - cbn [app fields_aux]. destruct k as [|k].
    + pose proof (space_width_app (c :: x) y ltac:(discriminate)) as W. cbn [app] in W. rewrite W.
      pose proof (space_width_le (c :: x)) as L.
      destruct (space_width (c :: x)) as [|k]; [apply IH; lia|].
      rewrite emit_app. f_equal. apply IH. cbn [List.length] in L. lia.
    + apply IH. cbn [List.length] in Hk. lia.
Qed.

Lemma fields_blank_app : forall x y, fields (x ++ b " " ++ y) = fields x ++ fields y.
Proof. intros. apply fields_app. lia. Qed.

Lemma fields_aux_nonempty : forall s k cur, Forall (fun w => w <> []) (fields_aux k cur s).
Proof.
  assert (E : forall cur l, Forall (fun w : bytes => w <> []) l -> Forall (fun w => w <> []) (emit cur l)).
  { intros [|c cur] l H; [exact H|]. constructor; [|exact H]. cbn [rev]. intros K. apply app_eq_nil in K. destruct K; discriminate. }
  induction s as [|c s IH]; intros k cur; cbn [fields_aux]; [apply E; constructor|].
  destruct k as [|k]; [|apply IH]. destruct (space_width (c :: s)) as [|k]; [apply IH|apply E, IH].
Qed.

Lemma fields_cur : forall s k c cur, fields_aux k (c :: cur) s <> [].
Proof.
  induction s as [|d s IH]; intros k c cur; cbn [fields_aux]; [discriminate|].
  destruct k as [|k]; [|apply IH]. destruct (space_width (d :: s)); [apply IH|discriminate].
Qed.

Lemma blank_fields : forall s k, blank_aux k s = true <-> fields_aux k [] s = [].
Proof.
  induction s as [|c s IH]; intros k; cbn [blank_aux fields_aux]; [split; reflexivity|].
  destruct k as [|k]; [|apply IH]. destruct (space_width (c :: s)) as [|k]; [|apply IH].
  split; [discriminate|]. intros H. exfalso. eapply fields_cur. exact H.
Qed.

(** a word stays one word *)
Definition solid (w : bytes) : Prop := forall p q, w = p ++ q -> q <> [] -> space_width q = 0.

Lemma solid_fields : forall w cur, solid w -> fields_aux 0 cur w = emit (rev w ++ cur) [].
Proof.
  induction w as [|c w IH]; intros cur H; [reflexivity|]. cbn [fields_aux].
  rewrite (H [] (c :: w) eq_refl) by discriminate. rewrite IH.
  - cbn [rev]. rewrite <- app_assoc. reflexivity.
  - intros p q E N. apply (H (c :: p) q); [rewrite E; reflexivity|exact N].
Qed.

Lemma solid_one : forall w, solid w -> w <> [] -> fields w = [w].
Proof.
  intros w H N. unfold fields. rewrite solid_fields by exact H. rewrite app_nil_r. unfold emit.
  destruct (rev w) eqn:E; [exfalso; apply N; rewrite <- (rev_involutive w), E; reflexivity|].
  rewrite <- E, rev_involutive. reflexivity.
Qed.

Lemma fields_solid : forall s k cur,
    (forall p q, rev cur = p ++ q -> q <> [] -> space_width (q ++ s) = 0) -> (k <> 0 -> cur = []) ->
    Forall solid (fields_aux k cur s).
Proof.
  assert (E : forall cur s l, (forall p q, rev cur = p ++ q -> q <> [] -> space_width (q ++ s) = 0) ->
     Forall solid l -> Forall solid (emit cur l)).
  { intros cur s l H HL. unfold emit. destruct cur; [exact HL|]. constructor; [|exact HL].
    intros p q E N. specialize (H p q E N). destruct (space_width q) as [|k] eqn:W; [reflexivity|].
    rewrite (space_width_prefix _ s _ W) in H. discriminate. }
  induction s as [|c s IH]; intros k cur H HK; cbn [fields_aux].
  - eapply E; [exact H|constructor].
  - destruct k as [|k].
    + destruct (space_width (c :: s)) as [|k] eqn:W.
      * apply IH; [|congruence]. cbn [rev]. intros p q E1 N.
        destruct (exists_last N) as (q' & d & ->). rewrite app_assoc in E1. apply app_inj_tail in E1.
        destruct E1 as [E1 <-]. rewrite <- app_assoc. cbn [app].
        destruct q' as [|d q']; [exact W|]. apply (H p); [exact E1|discriminate].
      * eapply E; [exact H|]. apply IH; [|reflexivity]. intros p q E1 N. destruct p; [|discriminate]. cbn in E1. congruence.
    + rewrite (HK ltac:(discriminate)) in *. apply IH; [|reflexivity].
      intros p q E1 N. destruct p; [|discriminate]. cbn in E1. congruence.
Qed.

Lemma fields_words : forall s, Forall (fun w => fields w = [w]) (fields s).
Proof.
  intros s. pose proof (fields_aux_nonempty s 0 []) as NE.
  assert (SO : Forall solid (fields s)).
  { apply fields_solid; [|reflexivity]. intros p q E N. destruct p; [|discriminate]. cbn in E. congruence. }
  rewrite Forall_forall in *. intros w H. apply solid_one; [apply SO; exact H|apply NE; exact H].
Qed.

Lemma fields_unwords : forall ws, Forall (fun w => fields w = [w]) ws -> fields (unwords ws) = ws.
Proof.
  induction ws as [|w ws IH]; intros H; [reflexivity|]. inversion H as [|? ? H1 H2]; subst.
  destruct ws as [|w2 ws]; [exact H1|].
  change (unwords (w :: w2 :: ws)) with (w ++ b " " ++ unwords (w2 :: ws)).
  rewrite fields_blank_app, H1, IH by exact H2. reflexivity.
Qed.

Lemma word_fields : forall w, word w -> fields w = [w].
Proof.
  intros w [N V]. apply solid_one; [|exact N]. intros p q -> Nq. apply Forall_app in V. destruct V as [_ V].
  destruct q as [|c1 q]; [contradiction|]. inversion V as [|? ? [V1 V2] _]; subst. clear -V1 V2.
  unfold space_width, byte_is.
  assert (((9 <=? N_of_ascii c1)%N && (N_of_ascii c1 <=? 13)%N || (N_of_ascii c1 =? 32)%N) = false) as ->.
  { apply orb_false_iff. split; [apply andb_false_iff; right; apply N.leb_gt; lia|apply N.eqb_neq; lia]. }
  destruct q as [|c2 q]; [reflexivity|].
  assert ((N_of_ascii c1 =? 0xC2)%N = false) as -> by (apply N.eqb_neq; lia).
  destruct q as [|c3 q]; [reflexivity|].
  assert ((N_of_ascii c1 =? 0xE1)%N = false) as -> by (apply N.eqb_neq; lia).
  assert ((N_of_ascii c1 =? 0xE2)%N = false) as -> by (apply N.eqb_neq; lia).
  assert ((N_of_ascii c1 =? 0xE3)%N = false) as -> by (apply N.eqb_neq; lia).
  reflexivity.
Qed.

(** ** Lines of a text *)

Lemma replace_no_bs : forall t, ~ In BS t -> replace_aux [backslash; quote] (b "'") 0 t = t.
Proof.
  induction t as [|c t IH]; intros H; [reflexivity|]. cbn [replace_aux prefixb].
  destruct (Ascii.eqb_spec backslash c) as [E|N]; [exfalso; apply H; left; symmetry; exact E|].
  cbn [andb]. rewrite IH; [reflexivity|]. intros K. apply H. right. exact K.
Qed.

Lemma text_lines : forall lines text, text_of lines text -> textLines text = lines.
Proof.
  intros lines text (-> & NE & HF). unfold textLines, replace_all. rewrite replace_no_bs.
  - change (b (String (ascii_of_N 10) EmptyString)) with [LF]. apply split_join; [exact NE|].
    apply Forall_forall. intros l Hl. rewrite Forall_forall in HF. apply HF. exact Hl.
  - intros H. apply join_In in H. rewrite Forall_forall in HF.
    destruct H as [[H|[]]|(l & Hl & Hi)]; [discriminate|]. apply (HF l Hl). exact Hi.
Qed.

(** ** All chunks *)

Definition chunk_lex (lines : list bytes) : list bytes := lex (map fields lines).

Lemma lex_words_nil_eol : forall ls m, eol m = m ->
    lex_lines m (map fields (filter (fun l => negb (blank l)) ls)) = lex_lines m (map fields ls).
Proof.
  induction ls as [|l ls IH]; intros m H; [reflexivity|]. cbn [filter map lex_lines].
  destruct (blank l) eqn:B; cbn [negb].
  - apply blank_fields in B. change (fields l) with (fields_aux 0 [] l). rewrite B. cbn [lex_words]. rewrite H, IH by exact H.
    destruct (lex_lines m (map fields ls)). reflexivity.
  - cbn [map lex_lines]. destruct (lex_words m (fields l)) as [m1 t1]. rewrite IH; [reflexivity|]. destruct m1; reflexivity.
Qed.

Lemma tokenBuilder_lex : forall lines, tokenBuilder lines = Ok (chunk_lex lines).
Proof.
  intros lines. unfold tokenBuilder. rewrite buildTokenList_lex.
  - unfold chunk_lex, lex. rewrite lex_words_nil_eol by reflexivity. reflexivity.
  - apply Forall_forall. intros ws H. apply in_map_iff in H. destruct H as (l & <- & H). apply filter_In in H.
    destruct H as [_ H]. apply negb_true_iff in H. split; [|apply fields_aux_nonempty].
    intros E. apply blank_fields in E. unfold blank in H. congruence.
Qed.

Lemma all_ok_map : forall A B (f : A -> B) l, @all_ok terr B (map (fun x => Ok (f x)) l) = Some (map f l).
Proof. induction l as [|x l IH]; [reflexivity|]. cbn [map all_ok]. rewrite IH. reflexivity. Qed.

Definition tokens_of (np : nat) (lines : list bytes) : list (list bytes) := map chunk_lex (chunks np lines).

Lemma fold_absorb : forall ls acc, fold_stop tok_absorb acc (concat (map (fun l => [l]) ls)) = (acc ++ concat ls, false).
Proof.
  induction ls as [|l ls IH]; intros acc; cbn [map concat app fold_stop tok_absorb]; [rewrite app_nil_r; reflexivity|].
  rewrite IH, app_assoc. reflexivity.
Qed.

Theorem exec_lex : forall np text r,
    tok_exec np text r <->
    r = Some (result (tokens_of np (textLines text)) (concat (tokens_of np (textLines text)))).
Proof.
  intros np text r. unfold tok_exec, chunkResults, tokens_of.
  rewrite (map_ext _ _ tokenBuilder_lex). rewrite all_ok_map.
  split.
  - intros (out & H & ->). apply crun_det in H. rewrite fold_absorb in H. cbn [fst app] in H. subst out. reflexivity.
  - intros ->. eexists. split; [|reflexivity].
    pose proof (crun_exists tok_absorb (cap := 1) (map (fun l => [l]) (map chunk_lex (chunks np (textLines text)))) [] ltac:(lia)) as H.
    rewrite fold_absorb in H. exact H.
Qed.

(** ** The grammar *)

Lemma has_iff : forall p w, hasb p w = true <-> has p w.
Proof.
  intros p w. unfold hasb, has. generalize (b p) as q. intros q.
  assert (P : forall p0 s, prefixb p0 s = true <-> exists y, s = p0 ++ y).
  { induction p0 as [|c p0 IH]; intros s; cbn [prefixb]; [split; [exists s; reflexivity|reflexivity]|].
    destruct s as [|d s]; [split; [discriminate|intros [y E]; discriminate]|].
    rewrite andb_true_iff, Ascii.eqb_eq, IH. split.
    - intros [-> [y ->]]. exists y. reflexivity.
    - intros [y E]. injection E as -> ->. split; [reflexivity|exists y; reflexivity]. }
  induction w as [|c w IH]; cbn [containsb]; rewrite orb_true_iff, P; split.
  - intros [[y E]|H]; [exists [], y; exact E|discriminate].
  - intros (x & y & E). left. destruct x; [exists y; exact E|discriminate].
  - intros [[y E]|H]; [exists [], y; exact E|]. apply IH in H. destruct H as (x & y & ->). exists (c :: x), y. reflexivity.
  - intros (x & y & E). destruct x as [|d x]; [left; exists y; exact E|right].
    injection E as -> ->. apply IH. exists x, y. reflexivity.
Qed.

Lemma has_false : forall p w, ~ has p w -> hasb p w = false.
Proof. intros p w H. destruct (hasb p w) eqn:E; [exfalso; apply H, has_iff; exact E|reflexivity]. Qed.

Lemma has_true : forall p w, has p w -> hasb p w = true.
Proof. intros p w H. apply has_iff. exact H. Qed.

Lemma has_slash : forall p w, In "/"%char (b p) -> has p w -> In "/"%char w.
Proof. intros p w I (x & y & ->). apply in_or_app. right. apply in_or_app. left. exact I. Qed.

Lemma quotes_0 : forall w, ~ In QM w -> (0 <? quotes w) = false.
Proof. intros w H. apply quotes_in in H. rewrite H. reflexivity. Qed.

Lemma plain_kind : forall w, plain w -> kind_of w = KPlain.
Proof.
  intros w [H1 H2]. unfold kind_of. rewrite quotes_0 by exact H1.
  assert (K : forall p, In "/"%char (b p) -> hasb p w = false).
  { intros p I. apply has_false. intros H. apply H2. eapply has_slash; eassumption. }
  rewrite !K by (cbn; auto). reflexivity.
Qed.

Lemma comment_kind : forall w, opener w -> kind_of w = KComment.
Proof.
  intros w [[r ->] NL]. unfold kind_of. destruct (0 <? quotes (b "/*" ++ r)) eqn:Q.
  - change (before_quote (b "/*" ++ r)) with (b "/*" ++ before_quote r).
    rewrite has_true; [reflexivity|]. exists [], (before_quote r). reflexivity.
  - rewrite (has_false "//") by exact NL. rewrite has_true; [reflexivity|]. exists [], r. reflexivity.
Qed.

Lemma line_kind : forall w, (exists r, w = b "//" ++ r) -> ~ In QM w \/ ~ has "/*" w -> kind_of w = KLine.
Proof.
  intros w [r ->] H. unfold kind_of. destruct (0 <? quotes (b "//" ++ r)) eqn:Q.
  - destruct H as [H|H]; [rewrite quotes_0 in Q by exact H; discriminate|].
    assert (~ has "/*" (before_quote (b "//" ++ r))) as K.
    { intros K. apply H. apply has_iff. apply contains_before. apply has_true. exact K. }
    rewrite (has_false _ _ K). change (before_quote (b "//" ++ r)) with (b "//" ++ before_quote r).
    rewrite has_true; [reflexivity|]. exists [], (before_quote r). reflexivity.
  - rewrite has_true; [reflexivity|]. exists [], r. reflexivity.
Qed.

Lemma quote_kind : forall r, kind_of (QM :: r) = KQuote.
Proof. intros r. reflexivity. Qed.

Lemma unwords_snoc : forall acc w, acc <> [] -> unwords (acc ++ [w]) = unwords acc ++ b " " ++ w.
Proof.
  induction acc as [|x acc IH]; intros w H; [contradiction|]. destruct acc as [|y acc]; [reflexivity|].
  change (unwords ((x :: y :: acc) ++ [w])) with (x ++ b " " ++ unwords ((y :: acc) ++ [w])).
  rewrite IH by discriminate. change (unwords (x :: y :: acc)) with (x ++ b " " ++ unwords (y :: acc)).
  rewrite <- !app_assoc. reflexivity.
Qed.

Lemma odd_even : forall n, Nat.Odd n -> Nat.even n = false.
Proof. intros n H. apply Nat.odd_spec in H. rewrite <- Nat.negb_odd, H. reflexivity. Qed.

Lemma quote_lex : forall rest acc, acc <> [] -> rest <> [] ->
    Nat.Even (quotes (unwords (acc ++ rest))) ->
    (forall k, List.length acc < k < List.length (acc ++ rest) -> Nat.Odd (quotes (unwords (firstn k (acc ++ rest))))) ->
    lex_words (Quote (unwords acc)) rest = (Normal, [unwords (acc ++ rest)]).
Proof.
  induction rest as [|w rest IH]; intros acc NA NR HE HO; [contradiction|].
  cbn [lex_words wstep]. rewrite <- unwords_snoc by exact NA.
  destruct rest as [|w2 rest].
  - apply Nat.even_spec in HE. rewrite HE. reflexivity.
  - assert (O : Nat.Odd (quotes (unwords (acc ++ [w])))).
    { specialize (HO (S (List.length acc))). rewrite app_length in HO. cbn [List.length] in HO. specialize (HO ltac:(lia)).
      change (acc ++ w :: w2 :: rest) with (acc ++ [w] ++ w2 :: rest) in HO. rewrite app_assoc in HO.
      rewrite firstn_app in HO. rewrite firstn_all2 in HO by (rewrite app_length; cbn; lia).
      rewrite app_length in HO. cbn [List.length] in HO. replace (S (List.length acc) - (List.length acc + 1)) with 0 in HO by lia.
      cbn [firstn] in HO. rewrite app_nil_r in HO. exact HO. }
    rewrite (odd_even _ O). rewrite IH.
    + rewrite <- app_assoc. reflexivity.
    + destruct acc; discriminate.
    + discriminate.
    + rewrite <- app_assoc. exact HE.
    + rewrite <- app_assoc. intros k Hk. apply HO. rewrite app_length in Hk. cbn [List.length] in Hk. cbn [app] in Hk. lia.
Qed.

Lemma comment_lex : forall mid z, Forall (fun x => ~ has "*/" x) mid -> has "*/" z ->
    lex_words Comment (mid ++ [z]) = (Normal, []).
Proof.
  induction mid as [|x mid IH]; intros z HF HZ; cbn [app lex_words wstep].
  - rewrite (has_true _ _ HZ). reflexivity.
  - inversion HF; subst. rewrite has_false by assumption. rewrite IH by assumption. reflexivity.
Qed.

Lemma item_lex : forall ws gs, item ws gs -> lex_words Normal ws = (Normal, map unwords gs).
Proof.
  intros ws gs H. destruct H as [w H|w v H|ws H|ws H].
  - cbn [lex_words wstep]. rewrite (plain_kind _ H). reflexivity.
  - destruct H as [-> | ->]; reflexivity.
  - destruct H as ((r & rest & ->) & HE & HO). cbn [lex_words wstep]. rewrite quote_kind.
    destruct rest as [|w2 rest].
    + apply Nat.even_spec in HE. cbn [unwords] in HE. rewrite HE. reflexivity.
    + assert (O : Nat.Odd (quotes (QM :: r))) by (apply (HO 1); cbn; lia).
      rewrite (odd_even _ O). pose proof (quote_lex (w2 :: rest) [QM :: r]) as Q. cbn [app unwords] in Q.
      change (Quote (QM :: r)) with (Quote (unwords [QM :: r])).
      rewrite (quote_lex (w2 :: rest) [QM :: r]); [reflexivity|discriminate|discriminate|exact HE|].
      intros k Hk. apply HO. cbn [List.length app] in *. lia.
  - destruct H as [(w & -> & HO & HZ)|(w & mid & z & -> & HO & HN & HM & HZ)].
    + cbn [lex_words wstep]. rewrite (comment_kind _ HO), (has_true _ _ HZ). reflexivity.
    + cbn [lex_words wstep]. rewrite (comment_kind _ HO), (has_false _ _ HN).
      rewrite comment_lex by assumption. reflexivity.
Qed.

Lemma lex_words_app : forall x y m, lex_words m (x ++ y) =
    (fst (lex_words (fst (lex_words m x)) y), snd (lex_words m x) ++ snd (lex_words (fst (lex_words m x)) y)).
Proof.
  induction x as [|w x IH]; intros y m; cbn [app lex_words fst snd]; [destruct (lex_words m y); reflexivity|].
  destruct (wstep m w) as [m1 t1]. rewrite IH. destruct (lex_words m1 x) as [m2 t2]. cbn [fst snd].
  rewrite app_assoc. reflexivity.
Qed.

Lemma lex_lines_app : forall x y m, lex_lines m (x ++ y) =
    (fst (lex_lines (fst (lex_lines m x)) y), snd (lex_lines m x) ++ snd (lex_lines (fst (lex_lines m x)) y)).
Proof.
  induction x as [|l x IH]; intros y m; cbn [app lex_lines fst snd]; [destruct (lex_lines m y); reflexivity|].
  destruct (lex_words m l) as [m1 t1]. rewrite IH. destruct (lex_lines (eol m1) x) as [m2 t2]. cbn [fst snd].
  rewrite app_assoc. reflexivity.
Qed.

Lemma items_lex : forall ws gs, items ws gs -> lex_words Normal ws = (Normal, map unwords gs).
Proof.
  intros ws gs H. induction H as [|ws1 g1 ws2 g2 H1 H2 IH]; [reflexivity|].
  rewrite lex_words_app, (item_lex _ _ H1). cbn [fst snd]. rewrite IH. cbn [fst snd]. rewrite map_app. reflexivity.
Qed.

Lemma items_app : forall x gx y gy, items x gx -> items y gy -> items (x ++ y) (gx ++ gy).
Proof.
  intros x gx y gy H K. induction H as [|ws1 g1 ws2 g2 H1 H2 IH]; [exact K|].
  rewrite <- !app_assoc. constructor; assumption.
Qed.

Lemma lex_rest : forall ws, lex_words Rest ws = (Rest, []).
Proof. induction ws as [|w ws IH]; [reflexivity|]. cbn [lex_words wstep]. rewrite IH. reflexivity. Qed.

Lemma line_items_lex : forall ws gs, line_items ws gs ->
    exists m, lex_words Normal ws = (m, map unwords gs) /\ eol m = Normal.
Proof.
  intros ws gs H. destruct H as [ws gs H|ws gs c H (w & rest & -> & HL & HQ)].
  - exists Normal. rewrite (items_lex _ _ H). auto.
  - exists Rest. rewrite lex_words_app, (items_lex _ _ H). cbn [fst snd lex_words wstep].
    rewrite (line_kind _ HL HQ), lex_rest. cbn [fst snd app]. rewrite app_nil_r. auto.
Qed.

(** the tokens of one line *)
Definition line_lex (l : bytes) : list bytes := snd (lex_words Normal (fields l)).
Definition closed_line (l : bytes) : Prop := eol (fst (lex_words Normal (fields l))) = Normal.

Lemma closed_lex : forall ls, Forall closed_line ls -> lex_lines Normal (map fields ls) = (Normal, concat (map line_lex ls)).
Proof.
  induction ls as [|l ls IH]; intros H; [reflexivity|]. inversion H as [|? ? H1 H2]; subst.
  cbn [map lex_lines concat]. unfold closed_line in H1. unfold line_lex at 1.
  destruct (lex_words Normal (fields l)) as [m1 t1]. cbn [fst snd] in *. rewrite H1, IH by exact H2. reflexivity.
Qed.

Lemma chunk_incl : forall A np (l : list A) c, In c (chunks np l) -> incl c l.
Proof.
  intros A np l c H x Hx. unfold chunks in H. apply in_map_iff in H. destruct H as (i & <- & _). unfold chunk in Hx.
  rewrite <- (firstn_skipn (chunk_start (List.length l) np i) l). apply in_or_app. right.
  rewrite <- (firstn_skipn (chunk_end (List.length l) np i - chunk_start (List.length l) np i)). apply in_or_app. left. exact Hx.
Qed.

Lemma tokens_closed : forall np lines, 0 < np -> Forall closed_line lines ->
    concat (tokens_of np lines) = concat (map line_lex lines).
Proof.
  intros np lines Hnp H. rewrite <- (concat_chunks lines Hnp) at 2. unfold tokens_of.
  assert (E : forall c, In c (chunks np lines) -> chunk_lex c = concat (map line_lex c)).
  { intros c Hc. unfold chunk_lex, lex. rewrite closed_lex; [reflexivity|].
    rewrite Forall_forall in *. intros l Hl. apply H. eapply chunk_incl; eassumption. }
  rewrite (map_ext_in _ _ _ E). induction (chunks np lines) as [|c cs IH]; [reflexivity|].
  cbn [map concat]. rewrite IH.
  - rewrite map_app, concat_app. reflexivity.
  - intros c' Hc'. apply E. right. exact Hc'.
Qed.

(** ** Several lines *)

Lemma lex_concat : forall ls m, fst (lex_words m (concat ls)) <> Rest -> m <> Rest ->
    lex_lines m ls = lex_words m (concat ls).
Proof.
  induction ls as [|l ls IH]; intros m H HM; [reflexivity|]. cbn [concat lex_lines] in *.
  rewrite lex_words_app in *. destruct (lex_words m l) as [m1 t1]. cbn [fst snd] in *.
  assert (N1 : m1 <> Rest) by (intros ->; rewrite lex_rest in H; apply H; reflexivity).
  assert (E : eol m1 = m1) by (destruct m1; try reflexivity; congruence). rewrite E.
  rewrite IH by assumption. destruct (lex_words m1 (concat ls)). reflexivity.
Qed.

Lemma doc_lex : forall ls gs, doc ls gs -> lex_lines Normal ls = (Normal, map unwords gs).
Proof.
  intros ls gs H. induction H as [|ls gs rest gr H1 H2 IH|ls ws c gs rest gr H1 (w & r & -> & HL & HQ) H2 IH]; [reflexivity| |].
  - pose proof (items_lex _ _ H1) as L. rewrite lex_lines_app, (lex_concat ls Normal) by (rewrite ?L; cbn [fst]; discriminate).
    rewrite L. cbn [fst snd]. rewrite IH, map_app. reflexivity.
  - pose proof (items_lex _ _ H1) as L. rewrite lex_words_app in L.
    assert (R : fst (lex_words Normal (concat ls)) <> Rest).
    { intros E. rewrite E, lex_rest in L. discriminate. }
    rewrite lex_lines_app, (lex_concat ls Normal) by (exact R || discriminate).
    destruct (lex_words Normal (concat ls)) as [m t]. cbn [fst snd] in *.
    cbn [lex_lines]. rewrite lex_words_app. destruct (lex_words m ws) as [m2 t2]. cbn [fst snd] in *.
    injection L as -> L. cbn [lex_words wstep]. rewrite (line_kind _ HL HQ), lex_rest. cbn [fst snd app eol].
    rewrite IH. cbn [fst snd]. rewrite app_nil_r, app_assoc, L, map_app. reflexivity.
Qed.

Lemma doc_app : forall x gx y gy, doc x gx -> doc y gy -> doc (x ++ y) (gx ++ gy).
Proof.
  intros x gx y gy H K. induction H; [exact K| |].
  - rewrite <- !app_assoc. constructor; assumption.
  - rewrite <- !app_assoc. cbn [app]. apply doc_comment; assumption.
Qed.

Lemma doc_line : forall ws gs, line_items ws gs -> doc [ws] gs.
Proof.
  intros ws gs H. rewrite <- (app_nil_r gs). destruct H as [ws gs H|ws gs c H HC].
  - change [ws] with ([ws] ++ []). constructor; [|constructor]. cbn [concat]. rewrite app_nil_r. exact H.
  - apply (doc_comment [] ws c gs [] []); [exact H|exact HC|constructor].
Qed.

Lemma doc_lines : forall lines gss, Forall2 line_items lines gss -> doc lines (concat gss).
Proof.
  intros lines gss H. induction H as [|l gs lines gss H1 H2 IH]; [constructor|]. cbn [concat].
  change (l :: lines) with ([l] ++ lines). apply doc_app; [apply doc_line; exact H1|exact IH].
Qed.

Lemma doc_concat : forall cs gss, Forall2 doc cs gss -> doc (concat cs) (concat gss).
Proof. intros cs gss H. induction H; [constructor|]. cbn [concat]. apply doc_app; assumption. Qed.

(** The result for well-formed parts. *)
Definition outcome_of (gs : list (list bytes)) : option tokens :=
  Some (Tokens (map unwords gs ++ [[]])
     (negb (1 <? u32 (N.of_nat (List.length (filter (beqb beginModuleToken) (map unwords gs)))))%N)).

Lemma exec_docs : forall np text lines gss, text_of lines text ->
    Forall2 doc (map (map fields) (chunks np lines)) gss ->
    forall r, tok_exec np text r <-> r = outcome_of (concat gss).
Proof.
  intros np text lines gss HT HD r. rewrite exec_lex, (text_lines _ _ HT).
  assert (E : concat (tokens_of np lines) = map unwords (concat gss)).
  { unfold tokens_of. revert HD. generalize (chunks np lines) as cs. intros cs. revert gss.
    induction cs as [|c cs IH]; intros gss HD; cbn [map] in HD; inversion HD as [|? g ? gr H1 H2]; subst; [reflexivity|].
    cbn [map concat]. rewrite (IH _ H2), map_app. unfold chunk_lex, lex. rewrite (doc_lex _ _ H1). reflexivity. }
  unfold result, outcome_of. rewrite E. reflexivity.
Qed.

Lemma chunks_one : forall A (l : list A), chunks 1 l = [l].
Proof.
  intros A l. unfold chunks, chunk. cbn [seq map]. unfold chunk_end, chunk_start. cbn [plus Nat.eqb].
  rewrite Nat.mul_0_r. cbn [skipn]. rewrite Nat.sub_0_r, firstn_all. reflexivity.
Qed.

Lemma map_fields_chunk : forall np lines, map (map fields) (chunks np lines) = chunks np (map fields lines).
Proof.
  intros np lines. unfold chunks. rewrite map_map. apply map_ext. intros i. unfold chunk.
  rewrite <- firstn_map, <- skipn_map, map_length. reflexivity.
Qed.

Lemma Forall2_skipn : forall A B (R : A -> B -> Prop) n l l', Forall2 R l l' -> Forall2 R (skipn n l) (skipn n l').
Proof. induction n; intros l l' H; [exact H|]. destruct H; [constructor|]. apply IHn. assumption. Qed.

Lemma Forall2_firstn : forall A B (R : A -> B -> Prop) n l l', Forall2 R l l' -> Forall2 R (firstn n l) (firstn n l').
Proof. induction n; intros l l' H; [constructor|]. destruct H; [constructor|]. constructor; [assumption|]. apply IHn. assumption. Qed.

Lemma lines_chunks : forall np (ls : list (list bytes)) gss, Forall2 line_items ls gss -> 0 < np ->
    Forall2 doc (chunks np ls) (map (@concat _) (chunks np gss)).
Proof.
  intros np ls gss H Hnp. unfold chunks.
  assert (L : List.length ls = List.length gss) by (clear -H; induction H; cbn; congruence).
  rewrite map_map. induction (seq 0 np) as [|i is IH]; cbn [map]; constructor; [|exact IH].
  apply doc_lines. unfold chunk. rewrite L.
  apply Forall2_firstn, Forall2_skipn. exact H.
Qed.

Lemma exec_lines : forall np text lines gss, 0 < np -> text_of lines text ->
    Forall2 line_items (map fields lines) gss ->
    forall r, tok_exec np text r <-> r = outcome_of (concat gss).
Proof.
  intros np text lines gss Hnp HT HF r.
  assert (E : concat gss = concat (map (@concat _) (chunks np gss))).
  { rewrite <- (concat_chunks gss Hnp) at 1. induction (chunks np gss) as [|c cs IH]; [reflexivity|].
    cbn [concat map]. rewrite concat_app, IH. reflexivity. }
  rewrite E. apply (exec_docs np text lines); [exact HT|].
  rewrite map_fields_chunk. apply lines_chunks; assumption.
Qed.

(** ** ASCII lines *)

Lemma visible_start : forall c l, visible c -> space_width (c :: l) = 0.
Proof.
  intros c1 q [V1 V2]. unfold space_width, byte_is.
  assert (((9 <=? N_of_ascii c1)%N && (N_of_ascii c1 <=? 13)%N || (N_of_ascii c1 =? 32)%N) = false) as ->.
  { apply orb_false_iff. split; [apply andb_false_iff; right; apply N.leb_gt; lia|apply N.eqb_neq; lia]. }
  destruct q as [|c2 q]; [reflexivity|].
  assert ((N_of_ascii c1 =? 0xC2)%N = false) as -> by (apply N.eqb_neq; lia).
  destruct q as [|c3 q]; [reflexivity|].
  assert ((N_of_ascii c1 =? 0xE1)%N = false) as -> by (apply N.eqb_neq; lia).
  assert ((N_of_ascii c1 =? 0xE2)%N = false) as -> by (apply N.eqb_neq; lia).
  assert ((N_of_ascii c1 =? 0xE3)%N = false) as -> by (apply N.eqb_neq; lia).
  reflexivity.
Qed.

Lemma blank_start : forall c l, blank_char c -> space_width (c :: l) = 1.
Proof.
  intros c l H. assert (E : ((9 <=? N_of_ascii c)%N && (N_of_ascii c <=? 13)%N || byte_is 32 c) = true).
  { unfold byte_is. apply orb_true_iff. destruct H as [H|H]; [left|right; apply N.eqb_eq; exact H].
    apply andb_true_iff. split; apply N.leb_le; lia. }
  destruct l as [|c2 [|c3 l]]; cbn [space_width]; rewrite E; reflexivity.
Qed.

Lemma fields_visible : forall w cur l, Forall visible w ->
    fields_aux 0 cur (w ++ l) = fields_aux 0 (rev w ++ cur) l.
Proof.
  induction w as [|c w IH]; intros cur l H; [reflexivity|]. inversion H as [|? ? H1 H2]; subst.
  cbn [app fields_aux]. rewrite (visible_start c _ H1), IH by exact H2. cbn [rev]. rewrite <- app_assoc. reflexivity.
Qed.

Lemma emit_word : forall w l, w <> [] -> emit (rev w ++ []) l = w :: l.
Proof.
  intros w l N. rewrite app_nil_r. unfold emit.
  destruct (rev w) eqn:E; [exfalso; apply N; rewrite <- (rev_involutive w), E; reflexivity|].
  rewrite <- E, rev_involutive. reflexivity.
Qed.

Theorem fields_laid_out : forall l ws, laid_out l ws -> fields l = ws.
Proof.
  intros l ws H. unfold fields. induction H as [|c l ws H1 H2 IH|w [N V]|w c l ws [N V] H1 H2 IH]; [reflexivity| | |].
  - cbn [fields_aux]. rewrite blank_start by exact H1. cbn [emit]. exact IH.
  - rewrite <- (app_nil_r w) at 1. rewrite fields_visible by exact V. cbn [fields_aux]. apply emit_word. exact N.
  - rewrite fields_visible by exact V. cbn [fields_aux]. rewrite blank_start by exact H1.
    rewrite emit_word by exact N. rewrite IH. reflexivity.
Qed.

(** ** Quoted texts *)

Lemma unwords_quotes : forall ws, quotes (unwords ws) = list_sum (map quotes ws).
Proof.
  assert (A : forall x y, quotes (x ++ y) = quotes x + quotes y) by (intros; apply count_occ_app).
  induction ws as [|w ws IH]; [reflexivity|]. destruct ws as [|w2 ws]; [cbn [unwords map list_sum fold_right]; lia|].
  change (unwords (w :: w2 :: ws)) with (w ++ b " " ++ unwords (w2 :: ws)). rewrite !A, IH. reflexivity.
Qed.

Lemma quoted_words : forall ws s, Forall (fun w => w <> []) ws -> unwords ws = QM :: s ++ [QM] -> ~ In QM s ->
    quoted ws.
Proof.
  intros ws s NE E NI.
  assert (T : quotes (unwords ws) = 2).
  { rewrite E. unfold quotes. cbn [count_occ]. destruct (ascii_dec QM QM) as [_|n]; [|congruence].
    rewrite count_occ_app. apply (count_occ_not_In ascii_dec) in NI. rewrite NI. reflexivity. }
  split; [|split].
  - destruct ws as [|w ws]; [discriminate|]. inversion NE as [|? ? N1 _]; subst.
    destruct w as [|c w]; [contradiction|]. exists w, ws.
    destruct ws; cbn [unwords app] in E; injection E as -> _; reflexivity.
  - rewrite T. exists 1. reflexivity.
  - intros k Hk. exists 0. cbn [plus].
    rewrite <- (firstn_skipn k ws) in T. rewrite unwords_quotes in T. rewrite map_app, list_sum_app in T.
    rewrite <- !unwords_quotes in T.
    assert (P1 : 0 < quotes (unwords (firstn k ws))).
    { destruct ws as [|w ws]; [discriminate|]. inversion NE as [|? ? N1 _]; subst. destruct k as [|k]; [lia|].
      destruct w as [|c w]; [contradiction|].
      assert (c = QM) as -> by (destruct ws; cbn [unwords app] in E; injection E as -> _; reflexivity).
      rewrite unwords_quotes. cbn [firstn map]. match goal with |- 0 < list_sum (?x :: ?l) => change (list_sum (x :: l)) with (x + list_sum l) end.
      assert (QW : quotes (QM :: w) = S (quotes w)) by reflexivity. lia. }
    assert (P2 : 0 < quotes (unwords (skipn k ws))).
    { assert (N : skipn k ws <> []).
      { intros Z. assert (HL := skipn_length k ws). rewrite Z in HL. cbn [List.length] in HL. unfold bytes in *. lia. }
      destruct (exists_last N) as (pre & z & Z).
      assert (NZ : z <> []).
      { rewrite Forall_forall in NE. apply NE. rewrite <- (firstn_skipn k ws), Z. apply in_or_app. right. apply in_or_app. right. left. reflexivity. }
      destruct (exists_last NZ) as (z' & c & ->).
      assert (L : exists t, unwords ws = t ++ [c]).
      { rewrite <- (firstn_skipn k ws), Z, app_assoc.
        destruct (firstn k ws ++ pre) as [|p0 ps] eqn:EP.
        - exists z'. reflexivity.
        - rewrite unwords_snoc by discriminate. eexists. rewrite !app_assoc. reflexivity. }
      destruct L as [t L]. rewrite E in L. rewrite app_comm_cons in L. apply app_inj_tail in L. destruct L as [_ <-].
      rewrite Z, unwords_quotes, map_app, list_sum_app. cbn [map list_sum fold_right].
      assert (QZ : quotes (z' ++ [QM]) = quotes z' + 1) by (unfold quotes; rewrite count_occ_app; reflexivity). lia. }
    unfold bytes in *. lia.
Qed.
