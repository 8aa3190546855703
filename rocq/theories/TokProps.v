(** Properties C42-C47: the tokens of an A2L text. *)
From Coq Require Import String Ascii List Arith NArith Bool Lia.
From Verif Require Import GoBase GoBaseFacts GoStrings ConcModel ConcProofs HexSpec IhexThm TokModel TokSpec TokProofs TokThm.
Import ListNotations.

(** The result for a text with these groups of words: the tokens, a last empty
    token, and parallel parsing unless the text has several modules (counted
    with 32 bits). *)
Definition modules (gs : list (list bytes)) : N :=
  N.of_nat (count_occ (list_eq_dec ascii_dec) (map unwords gs) (b "/begin MODULE")).
Definition delivers (gs : list (list bytes)) (r : option tokens) : Prop :=
  exists t, r = Some t /\ tk_list t = map unwords gs ++ [[]]
    /\ (tk_multithreading t = true <-> (modules gs mod 2 ^ 32 <= 1)%N).

Lemma count_filter : forall w l, List.length (filter (beqb w) l) = count_occ (list_eq_dec ascii_dec) l w.
Proof.
  induction l as [|x l IH]; [reflexivity|]. cbn [filter count_occ].
  destruct (list_eq_dec ascii_dec x w) as [->|n].
  - rewrite beqb_refl. cbn [List.length]. rewrite IH. reflexivity.
  - destruct (beqb w x) eqn:E; [apply beqb_eq in E; congruence|exact IH].
Qed.

Lemma delivers_iff : forall gs r, delivers gs r <-> r = outcome_of gs.
Proof.
  intros gs r. unfold delivers, outcome_of, modules. rewrite count_filter. change beginModuleToken with (b "/begin MODULE").
  set (n := N.of_nat _). unfold u32. split.
  - intros ([l fl] & -> & E & F). cbn [tk_list tk_multithreading] in *. subst l. f_equal. f_equal.
    change (2 ^ 32)%N with 4294967296%N in *.
    destruct (N.ltb_spec 1 (n mod 4294967296)) as [H|H]; cbn [negb].
    + destruct fl; [|reflexivity]. pose proof (proj1 F eq_refl). lia.
    + apply F. exact H.
  - intros ->. eexists. split; [reflexivity|]. cbn [tk_list tk_multithreading]. split; [reflexivity|].
    change (2 ^ 32)%N with 4294967296%N. rewrite negb_true_iff, N.ltb_ge. reflexivity.
Qed.

(** a run computed *)
Definition run (np : nat) (text : bytes) : option tokens :=
  Some (result (tokens_of np (textLines text)) (concat (tokens_of np (textLines text)))).

Lemma run_is : forall np text, tok_exec np text (run np text).
Proof. intros. apply exec_lex. reflexivity. Qed.

(** ** Deciding the side conditions of examples *)

Definition visibleb (c : ascii) : bool := ((33 <=? N_of_ascii c) && (N_of_ascii c <=? 126))%N.
Lemma no_byte : forall c w, existsb (Ascii.eqb c) w = false -> ~ In c w.
Proof.
  intros c w H I. assert (K : existsb (Ascii.eqb c) w = true) by (apply existsb_exists; exists c; split; [exact I|apply Ascii.eqb_refl]).
  congruence.
Qed.
Lemma plain_dec : forall w, existsb (Ascii.eqb QM) w = false -> existsb (Ascii.eqb "/") w = false -> plain w.
Proof. intros w H1 H2. split; apply no_byte; assumption. Qed.

Lemma text_dec : forall lines, lines <> [] ->
    forallb (fun l => negb (existsb (Ascii.eqb LF) l) && negb (existsb (Ascii.eqb BS) l)) lines = true ->
    text_of lines (join [LF] lines).
Proof.
  intros lines N H. split; [reflexivity|]. split; [exact N|]. rewrite forallb_forall in H. apply Forall_forall.
  intros l Hl. specialize (H l Hl). apply andb_true_iff in H. destruct H as [H1 H2].
  apply negb_true_iff in H1. apply negb_true_iff in H2. split; apply no_byte; assumption.
Qed.

Lemma no_has : forall p w, hasb p w = false -> ~ has p w.
Proof. intros p w H K. rewrite (has_true _ _ K) in H. discriminate. Qed.

Lemma items_one : forall ws gs, item ws gs -> items ws gs.
Proof. intros ws gs H. rewrite <- (app_nil_r ws), <- (app_nil_r gs). constructor; [exact H|constructor]. Qed.
Lemma items_plain : forall w ws gs, plain w -> items ws gs -> items (w :: ws) ([w] :: gs).
Proof. intros w ws gs H K. apply (its_cons [w] [[w]]); [constructor; exact H|exact K]. Qed.
Lemma items_pair : forall w v ws gs, w = b "/begin" \/ w = b "/end" -> items ws gs -> items (w :: v :: ws) ([w; v] :: gs).
Proof. intros w v ws gs H K. apply (its_cons [w; v] [[w; v]]); [constructor; exact H|exact K]. Qed.

(** ** C42: layout and CPU count *)

(** Lines of visible ASCII words and blanks have these words. *)
Theorem C42_words : forall l ws, laid_out l ws -> fields l = ws.
Proof. exact fields_laid_out. Qed.
Print Assumptions C42_words.

(** If every line consists of complete constructs (plain words, begin/end
    pairs, quoted texts, comments), the tokens are those of the lines, in order,
    for every number of CPUs and every schedule. *)
Theorem C42_lines_guarded : forall np text lines gss, 0 < np -> text_of lines text ->
    Forall2 line_items (map fields lines) gss ->
    forall r, tok_exec np text r <-> delivers (concat gss) r.
Proof. intros. rewrite delivers_iff. apply (exec_lines np text lines); assumption. Qed.
Print Assumptions C42_lines_guarded.

Definition ex_line1 : bytes := b "/begin  MODULE M1 // the module".
Definition ex_line2 : bytes := b "/* note */ A 1.5 " ++ [QM] ++ b "x y" ++ [QM].
Definition ex_line3 : bytes := b "/end MODULE".
Definition ex_lines : list bytes := [ex_line1; ex_line2; []; ex_line3].
Definition ex_gss : list (list (list bytes)) :=
  [[[b "/begin"; b "MODULE"]; [b "M1"]]; [[b "A"]; [b "1.5"]; [[QM] ++ b "x"; b "y" ++ [QM]]]; []; [[b "/end"; b "MODULE"]]].
Lemma ex_ok : Forall2 line_items (map fields ex_lines) ex_gss.
Proof.
  constructor; [|constructor; [|constructor; [|constructor; [|constructor]]]].
  - apply (li_comment [b "/begin"; b "MODULE"; b "M1"] _ [b "//"; b "the"; b "module"]).
    + apply items_pair; [left; reflexivity|]. apply items_plain; [apply plain_dec; reflexivity|constructor].
    + exists (b "//"), [b "the"; b "module"]. split; [reflexivity|]. split; [exists []; reflexivity|].
      left. apply no_byte. reflexivity.
  - apply li_items. apply (its_cons [b "/*"; b "note"; b "*/"] []).
    + constructor. right. exists (b "/*"), [b "note"], (b "*/"). split; [reflexivity|].
      split; [split; [exists []; reflexivity|apply no_has; reflexivity]|].
      split; [apply no_has; reflexivity|]. split; [constructor; [apply no_has; reflexivity|constructor]|].
      exists [], []. reflexivity.
    + apply items_plain; [apply plain_dec; reflexivity|]. apply items_plain; [apply plain_dec; reflexivity|].
      apply items_one. apply it_quoted. apply (quoted_words _ (b "x y")); [|reflexivity|apply no_byte; reflexivity].
      constructor; [discriminate|constructor; [discriminate|constructor]].
  - apply li_items. constructor.
  - apply li_items. apply items_pair; [right; reflexivity|constructor].
Qed.

Example C42_example : text_of ex_lines (join [LF] ex_lines) /\ Forall2 line_items (map fields ex_lines) ex_gss
  /\ map (fun t => string_of_list_ascii t) (map unwords (concat ex_gss))
     = ["/begin MODULE"; "M1"; "A"; "1.5"; String QM "x y" ++ String QM EmptyString; "/end MODULE"]%string.
Proof. split; [apply text_dec; [discriminate|reflexivity]|]. split; [exact ex_ok|reflexivity]. Qed.

(** Without the restriction on slashes it fails: the words of the lines "a km/h"
    and "c" have no comment, quotation mark, begin or end, and the tokens depend
    on the number of CPUs. *)
Theorem C42_slash_refuted : exists lines text r1 r2, text_of lines text
    /\ Forall (fun l => Forall (fun w => ~ In QM w /\ ~ has "//" w /\ ~ has "/*" w /\ ~ has "*/" w /\ ~ has "/begin" w /\ ~ has "/end" w) (fields l)) lines
    /\ tok_exec 1 text r1 /\ tok_exec 2 text r2
    /\ option_map tk_list r1 = Some [b "a"; []] /\ option_map tk_list r2 = Some [b "a"; b "c"; []].
Proof.
  exists [b "a km/h"; b "c"], (join [LF] [b "a km/h"; b "c"]). eexists. eexists.
  split; [apply text_dec; [discriminate|reflexivity]|].
  split; [|split; [apply run_is|split; [apply run_is|split; vm_compute; reflexivity]]].
  assert (D : forall w, existsb (Ascii.eqb QM) w || hasb "//" w || hasb "/*" w || hasb "*/" w || hasb "/begin" w || hasb "/end" w = false ->
      ~ In QM w /\ ~ has "//" w /\ ~ has "/*" w /\ ~ has "*/" w /\ ~ has "/begin" w /\ ~ has "/end" w).
  { intros w H. rewrite !orb_false_iff in H. destruct H as (((((H1 & H2) & H3) & H4) & H5) & H6).
    split; [apply no_byte; exact H1|]. repeat split; apply no_has; assumption. }
  constructor; [|constructor; [|constructor]].
  - constructor; [|constructor; [|constructor]]; apply D; reflexivity.
  - constructor; [|constructor]; apply D; reflexivity.
Qed.
Print Assumptions C42_slash_refuted.

(** ** C43: constructs over several lines *)

(** If no construct spans the border of two parts, the tokens are those of the
    constructs, and the same as with one CPU. *)
Theorem C43_borders_guarded : forall np text lines gss, 0 < np -> text_of lines text ->
    Forall2 doc (chunks np (map fields lines)) gss ->
    (forall r, tok_exec np text r <-> delivers (concat gss) r)
    /\ (forall r, tok_exec 1 text r <-> tok_exec np text r).
Proof.
  intros np text lines gss Hnp HT HD.
  assert (E : forall r, tok_exec np text r <-> delivers (concat gss) r).
  { intros r. rewrite delivers_iff. apply (exec_docs np text lines); [exact HT|]. rewrite map_fields_chunk. exact HD. }
  split; [exact E|]. intros r. rewrite E, delivers_iff.
  pose proof (exec_docs 1 text lines [concat gss] HT) as H. cbn [concat] in H. rewrite app_nil_r in H. apply H.
  rewrite map_fields_chunk, chunks_one. constructor; [|constructor].
  apply doc_concat in HD. rewrite concat_chunks in HD by exact Hnp. exact HD.
Qed.
Print Assumptions C43_borders_guarded.

Definition ex_multi : list bytes := [b "A /*"; b "old */ B"; b "C // c"; b "/begin"; b "MODULE"; b "D"].
Example C43_example : Forall2 doc (chunks 2 (map fields ex_multi))
   [[[b "A"]; [b "B"]; [b "C"]]; [[b "/begin"; b "MODULE"]; [b "D"]]].
Proof.
  constructor; [|constructor; [|constructor]].
  - apply (doc_comment (map fields [b "A /*"; b "old */ B"]) [b "C"] (map b ["//"; "c"]%string) [[b "A"]; [b "B"]; [b "C"]] [] []).
    + apply items_plain; [apply plain_dec; reflexivity|].
      apply (its_cons [b "/*"; b "old"; b "*/"] []).
      * constructor. right. exists (b "/*"), [b "old"], (b "*/"). split; [reflexivity|].
        split; [split; [exists []; reflexivity|apply no_has; reflexivity]|].
        split; [apply no_has; reflexivity|]. split; [constructor; [apply no_has; reflexivity|constructor]|].
        exists [], []. reflexivity.
      * apply items_plain; [apply plain_dec; reflexivity|]. apply items_plain; [apply plain_dec; reflexivity|]. constructor.
    + exists (b "//"), [b "c"]. split; [reflexivity|]. split; [exists []; reflexivity|]. left. apply no_byte. reflexivity.
    + constructor.
  - apply (doc_block (map fields [b "/begin"; b "MODULE"; b "D"]) [[b "/begin"; b "MODULE"]; [b "D"]] [] []); [|constructor].
    apply items_pair; [left; reflexivity|]. apply items_plain; [apply plain_dec; reflexivity|]. constructor.
Qed.

(** In general the tokens depend on the number of CPUs: a comment over three
    lines, before the word B. *)
Theorem C43_multi_line_refuted : exists lines text r1 r2 r4, text_of lines text
    /\ doc (map fields lines) [[b "B"]]
    /\ tok_exec 1 text r1 /\ tok_exec 2 text r2 /\ tok_exec 4 text r4
    /\ option_map tk_list r1 = Some [b "B"; []]
    /\ option_map tk_list r2 = Some [b "*/"; b "B"; []]
    /\ option_map tk_list r4 = Some [b "x"; b "*/"; b "B"; []].
Proof.
  exists [b "/*"; b "x"; b "*/"; b "B"], (join [LF] [b "/*"; b "x"; b "*/"; b "B"]). eexists. eexists. eexists.
  split; [apply text_dec; [discriminate|reflexivity]|].
  split; [|split; [apply run_is|split; [apply run_is|split; [apply run_is|split; [|split]; vm_compute; reflexivity]]]].
  apply (doc_block (map fields [b "/*"; b "x"; b "*/"; b "B"]) [[b "B"]] [] []); [|constructor].
  apply (its_cons [b "/*"; b "x"; b "*/"] []).
  - constructor. right. exists (b "/*"), [b "x"], (b "*/"). split; [reflexivity|].
    split; [split; [exists []; reflexivity|apply no_has; reflexivity]|].
    split; [apply no_has; reflexivity|]. split; [constructor; [apply no_has; reflexivity|constructor]|].
    exists [], []. reflexivity.
  - apply items_plain; [apply plain_dec; reflexivity|]. constructor.
Qed.
Print Assumptions C43_multi_line_refuted.

(** ** C44: no word is dropped *)

(** The words outside comments are the words of the tokens, in order. *)
Theorem C44_words_guarded : forall np text lines gss, 0 < np -> text_of lines text ->
    Forall2 doc (chunks np (map fields lines)) gss ->
    forall r, tok_exec np text r ->
    exists t toks, r = Some t /\ tk_list t = toks ++ [[]] /\ concat (map fields toks) = concat (concat gss).
Proof.
  intros np text lines gss Hnp HT HD r H. apply (proj1 (C43_borders_guarded _ _ _ _ Hnp HT HD)) in H.
  destruct H as (t & -> & E & _). exists t, (map unwords (concat gss)). split; [reflexivity|]. split; [exact E|].
  assert (W : Forall (Forall (fun w => fields w = [w])) (map fields lines)).
  { apply Forall_forall. intros ws H. apply in_map_iff in H. destruct H as (l & <- & _). apply fields_words. }
  apply doc_concat in HD. rewrite concat_chunks in HD by exact Hnp.
  assert (I : forall ws gs, items ws gs -> Forall (fun w => fields w = [w]) ws -> Forall (Forall (fun w => fields w = [w])) gs).
  { clear. intros ws gs H. induction H as [|ws1 g1 ws2 g2 H1 H2 IH]; intros F; [constructor|].
    apply Forall_app in F. destruct F as [F1 F2]. apply Forall_app. split; [|apply IH; exact F2].
    destruct H1; constructor; auto. }
  assert (G : Forall (Forall (fun w => fields w = [w])) (concat gss)).
  { clear -W HD I. induction HD as [|ls gs rest gr H1 H2 IH|ls ws c gs rest gr H1 HL H2 IH].
    - constructor.
    - apply Forall_app in W. destruct W as [W1 W2]. apply Forall_app. split; [|apply IH; exact W2].
      apply (I (concat ls)); [exact H1|]. apply Forall_concat. exact W1.
    - apply Forall_app in W. destruct W as [W1 W2]. inversion W2 as [|? ? W3 W4]; subst.
      apply Forall_app in W3. destruct W3 as [W3 _]. apply Forall_app. split; [|apply IH; exact W4].
      apply (I (concat ls ++ ws)); [exact H1|]. apply Forall_app. split; [apply Forall_concat; exact W1|exact W3]. }
  clear -G. induction (concat gss) as [|g gs IH]; [reflexivity|]. inversion G; subst. cbn [map concat].
  rewrite fields_unwords by assumption. rewrite IH by assumption. reflexivity.
Qed.
Print Assumptions C44_words_guarded.

Example C44_example : Forall2 doc (chunks 2 (map fields ex_multi))
   [[[b "A"]; [b "B"]; [b "C"]]; [[b "/begin"; b "MODULE"]; [b "D"]]]
  /\ concat (concat [[[b "A"]; [b "B"]; [b "C"]]; [[b "/begin"; b "MODULE"]; [b "D"]]])
     = map b ["A"; "B"; "C"; "/begin"; "MODULE"; "D"]%string.
Proof. split; [exact C43_example|reflexivity]. Qed.

(** Otherwise words are dropped without an error: everything after a word with a
    slash, e.g. a unit km/h that is not quoted; and an unterminated text. *)
Theorem C44_dropped_refuted : exists lines text r, text_of lines text
    /\ In (b "UNIT") (concat (map fields lines)) /\ Forall (fun w => ~ has "//" w /\ ~ has "/*" w) (concat (map fields lines))
    /\ tok_exec 1 text r /\ option_map tk_list r = Some [b "A"; []].
Proof.
  exists [b "A km/h UNIT"; b "B"], (join [LF] [b "A km/h UNIT"; b "B"]). eexists.
  split; [apply text_dec; [discriminate|reflexivity]|]. split; [vm_compute; auto 10|].
  split; [|split; [apply run_is|vm_compute; reflexivity]].
  assert (D : forall ws, forallb (fun w => negb (hasb "//" w) && negb (hasb "/*" w)) ws = true ->
      Forall (fun w => ~ has "//" w /\ ~ has "/*" w) ws).
  { intros ws H. rewrite forallb_forall in H. apply Forall_forall. intros w Hw. specialize (H w Hw).
    apply andb_true_iff in H. rewrite !negb_true_iff in H. split; apply no_has; apply H. }
  apply D. reflexivity.
Qed.
Print Assumptions C44_dropped_refuted.

(** For every text, also one that is dropped in part, the result is a token list
    (what the automaton [lex] delivers for the parts), never an error. *)
Theorem C44_no_error : forall np text r, tok_exec np text r ->
    exists t, r = Some t /\ tk_list t = concat (map (fun c => lex (map fields c)) (chunks np (textLines text))) ++ [[]].
Proof. intros np text r H. apply exec_lex in H. subst r. eexists. split; reflexivity. Qed.
Print Assumptions C44_no_error.

(** ** C45: quoted texts *)

(** A quoted text of visible words, with single blanks between them, among
    complete constructs of its line, is one token with exactly its characters. *)
Theorem C45_quoted_guarded : forall np text before after x y ws s gx gy gb ga,
    0 < np -> Forall word ws -> unwords ws = QM :: s ++ [QM] -> ~ In QM s ->
    text_of (before ++ (x ++ b " " ++ unwords ws ++ b " " ++ y) :: after) text ->
    items (fields x) gx -> line_items (fields y) gy ->
    Forall2 line_items (map fields before) gb -> Forall2 line_items (map fields after) ga ->
    forall r, tok_exec np text r ->
    exists t, r = Some t
      /\ tk_list t = map unwords (concat gb ++ gx) ++ (QM :: s ++ [QM]) :: map unwords (gy ++ concat ga) ++ [[]].
Proof.
  intros np text before after x y ws s gx gy gb ga Hnp HW E NI HT HX HY HB HA r H.
  assert (F : Forall2 line_items (map fields (before ++ (x ++ b " " ++ unwords ws ++ b " " ++ y) :: after))
              (gb ++ (gx ++ [ws] ++ gy) :: ga)).
  { rewrite map_app. apply Forall2_app; [exact HB|]. cbn [map]. constructor; [|exact HA].
    rewrite !fields_blank_app.
    assert (HF : Forall (fun w => fields w = [w]) ws) by (refine (Forall_impl _ _ HW); intros w; apply word_fields).
    rewrite fields_unwords by exact HF.
    assert (HI : items ws [ws]).
    { apply items_one. apply it_quoted. apply (quoted_words _ s); [|exact E|exact NI].
      refine (Forall_impl _ _ HW). intros w [N _]. exact N. }
    destruct HY as [wy gy HY|wy gy c HY HC].
    - apply li_items. apply items_app; [exact HX|]. apply items_app; assumption.
    - replace (fields x ++ ws ++ wy ++ c) with ((fields x ++ ws ++ wy) ++ c) by (rewrite <- !app_assoc; reflexivity).
      apply li_comment; [|exact HC]. apply items_app; [exact HX|]. apply items_app; assumption. }
  apply (C42_lines_guarded np text _ _ Hnp HT F) in H. destruct H as (t & -> & L & _). exists t. split; [reflexivity|].
  rewrite L, concat_app. cbn [concat app]. rewrite <- E, !map_app. cbn [map app]. rewrite ?map_app, <- !app_assoc. cbn [app].
  rewrite <- ?app_assoc. reflexivity.
Qed.
Print Assumptions C45_quoted_guarded.

Example C45_example : Forall word [QM :: b "rpm"; b "of"; b "engine" ++ [QM]]
  /\ unwords [QM :: b "rpm"; b "of"; b "engine" ++ [QM]] = QM :: b "rpm of engine" ++ [QM] /\ ~ In QM (b "rpm of engine")
  /\ items (fields (b "/begin MEASUREMENT N")) [[b "/begin"; b "MEASUREMENT"]; [b "N"]].
Proof.
  split; [|split; [reflexivity|split; [apply no_byte; reflexivity|]]].
  - assert (D : forall w, w <> [] -> forallb visibleb w = true -> word w).
    { intros w N H. split; [exact N|]. rewrite forallb_forall in H. apply Forall_forall. intros c Hc. specialize (H c Hc).
      unfold visibleb in H. apply andb_true_iff in H. rewrite !N.leb_le in H. exact H. }
    constructor; [|constructor; [|constructor; [|constructor]]]; apply D; (discriminate || reflexivity).
  - apply items_pair; [left; reflexivity|]. apply items_plain; [apply plain_dec; reflexivity|]. constructor.
Qed.

(** A run of blanks is delivered as one blank. *)
Theorem C45_blanks_refuted : exists s text r, ~ In QM s /\ text_of [QM :: s ++ [QM]] text
    /\ tok_exec 1 text r /\ s = b "a  b" /\ option_map tk_list r = Some [QM :: b "a b" ++ [QM]; []].
Proof.
  exists (b "a  b"). eexists. eexists. split; [apply no_byte; reflexivity|].
  split; [apply text_dec; [discriminate|reflexivity]|]. split; [apply run_is|]. split; [reflexivity|vm_compute; reflexivity].
Qed.
Print Assumptions C45_blanks_refuted.

(** ** C46: comments *)

(** A comment between complete constructs of a line can be removed. *)
Theorem C46_comment_guarded : forall np text text' before after x c y gx gy gb ga,
    0 < np -> comment (fields c) ->
    text_of (before ++ (x ++ b " " ++ c ++ b " " ++ y) :: after) text ->
    text_of (before ++ (x ++ b " " ++ y) :: after) text' ->
    items (fields x) gx -> line_items (fields y) gy ->
    Forall2 line_items (map fields before) gb -> Forall2 line_items (map fields after) ga ->
    forall r, tok_exec np text r <-> tok_exec np text' r.
Proof.
  intros np text text' before after x c y gx gy gb ga Hnp HC HT HT' HX HY HB HA r.
  assert (G : forall ws, items ws (gx) -> line_items (ws ++ fields y) (gx ++ gy)).
  { intros ws HW. destruct HY as [wy gy HY|wy gy d HY HD]; [apply li_items, items_app; assumption|].
    rewrite app_assoc. apply li_comment; [apply items_app; assumption|exact HD]. }
  assert (F : forall l, line_items (fields l) (gx ++ gy) ->
      Forall2 line_items (map fields (before ++ l :: after)) (gb ++ (gx ++ gy) :: ga)).
  { intros l HL. rewrite map_app. apply Forall2_app; [exact HB|]. cbn [map]. constructor; assumption. }
  rewrite (C42_lines_guarded np text _ (gb ++ (gx ++ gy) :: ga) Hnp HT).
  - rewrite (C42_lines_guarded np text' _ (gb ++ (gx ++ gy) :: ga) Hnp HT'); [reflexivity|].
    apply F. rewrite fields_blank_app. apply G. exact HX.
  - apply F. rewrite !fields_blank_app, app_assoc. apply G. rewrite <- (app_nil_r gx).
    apply items_app; [exact HX|]. apply items_one. constructor. exact HC.
Qed.
Print Assumptions C46_comment_guarded.

(** The same for a comment up to the end of the line. *)
Theorem C46_line_comment_guarded : forall np text text' before after x c gx gb ga,
    0 < np -> line_comment (fields c) ->
    text_of (before ++ (x ++ b " " ++ c) :: after) text -> text_of (before ++ x :: after) text' ->
    items (fields x) gx ->
    Forall2 line_items (map fields before) gb -> Forall2 line_items (map fields after) ga ->
    forall r, tok_exec np text r <-> tok_exec np text' r.
Proof.
  intros np text text' before after x c gx gb ga Hnp HC HT HT' HX HB HA r.
  assert (F : forall l, line_items (fields l) gx ->
      Forall2 line_items (map fields (before ++ l :: after)) (gb ++ gx :: ga)).
  { intros l HL. rewrite map_app. apply Forall2_app; [exact HB|]. cbn [map]. constructor; assumption. }
  rewrite (C42_lines_guarded np text _ (gb ++ gx :: ga) Hnp HT).
  - rewrite (C42_lines_guarded np text' _ (gb ++ gx :: ga) Hnp HT'); [reflexivity|]. apply F, li_items, HX.
  - apply F. rewrite fields_blank_app. apply li_comment; assumption.
Qed.
Print Assumptions C46_line_comment_guarded.

(** And for a comment over several lines, read by one CPU. *)
Theorem C46_lines_guarded : forall text text' before c after gb ga,
    comment (concat (map fields c)) ->
    text_of (before ++ c ++ after) text -> text_of (before ++ after) text' ->
    doc (map fields before) gb -> doc (map fields after) ga ->
    forall r, tok_exec 1 text r <-> tok_exec 1 text' r.
Proof.
  intros text text' before c after gb ga HC HT HT' HB HA r.
  assert (K : forall t lines, text_of lines t -> doc (map fields lines) (gb ++ ga) -> (tok_exec 1 t r <-> delivers (gb ++ ga) r)).
  { intros t lines H D.
    pose proof (proj1 (C43_borders_guarded 1 t lines [gb ++ ga] ltac:(lia) H ltac:(rewrite chunks_one; constructor; [exact D|constructor])) r) as Q.
    cbn [concat] in Q. rewrite app_nil_r in Q. exact Q. }
  rewrite (K text _ HT), (K text' _ HT'); [reflexivity| |].
  - rewrite map_app. apply doc_app; assumption.
  - rewrite !map_app. apply doc_app; [exact HB|]. change ga with ([] ++ ga). constructor; [|exact HA].
    apply items_one. constructor. exact HC.
Qed.
Print Assumptions C46_lines_guarded.

Example C46_example : comment (fields (b "/* set-point")  ++ fields (b "of idle */"))
  /\ line_comment (fields (b "//idle speed")) /\ items (fields (b "A B")) [[b "A"]; [b "B"]].
Proof.
  split; [|split].
  - right. exists (b "/*"), [b "set-point"; b "of"; b "idle"], (b "*/"). split; [reflexivity|].
    split; [split; [exists []; reflexivity|apply no_has; reflexivity]|].
    split; [apply no_has; reflexivity|]. split; [|exists [], []; reflexivity].
    constructor; [|constructor; [|constructor; [|constructor]]]; apply no_has; reflexivity.
  - exists (b "//idle"), [b "speed"]. split; [reflexivity|]. split; [exists (b "idle"); reflexivity|].
    left. apply no_byte. reflexivity.
  - apply items_plain; [apply plain_dec; reflexivity|]. apply items_plain; [apply plain_dec; reflexivity|]. constructor.
Qed.

(** Between begin and its keyword a comment is not skipped; and a comment whose
    first word contains two slashes ends with the line only. *)
Theorem C46_pair_refuted : exists text text' r r',
    text_of [b "/begin /* c */ MODULE"] text /\ text_of [b "/begin MODULE"] text' /\ comment (map b ["/*"; "c"; "*/"]%string)
    /\ tok_exec 1 text r /\ tok_exec 1 text' r'
    /\ option_map tk_list r = Some [b "/begin /*"; b "c"; b "*/"; b "MODULE"; []]
    /\ option_map tk_list r' = Some [b "/begin MODULE"; []].
Proof.
  eexists. eexists. eexists. eexists. split; [apply text_dec; [discriminate|reflexivity]|].
  split; [apply text_dec; [discriminate|reflexivity]|].
  split; [|split; [apply run_is|split; [apply run_is|split; vm_compute; reflexivity]]].
  right. exists (b "/*"), [b "c"], (b "*/"). split; [reflexivity|].
  split; [split; [exists []; reflexivity|apply no_has; reflexivity]|].
  split; [apply no_has; reflexivity|]. split; [|exists [], []; reflexivity].
  constructor; [apply no_has; reflexivity|constructor].
Qed.
Print Assumptions C46_pair_refuted.

Theorem C46_slashes_refuted : exists text r, text_of [b "A /*//*/ B"] text
    /\ tok_exec 1 text r /\ option_map tk_list r = Some [b "A"; []].
Proof.
  eexists. eexists. split; [apply text_dec; [discriminate|reflexivity]|]. split; [apply run_is|vm_compute; reflexivity].
Qed.
Print Assumptions C46_slashes_refuted.

(** ** C47: termination without panic *)

(** Every goroutine finishes with a token list, whatever its part; the
    collector ends under every schedule; and there is always a result. *)
Theorem C47_terminates : forall np text, 0 < np ->
    Forall (fun o => exists l, o = Ok l) (chunkResults np text)
    /\ (forall ls, all_ok (chunkResults np text) = Some ls ->
          completes (cstep tok_absorb 1) (fun s => c_done s = true) (cinit (map (fun l => [l]) ls) []))
    /\ (exists t, tok_exec np text (Some t)) /\ (forall r, tok_exec np text r -> r <> None).
Proof.
  intros np text Hnp. split; [|split; [|split]].
  - apply Forall_forall. intros o H. apply in_map_iff in H. destruct H as (c & <- & _). eexists. apply tokenBuilder_lex.
  - intros ls _. apply collector_completes. lia.
  - eexists. apply run_is.
  - intros r H. apply exec_lex in H. subst r. discriminate.
Qed.
Print Assumptions C47_terminates.

(** The texts that end inside a construct. *)
Example C47_example : run 1 (b "/* a") = Some (Tokens [[]] true) /\ run 1 (QM :: b "a b") = Some (Tokens [[]] true)
  /\ run 1 (b "A /begin") = Some (Tokens [b "A"; []] true) /\ run 3 [] = Some (Tokens [[]] true)
  /\ run 1 (b "A // x /* y") = Some (Tokens [b "A"; []] true).
Proof. repeat split; vm_compute; reflexivity. Qed.
