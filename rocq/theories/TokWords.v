(** Properties C42, C47: the words of a line and the cursor of the token generator, for
    every text. *)
From Coq Require Import String Ascii List Arith NArith Bool Lia.
From Verif Require Import GoBase GoStrings A2lTextSpec TokModel TokSpec TokThm.
Import ListNotations.

(** ** White space of Unicode (property White_Space) *)

Definition whiteSpace : list N :=
  [0x9; 0xA; 0xB; 0xC; 0xD; 0x20; 0x85; 0xA0; 0x1680; 0x2000; 0x2001; 0x2002; 0x2003; 0x2004; 0x2005; 0x2006;
   0x2007; 0x2008; 0x2009; 0x200A; 0x2028; 0x2029; 0x202F; 0x205F; 0x3000]%N.

(** The text contains no white space. *)
Definition free (w : bytes) : Prop := w <> [] /\ forall r x y, In r whiteSpace -> w <> x ++ utf8 r ++ y.

(** The text consists of the words [ws] with white space around them. *)
Inductive separated : bytes -> list bytes -> Prop :=
  | sep_nil : separated [] []
  | sep_space r l ws : In r whiteSpace -> separated l ws -> separated (utf8 r ++ l) ws
  | sep_last w : free w -> separated w [w]
  | sep_word w r l ws : free w -> In r whiteSpace -> separated l ws -> separated (w ++ utf8 r ++ l) (w :: ws).

(** ** Proofs *)

Lemma byte_of : forall n c, byte_is n c = true -> c = ascii_of_N n.
Proof. intros n c H. apply N.eqb_eq in H. rewrite <- H. symmetry. apply ascii_N_embedding. Qed.

Lemma range_of : forall lo hi c, (lo <=? N_of_ascii c)%N && (N_of_ascii c <=? hi)%N = true ->
    exists k, (k <= N.to_nat (hi - lo))%nat /\ c = ascii_of_N (lo + N.of_nat k).
Proof.
  intros lo hi c H. apply andb_true_iff in H. destruct H as [H1 H2]. apply N.leb_le in H1. apply N.leb_le in H2.
  exists (N.to_nat (N_of_ascii c - lo)). split; [lia|]. rewrite N2Nat.id. replace (lo + (N_of_ascii c - lo))%N with (N_of_ascii c) by lia.
  symmetry. apply ascii_N_embedding.
Qed.

Ltac point r := exists r; split; [cbn; auto 30|split; reflexivity].

Lemma width_space : forall s, 0 < space_width s -> exists r t, In r whiteSpace /\ length (utf8 r) = space_width s /\ s = utf8 r ++ t.
Proof.
  assert (G : forall s t w, (exists r, In r whiteSpace /\ length (utf8 r) = w /\ s = utf8 r ++ t) ->
     exists r t', In r whiteSpace /\ length (utf8 r) = w /\ s = utf8 r ++ t') by (intros s t w (r & H); eauto).
  intros s. destruct s as [|c1 r1]; cbn [space_width]; [lia|].
  destruct ((9 <=? N_of_ascii c1)%N && (N_of_ascii c1 <=? 13)%N || byte_is 32 c1) eqn:E1.
  { intros _. apply (G _ r1). apply orb_true_iff in E1. destruct E1 as [E1|E1].
    - apply range_of in E1. destruct E1 as (k & K & ->). cbn in K.
      destruct k as [|[|[|[|[|k]]]]]; [point 9%N|point 10%N|point 11%N|point 12%N|point 13%N|lia].
    - apply byte_of in E1. subst c1. point 32%N. }
  destruct r1 as [|c2 r2]; [lia|].
  destruct (byte_is 0xC2 c1 && (byte_is 0x85 c2 || byte_is 0xA0 c2)) eqn:E2.
  { intros _. apply (G _ r2). apply andb_true_iff in E2. destruct E2 as [A B]. apply byte_of in A. subst c1.
    apply orb_true_iff in B. destruct B as [B|B]; apply byte_of in B; subst c2; [point 0x85%N|point 0xA0%N]. }
  destruct r2 as [|c3 r3]; [lia|].
  match goal with |- context [if ?x then 3 else 0] => destruct x eqn:E3 end; [|lia].
  intros _. apply (G _ r3). rewrite !orb_true_iff, !andb_true_iff, !orb_true_iff in E3.
  destruct E3 as [[[((A & B) & C)|((A & B) & C)]|((A & B) & C)]|((A & B) & C)]; apply byte_of in A; apply byte_of in B; subst c1 c2.
  - apply byte_of in C. subst c3. point 0x1680%N.
  - destruct C as [[[C|C]|C]|C]; try (apply byte_of in C; subst c3); [|point 0x2028%N|point 0x2029%N|point 0x202F%N].
    apply range_of in C. destruct C as (k & K & ->). cbn in K.
    exists (0x2000 + N.of_nat k)%N. do 11 (destruct k as [|k]; [split; [cbn; auto 30|split; reflexivity]|]). lia.
  - apply byte_of in C. subst c3. point 0x205F%N.
  - apply byte_of in C. subst c3. point 0x3000%N.
Qed.

Lemma space_point : forall r t, In r whiteSpace -> space_width (utf8 r ++ t) = length (utf8 r).
Proof. intros r t H. cbn [whiteSpace In] in H. repeat (destruct H as [<-|H]; [reflexivity|]). destruct H. Qed.

Lemma point_first : forall r, In r whiteSpace -> exists c t, utf8 r = c :: t /\ ((N_of_ascii c < 0x80)%N \/ (0xC0 <= N_of_ascii c)%N)
    /\ Forall (fun d => (0x80 <= N_of_ascii d < 0xC0)%N) t.
Proof.
  intros r H. cbn [whiteSpace In] in H.
  repeat (destruct H as [<-|H];
    [do 2 eexists; split; [reflexivity|split; [cbn; first [left; reflexivity|right; intros K; discriminate]|repeat constructor; cbn; intros K; discriminate]]|]).
  destruct H.
Qed.

Lemma width_none : forall s, space_width s = 0 <-> forall r t, In r whiteSpace -> s <> utf8 r ++ t.
Proof.
  intros s. split.
  - intros E r t H ->. rewrite space_point in E by exact H. destruct (point_first r H) as (c & u & E' & _). rewrite E' in E. discriminate.
  - intros H. destruct (space_width s) as [|k] eqn:E; [reflexivity|]. exfalso.
    destruct (width_space s ltac:(lia)) as (r & t & I & _ & ->). exact (H r t I eq_refl).
Qed.

(** White space cannot begin inside a word and end outside. *)
Lemma free_start : forall q r l, q <> [] -> (forall r x y, In r whiteSpace -> q <> x ++ utf8 r ++ y) -> In r whiteSpace ->
    space_width (q ++ utf8 r ++ l) = 0.
Proof.
  intros q r l N F H. apply width_none. intros r' t H' E.
  destruct (point_first r' H') as (c & u & U & _ & V).
  destruct (point_first r H) as (c' & u' & U' & V' & _).
  destruct q as [|d q]; [contradiction|]. rewrite U in E. cbn [app] in E. assert (d = c) by congruence. assert (E2 : q ++ utf8 r ++ l = u ++ t) by congruence. clear E. subst d.
  assert (K : forall q u t, q ++ utf8 r ++ l = u ++ t -> Forall (fun d => (0x80 <= N_of_ascii d < 0xC0)%N) u -> exists y, q = u ++ y).
  { clear - U' V'. induction q as [|d q IH]; intros u t E V.
    - destruct u as [|e u]; [exists []; reflexivity|]. rewrite U' in E. cbn [app] in E. injection E as -> _. inversion V; subst. lia.
    - destruct u as [|e u]; [exists (d :: q); reflexivity|]. cbn [app] in E. assert (D : d = e) by congruence. assert (E2 : q ++ utf8 r ++ l = u ++ t) by congruence.
      inversion V as [|? ? _ V2]; subst. destruct (IH u t E2 V2) as (y & ->). exists y. reflexivity. }
  destruct (K q u t E2 V) as (y & ->). apply (F r' [] y H'). rewrite U. reflexivity.
Qed.

Lemma free_fields : forall w cur l, (forall r x y, In r whiteSpace -> w <> x ++ utf8 r ++ y) ->
    (l = [] \/ exists r t, In r whiteSpace /\ l = utf8 r ++ t) -> fields_aux 0 cur (w ++ l) = fields_aux 0 (rev w ++ cur) l.
Proof.
  induction w as [|c w IH]; intros cur l F L; [reflexivity|]. cbn [app fields_aux].
  assert (W : space_width (c :: w ++ l) = 0).
  { destruct L as [->|(r & t & H & ->)].
    - rewrite app_nil_r. apply width_none. intros r t H. exact (F r [] t H).
    - apply (free_start (c :: w)); [discriminate|exact F|exact H]. }
  rewrite W, IH; [cbn [rev]; rewrite <- app_assoc; reflexivity| |exact L].
  intros r x y H E. apply (F r (c :: x) y H). rewrite E. reflexivity.
Qed.

Lemma skip_fields : forall u k l, length u = k -> fields_aux k [] (u ++ l) = fields_aux 0 [] l.
Proof. induction u as [|c u IH]; intros k l E; subst k; [reflexivity|]. cbn [app length fields_aux]. apply IH. reflexivity. Qed.

Lemma point_fields : forall r cur l, In r whiteSpace -> fields_aux 0 cur (utf8 r ++ l) = emit cur (fields l).
Proof.
  intros r cur l H. pose proof (space_point r l H) as W. destruct (point_first r H) as (c & u & U & _). rewrite U in *.
  cbn [app fields_aux] in *. rewrite W. cbn [length]. rewrite skip_fields by reflexivity. reflexivity.
Qed.

(** The text splits at white space in only one way. *)
Lemma separated_fields : forall l ws, separated l ws -> fields l = ws.
Proof.
  intros l ws H. induction H as [|r l ws H1 H2 IH|w [N F]|w r l ws [N F] H1 H2 IH]; [reflexivity| | |]; unfold fields.
  - rewrite point_fields by exact H1. exact IH.
  - rewrite <- (app_nil_r w) at 1. rewrite free_fields by (auto; exact F). cbn [fields_aux]. apply emit_word. exact N.
  - rewrite free_fields by (eauto; exact F). rewrite point_fields by exact H1. rewrite emit_word by exact N. rewrite IH. reflexivity.
Qed.

Lemma fields_separated : forall n l, length l <= n -> separated l (fields l).
Proof.
  induction n as [|n IH]; intros l L.
  - destruct l; [constructor|cbn in L; lia].
  - (* the longest part before the first white space *)
    assert (P : exists w rest, l = w ++ rest /\ (forall r x y, In r whiteSpace -> w <> x ++ utf8 r ++ y)
      /\ (rest = [] \/ exists r t, In r whiteSpace /\ rest = utf8 r ++ t)).
    { clear. induction l as [|c l (w & rest & -> & F & R)]; [exists [], []; split; [reflexivity|split; [|auto]]|].
      - intros r x y H E. destruct (point_first r H) as (c & u & U & _). rewrite U in E. destruct x; discriminate.
      - destruct (space_width (c :: w ++ rest)) as [|k] eqn:W.
        + exists (c :: w), rest. split; [reflexivity|]. split; [|exact R]. intros r x y H E.
          destruct x as [|d x]; [|injection E as -> E; exact (F r x y H E)].
          apply (proj1 (width_none _) W r (y ++ rest) H). change (c :: w ++ rest) with ((c :: w) ++ rest). rewrite E. cbn [app]. rewrite app_assoc. reflexivity.
        + exists [], (c :: w ++ rest). split; [reflexivity|]. split.
          * intros r x y H E. destruct (point_first r H) as (d & u & U & _). rewrite U in E. destruct x; discriminate.
          * right. destruct (width_space (c :: w ++ rest) ltac:(lia)) as (r & t & H & _ & E). eauto. }
    destruct P as (w & rest & -> & F & R). unfold fields. rewrite free_fields by assumption.
    destruct R as [->|(r & t & H & ->)].
    + rewrite app_nil_r. cbn [fields_aux]. destruct w as [|c w]; [constructor|]. rewrite emit_word by discriminate.
      apply sep_last. split; [discriminate|exact F].
    + rewrite point_fields by exact H. assert (S' : separated t (fields t)).
      { apply IH. rewrite !app_length in L. destruct (point_first r H) as (c & u & U & _). rewrite U in L. cbn in L. lia. }
      destruct w as [|c w]; [apply sep_space; assumption|]. rewrite emit_word by discriminate.
      apply sep_word; [split; [discriminate|exact F]|exact H|exact S'].
Qed.

(** ** C42: words *)

(** The words of a line are what stands between white space, for every text. *)
Theorem C42_white_space : forall l ws, fields l = ws <-> separated l ws.
Proof. intros l ws. split; [intros <-; eapply fields_separated; reflexivity|apply separated_fields]. Qed.
Print Assumptions C42_white_space.

(** A line is blank if it has no words. *)
Theorem C42_blank : forall l, blank l = true <-> separated l [].
Proof.
  intros l. rewrite <- C42_white_space. unfold fields, blank. generalize 0 as k. revert l.
  assert (N : forall l c cur k, fields_aux k (c :: cur) l <> []).
  { induction l as [|d l IH]; intros c cur k.
    - cbn [fields_aux emit]. discriminate.
    - cbn [fields_aux]. destruct k; [|apply IH]. destruct (space_width (d :: l)); [apply IH|discriminate]. }
  induction l as [|c l IH]; intros k; cbn [blank_aux fields_aux]; [cbn; tauto|].
  destruct k as [|k]; [|apply IH]. destruct (space_width (c :: l)) as [|k]; [|apply IH].
  split; [discriminate|]. intros K. exfalso. exact (N _ _ _ _ K).
Qed.
Print Assumptions C42_blank.

Example C42_white_space_example :
  separated (utf8 0x2028 ++ b "km" ++ utf8 0xA0 ++ utf8 0x3000 ++ utf8 0xE9 ++ utf8 0x20) [b "km"; utf8 0xE9]
  /\ ~ separated (b "a" ++ utf8 0xA0 ++ b "b") [b "a" ++ utf8 0xA0 ++ b "b"].
Proof. rewrite <- !C42_white_space. split; [vm_compute; reflexivity|]. intros K. vm_compute in K. discriminate. Qed.

(** ** C47: the cursor *)

(** From a word that is not the last of its line the cursor goes to the next; from
    the last to the first of the next line.  The end of the lines and an empty
    next line are errors; there is no other outcome. *)
Theorem C47_next : forall str o i line w, nth_error str o = Some line -> nth_error line i = Some w ->
    (forall w', nth_error line (i + 1) = Some w' -> moveToNextRawValue str (o, i) = Ok (w', (o, i + 1)))
    /\ (i + 1 = length line -> forall w' line', nth_error str (o + 1) = Some (w' :: line') -> moveToNextRawValue str (o, i) = Ok (w', (o + 1, 0)))
    /\ (i + 1 = length line -> nth_error str (o + 1) = Some [] -> moveToNextRawValue str (o, i) = Err TUnexpected)
    /\ (i + 1 = length line -> o + 1 = length str -> w <> [] -> moveToNextRawValue str (o, i) = Err TEof).
Proof.
  intros str o i line w HO HI. unfold moveToNextRawValue.
  assert (LI : i < length line) by (apply nth_error_Some; rewrite HI; discriminate).
  assert (LO : o < length str) by (apply nth_error_Some; rewrite HO; discriminate).
  split; [|split; [|split]].
  - intros w' HW. assert (L : i + 1 < length line) by (apply nth_error_Some; rewrite HW; discriminate).
    destruct (length str) as [|n]; cbn [moveNext]; rewrite HO; rewrite (proj2 (Nat.ltb_lt _ _) L), (proj2 (Nat.ltb_lt 0 (length line)) ltac:(lia));
      cbn [andb]; unfold index; rewrite HW; reflexivity.
  - intros E w' line' HN. assert (L : o + 1 < length str) by (apply nth_error_Some; rewrite HN; discriminate).
    destruct (length str) as [|n] eqn:EL; [lia|]. cbn [moveNext]. rewrite HO. rewrite (proj2 (Nat.ltb_ge (i + 1) (length line)) ltac:(lia)).
    cbn [andb]. rewrite (proj2 (Nat.eqb_eq (length line) (i + 1)) ltac:(lia)). rewrite EL.
    rewrite (proj2 (Nat.eqb_neq (S n) (o + 1)) ltac:(lia)). cbn [andb obind]. rewrite (proj2 (Nat.ltb_lt (o + 1) (S n)) L). rewrite HN. reflexivity.
  - intros E HN. assert (L : o + 1 < length str) by (apply nth_error_Some; rewrite HN; discriminate).
    destruct (length str) as [|n] eqn:EL; [lia|]. cbn [moveNext]. rewrite HO. rewrite (proj2 (Nat.ltb_ge (i + 1) (length line)) ltac:(lia)).
    cbn [andb]. rewrite (proj2 (Nat.eqb_eq (length line) (i + 1)) ltac:(lia)). rewrite EL.
    rewrite (proj2 (Nat.eqb_neq (S n) (o + 1)) ltac:(lia)). cbn [andb obind]. rewrite (proj2 (Nat.ltb_lt (o + 1) (S n)) L). rewrite HN.
    destruct n; cbn [moveNext]; rewrite HN; reflexivity.
  - intros E1 E2 NW. destruct (length str) as [|n] eqn:EL; [lia|]. cbn [moveNext]. rewrite HO. rewrite (proj2 (Nat.ltb_ge (i + 1) (length line)) ltac:(lia)).
    cbn [andb]. rewrite (proj2 (Nat.eqb_eq (length line) (i + 1)) ltac:(lia)). rewrite EL.
    rewrite (proj2 (Nat.eqb_eq (S n) (o + 1)) ltac:(lia)). cbn [andb]. unfold index. rewrite HI. cbn [obind]. destruct w; [congruence|reflexivity].
Qed.
Print Assumptions C47_next.

Example C47_next_example : let str := [[b "A"; b "B"]; [b "C"]; []] in
  moveToNextRawValue str (0, 0) = Ok (b "B", (0, 1)) /\ moveToNextRawValue str (0, 1) = Ok (b "C", (1, 0))
  /\ moveToNextRawValue str (1, 0) = Err TUnexpected /\ moveToNextRawValue [[b "A"]] (0, 0) = Err TEof.
Proof. vm_compute. repeat split; reflexivity. Qed.
