From Coq Require Import String Ascii List Arith NArith Bool Lia.
From Verif Require Import GoBase GoStrings.
Import ListNotations.
Set Implicit Arguments.

Lemma beqb_eq : forall x y, beqb x y = true <-> x = y.
Proof.
  induction x as [|c x IH]; intros [|d y]; cbn [beqb]; try (split; congruence).
  rewrite andb_true_iff, Ascii.eqb_eq, IH. split; [intros [-> ->]; reflexivity|].
  intros H; inversion H; subst; auto.
Qed.

Lemma beqb_refl : forall x, beqb x x = true.
Proof. intros x. apply beqb_eq. reflexivity. Qed.

Lemma beqb_neq : forall x y, beqb x y = false <-> x <> y.
Proof.
  intros x y. destruct (beqb x y) eqn:E.
  - apply beqb_eq in E. split; congruence.
  - split; [|reflexivity]. intros _ ->. rewrite beqb_refl in E. discriminate.
Qed.

Lemma bytes_dec : forall x y : bytes, x = y \/ x <> y.
Proof.
  intros x y. destruct (beqb x y) eqn:E; [left; apply beqb_eq; exact E|right; apply beqb_neq; exact E].
Qed.

Lemma slice_ok : forall E A (s : list A) lo hi, lo <= hi -> hi <= length s ->
    @slice E A s lo hi = Ok (firstn (hi - lo) (skipn lo s)).
Proof.
  intros E A s lo hi H1 H2. unfold slice.
  apply Nat.leb_le in H1. apply Nat.leb_le in H2. rewrite H1, H2. reflexivity.
Qed.

Lemma chunk_bounds : forall len np i, i < np ->
    chunk_start len np i <= chunk_end len np i <= len.
Proof.
  intros len np i Hi. unfold chunk_end, chunk_start.
  assert (Hm : np * (len / np) <= len) by (apply Nat.mul_div_le; lia).
  destruct (i + 1 =? np) eqn:E.
  - apply Nat.eqb_eq in E. split; [|lia].
    transitivity (np * (len / np)); [|lia]. nia.
  - apply Nat.eqb_neq in E. nia.
Qed.

Lemma chunk_end_next : forall len np i, S i < np ->
    chunk_end len np i = chunk_start len np (S i).
Proof.
  intros len np i Hi. unfold chunk_end, chunk_start.
  assert ((i + 1 =? np) = false) as -> by (apply Nat.eqb_neq; lia). lia.
Qed.

Lemma skipn_skipn_add : forall A (l : list A) n m, skipn n (skipn m l) = skipn (m + n) l.
Proof.
  intros A l. induction l as [|x l IH]; intros n m.
  - rewrite !skipn_nil. reflexivity.
  - destruct m as [|m]; [reflexivity|]. cbn [skipn plus]. apply IH.
Qed.

Lemma firstn_skipn_glue : forall A (l : list A) a c e, a <= c <= e -> e <= length l ->
    firstn (c - a) (skipn a l) ++ firstn (e - c) (skipn c l) = firstn (e - a) (skipn a l).
Proof.
  intros A l a c e H1 H2.
  replace (e - a) with ((c - a) + (e - c)) by lia.
  replace (skipn c l) with (skipn (c - a) (skipn a l)).
  2:{ rewrite skipn_skipn_add. f_equal. lia. }
  revert H2. generalize (skipn a l) as l'. intros l' _. 
  generalize (c - a) as n, (e - c) as m. clear.
  induction l' as [|x l' IH]; intros n m.
  - rewrite skipn_nil, !firstn_nil. reflexivity.
  - destruct n as [|n]; [reflexivity|]. cbn [firstn skipn app plus]. f_equal. apply IH.
Qed.

Lemma chunk_start_0 : forall len np, chunk_start len np 0 = 0.
Proof. intros. unfold chunk_start. lia. Qed.

Lemma concat_chunks_upto : forall A np (l : list A) k, 0 < k <= np ->
    concat (map (chunk np l) (seq 0 k)) = firstn (chunk_end (length l) np (k - 1)) l.
Proof.
  intros A np l. induction k as [|k IH]; intros Hk; [lia|].
  rewrite seq_S, map_app, concat_app. cbn [map concat plus].
  rewrite app_nil_r. destruct k as [|k].
  - cbn [seq map concat app]. unfold chunk.
    rewrite chunk_start_0. cbn [skipn]. rewrite Nat.sub_0_r. reflexivity.
  - rewrite IH by lia. replace (S k - 1) with k by lia.
    replace (S (S k) - 1) with (S k) by lia. unfold chunk.
    pose proof (@chunk_bounds (length l) np (S k)) as B1.
    pose proof (@chunk_bounds (length l) np k) as B2.
    rewrite (@chunk_end_next _ _ k) by lia.
    pose proof (@firstn_skipn_glue _ l 0 (chunk_start (length l) np (S k))
                  (chunk_end (length l) np (S k))) as G.
    cbn [skipn] in G. rewrite !Nat.sub_0_r in G.
    apply G; [|]; lia.
Qed.

(** The parts handed to the workers are the whole list, in order. *)
Theorem concat_chunks : forall A np (l : list A), 0 < np -> concat (chunks np l) = l.
Proof.
  intros A np l Hnp. unfold chunks. rewrite concat_chunks_upto by lia.
  unfold chunk_end. replace (np - 1 + 1) with np by lia. rewrite Nat.eqb_refl.
  apply firstn_all.
Qed.

Lemma chunks_length : forall A np (l : list A), length (chunks np l) = np.
Proof. intros. unfold chunks. rewrite map_length, seq_length. reflexivity. Qed.


Lemma lookup_insert : forall a v m a', lookup a' (insert a v m) = if (a =? a')%N then Some v else lookup a' m.
Proof. reflexivity. Qed.

Lemma lookup_In : forall m a v, lookup a m = Some v -> In (a, v) m.
Proof.
  induction m as [|[k w] m IH]; intros a v H; cbn in H; [discriminate|].
  destruct (k =? a)%N eqn:E.
  - apply N.eqb_eq in E. inversion H; subst. left; reflexivity.
  - right. apply IH, H.
Qed.

Lemma lookup_None : forall m a, lookup a m = None <-> ~ In a (map fst m).
Proof.
  induction m as [|[k w] m IH]; intros a; cbn; [tauto|].
  destruct (k =? a)%N eqn:E.
  - apply N.eqb_eq in E. subst. split; [discriminate|]. intros H; exfalso; apply H; left; reflexivity.
  - apply N.eqb_neq in E. rewrite IH. tauto.
Qed.

Lemma lookup_NoDup : forall m a v, NoDup (map fst m) -> In (a, v) m -> lookup a m = Some v.
Proof.
  induction m as [|[k w] m IH]; intros a v Hn Hi; cbn in *; [contradiction|].
  inversion Hn as [|x l Hx Hl]; subst. destruct Hi as [Hi|Hi].
  - inversion Hi; subst. rewrite N.eqb_refl. reflexivity.
  - destruct (k =? a)%N eqn:E; [|apply IH; assumption].
    apply N.eqb_eq in E; subst. exfalso. apply Hx.
    apply in_map_iff. exists (a, v). split; [reflexivity|exact Hi].
Qed.
