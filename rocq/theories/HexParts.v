(** The parts of a file (HexSpec) are those of the goroutines. *)
From Coq Require Import String Ascii List Arith NArith Bool Lia.
From Verif Require Import GoBase GoBaseFacts HexSpec HexSpecFacts.
Import ListNotations.

Lemma part_chunk : forall np l g, g < np -> part np l g = chunk np l g.
Proof.
  intros np l g Hg. unfold part, chunk, chunk_end, chunk_start.
  rewrite (Nat.mul_comm g). destruct (g + 1 =? np).
  - symmetry. apply firstn_all2. rewrite skipn_length. lia.
  - f_equal. lia.
Qed.

Lemma kept_chunks : forall ok np l, kept ok np l = flat_map (until_bad ok) (chunks np l).
Proof.
  intros ok np l. unfold kept, chunks. rewrite !flat_map_concat_map, map_map. f_equal.
  apply map_ext_in. intros g Hg. apply in_seq in Hg. rewrite part_chunk by lia. reflexivity.
Qed.

Lemma until_bad_ok : forall ok l, Forall (fun x => ok x = true) (until_bad ok l).
Proof.
  intros ok l. induction l as [|x l IH]; [constructor|]. cbn. destruct (ok x) eqn:E; constructor; assumption.
Qed.
Lemma kept_ok : forall ok np l, Forall (fun x => ok x = true) (kept ok np l).
Proof.
  intros ok np l. apply Forall_forall. intros x Hx. unfold kept in Hx. apply in_flat_map in Hx.
  destruct Hx as (g & _ & Hx). revert x Hx. apply Forall_forall, until_bad_ok.
Qed.

Lemma until_bad_In : forall ok l x, In x (until_bad ok l) -> In x l.
Proof.
  intros ok l. induction l as [|y l IH]; intros x H; [contradiction|]. cbn in H.
  destruct (ok y); [|contradiction]. destruct H as [H|H]; [left; exact H|right; apply IH, H].
Qed.
Lemma part_In : forall np l g x, In x (part np l g) -> In x l.
Proof.
  intros np l g x H. unfold part in H.
  assert (Hs : In x (skipn (g * (List.length l / np)) l)).
  { destruct (g + 1 =? np); [exact H|].
    rewrite <- (firstn_skipn (List.length l / np)). apply in_or_app. left. exact H. }
  rewrite <- (firstn_skipn (g * (List.length l / np)) l). apply in_or_app. right. exact Hs.
Qed.
Lemma kept_In : forall ok np l x, In x (kept ok np l) -> In x l.
Proof.
  intros ok np l x H. unfold kept in H. apply in_flat_map in H. destruct H as (g & _ & H).
  eapply part_In, until_bad_In, H.
Qed.

Lemma until_bad_all : forall ok l, Forall (fun x => ok x = true) l -> until_bad ok l = l.
Proof. intros ok l H. induction H as [|x l E H IH]; [reflexivity|]. cbn. rewrite E, IH. reflexivity. Qed.

(** One reader that stops at the first unacceptable line. *)
Lemma stops_kept : forall B (read : list bytes -> list B) (one : bytes -> list B) ok,
    (forall l ls, ok l = true -> read (l :: ls) = one l ++ read ls) ->
    (forall l ls, ok l = false -> read (l :: ls) = []) -> read [] = [] ->
    forall np l, flat_map read (chunks np l) = flat_map one (kept ok np l).
Proof.
  intros B read one ok H1 H2 H0 np l. rewrite kept_chunks.
  assert (E : forall c, read c = flat_map one (until_bad ok c)).
  { induction c as [|x c IH]; [exact H0|]. cbn [until_bad]. destruct (ok x) eqn:Ex.
    - rewrite (H1 x c Ex), IH. reflexivity.
    - rewrite (H2 x c Ex). reflexivity. }
  induction (chunks np l) as [|c cs IH]; [reflexivity|]. cbn [flat_map]. rewrite E, IH, flat_map_app. reflexivity.
Qed.

(** If only the first line is unacceptable, the first part that has it is lost. *)
Lemma kept_first : forall ok np h l, 0 < np -> ok h = false -> Forall (fun x => ok x = true) l ->
    kept ok np (h :: l) = after_part np (h :: l).
Proof.
  intros ok np h l Hnp Hh Hl. set (L := h :: l). unfold after_part.
  destruct np as [|np]; [lia|].
  assert (Hz : forall g, part (S np) L g = [] \/ hd_error (part (S np) L g) = Some h -> until_bad ok (part (S np) L g) = []).
  { intros g [->|E]; [reflexivity|]. destruct (part (S np) L g) as [|x p]; [discriminate|].
    cbn in E. inversion E; subst. cbn. rewrite Hh. reflexivity. }
  destruct ((1 <? S np) && (S np <=? List.length L)) eqn:C.
  - apply andb_true_iff in C. destruct C as [C1 C2]. apply Nat.ltb_lt in C1. apply Nat.leb_le in C2.
    assert (Q : 1 <= List.length L / S np) by (apply Nat.div_le_lower_bound; lia).
    pose proof (@concat_chunks _ (S np) L Hnp) as HC.
    unfold kept. cbn [seq flat_map]. rewrite Hz.
    + cbn [app]. unfold chunks in HC. cbn [seq map concat] in HC.
      assert (E0 : chunk (S np) L 0 = firstn (List.length L / S np) L).
      { rewrite <- part_chunk by lia. unfold part. cbn [Nat.mul skipn Nat.add].
        destruct (1 =? S np) eqn:E; [apply Nat.eqb_eq in E; lia|]. reflexivity. }
      rewrite E0 in HC. apply (fun H => eq_trans H (eq_sym (firstn_skipn (List.length L / S np) L))) in HC.
      apply app_inv_head in HC. rewrite <- HC. rewrite flat_map_concat_map. f_equal. apply map_ext_in.
      intros g Hg. pose proof Hg as Hg'. apply in_seq in Hg'. rewrite part_chunk by lia.
      apply until_bad_all. apply Forall_forall. intros x Hx. rewrite Forall_forall in Hl. apply Hl.
      assert (In x (skipn (List.length L / S np) L)).
      { rewrite <- HC. apply in_concat. exists (chunk (S np) L g). split; [apply in_map, Hg|exact Hx]. }
      destruct (List.length L / S np) as [|q]; [lia|]. cbn [skipn] in H. unfold L in H.
      rewrite <- (firstn_skipn q l). apply in_or_app. right. exact H.
    + right. unfold part. cbn [Nat.mul skipn Nat.add].
      destruct (1 =? S np); [reflexivity|]. destruct (List.length L / S np); [lia|reflexivity].
  - unfold kept. assert (Ha : forall g, In g (seq 0 (S np)) -> until_bad ok (part (S np) L g) = []).
    { intros g Hg. apply in_seq in Hg. apply Hz. unfold part. apply andb_false_iff in C.
      assert (Q : List.length L / S np = 0 \/ S np = 1).
      { destruct C as [C|C]; [apply Nat.ltb_ge in C; right; lia|].
        left. apply Nat.div_small. apply Nat.leb_gt in C. exact C. }
      destruct Q as [Q|Q].
      - rewrite Q, Nat.mul_0_r. cbn [skipn]. destruct (g + 1 =? S np); [right; reflexivity|left; reflexivity].
      - assert (g = 0) by lia. subst g. rewrite Q. right. reflexivity. }
    induction (seq 0 (S np)) as [|g gs IH]; [reflexivity|]. cbn [flat_map].
    rewrite Ha by (left; reflexivity). apply IH. intros g' Hg'. apply Ha. right. exact Hg'.
Qed.
