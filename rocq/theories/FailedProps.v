(** C86: the integers that are stored although their text cannot be read. *)
From Coq Require Import String Ascii List Arith NArith ZArith Bool Lia SpecFloat.
From Verif Require Import GoBase GoBaseFacts StrconvModel A2lIR A2lStrictProps.
Import ListNotations.

(** The text begins with digits whose value does not fit into [k] bits. *)
Definition beyond (k : N) (t : bytes) : Prop := exists d r n, t = d ++ r /\ numeral d n /\ (2 ^ Z.of_N k <= n)%Z.

Lemma tooLarge_iff : forall k t acc, tooLarge k acc t = true <-> exists d r n, t = d ++ r /\ d <> [] /\ digits d acc = Some n /\ (2 ^ k <= n)%N.
Proof.
  intros k. induction t as [|c t IH]; intros acc; cbn [tooLarge].
  - split; [discriminate|]. intros (d & r & n & E & NE & _). destruct d; [congruence|discriminate].
  - destruct (digit_val c) as [x|] eqn:D.
    + destruct (10 * acc + x <? 2 ^ k)%N eqn:L.
      * apply N.ltb_lt in L. rewrite IH. split.
        -- intros (d & r & n & -> & _ & DD & LE). exists (c :: d), r, n. split; [reflexivity|]. split; [discriminate|]. split; [|exact LE]. cbn [digits]. rewrite D. exact DD.
        -- intros (d & r & n & E & NE & DD & LE). destruct d as [|c' d]; [congruence|]. injection E as -> ->. cbn [digits] in DD. rewrite D in DD.
           exists d, r, n. split; [reflexivity|]. split; [|split; assumption]. intros ->. cbn [digits] in DD. assert (n = 10 * acc + x)%N by congruence. lia.
      * apply N.ltb_ge in L. split; [intros _|reflexivity]. exists [c], t, (10 * acc + x)%N. split; [reflexivity|]. split; [discriminate|]. split; [|exact L]. cbn [digits]. rewrite D. reflexivity.
    + split; [discriminate|]. intros (d & r & n & E & NE & DD & _). destruct d as [|c' d]; [congruence|]. injection E as -> ->. cbn [digits] in DD. rewrite D in DD. discriminate.
Qed.
Lemma beyond_iff : forall k t, tooLarge k 0 t = true <-> beyond k t.
Proof.
  intros k t. rewrite tooLarge_iff. assert (P : Z.of_N (2 ^ k) = (2 ^ Z.of_N k)%Z) by (rewrite N2Z.inj_pow; reflexivity). split.
  - intros (d & r & n & E & NE & D & L). exists d, r, (Z.of_N n). split; [exact E|]. split; [apply digits_numeral; assumption|lia].
  - intros (d & r & z & E & N0 & L). destruct (numeral_digits _ _ N0) as [NE (n & D & ->)]. exists d, r, n. repeat split; [exact E|exact NE|exact D|lia].
Qed.
Lemma failedUint_is : forall k t acc, failedUint k acc t = if tooLarge k acc t then (2 ^ k - 1)%N else 0%N.
Proof. intros k. induction t as [|c t IH]; intros acc; cbn [failedUint tooLarge]; [reflexivity|]. destruct (digit_val c); [|reflexivity]. destruct (_ <? _)%N; [apply IH|reflexivity]. Qed.
Lemma allDigits_iff : forall t acc, allDigits t = true <-> exists n, digits t acc = Some n.
Proof.
  induction t as [|c t IH]; intros acc; cbn [allDigits digits]; [split; [eauto|reflexivity]|].
  destruct (digit_val c) as [d|]; [apply IH|]. split; [discriminate|]. intros (n & E). discriminate.
Qed.
Lemma all_numeral : forall t, allDigits t && negb (match t with [] => true | _ => false end) = true <-> exists n, numeral t n.
Proof.
  intros t. rewrite andb_true_iff, (allDigits_iff t 0). split.
  - intros [(n & E) NE]. exists (Z.of_N n). apply digits_numeral; [destruct t; [discriminate|discriminate]|exact E].
  - intros (z & N0). destruct (numeral_digits _ _ N0) as [NE (n & E & _)]. split; [eauto|]. destruct t; [congruence|reflexivity].
Qed.

(** Unsigned: the largest value if the text begins with digits whose value is too
    large, whatever follows, and 0 for every other text that cannot be read. *)
Theorem C86_failed_unsigned : forall pf k t, readNum pf (NUint k) t = None ->
    (beyond k t -> failedNum (NUint k) t = VInt (2 ^ Z.of_N k - 1)) /\ (~ beyond k t -> failedNum (NUint k) t = VInt 0).
Proof.
  intros pf k t _. cbn [failedNum]. rewrite failedUint_is. rewrite <- beyond_iff. destruct (tooLarge k 0 t).
  - split; [intros _|congruence]. f_equal. rewrite N2Z.inj_sub, N2Z.inj_pow; [reflexivity|]. pose proof (N.pow_nonzero 2 k ltac:(discriminate)). lia.
  - split; [discriminate|reflexivity].
Qed.
Print Assumptions C86_failed_unsigned.

(** Signed: the bound of that sign if the text is a number outside of the type, or if
    it begins with digits whose value is too large for an unsigned number of that
    width; 0 for every other text that cannot be read. *)
Definition withSign (t : bytes) (neg : bool) (u : bytes) : Prop :=
  t = "+"%char :: u /\ neg = false \/ t = "-"%char :: u /\ neg = true
  \/ t = u /\ neg = false /\ forall r, t <> "+"%char :: r /\ t <> "-"%char :: r.
Theorem C86_failed_signed : forall pf k t neg u, readNum pf (NInt k) t = None -> withSign t neg u ->
    let bound := (if neg then - 2 ^ (Z.of_N k - 1) else 2 ^ (Z.of_N k - 1) - 1)%Z in
    (beyond k u \/ (exists n, numeral u n) -> failedNum (NInt k) t = VInt bound)
    /\ (~ beyond k u -> (forall n, ~ numeral u n) -> failedNum (NInt k) t = VInt 0).
Proof.
  intros pf k t neg u _ W bound. cbn [failedNum]. unfold failedInt.
  assert (E : match t with "+"%char :: r => (false, r) | "-"%char :: r => (true, r) | _ => (false, t) end = (neg, u)).
  { destruct W as [[-> ->]|[[-> ->]|(-> & -> & W)]]; [reflexivity|reflexivity|]. destruct u as [|c u]; [reflexivity|]. destruct (W u) as [W1 W2].
    destruct c as [[] [] [] [] [] [] [] []]; try reflexivity; congruence. }
  rewrite E. pose proof (beyond_iff k u) as B. pose proof (all_numeral u) as A.
  destruct (tooLarge k 0 u || allDigits u && negb match u with [] => true | _ :: _ => false end) eqn:O.
  - split.
    + intros _. unfold bound. destruct neg; reflexivity.
    + intros N1 N2. apply orb_true_iff in O. destruct O as [O|O]; [apply B in O; contradiction|]. apply A in O. destruct O as (n & O). destruct (N2 n O).
  - apply orb_false_iff in O. destruct O as [O1 O2]. split; [|intros _ _; reflexivity]. intros [H|H]; [apply B in H|apply A in H]; congruence.
Qed.
Print Assumptions C86_failed_signed.

(** 300 and 300x for a byte, 12x; -200 for a signed byte, +, -x, 200 and 999x. *)
Example C86_failed_example :
  let u k s := (readNum ParseFloat (NUint k) (b s), failedNum (NUint k) (b s)) in
  let i k s := (readNum ParseFloat (NInt k) (b s), failedNum (NInt k) (b s)) in
  (beyond 8 (b "300x") /\ u 8%N "300"%string = (None, VInt 255) /\ u 8%N "300x"%string = (None, VInt 255) /\ u 8%N "12x"%string = (None, VInt 0))
  /\ (withSign (b "-200") true (b "200") /\ withSign (b "999x") false (b "999x"))
  /\ i 8%N "-200"%string = (None, VInt (-128)) /\ i 8%N "200"%string = (None, VInt 127) /\ i 8%N "999x"%string = (None, VInt 127)
  /\ i 8%N "200x"%string = (None, VInt 0) /\ i 8%N "+"%string = (None, VInt 0) /\ i 8%N ""%string = (None, VInt 0) /\ i 8%N "-x"%string = (None, VInt 0).
Proof.
  split; [split; [|vm_compute; auto]|]. { apply beyond_iff. vm_compute. reflexivity. }
  split; [split; [right; left; split; reflexivity|right; right; split; [reflexivity|split; [reflexivity|intros r; split; discriminate]]]|].
  vm_compute. repeat split; reflexivity.
Qed.
