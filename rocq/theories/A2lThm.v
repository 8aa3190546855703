(** The result of a parser does not depend on the bound for its loops. *)
From Coq Require Import String Ascii List Arith NArith ZArith Bool Lia SpecFloat.
From Verif Require Import GoBase GoBaseFacts A2lIR A2lTokens A2lCheck.
Import ListNotations.

Section Fuel.
  Variable kw : bytes -> bool.
  Variable toks : list bytes.
  Variable pf : bytes -> option spec_float.
  Variables m n : nat.
  Hypothesis mn : m <= n.

  Lemma iter_mono : forall f h s, (forall s, f s <> Fuel -> h s = f s) -> forall m n, m <= n -> iter m f s <> Fuel -> iter n h s = iter m f s.
  Proof.
    intros f h s H m'. revert s. induction m' as [|m' IH]; intros s n' L N; [contradiction|].
    destruct n' as [|n']; [lia|]. cbn [iter] in *. destruct (f s) eqn:E.
    - rewrite H, E by congruence. apply IH; [lia|exact N].
    - rewrite H, E by congruence. reflexivity.
    - rewrite H, E by congruence. reflexivity.
    - contradiction.
  Qed.

  Lemma fuel_mono :
      (forall x s, exec kw toks pf m x s <> Fuel -> exec kw toks pf n x s = exec kw toks pf m x s)
   /\ (forall k s, run kw toks pf m k s <> Fuel -> run kw toks pf n k s = run kw toks pf m k s)
   /\ (forall cs t s, pick kw toks pf m cs t s <> Some Fuel -> pick kw toks pf n cs t s = pick kw toks pf m cs t s)
   /\ (forall g i, call kw toks pf m g i <> FFuel -> call kw toks pf n g i = call kw toks pf m g i).
  Proof.
    apply ir_ind; try (intros; reflexivity).
    - intros f g IH s N. rewrite !exec_callF in *. destruct (call kw toks pf m g (s_idx s)) eqn:E.
      + rewrite IH, E by congruence. reflexivity.
      + rewrite IH, E by congruence. reflexivity.
      + contradiction.
    - intros f g IH s N. rewrite !exec_callV in *. destruct (call kw toks pf m g (s_idx s)) eqn:E.
      + rewrite IH, E by congruence. reflexivity.
      + rewrite IH, E by congruence. reflexivity.
      + contradiction.
    - intros c k IH k' IH' s N. rewrite !exec_if in *. destruct (test kw toks c s); auto.
    - intros r cs IHc d IHd s N. rewrite !exec_switch in *.
      destruct (pick kw toks pf m cs (fst (readSrc toks r s)) (snd (readSrc toks r s))) eqn:E.
      + rewrite IHc, E by congruence. reflexivity.
      + rewrite IHc, E by congruence. auto.
    - intros x IHx k IHk s N. rewrite !run_seq in *. destruct (exec kw toks pf m x s) eqn:E.
      + rewrite IHx, E by congruence. auto.
      + rewrite IHx, E by congruence. reflexivity.
      + rewrite IHx, E by congruence. reflexivity.
      + contradiction.
    - intros t k IHk cs IHc t' s N. rewrite !pick_case in *. destruct (beqb t' (b t)); auto. f_equal. apply IHk. congruence.
    - intros k IHk i N. rewrite !call_straight in *. destruct (run kw toks pf m k (St [] [] false i)) eqn:E;
        try (rewrite IHk, E by congruence; reflexivity).
    - intros pre IHp body IHb i N. rewrite !call_loop in *. destruct (run kw toks pf m pre (St [] [] false i)) eqn:E;
        try (rewrite IHp, E by congruence; reflexivity). rewrite IHp, E by congruence.
      destruct (iter m (run kw toks pf m body) s) eqn:E'.
      all: try (rewrite (iter_mono _ _ s IHb m n mn), E' by congruence; reflexivity).
  Qed.
End Fuel.
