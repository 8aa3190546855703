(** No error is lost: an analysis of the parsers, and its soundness. *)
From Coq Require Import String Ascii List Arith NArith ZArith Bool Lia SpecFloat.
From Verif Require Import GoBase GoBaseFacts A2lIR A2lTokens A2lCheck A2lStrictSpec.
Import ListNotations.

(** ** An analysis: no error is lost *)

(** no error so far; the error is set; an error was met and is no longer set *)
Inductive es := Fine | Failed | Lost_.
Definition eseqb (x y : es) : bool := match x, y with Fine, Fine | Failed, Failed | Lost_, Lost_ => true | _, _ => false end.
Definition ehas (x : es) (l : list es) : bool := existsb (eseqb x) l.
Definition eadd (x : es) (l : list es) : list es := if ehas x l then l else x :: l.
Definition eunion (l m : list es) : list es := fold_right eadd m l.

Definition eout := (list es * list es)%type.
Definition eor (x y : eout) : eout := (eunion (fst x) (fst y), eunion (snd x) (snd y)).
Fixpoint eall (f : es -> eout) (l : list es) : eout := match l with [] => ([], []) | a :: l' => eor (f a) (eall f l') end.
Definition ethen (x : eout) (f : es -> eout) : eout := eor ([], snd x) (eall f (fst x)).
Fixpoint erounds (n : nat) (body : es -> eout) (l : list es) : option (list es) :=
  match n with
  | 0 => None
  | S n' => let '(gs, os) := eall body l in
            if forallb (fun g => ehas g l) gs then Some os else erounds n' body (eunion gs l)
  end.

(** a statement that sets the error *)
Definition sets (a : es) : list es := match a with Fine => [Fine; Failed] | _ => [Failed; Lost_] end.
Fixpoint eT (c : cond) (a : es) : list es :=
  match c with ErrSet => (match a with Failed => [a] | _ => [] end) | Or c d => eunion (eT c a) (eT d a) | _ => [a] end.
Fixpoint eF (c : cond) (a : es) : list es :=
  match c with ErrSet => (match a with Failed => [] | _ => [a] end) | Or c d => flat_map (eF d) (eF c a) | _ => [a] end.

Fixpoint est (x : stmt) (a : es) : eout :=
  match x with
  | Num _ _ _ => (sets a, [])
  | CallF _ _ | CallV _ _ => (sets a, [])
  | Raise => ([Failed], [])
  | Break => ([], [a])
  | If c k d => eor (eall (ebl k) (eT c a)) (eall (ebl d) (eF c a))
  | Switch _ cs d => eor (eca cs a) (ebl d a)
  | _ => ([a], [])
  end
with ebl (k : block) (a : es) : eout :=
  match k with Skip => ([a], []) | Seq x k' => ethen (est x a) (ebl k') end
with eca (cs : cases) (a : es) : eout :=
  match cs with Default => ([], []) | Case _ k cs' => eor (ebl k a) (eca cs' a) end.

Section Lax.
Variable lax : fn -> bool.

(** no error is lost, in the function and in all functions that it calls *)
Fixpoint cst (x : stmt) : bool :=
  match x with
  | CallF _ g | CallV _ g => lax g || efn g
  | If _ k d => cbl k && cbl d
  | Switch _ cs d => cca cs && cbl d
  | _ => true
  end
with cbl (k : block) : bool := match k with Skip => true | Seq x k' => cst x && cbl k' end
with cca (cs : cases) : bool := match cs with Default => true | Case _ k cs' => cbl k && cca cs' end
with efn (g : fn) : bool :=
  match g with
  | Enum _ _ => true
  | Straight k => cbl k && negb (ehas Lost_ (fst (ebl k Fine) ++ snd (ebl k Fine)))
  | Loop pre body => cbl pre && cbl body &&
      match erounds 6 (ebl body) (fst (ebl pre Fine)) with Some os' => negb (ehas Lost_ (snd (ebl pre Fine) ++ os')) | None => false end
  end.
End Lax.

(** ** The analysis is sound *)

Lemma eseqb_eq : forall x y, eseqb x y = true -> x = y.
Proof. intros [| |] [| |] H; try discriminate; reflexivity. Qed.
Lemma ehas_in : forall x l, ehas x l = true -> In x l.
Proof. intros x l H. apply existsb_exists in H. destruct H as (y & I & E). apply eseqb_eq in E. subst. exact I. Qed.
Lemma in_ehas : forall x l, In x l -> ehas x l = true.
Proof. intros x l H. apply existsb_exists. exists x. split; [exact H|destruct x; reflexivity]. Qed.
Lemma in_eadd : forall x y l, In x (y :: l) -> In x (eadd y l).
Proof. intros x y l H. unfold eadd. destruct (ehas y l) eqn:E; [|exact H]. destruct H as [<-|H]; [apply ehas_in, E|exact H]. Qed.
Lemma in_eunion : forall x l m, In x l \/ In x m -> In x (eunion l m).
Proof.
  intros x l m. induction l as [|y l IH]; intros [H|H]; cbn [eunion fold_right] in *; try contradiction; try exact H; apply in_eadd.
  - destruct H as [<-|H]; [left; reflexivity|right; apply IH; left; exact H].
  - right. apply IH. right. exact H.
Qed.

Section Sound.
  Variable toks : list bytes.
  Variable pf : bytes -> option spec_float.
  Variable fuel : nat.
  Variable lax : fn -> bool.

  Notation exec := (exec isKeyword toks pf fuel).
  Notation run := (run isKeyword toks pf fuel).
  Notation pick := (pick isKeyword toks pf fuel).
  Notation call := (call isKeyword toks pf fuel).
  Notation test := (test isKeyword toks).
  Notation stmtOk := (stmtOk toks pf fuel lax).
  Notation blockOk := (blockOk toks pf fuel lax).
  Notation casesOk := (casesOk toks pf fuel lax).
  Notation fnOk := (fnOk toks pf fuel lax).

  Definition sim (a : es) (s : st) : Prop := match a with Failed => s_err s = true | _ => s_err s = false end.
  (** what the strict run has to give *)
  Definition agrees (a : es) (q r : option flow) : Prop := match a with Fine => q = r | _ => q = None end.
  Definition goes (s : st) : option flow := Some (Goes (s_obj s) (s_var s) (s_idx s)).
  Definition leaves (s : st) : option flow := Some (Leaves (s_obj s) (s_var s) (s_idx s)).

  Definition covers (r : res) (q : option flow) (o : eout) : Prop :=
    match r with
    | Go s => exists a, In a (fst o) /\ sim a s /\ agrees a q (goes s)
    | Out s => exists a, In a (snd o) /\ sim a s /\ agrees a q (leaves s)
    | Bad | Fuel => q = None
    end.
  Definition start (a : es) (q : option flow) : option flow := match a with Fine => q | _ => None end.

  Lemma covers_l : forall r q x y, covers r q x -> covers r q (eor x y).
  Proof. intros [s|s| |] q x y H; cbn in *; auto; destruct H as (a & I & G); exists a; (split; [apply in_eunion; auto|exact G]). Qed.
  Lemma covers_r : forall r q x y, covers r q y -> covers r q (eor x y).
  Proof. intros [s|s| |] q x y H; cbn in *; auto; destruct H as (a & I & G); exists a; (split; [apply in_eunion; auto|exact G]). Qed.

  Lemma eall_ok : forall (f : es -> eout) (R : st -> res) (Q : fields -> fields -> nat -> option flow) l,
      (forall a s, sim a s -> covers (R s) (start a (Q (s_obj s) (s_var s) (s_idx s))) (f a)) ->
      forall a s, In a l -> sim a s -> covers (R s) (start a (Q (s_obj s) (s_var s) (s_idx s))) (eall f l).
  Proof.
    intros f R Q. induction l as [|a0 l IH]; intros H a s I G; [contradiction|]. cbn [eall].
    destruct I as [->|I]; [apply covers_l, H, G|apply covers_r; eapply IH; eassumption].
  Qed.

  Lemma eT_ok : forall c a s, sim a s -> test c s = true -> In a (eT c a).
  Proof.
    induction c as [? | |? |? ?|? ?| |c IHc d IHd]; intros a st G T; cbn [eT]; try (left; reflexivity).
    - cbn in T. destruct a; cbn in G; try congruence. left. reflexivity.
    - cbn [A2lIR.test] in T. apply in_eunion. apply orb_true_iff in T. destruct T as [T|T]; [left; eapply IHc|right; eapply IHd]; eassumption.
  Qed.
  Lemma eF_ok : forall c a s, sim a s -> test c s = false -> In a (eF c a).
  Proof.
    induction c as [? | |? |? ?|? ?| |c IHc d IHd]; intros a st G T; cbn [eF]; try (left; reflexivity).
    - cbn in T. destruct a; cbn in G; try congruence; left; reflexivity.
    - cbn [A2lIR.test] in T. apply orb_false_iff in T. destruct T as [T1 T2]. apply in_flat_map. exists a. split; [eapply IHc|eapply IHd]; eassumption.
  Qed.

  Lemma test_plain : forall c s, s_err s = false -> test c (plain (s_obj s) (s_var s) (s_idx s)) = test c s.
  Proof. intros c [o v e i] H. cbn in *. subst e. reflexivity. Qed.
  Lemma st_plain : forall s, s_err s = false -> plain (s_obj s) (s_var s) (s_idx s) = s.
  Proof. intros [o v e i] H. cbn in *. subst e. reflexivity. Qed.

  Lemma erounds_ok : forall (f : es -> eout) (R : st -> res) (Q : fields -> fields -> nat -> option flow),
      (forall a s, sim a s -> covers (R s) (start a (Q (s_obj s) (s_var s) (s_idx s))) (f a)) ->
      forall n l os, erounds n f l = Some os -> forall k a s, In a l -> sim a s ->
      match iter k R s with
      | Go s' => exists o, In o os /\ sim o s' /\ agrees o (start a (repeatOk k Q (s_obj s) (s_var s) (s_idx s))) (leaves s')
      | Out _ => False
      | Bad | Fuel => start a (repeatOk k Q (s_obj s) (s_var s) (s_idx s)) = None
      end.
  Proof.
    intros f R Q H. induction n as [|n IH]; intros l os E; [discriminate|]. cbn [erounds] in E.
    destruct (eall f l) as [gs os'] eqn:A. destruct (forallb (fun g => ehas g l) gs) eqn:C.
    - injection E as <-. rewrite forallb_forall in C. induction k as [|k IHk]; intros a s I G; [destruct a; reflexivity|]. cbn [iter repeatOk].
      pose proof (eall_ok f R Q l H a s I G) as K. rewrite A in K. destruct (R s) as [s1|s1| |]; cbn [covers fst snd] in K.
      + destruct K as (g & IG & GG & AG). specialize (IHk g s1 (ehas_in _ _ (C g IG)) GG).
        assert (T : start g (repeatOk k Q (s_obj s1) (s_var s1) (s_idx s1)) =
                    start a (match Q (s_obj s) (s_var s) (s_idx s) with Some (Goes o' v' i') => repeatOk k Q o' v' i' | r => r end)).
        { destruct g; cbn [agrees start] in *.
          - destruct a; cbn [start] in *; try discriminate. rewrite AG. reflexivity.
          - destruct a; cbn [start] in *; try reflexivity. rewrite AG. reflexivity.
          - destruct a; cbn [start] in *; try reflexivity. rewrite AG. reflexivity. }
        rewrite T in IHk. exact IHk.
      + destruct K as (g & IG & GG & AG). exists g. split; [exact IG|]. split; [exact GG|].
        destruct a; cbn [start] in *; try exact AG. destruct g; cbn [agrees] in *; rewrite AG; reflexivity.
      + destruct a; cbn [start] in *; try reflexivity. rewrite K. reflexivity.
      + destruct a; cbn [start] in *; try reflexivity. rewrite K. reflexivity.
    - intros k a s I G. eapply IH; [exact E|apply in_eunion; right; exact I|exact G].
  Qed.

  Definition okS (x : stmt) : Prop := cst lax x = true -> forall a s, sim a s ->
    covers (exec x s) (start a (stmtOk x (s_obj s) (s_var s) (s_idx s))) (est x a).
  Definition okB (k : block) : Prop := cbl lax k = true -> forall a s, sim a s ->
    covers (run k s) (start a (blockOk k (s_obj s) (s_var s) (s_idx s))) (ebl k a).
  Definition okC (cs : cases) : Prop := cca lax cs = true -> forall t a s, sim a s ->
    match pick cs t s with
    | Some r => exists q, casesOk cs t (s_obj s) (s_var s) (s_idx s) = Some q /\ covers r (start a q) (eca cs a)
    | None => casesOk cs t (s_obj s) (s_var s) (s_idx s) = None
    end.
  Definition okG (g : fn) : Prop := efn lax g = true -> forall i, fnOk g i = result (call g i).

  (** statements that leave the error alone *)
  Lemma quiet : forall a s o v i, sim a s -> covers (Go (St o v (s_err s) i)) (start a (Some (Goes o v i))) ([a], []).
  Proof.
    intros a s o v i G. cbn [covers fst]. exists a. split; [left; reflexivity|]. split; [destruct a; exact G|]. destruct a; reflexivity.
  Qed.
  (** statements that set it *)
  Lemma setting : forall a s (e : bool) o v i q, sim a s -> q = (if e then None else Some (Goes o v i)) ->
      covers (Go (St o v e i)) (start a q) (sets a, []).
  Proof.
    intros a s e o v i q G ->. cbn [covers fst]. destruct a; cbn [sets start].
    - destruct e; [exists Failed; split; [right; left; reflexivity|]|exists Fine; split; [left; reflexivity|]]; split; reflexivity.
    - destruct e; [exists Failed; split; [left; reflexivity|]|exists Lost_; split; [right; left; reflexivity|]]; split; reflexivity.
    - destruct e; [exists Failed; split; [left; reflexivity|]|exists Lost_; split; [right; left; reflexivity|]]; split; reflexivity.
  Qed.

  Lemma source_eq : forall r s, readSrc toks r s = (fst (source toks r (s_idx s)), setIdx (snd (source toks r (s_idx s))) s).
  Proof. intros [|] [o v e i]; reflexivity. Qed.

  Lemma called : forall g i, (lax g || efn lax g = true -> okG g -> (if lax g then result (call g i) else fnOk g i) = result (call g i)).
  Proof. intros g i H O. destruct (lax g); [reflexivity|]. apply O, H. Qed.

  Lemma run_callF : forall f g s, exec (CallF f g) s =
      match call g (s_idx s) with Ret v e i => Go (setIdx i (setErr e (setObj f v s))) | FBad => Bad | FFuel => Fuel end.
  Proof. reflexivity. Qed.
  Lemma run_callV : forall w g s, exec (CallV w g) s =
      match call g (s_idx s) with Ret v e i => Go (setIdx i (setErr e (setVar w v s))) | FBad => Bad | FFuel => Fuel end.
  Proof. reflexivity. Qed.
  Lemma run_switch : forall r cs d s, exec (Switch r cs d) s =
      let '(t, s') := readSrc toks r s in match pick cs t s' with Some q => q | None => run d s' end.
  Proof. reflexivity. Qed.
  Lemma stmt_switch : forall r cs d o v i, stmtOk (Switch r cs d) o v i =
      let '(t, i') := source toks r i in match casesOk cs t o v i' with Some q => q | None => blockOk d o v i' end.
  Proof. reflexivity. Qed.
  Lemma run_seq : forall x k s, run (Seq x k) s = match exec x s with Go s' => run k s' | r => r end.
  Proof. reflexivity. Qed.
  Lemma block_seq : forall x k o v i, blockOk (Seq x k) o v i =
      match stmtOk x o v i with Some (Goes o' v' i') => blockOk k o' v' i' | r => r end.
  Proof. reflexivity. Qed.
  Lemma run_straight : forall k i, call (Straight k) i =
      match run k (St [] [] false i) with Go s | Out s => Ret (VObj (s_obj s)) (s_err s) (s_idx s) | Bad => FBad | Fuel => FFuel end.
  Proof. reflexivity. Qed.
  Lemma fn_straight : forall k i, fnOk (Straight k) i =
      match blockOk k [] [] i with Some (Goes o _ i') | Some (Leaves o _ i') => Some (VObj o, i') | None => None end.
  Proof. reflexivity. Qed.
  Lemma run_loop : forall pre body i, call (Loop pre body) i =
      match run pre (St [] [] false i) with
      | Go s => match iter fuel (run body) s with Go s' | Out s' => Ret (VObj (s_obj s')) (s_err s') (s_idx s') | Bad => FBad | Fuel => FFuel end
      | Out s => Ret (VObj (s_obj s)) (s_err s) (s_idx s)
      | Bad => FBad
      | Fuel => FFuel
      end.
  Proof. reflexivity. Qed.
  Lemma fn_loop : forall pre body i, fnOk (Loop pre body) i =
      match blockOk pre [] [] i with
      | Some (Goes o v i') => match repeatOk fuel (blockOk body) o v i' with Some (Leaves o' _ j) => Some (VObj o', j) | _ => None end
      | Some (Leaves o _ i') => Some (VObj o, i')
      | None => None
      end.
  Proof. reflexivity. Qed.
  Lemma stmt_callF : forall f g o v i, stmtOk (CallF f g) o v i =
      match (if lax g then result (call g i) else fnOk g i) with Some (z, i') => Some (Goes (fset f z o) v i') | None => None end.
  Proof. reflexivity. Qed.
  Lemma stmt_callV : forall w g o v i, stmtOk (CallV w g) o v i =
      match (if lax g then result (call g i) else fnOk g i) with Some (z, i') => Some (Goes o (fset w z v) i') | None => None end.
  Proof. reflexivity. Qed.

  Lemma sound : (forall x, okS x) /\ (forall k, okB k) /\ (forall cs, okC cs) /\ (forall g, okG g).
  Proof.
    apply ir_ind; unfold okS, okB, okC.
    - intros _ a s G. destruct s as [o v e i]. apply (quiet a (St o v e i)), G.
    - intros _ a [o v e i] G. cbn [A2lIR.exec A2lStrictSpec.stmtOk est s_obj s_var s_idx]. destruct i as [|i]; [destruct a; reflexivity|]. apply (quiet a (St o v e (S i))), G.
    - intros f x _ a [o v e i] G. cbn [A2lIR.exec A2lStrictSpec.stmtOk est s_obj s_var s_idx].
      destruct a; cbn in G; subst e; (eexists; split; [left; reflexivity|]; split; reflexivity).
    - intros f x _ a [o v e i] G. cbn [A2lIR.exec A2lStrictSpec.stmtOk est s_obj s_var s_idx].
      destruct a; cbn in G; subst e; (eexists; split; [left; reflexivity|]; split; reflexivity).
    - intros f n x _ a [o v e i] G. cbn [A2lIR.exec A2lStrictSpec.stmtOk est s_obj s_var s_idx].
      destruct a; cbn in G; subst e; (eexists; split; [left; reflexivity|]; split; reflexivity).
    - intros f w k _ a [o v e i] G. cbn [A2lIR.exec A2lStrictSpec.stmtOk est s_obj s_var s_idx].
      destruct (fget f o) as [[]|]; try (destruct a; reflexivity).
      destruct a; cbn in G; subst e; (eexists; split; [left; reflexivity|]; split; reflexivity).
    - intros w n r _ a [o v e i] G. cbn [A2lIR.exec A2lStrictSpec.stmtOk est s_obj s_var]. rewrite source_eq. cbn [s_idx].
      destruct (source toks r i) as [t i']. cbn [fst snd].
      destruct (readNum pf n t) as [z|]; apply (setting a (St o v e i)); try exact G; reflexivity.
    - intros f g IH C a [o v e i] G. rewrite stmt_callF, run_callF. cbn [est s_obj s_var s_idx].
      rewrite (called g i C IH). destruct (call g i) as [z er j| |]; cbn [result]; try (destruct a; reflexivity).
      destruct er; apply (setting a (St o v e i)); try exact G; reflexivity.
    - intros w g IH C a [o v e i] G. rewrite stmt_callV, run_callV. cbn [est s_obj s_var s_idx].
      rewrite (called g i C IH). destruct (call g i) as [z er j| |]; cbn [result]; try (destruct a; reflexivity).
      destruct er; apply (setting a (St o v e i)); try exact G; reflexivity.
    - intros _ a [o v e i] G. cbn. exists Failed. split; [left; reflexivity|]. split; [reflexivity|destruct a; reflexivity].
    - intros _ a [o v e i] G. cbn. exists a. split; [left; reflexivity|]. split; [exact G|destruct a; reflexivity].
    - intros c k IHk d IHd C a s G. cbn [cst] in C. apply andb_true_iff in C. destruct C as [C1 C2].
      change (covers (if test c s then run k s else run d s)
        (start a (if test c (plain (s_obj s) (s_var s) (s_idx s)) then blockOk k (s_obj s) (s_var s) (s_idx s) else blockOk d (s_obj s) (s_var s) (s_idx s)))
        (eor (eall (ebl k) (eT c a)) (eall (ebl d) (eF c a)))).
      assert (E : start a (if test c (plain (s_obj s) (s_var s) (s_idx s)) then blockOk k (s_obj s) (s_var s) (s_idx s) else blockOk d (s_obj s) (s_var s) (s_idx s))
                = if test c s then start a (blockOk k (s_obj s) (s_var s) (s_idx s)) else start a (blockOk d (s_obj s) (s_var s) (s_idx s))).
      { destruct a; cbn [start]; try (destruct (test c s); reflexivity). rewrite test_plain by exact G. reflexivity. }
      rewrite E. destruct (test c s) eqn:T.
      + apply covers_l. apply (eall_ok (ebl k) (run k) (blockOk k)); [intros; apply IHk; assumption|eapply eT_ok; eassumption|exact G].
      + apply covers_r. apply (eall_ok (ebl d) (run d) (blockOk d)); [intros; apply IHd; assumption|eapply eF_ok; eassumption|exact G].
    - intros r cs IHc d IHd C a s G. cbn [cst] in C. apply andb_true_iff in C. destruct C as [C1 C2].
      rewrite stmt_switch, run_switch. change (est (Switch r cs d) a) with (eor (eca cs a) (ebl d a)). rewrite source_eq. destruct (source toks r (s_idx s)) as [t i']. cbn [fst snd].
      assert (G' : sim a (setIdx i' s)) by (destruct a; exact G).
      specialize (IHc C1 t a _ G'). specialize (IHd C2 a _ G'). cbn [setIdx s_obj s_var s_idx] in IHc, IHd.
      destruct (pick cs t (setIdx i' s)) as [rr|].
      + destruct IHc as (q & -> & K). apply covers_l, K.
      + rewrite IHc. apply covers_r, IHd.
    - intros _ a s G. cbn. exists a. split; [left; reflexivity|]. split; [exact G|destruct a; reflexivity].
    - intros x IHx k IHk C a s G. cbn [cbl] in C. apply andb_true_iff in C. destruct C as [C1 C2]. specialize (IHx C1 a s G). specialize (IHk C2).
      rewrite run_seq, block_seq. change (ebl (Seq x k) a) with (ethen (est x a) (ebl k)). unfold ethen.
      destruct (exec x s) as [s1|s1| |]; cbn [covers] in IHx.
      + destruct IHx as (a1 & I1 & G1 & A1). apply covers_r.
        pose proof (eall_ok (ebl k) (run k) (blockOk k) (fst (est x a)) IHk a1 s1 I1 G1) as K.
        assert (T : start a1 (blockOk k (s_obj s1) (s_var s1) (s_idx s1)) =
                    start a (match stmtOk x (s_obj s) (s_var s) (s_idx s) with Some (Goes o' v' i') => blockOk k o' v' i' | r => r end)).
        { destruct a1; cbn [agrees start] in *; destruct a; cbn [start] in *; try discriminate; try reflexivity; rewrite A1; reflexivity. }
        rewrite <- T. exact K.
      + destruct IHx as (a1 & I1 & G1 & A1). apply covers_l. cbn [covers snd]. exists a1. split; [exact I1|]. split; [exact G1|].
        destruct a1; cbn [agrees start] in *; destruct a; cbn [start] in *; try discriminate; try reflexivity; rewrite A1; reflexivity.
      + destruct a; cbn [start covers] in *; try reflexivity; rewrite IHx; reflexivity.
      + destruct a; cbn [start covers] in *; try reflexivity; rewrite IHx; reflexivity.
    - intros _ t a s G. reflexivity.
    - intros c k IHk cs IHc C t a s G. cbn [cca] in C. apply andb_true_iff in C. destruct C as [C1 C2].
      change (pick (Case c k cs) t s) with (if beqb t (b c) then Some (run k s) else pick cs t s).
      change (casesOk (Case c k cs) t (s_obj s) (s_var s) (s_idx s)) with
        (if beqb t (b c) then Some (blockOk k (s_obj s) (s_var s) (s_idx s)) else casesOk cs t (s_obj s) (s_var s) (s_idx s)).
      change (eca (Case c k cs) a) with (eor (ebl k a) (eca cs a)). destruct (beqb t (b c)).
      + eexists. split; [reflexivity|]. apply covers_l, IHk; assumption.
      + specialize (IHc C2 t a s G). destruct (pick cs t s) as [r|]; [|exact IHc]. destruct IHc as (q & E & K). exists q. split; [exact E|]. apply covers_r, K.
    - intros adv table _ i. cbn [A2lStrictSpec.fnOk A2lIR.call]. destruct (findText _ table); reflexivity.
    - intros k IH C i. cbn [efn] in C. apply andb_true_iff in C. destruct C as [C1 C2]. apply negb_true_iff in C2.
      specialize (IH C1 Fine (St [] [] false i) eq_refl). rewrite fn_straight, run_straight. cbn [start s_obj s_var s_idx] in IH.
      destruct (run k (St [] [] false i)) as [s1|s1| |]; cbn [covers] in IH; [| |rewrite IH; reflexivity|rewrite IH; reflexivity].
      + destruct IH as (a & I1 & G1 & A1). destruct a; cbn [agrees sim] in *; rewrite A1, ?G1; try reflexivity.
        exfalso. assert (X : ehas Lost_ (fst (ebl k Fine) ++ snd (ebl k Fine)) = true) by (apply in_ehas, in_or_app; left; exact I1). congruence.
      + destruct IH as (a & I1 & G1 & A1). destruct a; cbn [agrees sim] in *; rewrite A1, ?G1; try reflexivity.
        exfalso. assert (X : ehas Lost_ (fst (ebl k Fine) ++ snd (ebl k Fine)) = true) by (apply in_ehas, in_or_app; right; exact I1). congruence.
    - intros pre IHp body IHb C i. cbn [efn] in C. rewrite !andb_true_iff in C. destruct C as [[C1 C2] C3].
      destruct (erounds 6 (ebl body) (fst (ebl pre Fine))) as [os'|] eqn:RR; [|discriminate]. apply negb_true_iff in C3.
      specialize (IHp C1 Fine (St [] [] false i) eq_refl). specialize (IHb C2). rewrite fn_loop, run_loop. cbn [start s_obj s_var s_idx] in IHp.
      destruct (run pre (St [] [] false i)) as [s1|s1| |]; cbn [covers] in IHp; [| |rewrite IHp; reflexivity|rewrite IHp; reflexivity].
      + destruct IHp as (a & I1 & G1 & A1). pose proof (erounds_ok (ebl body) (run body) (blockOk body) IHb 6 _ _ RR fuel a s1 I1 G1) as K.
        assert (T : match blockOk pre [] [] i with
                    | Some (Goes o v i') => repeatOk fuel (blockOk body) o v i'
                    | _ => None end = start a (repeatOk fuel (blockOk body) (s_obj s1) (s_var s1) (s_idx s1))).
        { destruct a; cbn [agrees start] in *; rewrite A1; reflexivity. }
        assert (T2 : match blockOk pre [] [] i with
                     | Some (Goes o v i') => match repeatOk fuel (blockOk body) o v i' with Some (Leaves o' _ j) => Some (VObj o', j) | _ => None end
                     | Some (Leaves o _ i') => Some (VObj o, i')
                     | None => None end =
                     match match blockOk pre [] [] i with
                    | Some (Goes o v i') => repeatOk fuel (blockOk body) o v i'
                    | _ => None end with Some (Leaves o' _ j) => Some (VObj o', j) | _ => None end).
        { destruct a; cbn [agrees start] in A1; rewrite A1; reflexivity. }
        rewrite T2, T. destruct (iter fuel (run body) s1) as [s2|s2| |]; [|contradiction|rewrite K; reflexivity|rewrite K; reflexivity].
        destruct K as (o & IO & GO & AO). destruct o; cbn [agrees sim] in *; rewrite AO, ?GO; try reflexivity.
        exfalso. assert (X : ehas Lost_ (snd (ebl pre Fine) ++ os') = true) by (apply in_ehas, in_or_app; right; exact IO). congruence.
      + destruct IHp as (a & I1 & G1 & A1). destruct a; cbn [agrees sim] in *; rewrite A1, ?G1; try reflexivity.
        exfalso. assert (X : ehas Lost_ (snd (ebl pre Fine) ++ os') = true) by (apply in_ehas, in_or_app; left; exact I1). congruence.
  Qed.
End Sound.
