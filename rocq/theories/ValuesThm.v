(** Facts about the reading of values: fields that a parser does not assign, the
    loop of getValuesFromHex, integers as floats. *)
From Coq Require Import String Ascii List Arith NArith ZArith Bool Lia Permutation SpecFloat.
From Verif Require Import GoBase GoBaseFacts FloatModel FloatSpec FloatProofs A2lLayoutModel A2lIR A2lTokens A2lParsers A2lSpec A2lCheck.
From Verif Require Import MemModel MemSpec MemThm ValuesModel.
Import ListNotations.

(** No statement assigns the field [f]. *)
Fixpoint spares (f : string) (x : stmt) : bool :=
  match x with
  | Set_ g _ | App g _ | Fill g _ _ | Put g _ _ | CallF g _ => negb (String.eqb f g)
  | If _ a o => sparesB f a && sparesB f o
  | Switch _ cs d => sparesC f cs && sparesB f d
  | _ => true
  end
with sparesB (f : string) (k : block) : bool :=
  match k with Skip => true | Seq x k' => spares f x && sparesB f k' end
with sparesC (f : string) (cs : cases) : bool :=
  match cs with Default => true | Case _ k cs' => sparesB f k && sparesC f cs' end.

Lemma fget_other : forall f g v o, f <> g -> fget f (fset g v o) = fget f o.
Proof.
  intros f g v o N. induction o as [|[h w] o IH]; cbn.
  - destruct (String.eqb_spec f g); [contradiction|reflexivity].
  - destruct (String.eqb_spec g h) as [<-|]; cbn.
    + destruct (String.eqb_spec f g); [contradiction|reflexivity].
    + rewrite IH. reflexivity.
Qed.

Section Spare.
  Variable toks : list bytes.
  Variable pf : bytes -> option spec_float.
  Variable fuel : nat.
  Variable f : string.
  Definition kept (s : st) (r : res) : Prop :=
    match r with Go s' | Out s' => fget f (s_obj s') = fget f (s_obj s) | _ => True end.
  Notation exec := (exec isKeyword toks pf fuel).
  Notation run := (run isKeyword toks pf fuel).
  Notation pick := (pick isKeyword toks pf fuel).

  Lemma readSrc_obj : forall r s t s', readSrc toks r s = (t, s') -> s_obj s' = s_obj s.
  Proof. intros [] s t s'; cbn; intros H; injection H as <- <-; reflexivity. Qed.

  Lemma run_seq : forall x k s, run (Seq x k) s = match exec x s with Go s' => run k s' | r => r end.
  Proof. reflexivity. Qed.
  Lemma exec_callF : forall g h s, exec (CallF g h) s = match call isKeyword toks pf fuel h (s_idx s) with
    | Ret v e i => Go (setIdx i (setErr e (setObj g v s))) | FBad => Bad | FFuel => Fuel end.
  Proof. reflexivity. Qed.
  Lemma exec_callV : forall x h s, exec (CallV x h) s = match call isKeyword toks pf fuel h (s_idx s) with
    | Ret v e i => Go (setIdx i (setErr e (setVar x v s))) | FBad => Bad | FFuel => Fuel end.
  Proof. reflexivity. Qed.
  Lemma exec_if : forall c a o s, exec (If c a o) s = if test isKeyword toks c s then run a s else run o s.
  Proof. reflexivity. Qed.
  Lemma exec_num : forall v n r s, exec (Num v n r) s = let '(t, s') := readSrc toks r s in
    match readNum pf n t with Some w => Go (setErr false (setVar v w s')) | None => Go (setErr true (setVar v (failedNum n t) s')) end.
  Proof. reflexivity. Qed.
  Lemma exec_switch : forall r cs d s, exec (Switch r cs d) s = let '(t, s') := readSrc toks r s in
    match pick cs t s' with Some q => q | None => run d s' end.
  Proof. reflexivity. Qed.
  Lemma pick_case : forall c k cs t s, pick (Case c k cs) t s = if beqb t (b c) then Some (run k s) else pick cs t s.
  Proof. reflexivity. Qed.

  Lemma call_loop : forall pre body i, call isKeyword toks pf fuel (Loop pre body) i =
    match run pre (St [] [] false i) with
    | Go s => match iter fuel (run body) s with
              | Go s' | Out s' => Ret (VObj (s_obj s')) (s_err s') (s_idx s')
              | Bad => FBad
              | Fuel => FFuel
              end
    | Out s => Ret (VObj (s_obj s)) (s_err s) (s_idx s)
    | Bad => FBad
    | Fuel => FFuel
    end.
  Proof. reflexivity. Qed.

  Lemma spares_run :
    (forall x, spares f x = true -> forall s, kept s (exec x s)) /\
    (forall k, sparesB f k = true -> forall s, kept s (run k s)) /\
    (forall cs, sparesC f cs = true -> forall t s, match pick cs t s with Some r => kept s r | None => True end) /\
    (forall g : fn, True).
  Proof.
    assert (NE : forall g, negb (String.eqb f g) = true -> f <> g).
    { intros g H ->. rewrite String.eqb_refl in H. discriminate. }
    apply ir_ind; try (intros; exact I).
    - intros _ s. reflexivity.
    - intros _ s. change (exec Prev s) with (match s_idx s with 0 => Bad | S i => Go (setIdx i s) end).
      destruct (s_idx s); [exact I|reflexivity].
    - intros g e H s. apply NE in H. exact (fget_other _ _ _ _ H).
    - intros g e H s. apply NE in H. exact (fget_other _ _ _ _ H).
    - intros g n e H s. apply NE in H. exact (fget_other _ _ _ _ H).
    - intros g v k H s. apply NE in H. change (exec (Put g v k) s) with (match fget g (s_obj s) with
        | Some (VMap m) => Go (setObj g (VMap (mput (varName v k s) (eval toks (Var v) s) m)) s) | _ => Bad end).
      destruct (fget g (s_obj s)) as [[]|]; try exact I. exact (fget_other _ _ _ _ H).
    - intros v n r _ s. rewrite exec_num. destruct (readSrc toks r s) as [t s'] eqn:R. apply readSrc_obj in R.
      destruct (readNum pf n t); unfold kept; cbn [setErr setVar s_obj]; rewrite R; reflexivity.
    - intros g h _ H s. apply NE in H. rewrite exec_callF. destruct (call isKeyword toks pf fuel h (s_idx s)); try exact I.
      exact (fget_other _ _ _ _ H).
    - intros v h _ H s. rewrite exec_callV. destruct (call isKeyword toks pf fuel h (s_idx s)); [reflexivity|exact I|exact I].
    - intros _ s. reflexivity.
    - intros _ s. reflexivity.
    - intros c a IA o IO H s. apply andb_true_iff in H. destruct H as [HA HO]. rewrite exec_if.
      destruct (test isKeyword toks c s); auto.
    - intros r cs IC d ID H s. apply andb_true_iff in H. destruct H as [HC HD]. rewrite exec_switch.
      destruct (readSrc toks r s) as [t s'] eqn:R. apply readSrc_obj in R. specialize (IC HC t s'). specialize (ID HD s').
      unfold kept in *. rewrite <- R. destruct (pick cs t s') as [q|]; assumption.
    - intros _ s. reflexivity.
    - intros x IX k IK H s. apply andb_true_iff in H. destruct H as [HX HK]. rewrite run_seq. specialize (IX HX s).
      destruct (exec x s) as [s'|s'| |]; unfold kept in *; auto. specialize (IK HK s').
      destruct (run k s'); try exact I; congruence.
    - intros c k IK cs IC H t s. apply andb_true_iff in H. destruct H as [HK HC]. rewrite pick_case.
      destruct (beqb t (b c)); [apply IK; exact HK|apply IC; exact HC].
  Qed.

  Lemma spares_iter : forall k, sparesB f k = true -> forall n s, kept s (iter n (run k) s).
  Proof.
    intros k H. induction n as [|n IH]; intros s; simpl; [exact I|].
    pose proof (proj1 (proj2 spares_run) k H s) as R. destruct (run k s) as [s'|s'| |]; simpl in *; auto.
    specialize (IH s'). unfold kept in *. destruct (iter n (run k) s'); try exact I; congruence.
  Qed.

  Lemma spares_loop : forall pre body i v e j, sparesB f pre = true -> sparesB f body = true ->
    call isKeyword toks pf fuel (Loop pre body) i = Ret v e j -> exists o, v = VObj o /\ fget f o = None.
  Proof.
    intros pre body i v e j HP HB. rewrite call_loop. pose proof (proj1 (proj2 spares_run) pre HP (St [] [] false i)) as R.
    destruct (run pre (St [] [] false i)) as [s|s| |]; try discriminate; unfold kept in R; cbn [s_obj] in R.
    - pose proof (spares_iter body HB fuel s) as Q. destruct (iter fuel (run body) s) as [s'|s'| |]; try discriminate;
      unfold kept in Q; intros E; injection E as <- _ _; eexists; (split; [reflexivity|rewrite Q, R; reflexivity]).
    - intros E; injection E as <- _ _; eexists; (split; [reflexivity|rewrite R; reflexivity]).
  Qed.
End Spare.

Lemma layout_spares : forall toks pf i v e j, returns toks pf parseRecordLayout i v e j ->
  exists o, v = VObj o /\ fget "RelativePositions" o = None.
Proof.
  intros toks pf i v e j [n R]. specialize (R n (Nat.le_refl n)). revert R. unfold parseRecordLayout. apply spares_loop; vm_compute; reflexivity.
Qed.

(** ** Integers through float64 *)

Lemma int64_exact : forall z f, exactly (z * unit1) f -> (Z.abs z < 2 ^ 53)%Z -> int64_of f = z.
Proof.
  intros z f [F E] B. destruct f as [s|s| |s m e]; try discriminate.
  - cbn in E. injection E as E. unfold unit1 in E. cbn. symmetry. apply Z.eq_mul_0_l with (2 ^ 1074)%Z; [symmetry; exact E|].
    apply Z.pow_nonzero; lia.
  - cbn [fval] in E. injection E as E. cbn in F.
    assert (T : cond_Zopp s (if (0 <=? e)%Z then Z.pos m * 2 ^ e else Z.pos m / 2 ^ (- e)) = z).
    { destruct (Z.leb_spec 0 e).
      - assert (X : (cond_Zopp s (Z.pos m * 2 ^ e) * unit1 = z * unit1)%Z).
        { rewrite <- E. unfold unit1. rewrite Z.pow_add_r by lia. destruct s; cbn [cond_Zopp]; ring. }
        apply Z.mul_cancel_r in X; [exact X|]. unfold unit1. apply Z.pow_nonzero; lia.
      - assert (X : (cond_Zopp s (Z.pos m) = z * 2 ^ (- e))%Z).
        { apply Z.mul_cancel_r with (2 ^ (e + 1074))%Z; [apply Z.pow_nonzero; lia|].
          rewrite <- Z.mul_assoc, <- Z.pow_add_r by lia. replace (- e + (e + 1074))%Z with 1074%Z by lia.
          fold unit1. rewrite <- E. destruct s; cbn [cond_Zopp]; ring. }
        assert (P : (2 ^ (- e) <> 0)%Z) by (apply Z.pow_nonzero; lia).
        destruct s; cbn [cond_Zopp] in *.
        + replace (Z.pos m) with ((- z) * 2 ^ (- e))%Z by lia. rewrite Z.div_mul by exact P. lia.
        + rewrite X. apply Z.div_mul. exact P. }
    unfold int64_of. cbv zeta. rewrite T. change (2 ^ 53)%Z with 9007199254740992%Z in B.
    destruct (Z.leb_spec (-9223372036854775808) z); [|lia]. destruct (Z.leb_spec z 9223372036854775807); [|lia]. reflexivity.
Qed.

(** ** Values by name *)

Lemma vget_set : forall f x v, vget f (vset f x v) = Some x.
Proof.
  intros f x v. induction v as [|[g y] v IH]; cbn; [rewrite String.eqb_refl; reflexivity|].
  destruct (String.eqb_spec f g) as [<-|N]; cbn; [rewrite String.eqb_refl; reflexivity|].
  destruct (String.eqb_spec f g); [contradiction|exact IH].
Qed.
Lemma vget_other : forall f g x v, f <> g -> vget f (vset g x v) = vget f v.
Proof.
  intros f g x v N. induction v as [|[h y] v IH]; cbn.
  - destruct (String.eqb_spec f g); [contradiction|reflexivity].
  - destruct (String.eqb_spec g h) as [<-|]; cbn.
    + destruct (String.eqb_spec f g); [contradiction|reflexivity].
    + rewrite IH. reflexivity.
Qed.

(** ** The loop *)

Lemma readFields_panic : forall gb cx rl f, (forall v p, readField gb cx rl f v p = None) ->
  forall fs, In f fs -> forall v p, readFields gb cx rl fs v p = None.
Proof.
  intros gb cx rl f H. induction fs as [|g fs IH]; intros I v p; [contradiction|]. cbn [readFields].
  destruct I as [->|I]; [rewrite H; reflexivity|]. destruct (readField gb cx rl g v p) as [[v' q]|]; [apply IH; exact I|reflexivity].
Qed.

Lemma mget_in : forall k m v, mget k m = Some v -> In (k, v) m.
Proof.
  intros k m v. induction m as [|[k' w] m IH]; cbn; [discriminate|]. destruct (beqb k k') eqn:E.
  - injection 1 as ->. apply beqb_eq in E. subst. left. reflexivity.
  - intros H. right. auto.
Qed.
Lemma in_mget : forall k m v, NoDup (map fst m) -> In (k, v) m -> mget k m = Some v.
Proof.
  intros k m v. induction m as [|[k' w] m IH]; cbn; intros ND I; [contradiction|]. inversion ND as [|? ? NI ND']; subst.
  destruct I as [E|I].
  - injection E as -> ->. rewrite beqb_refl. reflexivity.
  - destruct (beqb k k') eqn:E; [|auto]. apply beqb_eq in E. subst. exfalso. apply NI. apply in_map_iff. exists (k', v). auto.
Qed.
