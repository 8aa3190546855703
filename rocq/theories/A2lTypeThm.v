(** The parsers return values of the struct types that the source declares. *)
From Coq Require Import String Ascii List Arith NArith ZArith Bool Lia SpecFloat.
From Verif Require Import GoBase GoBaseFacts StrconvModel A2lIR A2lTokens A2lCheck A2lParsers A2lSpec A2lStrictProps OriginSpec OriginThm GoTypes A2lStructs.
From Verif Require A2lModSeq A2lModStore.
Import ListNotations.

(** ** A check of the programs *)

Fixpoint same (t u : gty) : bool :=
  match t, u with
  | GBool, GBool | GStr, GStr | GFloat, GFloat | GAny, GAny | GError, GError => true
  | GUint k, GUint l | GSint k, GSint l => N.eqb k l
  | GSlice t, GSlice u | GMap t, GMap u | GNumbered t, GNumbered u => same t u
  | GArray n t, GArray m u => Nat.eqb n m && same t u
  | GStruct fs, GStruct gs =>
      (fix go fs gs := match fs, gs with
                       | [], [] => true
                       | (f, t) :: fs', (g, u) :: gs' => String.eqb f g && same t u && go fs' gs'
                       | _, _ => false
                       end) fs gs
  | _, _ => false
  end.

(** The type of a variable: that of the field its value goes to first in what follows. *)
Definition carries (f : string) (e : expr) (pick : gty -> option gty) (fs : list (string * gty)) : list (string * gty) :=
  match e, declared f fs with
  | Var v, Some t => match pick t with Some u => [(v, u)] | None => [] end
  | _, _ => []
  end.
Definition elem (t : gty) : option gty := match t with GSlice u | GArray _ u | GMap u => Some u | _ => None end.
Fixpoint uses (fs : list (string * gty)) (x : stmt) : list (string * gty) :=
  match x with
  | Set_ f e => carries f e (fun t => Some t) fs
  | App f e | Fill f _ e => carries f e elem fs
  | Put f v _ => carries f (Var v) elem fs
  | If _ a o => usesb fs a ++ usesb fs o
  | Switch _ cs d => usesc fs cs ++ usesb fs d
  | _ => []
  end
with usesb (fs : list (string * gty)) (x : block) : list (string * gty) :=
  match x with Skip => [] | Seq x k => uses fs x ++ usesb fs k end
with usesc (fs : list (string * gty)) (x : cases) : list (string * gty) :=
  match x with Default => [] | Case _ k cs => usesb fs k ++ usesc fs cs end.

(** The variables assigned at the end of a block and their types, [Some None] if it is
    never reached, [None] if a value does not fit. *)
Definition flow := option (option (list (string * gty))).
Definition join (x y : flow) : flow :=
  match x, y with
  | Some None, r | r, Some None => r
  | Some (Some d), Some (Some e) =>
      Some (Some (filter (fun p => match declared (fst p) d, declared (fst p) e with Some t, Some u => same t u | _, _ => false end) d))
  | _, _ => None
  end.
Definition fits (fs d : list (string * gty)) (e : expr) (t : gty) : bool :=
  match e, t with
  | Cur, GStr | Lit _, GStr | Tru, GBool | EmptyMap, GMap _ => true
  | CatCur f, GStr => match declared f fs with Some GStr => true | _ => false end
  | Var v, _ => match declared v d with Some u => same u t | None => false end
  | _, _ => false
  end.
Definition numFits (n : num) (t : gty) : bool :=
  match n, t with
  | NUint k, GUint l => N.leb 1 k && N.leb k l
  | NInt k, GSint l => N.leb 1 k && N.leb k 64 && N.leb k l
  | NFloat, GFloat => true
  | _, _ => false
  end.
Definition when (c : bool) (d : list (string * gty)) : flow := if c then Some (Some d) else None.
Definition forget (v : string) (d : list (string * gty)) := filter (fun p => negb (String.eqb v (fst p))) d.

(** [vs]: the types that variables have in what follows; [fs]: the fields of the struct;
    [d]: the variables assigned so far. *)
Fixpoint ty (vs fs : list (string * gty)) (x : stmt) (d : list (string * gty)) : flow :=
  match x with
  | Next | Prev | Raise => Some (Some d)
  | Break => Some None
  | Set_ f e => when (match declared f fs with Some t => fits fs d e t | None => false end) d
  | App f e => when (match declared f fs with Some (GSlice t) => fits fs d e t | _ => false end) d
  | Fill f n e => when (match declared f fs with Some (GArray m t) => Nat.eqb n m && fits fs d e t | _ => false end) d
  | Put f v _ => when (match declared f fs with Some (GMap t) => fits fs d (Var v) t | _ => false end) d
  | Num v n _ => match declared v vs with Some t => when (numFits n t) ((v, t) :: d) | None => Some (Some (forget v d)) end
  | CallF f g => when (match declared f fs with Some t => tyf t g | None => false end) d
  | CallV v g => match declared v vs with Some t => when (tyf t g) ((v, t) :: d) | None => Some (Some (forget v d)) end
  | If _ a o => join (tyb fs a d) (tyb fs o d)
  | Switch _ cs o => join (tyc fs cs d) (tyb fs o d)
  end
with tyb (fs : list (string * gty)) (x : block) (d : list (string * gty)) : flow :=
  match x with
  | Skip => Some (Some d)
  | Seq x k => match ty (usesb fs k) fs x d with Some (Some d') => tyb fs k d' | r => r end
  end
with tyc (fs : list (string * gty)) (x : cases) (d : list (string * gty)) : flow :=
  match x with
  | Default => Some None
  | Case _ k cs => join (tyb fs k d) (tyc fs cs d)
  end
with tyf (t : gty) (g : fn) : bool :=
  match g, t with
  | Enum _ _, GStr => true
  | Straight k, GStruct fs => match tyb fs k [] with Some _ => true | None => false end
  | Loop pre body, GStruct fs =>
      match tyb fs pre [], tyb fs body [] with
      | Some _, Some _ => true
      | _, _ => false
      end
  | _, _ => false
  end.


Definition typed (p : string * fn) : bool := match declared (fst p) results with Some t => tyf t (snd p) | None => false end.
Lemma all_typed : forallb typed allParsers = true.
Proof. vm_compute. reflexivity. Qed.

(** ** The check is sound *)

Lemma same_eq : forall t u, same t u = true -> t = u.
Proof.
  fix IH 1. intros t u H. destruct t; destruct u; cbn [same] in H; try discriminate; try reflexivity.
  - apply N.eqb_eq in H. congruence.
  - apply N.eqb_eq in H. congruence.
  - f_equal. apply IH, H.
  - apply andb_true_iff in H. destruct H as [H1 H2]. apply Nat.eqb_eq in H1. f_equal; [exact H1|apply IH, H2].
  - f_equal. apply IH, H.
  - f_equal. apply IH, H.
  - f_equal. revert fs0 H. induction fs as [|[f t] fs L]; intros [|[g u] gs] H; try discriminate; [reflexivity|].
    apply andb_true_iff in H. destruct H as [H H3]. apply andb_true_iff in H. destruct H as [H1 H2].
    apply String.eqb_eq in H1. apply IH in H2. subst. f_equal. apply L, H3.
Qed.

Lemma declared_filter : forall (c : string -> bool) f d, declared f (filter (fun p => c (fst p)) d) = if c f then declared f d else None.
Proof.
  intros c f. induction d as [|[g t] d IH]; cbn [filter declared fst]; [destruct (c f); reflexivity|].
  destruct (c g) eqn:G; cbn [declared]; destruct (String.eqb f g) eqn:E; try (apply String.eqb_eq in E; subst g); rewrite ?IH, ?G; destruct (c f); congruence.
Qed.

Lemma mput_keys : forall k v m x, In x (map fst (mput k v m)) -> x = k \/ In x (map fst m).
Proof.
  intros k v. induction m as [|[k' w] m IH]; cbn [mput map fst]; intros x H; [destruct H as [<-|[]]; auto|].
  destruct (beqb k k') eqn:B; cbn [map fst] in H.
  - destruct H as [<-|H]; cbn; auto.
  - destruct H as [<-|H]; [cbn; auto|]. destruct (IH _ H); cbn; auto.
Qed.
Lemma mput_once : forall k v m, NoDup (map fst m) -> NoDup (map fst (mput k v m)).
Proof.
  intros k v. induction m as [|[k' w] m IH]; cbn [mput map fst]; intros N; [constructor; [intros []|constructor]|].
  inversion N as [|? ? N1 N2]; subst. destruct (beqb k k') eqn:B; cbn [map fst].
  - apply beqb_eq in B. subst k'. constructor; assumption.
  - constructor; [|apply IH, N2]. intros I. apply mput_keys in I. destruct I as [->|I]; [|exact (N1 I)].
    assert (beqb k k = true) by (apply beqb_eq; reflexivity). congruence.
Qed.

Section Sound.
  Variable toks : list bytes.
  Variable pf : bytes -> option spec_float.
  Variable fuel : nat.
  Notation exec := (exec isKeyword toks pf fuel).
  Notation run := (run isKeyword toks pf fuel).
  Notation pick := (pick isKeyword toks pf fuel).
  Notation call := (call isKeyword toks pf fuel).

  Definition struct (fs : list (string * gty)) (s : st) : Prop := conforms (GStruct fs) (VObj (s_obj s)).
  Definition vars (d : list (string * gty)) (s : st) : Prop := forall v t, declared v d = Some t -> exists w, fget v (s_var s) = Some w /\ conforms t w.
  Definition goes (fs : list (string * gty)) (fl : option (list (string * gty))) (r : res) : Prop :=
    match r with
    | Go s' => exists d, fl = Some d /\ struct fs s' /\ vars d s'
    | Out s' => struct fs s'
    | _ => True
    end.

  Lemma struct_set : forall fs s f t v, struct fs s -> declared f fs = Some t -> conforms t v -> struct fs (setObj f v s).
  Proof.
    intros fs s f t v H D C. inversion H as [| | | | | | | |? ? K]; subst. constructor. intros g w G. cbn [setObj s_obj] in G.
    rewrite A2lModStore.fget_fset in G. destruct (String.eqb g f) eqn:E; [|apply K, G].
    apply String.eqb_eq in E. subst g. injection G as <-. eauto.
  Qed.
  Lemma vars_set : forall d s x t w, vars d s -> conforms t w -> vars ((x, t) :: d) (setVar x w s).
  Proof.
    intros d s x t w H C v u D. cbn [setVar s_var]. rewrite A2lModStore.fget_fset. cbn [declared] in D.
    destruct (String.eqb v x); [|apply H, D]. injection D as <-. eauto.
  Qed.
  Lemma vars_forget : forall d s x w, vars d s -> vars (forget x d) (setVar x w s).
  Proof.
    intros d s x w H v u D. cbn [setVar s_var]. rewrite A2lModStore.fget_fset. unfold forget in D.
    rewrite (declared_filter (fun y => negb (String.eqb x y))) in D. destruct (String.eqb v x) eqn:E.
    - apply String.eqb_eq in E. subst v. rewrite String.eqb_refl in D. discriminate.
    - apply H. destruct (negb _); [exact D|discriminate].
  Qed.

  Lemma field_of : forall fs s f v, struct fs s -> fget f (s_obj s) = Some v -> exists t, declared f fs = Some t /\ conforms t v.
  Proof. intros fs s f v H. inversion H as [| | | | | | | |? ? K]; subst. apply K. Qed.
  Lemma slice_of : forall fs s f t, struct fs s -> declared f fs = Some (GSlice t) -> forall v, In v (flist f (s_obj s)) -> conforms t v.
  Proof.
    intros fs s f t H D v I. unfold flist in I. destruct (fget f (s_obj s)) as [w|] eqn:F; [|destruct I].
    destruct (field_of _ _ _ _ H F) as (u & E & C). rewrite D in E. injection E as <-. inversion C as [| | | | |? ? K| | |]; subst. apply K, I.
  Qed.

  Lemma fits_ok : forall fs d e t s, struct fs s -> vars d s -> fits fs d e t = true -> conforms t (eval toks e s).
  Proof.
    intros fs d e t s H V F. destruct e; cbn [eval].
    - destruct t; try discriminate. constructor.
    - cbn [fits] in F. destruct (declared v d) as [u|] eqn:D; [|discriminate]. apply same_eq in F. subst u.
      destruct (V _ _ D) as (w & G & C). rewrite G. exact C.
    - destruct t; try discriminate. constructor.
    - destruct t; try discriminate. constructor.
    - destruct t; try discriminate. constructor; [constructor|intros k v []].
    - destruct t; try discriminate. constructor.
  Qed.

  Lemma wider : forall k l, (k <= l)%N -> (2 ^ Z.of_N k <= 2 ^ Z.of_N l)%Z.
  Proof. intros. apply Z.pow_le_mono_r; lia. Qed.
  Lemma num_ok : forall n t x, numFits n t = true -> (forall v, readNum pf n x = Some v -> conforms t v) /\ conforms t (failedNum n x).
  Proof.
    intros n t x F. destruct n as [k|k|]; destruct t as [| | |l|l| | | | | | |]; try discriminate F; cbn [numFits readNum failedNum] in *.
    - apply andb_true_iff in F. destruct F as [F1 F2]. apply N.leb_le in F1, F2. pose proof (wider _ _ F2) as W. split.
      + intros v E. destruct (ParseUint k x) as [z|] eqn:P; [|discriminate]. injection E as <-. constructor. apply uint_iff in P as P'. destruct P' as [_ L].
        split; [|lia]. unfold ParseUint in P. destruct x; [discriminate|]. destruct (digits _ _); [|discriminate]. destruct (_ <? _)%N; [|discriminate].
        injection P as <-. lia.
      + constructor. assert (Q : (1 <= 2 ^ k)%N) by (pose proof (N.pow_nonzero 2 k ltac:(discriminate)); lia).
        assert (QZ : (Z.of_N (2 ^ k) = 2 ^ Z.of_N k)%Z) by (rewrite N2Z.inj_pow; reflexivity).
        destruct (failedUint_bounds k x 0) as [->| ->]; lia.
    - apply andb_true_iff in F. destruct F as [F F3]. apply andb_true_iff in F. destruct F as [F1 F2]. apply N.leb_le in F1, F2, F3.
      assert (W : (2 ^ (Z.of_N k - 1) <= 2 ^ (Z.of_N l - 1))%Z) by (apply Z.pow_le_mono_r; lia).
      assert (P0 : (0 < 2 ^ (Z.of_N k - 1))%Z) by (apply Z.pow_pos_nonneg; lia). split.
      + intros v E. pose proof (proj1 (C73_signed pf k x v (conj F1 F2)) E) as (z & _ & B & ->). constructor. lia.
      + constructor. unfold failedInt. destruct (match x with "+"%char :: r => (false, r) | "-"%char :: r => (true, r) | _ => (false, x) end) as [neg r].
        destruct (_ || _); [destruct neg|]; lia.
    - split; [|constructor]. intros v E. destruct (pf x); [|discriminate]. injection E as <-. constructor.
  Qed.

  Lemma join_l : forall a c r fs q, join (Some a) c = Some q -> goes fs a r -> goes fs q r.
  Proof.
    intros a c r fs q J G. destruct r as [s|s| |]; cbn in *; auto. destruct G as (d & -> & H & V).
    destruct c as [[e|]|]; cbn [join] in J; try discriminate; injection J as <-; [|eauto]. eexists. split; [reflexivity|]. split; [exact H|].
    intros v t D. rewrite (declared_filter (fun y => match declared y d, declared y e with Some t, Some u => same t u | _, _ => false end)) in D.
    apply V. destruct (declared v d); [|discriminate]. destruct (declared v e); [|discriminate]. destruct (same _ _); [exact D|discriminate].
  Qed.
  Lemma join_r : forall a c r fs q, join a (Some c) = Some q -> goes fs c r -> goes fs q r.
  Proof.
    intros a c r fs q J G. destruct r as [s|s| |]; cbn in *; auto. destruct G as (e & -> & H & V).
    destruct a as [[d|]|]; cbn [join] in J; try discriminate; injection J as <-; [|eauto]. eexists. split; [reflexivity|]. split; [exact H|].
    intros v t D. rewrite (declared_filter (fun y => match declared y d, declared y e with Some t, Some u => same t u | _, _ => false end)) in D.
    destruct (declared v d) as [u|] eqn:Dd; [|discriminate]. destruct (declared v e) as [u'|] eqn:De; [|discriminate].
    destruct (same u u') eqn:SM; [|discriminate]. apply same_eq in SM. subst u'. injection D as <-. apply V, De.
  Qed.
  Lemma join_some : forall a c q, join a c = Some q -> exists a' c', a = Some a' /\ c = Some c'.
  Proof. intros [[a|]|] [[c|]|] q H; try discriminate; eauto. Qed.

  Lemma when_some : forall c d fl, when c d = Some fl -> c = true /\ fl = Some d.
  Proof. intros [] d fl H; [injection H as <-; auto|discriminate]. Qed.

  Lemma readSrc_keeps : forall r s, s_obj (snd (readSrc toks r s)) = s_obj s /\ s_var (snd (readSrc toks r s)) = s_var s.
  Proof. intros [] s; split; reflexivity. Qed.
  Lemma struct_eq : forall fs s s', s_obj s' = s_obj s -> struct fs s -> struct fs s'.
  Proof. unfold struct. intros fs s s' ->. auto. Qed.
  Lemma vars_eq : forall fs s s', s_var s' = s_var s -> vars fs s -> vars fs s'.
  Proof. unfold vars. intros fs s s' ->. auto. Qed.

  Lemma iter_struct : forall fs (body : st -> res) fl, (forall s, struct fs s -> goes fs fl (body s)) ->
    forall n s, struct fs s -> match iter n body s with Go s' | Out s' => struct fs s' | _ => True end.
  Proof.
    intros fs body fl H. induction n as [|n IH]; intros s G; cbn [iter]; [exact Logic.I|]. specialize (H s G). destruct (body s) as [s'|s'| |]; cbn in H; try exact Logic.I.
    - destruct H as (d & _ & S' & _). apply IH, S'.
    - exact H.
  Qed.

  Lemma types :
    (forall x vs fs d fl, ty vs fs x d = Some fl -> forall s, struct fs s -> vars d s -> goes fs fl (exec x s)) /\
    (forall x fs d fl, tyb fs x d = Some fl -> forall s, struct fs s -> vars d s -> goes fs fl (run x s)) /\
    (forall x fs d fl, tyc fs x d = Some fl -> forall t s q, struct fs s -> vars d s -> pick x t s = Some q -> goes fs fl q) /\
    (forall g t, tyf t g = true -> forall i v e j, call g i = Ret v e j -> conforms t v).
  Proof.
    assert (NOV : forall s, vars [] s) by (intros s v t D; discriminate).
    apply ir_ind; cbn [ty tyb tyc tyf].
    - intros vs fs d fl [= <-] s H V. exists d. split; [reflexivity|]. split; [exact H|exact V].
    - intros vs fs d fl [= <-] s H V. cbn [A2lIR.exec]. destruct (s_idx s); [exact Logic.I|]. exists d. split; [reflexivity|]. split; [exact H|exact V].
    - intros f e vs fs d fl W s H V. apply when_some in W. destruct W as [W ->]. destruct (declared f fs) as [t|] eqn:D; [|discriminate].
      exists d. split; [reflexivity|]. split; [|exact V]. eapply struct_set; [exact H|exact D|]. eapply fits_ok; eassumption.
    - intros f e vs fs d fl W s H V. apply when_some in W. destruct W as [W ->]. destruct (declared f fs) as [[]|] eqn:D; try discriminate.
      exists d. split; [reflexivity|]. split; [|exact V]. eapply struct_set; [exact H|exact D|]. constructor. intros v I. apply in_app_or in I.
      destruct I as [I|[<-|[]]]; [eapply slice_of; eassumption|eapply fits_ok; eassumption].
    - intros f n e vs fs d fl W s H V. apply when_some in W. destruct W as [W ->]. destruct (declared f fs) as [[]|] eqn:D; try discriminate.
      apply andb_true_iff in W. destruct W as [W1 W2]. apply Nat.eqb_eq in W1. subst n0.
      exists d. split; [reflexivity|]. split; [|exact V]. eapply struct_set; [exact H|exact D|]. constructor; [apply repeat_length|]. intros v I.
      apply repeat_spec in I. subst v. eapply fits_ok; eassumption.
    - intros f v k vs fs d fl W s H V. apply when_some in W. destruct W as [W ->]. destruct (declared f fs) as [[]|] eqn:D; try discriminate.
      rewrite A2lModSeq.exec_put. destruct (fget f (s_obj s)) as [[]|] eqn:F; try exact Logic.I.
      exists d. split; [reflexivity|]. split; [|exact V]. eapply struct_set; [exact H|exact D|].
      destruct (field_of _ _ _ _ H F) as (u & E & C). rewrite D in E. injection E as <-. inversion C as [| | | | | | |? ? K1 K2|]; subst.
      constructor; [apply mput_once, K1|]. intros k0 v0 I. apply in_mput in I. destruct I as [I|I]; [injection I as -> ->|eapply K2; exact I].
      exact (fits_ok fs d (Var v) t s H V W).
    - intros v n r vs fs d fl W s H V. cbn [A2lIR.exec]. pose proof (readSrc_keeps r s) as [R1 R2]. destruct (readSrc toks r s) as [x s'] eqn:R. cbn [snd] in R1, R2.
      apply (struct_eq _ _ _ R1) in H. apply (vars_eq _ _ _ R2) in V.
      destruct (declared v vs) as [t|] eqn:D.
      + apply when_some in W. destruct W as [W ->]. destruct (num_ok n t x W) as [N1 N2]. destruct (readNum pf n x) as [w|].
        * eexists. split; [reflexivity|]. split; [exact H|]. apply vars_set; [exact V|apply N1; reflexivity].
        * eexists. split; [reflexivity|]. split; [exact H|]. apply vars_set; [exact V|exact N2].
      + injection W as <-. destruct (readNum pf n x) as [w|]; (eexists; split; [reflexivity|]; split; [exact H|]; apply vars_forget; exact V).
    - intros f g IH vs fs d fl W s H V. apply when_some in W. destruct W as [W ->]. destruct (declared f fs) as [t|] eqn:D; try discriminate.
      rewrite A2lModSeq.exec_callF. destruct (call g (s_idx s)) as [v e j| |] eqn:CL; try exact Logic.I.
      exists d. split; [reflexivity|]. split; [|exact V]. apply (struct_set fs s f t v); [exact H|exact D|]. eapply IH; eassumption.
    - intros x g IH vs fs d fl W s H V. rewrite A2lModSeq.exec_callV. destruct (call g (s_idx s)) as [v e j| |] eqn:CL; try exact Logic.I.
      destruct (declared x vs) as [t|] eqn:D.
      + apply when_some in W. destruct W as [W ->]. eexists. split; [reflexivity|]. split; [exact H|].
        apply (vars_set d s x t v); [exact V|]. eapply IH; eassumption.
      + injection W as <-. eexists. split; [reflexivity|]. split; [exact H|]. apply (vars_forget d s x v); exact V.
    - intros vs fs d fl [= <-] s H V. exists d. split; [reflexivity|]. split; [exact H|exact V].
    - intros vs fs d fl [= <-] s H V. exact H.
    - intros c a IA o IO vs fs d fl W s H V. destruct (join_some _ _ _ W) as (fa & fo & A & O). rewrite A, O in W. rewrite A2lModSeq.exec_if.
      destruct (test isKeyword toks c s); [eapply join_l; [exact W|]; eapply IA; eassumption|eapply join_r; [exact W|]; eapply IO; eassumption].
    - intros r cs IC o IO vs fs d fl W s H V. destruct (join_some _ _ _ W) as (fa & fo & A & O). rewrite A, O in W. rewrite exec_switch.
      pose proof (readSrc_keeps r s) as [R1 R2]. destruct (readSrc toks r s) as [x s'] eqn:R. cbn [snd] in R1, R2.
      apply (struct_eq _ _ _ R1) in H. apply (vars_eq _ _ _ R2) in V.
      destruct (pick cs x s') as [q|] eqn:P; [eapply join_l; [exact W|]; eapply IC; eassumption|eapply join_r; [exact W|]; eapply IO; eassumption].
    - intros fs d fl [= <-] s H V. exists d. split; [reflexivity|]. split; [exact H|exact V].
    - intros x IX k IK fs d fl W s H V. rewrite A2lModSeq.run_seq. destruct (ty (usesb fs k) fs x d) as [fx|] eqn:X; [|discriminate].
      specialize (IX _ _ _ _ X s H V). destruct (exec x s) as [s'|s'| |]; cbn in IX; try exact Logic.I; [|exact IX].
      destruct IX as (d' & -> & H' & V'). eapply IK; eassumption.
    - intros fs d fl W t s q H V P. discriminate.
    - intros c k IK cs IC fs d fl W t s q H V P. destruct (join_some _ _ _ W) as (fa & fo & A & O). rewrite A, O in W. rewrite A2lModSeq.pick_case in P.
      destruct (beqb t (b c)); [injection P as <-; eapply join_l; [exact W|]; eapply IK; eassumption|eapply join_r; [exact W|]; eapply IC; eassumption].
    - intros adv table t F i v e j CL. destruct t; try discriminate. cbn [A2lIR.call] in CL. destruct (findText _ _); injection CL as <- <- <-; constructor.
    - intros k IK t F i v e j CL. destruct t as [| | | | | | | | | | |fs]; try discriminate. destruct (tyb fs k []) as [fl|] eqn:T; [|discriminate].
      rewrite call_straight in CL. specialize (IK _ _ _ T (St [] [] false i)).
      assert (H : struct fs (St [] [] false i)) by (constructor; intros f w G; discriminate). specialize (IK H (NOV _)).
      destruct (run k (St [] [] false i)) as [s'|s'| |]; try discriminate; injection CL as <- <- <-; cbn in IK.
      + destruct IK as (d & _ & S' & _). exact S'.
      + exact IK.
    - intros pre IP body IB t F i v e j CL. destruct t as [| | | | | | | | | | |fs]; try discriminate. destruct (tyb fs pre []) as [fl|] eqn:T; [|discriminate].
      destruct (tyb fs body []) as [fb|] eqn:TB; [|discriminate].
      rewrite call_loop in CL. specialize (IP _ _ _ T (St [] [] false i)).
      assert (H : struct fs (St [] [] false i)) by (constructor; intros f w G; discriminate). specialize (IP H (NOV _)).
      destruct (run pre (St [] [] false i)) as [s'|s'| |]; try discriminate; cbn in IP.
      + destruct IP as (d & _ & S' & _). pose proof (iter_struct fs (run body) fb (fun s G => IB _ _ _ TB s G (NOV s)) fuel s' S') as GI.
        destruct (iter fuel (run body) s') as [s2|s2| |]; try discriminate; injection CL as <- <- <-; exact GI.
      + injection CL as <- <- <-. exact IP.
  Qed.
End Sound.
