(** The machine of FanFullModel.v: its invariant, that it does what the machine of
    FanModel.v does, that it ends, and which goroutines access what. *)
From Coq Require Import String List Arith Lia Bool.
From Verif Require Import FanModel FanProofs FanFullModel.
Import ListNotations.

(** ** Sums over lists *)

Fixpoint sum {A : Type} (f : A -> nat) (l : list A) : nat := match l with [] => 0 | x :: r => f x + sum f r end.
Lemma sum_app : forall A (f : A -> nat) l1 l2, sum f (l1 ++ l2) = sum f l1 + sum f l2.
Proof. intros A f l1 l2. induction l1 as [|x l1 IH]; [reflexivity|]. cbn.  rewrite IH. lia. Qed.
Lemma sum_put : forall A (f : A -> nat) w i x y, nth_error w i = Some x -> sum f (put i y w) + f x = sum f w + f y.
Proof.
  intros A f. induction w as [|z w IH]; intros [|i] x y H; cbn in H; try discriminate.
  - injection H as ->. cbn. lia.
  - unfold put in *. cbn. specialize (IH i x y H). cbn in IH.  cbn in *. lia.
Qed.
Lemma sum_zero : forall A (f : A -> nat) w i x, sum f w = 0 -> nth_error w i = Some x -> f x = 0.
Proof. intros A f. induction w as [|z w IH]; intros [|i] x S H; cbn in *; try discriminate; [injection H as <-; lia|]. eapply IH; [|exact H]. lia. Qed.
Lemma sum_ext : forall A (f g : A -> nat) l, (forall x, In x l -> f x = g x) -> sum f l = sum g l.
Proof. intros A f g l. induction l as [|x l IH]; intros H; [reflexivity|]. cbn. rewrite (H x) by (left; reflexivity).  rewrite IH; [reflexivity|]. intros; apply H; right; assumption. Qed.

Lemma updf_same : forall T (g : string -> T) c x, updf g c x c = x.
Proof. intros. unfold updf. rewrite String.eqb_refl. reflexivity. Qed.
Lemma updf_other : forall T (g : string -> T) c x d, d <> c -> updf g c x d = g d.
Proof. intros. unfold updf. destruct (String.eqb_spec d c); [contradiction|reflexivity]. Qed.
Lemma sum_updf_out : forall T (f : T -> nat) (g : string -> T) c x l, ~ In c l -> sum (fun d => f (updf g c x d)) l = sum (fun d => f (g d)) l.
Proof. intros T f g c x l N. apply sum_ext. intros d D. rewrite updf_other; [reflexivity|]. intros ->. contradiction. Qed.
Lemma sum_updf : forall T (f : T -> nat) (g : string -> T) c x l, NoDup l -> In c l -> sum (fun d => f (updf g c x d)) l + f (g c) = sum (fun d => f (g d)) l + f x.
Proof.
  intros T f g c x. induction l as [|d l IH]; intros ND I; [destruct I|]. inversion ND as [|? ? N ND']; subst. cbn.
  destruct (string_dec d c) as [->|NE].
  - rewrite updf_same. rewrite sum_updf_out by exact N. lia.
  - destruct I as [->|I]; [contradiction|]. specialize (IH ND' I). rewrite updf_other by exact NE.  lia.
Qed.

Lemma put_same : forall A i (x : A) y w, nth_error w i = Some x -> nth_error (put i y w) i = Some y.
Proof. intros A. induction i as [|i IH]; intros x y [|z w] H; cbn in *; try discriminate; [reflexivity|]. unfold put in IH. exact (IH x y w H). Qed.
Lemma put_other : forall A i j (x : A) y w, nth_error w i = Some x -> j <> i -> nth_error (put i y w) j = nth_error w j.
Proof.
  intros A. induction i as [|i IH]; intros j x y [|z w] H N; cbn in *; try discriminate.
  - destruct j; [lia|reflexivity].
  - destruct j; [reflexivity|]. cbn. unfold put in IH. apply (IH j x y w H). lia.
Qed.
Lemma put_length : forall A i (x : A) y w, nth_error w i = Some x -> length (put i y w) = length w.
Proof. intros A. induction i as [|i IH]; intros x y [|z w] H; cbn in *; try discriminate; [reflexivity|]. unfold put in IH. f_equal. exact (IH x y w H). Qed.
Lemma put_map : forall A B (f : A -> B) i y w, map f (put i y w) = put i (f y) (map f w).
Proof. intros A B f i y w. unfold put. rewrite map_app, firstn_map. cbn [map]. rewrite skipn_map. reflexivity. Qed.

Lemma sum_pos : forall A (f : A -> nat) w, 0 < sum f w -> exists i x, nth_error w i = Some x /\ 0 < f x.
Proof.
  intros A f. induction w as [|z w IH]; intros H; cbn in H; [lia|]. destruct (f z) as [|k] eqn:E.
  - destruct (IH H) as (i & x & N & P). exists (S i), x. auto.
  - exists 0, z. split; [reflexivity|lia].
Qed.
Lemma sum_upd_in : forall V (f : list V -> nat) (g : string -> list V) c x l, NoDup l -> In c l -> sum (fun d => f (upd g c x d)) l + f (g c) = sum (fun d => f (g d)) l + f x.
Proof. intros V f g c x l. exact (sum_updf (list V) f g c x l). Qed.
Lemma put_id : forall A i (x : A) w, nth_error w i = Some x -> put i x w = w.
Proof. intros A. induction i as [|i IH]; intros x [|z w] H; cbn in *; try discriminate; [injection H as ->; reflexivity|]. unfold put in IH. f_equal. exact (IH x w H). Qed.

Section Full.
  Variables V M : Type.
  Variable cap : string -> nat.
  Variable store : string -> V -> M -> M.
  Variables closing starts : list string.
  Variable m0 : M.
  Variable w0 : list (list (string * V)).
  Hypothesis closing_nodup : NoDup closing.
  Hypothesis starts_nodup : NoDup starts.
  Hypothesis same : forall c, In c starts <-> In c closing.
  Hypothesis sends : forall l m, In l w0 -> In m l -> In (fst m) closing.
  Hypothesis caps : forall c, In c closing -> 0 < cap c.

  Notation full := (full V M).
  Notation nc := (length starts).
  Notation n0 := (length w0).
  Notation worker := (worker V).
  Notation coll := (coll V).

  Definition fresh (x : worker) : bool := match x with WNew _ => true | _ => false end.
  Definition busy (x : worker) : nat := match x with WEnd => 0 | _ => 1 end.
  Definition left_ (x : worker) : list (string * V) := match x with WNew l | WRun l => l | WEnd => [] end.
  Definition alive (k : coll) : nat := match k with KEnd => 0 | _ => 1 end.
  Definition fresh_coll (k : coll) : bool := match k with KNew => true | _ => false end.
  Definition running (w : list worker) : Prop := forall i x, nth_error w i = Some x -> fresh x = false.

  (** how far the caller is *)
  Inductive phase : list stmt -> list worker -> closer -> (string -> coll) -> nat -> Prop :=
  | Ph1 : forall k w co, k <= n0 -> length w = n0 -> (forall i x, nth_error w i = Some x -> (fresh x = true <-> k <= i)) -> (forall c, co c = KNew) ->
      phase (map GoWorker (seq k (n0 - k)) ++ [GoCloser; AddColl nc] ++ map GoColl starts ++ [WaitColl]) w CNew co 0
  | Ph2 : forall w cl co, running w -> cl <> CNew -> (forall c, co c = KNew) -> phase (AddColl nc :: map GoColl starts ++ [WaitColl]) w cl co 0
  | Ph3 : forall d r w cl co wgc, starts = d ++ r -> running w -> cl <> CNew -> (forall c, fresh_coll (co c) = false <-> In c d) -> wgc = sum (fun c => alive (co c)) starts ->
      phase (map GoColl r ++ [WaitColl]) w cl co wgc
  | Ph4 : forall w cl co, running w -> cl <> CNew -> (forall c, In c starts -> co c = KEnd) -> (forall c, ~ In c starts -> co c = KNew) -> phase [] w cl co 0.

  Record uinv (u : full) : Prop := {
    v_panic : u_panic u = false;
    v_phase : phase (u_main u) (u_work u) (u_closer u) (u_coll u) (u_wgc u);
    v_wgp : u_wgp u = sum busy (u_work u);
    v_close : match u_closer u with
              | CClose l => u_wgp u = 0 /\ exists d, closing = d ++ l /\ forall c, In c (u_closed u) <-> In c d
              | _ => u_closed u = []
              end;
    v_exit : forall c, u_coll u c = KExit \/ u_coll u c = KEnd -> In c (u_closed u) /\ u_buf u c = [];
    v_chan : forall i x m, nth_error (u_work u) i = Some x -> In m (left_ x) -> In (fst m) closing;
    v_mem : exists tr, u_mem u = fold_left (fun m p => store (fst p) (snd p) m) tr m0 /\ forall c, u_got u c = on c tr }.

  Lemma sum_busy_new : forall w : list (list (string * V)), sum busy (map WNew w) = length w.
  Proof. induction w as [|l w IH]; [reflexivity|]. cbn.  rewrite IH. reflexivity. Qed.

  Lemma uinv_init : uinv (uinit w0 starts n0 nc m0).
  Proof.
    constructor; cbn.
    - reflexivity.
    - unfold program. replace n0 with (n0 - 0) at 1 by lia. apply Ph1; [lia|apply map_length| |reflexivity].
      intros i x H. split; [lia|]. intros _. rewrite nth_error_map in H. destruct (nth_error w0 i); [|discriminate]. injection H as <-. reflexivity.
    - symmetry. apply sum_busy_new.
    - reflexivity.
    - intros c [H|H]; discriminate.
    - intros i x m H I. rewrite nth_error_map in H. destruct (nth_error w0 i) as [l|] eqn:E; [|discriminate]. injection H as <-. cbn in I. eapply sends; [eapply nth_error_In; exact E|exact I].
    - exists []. split; reflexivity.
  Qed.

  Lemma running_put : forall w i x y, running w -> nth_error w i = Some x -> fresh y = false -> running (put i y w).
  Proof. intros w i x y R N F j z H. destruct (Nat.eq_dec j i) as [->|NE]; [rewrite (put_same _ i x y w N) in H; injection H as <-; exact F|]. rewrite (put_other _ i j x y w N NE) in H. exact (R j z H). Qed.

  Lemma phase_work : forall mn w cl co wgc i x y, phase mn w cl co wgc -> nth_error w i = Some x -> fresh x = false -> fresh y = false -> phase mn (put i y w) cl co wgc.
  Proof.
    intros mn w cl co wgc i x y P N FX FY. destruct P as [k w co K L F C|w cl co R CL C|d r w cl co wgc E R CL C W|w cl co R CL C C'].
    - apply Ph1; [exact K|rewrite (put_length _ i x y w N); exact L| |exact C]. intros j z H. destruct (Nat.eq_dec j i) as [->|NE].
      + rewrite (put_same _ i x y w N) in H. injection H as <-. rewrite FY. rewrite <- (F i x N), FX. reflexivity.
      + rewrite (put_other _ i j x y w N NE) in H. exact (F j z H).
    - apply Ph2; [eapply running_put; eassumption|exact CL|exact C].
    - eapply Ph3; [exact E|eapply running_put; eassumption|exact CL|exact C|exact W].
    - apply Ph4; [eapply running_put; eassumption|exact CL|exact C|exact C'].
  Qed.
  Lemma phase_closer : forall mn w cl cl' co wgc, phase mn w cl co wgc -> cl <> CNew -> cl' <> CNew -> phase mn w cl' co wgc.
  Proof.
    intros mn w cl cl' co wgc P A B. destruct P as [k w co K L F C|w cl co R CL C|d r w cl co wgc E R CL C W|w cl co R CL C C']; [contradiction|apply Ph2|eapply Ph3|apply Ph4]; eassumption.
  Qed.
  Lemma phase_in : forall mn w cl co wgc c, phase mn w cl co wgc -> fresh_coll (co c) = false -> In c starts.
  Proof.
    intros mn w cl co wgc c P A. destruct P as [k w co K L F C|w cl co R CL C|d r w cl co wgc E R CL C W|w cl co R CL C C']; [rewrite C in A; discriminate|rewrite C in A; discriminate| |].
    - rewrite E. apply in_or_app. left. apply C. exact A.
    - destruct (in_dec string_dec c starts) as [I|I]; [exact I|]. rewrite (C' c I) in A. discriminate.
  Qed.
  Lemma fresh_upd : forall (co : string -> coll) c x d, fresh_coll (co c) = false -> fresh_coll x = false -> fresh_coll (updf co c x d) = fresh_coll (co d).
  Proof. intros co c x d A B. destruct (string_dec d c) as [->|N]; [rewrite updf_same; congruence|rewrite updf_other by exact N; reflexivity]. Qed.
  Lemma phase_coll : forall mn w cl co wgc c x, phase mn w cl co wgc -> fresh_coll (co c) = false -> fresh_coll x = false -> alive (co c) = 1 -> alive x = 1 -> phase mn w cl (updf co c x) wgc.
  Proof.
    intros mn w cl co wgc c x P A B AL AX. pose proof (phase_in _ _ _ _ _ _ P A) as I.
    destruct P as [k w co K L F C|w cl co R CL C|d r w cl co wgc E R CL C W|w cl co R CL C C']; [rewrite C in A; discriminate|rewrite C in A; discriminate| |].
    - eapply Ph3; [exact E|exact R|exact CL| |].
      + intros e. rewrite fresh_upd by assumption. apply C.
      + rewrite W. pose proof (sum_updf _ alive co c x starts starts_nodup I) as S0. lia.
    - rewrite (C c I) in AL. discriminate.
  Qed.
  Lemma phase_done : forall mn w cl co n c, phase mn w cl co (S n) -> co c = KExit -> phase mn w cl (updf co c KEnd) n.
  Proof.
    intros mn w cl co n c P A. assert (FC : fresh_coll (co c) = false) by (rewrite A; reflexivity). pose proof (phase_in _ _ _ _ _ _ P FC) as I. remember (S n) as wgc eqn:E0.
    destruct P as [k w co K L F C|w cl co R CL C|d r w cl co wgc E R CL C W|w cl co R CL C C']; try discriminate.
    eapply Ph3; [exact E|exact R|exact CL| |].
    - intros e. rewrite fresh_upd by (exact FC || reflexivity). apply C.
    - pose proof (sum_updf _ alive co c KEnd starts starts_nodup I) as S0. rewrite A in S0. cbn [alive] in S0. lia.
  Qed.
  Lemma alive_pos : forall mn w cl co wgc c, phase mn w cl co wgc -> co c = KExit -> 0 < wgc.
  Proof.
    intros mn w cl co wgc c P A. assert (FC : fresh_coll (co c) = false) by (rewrite A; reflexivity). pose proof (phase_in _ _ _ _ _ _ P FC) as I.
    destruct P as [k w co K L F C|w cl co R CL C|d r w cl co wgc E R CL C W|w cl co R CL C C']; [rewrite C in A; discriminate|rewrite C in A; discriminate| |rewrite (C c I) in A; discriminate].
    subst wgc. clear - A I. induction starts as [|e l IH]; [destruct I|]. cbn. destruct I as [->|I]; [rewrite A; cbn; lia|]. specialize (IH I).  lia.
  Qed.

  Lemma busy_pos : forall w i x, nth_error w i = Some x -> x <> WEnd -> 0 < sum busy w.
  Proof.
    intros w i x N B. destruct (sum busy w) as [|n] eqn:E; [|lia]. pose proof (sum_zero _ busy w i x E N) as Z0. destruct x; cbn in Z0; try discriminate. congruence.
  Qed.

  Lemma seq_head : forall k n i r, seq k n = i :: r -> i = k /\ n = S (n - 1) /\ r = seq (S k) (n - 1).
  Proof. intros k [|n] i r H; cbn in H; [discriminate|]. injection H as <- <-. replace (S n - 1) with n by lia. auto. Qed.

  Theorem uinv_step : forall u u', uinv u -> ustep cap store closing u u' -> uinv u'.
  Proof.
    intros u u' I ST. destruct ST as
      [i r ms w wgp cl cd buf co wgc got m N|r w wgp cd buf co wgc got m|n r w wgp cl cd buf co wgc got m|c r w wgp cl cd buf co wgc got m N|r w wgp cl cd buf co got m
      |mn w i c v ms wgp cl cd buf co wgc got m N NC CP|mn w i c v ms wgp cl cd buf co wgc got m N IC|mn w i n cl cd buf co wgc got m N|mn w i cl cd buf co wgc got m N
      |mn w cd buf co wgc got m|mn w wgp c cs cd buf co wgc got m NC|mn w wgp c cs cd buf co wgc got m IC
      |mn w wgp cl cd buf c v vs co wgc got m K B|mn w wgp cl cd buf c v co wgc got m K|mn w wgp cl cd buf c co wgc got m K B IC|mn w wgp cl cd buf c co n got m K|mn w wgp cl cd buf c co got m K];
      destruct I as [VP PH WG CL EX CH ME]; cbn [u_main u_work u_wgp u_closer u_closed u_buf u_coll u_wgc u_got u_mem u_panic] in *.
    - (* go worker *) assert (P' : phase r (put i (WRun ms) w) cl co wgc).
      { inversion PH as [k w1 co1 K L F C E1 E2 E3 E4 E5| |d r1 w1 cl1 co1 wgc1 E R C1 C2 W E1|]; subst.
        - destruct (seq k (n0 - k)) as [|i1 q] eqn:SQ; [discriminate|]. injection E1 as E1a E1b. subst i1 r. destruct (seq_head _ _ _ _ SQ) as (-> & E & ->).
          replace (n0 - k - 1) with (n0 - S k) by lia. apply Ph1; [lia|rewrite (put_length _ k _ _ w N); exact L| |exact C].
          intros j z H. destruct (Nat.eq_dec j k) as [->|NE]; [rewrite (put_same _ k _ _ w N) in H; injection H as <-; cbn; split; [discriminate|lia]|].
          rewrite (put_other _ k j _ _ w N NE) in H. rewrite (F j z H). lia.
        - destruct r1; discriminate. }
      constructor; cbn; auto.
      + rewrite WG. pose proof (sum_put _ busy w i _ (WRun ms) N) as S0. cbn [busy] in S0. lia.
      + intros j z x H I. destruct (Nat.eq_dec j i) as [->|NE]; [rewrite (put_same _ i _ _ w N) in H; injection H as <-; exact (CH i _ x N I)|]. rewrite (put_other _ i j _ _ w N NE) in H. exact (CH j z x H I).
    - (* go closer *) assert (P' : phase r w CWait co wgc).
      { inversion PH as [k w1 co1 K L F C E1 E2 E3 E4 E5| |d r1 w1 cl1 co1 wgc1 E R C1 C2 W E1|]; subst.
        - destruct (seq k (n0 - k)) as [|i1 q] eqn:SQ; [|discriminate]. injection E1 as <-. apply Ph2; [|discriminate|exact C].
          intros j z H. assert (k = n0) as -> by (destruct (n0 - k) eqn:D; [lia|discriminate]). pose proof (F j z H) as FJ. assert (j < n0) by (rewrite <- L; apply nth_error_Some; congruence). destruct (fresh z); [|reflexivity]. assert (n0 <= j) by (apply FJ; reflexivity). lia.
        - destruct r1; discriminate. }
      constructor; cbn; auto.
    - (* add *) assert (P' : phase r w cl co (wgc + n)).
      { inversion PH as [k w1 co1 K L F C E1 E2 E3 E4 E5|w1 cl1 co1 R C1 C E1|d r1 w1 cl1 co1 wgc1 E R C1 C2 W E1|]; subst.
        - destruct (seq k (n0 - k)); discriminate.
        - eapply (Ph3 [] starts); [reflexivity|exact R|exact C1| |].
          + intros c. rewrite C. cbn. split; [discriminate|intros []].
          + cbn. clear - C. induction starts as [|c l IH]; [reflexivity|]. cbn. rewrite C. cbn. f_equal. exact IH.
        - destruct r1; discriminate. }
      constructor; cbn; auto.
    - (* go collector *) assert (P' : phase r w cl (updf co c KRecv) wgc).
      { inversion PH as [k w1 co1 K L F C E1 E2 E3 E4 E5| |d r1 w1 cl1 co1 wgc1 E R C1 C2 W E1|]; subst.
        - destruct (seq k (n0 - k)); discriminate.
        - destruct r1 as [|c1 r1]; [discriminate|]. injection E1 as E1a E1b. subst c1 r. eapply (Ph3 (d ++ [c]) r1); [rewrite <- app_assoc; exact E|exact R|exact C1| |].
          + intros e. rewrite in_app_iff. cbn [In]. destruct (string_dec e c) as [->|NE]; [rewrite updf_same; cbn; tauto|]. rewrite updf_other by exact NE. rewrite C2. intuition congruence.
          + pose proof (sum_updf _ alive co c KRecv starts starts_nodup ltac:(rewrite E; apply in_elt)) as S0. rewrite N in S0. cbn [alive] in S0. lia. }
      constructor; cbn; auto. intros e H. destruct (string_dec e c) as [->|NE]; [rewrite updf_same in H; destruct H; discriminate|]. rewrite updf_other in H by exact NE. exact (EX e H).
    - (* wait *) assert (P' : phase r w cl co 0).
      { inversion PH as [k w1 co1 K L F C E1 E2 E3 E4 E5| |d r1 w1 cl1 co1 wgc1 E R C1 C2 W E1|]; subst.
        - destruct (seq k (n0 - k)); discriminate.
        - destruct r1 as [|c1 r1]; [|discriminate]. injection E1 as <-. rewrite app_nil_r in E. subst d. apply Ph4; [exact R|exact C1| |].
          + intros c I. pose proof (proj2 (C2 c) I) as FR. destruct (In_nth_error _ _ I) as (j & J). symmetry in W. pose proof (sum_zero _ _ _ _ _ W J) as Z0. cbv beta in Z0. destruct (co c); try discriminate; reflexivity.
          + intros c I. destruct (co c) eqn:Q; try reflexivity; exfalso; apply I; apply C2; rewrite Q; reflexivity. }
      constructor; cbn; auto.
    - (* send *) constructor; cbn; auto.
      + eapply phase_work; [exact PH|exact N|reflexivity|reflexivity].
      + rewrite WG. pose proof (sum_put _ busy w i _ (WRun ms) N) as S0. cbn [busy] in S0. lia.
      + intros e H. destruct (EX e H) as [E1 E2]. split; [exact E1|]. unfold upd. destruct (String.eqb_spec e c) as [->|NE]; [contradiction|exact E2].
      + intros j z x H I. destruct (Nat.eq_dec j i) as [->|NE]; [rewrite (put_same _ i _ _ w N) in H; injection H as <-; exact (CH i _ x N (or_intror I))|]. rewrite (put_other _ i j _ _ w N NE) in H. exact (CH j z x H I).
    - (* send panic *) exfalso. assert (0 < wgp) by (rewrite WG; eapply busy_pos; [exact N|discriminate]). destruct cl as [| |l]; [subst cd; destruct IC|subst cd; destruct IC|]. destruct CL as [CL _]. lia.
    - (* done *) constructor; cbn; auto.
      + eapply phase_work; [exact PH|exact N|reflexivity|reflexivity].
      + pose proof (sum_put _ busy w i _ WEnd N) as S0. cbn [busy] in S0. lia.
      + destruct cl; auto. destruct CL as [CL _]. discriminate.
      + intros j z x H I. destruct (Nat.eq_dec j i) as [->|NE]; [rewrite (put_same _ i _ _ w N) in H; injection H as <-; destruct I|]. rewrite (put_other _ i j _ _ w N NE) in H. exact (CH j z x H I).
    - exfalso. assert (0 < sum busy w) by (eapply busy_pos; [exact N|discriminate]). lia.
    - (* closer wait *) constructor; cbn; auto.
      + eapply phase_closer; [exact PH|discriminate|discriminate].
      + subst cd. split; [reflexivity|]. exists []. split; [reflexivity|]. intros c. cbn. tauto.
    - (* close *) destruct CL as (CL & d & E & D). constructor; cbn; auto.
      + eapply phase_closer; [exact PH|discriminate|discriminate].
      + split; [exact CL|]. exists (d ++ [c]). split; [rewrite <- app_assoc; exact E|]. intros e. rewrite in_app_iff, <- D. cbn. tauto.
      + intros e H. destruct (EX e H). split; [right|]; assumption.
    - (* close panic *) exfalso. destruct CL as (CL & d & E & D). apply D in IC. rewrite E in closing_nodup. apply NoDup_remove_2 in closing_nodup. apply closing_nodup. apply in_or_app. left. exact IC.
    - (* receive *) constructor; cbn; auto.
      + eapply phase_coll; [exact PH|rewrite K; reflexivity|reflexivity|rewrite K; reflexivity|reflexivity].
      + intros e H. destruct (string_dec e c) as [->|NE]; [rewrite updf_same in H; destruct H; discriminate|]. rewrite updf_other in H by exact NE. destruct (EX e H) as [E1 E2]. split; [exact E1|].
        unfold upd. destruct (String.eqb_spec e c); [contradiction|exact E2].
    - (* store *) constructor; cbn; auto.
      + eapply phase_coll; [exact PH|rewrite K; reflexivity|reflexivity|rewrite K; reflexivity|reflexivity].
      + intros e H. destruct (string_dec e c) as [->|NE]; [rewrite updf_same in H; destruct H; discriminate|]. rewrite updf_other in H by exact NE. exact (EX e H).
      + destruct ME as (tr & T1 & T2). exists (tr ++ [(c, v)]). split; [rewrite fold_left_app, <- T1; reflexivity|]. intros e. rewrite on_app. unfold upd. rewrite <- T2. unfold on. cbn. 
        destruct (String.eqb_spec e c) as [->|NE]; [rewrite String.eqb_refl; reflexivity|]. destruct (String.eqb_spec c e); [congruence|]. cbn. rewrite app_nil_r. reflexivity.
    - (* exit *) constructor; cbn; auto.
      + eapply phase_coll; [exact PH|rewrite K; reflexivity|reflexivity|rewrite K; reflexivity|reflexivity].
      + intros e H. destruct (string_dec e c) as [->|NE]; [split; assumption|]. rewrite updf_other in H by exact NE. exact (EX e H).
    - (* collector done *) constructor; cbn; auto.
      + eapply phase_done; [exact PH|exact K].
      + intros e H. destruct (string_dec e c) as [->|NE]; [apply EX; left; exact K|]. rewrite updf_other in H by exact NE. exact (EX e H).
    - exfalso. pose proof (alive_pos _ _ _ _ _ _ PH K). lia.
  Qed.

  Lemma uinv_steps : forall n u u', uinv u -> usteps cap store closing n u u' -> uinv u'.
  Proof. intros n u u' I ST. induction ST as [|n u1 u2 u3 S1 _ IH]; [exact I|]. apply IH. eapply uinv_step; eassumption. Qed.

  (** ** No deadlock *)
  Lemma coll_moves : forall u c, u_panic u = false -> In c closing -> (u_coll u c = KEnd -> u_buf u c = [] /\ False) -> fresh_coll (u_coll u c) = false -> (u_buf u c <> [] \/ In c (u_closed u)) -> exists u', ustep cap store closing u u'.
  Proof.
    intros [mn w wgp cl cd buf co wgc got m pn] c P I E F A. cbn in *. subst pn. destruct (co c) as [| |v| |] eqn:K; try discriminate.
    - destruct (buf c) as [|v vs] eqn:B.
      + destruct A as [A|A]; [contradiction|]. eexists. eapply UExit; eassumption.
      + eexists. eapply URecv; eassumption.
    - eexists. eapply UStore; eassumption.
    - destruct wgc as [|n]; eexists; [eapply UCollDonePanic|eapply UCollDone]; eassumption.
    - destruct (E eq_refl) as [_ []].
  Qed.

  Theorem uprogress : forall u, uinv u -> returned u \/ exists u', ustep cap store closing u u'.
  Proof.
    intros u I. destruct I as [VP PH WG CL EX CH ME]. unfold returned. remember (u_main u) as mn eqn:EM. remember (u_work u) as w0' eqn:EW. remember (u_closer u) as cl0 eqn:EC. remember (u_coll u) as co0 eqn:EO. remember (u_wgc u) as wgc0 eqn:EG.
    destruct PH as [k w co K L F C|w cl co R NC C|d r w cl co wgc E R NC C W|w cl co R NC C C'].
    - right. destruct u as [mn w1 wgp cl cd buf co1 wgc got m pn]. cbn in *. subst. destruct (Nat.eq_dec k n0) as [->|NE].
      + replace (n0 - n0) with 0 by lia. eexists. apply UGoCloser.
      + destruct (nth_error w1 k) as [x|] eqn:N; [|apply nth_error_None in N; lia]. pose proof (proj2 (F k x N) (le_n _)) as FX. destruct x as [ms| |]; try discriminate.
        replace (n0 - k) with (S (n0 - S k)) by lia. eexists. apply UGoWorker. exact N.
    - right. destruct u as [mn w1 wgp cl1 cd buf co1 wgc got m pn]. cbn in *. subst. eexists. apply UAddColl.
    - right. destruct r as [|c r].
      + rewrite app_nil_r in E. subst d.
        destruct wgc as [|n].
        * destruct u as [mn w1 wgp cl1 cd buf co1 wgc got m pn]. cbn in *. subst. eexists. apply UWaitColl.
        * destruct (sum busy w) as [|k] eqn:SB.
          -- destruct cl as [| |l]; [contradiction| |].
             ++ destruct u as [mn w1 wgp cl1 cd buf co1 wgc got m pn]. cbn in *. subst. eexists. apply UCloserWait.
             ++ destruct l as [|c l].
                ** destruct CL as (_ & d & ED & D). rewrite app_nil_r in ED. subst d.
                   destruct (sum_pos _ (fun c => alive (co c)) starts) as (i & c & N & A); [lia|]. assert (IC : In c starts) by (eapply nth_error_In; exact N).
                   subst co. apply (coll_moves u c VP); [apply same; exact IC| |apply C; exact IC|right; apply D; apply same; exact IC]. intros Q. rewrite Q in A. cbn in A. lia.
                ** destruct u as [mn w1 wgp cl1 cd buf co1 wgc got m pn]. cbn in *. subst. destruct (in_dec string_dec c cd) as [IC|NI]; eexists; [apply UClosePanic; exact IC|apply UClose; exact NI].
          -- destruct (sum_pos _ busy w) as (i & x & N & A); [lia|]. destruct x as [ms|[|[c v] ms]|]; [pose proof (R i _ N); discriminate| | |cbn in A; lia].
             ++ destruct u as [mn w1 wgp cl1 cd buf co1 wgc got m pn]. cbn in *. subst. eexists. eapply UWorkDone. exact N.
             ++ assert (IC : In c closing) by exact (CH i _ (c, v) N (or_introl eq_refl)). destruct (in_dec string_dec c (u_closed u)) as [ID|ND].
                ** destruct u as [mn w1 wgp cl1 cd buf co1 wgc got m pn]. cbn in *. subst. eexists. eapply USendPanic; eassumption.
                ** destruct (le_lt_dec (cap c) (length (u_buf u c))) as [LE|LT].
                   --- assert (NE : u_buf u c <> []) by (intros Q; rewrite Q in LE; cbn in LE; pose proof (caps c IC); lia).
                       subst co. apply (coll_moves u c VP IC); [|apply C; apply same; exact IC|left; exact NE]. intros Q. destruct (EX c (or_intror Q)). contradiction.
                   --- destruct u as [mn w1 wgp cl1 cd buf co1 wgc got m pn]. cbn in *. subst. eexists. eapply USend; eassumption.
      + assert (N : co c = KNew).
        { assert (ND : ~ In c d) by (intros ND; rewrite E in starts_nodup; apply NoDup_remove_2 in starts_nodup; apply starts_nodup; apply in_or_app; left; exact ND).
          destruct (co c) eqn:Q; try reflexivity; exfalso; apply ND; apply C; rewrite Q; reflexivity. }
        destruct u as [mn w1 wgp cl1 cd buf co1 wgc1 got m pn]. cbn in *. subst. eexists. apply UGoColl. exact N.
    - left. reflexivity.
  Qed.

  (** ** After the return *)
  Theorem ureturned : forall u c0, In c0 closing -> uinv u -> returned u ->
    (forall i x, nth_error (u_work u) i = Some x -> x = WEnd) /\ u_closer u = CClose [] /\ (forall c, In c closing -> In c (u_closed u) /\ u_coll u c = KEnd /\ u_buf u c = []).
  Proof.
    intros u c0 IC0 I RT. destruct I as [VP PH WG CL EX CH ME]. unfold returned in RT. rewrite RT in PH. 
    inversion PH as [k w1 co1 K L F C E1| |d r1 w1 cl1 co1 wgc1 E R C1 C2 W E1|w cl co R NC C C' E1 E2 E3 E4 E5]; subst.
    - destruct (map GoWorker (seq k (n0 - k))); discriminate.
    - destruct r1; discriminate.
    - assert (A : forall c, In c closing -> In c (u_closed u) /\ u_coll u c = KEnd /\ u_buf u c = []).
      { intros c IC. pose proof (C c (proj2 (same c) IC)) as KE. destruct (EX c (or_intror KE)). auto. }
      assert (CC : u_closer u = CClose [] /\ u_wgp u = 0).
      { destruct (A c0 IC0) as [A0 _]. destruct (u_closer u) as [| |l]; [congruence|rewrite CL in A0; destruct A0|]. destruct CL as (W0 & d & ED & D). split; [|exact W0].
        destruct l as [|c l]; [reflexivity|]. exfalso. destruct (A c) as [A1 _]; [rewrite ED; apply in_elt|]. apply D in A1. rewrite ED in closing_nodup. apply NoDup_remove_2 in closing_nodup. apply closing_nodup. apply in_or_app. left. exact A1. }
      destruct CC as [CC W0]. split; [|split; [exact CC|exact A]]. intros i x N. rewrite W0 in WG. symmetry in WG. pose proof (sum_zero _ busy _ _ _ WG N) as B. destruct x; cbn in B; [discriminate|discriminate|reflexivity].
  Qed.

  (** ** The number of steps *)
  Definition inflight (k : coll) : list V := match k with KStore v => [v] | _ => [] end.
  Definition rest (k : coll) : nat := match k with KNew | KRecv => 2 | KStore _ => 3 | KExit => 1 | KEnd => 0 end.
  Definition closes (c : closer) : nat := match c with CClose l => length l | _ => S (length closing) end.
  Definition steps_left (u : full) : nat :=
    length (u_main u) + sum (fun x => busy x + 3 * length (left_ x)) (u_work u) + closes (u_closer u) + sum (fun c => 2 * length (u_buf u c)) closing + sum (fun c => rest (u_coll u c)) closing.

  Lemma one_step : forall u u', uinv u -> ustep cap store closing u u' -> steps_left u = S (steps_left u').
  Proof.
    intros u u' I ST. pose proof (uinv_step _ _ I ST) as I'. unfold steps_left.
    pose proof I as I0. destruct ST as
      [i r ms w wgp cl cd buf co wgc got m N|r w wgp cd buf co wgc got m|n r w wgp cl cd buf co wgc got m|c r w wgp cl cd buf co wgc got m N|r w wgp cl cd buf co got m
      |mn w i c v ms wgp cl cd buf co wgc got m N NC CP|mn w i c v ms wgp cl cd buf co wgc got m N IC|mn w i n cl cd buf co wgc got m N|mn w i cl cd buf co wgc got m N
      |mn w cd buf co wgc got m|mn w wgp c cs cd buf co wgc got m NC|mn w wgp c cs cd buf co wgc got m IC
      |mn w wgp cl cd buf c v vs co wgc got m K B|mn w wgp cl cd buf c v co wgc got m K|mn w wgp cl cd buf c co wgc got m K B IC|mn w wgp cl cd buf c co n got m K|mn w wgp cl cd buf c co got m K];
      destruct I as [VP PH WG CL EX CH ME]; cbn [u_main u_work u_wgp u_closer u_closed u_buf u_coll u_wgc u_got u_mem u_panic] in *;
      try (destruct I' as [VP' _ _ _ _ _ _]; cbn in VP'; discriminate).
    - pose proof (sum_put _ (fun x => busy x + 3 * length (left_ x)) w i _ (WRun ms) N) as S0. cbn [busy left_ length] in *. lia.
    - cbn. lia.
    - cbn. lia.
    - assert (IC : In c closing).
      { destruct I' as [_ PH' _ _ _ _ _]. cbn in PH'. apply same. eapply phase_in; [exact PH'|]. rewrite updf_same. reflexivity. }
      pose proof (sum_updf _ rest co c KRecv closing closing_nodup IC) as S0. rewrite N in S0. cbn [rest length] in *. lia.
    - cbn. lia.
    - assert (IC : In c closing) by exact (CH i _ (c, v) N (or_introl eq_refl)).
      pose proof (sum_put _ (fun x => busy x + 3 * length (left_ x)) w i _ (WRun ms) N) as S0. cbn [busy left_ length] in *.
      pose proof (sum_upd_in _ (fun l => 2 * length l) buf c (buf c ++ [v]) closing closing_nodup IC) as S1. cbv beta in S1. rewrite app_length in S1. cbn [length] in S1. lia.
    - pose proof (sum_put _ (fun x => busy x + 3 * length (left_ x)) w i _ WEnd N) as S0. cbn [busy left_ length] in *. lia.
    - cbn. lia.
    - cbn. lia.
    - assert (IC : In c closing) by (apply same; eapply phase_in; [exact PH|rewrite K; reflexivity]).
      pose proof (sum_upd_in _ (fun l => 2 * length l) buf c vs closing closing_nodup IC) as S1. cbv beta in S1. rewrite B in S1. cbn [length] in S1.
      pose proof (sum_updf _ rest co c (KStore v) closing closing_nodup IC) as S0. rewrite K in S0. cbn [rest] in *. lia.
    - assert (IC : In c closing) by (apply same; eapply phase_in; [exact PH|rewrite K; reflexivity]).
      pose proof (sum_updf _ rest co c KRecv closing closing_nodup IC) as S0. rewrite K in S0. cbn [rest] in *. lia.
    - assert (IC' : In c closing) by (apply same; eapply phase_in; [exact PH|rewrite K; reflexivity]).
      pose proof (sum_updf _ rest co c KExit closing closing_nodup IC') as S0. rewrite K in S0. cbn [rest] in *. lia.
    - assert (IC' : In c closing) by (apply same; eapply phase_in; [exact PH|rewrite K; reflexivity]).
      pose proof (sum_updf _ rest co c KEnd closing closing_nodup IC') as S0. rewrite K in S0. cbn [rest] in *. lia.
  Qed.

  (** ** The machine of FanModel.v *)
  Definition active (k : coll) : bool := match k with KExit | KEnd => false | _ => true end.
  Definition opened (c : closer) : list string := match c with CClose l => l | _ => closing end.
  Record follows (u : full) (s : fan V) : Prop := {
    fo_work : f_work s = map left_ (u_work u);
    fo_buf : f_buf s = u_buf u;
    fo_open : f_open s = opened (u_closer u);
    fo_got : forall c, f_got s c = u_got u c ++ inflight (u_coll u c);
    fo_coll : f_coll s = filter (fun c => active (u_coll u c)) closing }.

  Lemma follows_init : follows (uinit w0 starts n0 nc m0) (finit w0 closing).
  Proof.
    constructor; cbn; try reflexivity.
    - rewrite map_map. cbn. symmetry. apply map_id.
    - clear. induction closing as [|c l IH]; [reflexivity|]. cbn. f_equal. exact IH.
  Qed.
  Lemma filter_upd : forall (co : string -> coll) c x l, active (co c) = active x -> filter (fun d => active (updf co c x d)) l = filter (fun d => active (co d)) l.
  Proof. intros co c x l E. apply filter_ext. intros d. destruct (string_dec d c) as [->|N]; [rewrite updf_same; congruence|rewrite updf_other by exact N; reflexivity]. Qed.
  Lemma filter_exit : forall (co : string -> coll) c l, filter (fun d => active (updf co c KExit d)) l = without c (filter (fun d => active (co d)) l).
  Proof.
    intros co c. induction l as [|d l IH]; [reflexivity|]. cbn [filter]. destruct (string_dec d c) as [->|N].
    - rewrite updf_same. cbn [active]. rewrite IH. destruct (active (co c)); [|reflexivity]. unfold without. cbn [filter]. rewrite String.eqb_refl. reflexivity.
    - rewrite updf_other by exact N. destruct (active (co d)); [|exact IH]. rewrite IH. unfold without. cbn [filter]. destruct (String.eqb_spec d c); [contradiction|reflexivity].
  Qed.

  Theorem ufollows : forall u u' s, uinv u -> follows u s -> ustep cap store closing u u' -> follows u' s \/ exists s', fstep cap s s' /\ follows u' s'.
  Proof.
    intros u u' s I FO ST. pose proof (uinv_step _ _ I ST) as I'. pose proof I as I0. destruct s as [fw fb fop fg fc]. destruct ST as
      [i r ms w wgp cl cd buf co wgc got m N|r w wgp cd buf co wgc got m|n r w wgp cl cd buf co wgc got m|c r w wgp cl cd buf co wgc got m N|r w wgp cl cd buf co got m
      |mn w i c v ms wgp cl cd buf co wgc got m N NC CP|mn w i c v ms wgp cl cd buf co wgc got m N IC|mn w i n cl cd buf co wgc got m N|mn w i cl cd buf co wgc got m N
      |mn w cd buf co wgc got m|mn w wgp c cs cd buf co wgc got m NC|mn w wgp c cs cd buf co wgc got m IC
      |mn w wgp cl cd buf c v vs co wgc got m K B|mn w wgp cl cd buf c v co wgc got m K|mn w wgp cl cd buf c co wgc got m K B IC|mn w wgp cl cd buf c co n got m K|mn w wgp cl cd buf c co got m K];
      destruct I as [VP PH WG CL EX CH ME]; destruct FO as [F1 F2 F3 F4 F5]; cbn [u_main u_work u_wgp u_closer u_closed u_buf u_coll u_wgc u_got u_mem u_panic f_work f_buf f_open f_got f_coll] in *;
      try (destruct I' as [VP' _ _ _ _ _ _]; cbn in VP'; discriminate); subst fw fb fop fc.
    - left. constructor; cbn; auto. rewrite put_map. cbn. symmetry. apply put_id. rewrite nth_error_map, N. reflexivity.
    - left. constructor; cbn; auto.
    - left. constructor; cbn; auto.
    - left. constructor; cbn; auto.
      + intros d. destruct (string_dec d c) as [->|NE]; [rewrite updf_same, F4, N; reflexivity|rewrite updf_other by exact NE; apply F4].
      + rewrite filter_upd; [reflexivity|rewrite N; reflexivity].
    - left. constructor; cbn; auto.
    - right. eexists. split; [eapply FSend; [rewrite nth_error_map, N; reflexivity|exact CP]|]. constructor; cbn; auto. rewrite put_map. reflexivity.
    - left. constructor; cbn; auto. rewrite put_map. cbn. symmetry. apply put_id. rewrite nth_error_map, N. reflexivity.
    - left. constructor; cbn; auto.
    - right. cbn [opened]. destruct CL as (W0 & d & ED & D). eexists. split; [eapply FClose|constructor; cbn; auto].
      rewrite Forall_map. apply Forall_forall. intros x X. apply In_nth_error in X. destruct X as (i & X). rewrite W0 in WG. symmetry in WG. pose proof (sum_zero _ busy _ _ _ WG X) as BX. destruct x; cbn in BX; try discriminate. reflexivity.
    - right. assert (IC : In c closing) by (apply same; eapply phase_in; [exact PH|rewrite K; reflexivity]).
      eexists. split; [eapply (FRecv V cap _ c v vs); [apply filter_In; split; [exact IC|rewrite K; reflexivity]|exact B]|]. constructor; cbn; auto.
      + intros d. unfold upd. destruct (String.eqb_spec d c) as [->|NE]; [rewrite updf_same, F4, K; cbn; rewrite app_nil_r; reflexivity|rewrite updf_other by exact NE; apply F4].
      + rewrite filter_upd; [reflexivity|rewrite K; reflexivity].
    - left. constructor; cbn; auto.
      + intros d. unfold upd. destruct (String.eqb_spec d c) as [->|NE]; [rewrite updf_same, F4, K; cbn; rewrite app_nil_r; reflexivity|rewrite updf_other by exact NE; apply F4].
      + rewrite filter_upd; [reflexivity|rewrite K; reflexivity].
    - right. assert (IC' : In c closing) by (apply same; eapply phase_in; [exact PH|rewrite K; reflexivity]).
      eexists. split; [eapply (FDone V cap _ c); [apply filter_In; split; [exact IC'|rewrite K; reflexivity]| |exact B]|constructor; cbn; auto].
      + intros IO. destruct cl as [| |l]; [rewrite CL in IC; destruct IC|rewrite CL in IC; destruct IC|]. destruct CL as (_ & d & ED & D). apply D in IC. cbn in IO. rewrite ED in closing_nodup.
        apply in_split in IO. destruct IO as (l1 & l2 & ->). rewrite app_assoc in closing_nodup. apply NoDup_remove_2 in closing_nodup. apply closing_nodup. apply in_or_app. left. apply in_or_app. left. exact IC.
      + intros d. destruct (string_dec d c) as [->|NE]; [rewrite updf_same, F4, K; reflexivity|rewrite updf_other by exact NE; apply F4].
      + symmetry. apply filter_exit.
    - left. constructor; cbn; auto.
      + intros d. destruct (string_dec d c) as [->|NE]; [rewrite updf_same, F4, K; reflexivity|rewrite updf_other by exact NE; apply F4].
      + rewrite filter_upd; [reflexivity|rewrite K; reflexivity].
  Qed.
  Theorem usteps_follow : forall n u u' s, uinv u -> follows u s -> usteps cap store closing n u u' -> exists s', fsteps cap s s' /\ follows u' s'.
  Proof.
    intros n u u' s0 I F ST. revert s0 F. induction ST as [u1|n u1 u2 u3 S1 ST IH]; intros s F; [exists s; split; [constructor|exact F]|].
    specialize (IH (uinv_step _ _ I S1)). destruct (ufollows _ _ _ I F S1) as [F'|(s' & S2 & F')].
    - exact (IH _ F').
    - destruct (IH _ F') as (s3 & S3 & F3). exists s3. split; [econstructor; eassumption|exact F3].
  Qed.

  (** ** The exact number of steps *)
  Lemma steps_count : forall n u u', uinv u -> usteps cap store closing n u u' -> steps_left u = n + steps_left u'.
  Proof. intros n u u' I ST. induction ST as [u1|n u1 u2 u3 S1 ST IH]; [reflexivity|]. rewrite (one_step _ _ I S1), (IH (uinv_step _ _ I S1)). lia. Qed.
  Lemma steps_init : steps_left (uinit w0 starts n0 nc m0) = 3 * total V w0 + 2 * n0 + 4 * nc + 4.
  Proof.
    assert (LE : length closing = nc).
    { apply Nat.le_antisymm; apply NoDup_incl_length; try assumption; intros c; apply same. }
    unfold steps_left, uinit, program. cbn [u_main u_work u_closer u_buf u_coll closes rest length]. rewrite !app_length, !map_length, seq_length. cbn [length].
    assert (A : sum (fun x => busy x + 3 * length (left_ x)) (map WNew w0) = n0 + 3 * total V w0).
    { clear. induction w0 as [|l w IH]; [reflexivity|]. cbn [map sum busy left_ length total]. rewrite IH. lia. }
    rewrite A. assert (B : sum (fun _ : string => 2) closing = 2 * nc) by (rewrite <- LE; clear; induction closing as [|c l IH]; [reflexivity|]; cbn [sum length]; lia).
    assert (C : sum (fun _ : string => 2 * 0) closing = 0) by (clear; induction closing as [|c l IH]; [reflexivity|exact IH]). rewrite B, C, LE. lia.
  Qed.
  Lemma returned_zero : forall u c0, In c0 closing -> uinv u -> returned u -> steps_left u = 0.
  Proof.
    intros u c0 IC I R. destruct (ureturned u c0 IC I R) as (A & B & C). unfold steps_left. rewrite R, B. cbn [length closes].
    assert (W : sum (fun x => busy x + 3 * length (left_ x)) (u_work u) = 0).
    { clear - A. induction (u_work u) as [|x l IH]; [reflexivity|]. cbn [sum]. rewrite (A 0 x eq_refl). rewrite IH; [reflexivity|]. intros i y N. exact (A (S i) y N). }
    rewrite W. rewrite (sum_ext _ _ (fun _ => 0) closing) by (intros c J; destruct (C c J) as (_ & _ & ->); reflexivity). rewrite (sum_ext _ (fun c => rest (u_coll u c)) (fun _ => 0) closing) by (intros c J; destruct (C c J) as (_ & -> & _); reflexivity).
    clear. induction closing as [|c l IH]; [reflexivity|exact IH].
  Qed.
  Lemma zero_returned : forall u, uinv u -> steps_left u = 0 -> returned u.
  Proof. intros u I E. destruct (uprogress u I) as [R|(u' & ST)]; [exact R|]. rewrite (one_step _ _ I ST) in E. discriminate. Qed.

  (** ** Runs *)
  Definition reach (u u' : full) : Prop := exists n, usteps cap store closing n u u'.
  Lemma reach_refl : forall u, reach u u. Proof. intros u. exists 0. constructor. Qed.
  Lemma reach_step : forall u1 u2 u3, ustep cap store closing u1 u2 -> reach u2 u3 -> reach u1 u3.
  Proof. intros u1 u2 u3 A (n & B). exists (S n). econstructor; eassumption. Qed.
  Lemma reach_trans : forall u1 u2 u3, reach u1 u2 -> reach u2 u3 -> reach u1 u3.
  Proof. intros u1 u2 u3 (n & A) (k & B). induction A as [u|n a b0 c S1 _ IH]; [exists k; exact B|]. eapply reach_step; [exact S1|exact (IH B)]. Qed.
  Lemma reach_inv : forall u u', uinv u -> reach u u' -> uinv u'.
  Proof. intros u u' I (n & A). eapply uinv_steps; eassumption. Qed.
  Lemma reach_end : forall u, uinv u -> exists u', reach u u' /\ returned u'.
  Proof.
    intros u. remember (steps_left u) as n eqn:E. revert u E. induction n as [|n IH]; intros u E I.
    - exists u. split; [apply reach_refl|]. apply zero_returned; [exact I|symmetry; exact E].
    - destruct (uprogress u I) as [R|(u1 & ST)]; [exists u; split; [apply reach_refl|exact R]|]. destruct (IH u1) as (u2 & A & B).
      + rewrite (one_step _ _ I ST) in E. lia.
      + eapply uinv_step; eassumption.
      + exists u2. split; [eapply reach_step; eassumption|exact B].
  Qed.

  (** Nothing is on the way: nothing more is stored. *)
  Definition quiet (u : full) : Prop := (forall i x, nth_error (u_work u) i = Some x -> left_ x = []) /\ (forall c, u_buf u c = []) /\ (forall c v, u_coll u c <> KStore v).
  Lemma quiet_step : forall u u', quiet u -> ustep cap store closing u u' -> quiet u' /\ u_mem u' = u_mem u /\ u_got u' = u_got u.
  Proof.
    intros u u' (A & B & C) ST. destruct ST as
      [i r ms w wgp cl cd buf co wgc got m N|r w wgp cd buf co wgc got m|n r w wgp cl cd buf co wgc got m|c r w wgp cl cd buf co wgc got m N|r w wgp cl cd buf co got m
      |mn w i c v ms wgp cl cd buf co wgc got m N NC CP|mn w i c v ms wgp cl cd buf co wgc got m N IC|mn w i n cl cd buf co wgc got m N|mn w i cl cd buf co wgc got m N
      |mn w cd buf co wgc got m|mn w wgp c cs cd buf co wgc got m NC|mn w wgp c cs cd buf co wgc got m IC
      |mn w wgp cl cd buf c v vs co wgc got m K BU|mn w wgp cl cd buf c v co wgc got m K|mn w wgp cl cd buf c co wgc got m K BU IC|mn w wgp cl cd buf c co n got m K|mn w wgp cl cd buf c co got m K];
      cbn [u_main u_work u_wgp u_closer u_closed u_buf u_coll u_wgc u_got u_mem u_panic] in *; unfold quiet; cbn [u_main u_work u_wgp u_closer u_closed u_buf u_coll u_wgc u_got u_mem u_panic];
      try (split; [split; [exact A|split; [exact B|exact C]]|split; reflexivity]).
    - split; [|split; reflexivity]. split; [|split; [exact B|exact C]]. intros j y H. destruct (Nat.eq_dec j i) as [->|NE]; [rewrite (put_same _ i _ _ w N) in H; injection H as <-; exact (A i _ N)|]. rewrite (put_other _ i j _ _ w N NE) in H. exact (A j y H).
    - split; [|split; reflexivity]. split; [exact A|split; [exact B|]]. intros d v. destruct (string_dec d c) as [->|NE]; [rewrite updf_same; discriminate|rewrite updf_other by exact NE; apply C].
    - specialize (A i _ N). discriminate.
    - split; [|split; reflexivity]. split; [|split; [exact B|exact C]]. intros j y H. destruct (Nat.eq_dec j i) as [->|NE]; [rewrite (put_same _ i _ _ w N) in H; injection H as <-; reflexivity|]. rewrite (put_other _ i j _ _ w N NE) in H. exact (A j y H).
    - rewrite B in BU. discriminate.
    - destruct (C c v K).
    - split; [|split; reflexivity]. split; [exact A|split; [exact B|]]. intros d v. destruct (string_dec d c) as [->|NE]; [rewrite updf_same; discriminate|rewrite updf_other by exact NE; apply C].
    - split; [|split; reflexivity]. split; [exact A|split; [exact B|]]. intros d v. destruct (string_dec d c) as [->|NE]; [rewrite updf_same; discriminate|rewrite updf_other by exact NE; apply C].
  Qed.
  Lemma quiet_reach : forall u u', quiet u -> reach u u' -> u_mem u' = u_mem u /\ u_got u' = u_got u.
  Proof. intros u u' Q (n & ST). induction ST as [u|n u1 u2 u3 S1 ST IH]; [auto|]. destruct (quiet_step _ _ Q S1) as (Q2 & <- & <-). exact (IH Q2). Qed.

  Lemma start_workers : forall r post pre wgp buf co wgc got m,
    reach (Full (map GoWorker (seq (length pre) (length post)) ++ r) (map WRun pre ++ map WNew post) wgp CNew [] buf co wgc got m false) (Full r (map WRun (pre ++ post)) wgp CNew [] buf co wgc got m false).
  Proof.
    intros r. induction post as [|l post IH]; intros pre wgp buf co wgc got m.
    - cbn. rewrite !app_nil_r. apply reach_refl.
    - cbn [length seq map app]. eapply reach_step.
      + apply (UGoWorker V M cap store closing (length pre) _ l). rewrite nth_error_app2; rewrite map_length; [|lia]. rewrite Nat.sub_diag. reflexivity.
      + assert (E : put (length pre) (WRun l) (map WRun pre ++ WNew l :: map WNew post) = map WRun (pre ++ [l]) ++ map WNew post).
        { clear. induction pre as [|x pre IH]; [reflexivity|]. unfold put in *. cbn. f_equal. exact IH. }
        rewrite E. specialize (IH (pre ++ [l]) wgp buf co wgc got m). rewrite app_length in IH. cbn [length] in IH. rewrite Nat.add_1_r, <- app_assoc in IH. exact IH.
  Qed.
  Lemma start_collectors : forall q r w wgp cl cd buf co wgc got m, NoDup r -> (forall c, In c r -> co c = KNew) -> (forall c v, co c <> KStore v) ->
    exists co', reach (Full (map GoColl r ++ q) w wgp cl cd buf co wgc got m false) (Full q w wgp cl cd buf co' wgc got m false) /\ (forall c, In c r -> co' c = KRecv) /\ (forall c, ~ In c r -> co' c = co c) /\ (forall c v, co' c <> KStore v).
  Proof.
    intros q. induction r as [|c r IH]; intros w wgp cl cd buf co wgc got m ND K NS.
    - exists co. split; [apply reach_refl|]. split; [intros c []|]. split; [reflexivity|exact NS].
    - inversion ND as [|? ? NI ND']; subst. destruct (IH w wgp cl cd buf (updf co c KRecv) wgc got m ND') as (co' & A & B & C & D).
      + intros d I. rewrite updf_other; [apply K; right; exact I|]. intros ->. contradiction.
      + intros d v. destruct (string_dec d c) as [->|NE]; [rewrite updf_same; discriminate|rewrite updf_other by exact NE; apply NS].
      + exists co'. split; [eapply reach_step; [apply UGoColl; apply K; left; reflexivity|exact A]|]. split; [|split; [|exact D]].
        * intros d [<-|I]; [rewrite C by exact NI; apply updf_same|exact (B d I)].
        * intros d NO. rewrite C by (intros I; apply NO; right; exact I). apply updf_other. intros ->. apply NO. left. reflexivity.
  Qed.

  (** Every order of the values can be the order of the stores. *)
  Theorem uany : forall tr, shuffle w0 tr -> exists u, reach (uinit w0 starts n0 nc m0) u /\ returned u /\ u_mem u = fold_left (fun m p => store (fst p) (snd p) m) tr m0.
  Proof.
    intros tr SH.
    destruct (start_collectors [WaitColl] starts (map WRun w0) n0 CWait [] (fun _ => []) (fun _ => KNew) (0 + nc) (fun _ => []) m0 starts_nodup (fun _ _ => eq_refl)) as (co & RC & K1 & K2 & K3); [discriminate|].
    assert (S0 : reach (uinit w0 starts n0 nc m0) (Full [WaitColl] (map WRun w0) n0 CWait [] (fun _ => []) co (0 + nc) (fun _ => []) m0 false)).
    { eapply reach_trans; [|exact RC]. eapply reach_trans; [exact (start_workers ([GoCloser; AddColl nc] ++ map GoColl starts ++ [WaitColl]) w0 [] n0 (fun _ => []) (fun _ => KNew) 0 (fun _ => []) m0)|].
      cbn [app]. eapply reach_step; [apply UGoCloser|]. eapply reach_step; [apply UAddColl|]. apply reach_refl. }
    assert (INC : forall m, In m tr -> In (fst m) starts).
    { intros m I. apply same. pose proof (shuffle_perm _ _ _ SH) as P. apply (Permutation.Permutation_in _ (Permutation.Permutation_sym P)) in I. apply in_concat in I. destruct I as (l & L & J). eapply sends; eassumption. }
    assert (S1 : exists co' buf' got' w', reach (Full [WaitColl] (map WRun w0) n0 CWait [] (fun _ => []) co (0 + nc) (fun _ => []) m0 false)
                   (Full [WaitColl] (map WRun w') n0 CWait [] buf' co' (0 + nc) got' (fold_left (fun m p => store (fst p) (snd p) m) tr m0) false)
                 /\ Forall (eq []) w' /\ (forall c, buf' c = []) /\ (forall c v, co' c <> KStore v)).
    { assert (B0 : forall c : string, (fun _ : string => @nil V) c = []) by reflexivity. revert K1 K3 B0 INC. clear S0 RC K2. generalize (fun _ : string => @nil V) at 1 2 as buf. generalize (fun _ : string => @nil V) as got. revert co. clear sends. generalize m0 as mm.
      generalize n0 as nw. induction SH as [w F|w i [c v] ms l N _ IH]; intros nw mm co got buf K1 K3 B0 INC.
      - exists co, buf, got, w. split; [apply reach_refl|auto].
      - assert (IC : In c starts) by (apply (INC (c, v)); left; reflexivity).
        set (buf1 := upd buf c (buf c ++ [v])). set (buf2 := upd buf1 c []). set (co1 := updf co c (KStore v)). set (co2 := updf co1 c KRecv).
        destruct (IH nw (store c v mm) co2 (upd got c (got c ++ [v])) buf2) as (co' & buf' & got' & w' & R & Q).
        + intros d I. unfold co2, co1. destruct (string_dec d c) as [->|NE]; [apply updf_same|rewrite !updf_other by exact NE; apply K1; exact I].
        + intros d x. unfold co2, co1. destruct (string_dec d c) as [->|NE]; [rewrite updf_same; discriminate|rewrite !updf_other by exact NE; apply K3].
        + intros d. unfold buf2, buf1, upd. destruct (String.eqb d c); [reflexivity|apply B0].
        + intros m I. apply INC. right. exact I.
        + exists co', buf', got', w'. split; [|exact Q].
          eapply reach_step; [eapply (USend V M cap store closing [WaitColl] (map WRun w) i c v ms); [rewrite nth_error_map, N; reflexivity|intros []|rewrite B0; apply caps; apply same; exact IC]|]. fold buf1.
          eapply reach_step; [eapply (URecv V M cap store closing _ _ _ _ _ buf1 c v []); [apply K1; exact IC|unfold buf1, upd; rewrite String.eqb_refl, B0; reflexivity]|]. fold buf2 co1.
          eapply reach_step; [eapply (UStore V M cap store closing _ _ _ _ _ buf2 c v co1); apply updf_same|]. fold co2. rewrite <- (put_map _ _ (@WRun V)). exact R. }
    destruct S1 as (co' & buf' & got' & w' & S1 & W & B & C). set (u1 := Full _ _ _ _ _ _ _ _ _ _ _) in S1 at 2.
    pose proof (reach_trans _ _ _ S0 S1) as S2. pose proof (reach_inv _ _ uinv_init S2) as I1. destruct (reach_end u1 I1) as (u & S3 & R).
    exists u. split; [eapply reach_trans; eassumption|]. split; [exact R|].
    assert (Q : quiet u1).
    { split; [|split; [exact B|exact C]]. intros i x N. cbn in N. rewrite nth_error_map in N. destruct (nth_error w' i) as [l|] eqn:E; [|discriminate]. injection N as <-. cbn. rewrite Forall_forall in W. symmetry. apply W. eapply nth_error_In. exact E. }
    destruct (quiet_reach u1 u Q S3) as (-> & _). reflexivity.
  Qed.
End Full.
