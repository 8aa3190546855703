(** Theorems of property C95. *)
From Coq Require Import String Ascii List Arith Bool Lia SpecFloat Permutation.
From Verif Require Import GoBase GoBaseFacts A2lIR A2lTokens A2lParsers A2lThm A2lSpec FanModel FanProofs FanFullModel FanFullThm A2lModModel A2lModSpec A2lModStore A2lModPar A2lModParts A2lModProps A2lParModel A2lParSpec.
Import ListNotations.

Lemma collectors_nodup : NoDup collectors.
Proof. apply nodups_ok. vm_compute. reflexivity. Qed.
Lemma collectors_closing : forall c, In c collectors <-> In c closing.
Proof.
  assert (A : forall l1 l2, forallb (fun c => existsb (String.eqb c) l2) l1 = true -> forall c, In c l1 -> In c l2).
  { intros l1 l2 H c I. pose proof (proj1 (forallb_forall _ _) H c I) as Q. cbv beta in Q. apply existsb_exists in Q. destruct Q as (d & J & E). apply String.eqb_eq in E. subst. exact J. }
  intros c. split; apply A; vm_compute; reflexivity.
Qed.
Lemma Forall2_len : forall (A B : Type) (R : A -> B -> Prop) l1 l2, Forall2 R l1 l2 -> length l1 = length l2.
Proof. intros A B R l1 l2 H. induction H; [reflexivity|]. cbn. f_equal. assumption. Qed.
Lemma target_inj : forall c d, In c closing -> In d closing -> target c = target d -> c = d.
Proof.
  assert (ND : NoDup (map target closing)) by (apply nodups_ok; vm_compute; reflexivity). intros c d. apply NoDup_map_inj. exact ND.
Qed.

Section Call.
  Variable toks : list bytes.
  Variable pf : bytes -> option spec_float.
  Variables np i : nat.
  Hypothesis EN : ended toks.
  Hypothesis NP : 0 < np.
  Variables (o : fields) (e : bool) (stop : nat) (outs : list (list message)) (n : nat) (u : full val memory).
  Hypothesis CALL : inCall toks pf np i o e stop outs n u.

  Lemma call_sends : forall l m, In l outs -> In m l -> In (fst m) closing.
  Proof. destruct CALL as (start & H & FE & LT & F2 & _). exact (outs_proper toks pf EN np start stop outs NP FE LT F2). Qed.
  Lemma call_caps : forall c, In c closing -> 0 < capOf np c.
  Proof. intros c. apply caps. exact NP. Qed.
  Lemma call_len : length outs = np.
  Proof. destruct CALL as (start & H & FE & LT & F2 & _). rewrite <- (Forall2_len _ _ _ _ _ F2). apply seq_length. Qed.
  Lemma call_init : uinit outs collectors np announced (o, 0) = uinit outs collectors (length outs) (length collectors) (o, 0).
  Proof. rewrite call_len. reflexivity. Qed.
  Lemma call_inv0 : uinv val memory collect closing collectors (o, 0) outs (uinit outs collectors np announced (o, 0)).
  Proof. rewrite call_init. apply uinv_init. exact call_sends. Qed.
  Lemma call_inv : uinv val memory collect closing collectors (o, 0) outs u.
  Proof.
    destruct CALL as (start & _ & _ & _ & _ & ST).
    exact (uinv_steps val memory (capOf np) collect closing collectors (o, 0) outs closing_nodup collectors_nodup n _ _ call_inv0 ST).
  Qed.
End Call.

(** No goroutine sends on a closed channel, closes a channel twice, or lowers a wait
    group below zero. *)
Theorem C95_no_panic : forall toks pf np i o e stop outs n u, ended toks -> 0 < np -> inCall toks pf np i o e stop outs n u -> u_panic u = false.
Proof. intros toks pf np i o e stop outs n u EN NP C. exact (v_panic _ _ _ _ _ _ _ _ (call_inv toks pf np i EN NP o e stop outs n u C)). Qed.
Print Assumptions C95_no_panic.

(** The number of steps of a call depends on what there is to send only, and
    until then there is a next step: no deadlock, no endless run. *)
Theorem C95_ends : forall toks pf np i o e stop outs n u, ended toks -> 0 < np -> inCall toks pf np i o e stop outs n u ->
    let steps := 3 * length (concat outs) + 2 * np + 112 in
    n <= steps /\ (returned u <-> n = steps) /\ (n < steps -> exists u', inCall toks pf np i o e stop outs (S n) u').
Proof.
  intros toks pf np i o e stop outs n u EN NP C steps. pose proof (call_inv toks pf np i EN NP o e stop outs n u C) as I.
  pose proof (call_inv0 toks pf np i EN NP o e stop outs n u C) as I0. pose proof (call_len toks pf np i o e stop outs n u C) as LN.
  assert (E : steps = n + steps_left val memory closing u).
  { destruct C as (start & H & FE & LT & F2 & ST).
    rewrite <- (steps_count val memory (capOf np) collect closing collectors (o, 0) outs closing_nodup collectors_nodup collectors_closing n _ _ I0 ST).
    rewrite (call_init toks pf np i o e stop outs n u (ex_intro _ start (conj H (conj FE (conj LT (conj F2 ST)))))).
    etransitivity; [|symmetry; exact (steps_init val memory closing collectors (o, 0) outs closing_nodup collectors_nodup collectors_closing)]. unfold message in *. rewrite LN. change (length collectors) with 27.
    assert (T : total val outs = length (concat outs)) by (clear; induction outs as [|l w IH]; [reflexivity|]; cbn [total concat]; rewrite app_length, IH; reflexivity). rewrite T. subst steps. lia. }
  assert (IC : In errChan closing) by (left; reflexivity).
  split; [lia|]. split; [split|].
  - intros R. pose proof (returned_zero val memory collect closing collectors (o, 0) outs closing_nodup collectors_closing u errChan IC I R). lia.
  - intros Q. apply (zero_returned val memory (capOf np) collect closing collectors (o, 0) outs closing_nodup collectors_nodup collectors_closing (call_caps np NP) u I). lia.
  - intros LT. destruct (uprogress val memory (capOf np) collect closing collectors (o, 0) outs collectors_nodup collectors_closing (call_caps np NP) u I) as [R|(u' & ST)].
    + pose proof (returned_zero val memory collect closing collectors (o, 0) outs closing_nodup collectors_closing u errChan IC I R). lia.
    + exists u'. destruct C as (start & H & FE & LT' & F2 & SS). exists start. repeat (split; [assumption|]). clear - SS ST. induction SS as [s|k s1 s2 s3 A B IH]; [econstructor; [exact ST|constructor]|econstructor; [exact A|apply IH; exact ST]].
Qed.
Print Assumptions C95_ends.

(** When the call returns, no goroutine it has started is left. *)
Theorem C95_no_leak : forall toks pf np i o e stop outs n u, ended toks -> 0 < np -> inCall toks pf np i o e stop outs n u -> returned u ->
    (forall g, ~ lives u g) /\ (forall c, In c closing -> In c (u_closed u) /\ u_buf u c = []).
Proof.
  intros toks pf np i o e stop outs n u EN NP C R. pose proof (call_inv toks pf np i EN NP o e stop outs n u C) as I.
  destruct (ureturned val memory collect closing collectors (o, 0) outs closing_nodup collectors_closing u errChan (or_introl eq_refl) I R) as (A & B & D). split.
  - intros g L. destruct L as [k l [N|N]|N|c IC N]; [discriminate (A k _ N)|discriminate (A k _ N)|contradiction|]. destruct (D c IC) as (_ & Q & _). contradiction.
  - intros c IC. destruct (D c IC) as (Q1 & _ & Q2). auto.
Qed.
Print Assumptions C95_no_leak.

(** What a collector writes is the field of its channel: no other field is changed,
    and the new contents depend on its contents only. *)
Definition contents (f : string) (m : memory) : option val * nat := if String.eqb f "errors" then (None, snd m) else (fget f (fst m), 0).
Lemma target_field : forall c p, String.eqb c errChan = false -> find (fun p => String.eqb (fst p) c) channels = Some p -> target c = fieldOf (snd (snd p)) /\ fieldOf (snd (snd p)) <> "errors"%string.
Proof.
  intros c [d [k a]] E F. unfold target. change "cError"%string with errChan. rewrite E, F. cbn. split; [destruct a; reflexivity|].
  assert (H : forallb (fun p => negb (String.eqb (fieldOf (snd (snd p))) "errors")) channels = true) by (vm_compute; reflexivity).
  apply find_some in F. destruct F as [F _]. pose proof (proj1 (forallb_forall _ _) H _ F) as Q. cbn in Q. apply negb_true_iff in Q. apply String.eqb_neq in Q. exact Q.
Qed.
Lemma absorb_same : forall a o o' v, fget (fieldOf a) o = fget (fieldOf a) o' -> fget (fieldOf a) (absorb a o v) = fget (fieldOf a) (absorb a o' v).
Proof.
  intros [f|f k] o o' v E; cbn in *.
  - rewrite !fget_fset, String.eqb_refl. reflexivity.
  - rewrite <- E. destruct (fget f o) as [[]|] eqn:Q; try (rewrite <- E; exact Q); try exact (eq_trans Q E). rewrite !fget_fset, String.eqb_refl. reflexivity.
Qed.
Theorem C95_own_field : forall c v m m', (forall f, f <> target c -> contents f (collect c v m) = contents f m) /\
    (contents (target c) m = contents (target c) m' -> contents (target c) (collect c v m) = contents (target c) (collect c v m')).
Proof.
  intros c v m m'. unfold collect. destruct (String.eqb c errChan) eqn:E.
  - assert (T : target c = "errors"%string) by (unfold target; change "cError"%string with errChan; rewrite E; reflexivity). rewrite T. split.
    + intros f N. unfold contents. apply String.eqb_neq in N. rewrite N. reflexivity.
    + unfold contents. cbn. intros Q. injection Q as ->. reflexivity.
  - destruct (find (fun p => String.eqb (fst p) c) channels) as [[d [k a]]|] eqn:F.
    + destruct (target_field c _ E F) as [T NE]. cbn in T, NE. rewrite T. unfold contents. cbn [fst snd]. split.
      * intros f N. destruct (String.eqb f "errors"); [reflexivity|]. rewrite absorb_other by congruence. reflexivity.
      * apply String.eqb_neq in NE. rewrite NE. intros Q. injection Q as Q. f_equal. apply absorb_same. exact Q.
    + split; [reflexivity|auto].
Qed.
Print Assumptions C95_own_field.

(** No two goroutines touch the same field at a time, one of them writing. *)
Theorem C95_no_race : forall toks pf np i o e stop outs n u, ended toks -> 0 < np -> inCall toks pf np i o e stop outs n u -> ~ race u.
Proof.
  intros toks pf np i o e stop outs n u EN NP C (g1 & g2 & p & w & NE & T1 & T2). pose proof (call_inv toks pf np i EN NP o e stop outs n u C) as I.
  assert (IN : forall c v, u_coll u c = KStore v -> In c closing).
  { intros c v K. apply collectors_closing. eapply (phase_in val collectors outs); [exact (v_phase _ _ _ _ _ _ _ _ I)|rewrite K; reflexivity]. }
  inversion T1 as [c v K E1 E2| |]; subst. inversion T2 as [d v' K' E1 E2| |f R E1 E2]; subst.
  - apply NE. f_equal. apply target_inj; [eapply IN; exact K|eapply IN; exact K'|congruence].
  - destruct (ureturned val memory collect closing collectors (o, 0) outs closing_nodup collectors_closing u errChan (or_introl eq_refl) I R) as (_ & _ & D).
    destruct (D c (IN c v K)) as (_ & Q & _). rewrite Q in K. discriminate.
Qed.
Print Assumptions C95_no_race.

(** ** The result *)
Lemma store_field : forall f l o o', fget f o = fget f o' -> fget f (A2lModStore.store l o) = fget f (A2lModStore.store (filter (fun x => String.eqb (fieldOf (fst x)) f) l) o').
Proof.
  intros f. induction l as [|[a v] l IH]; intros o o' E; [exact E|]. cbn [filter fst A2lModStore.store fold_left snd]. destruct (String.eqb_spec (fieldOf a) f) as [<-|N]; cbn [fold_left fst snd A2lModStore.store]; apply IH.
  - apply absorb_same. exact E.
  - rewrite absorb_other by exact N. exact E.
Qed.
Lemma filter_one : forall (A : Type) (p : A -> bool) (x : A), filter p [x] = if p x then [x] else [].
Proof. reflexivity. Qed.
Lemma filter_pairs : forall f (a : action) (l : list val), filter (fun x => String.eqb (fieldOf (fst x)) f) (map (pair a) l) = if String.eqb (fieldOf a) f then map (pair a) l else [].
Proof. intros f a. induction l as [|v l IH]; cbn; [destruct (String.eqb (fieldOf a) f); reflexivity|]. rewrite IH. destruct (String.eqb (fieldOf a) f); reflexivity. Qed.
Lemma fields_nodup : NoDup (map (fun p => fieldOf (snd (snd p))) channels).
Proof. apply nodups_ok. vm_compute. reflexivity. Qed.
(** what is stored in a field comes from one channel, in its order *)
Lemma field_order : forall f (got : string -> list val) tr, (forall c, In c (map fst channels) -> got c = on c tr) ->
  filter (fun x => String.eqb (fieldOf (fst x)) f) (gathered got) = filter (fun x => String.eqb (fieldOf (fst x)) f) (acts tr).
Proof.
  intros f got tr H. destruct (find (fun p => String.eqb (fieldOf (snd (snd p))) f) channels) as [p|] eqn:F.
  - apply find_some in F. destruct F as [IP E]. apply String.eqb_eq in E.
    transitivity (map (pair (snd (snd p))) (on (fst p) tr)).
    + rewrite <- (H (fst p)) by (apply in_map; exact IP). unfold gathered. clear H. revert IP. pose proof fields_nodup as ND. revert ND. generalize channels as cs. induction cs as [|q cs IH]; intros ND IP; [destruct IP|].
      cbn [map] in ND. inversion ND as [|? ? NI ND']; subst. cbn [flat_map]. rewrite filter_app, filter_pairs. destruct IP as [->|IP].
      * rewrite String.eqb_refl. assert (Z0 : filter (fun x => String.eqb (fieldOf (fst x)) (fieldOf (snd (snd p)))) (flat_map (fun p0 => map (pair (snd (snd p0))) (got (fst p0))) cs) = []).
        { clear IH ND ND'. induction cs as [|r cs IH]; [reflexivity|]. cbn [flat_map]. rewrite filter_app, filter_pairs. destruct (String.eqb_spec (fieldOf (snd (snd r))) (fieldOf (snd (snd p)))) as [Q|Q]; [exfalso; apply NI; left; exact Q|]. apply IH. intros J. apply NI. right. exact J. }
        rewrite Z0. apply app_nil_r.
      * destruct (String.eqb_spec (fieldOf (snd (snd q))) (fieldOf (snd (snd p)))) as [Q|Q]; [|exact (IH ND' IP)]. exfalso. apply NI. rewrite Q. apply (in_map (fun p => fieldOf (snd (snd p))) _ _ IP).
    + clear H. induction tr as [|[c v] tr IH]; [reflexivity|]. unfold acts. cbn [flat_map fst snd]. fold (acts tr). rewrite filter_app, <- IH. unfold on at 1. cbn [filter fst]. unfold actOf.
      destruct (find (fun p0 => String.eqb (fst p0) c) channels) as [q|] eqn:FQ.
      * apply find_some in FQ. destruct FQ as [IQ EQ]. apply String.eqb_eq in EQ. cbn [option_map]. rewrite filter_one. cbn [fst]. destruct (String.eqb_spec c (fst p)) as [CE|CE].
        -- assert (q = p) as -> by (apply (NoDup_map_inj _ _ fst channels q p channels_nodup IQ IP); congruence). rewrite E, String.eqb_refl. reflexivity.
        -- destruct (String.eqb_spec (fieldOf (snd (snd q))) f) as [Q|Q]; [|reflexivity]. exfalso. apply CE. rewrite <- EQ. f_equal. apply (NoDup_map_inj _ _ (fun p => fieldOf (snd (snd p))) channels q p fields_nodup IQ IP). congruence.
      * destruct (String.eqb_spec c (fst p)) as [->|CE]; [|reflexivity]. exfalso. pose proof (find_none _ _ FQ p IP) as Q. cbn in Q. rewrite String.eqb_refl in Q. discriminate.
  - pose proof (find_none _ _ F) as NF. transitivity (@nil (action * val)); [|symmetry].
    + unfold gathered. clear F H. induction channels as [|q cs IH]; [reflexivity|]. cbn [flat_map]. rewrite filter_app, filter_pairs. pose proof (NF q (or_introl eq_refl)) as Q. cbn in Q. rewrite Q. apply IH. intros x I. apply NF. right. exact I.
    + clear H F. induction tr as [|[c v] tr IH]; [reflexivity|]. unfold acts. cbn [flat_map fst snd]. fold (acts tr). rewrite filter_app, IH. unfold actOf. destruct (find (fun p0 => String.eqb (fst p0) c) channels) as [q|] eqn:FQ; [|reflexivity].
      cbn [option_map]. rewrite filter_one. cbn [fst]. apply find_some in FQ. pose proof (NF q (proj1 FQ)) as Q. cbn in Q. rewrite Q. reflexivity.
Qed.

Lemma collect_all : forall tr m, fold_left (fun m p => collect (fst p) (snd p) m) tr m = (A2lModStore.store (acts tr) (fst m), snd m + length (on errChan tr)).
Proof.
  induction tr as [|[c v] tr IH]; intros m; [destruct m as [o k]; cbn; rewrite Nat.add_0_r; reflexivity|]. cbn [fold_left fst snd]. rewrite IH. unfold collect, acts, on, actOf. cbn [flat_map filter fst snd]. fold (acts tr).
  destruct (String.eqb_spec c errChan) as [->|N].
  - replace (find (fun p => String.eqb (fst p) errChan) channels) with (@None (string * (nat * action))) by (vm_compute; reflexivity). cbn. f_equal. lia.
  - destruct (find (fun p => String.eqb (fst p) c) channels) as [[d [k a]]|]; reflexivity.
Qed.

Lemma result_same : forall tr (got : string -> list val) o, (forall c, In c (map fst channels) -> got c = on c tr) -> sameFields (A2lModStore.store (acts tr) o) (collected got o).
Proof.
  intros tr got o H f. rewrite collected_store, (store_field f _ o o eq_refl), (store_field f (gathered got) o o eq_refl), (field_order f got tr H). reflexivity.
Qed.

(** Every call does what the machine of C48 does, and whatever that machine can do,
    a call can do. *)
Theorem C95_result : forall toks pf np i, ended toks -> 0 < np ->
    (forall v e j, parallelFull toks pf np i v e j -> exists o o', v = VObj o /\ sameFields o o' /\ parallel toks pf np i (VObj o') e j) /\
    (forall v e j, parallel toks pf np i v e j -> exists o o', v = VObj o /\ sameFields o o' /\ parallelFull toks pf np i (VObj o') e j).
Proof.
  intros toks pf np i EN NP. split.
  - intros v e j P. destruct P as [o e start H LE|o e stop outs n u C R].
    + exists o, o. split; [reflexivity|]. split; [intros f; reflexivity|]. econstructor; eassumption.
    + pose proof (call_inv toks pf np i EN NP o e stop outs n u C) as I. pose proof (call_inv0 toks pf np i EN NP o e stop outs n u C) as I0. pose proof (call_init toks pf np i o e stop outs n u C) as CI. destruct C as (start & H & FE & LT & F2 & ST).
      assert (FO0 : follows val memory closing (uinit outs collectors np announced (o, 0)) (finit outs closing)) by (rewrite CI; apply follows_init).
      destruct (usteps_follow val memory (capOf np) collect closing collectors (o, 0) outs closing_nodup collectors_nodup collectors_closing n _ _ _ I0 FO0 ST) as (s & SS & FO).
      destruct (ureturned val memory collect closing collectors (o, 0) outs closing_nodup collectors_closing u errChan (or_introl eq_refl) I R) as (_ & _ & D).
      destruct (v_mem _ _ _ _ _ _ _ _ I) as (tr & T1 & T2). destruct FO as [_ _ _ FG FC].
      assert (G : forall c, In c closing -> f_got s c = on c tr).
      { intros c IC. rewrite FG, T2. destruct (D c IC) as (_ & -> & _). apply app_nil_r. }
      assert (FF : ffinal s).
      { unfold ffinal. rewrite FC. revert D. generalize closing as l. induction l as [|c l IH]; intros D; [reflexivity|]. cbn [filter]. destruct (D c (or_introl eq_refl)) as (_ & -> & _). cbn [active]. apply IH. intros d J. apply D. right. exact J. }
      rewrite collect_all in T1. exists (fst (u_mem u)), (collected (f_got s) o). split; [reflexivity|]. split.
      * rewrite T1. cbn [fst]. apply result_same. intros c IC. apply G. apply closing_channels. exact IC.
      * rewrite T1. cbn [snd fst]. rewrite Nat.add_0_l. rewrite <- (G errChan (or_introl eq_refl)). replace (match length (f_got s errChan) with 0 => e | S _ => true end) with (match f_got s errChan with [] => e | _ => true end) by (destruct (f_got s errChan); reflexivity).
        eapply ParEnd; eassumption.
  - intros v e j P. destruct P as [o e start H LE|o e start stop outs s H FE LT F2 SS FF].
    + exists o, o. split; [reflexivity|]. split; [intros f; reflexivity|]. econstructor; eassumption.
    + pose proof (outs_proper toks pf EN np start stop outs NP FE LT F2) as PR.
      assert (IV : inv closing outs s) by (eapply inv_steps; [apply inv_init; [exact closing_nodup|exact PR]|exact SS]).
      destruct (fan_final _ closing outs s IV FF ltac:(discriminate)) as (tr & SH & G).
      destruct (uany val memory (capOf np) collect closing collectors (o, 0) outs closing_nodup collectors_nodup collectors_closing PR (call_caps np NP) tr SH) as (u & (n & ST) & R & MM).
      assert (C : inCall toks pf np i o e stop outs n u).
      { exists start. repeat (split; [assumption|]). assert (LN : length outs = np) by (rewrite <- (Forall2_len _ _ _ _ _ F2); apply seq_length). unfold message in *. rewrite LN in ST. exact ST. }
      rewrite collect_all in MM. exists (collected (f_got s) o), (fst (u_mem u)). split; [reflexivity|]. split.
      * intros f. symmetry. rewrite MM. cbn [fst]. apply result_same. intros c IC. apply G. apply closing_channels. exact IC.
      * replace (match f_got s errChan with [] => e | _ => true end) with (match snd (u_mem u) with 0 => e | _ => true end); [eapply FullEnd; eassumption|].
        rewrite MM, (G errChan (or_introl eq_refl)). cbn [snd]. rewrite Nat.add_0_l. destruct (on errChan tr); reflexivity.
Qed.
Print Assumptions C95_result.

(** Two goroutines and a group for each: every call has 122 steps. *)
Definition fineOuts : list (list message) := [[("cGroup"%string, readOr fine parseGroup 3)]; [("cGroup"%string, readOr fine parseGroup 7)]].
Example C95_example : ended fine /\ forall pf, exists o u, inCall fine pf 2 0 o false 11 fineOuts 122 u /\ returned u /\ length (fmap "Groups" (fst (u_mem u))) = 2.
Proof.
  assert (EN : ended fine) by (eexists (firstn 12 fine); reflexivity). split; [exact EN|]. intros pf.
  assert (H : exists o, header fine 0 = (o, false, 2)) by (eexists; vm_compute; reflexivity). destruct H as (o & H).
  assert (F2 : Forall2 (fun k out => loops fine pf (maxIndex 2 2 11 k) (minIndex 2 2 11 k) out) (seq 0 2) fineOuts) by workers.
  assert (FE : firstEnd fine 0 = 11) by (vm_compute; reflexivity).
  pose proof (outs_proper fine pf EN 2 2 11 fineOuts ltac:(lia) FE ltac:(lia) F2) as PR.
  destruct (uany val memory (capOf 2) collect closing collectors (o, 0) fineOuts closing_nodup collectors_nodup collectors_closing PR (call_caps 2 ltac:(lia)) (concat fineOuts)) as (u & (n & ST) & R & MM).
  { eapply (ShCons _ _ 0); [reflexivity|]. eapply (ShCons _ _ 1); [reflexivity|]. apply ShNil. repeat constructor. }
  assert (C : inCall fine pf 2 0 o false 11 fineOuts n u) by (exists 2; repeat (split; [first [assumption|lia]|]); exact ST).
  destruct (C95_ends fine pf 2 0 o false 11 fineOuts n u EN ltac:(lia) C) as (_ & Q & _). apply Q in R as N. cbn in N. subst n.
  exists o, u. split; [exact C|]. split; [exact R|]. rewrite MM. vm_compute in H. injection H as <-. vm_compute. reflexivity.
Qed.
