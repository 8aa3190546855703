(** Theorems of property C48. *)
From Coq Require Import String Ascii List Arith Bool Lia SpecFloat Permutation.
From Verif Require Import GoBase GoBaseFacts A2lIR A2lTokens A2lParsers A2lThm A2lSpec FanModel FanProofs A2lModModel A2lModSpec A2lModStore A2lModSeq A2lModPar A2lModParts.
Import ListNotations.

(** ** The sequential parser *)

(** Without an error, the tokens form a module, and the result holds its objects. *)
Theorem C48_sequential : forall toks pf i v j, ended toks -> word (tok toks (i + 1)) -> word (tok toks (i + 2)) -> returns toks pf parseModule i v false j ->
    exists items o, isModule toks pf i items j /\ v = VObj o /\ named o (tok toks (i + 1)) (tok toks (i + 2)) /\ (distinct (stored items) -> holds o (stored items)).
Proof.
  intros toks pf i v j EN W1 W2 [n R]. destruct (seq_content toks pf n EN i v j W1 W2 (R n (le_n _))) as (items & M & ->).
  exists items. eexists. split; [exact M|]. split; [reflexivity|]. destruct M as (_ & _ & C). pose proof (content_actions toks pf _ _ _ C) as A.
  split; [apply (store_named pf); exact A|]. intros D. apply store_holds; [apply (head_fresh pf)|exact A|exact D].
Qed.
Print Assumptions C48_sequential.

(** The objects of a module are determined by its tokens. *)
Lemma content_fun : forall toks pf i items e, content toks pf i items e -> forall items' e', content toks pf i items' e' -> items' = items /\ e' = e.
Proof.
  intros toks pf i items e C. induction C as [i H|i items e W C IH|i t g a v j items e I T R C IH]; intros items' e' C'.
  - inversion C' as [? H'|? ? ? W' ?|? t' g' a' ? ? ? ? I' T' ? ?]; subst; [auto| |].
    + rewrite H in W'. destruct (word_not_end _ W' eq_refl).
    + destruct (begins_not_end (b t')) as [N _]; [exists (t', (g', a')); auto|]. congruence.
  - inversion C' as [? H'|? ? ? W' ?|? t' g' a' ? ? ? ? I' T' ? ?]; subst; [|auto|].
    + rewrite H' in W. destruct (word_not_end _ W eq_refl).
    + destruct (word_not_begins _ W). exists (t', (g', a')). auto.
  - inversion C' as [? H'|? ? ? W' ?|? t' g' a' v' j' items2 ? I' T' R' C2]; subst.
    + destruct (begins_not_end (b t)) as [N _]; [exists (t, (g, a)); auto|]. congruence.
    + destruct (word_not_begins _ W'). exists (t, (g, a)). auto.
    + rewrite T in T'. apply b_inj in T'. subst t'. pose proof (NoDup_map_inj _ _ fst kinds _ _ tokens_nodup I I' eq_refl) as E. injection E as <- <-.
      destruct R as [n R], R' as [n' R']. specialize (R (n + n') ltac:(lia)). rewrite R' in R by lia. injection R as -> ->.
      destruct (IH _ _ C2) as [-> ->]. auto.
Qed.

(** ** The parallel parser *)

(** Every schedule ends: there are no endless runs and no deadlocks, whatever the tokens. *)
Theorem C48_total : forall toks pf np i, ended toks -> 0 < np -> i < length toks ->
    (exists v e j, parallel toks pf np i v e j) /\
    forall o e start stop outs s, header toks i = (o, e, start) -> firstEnd toks 0 = stop -> start < stop ->
      Forall2 (fun k out => loops toks pf (maxIndex np start stop k) (minIndex np start stop k) out) (seq 0 np) outs ->
      fsteps (capOf np) (finit outs closing) s ->
      Acc (fun x y => fstep (capOf np) y x) s /\ (ffinal s \/ exists s', fstep (capOf np) s s').
Proof.
  intros toks pf np i EN NP L.
  assert (IV : forall start stop outs s, firstEnd toks 0 = stop -> start < stop ->
      Forall2 (fun k out => loops toks pf (maxIndex np start stop k) (minIndex np start stop k) out) (seq 0 np) outs ->
      fsteps (capOf np) (finit outs closing) s -> inv closing outs s).
  { intros start stop outs s FE LT F2 ST. eapply inv_steps; [|exact ST]. apply inv_init; [exact closing_nodup|]. eapply outs_proper; eauto. }
  assert (CP : forall c, In c closing -> 0 < capOf np c) by (intros c I; apply caps; assumption).
  split.
  - destruct (header toks i) as [[o e] start] eqn:H. destruct (le_lt_dec (firstEnd toks 0) start) as [LE|LT].
    + exists (VObj o), true, start. econstructor; eauto.
    + destruct (outs_exist toks pf EN np start _ NP eq_refl LT) as [outs F2].
      destruct (fan_reaches _ (capOf np) closing outs (finit outs closing) closing_nodup CP) as (s & ST & FI); [eapply IV; eauto; constructor|].
      eexists. eexists. eexists. eapply ParEnd; eauto.
  - intros o e start stop outs s H FE LT F2 ST. pose proof (IV _ _ _ _ FE LT F2 ST) as I. split.
    + eapply fan_ends; [exact closing_nodup|exact I].
    + eapply progress; eauto.
Qed.
Print Assumptions C48_total.

(** What every run returns for a module without a border of the goroutines'
    shares in front of a nested object: all objects but those that begin on a
    border. *)
Theorem C48_as_read : forall toks pf np i items stop v e j,
    ended toks -> 0 < np -> isModule toks pf i items stop -> clean toks stop -> tidy toks np (i + 2) stop items -> distinct (stored items) ->
    parallel toks pf np i v e j ->
    e = false /\ j = stop /\
    exists o kept, v = VObj o /\ named o (tok toks (i + 1)) (tok toks (i + 2)) /\ holds o (stored kept)
      /\ forall x, In x kept <-> In x items /\ ~ border np (i + 2) stop (it_from x).
Proof.
  intros toks pf np i items stop v e j EN NP M CL TD DI PAR.
  destruct (result toks pf EN np i items stop v e j NP M CL TD PAR) as (l & -> & -> & -> & P). split; [reflexivity|]. split; [reflexivity|].
  destruct M as (_ & _ & C). pose proof (content_actions toks pf _ _ _ C) as A. set (kept := filter _ items) in P.
  assert (SUB : forall x, In x (stored kept) -> In x (stored items)).
  { intros x X. unfold stored in *. apply in_map_iff in X. destruct X as (y & E & Y). apply in_map_iff. exists y. split; [exact E|]. apply filter_In in Y. exact (proj1 Y). }
  assert (DK : distinct (stored kept)).
  { clear - DI. subst kept. induction items as [|x items IH]; [constructor|]. cbn in DI. inversion DI as [|? ? N D]; subst. cbn [filter]. destruct (negb _); [|exact (IH D)].
    cbn. constructor; [|exact (IH D)]. intros I. apply N. apply in_map_iff in I. destruct I as (y & E & Y). apply in_map_iff. exists y. split; [exact E|].
    unfold stored in *. apply in_map_iff in Y. destruct Y as (z & EZ & Z). apply in_map_iff. exists z. split; [exact EZ|]. apply filter_In in Z. exact (proj1 Z). }
  assert (AL : forall x, In x l -> In (fst x) actions) by (intros x X; apply A; apply SUB; eapply Permutation_in; [exact P|exact X]).
  eexists. exists kept. split; [reflexivity|]. split; [apply (store_named pf); exact AL|]. split.
  - eapply holds_perm; [exact P|]. apply store_holds; [apply (head_fresh pf)|exact AL|]. eapply distinct_perm; [apply Permutation_sym; exact P|exact DK].
  - intros x. subst kept. rewrite filter_In, negb_true_iff. rewrite <- isBorder_spec by (try exact NP; pose proof (content_bounds toks pf EN _ _ _ C); lia). rewrite not_true_iff_false. reflexivity.
Qed.
Print Assumptions C48_as_read.

(** No object begins on a border: every run gives what the sequential parser gives. *)
Theorem C48_guarded : forall toks pf np i items v j v' e' j',
    ended toks -> 0 < np -> isModule toks pf i items j -> returns toks pf parseModule i v false j ->
    clean toks j -> tidy toks np (i + 2) j items -> distinct (stored items) -> (forall x, In x items -> ~ border np (i + 2) j (it_from x)) ->
    parallel toks pf np i v' e' j' ->
    e' = false /\ j' = j /\
    exists o o', v = VObj o /\ v' = VObj o' /\ named o (tok toks (i + 1)) (tok toks (i + 2)) /\ named o' (tok toks (i + 1)) (tok toks (i + 2))
      /\ holds o (stored items) /\ holds o' (stored items).
Proof.
  intros toks pf np i items v j v' e' j' EN NP M R CL TD DI NB PAR.
  destruct (C48_as_read toks pf np i items j v' e' j' EN NP M CL TD DI PAR) as (-> & -> & o' & kept & -> & N' & H' & K).
  destruct M as (W1 & W2 & C). destruct (C48_sequential toks pf i v j EN W1 W2 R) as (items2 & o & (_ & _ & C2) & -> & N & H).
  destruct (content_fun _ _ _ _ _ C _ _ C2) as [-> _].
  split; [reflexivity|]. split; [reflexivity|]. exists o, o'. repeat (split; [first [reflexivity|assumption|apply H; exact DI]|]). 
  assert (SK : forall x, In x (stored kept) <-> In x (stored items)).
  { intros x. unfold stored. rewrite !in_map_iff. split; intros (y & E & Y); exists y; (split; [exact E|]); apply K; [exact Y|split; [exact Y|apply NB; exact Y]]. }
  intros t g a I. specialize (H' t g a I). destruct a as [f|f k].
  - intros w. rewrite H'. apply SK.
  - destruct H' as (m & F & MM). exists m. split; [exact F|]. intros x w. rewrite MM, SK. reflexivity.
Qed.
Print Assumptions C48_guarded.

(** An object that its parser refuses is reported by every run. *)
Theorem C48_error_guarded : forall toks pf np i items p stop v e j,
    ended toks -> 0 < np -> word (tok toks (i + 1)) -> word (tok toks (i + 2)) -> broken toks pf (i + 2) items p ->
    clean toks stop -> tok toks stop = b "/end MODULE" -> p < stop -> ~ border np (i + 2) stop p -> tidy toks np (i + 2) stop items ->
    parallel toks pf np i v e j -> e = true.
Proof. intros toks pf np i items p stop v e j EN. apply failure. exact EN. Qed.
Print Assumptions C48_error_guarded.

(** ** Modules that the parallel parser misreads *)
Definition noFloats : bytes -> option spec_float := fun _ => None.
Definition readOr (toks : list bytes) (g : fn) (i : nat) : val := match call isKeyword toks noFloats 50 g i with Ret v _ _ => v | _ => VStr [] end.

Lemma returns_run : forall n toks pf g i v e j, call isKeyword toks pf n g i = Ret v e j -> returns toks pf g i v e j.
Proof.
  intros n toks pf g i v e j H. exists n. intros fuel F. rewrite (proj2 (proj2 (proj2 (fuel_mono isKeyword toks pf _ _ F)))), H by (rewrite H; discriminate). reflexivity.
Qed.

(** Two groups; with two goroutines the second one begins at index 2 + (12 - 2) / 2 = 7. *)
Definition lost : list bytes := map b ["/begin MODULE"; "M"; "L"; "/begin GROUP"; "G1"; "a"; "/end GROUP"; "/begin GROUP"; "G2"; "b"; "ROOT"; "/end GROUP"; "/end MODULE"; ""]%string.
Definition lostItems : list item :=
  [Item 3 6 (Put_ "Groups" "groupName") (readOr lost parseGroup 3); Item 7 11 (Put_ "Groups" "groupName") (readOr lost parseGroup 7)].

Ltac inKinds := unfold kinds; repeat (first [left; reflexivity|right]).
Ltac aWord := split; [discriminate|vm_compute; reflexivity].
Ltac anObject t := eapply (ContObj _ _ _ t); [inKinds|reflexivity|apply (returns_run 50); vm_compute; reflexivity|].

Lemma lost_module : forall pf, isModule lost pf 0 lostItems 12.
Proof.
  intros pf. split; [aWord|]. split; [aWord|]. unfold lostItems. 
  anObject "/begin GROUP"%string. anObject "/begin GROUP"%string. apply ContEnd. reflexivity.
Qed.
Lemma lost_clean : clean lost 12.
Proof. intros p P. do 12 (destruct p as [|p]; [split; discriminate|]). lia. Qed.
Lemma border_two : forall start stop p, border 2 start stop p -> p = start + (stop - start) / 2.
Proof. intros start stop p (k & K & ->). assert (k = 1) as -> by lia. lia. Qed.
Lemma lost_tidy : tidy lost 2 2 12 lostItems.
Proof.
  intros p x q B X F Q. apply border_two in B. cbn in B. subst p. destruct X as [<-|[<-|[]]]; cbn in F, Q; [lia|].
  intros BG. apply findKind_none in BG; [destruct BG|]. assert (C : q = 8 \/ q = 9 \/ q = 10 \/ q = 11) by lia.
  destruct C as [->|[->|[->| ->]]]; vm_compute; reflexivity.
Qed.
Lemma lost_distinct : distinct (stored lostItems).
Proof. unfold distinct. vm_compute. repeat constructor; cbn; intuition discriminate. Qed.

(** The second group is missing from the result of every run, without an error. *)
Theorem C48_refuted : exists toks np i items j, ended toks /\ 0 < np /\ i < length toks /\ clean toks j /\ distinct (stored items) /\
  forall pf, isModule toks pf i items j /\
    (exists o m w, returns toks pf parseModule i (VObj o) false j /\ fget "Groups" o = Some (VMap m) /\ mget (b "G2") m = Some w) /\
    (exists v e j', parallel toks pf np i v e j') /\
    forall v e j', parallel toks pf np i v e j' -> e = false /\ exists o m, v = VObj o /\ fget "Groups" o = Some (VMap m) /\ mget (b "G2") m = None.
Proof.
  exists lost, 2, 0, lostItems, 12. assert (EN : ended lost) by (eexists (firstn 13 lost); reflexivity).
  split; [exact EN|]. split; [lia|]. split; [cbn; lia|]. split; [exact lost_clean|]. split; [exact lost_distinct|]. intros pf. split; [apply lost_module|]. split; [|split].
  - eexists. eexists. eexists. split; [apply (returns_run 50); vm_compute; reflexivity|]. split; [vm_compute; reflexivity|]. vm_compute. reflexivity.
  - apply C48_total; [exact EN|lia|cbn; lia].
  - intros v e j' PAR. destruct (C48_as_read lost pf 2 0 lostItems 12 v e j' EN ltac:(lia) (lost_module pf) lost_clean lost_tidy lost_distinct PAR) as (-> & -> & o & kept & -> & _ & H & K).
    split; [reflexivity|]. assert (I : In ("/begin GROUP", (parseGroup, Put_ "Groups" "groupName"))%string kinds) by inKinds.
    destruct (H _ _ _ I) as (m & F & MM). exists o, m. split; [reflexivity|]. split; [exact F|]. destruct (mget (b "G2") m) as [w|] eqn:E; [|reflexivity]. exfalso.
    apply MM in E. destruct E as [E1 E2]. unfold stored in E1. apply in_map_iff in E1. destruct E1 as (x & EX & X). apply K in X. destruct X as [X NB].
    destruct X as [<-|[<-|[]]].
    + injection EX as <-. vm_compute in E2. discriminate.
    + apply NB. exists 1. split; [lia|reflexivity].
Qed.
Print Assumptions C48_refuted.

(** A group with interface data; with three goroutines the second one begins
    inside the group and takes the interface data for the module's. *)
Definition nested : list bytes := map b ["/begin MODULE"; "M"; "L"; "/begin GROUP"; "G"; "a"; "/begin IF_DATA"; "XCP"; "/end IF_DATA"; "ROOT"; "/end GROUP"; "/end MODULE"; ""]%string.

Lemma shuffle_concat : forall (V : Type) (w1 : list (list (string * V))), shuffle w1 (concat w1).
Proof.
  intros V w. assert (G : forall n w, length (concat w) = n -> @shuffle V w (concat w)); [|exact (G _ w eq_refl)].
  induction n as [|n IH]; intros w' L.
  - destruct (concat w') eqn:E; [|discriminate]. apply ShNil. clear - E. induction w' as [|l w IH]; [constructor|]. cbn in E. apply app_eq_nil in E. destruct E as [-> E]. constructor; auto.
  - assert (H : exists i m ms, nth_error w' i = Some (m :: ms) /\ concat w' = m :: concat (put i ms w')).
    { clear IH. revert n L. induction w' as [|[|m ms] w2 IHw]; intros n L; [discriminate| |].
      - destruct (IHw n L) as (i & m & ms & H1 & H2). exists (S i), m, ms. split; [exact H1|]. cbn. exact H2.
      - exists 0, m, ms. split; [reflexivity|]. reflexivity. }
    destruct H as (i & m & ms & H1 & H2). rewrite H2. eapply ShCons; [exact H1|]. apply IH. rewrite H2 in L. cbn in L. lia.
Qed.

Lemma parallel_run : forall toks pf np i o start stop outs tr, 0 < np -> header toks i = (o, false, start) -> firstEnd toks 0 = stop -> start < stop ->
  Forall2 (fun k out => loops toks pf (maxIndex np start stop k) (minIndex np start stop k) out) (seq 0 np) outs ->
  shuffle outs tr -> (forall m, In m tr -> In (fst m) closing) -> on errChan tr = [] ->
  parallel toks pf np i (VObj (collected (fun c => on c tr) o)) false stop.
Proof.
  intros toks pf np i o start stop outs tr NP H FE LT F2 SH CL ER.
  destruct (fan_any _ (capOf np) closing outs tr (fun c I => caps np c NP I) SH CL) as (s & ST & FI & G).
  pose proof (ParEnd toks pf np i o false start stop outs s H FE LT F2 ST FI) as P. rewrite G, ER in P.
  replace (collected (fun c => on c tr) o) with (collected (f_got s) o); [exact P|]. unfold collected. generalize channels. intros cs. revert o H P. clear - G. intros o _ _. revert o.
  induction cs as [|p cs IH]; intros o; [reflexivity|]. cbn [fold_left]. rewrite G. apply IH.
Qed.

Ltac workers := repeat (apply Forall2_cons; [apply (loops_run _ _ 50); vm_compute; reflexivity|]); apply Forall2_nil.
Ltac listedChans := let m := fresh in let M := fresh in intros m M; vm_compute in M |- *; intuition (subst; cbn; tauto).

Theorem C48_nested_refuted : exists toks np i j, ended toks /\ 0 < np /\ forall pf,
  (exists o, returns toks pf parseModule i (VObj o) false j /\ fget "ifData" o = Some (VMap [])) /\
  exists o w, parallel toks pf np i (VObj o) false j /\ fget "ifData" o = Some (VMap [(b "XCP", w)]).
Proof.
  exists nested, 3, 0, 11. split; [eexists (firstn 12 nested); reflexivity|]. split; [lia|]. intros pf. split.
  - eexists. split; [apply (returns_run 50); vm_compute; reflexivity|]. vm_compute. reflexivity.
  - eexists. eexists. split.
    + eapply (parallel_run nested pf 3 0 _ 2 11 [_; _; _]); [lia|reflexivity|reflexivity|lia|cbn [seq]; workers|apply shuffle_concat|listedChans|vm_compute; reflexivity].
    + vm_compute. reflexivity.
Qed.
Print Assumptions C48_nested_refuted.

(** Two groups of one name, in the shares of different goroutines: which one
    stays depends on the schedule. *)
Definition twice : list bytes := map b ["/begin MODULE"; "M"; "L"; "/begin GROUP"; "G"; "a"; "/end GROUP"; "/begin GROUP"; "G"; "b"; "/end GROUP"; "/end MODULE"; ""]%string.
Theorem C48_race_refuted : exists toks np i j, ended toks /\ 0 < np /\ forall pf,
  exists v1 v2, parallel toks pf np i v1 false j /\ parallel toks pf np i v2 false j /\ v1 <> v2 /\ returns toks pf parseModule i v2 false j.
Proof.
  exists twice, 2, 0, 11. split; [eexists (firstn 12 twice); reflexivity|]. split; [lia|]. intros pf.
  set (m1 := ("cGroup"%string, readOr twice parseGroup 3)). set (m2 := ("cGroup"%string, readOr twice parseGroup 7)).
  assert (W : Forall2 (fun k out => loops twice pf (maxIndex 2 2 11 k) (minIndex 2 2 11 k) out) (seq 0 2) [[m1]; [m2]]) by (cbn [seq]; workers).
  assert (SH1 : shuffle [[m1]; [m2]] [m2; m1]).
  { apply (ShCons _ _ 1 m2 []); [reflexivity|]. apply (ShCons _ _ 0 m1 []); [reflexivity|]. apply ShNil. repeat constructor. }
  assert (SH2 : shuffle [[m1]; [m2]] [m1; m2]).
  { apply (ShCons _ _ 0 m1 []); [reflexivity|]. apply (ShCons _ _ 1 m2 []); [reflexivity|]. apply ShNil. repeat constructor. }
  eexists. eexists. split; [|split; [|split]].
  - eapply (parallel_run twice pf 2 0 _ 2 11 [[m1]; [m2]] [m2; m1]); [lia|reflexivity|reflexivity|lia|exact W|exact SH1|listedChans|vm_compute; reflexivity].
  - eapply (parallel_run twice pf 2 0 _ 2 11 [[m1]; [m2]] [m1; m2]); [lia|reflexivity|reflexivity|lia|exact W|exact SH2|listedChans|vm_compute; reflexivity].
  - intros E. vm_compute in E. discriminate.
  - apply (returns_run 50). vm_compute. reflexivity.
Qed.
Print Assumptions C48_race_refuted.

(** A keyword between the objects: an error for the sequential parser, unnoticed
    by the parallel one. *)
Definition stray : list bytes := map b ["/begin MODULE"; "M"; "L"; "/end GROUP"; "/end MODULE"; ""]%string.
Theorem C48_keyword_refuted : exists toks i, ended toks /\ forall pf,
  (exists v j, returns toks pf parseModule i v true j) /\ forall np, 0 < np -> exists v j, parallel toks pf np i v false j.
Proof.
  exists stray, 0. split; [eexists (firstn 5 stray); reflexivity|]. intros pf. split.
  - eexists. eexists. apply (returns_run 50). vm_compute. reflexivity.
  - intros np NP. assert (EN : ended stray) by (eexists (firstn 5 stray); reflexivity).
    assert (LO : forall max i, 2 <= i < 4 -> loops stray pf max i []).
    { intros max i I. assert (C : i = 2 \/ i = 3) by lia. exists 10. intros fuel F. 
      destruct (le_lt_dec max i) as [L|L]; [destruct fuel as [|n]; [lia|]; cbn [mainLoop]; rewrite (proj2 (Nat.leb_le _ _) L); reflexivity|].
      apply (mainLoop_mono stray pf 10 fuel 10 fuel max i [] F F). cbn [mainLoop]. rewrite (proj2 (Nat.leb_gt _ _) L).
      destruct C as [->| ->].
      - change (findRow (nextTok stray 2) rows) with (@None row). cbv iota. change (next stray 2) with 3. change (beqb (current stray 3) []) with false. change (beqb (current stray 3) (b "/end MODULE")) with false. cbv iota.
        destruct (max <=? 3); [reflexivity|]. reflexivity.
      - reflexivity. }
    eexists. eexists. eapply (parallel_run stray pf np 0 _ 2 4 (repeat [] np) []); [exact NP|reflexivity|reflexivity|lia| |apply ShNil; clear; induction np; constructor; auto|intros m []|reflexivity].
    assert (KS : forall ks, (forall k, In k ks -> k < np) -> Forall2 (fun k out => loops stray pf (maxIndex np 2 4 k) (minIndex np 2 4 k) out) ks (repeat [] (length ks))).
    { induction ks as [|k ks IH]; intros KS; [constructor|]. cbn [length repeat].
      constructor; [apply LO; apply (lo_lt np 2 4 NP ltac:(lia)); apply KS; left; reflexivity|apply IH; intros; apply KS; right; assumption]. }
    specialize (KS (seq 0 np)). rewrite seq_length in KS. apply KS. intros k I. apply in_seq in I. lia.
Qed.
Print Assumptions C48_keyword_refuted.

(** ** The theorems apply: two groups and two goroutines *)
Definition fine : list bytes := map b ["/begin MODULE"; "M"; "L"; "/begin GROUP"; "G1"; "a"; "/end GROUP"; "/begin GROUP"; "G2"; "b"; "/end GROUP"; "/end MODULE"; ""]%string.
Definition fineItems : list item :=
  [Item 3 6 (Put_ "Groups" "groupName") (readOr fine parseGroup 3); Item 7 10 (Put_ "Groups" "groupName") (readOr fine parseGroup 7)].
Example C48_example : ended fine /\ clean fine 11 /\ distinct (stored fineItems) /\ tidy fine 2 2 11 fineItems
  /\ (forall x, In x fineItems -> ~ border 2 2 11 (it_from x))
  /\ forall pf, isModule fine pf 0 fineItems 11 /\ exists v, returns fine pf parseModule 0 v false 11 /\ exists v' e' j', parallel fine pf 2 0 v' e' j'.
Proof.
  assert (EN : ended fine) by (eexists (firstn 12 fine); reflexivity). split; [exact EN|]. split; [|split; [|split; [|split]]].
  - intros p P. do 11 (destruct p as [|p]; [split; discriminate|]). lia.
  - unfold distinct. vm_compute. repeat constructor; cbn; intuition discriminate.
  - intros p x q B X F Q. apply border_two in B. cbn in B. subst p. destruct X as [<-|[<-|[]]]; cbn in F, Q; lia.
  - intros x X B. apply border_two in B. cbn in B. destruct X as [<-|[<-|[]]]; cbn in B; discriminate.
  - intros pf. split.
    + split; [aWord|]. split; [aWord|]. unfold fineItems. anObject "/begin GROUP"%string. anObject "/begin GROUP"%string. apply ContEnd. reflexivity.
    + eexists. split; [apply (returns_run 50); vm_compute; reflexivity|]. apply C48_total; [exact EN|lia|cbn; lia].
Qed.

(** A module with a refused object, for C48_error_guarded. *)
Definition refused : list bytes := map b ["/begin MODULE"; "M"; "L"; "/begin GROUP"; "G1"; "a"; "/begin UNIT"; "/end GROUP"; "/end MODULE"; ""]%string.
Example C48_error_example : ended refused /\ clean refused 8 /\ tok refused 8 = b "/end MODULE" /\ ~ border 1 2 8 3 /\ forall pf, broken refused pf 2 [] 3.
Proof.
  split; [eexists (firstn 9 refused); reflexivity|]. split; [|split; [reflexivity|split]].
  - intros p P. do 8 (destruct p as [|p]; [split; discriminate|]). lia.
  - intros (k & K & _). lia.
  - intros pf. eapply (BrkHere _ _ _ "/begin GROUP"%string); [inKinds|reflexivity|apply (returns_run 50); vm_compute; reflexivity].
Qed.
