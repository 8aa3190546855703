(** Theorems of properties C48 and C65 on objects that are cut by a border. *)
From Coq Require Import String Ascii List Arith Bool Lia SpecFloat Permutation.
From Verif Require Import GoBase GoBaseFacts A2lIR A2lTokens A2lParsers A2lThm A2lSpec FanModel FanProofs A2lModModel A2lModSpec A2lModStore A2lModSeq A2lModPar A2lModParts A2lModProps A2lFileModel A2lFileSpec A2lFileThm A2lFileProps A2lCutSpec A2lCut.
From Verif Require TokModel.
Import ListNotations.

Section Shares.
  Variable toks : list bytes.
  Variable pf : bytes -> option spec_float.
  Hypothesis EN : ended toks.

  Lemma share_range : forall np start stop k l, 0 < start -> k < np -> (forall x, In x l -> it_from x < stop) ->
    filter (inRange (minIndex np start stop k) (maxIndex np start stop k)) l = filter (between (edge np start stop k) (edge np start stop (S k))) l.
  Proof.
    intros np start stop k l ST K B. induction l as [|x l IH]; [reflexivity|]. cbn [filter]. rewrite IH by (intros; apply B; right; assumption). specialize (B x (or_introl eq_refl)).
    replace (between (edge np start stop k) (edge np start stop (S k)) x) with (inRange (minIndex np start stop k) (maxIndex np start stop k) x); [reflexivity|].
    unfold inRange, between, edge, maxIndex, minIndex. destruct (Nat.eqb_spec k np); [lia|]. f_equal. destruct (Nat.eqb_spec (S k) np).
    - rewrite (proj2 (Nat.leb_le _ _)), (proj2 (Nat.ltb_lt _ _)) by lia. reflexivity.
    - rewrite Nat.mul_succ_r. set (q := (stop - start) / np). destruct (Nat.leb_spec (it_from x) (start + q * k + q - 1)), (Nat.ltb_spec (it_from x) (start + (q * k + q))); try lia; reflexivity.
  Qed.

  Lemma shares_exist : forall np start items stop outs, 0 < np -> 0 < start -> content toks pf start items stop -> clean toks stop -> complete toks pf np start stop items ->
    Forall2 (fun k out => loops toks pf (maxIndex np start stop k) (minIndex np start stop k) out) (seq 0 np) outs ->
    exists shares, Forall2 (shareOf toks pf np start stop items) (seq 0 np) shares /\ Forall2 sends outs shares
      /\ forall sh x, In sh shares -> In x (stored sh) -> In (fst x) actions.
  Proof.
    intros np start items stop outs NP SP C CL CO F2. pose proof (content_bounds toks pf EN _ _ _ C) as [B1 B2].
    assert (KS : forall k, In k (seq 0 np) -> k < np) by (intros k I; apply in_seq in I; lia). revert KS F2. generalize (seq 0 np). intros ks KS F2.
    induction F2 as [|k out ks outs L F2 IH]; [exists []; split; [constructor|split; [constructor|intros sh x []]]|].
    destruct IH as (shares & S1 & S2 & S3); [intros; apply KS; right; assumption|]. assert (K : k < np) by (apply KS; left; reflexivity). set (p := minIndex np start stop k).
    assert (RE : exists rest, restOf toks pf items p rest).
    { destruct (lo_border np start stop NP ltac:(lia) k K) as [Z|Z]; [|eapply rest_exists; eauto]. exists []. right. split; [|reflexivity]. intros x X CU. unfold cuts, p in CU. specialize (B2 x X). lia. }
    destruct RE as [rest R]. pose proof (lo_lt np start stop NP ltac:(lia) k K) as LL.
    destruct (cut_worker toks pf EN (maxIndex np start stop k) start items stop p rest C CL (hi_le np start stop NP ltac:(lia) k K) LL R) as (out' & L' & S').
    rewrite (loops_fun toks pf _ _ _ _ L (loopsAt_loops toks pf _ _ _ L')).
    assert (EP : edge np start stop k = p) by (unfold edge, p, minIndex; destruct (Nat.eqb_spec k np); [lia|reflexivity]).
    assert (FE : filter (inRange p (maxIndex np start stop k)) (rest ++ items) = filter (between (edge np start stop k) (edge np start stop (S k))) (rest ++ items)).
    { apply share_range; [exact SP|exact K|]. intros x X. apply in_app_or in X. destruct X as [X|X]; [|specialize (B2 x X); lia].
      destruct R as [(y & Y & CU & N)|[_ ->]]; [|destruct X]. apply (nested_bounds toks pf EN) in N. destruct N as [_ N]. specialize (N x X). specialize (B2 y Y). lia. }
    exists (filter (between (edge np start stop k) (edge np start stop (S k))) (rest ++ items) :: shares). split; [|split].
    - constructor; [|exact S1]. unfold shareOf. rewrite EP. exists rest. split; [exact R|reflexivity].
    - constructor; [|exact S2]. rewrite <- FE. exact S'.
    - intros sh x [<-|SH] X; [|eauto]. unfold stored in X. apply in_map_iff in X. destruct X as (y & <- & Y). apply filter_In in Y. destruct Y as [Y _]. cbn [fst].
      apply in_app_or in Y. destruct Y as [Y|Y].
      + apply (rest_actions toks pf _ _ _ R (it_act y, it_val y)). unfold stored. apply (in_map (fun x => (it_act x, it_val x)) _ _ Y).
      + apply (content_actions toks pf _ _ _ C (it_act y, it_val y)). unfold stored. apply (in_map (fun x => (it_act x, it_val x)) _ _ Y).
  Qed.

  (** The shares are determined by the tokens. *)
  Lemma nested_fun : forall i e l, nestedIn toks pf i e l -> forall l', nestedIn toks pf i e l' -> l' = l.
  Proof.
    induction 1 as [e|i e l N NS IH|i t g a v j e l I T R NS IH]; intros l' H.
    - inversion H as [|? ? ? ? N'|? ? ? ? ? ? ? ? I' T' R' N']; subst; [reflexivity| |]; exfalso; pose proof (nested_bounds toks pf EN _ _ _ N'); [lia|].
      pose proof (returns_after toks pf EN _ _ _ _ _ _ I' (tok_length toks _ _ _ _ I' T') R'). lia.
    - inversion H as [|? ? ? ? N'|? t' g' a' ? ? ? ? I' T' R' N']; subst; [|auto|].
      + exfalso. pose proof (nested_bounds toks pf EN _ _ _ NS). lia.
      + destruct N. exists (t', (g', a')). auto.
    - inversion H as [|? ? ? NB N'|? t' g' a' v' j' ? l2 I' T' R' N']; subst.
      + exfalso. pose proof (nested_bounds toks pf EN _ _ _ NS). pose proof (returns_after toks pf EN _ _ _ _ _ _ I (tok_length toks _ _ _ _ I T) R). lia.
      + destruct NB. exists (t, (g, a)). auto.
      + rewrite T in T'. apply b_inj in T'. subst t'. pose proof (NoDup_map_inj _ _ fst kinds _ _ tokens_nodup I I' eq_refl) as E. injection E as <- <-.
        destruct R as [n R], R' as [n' R']. specialize (R (n + n') ltac:(lia)). rewrite R' in R by lia. injection R as -> ->. f_equal. apply IH. exact N'.
  Qed.
  Lemma share_fun : forall np start items stop k l l', content toks pf start items stop ->
    shareOf toks pf np start stop items k l -> shareOf toks pf np start stop items k l' -> l' = l.
  Proof.
    intros np start items stop k l l' C (r & R & ->) (r' & R' & ->). f_equal. f_equal. pose proof (content_apart toks pf EN _ _ _ C) as AP.
    destruct R as [(x & X & CU & N)|[NC ->]], R' as [(y & Y & CU' & N')|[NC' ->]]; [|destruct (NC' x X CU)|destruct (NC y Y CU')|reflexivity].
    destruct (AP x y X Y) as [<-|K]; [eapply nested_fun; eauto|]. unfold cuts in *. lia.
  Qed.
End Shares.

Lemma F2_in_r : forall (A B : Type) (P : A -> B -> Prop) l l', Forall2 P l l' -> forall y, In y l' -> exists x, In x l /\ P x y.
Proof. intros A B P l l' F. induction F as [|x y l l' H F IH]; intros z Z; [destruct Z|]. destruct Z as [<-|Z]; [exists x; split; [left; reflexivity|exact H]|]. destruct (IH z Z) as (u & U & Q). exists u. split; [right; exact U|exact Q]. Qed.
Lemma F2_in_l : forall (A B : Type) (P : A -> B -> Prop) l l', Forall2 P l l' -> forall x, In x l -> exists y, In y l' /\ P x y.
Proof. intros A B P l l' F. induction F as [|x y l l' H F IH]; intros z Z; [destruct Z|]. destruct Z as [<-|Z]; [exists y; split; [left; reflexivity|exact H]|]. destruct (IH z Z) as (u & U & Q). exists u. split; [right; exact U|exact Q]. Qed.
Lemma kind_action : forall t g a, In (t, (g, a)) kinds -> In a actions.
Proof. intros t g a I. unfold actions. apply (in_map (fun k => snd (snd k)) _ _ I). Qed.

(** What every run returns for a module whose cut objects are complete behind
    the borders: each goroutine reads its share, and of the objects in the same place
    one stays that is the last in a share. *)
Theorem C48_any_guarded : forall toks pf np i items stop v e j,
    ended toks -> 0 < np -> isModule toks pf i items stop -> clean toks stop -> complete toks pf np (i + 2) stop items ->
    parallel toks pf np i v e j ->
    e = false /\ j = stop /\
    exists o shares, v = VObj o /\ named o (tok toks (i + 1)) (tok toks (i + 2))
      /\ Forall2 (shareOf toks pf np (i + 2) stop items) (seq 0 np) shares /\ holdsLast o (map stored shares).
Proof.
  intros toks pf np i items stop v e j EN NP (W1 & W2 & C) CL CO PAR. pose proof (header_words toks i W1 W2) as HW.
  pose proof (content_bounds toks pf EN _ _ _ C) as [B1 B2].
  assert (FE : firstEnd toks 0 = stop) by (apply (firstEnd_at toks 0 stop); [intros p P; apply (CL p P)|exact (content_end toks pf _ _ _ C)]).
  destruct PAR as [o e start H1 H2|o e start stop' outs s H1 H2 H3 F2 ST FI]; [exfalso; rewrite HW in H1; injection H1 as <- <- <-; lia|].
  rewrite HW in H1. injection H1 as <- <- <-. rewrite FE in H2. subst stop'.
  destruct (shares_exist toks pf EN np (i + 2) items stop outs NP ltac:(lia) C CL CO F2) as (shares & S1 & S2 & S3).
  assert (OB : forall l m, In l outs -> In m l -> object m).
  { intros l m I J. destruct (F2_in_l _ _ _ _ _ S2 l I) as (sh & _ & Q & _). exact (proj1 (Forall_forall _ _) Q m J). }
  assert (IV : inv closing outs s).
  { eapply inv_steps; [|exact ST]. apply inv_init; [exact closing_nodup|]. intros l m I J. exact (proj1 (OB l m I J)). }
  destruct (fan_final _ _ _ _ IV FI) as (tr & SH & GT); [discriminate|]. pose proof (shuffle_perm _ _ _ SH) as PM.
  assert (ER : f_got s errChan = []).
  { rewrite GT by (left; reflexivity). unfold on. assert (NE : forall m, In m tr -> fst m <> errChan).
    { intros m M. apply (Permutation_in _ (Permutation_sym PM)) in M. apply in_concat in M. destruct M as (l & I & J). exact (proj2 (OB l m I J)). }
    clear - NE. induction tr as [|m tr IH]; [reflexivity|]. cbn [filter]. destruct (String.eqb_spec (fst m) errChan) as [E|E]; [destruct (NE m (or_introl eq_refl) E)|].
    apply IH. intros x X. apply NE. right. exact X. }
  rewrite ER, collected_store. split; [reflexivity|]. split; [reflexivity|].
  assert (GA : forall x, In x (gathered (f_got s)) -> In (fst x) actions).
  { intros x X. assert (PX : In x (acts tr)) by (eapply Permutation_in; [apply gathered_perm; intros c I; apply GT; apply closing_channels; exact I|exact X]).
    apply acts_in in PX. destruct PX as (m & M & A & V). apply (Permutation_in _ (Permutation_sym PM)) in M. apply in_concat in M. destruct M as (l & I & J).
    destruct (F2_in_l _ _ _ _ _ S2 l I) as (sh & SI & _ & AE). apply (S3 sh x SI). rewrite <- AE. apply acts_in. exists m. auto. }
  assert (LG : forall t g a x v, In (t, (g, a)) kinds -> lastAt a x (gathered (f_got s)) v <-> lastAt a x (acts tr) v).
  { intros t g a x v I. destruct (kind_chan t g a I) as [c A]. rewrite (lastAt_filter a x (gathered _)), (lastAt_filter a x (acts tr)), (gathered_kind _ a c A), (acts_kind _ a c A), GT; [reflexivity|].
    apply closing_channels. destruct (chan_of _ _ A) as [n K]. apply (in_map fst _ _ K). }
  eexists. exists shares. split; [reflexivity|]. split; [apply (store_named pf); exact GA|]. split; [exact S1|]. intros t g a x I. split.
  - intros v F. apply (store_found _ _ a x v (head_fresh pf _ _) (kind_action _ _ _ I) GA) in F. apply (LG t g a x v I) in F.
    destruct (shuffle_last _ _ a x v SH F) as (l & L & Q). destruct (F2_in_l _ _ _ _ _ S2 l L) as (sh & SI & _ & AE). exists (stored sh). split; [apply in_map; exact SI|]. rewrite <- AE. exact Q.
  - intros F l v L Q. apply in_map_iff in L. destruct L as (sh & <- & SI). destruct (F2_in_r _ _ _ _ _ S2 sh SI) as (out & OI & _ & AE). rewrite <- AE in Q. apply lastAt_in in Q. destruct Q as [Q N].
    assert (IT : In (a, v) (acts tr)).
    { apply acts_in in Q. destruct Q as (m & M & A & V). apply acts_in. exists m. split; [|auto]. eapply Permutation_in; [exact PM|]. apply in_concat. eauto. }
    destruct (lastAt_some a x _ v IT N) as [w LW]. apply (LG t g a x w I) in LW. apply (store_found _ _ a x w (head_fresh pf (tok toks (i + 1)) (tok toks (i + 2))) (kind_action _ _ _ I) GA) in LW. congruence.
Qed.
Print Assumptions C48_any_guarded.

(** ** Every share can have the last word *)
Lemma shuffle_nil_l : forall (V : Type) (w : list (list (string * V))) l, shuffle w l -> shuffle ([] :: w) l.
Proof. intros V w l H. induction H as [w F|w i m ms l N H IH]; [apply ShNil; constructor; auto|]. apply (ShCons _ ([] :: w) (S i) m ms l); [exact N|]. exact IH. Qed.
Lemma shuffle_front : forall (V : Type) (w : list (list (string * V))) l x, shuffle w l -> shuffle (x :: w) (x ++ l).
Proof. intros V w l x H. induction x as [|m x IH]; [apply shuffle_nil_l; exact H|]. cbn [app]. apply (ShCons _ _ 0 m x); [reflexivity|]. exact IH. Qed.
Lemma shuffle_back : forall (V : Type) (w : list (list (string * V))) l x, shuffle w l -> shuffle (x :: w) (l ++ x).
Proof.
  intros V w l x H. induction H as [w F|w i m ms l N H IH].
  - rewrite <- (app_nil_r ([] ++ x)). cbn [app]. apply shuffle_front. apply ShNil. exact F.
  - cbn [app]. apply (ShCons _ _ (S i) m ms); [exact N|]. exact IH.
Qed.
Lemma shuffle_last_word : forall (V : Type) (w : list (list (string * V))) x, In x w -> exists l, shuffle w (l ++ x).
Proof.
  intros V w x. induction w as [|y w IH]; intros I; [destruct I|]. destruct I as [->|I].
  - exists (concat w). apply shuffle_back. apply shuffle_concat.
  - destruct (IH I) as [l L]. exists (y ++ l). rewrite <- app_assoc. apply shuffle_front. exact L.
Qed.
Lemma acts_app : forall l1 l2, acts (l1 ++ l2) = acts l1 ++ acts l2.
Proof. intros l1 l2. unfold acts. apply flat_map_app. Qed.
Lemma lastAt_app : forall a x l1 l2 v, lastAt a x l2 v -> lastAt a x (l1 ++ l2) v.
Proof. intros a x l1 l2 v (k1 & k2 & -> & N & L). exists (l1 ++ k1), k2. split; [apply app_assoc|auto]. Qed.

(** Whatever is the last in its place in a share can be what the module holds. *)
Theorem C48_any_possible : forall toks pf np i items stop shares sh t g a x v,
    ended toks -> 0 < np -> isModule toks pf i items stop -> clean toks stop -> complete toks pf np (i + 2) stop items ->
    Forall2 (shareOf toks pf np (i + 2) stop items) (seq 0 np) shares -> In sh shares -> In (t, (g, a)) kinds -> lastAt a x (stored sh) v ->
    exists o, parallel toks pf np i (VObj o) false stop /\ found o a x = Some v.
Proof.
  intros toks pf np i items stop shares sh t g a x v EN NP (W1 & W2 & C) CL CO SS SI I LA. pose proof (header_words toks i W1 W2) as HW.
  pose proof (content_bounds toks pf EN _ _ _ C) as [B1 B2].
  assert (FE : firstEnd toks 0 = stop) by (apply (firstEnd_at toks 0 stop); [intros p P; apply (CL p P)|exact (content_end toks pf _ _ _ C)]).
  destruct (outs_exist toks pf EN np (i + 2) stop NP FE ltac:(lia)) as [outs F2].
  destruct (shares_exist toks pf EN np (i + 2) items stop outs NP ltac:(lia) C CL CO F2) as (shares' & S1 & S2 & S3).
  assert (shares' = shares) as ->.
  { clear - EN C SS S1. revert shares' S1. induction SS as [|k l ks ls H SS IH]; intros ls' S1; inversion S1 as [|? l' ? ls2 H' S2]; subst; [reflexivity|]. f_equal; [eapply share_fun; eauto|]. apply IH. exact S2. }
  destruct (F2_in_r _ _ _ _ _ S2 sh SI) as (out & OI & _ & AE). destruct (shuffle_last_word _ outs out OI) as [l SH]. pose proof (shuffle_perm _ _ _ SH) as PM.
  assert (OB : forall m, In m (l ++ out) -> object m).
  { intros m M. apply (Permutation_in _ (Permutation_sym PM)) in M. apply in_concat in M. destruct M as (l' & I' & J). destruct (F2_in_l _ _ _ _ _ S2 l' I') as (sh' & _ & Q & _). exact (proj1 (Forall_forall _ _) Q m J). }
  eexists. split.
  - apply (parallel_run toks pf np i _ (i + 2) stop outs (l ++ out) NP HW FE ltac:(lia) F2 SH); [intros m M; exact (proj1 (OB m M))|].
    unfold on. assert (NE : forall m, In m (l ++ out) -> fst m <> errChan) by (intros m M; exact (proj2 (OB m M))).
    clear - NE. induction (l ++ out) as [|m tr IH]; [reflexivity|]. cbn [filter]. destruct (String.eqb_spec (fst m) errChan) as [E|E]; [destruct (NE m (or_introl eq_refl) E)|].
    apply IH. intros y Y. apply NE. right. exact Y.
  - rewrite collected_store. apply store_found; [apply (head_fresh pf)|eapply kind_action; exact I| |].
    + intros y Y. assert (PY : In y (acts (l ++ out))) by (eapply Permutation_in; [apply gathered_perm; reflexivity|exact Y]).
      apply acts_in in PY. destruct PY as (m & M & A & V). apply (Permutation_in _ (Permutation_sym PM)) in M. apply in_concat in M. destruct M as (l' & I' & J).
      destruct (F2_in_l _ _ _ _ _ S2 l' I') as (sh' & SI' & _ & AE'). apply (S3 sh' y SI'). rewrite <- AE'. apply acts_in. exists m. auto.
    + destruct (kind_chan t g a I) as [c A]. apply lastAt_filter. rewrite (gathered_kind _ a c A), <- (acts_kind _ a c A). apply -> lastAt_filter. rewrite acts_app. apply lastAt_app. rewrite AE. exact LA.
Qed.
Print Assumptions C48_any_possible.

(** ** The sequential parser: the last object in each place *)
Theorem C48_sequential_last : forall toks pf i v j, ended toks -> word (tok toks (i + 1)) -> word (tok toks (i + 2)) -> returns toks pf parseModule i v false j ->
    exists items o, isModule toks pf i items j /\ v = VObj o /\ named o (tok toks (i + 1)) (tok toks (i + 2)) /\ holdsLast o [stored items].
Proof.
  intros toks pf i v j EN W1 W2 [n R]. destruct (seq_content toks pf n EN i v j W1 W2 (R n (le_n _))) as (items & M & ->).
  exists items. eexists. split; [exact M|]. split; [reflexivity|]. destruct M as (_ & _ & C). pose proof (content_actions toks pf _ _ _ C) as A.
  split; [apply (store_named pf); exact A|]. intros t g a x I. split.
  - intros v F. exists (stored items). split; [left; reflexivity|]. apply (store_found _ _ a x v (head_fresh pf _ _) (kind_action _ _ _ I) A) in F. exact F.
  - intros F l v [<-|[]] L. apply (store_found _ _ a x v (head_fresh pf (tok toks (i + 1)) (tok toks (i + 2))) (kind_action _ _ _ I) A) in L. congruence.
Qed.
Print Assumptions C48_sequential_last.

(** ** Refused objects *)
Theorem C48_error_any_guarded : forall toks pf np i items p stop v e j,
    ended toks -> 0 < np -> word (tok toks (i + 1)) -> word (tok toks (i + 2)) -> broken toks pf (i + 2) items p ->
    clean toks stop -> tok toks stop = b "/end MODULE" -> p < stop -> ~ border np (i + 2) stop p -> complete toks pf np (i + 2) stop items ->
    parallel toks pf np i v e j -> e = true.
Proof.
  intros toks pf np i items p stop v e j EN NP W1 W2 C CL TE LP NB TD PAR. pose proof (header_words toks i W1 W2) as HW.
  pose proof (broken_bounds toks pf EN _ _ _ C) as [B1 B2].
  assert (FE : firstEnd toks 0 = stop) by (apply (firstEnd_at toks 0 stop); [intros q Q; apply (CL q Q)|exact TE]).
  destruct PAR as [o e start H1 H2|o e start stop' outs s H1 H2 H3 F2 ST FI]; [reflexivity|].
  rewrite HW in H1. injection H1 as <- <- <-. rewrite FE in H2. subst stop'.
  destruct (share_exists np (i + 2) stop NP ltac:(lia) p ltac:(lia)) as (k & K1 & K2 & K3).
  assert (KH : p <= maxIndex np (i + 2) stop k).
  { unfold maxIndex, minIndex. destruct (Nat.eqb_spec (S k) np) as [EQ|NE]; [lia|]. destruct K3 as [K3|K3]; [contradiction|].
    assert (p <> i + 2 + (stop - (i + 2)) / np * S k) by (intros Z; apply NB; exists (S k); split; [lia|exact Z]). lia. }
  assert (RE : exists rest, restOf toks pf items (minIndex np (i + 2) stop k) rest).
  { destruct (lo_border np (i + 2) stop NP ltac:(lia) k K1) as [Z|Z]; [|eapply rest_exists; eauto]. exists []. right. split; [|reflexivity]. intros x X CU. unfold cuts in CU. specialize (B2 x X). lia. }
  destruct RE as [rest R].
  assert (EI : exists out, In out outs /\ In anError out).
  { assert (IK : In k (seq 0 np)) by (apply in_seq; lia). destruct (F2_in_l _ _ _ _ _ F2 k IK) as (out & O1 & O2). exists out. split; [exact O1|].
    destruct (cut_bad_worker toks pf EN (maxIndex np (i + 2) stop k) (i + 2) items p (minIndex np (i + 2) stop k) rest C (fun q Q => CL q ltac:(lia)) KH ltac:(unfold minIndex; lia) R) as (out' & L' & S').
    rewrite (loops_fun toks pf _ _ _ _ O2 (loopsAt_loops toks pf _ _ _ L')). exact S'. }
  assert (PR : forall l m, In l outs -> In m l -> In (fst m) closing) by exact (outs_proper toks pf EN np (i + 2) stop outs NP FE ltac:(lia) F2).
  assert (IV : inv closing outs s).
  { eapply inv_steps; [|exact ST]. apply inv_init; [exact closing_nodup|exact PR]. }
  destruct (fan_final _ _ _ _ IV FI) as (tr & SH & GT); [discriminate|]. pose proof (shuffle_perm _ _ _ SH) as PM.
  rewrite GT by (left; reflexivity). destruct EI as (out & I1 & I2).
  assert (IT : In anError tr) by (eapply Permutation_in; [exact PM|]; apply in_concat; eauto).
  assert (IE : In (VStr []) (on errChan tr)).
  { unfold on. apply (in_map snd _ anError). apply filter_In. split; [exact IT|reflexivity]. }
  destruct (on errChan tr); [destruct IE|reflexivity].
Qed.
Print Assumptions C48_error_any_guarded.

(** ** The theorems apply: interface data in a group that two borders cut *)
Definition cutItems : list item := [Item 3 10 (Put_ "Groups" "groupName") (readOr nested parseGroup 3)].
Definition cutRest : list item := [Item 6 8 (Put_ "ifData" "name") (readOr nested parseIfData 6)].
Lemma nested_at : forall q, 1 <= q -> q <> 3 -> q <> 6 -> q <= 10 -> ~ begins (tok nested q).
Proof. intros q H1 H2 H3 H4. apply findKind_none. do 11 (destruct q as [|q]; [first [lia|vm_compute; reflexivity]|]). lia. Qed.
Lemma cut_complete : forall pf, complete nested pf 3 2 11 cutItems /\ nestedIn nested pf 5 10 cutRest /\ nestedIn nested pf 8 10 [].
Proof.
  intros pf. assert (N2 : nestedIn nested pf 8 10 []) by (do 2 (apply NestOther; [apply nested_at; lia|]); apply NestEnd).
  assert (N1 : nestedIn nested pf 5 10 cutRest).
  { unfold cutRest. eapply (NestObj nested pf 5 "/begin IF_DATA"%string); [inKinds|reflexivity|apply (returns_run 50); vm_compute; reflexivity|exact N2]. }
  split; [|auto]. intros p x (k & K & ->) [<-|[]] CU. assert (C : k = 1 \/ k = 2) by lia. destruct C as [->| ->]; eexists; [exact N1|exact N2].
Qed.
Example C48_any_example : ended nested /\ clean nested 11 /\ forall pf, isModule nested pf 0 cutItems 11 /\ complete nested pf 3 2 11 cutItems
  /\ Forall2 (shareOf nested pf 3 2 11 cutItems) (seq 0 3) [cutItems; cutRest; []]
  /\ (exists v e j, parallel nested pf 3 0 v e j)
  /\ exists v, lastAt (Put_ "ifData" "name") (b "XCP") (stored cutRest) v.
Proof.
  split; [eexists (firstn 12 nested); reflexivity|]. split; [intros p P; do 11 (destruct p as [|p]; [split; discriminate|]); lia|]. intros pf.
  destruct (cut_complete pf) as (CO & N1 & N2). split; [|split; [exact CO|split; [|split]]].
  - split; [aWord|]. split; [aWord|]. unfold cutItems. anObject "/begin GROUP"%string. apply ContEnd. reflexivity.
  - cbn [seq]. constructor; [|constructor; [|constructor; [|constructor]]].
    + exists []. split; [right; split; [|reflexivity]; intros x [<-|[]]; unfold cuts, edge; cbn; lia|reflexivity].
    + exists cutRest. split; [left; exists (Item 3 10 (Put_ "Groups" "groupName") (readOr nested parseGroup 3)); split; [left; reflexivity|split; [unfold cuts, edge; cbn; lia|exact N1]]|reflexivity].
    + exists []. split; [left; exists (Item 3 10 (Put_ "Groups" "groupName") (readOr nested parseGroup 3)); split; [left; reflexivity|split; [unfold cuts, edge; cbn; lia|exact N2]]|reflexivity].
  - apply C48_total; [eexists (firstn 12 nested); reflexivity|lia|cbn; lia].
  - eexists. exists [], []. split; [reflexivity|]. split; [vm_compute; reflexivity|intros w []].
Qed.

(** ** Files *)

(** The second module is what goroutines read that share out the tokens of the first. *)
Definition sharedOut (toks : list bytes) (pf : bytes -> option spec_float) (np : nat) (v w : val) : Prop :=
  exists i items stop o o' name long shares, tok toks i = b "/begin MODULE" /\ isModule toks pf i items stop /\ v = VObj o /\ w = VObj o' /\ named o name long /\ named o' name long
    /\ Forall2 (shareOf toks pf np (i + 2) stop items) (seq 0 np) shares /\ holdsLast o [stored items] /\ holdsLast o' (map stored shares).

(** A file with one module that the sequential parser reads without an error, and
    whose cut objects are complete behind the borders. *)
Theorem C65_any_guarded : forall gr pf cpus content t a j r, 0 < cpus -> fileTokens gr cpus content (Some t) -> TokModel.tk_multithreading t = true ->
    returns (TokModel.tk_list t) pf parseA2l 0 (VObj a) false j ->
    (forall i, tok (TokModel.tk_list t) i = b "/begin MODULE" -> exists items stop, isModule (TokModel.tk_list t) pf i items stop /\ clean (TokModel.tk_list t) stop
       /\ complete (TokModel.tk_list t) pf (cpus * 2) (i + 2) stop items) ->
    parseFromFile gr pf cpus (Some content) r -> exists a', r = Returned a' false /\ likeFile (sharedOut (TokModel.tk_list t) pf (cpus * 2)) a a'.
Proof.
  intros gr pf cpus content t a j r CP T MT R DV H. destruct (tokens_ended _ _ _ _ T) as (t' & E & EN). injection E as <-.
  eapply file_like; eauto. intros i v k v' e' k' TK RM P. destruct (DV i TK) as (items & stop & M & CL & CO). pose proof M as (W1 & W2 & C).
  destruct (C48_sequential_last _ pf i v k EN W1 W2 RM) as (items2 & o & (_ & _ & C2) & -> & N & HO).
  destruct (content_fun _ _ _ _ _ C _ _ C2) as [-> ->].
  destruct (C48_any_guarded _ pf (cpus * 2) i items stop v' e' k' EN ltac:(lia) M CL CO P) as (-> & -> & o' & shares & -> & N' & SH & HO').
  split; [reflexivity|]. split; [reflexivity|]. do 8 eexists. split; [exact TK|]. split; [exact M|]. split; [reflexivity|]. split; [reflexivity|]. split; [exact N|]. split; [exact N'|]. eauto.
Qed.
Print Assumptions C65_any_guarded.
