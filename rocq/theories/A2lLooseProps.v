(** Theorems of property C48 on modules with unexpected tokens between their
    objects, and with objects that their parser refuses. *)
From Coq Require Import String Ascii List Arith Bool Lia SpecFloat Permutation.
From Verif Require Import GoBase GoBaseFacts A2lIR A2lTokens A2lParsers A2lThm A2lSpec A2lProps FanModel FanProofs A2lModModel A2lModSpec A2lModStore A2lModSeq A2lModPar A2lModParts A2lModProps
  A2lCutSpec A2lCut A2lCutProps A2lCutLost A2lQuietSpec A2lQuiet A2lQuietThm A2lQuietProps A2lLooseSpec A2lLoose.
From Verif Require A2lNestSpec A2lNestThm A2lNestProps StrconvModel FloatTextProps.
Import ListNotations.

Lemma tok_length' : forall toks i t, tok toks i = t -> t <> [] -> i < length toks.
Proof. intros toks i t T N. destruct (lt_dec i (length toks)) as [L|L]; [exact L|]. exfalso. apply N. rewrite <- T. unfold tok. apply nth_overflow. lia. Qed.

(** ** When the sequential parser refuses a module *)
Lemma returns_fun : forall toks pf g i v e j v' e' j', returns toks pf g i v e j -> returns toks pf g i v' e' j' -> v' = v /\ e' = e /\ j' = j.
Proof.
  intros toks pf g i v e j v' e' j' [n R] [n' R']. pose proof (R (n + n') ltac:(lia)) as H. rewrite (R' (n + n') ltac:(lia)) in H. injection H as -> -> ->. auto.
Qed.
Lemma same_kind : forall t g a t' g' a' x, In (t, (g, a)) kinds -> In (t', (g', a')) kinds -> x = b t -> x = b t' -> t' = t /\ g' = g /\ a' = a.
Proof.
  intros t g a t' g' a' x I I' -> E. apply b_inj in E. subst t'. apply findKind_in in I, I'. rewrite I in I'. injection I' as -> ->. auto.
Qed.
Lemma kind_begins : forall t g a x, In (t, (g, a)) kinds -> x = b t -> begins x.
Proof. intros t g a x I E. exists (t, (g, a)). auto. Qed.
Lemma word_begins : forall t, word t -> begins t -> False. Proof. intros t W B. exact (word_not_begins _ W B). Qed.
Lemma word_unexpected : forall t, word t -> unexpected t -> False. Proof. intros t [W1 W2] [U|(U & _)]; congruence. Qed.
Lemma begins_unexpected : forall t, begins t -> unexpected t -> False.
Proof. intros t B [U|(_ & U & _)]; [exact (proj2 (begins_not_end _ B) U)|exact (U B)]. Qed.
Lemma end_nothing : forall t, t = b "/end MODULE" -> word t \/ begins t \/ unexpected t -> False.
Proof.
  intros t E [W|[B|[U|(_ & _ & U)]]]; [exact (word_not_end _ W E)|exact (proj1 (begins_not_end _ B) E)| |exact (U E)]. rewrite E in U. discriminate.
Qed.
Ltac clash :=
  exfalso;
  repeat match goal with H1 : In (?t, (?g, ?a)) kinds, H2 : tok _ _ = b ?t |- _ => pose proof (kind_begins _ _ _ _ H1 H2); clear H2 end;
  first [ eapply word_begins; eassumption | eapply word_unexpected; eassumption | eapply begins_unexpected; eassumption
        | eapply end_nothing; [eassumption|tauto] ].
Lemma content_excludes : forall toks pf i items e, content toks pf i items e -> forall l p, ~ broken toks pf i l p /\ ~ stray toks pf i l p.
Proof.
  intros toks pf i items e C.
  induction C as [i H|i items e W C IH|i t g a v j items e I T R C IH]; intros l p; split; intros B;
    inversion B as [? t' g' a' v' j' I' T' R'|? ? ? W' B'|? t' g' a' v' j' ? ? I' T' R' B'] || inversion B as [? U'|? ? ? W' B'|? t' g' a' v' j' ? ? I' T' R' B'];
    subst; try solve [clash]; try (apply (proj1 (IH _ _)) in B'; exact B'); try (apply (proj2 (IH _ _)) in B'; exact B');
    destruct (same_kind _ _ _ _ _ _ _ I I' T T') as (-> & -> & ->); destruct (returns_fun _ _ _ _ _ _ _ _ _ _ R R') as (-> & E & ->); [discriminate E| |];
    [exact (proj1 (IH _ _) B')|exact (proj2 (IH _ _) B')].
Qed.

(** The sequential parser reports an error in a module if and only if, after objects
    with words between them, it comes to an object that its parser refuses, to an
    unexpected keyword or to the end of the file. *)
Theorem C48_sequential_error : forall toks pf i, ended toks -> i < length toks -> word (tok toks (i + 1)) -> word (tok toks (i + 2)) ->
    ((exists v j, returns toks pf parseModule i v true j) <-> exists items p, broken toks pf (i + 2) items p \/ stray toks pf (i + 2) items p).
Proof.
  intros toks pf i EN L W1 W2. split.
  - intros (v & j & n & R). exact (seq_refuses toks pf EN n i v j W1 W2 (R n (Nat.le_refl n))).
  - intros (items & p & B).
    destruct (ok_call toks pf EN parseModule i ltac:(vm_compute; reflexivity) L) as (v & e & j & J & R).
    assert (RT : returns toks pf parseModule i v e j) by (exists (S (length toks)); exact R).
    destruct e; [exists v, j; exact RT|]. exfalso. destruct (C48_sequential toks pf i v j EN W1 W2 RT) as (its & M).
    destruct M as (o & (_ & _ & C) & _). destruct (content_excludes _ _ _ _ _ C items p) as [X1 X2]. destruct B as [B|B]; auto.
Qed.
Print Assumptions C48_sequential_error.


(** ** What the parallel parser does *)
Theorem C48_loose_guarded : forall toks pf np i items stop v e j,
    ended toks -> 0 < np -> loosely toks pf i items stop -> clean toks stop -> complete toks pf np (i + 2) stop items ->
    parallel toks pf np i v e j ->
    e = false /\ j = stop /\
    exists o shares, v = VObj o /\ named o (tok toks (i + 1)) (tok toks (i + 2))
      /\ Forall2 (shareOf toks pf np (i + 2) stop items) (seq 0 np) shares /\ holdsLast o (map stored shares).
Proof.
  intros toks pf np i items stop v e j EN NP (W1 & W2 & (d & -> & C) & TE) CL CO PAR. pose proof (header_words toks i W1 W2) as HW.
  pose proof (nested_bounds toks pf EN _ _ _ C) as [B1 B2].
  assert (FE : firstEnd toks 0 = S d) by (apply (firstEnd_at toks 0 (S d)); [intros p P; apply (CL p P)|exact TE]).
  destruct PAR as [o e start H1 H2|o e start stop' outs s H1 H2 H3 F2 ST FI]; [exfalso; rewrite HW in H1; injection H1 as <- <- <-; lia|].
  rewrite HW in H1. injection H1 as <- <- <-. rewrite FE in H2. subst stop'.
  destruct (loose_shares toks pf EN np (i + 2) items d outs NP ltac:(lia) C (tok_length' toks (S d) _ TE ltac:(discriminate)) TE CL CO F2) as (shares & S1 & S2 & S3).
  assert (OB : forall l m, In l outs -> In m l -> object m).
  { intros l m I J. destruct (F2_in_l _ _ _ _ _ S2 l I) as (sh & _ & Q & _). exact (proj1 (Forall_forall _ _) Q m J). }
  assert (IV : inv closing outs s).
  { eapply inv_steps; [|exact ST]. apply inv_init; [exact closing_nodup|]. intros l m I J. exact (proj1 (OB l m I J)). }
  destruct (fan_final _ _ _ _ IV FI) as (tr & SH & GT); [discriminate|]. pose proof (shuffle_perm _ _ _ SH) as PM.
  assert (ER : f_got s errChan = []).
  { rewrite GT by (left; reflexivity). unfold on. assert (NE : forall m, In m tr -> fst m <> errChan).
    { intros m M. apply (Permutation_in _ (Permutation_sym PM)) in M. apply in_concat in M. destruct M as (l & I & J). exact (proj2 (OB l m I J)). }
    clear - NE. induction tr as [|m tr IH]; [reflexivity|]. cbn [filter]. destruct (String.eqb_spec (fst m) errChan) as [E|E]; [destruct (NE m (or_introl eq_refl) E)|].
    apply IH. intros x X. apply NE. right. exact X. }
  rewrite ER, collected_store. split; [reflexivity|]. split; [reflexivity|].
  assert (GA : forall x, In x (gathered (f_got s)) -> In (fst x) actions).
  { intros x X. assert (PX : In x (acts tr)) by (eapply Permutation_in; [apply gathered_perm; intros c I; apply GT; apply closing_channels; exact I|exact X]).
    apply acts_in in PX. destruct PX as (m & M & A & V). apply (Permutation_in _ (Permutation_sym PM)) in M. apply in_concat in M. destruct M as (l & I & J).
    destruct (F2_in_l _ _ _ _ _ S2 l I) as (sh & SI & _ & AE). apply (S3 sh x SI). rewrite <- AE. apply acts_in. exists m. auto. }
  assert (LG : forall t g a x v, In (t, (g, a)) kinds -> lastAt a x (gathered (f_got s)) v <-> lastAt a x (acts tr) v).
  { intros t g a x v I. destruct (kind_chan t g a I) as [c A]. rewrite (lastAt_filter a x (gathered _)), (lastAt_filter a x (acts tr)), (gathered_kind _ a c A), (acts_kind _ a c A), GT; [reflexivity|].
    apply closing_channels. destruct (chan_of _ _ A) as [n K]. apply (in_map fst _ _ K). }
  eexists. exists shares. split; [reflexivity|]. split; [apply (store_named pf); exact GA|]. split; [exact S1|]. intros t g a x I. split.
  - intros v F. apply (store_found _ _ a x v (head_fresh pf _ _) (kind_action _ _ _ I) GA) in F. apply (LG t g a x v I) in F.
    destruct (shuffle_last _ _ a x v SH F) as (l & L & Q). destruct (F2_in_l _ _ _ _ _ S2 l L) as (sh & SI & _ & AE). exists (stored sh). split; [apply in_map; exact SI|]. rewrite <- AE. exact Q.
  - intros F l v L Q. apply in_map_iff in L. destruct L as (sh & <- & SI). destruct (F2_in_r _ _ _ _ _ S2 sh SI) as (out & OI & _ & AE). rewrite <- AE in Q. apply lastAt_in in Q. destruct Q as [Q N].
    assert (IT : In (a, v) (acts tr)).
    { apply acts_in in Q. destruct Q as (m & M & A & V). apply acts_in. exists m. split; [|auto]. eapply Permutation_in; [exact PM|]. apply in_concat. eauto. }
    destruct (lastAt_some a x _ v IT N) as [w LW]. apply (LG t g a x w I) in LW. apply (store_found _ _ a x w (head_fresh pf (tok toks (i + 1)) (tok toks (i + 2))) (kind_action _ _ _ I) GA) in LW. congruence.
Qed.
Print Assumptions C48_loose_guarded.

Theorem C48_refused_guarded : forall toks pf np i items p stop v e j,
    ended toks -> 0 < np -> word (tok toks (i + 1)) -> word (tok toks (i + 2)) -> refused toks pf i items p ->
    clean toks stop -> tok toks stop = b "/end MODULE" -> p < stop -> ~ border np (i + 2) stop p -> complete toks pf np (i + 2) stop items ->
    parallel toks pf np i v e j -> e = true.
Proof.
  intros toks pf np i items p stop v e j EN NP W1 W2 (d & t & g & a & v' & j' & -> & C & I & T & R') CL TE LP NB TD PAR. pose proof (header_words toks i W1 W2) as HW.
  pose proof (nested_bounds toks pf EN _ _ _ C) as [B1 B2].
  assert (FE : firstEnd toks 0 = stop) by (apply (firstEnd_at toks 0 stop); [intros q Q; apply (CL q Q)|exact TE]).
  destruct PAR as [o e start H1 H2|o e start stop' outs s H1 H2 H3 F2 ST FI]; [reflexivity|].
  rewrite HW in H1. injection H1 as <- <- <-. rewrite FE in H2. subst stop'.
  destruct (share_exists np (i + 2) stop NP ltac:(lia) (S d) ltac:(lia)) as (k & K1 & K2 & K3).
  assert (KH : S d <= maxIndex np (i + 2) stop k).
  { unfold maxIndex, minIndex. destruct (Nat.eqb_spec (S k) np) as [EQ|NE]; [lia|]. destruct K3 as [K3|K3]; [contradiction|].
    assert (S d <> i + 2 + (stop - (i + 2)) / np * S k) by (intros Z; apply NB; exists (S k); split; [lia|exact Z]). lia. }
  assert (RE : exists rest, restOf toks pf items (minIndex np (i + 2) stop k) rest).
  { destruct (lo_border np (i + 2) stop NP ltac:(lia) k K1) as [Z|Z]; [|eapply rest_exists; eauto]. exists []. right. split; [|reflexivity]. intros x X CU. unfold cuts in CU. specialize (B2 x X). lia. }
  destruct RE as [rest R].
  assert (EI : exists out, In out outs /\ In anError out).
  { assert (IK : In k (seq 0 np)) by (apply in_seq; lia). destruct (F2_in_l _ _ _ _ _ F2 k IK) as (out & O1 & O2). exists out. split; [exact O1|].
    destruct (behind_all toks pf EN (i + 2) items d (minIndex np (i + 2) stop k) rest C ltac:(unfold minIndex; lia) R) as (l & NL & _).
    destruct (refused_worker toks pf EN (maxIndex np (i + 2) stop k) d (minIndex np (i + 2) stop k) l t g a v' j' NL I T R' (fun q Q => CL q ltac:(lia)) KH) as (out' & L' & S').
    rewrite (loops_fun toks pf _ _ _ _ O2 (loopsAt_loops toks pf _ _ _ L')). exact S'. }
  assert (PR : forall l m, In l outs -> In m l -> In (fst m) closing) by exact (outs_proper toks pf EN np (i + 2) stop outs NP FE ltac:(lia) F2).
  assert (IV : inv closing outs s).
  { eapply inv_steps; [|exact ST]. apply inv_init; [exact closing_nodup|exact PR]. }
  destruct (fan_final _ _ _ _ IV FI) as (tr & SH & GT); [discriminate|]. pose proof (shuffle_perm _ _ _ SH) as PM.
  rewrite GT by (left; reflexivity). destruct EI as (out & I1 & I2).
  assert (IT : In anError tr) by (eapply Permutation_in; [exact PM|]; apply in_concat; eauto).
  assert (IE : In (VStr []) (on errChan tr)).
  { unfold on. apply (in_map snd _ anError). apply filter_In. split; [exact IT|reflexivity]. }
  destruct (on errChan tr); [destruct IE|reflexivity].
Qed.
Print Assumptions C48_refused_guarded.

(** ** Modules that the guard of C48_quiet_guarded allows *)
(** Every frame that is read without an error ends before the file does. *)
Definition framed (toks : list bytes) (pf : bytes -> option spec_float) (start stop : nat) : Prop :=
  forall q v j, start < q < stop -> tok toks q = b "/begin FRAME" -> returns toks pf parseFrame q v false j -> S j < length toks.
Definition framesCheck : bool :=
  forallb (fun k => match kndFn (fst (snd k)) with Whole true => String.eqb (fst k) "/begin FRAME" && sameFn (fst (snd k)) parseFrame | _ => true end) kinds.
Lemma frames_check : framesCheck = true. Proof. vm_compute. reflexivity. Qed.

Section Verdict.
  Variable toks : list bytes.
  Variable pf : bytes -> option spec_float.
  Hypothesis CL : A2lNestSpec.closed toks.
  Hypothesis RJ : A2lNestSpec.rejects pf.
  Variables start stop : nat.
  Hypothesis TE : tok toks stop = b "/end MODULE".
  Hypothesis FR : framed toks pf start stop.
  Hypothesis QU : quiet toks pf start stop.

  Lemma kind_inside : forall t g a p v j, In (t, (g, a)) kinds -> start < p < stop -> tok toks p = b t -> returns toks pf g p v false j -> p <= j < stop /\ behind toks pf p (S j).
  Proof.
    intros t g a p v j I P T R. pose proof (closed_ended _ CL) as EN.
    pose proof (returns_after toks pf EN _ _ _ _ _ _ I (tok_length toks _ _ _ _ I T) R) as RA.
    assert (B : behind toks pf p (S j)).
    { destruct (Nat.eq_dec (S j) (length toks)) as [Z|Z]; [|eapply kind_behind; eauto; lia].
      pose proof (proj1 (forallb_forall _ _) kinds_check _ I) as K. cbn [fst snd] in K.
      assert (U : existsb (fun u => String.eqb t ("/begin " ++ fst u) && sameFn g (snd u)) unread = true -> behind toks pf p (S j)).
      { intros H. apply existsb_exists in H. destruct H as ([x g'] & X & E). cbn [fst snd] in E. apply andb_true_iff in E. destruct E as [E1 E2].
        apply String.eqb_eq in E1. apply same_fn in E2. subst t g'. eapply behind_unread; [exact X|exact T|exact R|lia|]. intros _. exists ("/begin " ++ x)%string, a. auto. }
      pose proof (proj1 (forallb_forall _ _) frames_check _ I) as F. cbn [fst snd] in F.
      destruct (A2lNestProps.length_fuel _ _ _ _ _ _ _ R) as (fuel & FU & C).
      pose proof (knd_sound toks pf fuel CL RJ FU g p v j) as KS. cbv beta in KS.
      assert (LP : S p < length toks).
      { destruct (Nat.eq_dec (S p) (length toks)) as [Y|Y]; [|pose proof (tok_length toks _ _ _ _ I T); lia]. pose proof (tok_length' _ _ _ TE ltac:(discriminate)). lia. }
      specialize (KS LP C).
      destruct (kndFn g) as [last| |]; [|apply U, K|apply U, K]. destruct KS as [(_ & Y & _)|(-> & _)]; [lia|].
      apply andb_true_iff in F. destruct F as [F1 F2]. apply String.eqb_eq in F1. apply same_fn in F2. subst t g.
      specialize (FR p v j P T R). lia. }
    split; [|exact B]. split; [lia|]. destruct (le_lt_dec stop j) as [D|D]; [|exact D]. exfalso.
    apply (proj2 B stop ltac:(lia)); [intros q Q; apply QU; lia|exact TE].
  Qed.

  Lemma scan_module : forall e, stop = S e -> forall n p, n = e - p -> start <= p <= e ->
    (exists items, nestedIn toks pf p e items /\ forall x, In x items -> p < it_from x <= it_to x /\ it_to x < stop /\ behind toks pf (it_from x) (S (it_to x)))
    \/ (exists items d t g a v j, nestedIn toks pf p d items /\ d < e /\ In (t, (g, a)) kinds /\ tok toks (S d) = b t /\ returns toks pf g (S d) v true j
         /\ forall x, In x items -> p < it_from x <= it_to x /\ it_to x < stop /\ behind toks pf (it_from x) (S (it_to x))).
  Proof.
    intros e SE. induction n as [n IH] using lt_wf_ind. intros p N P. pose proof (closed_ended _ CL) as EN.
    destruct (Nat.eq_dec p e) as [->|D]; [left; exists []; split; [constructor|intros x []]|].
    destruct (findKind (tok toks (S p)) kinds) as [[t [g a]]|] eqn:K.
    - apply findKind_some in K. destruct K as [I T]. cbn [fst] in T. pose proof (tok_length toks _ _ _ _ I T) as LP.
      destruct (some_row t g a I) as (r & _ & R2 & _ & R4). pose proof (proj1 (forallb_forall _ _) rows_ok r R4) as OK. cbv beta in OK. rewrite R2 in OK.
      destruct (ok_call toks pf EN g (S p) OK LP) as (v & er & j & J & R).
      assert (RT : returns toks pf g (S p) v er j) by (exists (S (length toks)); exact R). destruct er.
      + right. exists [], p, t, g, a, v, j. split; [constructor|]. split; [lia|]. split; [exact I|]. split; [exact T|]. split; [exact RT|]. intros x [].
      + destruct (kind_inside t g a (S p) v j I ltac:(lia) T RT) as [JB BH].
        destruct (IH (e - j) ltac:(lia) j eq_refl ltac:(lia)) as [(items & NI & X)|(items & d & t' & g' & a' & v' & j' & NI & LD & I' & T' & R' & X)].
        * left. exists (Item (S p) j a v :: items). split; [eapply NestObj; eauto|]. intros x [<-|Y]; [cbn; split; [lia|]; split; [lia|exact BH]|]. specialize (X x Y). destruct X as (X1 & X2 & X3). split; [lia|]. auto.
        * right. exists (Item (S p) j a v :: items), d, t', g', a', v', j'. split; [eapply NestObj; eauto|]. repeat (split; [assumption|]).
          intros x [<-|Y]; [cbn; split; [lia|]; split; [lia|exact BH]|]. specialize (X x Y). destruct X as (X1 & X2 & X3). split; [lia|]. auto.
    - apply findKind_none in K.
      destruct (IH (e - S p) ltac:(lia) (S p) eq_refl ltac:(lia)) as [(items & NI & X)|(items & d & t' & g' & a' & v' & j' & NI & LD & I' & T' & R' & X)].
      + left. exists items. split; [apply NestOther; assumption|]. intros x Y. destruct (X x Y) as (X1 & X2 & X3). split; [lia|]. auto.
      + right. exists items, d, t', g', a', v', j'. split; [apply NestOther; assumption|]. repeat (split; [assumption|]). intros x Y. destruct (X x Y) as (X1 & X2 & X3). split; [lia|]. auto.
  Qed.

  Lemma behind_complete : forall items, (forall x, In x items -> start < it_from x <= it_to x /\ it_to x < stop /\ behind toks pf (it_from x) (S (it_to x))) ->
    forall np, complete toks pf np start stop items.
  Proof.
    intros items X np p x _ Y (CU1 & CU2). destruct (X x Y) as (X1 & X2 & X3). apply (proj1 X3 (fun k K => QU k ltac:(lia)) p (it_to x) eq_refl). lia.
  Qed.
End Verdict.

(** A module up to the first token that ends a module: either every object of it is
    read by its parser, or there is a first one that is refused. *)
Theorem C48_verdict : forall toks pf i stop,
    A2lNestSpec.closed toks -> A2lNestSpec.rejects pf -> word (tok toks (i + 1)) -> word (tok toks (i + 2)) -> i + 2 < stop ->
    tok toks stop = b "/end MODULE" -> quiet toks pf (i + 2) stop -> framed toks pf (i + 2) stop ->
    (exists items, loosely toks pf i items stop /\ forall np, complete toks pf np (i + 2) stop items)
    \/ (exists items p, refused toks pf i items p /\ p < stop /\ forall np, complete toks pf np (i + 2) stop items).
Proof.
  intros toks pf i stop CL RJ W1 W2 L TE QU FR. destruct stop as [|e]; [lia|].
  destruct (scan_module toks pf CL RJ (i + 2) (S e) TE FR QU e eq_refl _ (i + 2) eq_refl ltac:(lia)) as [(items & NI & X)|(items & d & t & g & a & v & j & NI & LD & I & T & R & X)].
  - left. exists items. split; [|apply behind_complete; assumption]. split; [exact W1|]. split; [exact W2|]. split; [exists e; auto|exact TE].
  - right. exists items, (S d). split; [exists d, t, g, a, v, j; auto 6|]. split; [lia|apply behind_complete; assumption].
Qed.
Print Assumptions C48_verdict.

Lemma nested_excludes : forall toks pf i e l, ended toks -> nestedIn toks pf i e l -> forall d l' t g a v j, nestedIn toks pf i d l' -> d < e -> In (t, (g, a)) kinds -> tok toks (S d) = b t -> ~ returns toks pf g (S d) v true j.
Proof.
  intros toks pf i e l EN H. induction H as [e|i e l N H IH|i t g a v j e l I T R H IH]; intros d l' t' g' a' v' j' M LD I' T' R'.
  - pose proof (nested_bounds toks pf EN _ _ _ M) as [B _]. lia.
  - inversion M as [|? ? ? NB M'|? t1 g1 a1 v1 j1 ? ? I1 T1 R1 M']; subst.
    + exact (N (kind_begins _ _ _ _ I' T')).
    + exact (IH _ _ _ _ _ _ _ M' LD I' T' R').
    + exact (N (kind_begins _ _ _ _ I1 T1)).
  - inversion M as [|? ? ? NB M'|? t1 g1 a1 v1 j1 ? ? I1 T1 R1 M']; subst.
    + destruct (same_kind _ _ _ _ _ _ _ I I' T T') as (-> & -> & ->). destruct (returns_fun _ _ _ _ _ _ _ _ _ _ R R') as (_ & E & _). discriminate E.
    + exact (NB (kind_begins _ _ _ _ I T)).
    + destruct (same_kind _ _ _ _ _ _ _ I I1 T T1) as (-> & -> & ->). destruct (returns_fun _ _ _ _ _ _ _ _ _ _ R R1) as (-> & _ & ->). exact (IH _ _ _ _ _ _ _ M' LD I' T' R').
Qed.

(** If no border falls on a token that begins an object, the parallel parser reports an
    error if and only if a parser refuses an object of the module: unlike the
    sequential one, it takes every other token between the objects. *)
Theorem C48_error_iff : forall toks pf np i stop v e j,
    A2lNestSpec.closed toks -> A2lNestSpec.rejects pf -> 0 < np -> word (tok toks (i + 1)) -> word (tok toks (i + 2)) -> i + 2 < stop ->
    (forall q, q < stop -> tok toks q <> b "/end MODULE") -> tok toks stop = b "/end MODULE" -> quiet toks pf (i + 2) stop -> framed toks pf (i + 2) stop ->
    (forall p, border np (i + 2) stop p -> ~ begins (tok toks p)) ->
    parallel toks pf np i v e j ->
    (e = true <-> exists items p, refused toks pf i items p /\ p < stop).
Proof.
  intros toks pf np i stop v e j CL RJ NP W1 W2 L FE TE QU FR NB P. pose proof (closed_ended _ CL) as EN.
  assert (CN : clean toks stop) by (intros q Q; split; [apply FE, Q|apply closed_empty; [exact CL|pose proof (tok_length' _ _ _ TE ltac:(discriminate)); lia]]).
  destruct (C48_verdict toks pf i stop CL RJ W1 W2 L TE QU FR) as [(items & LO & CO)|(items & p & RF & LP & CO)].
  - destruct (C48_loose_guarded toks pf np i items stop v e j EN NP LO CN (CO np) P) as (-> & _). split; [discriminate|].
    intros (l & p & (d & t & g & a & v' & j' & -> & M & I & T & R) & LP). exfalso. destruct LO as (_ & _ & (d' & -> & N) & _).
    eapply nested_excludes; [exact EN|exact N|exact M| |exact I|exact T|exact R]. lia.
  - split; [intros _; exists items, p; auto|]. intros _. eapply C48_refused_guarded; eauto. intros B. apply (NB p B).
    destruct RF as (d & t & g & a & v' & j' & -> & M & I & T & R). eapply kind_begins; eauto.
Qed.
Print Assumptions C48_error_iff.

(** ** The theorems apply: an unexpected keyword between a group and the end of the
    module, which the sequential parser does not take and the parallel one does. *)
Definition looseToks : list bytes := map b ["/begin MODULE"; "M"; "L"; "/begin GROUP"; "G"; "a"; "/end GROUP"; "/end UNIT"; "w"; "/end MODULE"; ""]%string.
Definition looseItems : list item := [Item 3 6 (Put_ "Groups" "groupName") (readOr looseToks parseGroup 3)].
Lemma not_kind : forall t, findKind t kinds = None -> ~ begins t. Proof. intros t. apply findKind_none. Qed.
Example C48_loose_example : A2lNestSpec.closed looseToks /\ A2lNestSpec.rejects StrconvModel.ParseFloat
  /\ word (tok looseToks 1) /\ word (tok looseToks 2) /\ (forall q, q < 9 -> tok looseToks q <> b "/end MODULE") /\ tok looseToks 9 = b "/end MODULE"
  /\ (forall p, border 2 2 9 p -> ~ begins (tok looseToks p))
  /\ forall pf, quiet looseToks pf 2 9 /\ framed looseToks pf 2 9 /\ loosely looseToks pf 0 looseItems 9 /\ stray looseToks pf 2 looseItems 7
     /\ (exists v j, returns looseToks pf parseModule 0 v true j) /\ exists v e j, parallel looseToks pf 2 0 v e j.
Proof.
  assert (CL : A2lNestSpec.closed looseToks).
  { exists (firstn 10 looseToks). split; [reflexivity|]. cbn. intros H. repeat (destruct H as [H|H]; [discriminate H|]). exact H. }
  split; [exact CL|]. split; [exact FloatTextProps.C87_keywords|]. split; [aWord|]. split; [aWord|].
  split; [intros q Q; do 9 (destruct q as [|q]; [discriminate|]); lia|]. split; [reflexivity|].
  split; [intros p B; apply border_two in B; subst p; apply not_kind; vm_compute; reflexivity|].
  intros pf. split; [|split; [|split; [|split; [|split]]]].
  - intros i L x g v j X T. exfalso. cbn [In unread] in X. repeat (destruct X as [E|X]; [injection E as <- <-|]); try contradiction;
      do 9 (destruct i as [|i]; [first [clear - L; lia|vm_compute in T; discriminate T]|]); clear - L; lia.
  - intros q v j L T. exfalso. do 9 (destruct q as [|q]; [first [clear - L; lia|vm_compute in T; discriminate T]|]). clear - L; lia.
  - split; [aWord|]. split; [aWord|]. split; [|reflexivity]. exists 8. split; [reflexivity|]. unfold looseItems.
    eapply (NestObj looseToks pf 2 "/begin GROUP"%string); [inKinds|reflexivity|apply (returns_run 50); vm_compute; reflexivity|].
    do 2 (apply NestOther; [apply not_kind; vm_compute; reflexivity|]). constructor.
  - unfold looseItems. eapply (StrayObj looseToks pf 2 "/begin GROUP"%string); [inKinds|reflexivity|apply (returns_run 50); vm_compute; reflexivity|].
    apply StrayHere. right. split; [reflexivity|]. split; [apply not_kind; vm_compute; reflexivity|discriminate].
  - eexists. eexists. apply (returns_run 50). vm_compute. reflexivity.
  - apply C48_total; [apply closed_ended, CL|lia|cbn; lia].
Qed.

(** A group that its parser refuses, after an unexpected keyword. *)
Definition refusedToks : list bytes := map b ["/begin MODULE"; "M"; "L"; "/end UNIT"; "/begin GROUP"; "G"; "a"; "/begin UNIT"; "/end GROUP"; "/end MODULE"; ""]%string.
Example C48_refused_example : ended refusedToks /\ word (tok refusedToks 1) /\ word (tok refusedToks 2) /\ clean refusedToks 9 /\ tok refusedToks 9 = b "/end MODULE" /\ ~ border 2 2 9 4
  /\ forall pf, refused refusedToks pf 0 [] 4 /\ complete refusedToks pf 2 2 9 [] /\ exists v e j, parallel refusedToks pf 2 0 v e j.
Proof.
  assert (EN : ended refusedToks) by (eexists (firstn 10 refusedToks); reflexivity).
  split; [exact EN|]. split; [aWord|]. split; [aWord|]. split; [intros p P; do 9 (destruct p as [|p]; [split; discriminate|]); lia|]. split; [reflexivity|].
  split; [intros B; apply border_two in B; discriminate B|]. intros pf. split; [|split; [intros p x _ []|apply C48_total; [exact EN|lia|cbn; lia]]].
  exists 3, "/begin GROUP"%string. do 4 eexists. split; [reflexivity|]. split; [|split; [inKinds|split; [reflexivity|apply (returns_run 50); vm_compute; reflexivity]]].
  apply NestOther; [apply not_kind; vm_compute; reflexivity|constructor].
Qed.
