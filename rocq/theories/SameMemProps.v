(** C97: what is read does not depend on how the memory is cut into records. *)
From Coq Require Import String Ascii List Arith NArith Bool Lia SpecFloat Permutation.
From Verif Require Import GoBase ConcModel HexSpec HexParts IhexSpec IhexModel IhexThm IhexProps SrecModel SrecProofs SrecSpec SrecThm SrecProps SameMemSpec.
From Verif Require Import CalibModel CalibFileModel A2lIR A2lTripSpec A2lTripThm A2lTripProps ValuesModel TreeModel TreeThm FilesSpec FilesThm FilesProps.
Import ListNotations.

Lemma reads_file : forall f np text img, (0 < np)%nat -> hexFile f text img ->
    always (hexRead f np text) (fun r => (NoDup (map fst img) -> exists m, r = Ok (m, None) /\ map_is m img)
        /\ (~ NoDup (map fst img) -> exists m a v0 v, r = Ok (m, Some (ECollision a v0 v)) /\ exists pre post, img = pre ++ (a, v) :: post /\ In (a, v0) pre)).
Proof.
  intros f np text img NP H. destruct H as [t items OK Z|t items tail OK TL]; cbn [hexRead].
  - destruct (C08_collisions_guarded np t items NP OK Z) as [E R]. split; [exact E|]. intros r HR. split; intros N.
    + destruct (ihex_round_trip np t items NP OK Z N) as [_ R']. exact (R' r HR).
    + destruct (proj2 (R r HR) N) as (m & a & v0 & v & pre & post & E1 & E2 & E3 & _). exists m, a, v0, v. split; [exact E1|]. exists pre, post. auto.
  - destruct (C18_collisions np t items tail NP OK TL) as [E R]. split; [exact E|]. intros r HR. split; intros N.
    + destruct (C15_srec_round_trip np t items tail NP OK TL N) as [_ R']. exact (R' r HR).
    + destruct (proj2 (R r HR) N) as (m & a & v0 & v & pre & post & E1 & E2 & E3 & _). exists m, a, v0, v. split; [exact E1|]. exists pre, post. auto.
Qed.
Lemma maps_agree : forall m1 m2 img1 img2, map_is m1 img1 -> map_is m2 img2 -> (forall x, In x img1 <-> In x img2) -> agree m1 m2.
Proof.
  intros m1 m2 img1 img2 M1 M2 E a. destruct (lookup a m1) as [v|] eqn:L1.
  - symmetry. apply M2, E, M1. exact L1.
  - destruct (lookup a m2) as [v|] eqn:L2; [|reflexivity]. apply M2, E, M1 in L2. congruence.
Qed.
Lemma nodup_dec : forall l : list N, {NoDup l} + {~ NoDup l}.
Proof.
  induction l as [|x l [IH|IH]]; [left; constructor| |right; intros H; inversion H; auto].
  destruct (in_dec N.eq_dec x l) as [I|I]; [right; intros H; inversion H; auto|left; constructor; assumption].
Qed.

(** Two files of the same bytes, on whatever machines and under whatever schedules:
    both are read, with the same result, or both are refused because of an address
    that occurs twice. *)
Theorem C97_same_memory : forall f1 f2 np1 np2 text1 text2 img1 img2, (0 < np1)%nat -> (0 < np2)%nat ->
    hexFile f1 text1 img1 -> hexFile f2 text2 img2 -> Permutation img1 img2 ->
    always (hexRead f1 np1 text1) (fun r1 => always (hexRead f2 np2 text2) (fun r2 =>
      (NoDup (map fst img1) /\ exists m1 m2, r1 = Ok (m1, None) /\ r2 = Ok (m2, None) /\ agree m1 m2 /\ map_is m1 img1)
      \/ (~ NoDup (map fst img1) /\ exists m1 m2 a1 v1 w1 a2 v2 w2, r1 = Ok (m1, Some (ECollision a1 v1 w1)) /\ r2 = Ok (m2, Some (ECollision a2 v2 w2))))).
Proof.
  intros f1 f2 np1 np2 text1 text2 img1 img2 N1 N2 H1 H2 P.
  destruct (reads_file f1 np1 text1 img1 N1 H1) as [E1 R1]. destruct (reads_file f2 np2 text2 img2 N2 H2) as [E2 R2].
  assert (ND : NoDup (map fst img1) <-> NoDup (map fst img2)).
  { pose proof (Permutation_map fst P) as Q. split; intros K; [exact (Permutation_NoDup Q K)|exact (Permutation_NoDup (Permutation_sym Q) K)]. }
  split; [exact E1|]. intros r1 HR1. split; [exact E2|]. intros r2 HR2. destruct (nodup_dec (map fst img1)) as [D|D].
  - left. split; [exact D|]. destruct (proj1 (R1 r1 HR1) D) as (m1 & -> & M1). destruct (proj1 (R2 r2 HR2) (proj1 ND D)) as (m2 & -> & M2). exists m1, m2.
    split; [reflexivity|]. split; [reflexivity|]. split; [|exact M1]. apply (maps_agree m1 m2 img1 img2 M1 M2). intros x. split; intros I; [eapply Permutation_in; [exact P|exact I]|eapply Permutation_in; [apply Permutation_sym; exact P|exact I]].
  - right. split; [exact D|]. destruct (proj2 (R1 r1 HR1) D) as (m1 & a1 & v1 & w1 & -> & _). destruct (proj2 (R2 r2 HR2) (fun K => D (proj2 ND K))) as (m2 & a2 & v2 & w2 & -> & _).
    do 8 eexists. split; reflexivity.
Qed.
Print Assumptions C97_same_memory.

(** ** The lines of an S19 file in another order *)
Lemma sitems_recs_app : forall l1 l2, sitems_recs (l1 ++ l2) = sitems_recs l1 ++ sitems_recs l2.
Proof. induction l1 as [|[up r|l] l1 IH]; intros l2; cbn; [reflexivity|rewrite IH; reflexivity|apply IH]. Qed.
Lemma sitems_perm : forall l1 l2, Permutation l1 l2 -> Permutation (sitems_recs l1) (sitems_recs l2).
Proof.
  intros l1 l2 P. induction P as [|x l1 l2 P IH|x y l|l1 l2 l3 P1 IH1 P2 IH2].
  - constructor.
  - destruct x; cbn; [constructor; exact IH|exact IH].
  - destruct x, y; cbn; [apply perm_swap|apply Permutation_refl|apply Permutation_refl|apply Permutation_refl].
  - exact (Permutation_trans IH1 IH2).
Qed.
Lemma forall_perm : forall A (P : A -> Prop) l1 l2, Permutation l1 l2 -> Forall P l1 -> Forall P l2.
Proof. intros A P l1 l2 E F. apply Forall_forall. intros x I. apply (proj1 (Forall_forall _ _) F). exact (Permutation_in x (Permutation_sym E) I). Qed.

Theorem C97_s19_order : forall np1 np2 t1 t2 items1 items2 tail1 tail2, (0 < np1)%nat -> (0 < np2)%nat -> Permutation items1 items2 ->
    Forall sitem_ok items1 -> Forall not_s3 tail1 -> Forall not_s3 tail2 -> NoDup (map fst (s3image (sitems_recs items1))) ->
    exists m1 m2, always (s_parseFile_exec np1 (sfile t1 items1 tail1)) (fun r => r = Ok (m1, None)) /\ always (s_parseFile_exec np2 (sfile t2 items2 tail2)) (fun r => r = Ok (m2, None)) /\ agree m1 m2.
Proof.
  intros np1 np2 t1 t2 items1 items2 tail1 tail2 N1 N2 P OK T1 T2 ND. pose proof (forall_perm _ _ _ _ P OK) as OK2.
  pose proof (Permutation_flat_map (fun r => placed (s3_addr r) (s3_bytes r)) (sitems_perm _ _ P)) as PI.
  destruct (C97_same_memory S19 S19 np1 np2 _ _ _ _ N1 N2 (s19_file t1 items1 tail1 OK T1) (s19_file t2 items2 tail2 OK2 T2) PI) as [[r1 E1] R1]. cbn [hexRead] in *.
  destruct (R1 r1 E1) as [[r2 E2] R2]. destruct (R2 r2 E2) as [(_ & m1 & m2 & -> & -> & A & _)|(D & _)]; [|contradiction]. exists m1, m2. split; [|split; [|exact A]].
  - split; [exists (Ok (m1, None)); exact E1|]. intros r HR. destruct (C77_srec_schedule_independent np1 (sfile t1 items1 tail1) N1) as (r0 & _ & U). rewrite (U r HR). symmetry. exact (U _ E1).
  - split; [exists (Ok (m2, None)); exact E2|]. intros r HR. destruct (C77_srec_schedule_independent np2 (sfile t2 items2 tail2) N2) as (r0 & _ & U). rewrite (U r HR). symmetry. exact (U _ E2).
Qed.
Print Assumptions C97_s19_order.

(** ** The segments of an Intel hex file in another order *)
Lemma items_recs_app : forall l1 l2, items_recs (l1 ++ l2) = items_recs l1 ++ items_recs l2.
Proof. induction l1 as [|[up r|l] l1 IH]; intros l2; cbn; [reflexivity|rewrite IH; reflexivity|apply IH]. Qed.
Lemma items_recs_map : forall l, items_recs (map (IRec true) l) = l.
Proof. induction l as [|x l IH]; cbn; [reflexivity|rewrite IH; reflexivity]. Qed.
Lemma segments_recs : forall l, items_recs (flat_map segmentItems l ++ [IRec true iend]) = flat_map segmentRecs l ++ [iend].
Proof. induction l as [|s l IH]; [reflexivity|]. cbn [flat_map]. rewrite <- !app_assoc, items_recs_app, IH. unfold segmentItems. rewrite items_recs_map. reflexivity. Qed.
Lemma image_datas : forall u ds rest, image_from u (map (fun d => IData (fst d) (snd d)) ds ++ rest) = flat_map (fun d => placed (65536 * u + fst d) (snd d)) ds ++ image_from u rest.
Proof. induction ds as [|d ds IH]; intros rest; [reflexivity|]. cbn [map app image_from flat_map]. rewrite IH, app_assoc. reflexivity. Qed.
Lemma image_segments : forall l u, image_from u (flat_map segmentRecs l ++ [iend]) = flat_map segmentBytes l.
Proof. induction l as [|s l IH]; intros u; [reflexivity|]. cbn [flat_map]. unfold segmentRecs at 1. cbn [app image_from]. rewrite <- app_assoc, image_datas, IH. reflexivity. Qed.
Lemma upper_nonzero : forall rs u0, (forall u, In (IEla u) rs -> u <> 0%N) -> u0 <> Some 0%N -> forall i, fold_left upper_step (firstn i rs) u0 <> Some 0%N.
Proof.
  induction rs as [|r rs IH]; intros u0 H U i; [rewrite firstn_nil; exact U|]. destruct i as [|i]; [exact U|]. cbn. apply IH; [intros u I; apply H; right; exact I|].
  destruct r; cbn [upper_step]; [exact U| |exact U]. intros K. injection K as K. apply (H u); [left; reflexivity|exact K].
Qed.
Lemma segments_ela : forall l, Forall segment_ok l -> forall u, In (IEla u) (flat_map segmentRecs l ++ [iend]) -> u <> 0%N.
Proof.
  intros l OK u I. apply in_app_or in I. destruct I as [I|[I|[]]]; [|discriminate]. apply in_flat_map in I. destruct I as (s & IS & [E|I]).
  - injection E as <-. pose proof (proj1 (proj1 (Forall_forall _ _) OK s IS)) as [K _]. intros Z. rewrite Z in K. inversion K.
  - apply in_map_iff in I. destruct I as (d & E & _). discriminate.
Qed.
Lemma segments_file : forall t l, Forall segment_ok l -> hexFile IntelHex (segmentsFile t l) (flat_map segmentBytes l).
Proof.
  intros t l OK. rewrite <- (image_segments l 0). change (image_from 0 (flat_map segmentRecs l ++ [iend])) with (image (flat_map segmentRecs l ++ [iend])). rewrite <- segments_recs. constructor.
  - apply Forall_app. split; [|apply items_okb_ok; reflexivity].
    apply Forall_forall. intros x I. apply in_flat_map in I. destruct I as (s & IS & I). destruct (proj1 (Forall_forall _ _) OK s IS) as [U D]. apply in_map_iff in I. destruct I as (r & <- & I). cbn [item_ok]. destruct I as [<-|I].
    + unfold ivalid. cbn [iaddr itype ipayload]. split; [lia|]. split; [lia|]. split; [|split; [cbn; lia|lia]].
      constructor; [apply N.div_lt_upper_bound; lia|]. constructor; [apply N.mod_lt; lia|constructor].
    + apply in_map_iff in I. destruct I as (d & <- & I). destruct (proj1 (Forall_forall _ _) D d I) as (D1 & D2 & D3 & D4). unfold ivalid. cbn [iaddr itype ipayload]. split; [exact D1|]. split; [lia|]. split; [exact D2|]. split; [lia|exact D4].
  - rewrite segments_recs. intros i j a1 b1 a2 b2 u _ _ U _ _. exfalso. revert U. unfold upper. apply upper_nonzero; [apply segments_ela, OK|discriminate].
Qed.

Theorem C97_intel_segments : forall np1 np2 t1 t2 l1 l2, (0 < np1)%nat -> (0 < np2)%nat -> Permutation l1 l2 -> Forall segment_ok l1 -> NoDup (map fst (flat_map segmentBytes l1)) ->
    exists m1 m2, always (parseFile_exec np1 (segmentsFile t1 l1)) (fun r => r = Ok (m1, None)) /\ always (parseFile_exec np2 (segmentsFile t2 l2)) (fun r => r = Ok (m2, None)) /\ agree m1 m2.
Proof.
  intros np1 np2 t1 t2 l1 l2 N1 N2 P OK ND. pose proof (forall_perm _ _ _ _ P OK) as OK2.
  destruct (C97_same_memory IntelHex IntelHex np1 np2 _ _ _ _ N1 N2 (segments_file t1 l1 OK) (segments_file t2 l2 OK2) (Permutation_flat_map segmentBytes P)) as [[r1 E1] R1]. cbn [hexRead] in *.
  destruct (R1 r1 E1) as [[r2 E2] R2]. destruct (R2 r2 E2) as [(_ & m1 & m2 & -> & -> & A & _)|(D & _)]; [|contradiction]. exists m1, m2. split; [|split; [|exact A]].
  - split; [exists (Ok (m1, None)); exact E1|]. intros r HR. destruct (C03_schedule_independent np1 (segmentsFile t1 l1) N1) as (r0 & _ & U). rewrite (U r HR). symmetry. exact (U _ E1).
  - split; [exists (Ok (m2, None)); exact E2|]. intros r HR. destruct (C03_schedule_independent np2 (segmentsFile t2 l2) N2) as (r0 & _ & U). rewrite (U r HR). symmetry. exact (U _ E2).
Qed.
Print Assumptions C97_intel_segments.

(** With a segment whose upper half is 0000 the order of the segments does matter:
    the byte 2 of the address 10010 is found there, or under the address 0010. *)
Theorem C97_zero_segment_refuted : exists t l1 l2 m1 m2, Permutation l1 l2 /\ NoDup (map fst (flat_map segmentBytes l1))
    /\ always (parseFile_exec 1 (segmentsFile t l1)) (fun r => r = Ok (m1, None)) /\ always (parseFile_exec 1 (segmentsFile t l2)) (fun r => r = Ok (m2, None))
    /\ lookup 65552 m1 = Some 2%N /\ lookup 65552 m2 = None /\ lookup 16 m1 = None /\ lookup 16 m2 = Some 2%N.
Proof.
  exists Unix, [(1, [(16, [2])]); (0, [(0, [1])])]%N, [(0, [(0, [1])]); (1, [(16, [2])])]%N. eexists. eexists. split; [apply perm_swap|]. split; [apply nodupb_ok; reflexivity|].
  split; [apply run_is; vm_compute; reflexivity|]. split; [apply run_is; vm_compute; reflexivity|]. split; [reflexivity|]. split; [reflexivity|]. split; reflexivity.
Qed.
Print Assumptions C97_zero_segment_refuted.

(** ** Both files *)
Theorem C97_calibration : forall gr pf cpus1 cpus2 ts path1 path2 content1 content2 img1 img2 r1 r2, (0 < cpus1)%nat -> (0 < cpus2)%nat ->
    a2lText gr pf cpus1 ts -> a2lText gr pf cpus2 ts -> hexText path1 content1 img1 -> hexText path2 content2 img2 -> Permutation img1 img2 ->
    calibration gr pf cpus1 true (Some (write ts)) path1 (Some content1) r1 -> calibration gr pf cpus2 true (Some (write ts)) path2 (Some content2) r2 ->
    exists a1 a2 m1 m2, r1 = RReturned (CD (Some a1) (Some m1)) None /\ r2 = RReturned (CD (Some a2) (Some m2)) None /\
      agree m1 m2 /\ forall n, alike (calibOf a1 n m1) (calibOf a2 n m2).
Proof.
  intros gr pf cpus1 cpus2 ts path1 path2 content1 content2 img1 img2 r1 r2 C1 C2 A1 A2 H1 H2 P R1 R2.
  destruct (files_read gr pf cpus1 ts path1 content1 img1 C1 A1 H1) as (a & D & _ & F1). destruct (files_read gr pf cpus2 ts path2 content2 img2 C2 A2 H2) as (a' & D' & _ & F2).
  assert (a' = a) as -> by (eapply C69_unique; eauto).
  destruct (F1 r1 R1) as (a1 & m1 & -> & S1 & M1), (F2 r2 R2) as (a2 & m2 & -> & S2 & M2). exists a1, a2, m1, m2. split; [reflexivity|]. split; [reflexivity|].
  assert (HX : agree m1 m2).
  { apply (maps_agree m1 m2 img1 img2 M1 M2). intros x. split; intros I; [exact (Permutation_in x P I)|exact (Permutation_in x (Permutation_sym P) I)]. }
  split; [exact HX|]. intros n. apply alike_trans with (calibOf a n m1); [apply alike_sym, same_alike, S1|].
  apply alike_trans with (calibOf a n m2); [|apply same_alike, S2]. apply same_alike. destruct (sameCalib_refl (calibOf a n m1)) as [_ K]. split; [exact HX|exact K].
Qed.
Print Assumptions C97_calibration.

(** An Intel hex file of two segments and the S19 file of the same bytes, cut into
    other records that stand in another order. *)
Example C97_example : let l := [(1, [(16, [1; 2; 3]); (8, [4])]); (2, [(0, [5])])]%N in
    let items := [SItem false (SD 131072 [5]); SItem true (SD 65553 [2; 3]); SItem true (SD 65544 [4]); SItem true (SD 65552 [1])]%N in
    hexFile IntelHex (segmentsFile Dos l) (flat_map segmentBytes l) /\ hexFile S19 (sfile Unix items [b "S70500000000FA"]) (s3image (sitems_recs items))
    /\ Permutation (flat_map segmentBytes l) (s3image (sitems_recs items)) /\ NoDup (map fst (flat_map segmentBytes l))
    /\ exists m1 m2, always (parseFile_exec 3 (segmentsFile Dos l)) (fun r => r = Ok (m1, None)) /\ always (s_parseFile_exec 2 (sfile Unix items [b "S70500000000FA"])) (fun r => r = Ok (m2, None)) /\ lookup 65553 m1 = Some 2%N /\ lookup 65553 m2 = Some 2%N.
Proof.
  intros l items. split; [|split; [|split; [|split]]].
  - apply segments_file. repeat (constructor || discriminate).
  - constructor; [apply sitems_okb_ok; reflexivity|]. constructor; [|constructor]. split; [apply no_eolb_ok; reflexivity|discriminate].
  - apply NoDup_Permutation; [apply (NoDup_map_inv fst), nodupb_ok; reflexivity|apply (NoDup_map_inv fst), nodupb_ok; reflexivity|]. intros x. cbn. intuition.
  - apply nodupb_ok; reflexivity.
  - eexists. eexists. split; [apply run_is; vm_compute; reflexivity|]. split; [apply s_run_is; vm_compute; reflexivity|]. split; reflexivity.
Qed.
