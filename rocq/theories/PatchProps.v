(** C103: a hex file in which one record has other bytes. *)
From Coq Require Import String Ascii List Arith NArith Bool Lia.
From Verif Require Import GoBase GoBaseFacts ConcModel HexSpec HexSpecFacts HexParts IhexSpec IhexModel IhexProofs IhexMain IhexThm IhexProps SrecModel SrecProofs SrecSpec SrecThm SrecProps SameMemSpec SameMemProps JoinProps.
Import ListNotations.

(** ** What should come out *)

(** The addresses of [n] bytes from [base] on. *)
Definition covers (base : N) (n : nat) (x : N) : Prop := (base <= x < base + N.of_nat n)%N.

(** The memory [m] in which the bytes [bs] at [base] have become [bs']. *)
Definition patched (base : N) (bs bs' : list N) (m m' : gomap) : Prop :=
  (forall k v, nth_error bs' k = Some v -> lookup (base + N.of_nat k) m' = Some v) /\
  (forall x, covers base (List.length bs) x -> ~ covers base (List.length bs') x -> lookup x m' = None) /\
  (forall x, ~ covers base (List.length bs) x -> ~ covers base (List.length bs') x -> lookup x m' = lookup x m).

(** That memory, or the error that a byte is put to an address in use; the latter only behind the bytes [bs]. *)
Definition patchedOr (base : N) (bs bs' : list N) (m : gomap) (r : outcome herr hres) : Prop :=
  (exists m', r = Ok (m', None) /\ patched base bs bs' m m') \/
  exists m' x v w, r = Ok (m', Some (ECollision x v w)) /\ covers base (List.length bs') x /\ ~ covers base (List.length bs) x /\ lookup x m <> None.

(** The upper half of the addresses after some records. *)
Inductive upperAfter : list irec -> N -> Prop :=
| upper_none rs : (forall u, ~ In (IEla u) rs) -> upperAfter rs 0
| upper_last pre u post : (forall w, ~ In (IEla w) post) -> upperAfter (pre ++ IEla u :: post) u.

(** ** Images *)

Lemma placed_fst : forall bs a x, In x (map fst (placed a bs)) <-> covers a (List.length bs) x.
Proof.
  unfold covers. induction bs as [|v bs IH]; intros a x; cbn [placed map fst In List.length]; [lia|]. rewrite IH. lia.
Qed.
Lemma placed_nodup : forall bs a, NoDup (map fst (placed a bs)).
Proof.
  induction bs as [|v bs IH]; intros a; cbn [placed map fst]; constructor; [|apply IH]. rewrite placed_fst. unfold covers. lia.
Qed.
Lemma patched_image : forall I1 I2 base bs bs' m r, NoDup (map fst (I1 ++ placed base bs ++ I2)) -> map_is m (I1 ++ placed base bs ++ I2) ->
    (NoDup (map fst (I1 ++ placed base bs' ++ I2)) -> exists m', r = Ok (m', None) /\ map_is m' (I1 ++ placed base bs' ++ I2)) ->
    (~ NoDup (map fst (I1 ++ placed base bs' ++ I2)) -> exists m' a v0 v, r = Ok (m', Some (ECollision a v0 v)) /\ exists pre post, I1 ++ placed base bs' ++ I2 = pre ++ (a, v) :: post /\ In (a, v0) pre) ->
    patchedOr base bs bs' m r.
Proof.
  intros I1 I2 base bs bs' m r D M R1 R2.
  pose proof (fun x => proj1 (NoDup_count_occ N.eq_dec _) D x) as CD.
  assert (CO : forall x cs, count_occ N.eq_dec (map fst (I1 ++ placed base cs ++ I2)) x = count_occ N.eq_dec (map fst I1) x + count_occ N.eq_dec (map fst (placed base cs)) x + count_occ N.eq_dec (map fst I2) x).
  { intros x cs. rewrite !map_app, !count_occ_app. lia. }
  assert (PC : forall x cs, (covers base (List.length cs) x -> count_occ N.eq_dec (map fst (placed base cs)) x = 1) /\ (~ covers base (List.length cs) x -> count_occ N.eq_dec (map fst (placed base cs)) x = 0)).
  { intros x cs. rewrite <- placed_fst. pose proof (proj1 (NoDup_count_occ N.eq_dec _) (placed_nodup cs base) x) as L. split; intros H.
    - apply (count_occ_In N.eq_dec) in H. lia.
    - apply (count_occ_not_In N.eq_dec) in H. exact H. }
  assert (OUT : forall x cs cs' v, ~ covers base (List.length cs) x -> In (x, v) (I1 ++ placed base cs ++ I2) -> In (x, v) (I1 ++ placed base cs' ++ I2)).
  { intros x cs cs' v N I. rewrite !in_app_iff in *. destruct I as [I|[I|I]]; auto. exfalso. apply N. apply placed_fst. exact (in_map fst _ _ I). }
  destruct (nodup_dec (map fst (I1 ++ placed base bs' ++ I2))) as [D'|D'].
  - left. destruct (R1 D') as (m' & -> & M'). exists m'. split; [reflexivity|]. split; [|split].
    + intros k v K. apply M'. rewrite !in_app_iff. right. left. apply (nth_error_In _ k). apply placed_nth. exact K.
    + intros x C N. destruct (lookup x m') as [v|] eqn:L; [|reflexivity]. exfalso. apply M' in L. apply (OUT _ _ [] _ N) in L. cbn [placed app] in L. apply (in_map fst) in L. apply (count_occ_In N.eq_dec) in L. cbn [fst] in L.
      rewrite map_app, count_occ_app in L. specialize (CD x). rewrite CO, (proj1 (PC x bs) C) in CD. lia.
    + intros x N N'. destruct (lookup x m') as [v|] eqn:L.
      * symmetry. apply M. apply M' in L. exact (OUT _ _ _ _ N' L).
      * destruct (lookup x m) as [v|] eqn:L0; [|reflexivity]. apply M in L0. apply (OUT _ _ bs' _ N), M' in L0. congruence.
  - right. destruct (R2 D') as (m' & x & v0 & v & -> & pre & post & E & I). exists m', x, v0, v. split; [reflexivity|].
    assert (C2 : 2 <= count_occ N.eq_dec (map fst (I1 ++ placed base bs' ++ I2)) x).
    { rewrite E, map_app, count_occ_app. cbn [map fst count_occ]. destruct (N.eq_dec x x) as [_|K]; [|contradiction]. apply (in_map fst) in I. apply (count_occ_In N.eq_dec) in I. cbn [fst] in I. lia. }
    rewrite CO in C2. specialize (CD x). rewrite CO in CD.
    assert (CV : forall n, covers base n x \/ ~ covers base n x) by (intros n; unfold covers; lia).
    destruct (CV (List.length bs')) as [C|C]; [|rewrite (proj2 (PC x bs') C) in C2; lia]. rewrite (proj1 (PC x bs') C) in C2. split; [exact C|].
    split; [intros C'; rewrite (proj1 (PC x bs) C') in CD; lia|]. intros L.
    assert (IN : In x (map fst (I1 ++ placed base bs ++ I2))) by (apply (count_occ_In N.eq_dec); rewrite CO; lia). apply fst_in in IN. destruct IN as [w IN]. apply M in IN. congruence.
Qed.

(** ** Intel HEX *)

Lemma plain_image : forall pre u, (forall w, ~ In (IEla w) pre) -> exists I1, forall rest, image_from u (pre ++ rest) = I1 ++ image_from u rest.
Proof.
  induction pre as [|r pre IH]; intros u N; [exists []; reflexivity|]. destruct (IH u (fun w I => N w (or_intror I))) as (I1 & E). destruct r as [a bs|w|k a bs]; cbn [app image_from].
  - exists (placed (65536 * u + a) bs ++ I1). intros rest. rewrite E, app_assoc. reflexivity.
  - exfalso. exact (N w (or_introl eq_refl)).
  - exists I1. exact E.
Qed.
Lemma split_image : forall pre u, exists I1, forall w post rest, image_from u (pre ++ IEla w :: post ++ rest) = I1 ++ image_from w (post ++ rest).
Proof.
  induction pre as [|r pre IH]; intros u; [exists []; reflexivity|]. destruct r as [a bs|w|k a bs]; cbn [app image_from].
  - destruct (IH u) as (I1 & E). exists (placed (65536 * u + a) bs ++ I1). intros. rewrite E, app_assoc. reflexivity.
  - apply IH.
  - apply IH.
Qed.
Lemma upper_image : forall pre u, upperAfter pre u -> exists I1, forall rest, image (pre ++ rest) = I1 ++ image_from u rest.
Proof.
  intros pre u [rs N|pre' w post N]; [apply plain_image, N|]. destruct (split_image pre' 0) as (I1 & E1). destruct (plain_image post w N) as (I2 & E2). exists (I1 ++ I2). intros rest.
  unfold image. rewrite <- app_assoc. cbn [app]. rewrite E1, E2, app_assoc. reflexivity.
Qed.

(** One data record has other bytes (and the checksum for them): the memory changes at
    the addresses of this record and nowhere else, or they collide with others. *)
Theorem C103_intel_guarded : forall np np' t before up up' a bs bs' after u m, 0 < np -> 0 < np' ->
    Forall item_ok (before ++ IRec up (IData a bs) :: after) -> item_ok (IRec up' (IData a bs')) ->
    (forall w, In (IEla w) (items_recs (before ++ after)) -> w <> 0%N) -> upperAfter (items_recs before) u ->
    parseFile_exec np (ifile t (before ++ IRec up (IData a bs) :: after)) (Ok (m, None)) ->
    always (parseFile_exec np' (ifile t (before ++ IRec up' (IData a bs') :: after))) (patchedOr (65536 * u + a) bs bs' m).
Proof.
  intros np np' t before up up' a bs bs' after u m N N' OK OK' NZ U R.
  assert (NZ2 : forall up0 cs w, In (IEla w) (items_recs (before ++ IRec up0 (IData a cs) :: after)) -> w <> 0%N).
  { intros up0 cs w I. apply (NZ w). rewrite items_app in *. cbn [items_recs] in I. apply in_app_or in I. apply in_or_app. destruct I as [I|[I|I]]; [auto|discriminate I|auto]. }
  apply Forall_app in OK. destruct OK as [OKb OKr]. inversion OKr as [|? ? OKx OKa]; subst.
  assert (OK : Forall item_ok (before ++ IRec up (IData a bs) :: after)) by (apply Forall_app; auto). assert (OK2 : Forall item_ok (before ++ IRec up' (IData a bs') :: after)) by (apply Forall_app; auto).
  destruct (intel_read _ _ _ _ N OK (NZ2 up bs) R) as [D M]. destruct (upper_image _ _ U) as (I1 & EI).
  assert (IM : forall up0 cs, image (items_recs (before ++ IRec up0 (IData a cs) :: after)) = I1 ++ placed (65536 * u + a) cs ++ image_from u (items_recs after)).
  { intros up0 cs. rewrite items_app. cbn [items_recs]. rewrite EI. reflexivity. }
  destruct (reads_file IntelHex np' _ _ N' (intel_file t _ OK2 (nonzero_upper_last _ (NZ2 up' bs')))) as [E G]. split; [exact E|]. intros r HR. destruct (G r HR) as [G1 G2]. rewrite IM in D, M, G1, G2.
  exact (patched_image _ _ _ _ _ _ _ D M G1 G2).
Qed.
Print Assumptions C103_intel_guarded.

(** As many bytes as before: no collision. *)
Theorem C103_intel_same_length_guarded : forall np np' t before up up' a bs bs' after u m, 0 < np -> 0 < np' -> List.length bs' = List.length bs ->
    Forall item_ok (before ++ IRec up (IData a bs) :: after) -> item_ok (IRec up' (IData a bs')) ->
    (forall w, In (IEla w) (items_recs (before ++ after)) -> w <> 0%N) -> upperAfter (items_recs before) u ->
    parseFile_exec np (ifile t (before ++ IRec up (IData a bs) :: after)) (Ok (m, None)) ->
    always (parseFile_exec np' (ifile t (before ++ IRec up' (IData a bs') :: after))) (fun r => exists m', r = Ok (m', None) /\ patched (65536 * u + a) bs bs' m m').
Proof.
  intros np np' t before up up' a bs bs' after u m N N' L OK OK' NZ U R. destruct (C103_intel_guarded np np' t before up up' a bs bs' after u m N N' OK OK' NZ U R) as [E G].
  split; [exact E|]. intros r HR. destruct (G r HR) as [H|(m' & x & v & w & _ & C1 & C2 & _)]; [exact H|]. exfalso. rewrite L in C1. exact (C2 C1).
Qed.
Print Assumptions C103_intel_same_length_guarded.

(** ** S19 *)
Theorem C103_srec : forall np np' t before up up' a bs bs' after tail m, 0 < np -> 0 < np' ->
    Forall sitem_ok (before ++ SItem up (SD a bs) :: after) -> sitem_ok (SItem up' (SD a bs')) -> Forall not_s3 tail ->
    s_parseFile_exec np (sfile t (before ++ SItem up (SD a bs) :: after) tail) (Ok (m, None)) ->
    always (s_parseFile_exec np' (sfile t (before ++ SItem up' (SD a bs') :: after) tail)) (patchedOr a bs bs' m).
Proof.
  intros np np' t before up up' a bs bs' after tail m N N' OK OK' TL R.
  apply Forall_app in OK. destruct OK as [OKb OKr]. inversion OKr as [|? ? OKx OKa]; subst.
  assert (OK : Forall sitem_ok (before ++ SItem up (SD a bs) :: after)) by (apply Forall_app; auto). assert (OK2 : Forall sitem_ok (before ++ SItem up' (SD a bs') :: after)) by (apply Forall_app; auto).
  destruct (s19_read _ _ _ _ _ N OK TL R) as [D M].
  assert (IM : forall up0 cs, s3image (sitems_recs (before ++ SItem up0 (SD a cs) :: after)) = s3image (sitems_recs before) ++ placed a cs ++ s3image (sitems_recs after)).
  { intros up0 cs. rewrite sitems_app. cbn [sitems_recs]. unfold s3image. rewrite flat_map_app. reflexivity. }
  destruct (reads_file S19 np' _ _ N' (s19_file t _ tail OK2 TL)) as [E G]. split; [exact E|]. intros r HR. destruct (G r HR) as [G1 G2]. rewrite IM in D, M, G1, G2.
  exact (patched_image _ _ _ _ _ _ _ D M G1 G2).
Qed.
Print Assumptions C103_srec.
Theorem C103_srec_same_length : forall np np' t before up up' a bs bs' after tail m, 0 < np -> 0 < np' -> List.length bs' = List.length bs ->
    Forall sitem_ok (before ++ SItem up (SD a bs) :: after) -> sitem_ok (SItem up' (SD a bs')) -> Forall not_s3 tail ->
    s_parseFile_exec np (sfile t (before ++ SItem up (SD a bs) :: after) tail) (Ok (m, None)) ->
    always (s_parseFile_exec np' (sfile t (before ++ SItem up' (SD a bs') :: after) tail)) (fun r => exists m', r = Ok (m', None) /\ patched a bs bs' m m').
Proof.
  intros np np' t before up up' a bs bs' after tail m N N' L OK OK' TL R. destruct (C103_srec np np' t before up up' a bs bs' after tail m N N' OK OK' TL R) as [E G].
  split; [exact E|]. intros r HR. destruct (G r HR) as [H|(m' & x & v & w & _ & C1 & C2 & _)]; [exact H|]. exfalso. rewrite L in C1. exact (C2 C1).
Qed.
Print Assumptions C103_srec_same_length.

(** With an upper half 0000 before a nonzero one (C02) the byte is changed somewhere else. *)
Theorem C103_intel_refuted : exists t before a bs bs' after u m m', List.length bs' = List.length bs /\
    Forall item_ok (before ++ IRec true (IData a bs) :: after) /\ Forall item_ok (before ++ IRec true (IData a bs') :: after) /\ upperAfter (items_recs before) u /\
    parseFile_exec 1 (ifile t (before ++ IRec true (IData a bs) :: after)) (Ok (m, None)) /\
    always (parseFile_exec 1 (ifile t (before ++ IRec true (IData a bs') :: after))) (fun r => r = Ok (m', None)) /\
    lookup (65536 * u + a) m' = None /\ lookup a m = Some 2%N /\ lookup a m' = Some 3%N.
Proof.
  exists Unix, [IRec true (IEla 0); IRec true (IData 0 [1]); IRec true (IEla 1)]%N, 16%N, [2]%N, [3]%N, [IRec true iend], 1%N. do 2 eexists. split; [reflexivity|].
  split; [apply items_okb_ok; vm_compute; reflexivity|]. split; [apply items_okb_ok; vm_compute; reflexivity|].
  split; [apply (upper_last [IEla 0; IData 0 [1]]%N 1 []); intros w []|]. split; [apply parseFile_exec_iff; [lia|vm_compute; reflexivity]|].
  split; [apply run_is; vm_compute; reflexivity|]. split; [reflexivity|]. split; reflexivity.
Qed.
Print Assumptions C103_intel_refuted.

(** Two bytes at 0x10010 become one or three others, the latter colliding with the next record. *)
Example C103_example :
  let before := [IRec true (IEla 1)] in let after := [IRec false (IData 18 [7]); IRec true iend]%N in
  let m := [(65554, 7); (65553, 2); (65552, 1)]%N in
  Forall item_ok (before ++ IRec true (IData 16 [1; 2]%N) :: after) /\ item_ok (IRec false (IData 16 [9]%N)) /\ item_ok (IRec false (IData 16 [9; 8]%N)) /\ item_ok (IRec false (IData 16 [9; 8; 5]%N)) /\
  (forall w, In (IEla w) (items_recs (before ++ after)) -> w <> 0%N) /\ upperAfter (items_recs before) 1 /\
  parseFile_exec 2 (ifile Unix (before ++ IRec true (IData 16 [1; 2]%N) :: after)) (Ok (m, None)) /\
  parseFile_exec 3 (ifile Unix (before ++ IRec true (IData 16 [9]%N) :: after)) (Ok ([(65554, 7); (65552, 9)]%N, None)) /\
  (exists m', parseFile_exec 3 (ifile Unix (before ++ IRec true (IData 16 [9; 8; 5]%N) :: after)) (Ok (m', Some (ECollision 65554 5 7)))) /\
  Forall sitem_ok [SItem true (SD 16 [1; 2]); SItem true (SD 18 [7])]%N /\ sitem_ok (SItem false (SD 16 [9; 8]%N)) /\
  s_parseFile_exec 2 (sfile Dos [SItem true (SD 16 [1; 2]); SItem true (SD 18 [7])]%N [s7line 0]) (Ok ([(18, 7); (17, 2); (16, 1)]%N, None)).
Proof.
  cbv zeta. assert (V : forall r, ivalidb r = true -> forall up, item_ok (IRec up r)) by (intros r H up; apply ivalidb_ok, H).
  split; [apply items_okb_ok; vm_compute; reflexivity|]. do 3 (split; [apply V; vm_compute; reflexivity|]).
  split; [intros u I; cbn in I; repeat (destruct I as [I|I]; [first [discriminate I|injection I as <-; discriminate]|]); destruct I|].
  split; [apply (upper_last [] 1 []); intros w []|]. do 2 (split; [apply parseFile_exec_iff; [lia|vm_compute; reflexivity]|]).
  split; [eexists; apply parseFile_exec_iff; [lia|vm_compute; reflexivity]|].
  split; [repeat (constructor; [apply s3validb_ok; vm_compute; reflexivity|]); constructor|]. split; [apply s3validb_ok; vm_compute; reflexivity|]. apply s_parseFile_exec_iff; [lia|vm_compute; reflexivity].
Qed.
