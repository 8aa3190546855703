(** C104: a hex file with one data record more or less. *)
From Coq Require Import String Ascii List Arith NArith Bool Lia.
From Verif Require Import GoBase GoBaseFacts ConcModel HexSpec HexSpecFacts HexParts IhexSpec IhexModel IhexProofs IhexMain IhexThm IhexProps SrecModel SrecProofs SrecSpec SrecThm SrecProps SameMemSpec SameMemProps JoinProps PatchProps.
From Verif Require CalibThm.
Import ListNotations.

(** ** What should come out *)

(** [m'] is [m] together with the bytes [bs] at [base]; in [m] there is nothing at
    these addresses. *)
Definition together (base : N) (bs : list N) (m m' : gomap) : Prop :=
  (forall x, covers base (List.length bs) x -> lookup x m = None) /\
  (forall k v, nth_error bs k = Some v -> lookup (base + N.of_nat k) m' = Some v) /\
  (forall x, ~ covers base (List.length bs) x -> lookup x m' = lookup x m).

Lemma no_cover : forall base x, ~ covers base (List.length (@nil N)) x.
Proof. intros base x. unfold covers. cbn. lia. Qed.

Lemma image_more : forall I1 I2 base bs m (r : outcome herr hres), NoDup (map fst (I1 ++ I2)) -> map_is m (I1 ++ I2) ->
    (NoDup (map fst (I1 ++ placed base bs ++ I2)) -> exists m', r = Ok (m', None) /\ map_is m' (I1 ++ placed base bs ++ I2)) ->
    (~ NoDup (map fst (I1 ++ placed base bs ++ I2)) -> exists m' a v0 v, r = Ok (m', Some (ECollision a v0 v)) /\ exists pre post, I1 ++ placed base bs ++ I2 = pre ++ (a, v) :: post /\ In (a, v0) pre) ->
    ((forall x, covers base (List.length bs) x -> lookup x m = None) -> exists m', r = Ok (m', None) /\ together base bs m m') /\
    ((exists x, covers base (List.length bs) x /\ lookup x m <> None) -> exists m' x v w, r = Ok (m', Some (ECollision x v w)) /\ covers base (List.length bs) x /\ lookup x m <> None).
Proof.
  intros I1 I2 base bs m r D M R1 R2. destruct (patched_image I1 I2 base [] bs m r D M R1 R2) as [(m' & -> & P1 & _ & P3)|(m' & x & v & w & -> & C & _ & L)].
  - assert (NC : forall x, ~ covers base (List.length (@nil N)) x) by (intros; apply no_cover).
    assert (T : forall x, covers base (List.length bs) x -> lookup x m = None).
    { intros x C. destruct (lookup x m) as [v|] eqn:L; [|reflexivity]. exfalso. apply M in L.
      destruct (nodup_dec (map fst (I1 ++ placed base bs ++ I2))) as [D'|D']; [|destruct (R2 D') as (? & ? & ? & ? & E & _); discriminate E].
      apply (proj2 (placed_fst bs base x)) in C. rewrite (NoDup_count_occ N.eq_dec) in D'. specialize (D' x). rewrite !map_app, !count_occ_app in D'.
      apply (count_occ_In N.eq_dec) in C. apply (in_map fst) in L. cbn [fst] in L. rewrite map_app in L. apply (count_occ_In N.eq_dec) in L. rewrite count_occ_app in L. lia. }
    split; [|intros (x & C & L); exfalso; exact (L (T x C))]. intros _. exists m'. split; [reflexivity|]. split; [exact T|]. split; [exact P1|]. intros x NC'. exact (P3 x (NC x) NC').
  - split; [intros T; exfalso; exact (L (T x C))|]. intros _. exists m', x, v, w. auto.
Qed.
Lemma image_less : forall I1 I2 base bs m (r : outcome herr hres), NoDup (map fst (I1 ++ placed base bs ++ I2)) -> map_is m (I1 ++ placed base bs ++ I2) ->
    (NoDup (map fst (I1 ++ I2)) -> exists m', r = Ok (m', None) /\ map_is m' (I1 ++ I2)) ->
    (~ NoDup (map fst (I1 ++ I2)) -> exists m' a v0 v, r = Ok (m', Some (ECollision a v0 v)) /\ exists pre post, I1 ++ I2 = pre ++ (a, v) :: post /\ In (a, v0) pre) ->
    exists m', r = Ok (m', None) /\ together base bs m' m.
Proof.
  intros I1 I2 base bs m r D M R1 R2. destruct (patched_image I1 I2 base bs [] m r D M R1 R2) as [(m' & -> & _ & P2 & P3)|(m' & x & v & w & _ & C & _)]; [|exfalso; exact (no_cover _ _ C)].
  exists m'. split; [reflexivity|]. split; [intros x C; exact (P2 x C (no_cover _ _))|]. split; [|intros x C; symmetry; exact (P3 x C (no_cover _ _))].
  intros k v K. apply M. rewrite !in_app_iff. right. left. apply (nth_error_In _ k). apply placed_nth. exact K.
Qed.

(** ** Intel HEX *)

Lemma intel_images : forall before u, upperAfter (items_recs before) u -> exists I1, forall after, image (items_recs (before ++ after)) = I1 ++ image_from u (items_recs after).
Proof. intros before u U. destruct (upper_image _ _ U) as (I1 & E). exists I1. intros after. rewrite items_app. apply E. Qed.

Lemma more_nonzero : forall before up a bs after, (forall w, In (IEla w) (items_recs (before ++ after)) -> w <> 0%N) ->
    forall w, In (IEla w) (items_recs (before ++ IRec up (IData a bs) :: after)) -> w <> 0%N.
Proof.
  intros before up a bs after NZ w I. apply (NZ w). rewrite items_app in *. cbn [items_recs] in I. apply in_app_or in I. apply in_or_app. destruct I as [I|[I|I]]; [auto|discriminate I|auto].
Qed.

(** A data record is put in anywhere: its bytes come to the memory that was read
    without it; there is an error if and only if one of the addresses is in use. *)
Theorem C104_intel_more_guarded : forall np np' t before up a bs after u m, 0 < np -> 0 < np' ->
    Forall item_ok (before ++ after) -> item_ok (IRec up (IData a bs)) ->
    (forall w, In (IEla w) (items_recs (before ++ after)) -> w <> 0%N) -> upperAfter (items_recs before) u ->
    parseFile_exec np (ifile t (before ++ after)) (Ok (m, None)) ->
    always (parseFile_exec np' (ifile t (before ++ IRec up (IData a bs) :: after)))
      (fun r => ((forall x, covers (65536 * u + a) (List.length bs) x -> lookup x m = None) -> exists m', r = Ok (m', None) /\ together (65536 * u + a) bs m m') /\
        ((exists x, covers (65536 * u + a) (List.length bs) x /\ lookup x m <> None) ->
           exists m' x v w, r = Ok (m', Some (ECollision x v w)) /\ covers (65536 * u + a) (List.length bs) x /\ lookup x m <> None)).
Proof.
  intros np np' t before up a bs after u m N N' OK OK' NZ U R.
  assert (OK2 : Forall item_ok (before ++ IRec up (IData a bs) :: after)) by (apply Forall_app in OK; destruct OK; apply Forall_app; auto).
  destruct (intel_read _ _ _ _ N OK NZ R) as [D M]. destruct (intel_images _ _ U) as (I1 & EI).
  destruct (reads_file IntelHex np' _ _ N' (intel_file t _ OK2 (nonzero_upper_last _ (more_nonzero _ up a bs _ NZ)))) as [E G]. split; [exact E|]. intros r HR. destruct (G r HR) as [G1 G2]. rewrite EI in D, M, G1, G2.
  exact (image_more _ _ _ _ _ _ D M G1 G2).
Qed.
Print Assumptions C104_intel_more_guarded.

(** A data record is taken out: the memory without its bytes, never an error. *)
Theorem C104_intel_less_guarded : forall np np' t before up a bs after u m, 0 < np -> 0 < np' ->
    Forall item_ok (before ++ IRec up (IData a bs) :: after) ->
    (forall w, In (IEla w) (items_recs (before ++ after)) -> w <> 0%N) -> upperAfter (items_recs before) u ->
    parseFile_exec np (ifile t (before ++ IRec up (IData a bs) :: after)) (Ok (m, None)) ->
    always (parseFile_exec np' (ifile t (before ++ after))) (fun r => exists m', r = Ok (m', None) /\ together (65536 * u + a) bs m' m).
Proof.
  intros np np' t before up a bs after u m N N' OK NZ U R.
  assert (OK2 : Forall item_ok (before ++ after)) by (apply Forall_app in OK; destruct OK as [OKb OKr]; inversion OKr; apply Forall_app; auto).
  destruct (intel_read _ _ _ _ N OK (more_nonzero _ up a bs _ NZ) R) as [D M]. destruct (intel_images _ _ U) as (I1 & EI).
  destruct (reads_file IntelHex np' _ _ N' (intel_file t _ OK2 (nonzero_upper_last _ NZ))) as [E G]. split; [exact E|]. intros r HR. destruct (G r HR) as [G1 G2]. rewrite EI in D, M, G1, G2.
  exact (image_less _ _ _ _ _ _ D M G1 G2).
Qed.
Print Assumptions C104_intel_less_guarded.

(** With an upper half 0000 before a nonzero one (C02) a new byte at a free address is refused. *)
Theorem C104_intel_refuted : exists t before a bs after u m, Forall item_ok (before ++ after) /\ item_ok (IRec true (IData a bs)) /\ upperAfter (items_recs before) u /\
    parseFile_exec 1 (ifile t (before ++ after)) (Ok (m, None)) /\ (forall x, covers (65536 * u + a) (List.length bs) x -> lookup x m = None) /\
    always (parseFile_exec 1 (ifile t (before ++ IRec true (IData a bs) :: after))) (fun r => exists m' e, r = Ok (m', Some e)).
Proof.
  exists Unix, [IRec true (IEla 0); IRec true (IData 0 [1]); IRec true (IEla 1)]%N, 0%N, [3]%N, [IRec true iend], 1%N. eexists.
  split; [apply items_okb_ok; vm_compute; reflexivity|]. split; [apply ivalidb_ok; vm_compute; reflexivity|].
  split; [apply (upper_last [IEla 0; IData 0 [1]]%N 1 []); intros w []|]. split; [apply parseFile_exec_iff; [lia|vm_compute; reflexivity]|].
  split; [|eapply CalibThm.always_impl; [|apply run_is; vm_compute; reflexivity]; intros r ->; eauto].
  intros x C. unfold covers in C. cbn in C. assert (x = 65536%N) as -> by lia. reflexivity.
Qed.
Print Assumptions C104_intel_refuted.

(** ** S19 *)

Theorem C104_srec_more : forall np np' t before up a bs after tail m, 0 < np -> 0 < np' ->
    Forall sitem_ok (before ++ after) -> sitem_ok (SItem up (SD a bs)) -> Forall not_s3 tail ->
    s_parseFile_exec np (sfile t (before ++ after) tail) (Ok (m, None)) ->
    always (s_parseFile_exec np' (sfile t (before ++ SItem up (SD a bs) :: after) tail))
      (fun r => ((forall x, covers a (List.length bs) x -> lookup x m = None) -> exists m', r = Ok (m', None) /\ together a bs m m') /\
        ((exists x, covers a (List.length bs) x /\ lookup x m <> None) ->
           exists m' x v w, r = Ok (m', Some (ECollision x v w)) /\ covers a (List.length bs) x /\ lookup x m <> None)).
Proof.
  intros np np' t before up a bs after tail m N N' OK OK' TL R.
  assert (OK2 : Forall sitem_ok (before ++ SItem up (SD a bs) :: after)) by (apply Forall_app in OK; destruct OK; apply Forall_app; auto).
  destruct (s19_read _ _ _ _ _ N OK TL R) as [D M].
  destruct (reads_file S19 np' _ _ N' (s19_file t _ tail OK2 TL)) as [E G]. split; [exact E|]. intros r HR. destruct (G r HR) as [G1 G2].
  rewrite sitems_app in D, M, G1, G2. cbn [sitems_recs] in G1, G2. unfold s3image in D, M, G1, G2. rewrite flat_map_app in D, M, G1, G2. exact (image_more _ _ _ _ _ _ D M G1 G2).
Qed.
Print Assumptions C104_srec_more.

Theorem C104_srec_less : forall np np' t before up a bs after tail m, 0 < np -> 0 < np' ->
    Forall sitem_ok (before ++ SItem up (SD a bs) :: after) -> Forall not_s3 tail ->
    s_parseFile_exec np (sfile t (before ++ SItem up (SD a bs) :: after) tail) (Ok (m, None)) ->
    always (s_parseFile_exec np' (sfile t (before ++ after) tail)) (fun r => exists m', r = Ok (m', None) /\ together a bs m' m).
Proof.
  intros np np' t before up a bs after tail m N N' OK TL R.
  assert (OK2 : Forall sitem_ok (before ++ after)) by (apply Forall_app in OK; destruct OK as [OKb OKr]; inversion OKr; apply Forall_app; auto).
  destruct (s19_read _ _ _ _ _ N OK TL R) as [D M].
  destruct (reads_file S19 np' _ _ N' (s19_file t _ tail OK2 TL)) as [E G]. split; [exact E|]. intros r HR. destruct (G r HR) as [G1 G2].
  rewrite sitems_app in D, M, G1, G2. cbn [sitems_recs] in D, M. unfold s3image in D, M, G1, G2. rewrite flat_map_app in D, M, G1, G2. exact (image_less _ _ _ _ _ _ D M G1 G2).
Qed.
Print Assumptions C104_srec_less.

(** A record of two bytes between others: at free addresses, and over the byte at 0x10012. *)
Example C104_example :
  let before := [IRec true (IEla 1)] in let after := [IRec false (IData 18 [7]); IRec true iend]%N in let m := [(65554, 7)]%N in
  Forall item_ok (before ++ after) /\ item_ok (IRec true (IData 16 [1; 2]%N)) /\ item_ok (IRec false (IData 17 [1; 2]%N)) /\
  (forall w, In (IEla w) (items_recs (before ++ after)) -> w <> 0%N) /\ upperAfter (items_recs before) 1 /\
  parseFile_exec 2 (ifile Unix (before ++ after)) (Ok (m, None)) /\ (forall x, covers 65552 2 x -> lookup x m = None) /\ (exists x, covers 65553 2 x /\ lookup x m <> None) /\
  parseFile_exec 3 (ifile Unix (before ++ IRec true (IData 16 [1; 2]%N) :: after)) (Ok ([(65554, 7); (65553, 2); (65552, 1)]%N, None)) /\
  Forall sitem_ok [SItem true (SD 16 [1; 2]); SItem true (SD 18 [7])]%N /\
  s_parseFile_exec 2 (sfile Dos [SItem true (SD 18 [7])]%N [s7line 0]) (Ok ([(18, 7)]%N, None)) /\
  s_parseFile_exec 2 (sfile Dos [SItem true (SD 16 [1; 2]); SItem true (SD 18 [7])]%N [s7line 0]) (Ok ([(18, 7); (17, 2); (16, 1)]%N, None)).
Proof.
  cbv zeta. assert (V : forall r, ivalidb r = true -> forall up, item_ok (IRec up r)) by (intros r H up; apply ivalidb_ok, H).
  split; [apply items_okb_ok; vm_compute; reflexivity|]. do 2 (split; [apply V; vm_compute; reflexivity|]).
  split; [intros u I; cbn in I; repeat (destruct I as [I|I]; [first [discriminate I|injection I as <-; discriminate]|]); destruct I|].
  split; [apply (upper_last [] 1 []); intros w []|]. split; [apply parseFile_exec_iff; [lia|vm_compute; reflexivity]|].
  split; [intros x C; unfold covers in C; cbn in C; assert (x = 65552 \/ x = 65553)%N as [-> | ->] by lia; reflexivity|].
  split; [exists 65554%N; split; [unfold covers; cbn; lia|discriminate]|]. split; [apply parseFile_exec_iff; [lia|vm_compute; reflexivity]|].
  split; [repeat (constructor; [apply s3validb_ok; vm_compute; reflexivity|]); constructor|]. split; apply s_parseFile_exec_iff; try lia; vm_compute; reflexivity.
Qed.
