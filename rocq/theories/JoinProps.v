(** C102: a hex file made by putting one hex file after another. *)
From Coq Require Import String Ascii List Arith NArith Bool Lia.
From Verif Require Import GoBase GoBaseFacts ConcModel HexSpec HexSpecFacts HexParts IhexSpec IhexModel IhexProofs IhexMain IhexThm IhexProps SrecModel SrecProofs SrecSpec SrecThm SrecProps SameMemSpec SameMemProps.
Import ListNotations.

(** ** What should come out *)

(** The text of the second file begins on a new line after that of the first. *)
Definition together (t : term) (text1 text2 : bytes) : bytes := text1 ++ term_bytes t ++ text2.

(** No address has a byte in both memories; the memory with the bytes of both. *)
Definition apart (m1 m2 : gomap) : Prop := forall a, lookup a m1 = None \/ lookup a m2 = None.
Definition unionOf (m m1 m2 : gomap) : Prop := forall a v, lookup a m = Some v <-> lookup a m1 = Some v \/ lookup a m2 = Some v.

(** The bytes of both, or the error of an address with two bytes. *)
Definition merged (m1 m2 : gomap) (r : outcome herr hres) : Prop :=
  (apart m1 m2 -> exists m, r = Ok (m, None) /\ unionOf m m1 m2) /\
  (~ apart m1 m2 -> exists m a v1 v2, r = Ok (m, Some (ECollision a v1 v2)) /\ lookup a m1 = Some v1 /\ lookup a m2 = Some v2).

(** Each data record has an extended linear address record before it. *)
Definition ownUpper (rs : list irec) : Prop := forall before a bs after, rs = before ++ IData a bs :: after -> exists u, In (IEla u) before.

(** ** Lists of bytes and maps *)

Lemma join_two : forall t (l1 l2 : list bytes), l1 <> [] -> l2 <> [] -> join (term_bytes t) (l1 ++ l2) = together t (join (term_bytes t) l1) (join (term_bytes t) l2).
Proof.
  intros t l1 l2 N1 N2. induction l1 as [|x l1 IH]; [contradiction|]. destruct l1 as [|y l1].
  - destruct l2 as [|z l2]; [contradiction|]. reflexivity.
  - specialize (IH ltac:(discriminate)). cbn [app] in *. change (join (term_bytes t) (x :: y :: l1 ++ l2)) with (x ++ term_bytes t ++ join (term_bytes t) (y :: l1 ++ l2)). rewrite IH.
    change (join (term_bytes t) (x :: y :: l1)) with (x ++ term_bytes t ++ join (term_bytes t) (y :: l1)). unfold together. rewrite <- !app_assoc. reflexivity.
Qed.
Lemma fst_in : forall (l : list (N * N)) a, In a (map fst l) -> exists v, In (a, v) l.
Proof. intros l a I. apply in_map_iff in I. destruct I as ([x v] & <- & I). eauto. Qed.
Lemma nodup_parts : forall l1 l2 : list N, NoDup (l1 ++ l2) <-> NoDup l1 /\ NoDup l2 /\ forall a, In a l1 -> ~ In a l2.
Proof.
  induction l1 as [|x l1 IH]; intros l2; cbn [app].
  - split; [intros H; repeat split; [constructor|exact H|intros a []]|intros (_ & H & _); exact H].
  - split.
    + intros H. inversion H as [|? ? N D]; subst. apply IH in D. destruct D as (D1 & D2 & D3). split; [constructor; [intros I; apply N, in_or_app; auto|exact D1]|]. split; [exact D2|].
      intros a [<-|I]; [intros J; apply N, in_or_app; auto|exact (D3 a I)].
    + intros (D1 & D2 & D3). inversion D1 as [|? ? N D]; subst. constructor; [|apply IH; split; [exact D|split; [exact D2|intros a I; exact (D3 a (or_intror I))]]].
      intros I. apply in_app_or in I. destruct I as [I|I]; [exact (N I)|exact (D3 x (or_introl eq_refl) I)].
Qed.

Lemma two_parts : forall A (l1 l2 pre post : list A) x, l1 ++ l2 = pre ++ x :: post ->
    (exists rest, l1 = pre ++ x :: rest) \/ exists mid, pre = l1 ++ mid /\ l2 = mid ++ x :: post.
Proof.
  induction l1 as [|y l1 IH]; intros l2 pre post x E; cbn [app] in *; [right; exists pre; auto|].
  destruct pre as [|z pre]; cbn [app] in E; injection E as <- E; [left; exists l1; reflexivity|].
  destruct (IH _ _ _ _ E) as [(rest & ->)|(mid & -> & ->)]; [left; exists rest; reflexivity|right; exists mid; split; reflexivity].
Qed.
Lemma merged_images : forall m1 m2 img1 img2 r, map_is m1 img1 -> map_is m2 img2 -> NoDup (map fst img1) -> NoDup (map fst img2) ->
    (NoDup (map fst (img1 ++ img2)) -> exists m, r = Ok (m, None) /\ map_is m (img1 ++ img2)) ->
    (~ NoDup (map fst (img1 ++ img2)) -> exists m a v0 v pre post, r = Ok (m, Some (ECollision a v0 v)) /\ img1 ++ img2 = pre ++ (a, v) :: post /\ In (a, v0) pre) ->
    merged m1 m2 r.
Proof.
  intros m1 m2 img1 img2 r M1 M2 D1 D2 R1 R2.
  assert (AP : apart m1 m2 <-> NoDup (map fst (img1 ++ img2))).
  { rewrite map_app, nodup_parts. split.
    - intros A. split; [exact D1|]. split; [exact D2|]. intros a I1 I2. apply fst_in in I1. apply fst_in in I2. destruct I1 as [v1 I1]. destruct I2 as [v2 I2]. apply M1 in I1. apply M2 in I2. destruct (A a); congruence.
    - intros (_ & _ & A) a. destruct (lookup a m1) as [v1|] eqn:L1; [|auto]. destruct (lookup a m2) as [v2|] eqn:L2; [|auto]. exfalso. apply M1 in L1. apply M2 in L2.
      apply (A a); [exact (in_map fst _ _ L1)|exact (in_map fst _ _ L2)]. }
  split; intros A.
  - destruct (R1 (proj1 AP A)) as (m & -> & M). exists m. split; [reflexivity|]. intros a v. split.
    + intros L. apply M in L. apply in_app_or in L. destruct L as [L|L]; [left; apply M1|right; apply M2]; exact L.
    + intros [L|L]; apply M, in_or_app; [left; apply M1|right; apply M2]; exact L.
  - destruct (R2 (fun N => A (proj2 AP N))) as (m & a & v0 & v & pre & post & -> & E & I). exists m, a, v0, v. split; [reflexivity|].
    destruct (two_parts _ _ _ _ _ _ E) as [(rest & E1)|(mid & -> & ->)].
    + exfalso. rewrite E1, map_app in D1. apply nodup_parts in D1. destruct D1 as (_ & _ & D). apply (D a); [exact (in_map fst _ _ I)|left; reflexivity].
    + apply in_app_or in I. destruct I as [I|I].
      * split; [apply M1; exact I|apply M2, in_or_app; right; left; reflexivity].
      * exfalso. rewrite map_app in D2. apply nodup_parts in D2. destruct D2 as (_ & _ & D). apply (D a); [exact (in_map fst _ _ I)|left; reflexivity].
Qed.

(** ** Intel HEX *)

Lemma items_app : forall l1 l2, items_recs (l1 ++ l2) = items_recs l1 ++ items_recs l2.
Proof. induction l1 as [|[up r|l] l1 IH]; intros l2; cbn [app items_recs]; rewrite ?IH; reflexivity. Qed.
Lemma own_image : forall rs, ownUpper rs -> forall u u', image_from u rs = image_from u' rs.
Proof.
  induction rs as [|r rs IH]; intros O u u'; [reflexivity|]. destruct r as [a bs|w|k a bs]; cbn [image_from].
  - destruct (O [] a bs rs eq_refl) as (w & []).
  - reflexivity.
  - apply IH. intros before a' bs' after E. destruct (O (IOther k a bs :: before) a' bs' after) as (w & [W|W]); [rewrite E; reflexivity|discriminate W|exists w; exact W].
Qed.
Lemma image_two : forall rs1 rs2 u, ownUpper rs2 -> image_from u (rs1 ++ rs2) = image_from u rs1 ++ image rs2.
Proof.
  induction rs1 as [|r rs1 IH]; intros rs2 u O; cbn [app image_from]; [apply own_image, O|]. destruct r; cbn [image_from]; rewrite ?(IH _ _ O), ?app_assoc; reflexivity.
Qed.
Lemma intel_read : forall np t items m, 0 < np -> Forall item_ok items -> (forall u, In (IEla u) (items_recs items) -> u <> 0%N) -> parseFile_exec np (ifile t items) (Ok (m, None)) ->
    NoDup (map fst (image (items_recs items))) /\ map_is m (image (items_recs items)).
Proof.
  intros np t items m NP OK NZ R. destruct (reads_file IntelHex np _ _ NP (intel_file t items OK (nonzero_upper_last _ NZ))) as [_ F]. destruct (F _ R) as [F1 F2].
  destruct (nodup_dec (map fst (image (items_recs items)))) as [D|D]; [destruct (F1 D) as (m' & E & M); injection E as <-; auto|destruct (F2 D) as (? & ? & ? & ? & E & _); discriminate E].
Qed.

(** The second file says itself where its bytes go: the bytes of both files are read,
    and an address that both have is an error. *)
Theorem C102_intel_guarded : forall np np1 np2 t items1 items2 m1 m2, 0 < np -> 0 < np1 -> 0 < np2 -> items1 <> [] -> items2 <> [] ->
    Forall item_ok items1 -> Forall item_ok items2 -> (forall u, In (IEla u) (items_recs items1 ++ items_recs items2) -> u <> 0%N) -> ownUpper (items_recs items2) ->
    parseFile_exec np1 (ifile t items1) (Ok (m1, None)) -> parseFile_exec np2 (ifile t items2) (Ok (m2, None)) ->
    always (parseFile_exec np (together t (ifile t items1) (ifile t items2))) (merged m1 m2).
Proof.
  intros np np1 np2 t items1 items2 m1 m2 N N1 N2 NE1 NE2 OK1 OK2 NZ OU R1 R2.
  destruct (intel_read _ _ _ _ N1 OK1 (fun u I => NZ u (in_or_app _ _ _ (or_introl I))) R1) as [D1 M1].
  destruct (intel_read _ _ _ _ N2 OK2 (fun u I => NZ u (in_or_app _ _ _ (or_intror I))) R2) as [D2 M2].
  assert (TX : together t (ifile t items1) (ifile t items2) = ifile t (items1 ++ items2)).
  { unfold ifile. rewrite map_app, join_two; [reflexivity| |]; intros Z; apply map_eq_nil in Z; contradiction. }
  assert (IM : image (items_recs (items1 ++ items2)) = image (items_recs items1) ++ image (items_recs items2)) by (rewrite items_app; apply image_two; exact OU).
  rewrite <- items_app in NZ. assert (OK : Forall item_ok (items1 ++ items2)) by (apply Forall_app; auto).
  rewrite TX. destruct (reads_file IntelHex np _ _ N (intel_file t _ OK (nonzero_upper_last _ NZ))) as [E G].
  split; [exact E|]. intros r HR. apply (merged_images _ _ _ _ r M1 M2 D1 D2); rewrite <- IM.
  - exact (proj1 (G r HR)).
  - intros ND. destruct (proj2 (G r HR) ND) as (m & a & v0 & v & E1 & pre & post & E2 & E3). exists m, a, v0, v, pre, post. auto.
Qed.
Print Assumptions C102_intel_guarded.

(** Otherwise its bytes go to the upper half of the addresses that the first file has used
    last, although that file has ended: the byte for 0x10 is put to 0x10010. *)
Theorem C102_intel_refuted : exists t items1 items2, Forall item_ok (items1 ++ items2) /\ In iend (items_recs items1) /\
    forall np, 0 < np -> exists m1 m2 m, parseFile_exec np (ifile t items1) (Ok (m1, None)) /\ parseFile_exec np (ifile t items2) (Ok (m2, None)) /\ apart m1 m2 /\
      always (parseFile_exec np (together t (ifile t items1) (ifile t items2))) (fun r => r = Ok (m, None)) /\
      lookup 16 m2 = Some 2%N /\ lookup 16 m = None /\ lookup 65552 m1 = None /\ lookup 65552 m2 = None /\ lookup 65552 m = Some 2%N.
Proof.
  set (items1 := [IRec true (IEla 1); IRec true (IData 0 [1]); IRec true iend]%N). set (items2 := [IRec true (IData 16 [2]); IRec true iend]%N).
  exists Unix, items1, items2. assert (OK1 : Forall item_ok items1) by (apply items_okb_ok; vm_compute; reflexivity). assert (OK2 : Forall item_ok items2) by (apply items_okb_ok; vm_compute; reflexivity).
  split; [apply Forall_app; auto|]. split; [right; right; left; reflexivity|]. intros np NP.
  assert (G : forall items, Forall item_ok items -> (forall u, In (IEla u) (items_recs items) -> u <> 0%N) -> NoDup (map fst (image (items_recs items))) ->
      exists m, map_is m (image (items_recs items)) /\ parseFile_exec np (ifile Unix items) (Ok (m, None)) /\ always (parseFile_exec np (ifile Unix items)) (fun r => r = Ok (m, None))).
  { intros items OK NZ D. destruct (C01_ihex_round_trip np Unix items NP OK NZ D) as [[r E] R]. destruct (R r E) as (m & -> & M). exists m. split; [exact M|]. split; [exact E|]. split; [eauto|].
    intros r HR. destruct (C03_schedule_independent np (ifile Unix items) NP) as (r0 & _ & U). rewrite (U r HR). symmetry. exact (U _ E). }
  destruct (G items1 OK1) as (m1 & M1 & R1 & _); [intros u [H|[H|[H|[]]]]; [injection H as <-; discriminate|discriminate H|discriminate H]|apply nodupb_ok; vm_compute; reflexivity|].
  destruct (G items2 OK2) as (m2 & M2 & R2 & _); [intros u [H|[H|[]]]; discriminate H|apply nodupb_ok; vm_compute; reflexivity|].
  destruct (G (items1 ++ items2)) as (m & M & _ & R); [apply Forall_app; auto|intros u [H|[H|[H|[H|[H|[]]]]]]; try discriminate H; injection H as <-; discriminate|apply nodupb_ok; vm_compute; reflexivity|].
  assert (X1 : image (items_recs items1) = [(65536, 1)]%N) by reflexivity. assert (X2 : image (items_recs items2) = [(16, 2)]%N) by reflexivity.
  assert (X : image (items_recs (items1 ++ items2)) = [(65536, 1); (65552, 2)]%N) by reflexivity. rewrite X1 in M1. rewrite X2 in M2. rewrite X in M.
  assert (NO : forall m' img a, map_is m' img -> ~ In a (map fst img) -> lookup a m' = None) by (intros m' img a MI NI; destruct (lookup a m') as [v|] eqn:L; [exfalso; apply NI; apply MI in L; exact (in_map fst _ _ L)|reflexivity]).
  exists m1, m2, m. split; [exact R1|]. split; [exact R2|]. split.
  { intros a. destruct (N.eq_dec a 65536) as [->|NE]; [right; apply (NO _ _ _ M2); cbn; intuition discriminate|left; apply (NO _ _ _ M1); cbn; intuition]. }
  split; [exact R|]. split; [apply M2; left; reflexivity|]. split; [apply (NO _ _ _ M); cbn; intuition discriminate|]. split; [apply (NO _ _ _ M1); cbn; intuition discriminate|].
  split; [apply (NO _ _ _ M2); cbn; intuition discriminate|]. apply M. right. left. reflexivity.
Qed.
Print Assumptions C102_intel_refuted.

(** ** S19 *)

Lemma sitems_app : forall l1 l2, sitems_recs (l1 ++ l2) = sitems_recs l1 ++ sitems_recs l2.
Proof. induction l1 as [|[up r|l] l1 IH]; intros l2; cbn [app sitems_recs]; rewrite ?IH; reflexivity. Qed.
Lemma s19_read : forall np t items tail m, 0 < np -> Forall sitem_ok items -> Forall not_s3 tail -> s_parseFile_exec np (sfile t items tail) (Ok (m, None)) ->
    NoDup (map fst (s3image (sitems_recs items))) /\ map_is m (s3image (sitems_recs items)).
Proof.
  intros np t items tail m NP OK TL R. destruct (reads_file S19 np _ _ NP (s19_file t items tail OK TL)) as [_ F]. destruct (F _ R) as [F1 F2].
  destruct (nodup_dec (map fst (s3image (sitems_recs items)))) as [D|D]; [destruct (F1 D) as (m' & E & M); injection E as <-; auto|destruct (F2 D) as (? & ? & ? & ? & E & _); discriminate E].
Qed.

(** The first file ends without an end record, or with one of less than 11 characters (S9). *)
Theorem C102_srec_guarded : forall np np1 np2 t items1 items2 tail m1 m2, 0 < np -> 0 < np1 -> 0 < np2 -> items1 <> [] -> items2 <> [] ->
    Forall sitem_ok items1 -> Forall sitem_ok items2 -> Forall not_s3 tail ->
    s_parseFile_exec np1 (sfile t items1 []) (Ok (m1, None)) -> s_parseFile_exec np2 (sfile t items2 tail) (Ok (m2, None)) ->
    always (s_parseFile_exec np (together t (sfile t items1 []) (sfile t items2 tail))) (merged m1 m2).
Proof.
  intros np np1 np2 t items1 items2 tail m1 m2 N N1 N2 NE1 NE2 OK1 OK2 TL R1 R2.
  destruct (s19_read _ _ _ _ _ N1 OK1 (Forall_nil _) R1) as [D1 M1]. destruct (s19_read _ _ _ _ _ N2 OK2 TL R2) as [D2 M2].
  assert (TX : together t (sfile t items1 []) (sfile t items2 tail) = sfile t (items1 ++ items2) tail).
  { unfold sfile. rewrite app_nil_r, map_app, <- app_assoc. symmetry. apply join_two; intros Z; [apply map_eq_nil in Z; contradiction|]. apply app_eq_nil in Z. destruct Z as [Z _]. apply map_eq_nil in Z. contradiction. }
  assert (IM : s3image (sitems_recs (items1 ++ items2)) = s3image (sitems_recs items1) ++ s3image (sitems_recs items2)) by (rewrite sitems_app; apply flat_map_app).
  assert (OK : Forall sitem_ok (items1 ++ items2)) by (apply Forall_app; auto).
  rewrite TX. destruct (reads_file S19 np _ _ N (s19_file t _ tail OK TL)) as [E G].
  split; [exact E|]. intros r HR. apply (merged_images _ _ _ _ r M1 M2 D1 D2); rewrite <- IM.
  - exact (proj1 (G r HR)).
  - intros ND. destruct (proj2 (G r HR) ND) as (m & a & v0 & v & E1 & pre & post & E2 & E3). exists m, a, v0, v, pre, post. auto.
Qed.
Print Assumptions C102_srec_guarded.

(** After an S7 record nothing more is read, whatever follows it: with one CPU the second
    file is lost without an error. *)
Theorem C102_srec_refuted : forall t items1 a lines2 r, (a < 4294967296)%N -> Forall sitem_ok items1 -> Forall no_eol lines2 ->
    (s_parseFile_exec 1 (together t (sfile t items1 [s7line a]) (join (term_bytes t) lines2)) r <-> s_parseFile_exec 1 (sfile t items1 [s7line a]) r).
Proof.
  intros t items1 a lines2 r A32 OK NE.
  assert (L7 : 11 <=? List.length (s7line a) = true) by reflexivity. assert (P7 : sParse (s7line a) = None) by reflexivity.
  assert (E7 : no_eol (s7line a)) .
  { assert (BL : Forall (fun v => v < 256)%N ((5%N :: abytes a) ++ [s3_check (5%N :: abytes a)])).
    { apply Forall_app. split; [constructor; [reflexivity|apply abytes_byte, A32]|constructor; [unfold s3_check; generalize (nsum (5%N :: abytes a) mod 256)%N; intros n; lia|constructor]]. }
    destruct (hexs_no_eol true _ BL) as [H1 H2]. unfold s7line. cbv zeta. split; (intros [H|[H|H]]; [discriminate H|discriminate H|]); [exact (H1 H)|exact (H2 H)]. }
  assert (ST : forall A B, Forall sfine A -> sRecs (A ++ s7line a :: B) = sRecs (A ++ [s7line a])).
  { intros A B HA. induction HA as [|l A Hl HA IH]; cbn [app sRecs]; [rewrite L7, P7; reflexivity|]. rewrite IH. reflexivity. }
  assert (ONE : forall ls, sRecsF 1 ls = sRecs ls).
  { intros ls. unfold sRecsF. pose proof (@concat_chunks _ 1 ls ltac:(lia)) as C. unfold chunks in *. cbn [seq map concat flat_map] in *. rewrite app_nil_r in *. rewrite C. reflexivity. }
  assert (H1 : Forall no_eol (map sitem_line items1 ++ [s7line a])) by (apply Forall_app; split; [apply Forall_map; eapply Forall_impl; [|exact OK]; apply sitem_no_eol|constructor; [exact E7|constructor]]).
  assert (HF : Forall sfine (map sitem_line items1)) by (apply Forall_map; eapply Forall_impl; [|exact OK]; apply sitem_fine).
  assert (NE1 : map sitem_line items1 ++ [s7line a] <> []) by (intros Z; apply app_eq_nil in Z; destruct Z as [_ Z]; discriminate Z).
  rewrite !s_parseFile_exec_iff by lia.
  assert (EQ : sFileF 1 (together t (sfile t items1 [s7line a]) (join (term_bytes t) lines2)) = sFileF 1 (sfile t items1 [s7line a])); [|rewrite EQ; reflexivity].
  unfold sfile, sFileF, sHexF. assert (EB : exists B, Forall no_eol B /\ B <> [] /\ join (term_bytes t) lines2 = join (term_bytes t) B).
  { destruct lines2 as [|l ls]; [exists [[]]; split; [constructor; [|constructor]; split; intros []|split; [discriminate|reflexivity]]|exists (l :: ls); split; [exact NE|split; [discriminate|reflexivity]]]. }
  destruct EB as (B & HB & NB & ->). rewrite <- join_two by assumption. rewrite !splitLines_join; try assumption; [|intros Z; apply app_eq_nil in Z; destruct Z; contradiction|apply Forall_app; auto].
  rewrite !ONE, <- app_assoc. cbn [app]. rewrite ST by exact HF. reflexivity.
Qed.
Print Assumptions C102_srec_refuted.

(** A byte at 0x10000 and one at 0x20010; a second file with the same addresses collides. *)
Example C102_example :
  let i1 := [IRec true (IEla 1); IRec true (IData 0 [1]); IRec true iend]%N in
  let i2 := [IRec true (IEla 2); IRec true (IData 16 [2]); IRec true iend]%N in
  let s1 := [SItem true (SD 65536 [1])]%N in let s2 := [SBlank (b "S9030000FC"); SItem true (SD 131088 [2])]%N in
  let m1 := [(65536, 1)]%N in let m2 := [(131088, 2)]%N in
  Forall item_ok i1 /\ Forall item_ok i2 /\ (forall u, In (IEla u) (items_recs i1 ++ items_recs i2) -> u <> 0%N) /\ ownUpper (items_recs i2) /\
  parseFile_exec 2 (ifile Dos i1) (Ok (m1, None)) /\ parseFile_exec 1 (ifile Dos i2) (Ok (m2, None)) /\
  Forall sitem_ok s1 /\ Forall sitem_ok s2 /\ Forall not_s3 [s7line 0] /\
  s_parseFile_exec 2 (sfile Dos s1 []) (Ok (m1, None)) /\ s_parseFile_exec 1 (sfile Dos s2 [s7line 0]) (Ok (m2, None)) /\
  apart m1 m2 /\ ~ apart m1 m1.
Proof.
  cbv zeta. split; [apply items_okb_ok; vm_compute; reflexivity|]. split; [apply items_okb_ok; vm_compute; reflexivity|].
  split; [intros u I; cbn in I; repeat (destruct I as [I|I]; [first [discriminate I|injection I as <-; discriminate]|]); destruct I|].
  split; [intros before a bs after E; destruct before as [|x before]; [discriminate E|]; injection E as <- _; eexists; left; reflexivity|].
  split; [apply parseFile_exec_iff; [lia|vm_compute; reflexivity]|]. split; [apply parseFile_exec_iff; [lia|vm_compute; reflexivity]|].
  split; [constructor; [apply s3validb_ok; vm_compute; reflexivity|constructor]|]. split; [constructor; [split; [vm_compute; lia|apply no_eolb_ok; reflexivity]|constructor; [apply s3validb_ok; vm_compute; reflexivity|constructor]]|].
  split; [constructor; [split; [apply no_eolb_ok; vm_compute; reflexivity|vm_compute; discriminate]|constructor]|].
  split; [apply s_parseFile_exec_iff; [lia|vm_compute; reflexivity]|]. split; [apply s_parseFile_exec_iff; [lia|vm_compute; reflexivity]|]. split.
  - intros a. destruct (N.eq_dec a 65536) as [->|NE]; [right; reflexivity|left]. cbn [lookup]. destruct (N.eqb_spec 65536 a); [congruence|reflexivity].
  - intros A. destruct (A 65536%N) as [H|H]; discriminate H.
Qed.
