(** C80: from the bytes of both files to lookups, conversions and values. *)
From Coq Require Import String Ascii List Arith NArith ZArith Bool SpecFloat Lia Sorted.
From Verif Require Import GoBase HexSpec IhexSpec SrecSpec MemModel MemSpec CalibModel CalibProofs CalibSpec CalibProps CalibFileModel CalibFileProps
  A2lIR A2lGrammar A2lForms A2lModSpec A2lFileModel A2lFileSpec A2lFileProps A2lTripSpec A2lTripThm A2lTripProps LookModel LookProps FloatModel FloatSpec CompuModel CompuSpec ValuesModel ValuesSpec TreeModel TreeSpec TreeThm TreeLook TreeConv TreeLayoutSpec TreeLayout FilesSpec FilesThm.
Import ListNotations.

(** What ReadCalibration returns. *)
Definition readAs (pf : bytes -> option spec_float) (ts : list bytes) (img : list (N * N)) (r : rcres fields gomap (cerr unit)) (P : forall (n : nat) (lm : list entry) (cd : calib), Prop) : Prop :=
  exists a m, r = RReturned (CD (Some a) (Some m)) None /\ map_is m img /\
    forall n words lm, fileModule pf ts n words -> moduleHas pf words lm -> P n lm (calibOf a n m).

Lemma a2l_read : forall gr pf cpus ts, 0 < cpus -> a2lText gr pf cpus ts -> exists a, describes pf projectRead ts a /\
    always (a2lOut gr pf cpus (Some (write ts))) (fun r => exists a', r = Ok a' /\ forall n hex, sameCalib (calibOf a n hex) (calibOf a' n hex)).
Proof.
  intros gr pf cpus ts CP [G [a D] W MC]. exists a. split; [exact D|]. split.
  - apply a2lOut_total. exact CP.
  - intros r (f & F & ->). destruct MC as [MC|(N & MC & DV)].
    + apply (C69_sequential gr pf cpus ts a CP G D W MC) in F. subst f. exists a. split; [reflexivity|]. intros. apply sameCalib_refl.
    + destruct (C69_one_module_guarded gr pf cpus ts a CP G D W N MC DV f F) as (a' & -> & L). exists a'. split; [reflexivity|]. intros n hex. apply likeFile_same; [exact L|reflexivity].
Qed.

Lemma files_read : forall gr pf cpus ts path content img, 0 < cpus -> a2lText gr pf cpus ts -> hexText path content img -> exists a, describes pf projectRead ts a /\
    always (calibration gr pf cpus true (Some (write ts)) path (Some content))
      (fun r => exists a' m, r = RReturned (CD (Some a') (Some m)) None /\ (forall n hex, sameCalib (calibOf a n hex) (calibOf a' n hex)) /\ map_is m img).
Proof.
  intros gr pf cpus ts path content img CP A H. destruct (a2l_read gr pf cpus ts CP A) as (a & D & R). exists a. split; [exact D|].
  destruct H as [lt items K I Z N|lt items tail K I Z N]; unfold calibration.
  - exact (C22_intel_hex_file unit fields cpus _ _ path lt items CP K R I Z N).
  - exact (C22_s19_file unit fields cpus _ _ path lt items tail CP K R I Z N).
Qed.

(** Under every schedule the call returns both files as they were written: the
    image in the map, and a tree that no function of the package tells apart from
    one that the words of each module describe. *)
Theorem C80_files : forall gr pf cpus ts path content img, 0 < cpus -> a2lText gr pf cpus ts -> hexText path content img ->
    always (calibration gr pf cpus true (Some (write ts)) path (Some content))
      (fun r => readAs pf ts img r (fun n lm cd => exists cd', chosen pf cd' lm /\ cd_hex cd' = cd_hex cd /\ alike cd' cd)).
Proof.
  intros gr pf cpus ts path content img CP A H. destruct (files_read gr pf cpus ts path content img CP A H) as (a & D & E & R). split; [exact E|]. intros r HR.
  destruct (R r HR) as (a' & m & -> & S & M). exists a', m. split; [reflexivity|]. split; [exact M|]. intros n words lm FM HM.
  destruct (file_module _ _ _ _ _ D FM) as (v & NE & DV). exists (calibOf a n m). split; [|split; [reflexivity|apply same_alike, S]].
  exists words, v. auto.
Qed.
Print Assumptions C80_files.

(** Two runs, on whatever machines. *)
Theorem C80_runs : forall gr pf cpus1 cpus2 ts path content img r1 r2, 0 < cpus1 -> 0 < cpus2 -> a2lText gr pf cpus1 ts -> a2lText gr pf cpus2 ts -> hexText path content img ->
    calibration gr pf cpus1 true (Some (write ts)) path (Some content) r1 -> calibration gr pf cpus2 true (Some (write ts)) path (Some content) r2 ->
    exists a1 a2 m1 m2, r1 = RReturned (CD (Some a1) (Some m1)) None /\ r2 = RReturned (CD (Some a2) (Some m2)) None /\
      (forall x, lookup x m1 = lookup x m2) /\ forall n, alike (calibOf a1 n m1) (calibOf a2 n m2).
Proof.
  intros gr pf cpus1 cpus2 ts path content img r1 r2 C1 C2 A1 A2 H R1 R2.
  destruct (files_read gr pf cpus1 ts path content img C1 A1 H) as (a & D & _ & F1). destruct (files_read gr pf cpus2 ts path content img C2 A2 H) as (a' & D' & _ & F2).
  assert (a' = a) as -> by (eapply C69_unique; eauto).
  destruct (F1 r1 R1) as (a1 & m1 & -> & S1 & M1), (F2 r2 R2) as (a2 & m2 & -> & S2 & M2). exists a1, a2, m1, m2. split; [reflexivity|]. split; [reflexivity|].
  assert (HX : forall x, lookup x m1 = lookup x m2).
  { intros x. destruct (lookup x m1) as [v|] eqn:E.
    - symmetry. apply M2, M1. exact E.
    - destruct (lookup x m2) as [v|] eqn:E2; [|reflexivity]. apply M2, M1 in E2. congruence. }
  split; [exact HX|]. intros n. apply alike_trans with (calibOf a n m1); [apply alike_sym, same_alike, S1|].
  apply alike_trans with (calibOf a n m2); [|apply same_alike, S2]. apply same_alike. destruct (sameCalib_refl (calibOf a n m1)) as [_ K]. split; [exact HX|exact K].
Qed.
Print Assumptions C80_runs.

(** ** Lookups *)
Theorem C80_lookup : forall gr pf cpus ts path content img, 0 < cpus -> a2lText gr pf cpus ts -> hexText path content img ->
    always (calibration gr pf cpus true (Some (write ts)) path (Some content))
      (fun r => readAs pf ts img r (fun n lm cd => forall k, exists l, objectsByIdent cd k = Ok l /\ (forall x, In x l <-> written pf lm k x) /\ StronglySorted (fun x y => rank x < rank y) l)).
Proof.
  intros gr pf cpus ts path content img CP A H. destruct (files_read gr pf cpus ts path content img CP A H) as (a & D & E & R). split; [exact E|]. intros r HR.
  destruct (R r HR) as (a' & m & -> & S & M). exists a', m. split; [reflexivity|]. split; [exact M|]. intros n words lm FM HM k.
  destruct (C70_tree pf ts a D n m words lm k FM HM) as (l & O & W). exists l. split; [|exact W]. rewrite <- O. symmetry. apply (al_objects _ _ (same_alike _ _ (S n m))).
Qed.
Print Assumptions C80_lookup.

(** ** Conversions: a table of the file *)
Theorem C80_table : forall gr pf cpus ts path content img, 0 < cpus -> a2lText gr pf cpus ts -> hexText path content img ->
    always (calibration gr pf cpus true (Some (write ts)) path (Some content))
      (fun r => readAs pf ts img r (fun n lm cd => forall km em t e l rows lt nums d dec o,
         lastSuch (isNamed "/begin COMPU_METHOD" km) lm em ->
         methodHas pf (e_words em) "TAB_NOINTP" l -> lastWords "COMPU_TAB_REF" l (Some [t]) ->
         lastSuch (isNamed "/begin COMPU_TAB" t) lm e -> tableHas pf compuTabForm "/end COMPU_TAB" (e_words e) rows lt ->
         Forall2 (fun r p => pf (fst r) = Some (fst p) /\ pf (snd r) = Some (snd p)) rows nums -> defaultOf pf "DEFAULT_VALUE_NUMERIC" lt d ->
         canon dec -> Forall (fun p => canon (fst p)) nums -> (first_entry dec nums o \/ no_entry dec nums /\ d = Some o) ->
         decToPhy dec (e_val em) cd = Ret o None)).
Proof.
  intros gr pf cpus ts path content img CP A H. destruct (C80_files gr pf cpus ts path content img CP A H) as [E R]. split; [exact E|]. intros r HR.
  destruct (R r HR) as (a & m & -> & M & F). exists a, m. split; [reflexivity|]. split; [exact M|]. intros n words lm FM HM km em t e l rows lt nums d dec o LM MH LW LE TH F2 DF CD CN Q.
  destruct (F n words lm FM HM) as (cd & CH & _ & AL). rewrite <- (al_phy _ _ AL).
  pose proof (chosen_den _ _ _ "/begin COMPU_METHOD" compuMethodForm _ _ CH ltac:(modForm_) LM (proj1 (proj2 (lastSuch_in _ _ _ LM)))) as DM.
  destruct (C71_table pf cd lm _ (e_val em) l t e rows lt nums d dec CH DM MH LW LE TH F2 DF CD CN) as (Q1 & Q2 & _). destruct Q as [Q|[Q ->]]; auto.
Qed.
Print Assumptions C80_table.

(** ** Values *)

Lemma stands : forall m img bs a, map_is m img -> standsAt img a bs -> (a + N.of_nat (length bs) <= 2 ^ 32)%N -> bytes_at m a bs.
Proof.
  intros m img bs. induction bs as [|v bs IH]; intros a M S L; [exact I|]. cbn [bytes_at]. cbn [length] in L. split.
  - rewrite N.mod_small by lia. apply M. specialize (S 0%nat v eq_refl). rewrite N.add_0_r in S. exact S.
  - apply IH; [exact M| |lia]. intros i w NE. specialize (S (Datatypes.S i) w NE). replace (a + 1 + N.of_nat i)%N with (a + N.of_nat (Datatypes.S i))%N by lia. exact S.
Qed.

(** The code reads nothing, whatever stands in both files. *)
Theorem C80_nothing_read_refuted : forall gr pf cpus ts path content img, 0 < cpus -> a2lText gr pf cpus ts -> hexText path content img ->
    always (calibration gr pf cpus true (Some (write ts)) path (Some content))
      (fun r => readAs pf ts img r (fun n lm cd => forall lc kc ec ch layout t bs er rl q, commonOf pf lm lc -> byteOrder lc true ->
         lastSuch (isNamed "/begin CHARACTERISTIC" kc) lm ec -> e_val ec = VObj ch -> characteristicHas (e_words ec) (b "0x" ++ t) layout ->
         hex_text_any t bs -> length bs = 4 -> lastSuch (isNamed "/begin RECORD_LAYOUT" layout) lm er -> e_val er = VObj rl ->
         (getValuesFromHex cd (NewCharacteristicValues ch (Some rl)) q <-> q = Some []))).
Proof.
  intros gr pf cpus ts path content img CP A H. destruct (C80_files gr pf cpus ts path content img CP A H) as [E R]. split; [exact E|]. intros r HR.
  destruct (R r HR) as (a & m & -> & M & F). exists a, m. split; [reflexivity|]. split; [exact M|]. intros n words lm FM HM lc kc ec ch layout t bs er rl q CM BO LC EC HC HT L4 LR ER.
  destruct (F n words lm FM HM) as (cd & CH & _ & AL). rewrite <- (al_values _ _ AL). eapply C79_nothing_read_refuted; eauto.
Qed.
Print Assumptions C80_nothing_read_refuted.

(** With the byte access repaired, the integer that the hex file contains at the
    address of the characteristic. *)
Theorem C80_value_guarded : forall gr pf cpus ts path content img, 0 < cpus -> a2lText gr pf cpus ts -> hexText path content img ->
    always (calibration gr pf cpus true (Some (write ts)) path (Some content))
      (fun r => readAs pf ts img r (fun n lm cd => forall lc kc ec ch layout t bs er lr c d sg z border_ l, commonOf pf lm lc -> byteOrder lc true ->
         lastSuch (isNamed "/begin CHARACTERISTIC" kc) lm ec -> e_val ec = VObj ch -> characteristicHas (e_words ec) (b "0x" ++ t) layout ->
         hex_text_any t bs -> length bs = 4 ->
         lastSuch (isNamed "/begin RECORD_LAYOUT" layout) lm er -> layoutHas pf (e_words er) lr ->
         In c integers -> writtenType lr c (b (typeName d)) -> d = UBYTE \/ d = SBYTE \/ d = AUint64 \/ d = AInt64 ->
         int_type d = Some sg -> in_range sg (size_bytes d) z -> (Z.abs z < 2 ^ 53)%Z ->
         TreeLayoutSpec.border lr lc d border_ -> border_ <> 0%N -> (border_ | MemSpec.number bs)%N -> (MemSpec.number bs + N.of_nat (size_bytes d) <= 2 ^ 32)%N ->
         standsAt img (MemSpec.number bs) (encode true (size_bytes d) (twos (size_bytes d) z)) ->
         exists v, valuesAlong getBytes_repaired cd (NewCharacteristicValues ch l) [c] = Some v /\ vint (valueField c) v = z)).
Proof.
  intros gr pf cpus ts path content img CP A H. destruct (C80_files gr pf cpus ts path content img CP A H) as [E R]. split; [exact E|]. intros r HR.
  destruct (R r HR) as (a & m & -> & M & F). exists a, m. split; [reflexivity|]. split; [exact M|].
  intros n words lm FM HM lc kc ec ch layout t bs er lr c d sg z border_ l CM BO LC EC HC HT L4 LR HL IC WT DD IT IR ZB BD N0 DV LE SA.
  destruct (F n words lm FM HM) as (cd & CH & HX & AL). rewrite <- (al_along _ _ AL).
  eapply C79_value_guarded; eauto. rewrite HX. cbn [calibOf cd_hex]. eapply stands; eauto.
  assert (LN : length (encode true (size_bytes d) (twos (size_bytes d) z)) = size_bytes d).
  { destruct DD as [->|[->|[->| ->]]]; reflexivity. }
  rewrite LN. exact LE.
Qed.
Print Assumptions C80_value_guarded.
