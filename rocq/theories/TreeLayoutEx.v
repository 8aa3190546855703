(** A module with a record layout, a MOD_COMMON and a characteristic: the
    hypotheses of C78 and C79 can be met. *)
From Coq Require Import String Ascii List Arith NArith ZArith Bool SpecFloat Lia.
From Verif Require Import GoBase MemModel MemSpec ValuesModel ValuesSpec HexSpec A2lIR A2lGrammar A2lForms A2lLayoutSpec A2lFormProps A2lDescribe TreeLook TreeSpec TreeThm TreeConv TreeLayoutSpec TreeLayout.
From Verif Require TreeModel.
Import ListNotations.

Definition layoutWords : list bytes := map b ["R"; "NO_AXIS_PTS_X"; "1"; "UBYTE"; "DIST_OP_X"; "2"; "SWORD"; "ALIGNMENT_BYTE"; "2"; "/end RECORD_LAYOUT"]%string.
Definition commonWords : list bytes := map b ["a comment"; "BYTE_ORDER"; "MSB_FIRST"; "ALIGNMENT_LONG"; "8"; "/end MOD_COMMON"]%string.
Definition charWords : list bytes := map b ["C"; "a value"; "VALUE"; "0x000000A0"; "R"; "0"; "K"; "0"; "10"; "/end CHARACTERISTIC"]%string.
Definition strayWords : list bytes := map b ["D"; "a value"; "VALUE"; "0x000000A0"; "S"; "0"; "K"; "0"; "10"; "/end CHARACTERISTIC"]%string.
Definition allWords : list bytes := map b ["M"; "a module"]%string ++
  (b "/begin MOD_COMMON" :: commonWords) ++ (b "/begin RECORD_LAYOUT" :: layoutWords) ++ (b "/begin CHARACTERISTIC" :: charWords) ++
  (b "/begin CHARACTERISTIC" :: strayWords) ++ [b "/end MODULE"].
Definition eCommon : entry := Entry "/begin MOD_COMMON" commonWords (valOf modCommonForm commonWords).
Definition eLayout : entry := Entry "/begin RECORD_LAYOUT" layoutWords (valOf recordLayoutRead layoutWords).
Definition eChar : entry := Entry "/begin CHARACTERISTIC" charWords (valOf characteristicRead charWords).
Definition eStray : entry := Entry "/begin CHARACTERISTIC" strayWords (valOf characteristicRead strayWords).
Definition someEntries : list entry := [eCommon; eLayout; eChar; eStray].
(** one byte at 0xA0 *)
Definition someCalib : calib := Calib [valOf moduleRead allWords] 0 [(160%N, 7%N)].

Local Ltac found := first [apply item_found; vm_compute; reflexivity | cbn [itemsOf moduleRead In]; tauto].
Local Ltac run := apply (den_run 10); vm_compute; reflexivity.

Lemma some_chosen : chosen smallFloat someCalib someEntries.
Proof.
  exists allWords. eexists. split; [run|]. split; [|vm_compute; reflexivity].
  exists (b "M"), (b "a module"). exists ((b "/begin MOD_COMMON" :: commonWords) ++ (b "/begin RECORD_LAYOUT" :: layoutWords) ++ (b "/begin CHARACTERISTIC" :: charWords) ++ (b "/begin CHARACTERISTIC" :: strayWords)).
  split; [reflexivity|].
  refine (en_cons _ _ _ "/begin MOD_COMMON" "ModCommon" Single modCommonForm commonWords _ (valOf modCommonForm commonWords) _ _ _ _ _); [found|run|reflexivity|].
  refine (en_cons _ _ _ "/begin RECORD_LAYOUT" "RecordLayouts" (Under "Name") recordLayoutRead layoutWords _ (valOf recordLayoutRead layoutWords) _ _ _ _ _); [found|run|reflexivity|].
  refine (en_cons _ _ _ "/begin CHARACTERISTIC" "Characteristics" (Under "Name") characteristicRead charWords _ (valOf characteristicRead charWords) _ _ _ _ _); [found|run|reflexivity|].
  refine (en_cons _ _ _ "/begin CHARACTERISTIC" "Characteristics" (Under "Name") characteristicRead strayWords [] (valOf characteristicRead strayWords) [] _ _ _ _); [found|run|reflexivity|].
  constructor.
Qed.

Definition lEntries : list entry :=
  [Entry "NO_AXIS_PTS_X" [b "1"; b "UBYTE"] (valOf noAxisPtsXForm [b "1"; b "UBYTE"]);
   Entry "DIST_OP_X" [b "2"; b "SWORD"] (valOf distOpXForm [b "2"; b "SWORD"]);
   Entry "ALIGNMENT_BYTE" [b "2"] (valOf alignmentByteForm [b "2"])].
Definition cEntries : list entry :=
  [Entry "BYTE_ORDER" [b "MSB_FIRST"] (valOf byteOrderForm [b "MSB_FIRST"]);
   Entry "ALIGNMENT_LONG" [b "8"] (valOf alignmentLongForm [b "8"])].

Lemma some_layout : layoutHas smallFloat layoutWords lEntries.
Proof.
  exists (b "R"), (map b ["NO_AXIS_PTS_X"; "1"; "UBYTE"; "DIST_OP_X"; "2"; "SWORD"; "ALIGNMENT_BYTE"; "2"]%string). split; [reflexivity|].
  refine (en_cons _ _ _ "NO_AXIS_PTS_X" "NoAxisPtsX" Single noAxisPtsXForm [b "1"; b "UBYTE"] _ _ _ _ _ _ _); [found|run|reflexivity|].
  refine (en_cons _ _ _ "DIST_OP_X" "DistOpX" Single distOpXForm [b "2"; b "SWORD"] _ _ _ _ _ _ _); [found|run|reflexivity|].
  refine (en_cons _ _ _ "ALIGNMENT_BYTE" "AlignmentByte" Single alignmentByteForm [b "2"] [] _ [] _ _ _ _); [found|run|reflexivity|].
  constructor.
Qed.
Lemma some_common : commonOf smallFloat someEntries cEntries.
Proof.
  left. exists eCommon. split; [lastkw (@nil entry) [eLayout; eChar; eStray]|].
  exists (b "a comment"), (map b ["BYTE_ORDER"; "MSB_FIRST"; "ALIGNMENT_LONG"; "8"]%string). split; [reflexivity|].
  refine (en_cons _ _ _ "BYTE_ORDER" "ByteOrder" Single byteOrderForm [b "MSB_FIRST"] _ _ _ _ _ _ _); [found|run|reflexivity|].
  refine (en_cons _ _ _ "ALIGNMENT_LONG" "AlignmentLong" Single alignmentLongForm [b "8"] [] _ [] _ _ _ _); [found|run|reflexivity|].
  constructor.
Qed.

Ltac unsaid := let e := fresh in let I := fresh in intros e I; repeat (destruct I as [I|I]; [subst e; discriminate|]); destruct I.
Example C78_example :
  den smallFloat recordLayoutRead layoutWords (valOf recordLayoutRead layoutWords) /\ layoutHas smallFloat layoutWords lEntries /\
  (forall c d p, writtenAt lEntries c p -> writtenAt lEntries d p -> c = d) /\
  writtenAt lEntries "NoAxisPtsX" 1 /\ writtenAt lEntries "DistOpX" 2 /\ writtenType lEntries "DistOpX" (b "SWORD").
Proof.
  assert (W : forall c p, writtenAt lEntries c p -> (c = "NoAxisPtsX" /\ p = 1%Z \/ c = "DistOpX" /\ p = 2%Z)%string).
  { intros c p (kw & e & I & (l1 & l2 & E & K & _) & P).
    destruct l1 as [|x [|y [|z l1]]]; injection E; intros; subst.
    - left. vm_compute in K. subst kw. vm_compute in P. injection P as <-. split; [|reflexivity].
      repeat (destruct I as [I|I]; [injection I; intros; subst; (discriminate || reflexivity)|]). destruct I.
    - right. vm_compute in K. subst kw. vm_compute in P. injection P as <-. split; [|reflexivity].
      repeat (destruct I as [I|I]; [injection I; intros; subst; (discriminate || reflexivity)|]). destruct I.
    - exfalso. vm_compute in K. subst kw. repeat (destruct I as [I|I]; [discriminate I|]). destruct I.
    - destruct l1; discriminate. }
  split; [run|]. split; [exact some_layout|]. split; [|split; [|split]].
  - intros c d p C D. destruct (W _ _ C) as [[-> ->]|[-> ->]], (W _ _ D) as [[-> E]|[-> E]]; (reflexivity || discriminate E).
  - exists "NO_AXIS_PTS_X"%string. eexists. split; [cbn; tauto|]. split; [lastkw (@nil entry) (skipn 1 lEntries)|vm_compute; reflexivity].
  - exists "DIST_OP_X"%string. eexists. split; [cbn; tauto|]. split; [lastkw (firstn 1 lEntries) (skipn 2 lEntries)|vm_compute; reflexivity].
  - exists "DIST_OP_X"%string. do 3 eexists. split; [cbn; tauto|]. split; [lastkw (firstn 1 lEntries) (skipn 2 lEntries)|reflexivity].
Qed.

(** The border of bytes is in the record layout, that of long words in MOD_COMMON,
    that of words nowhere. *)
Example C79_border_example : chosen smallFloat someCalib someEntries /\ commonOf smallFloat someEntries cEntries /\ byteOrder cEntries true /\
  border lEntries cEntries SBYTE 2 /\ border lEntries cEntries ULONG 8 /\ border lEntries cEntries UWORD 2.
Proof.
  split; [exact some_chosen|]. split; [exact some_common|]. split; [|split; [|split]].
  - left. exists "MSB_FIRST"%string. split; [|reflexivity]. eexists. split; [lastkw (@nil entry) (skipn 1 cEntries)|reflexivity].
  - refine (in_layout _ _ SBYTE _ _ 2%N (eq_refl (alignmentWord SBYTE)) _). exists (b "2"). split; [|reflexivity]. eexists. split; [lastkw (firstn 2 lEntries) (@nil entry)|reflexivity].
  - refine (in_common _ _ ULONG _ _ 8%N (eq_refl (alignmentWord ULONG)) _ _); [unsaid|]. exists (b "8"). split; [|reflexivity]. eexists. split; [lastkw (firstn 1 cEntries) (@nil entry)|reflexivity].
  - refine (in_none _ _ UWORD _ _ (eq_refl (alignmentWord UWORD)) _ _); unsaid.
Qed.

(** The characteristic C is read with the layout R: nothing by the code, the byte
    at 0xA0 by the repaired one. D names a layout the module does not have. *)
Example C79_example :
  lastSuch (isNamed "/begin CHARACTERISTIC" (b "C")) someEntries eChar /\ lastSuch (isNamed "/begin CHARACTERISTIC" (b "D")) someEntries eStray /\
  characteristicHas (e_words eChar) (b "0x" ++ b "000000A0") (b "R") /\ characteristicHas (e_words eStray) (b "0x" ++ b "000000A0") (b "S") /\
  hex_text_any (b "000000A0") [0; 0; 0; 160]%N /\
  lastSuch (isNamed "/begin RECORD_LAYOUT" (b "R")) someEntries eLayout /\ (forall e, ~ lastSuch (isNamed "/begin RECORD_LAYOUT" (b "S")) someEntries e) /\
  writtenType lEntries "NoAxisPtsX" (b (typeName UBYTE)) /\
  bytes_at (cd_hex someCalib) (MemSpec.number [0; 0; 0; 160]%N) (encode true 1 (twos 1 7)) /\
  exists v, valuesAlong getBytes_repaired someCalib (NewCharacteristicValues (TreeModel.objOf (e_val eChar)) (Some [])) ["NoAxisPtsX"%string] = Some v /\ vint (valueField "NoAxisPtsX") v = 7%Z.
Proof.
  split; [last_ (firstn 2 someEntries) [eStray]|]. split; [last_ (firstn 3 someEntries) (@nil entry)|]. split; [do 4 eexists; reflexivity|]. split; [do 4 eexists; reflexivity|].
  split; [|split; [last_ (firstn 1 someEntries) [eChar; eStray]|split; [|split; [|split]]]].
  - refine (HAcons false false 0 0 _ _ eq_refl eq_refl (HAcons false false 0 0 _ _ eq_refl eq_refl (HAcons false false 0 0 _ _ eq_refl eq_refl (HAcons true false 10 0 _ _ eq_refl eq_refl HAnil)))).
  - intros e (l1 & l2 & E & [K N] & _). assert (X : In e someEntries) by (rewrite E; apply in_elt).
    cbn [In someEntries] in X. repeat (destruct X as [X|X]; [rewrite <- X in K, N; discriminate|]). destruct X.
  - exists "NO_AXIS_PTS_X"%string. do 3 eexists. split; [cbn; tauto|]. split; [lastkw (@nil entry) (skipn 1 lEntries)|reflexivity].
  - split; [vm_compute; reflexivity|exact I].
  - eexists. split; vm_compute; reflexivity.
Qed.
