(** C72: no error is lost; C73: integers. *)
From Coq Require Import String Ascii List Arith NArith ZArith Bool Lia SpecFloat.
From Verif Require Import GoBase GoBaseFacts A2lIR A2lTokens A2lParsers A2lSpec A2lCheck A2lThm A2lModProps A2lStrictSpec A2lStrict.
From Verif Require TokModel TokSpec A2lFileModel A2lFileProps.
Import ListNotations.

(** ** C72 *)

(** In the run of [g] from position [i] nothing fails; it ends with [v] at [j]. *)
Definition clean (lax : fn -> bool) (toks : list bytes) (pf : bytes -> option spec_float) (g : fn) (i : nat) (v : val) (j : nat) : Prop :=
  exists n, forall fuel, n <= fuel -> fnOk toks pf fuel lax g i = Some (v, j).

Definition none (_ : fn) : bool := false.

Lemma cond_dec : forall x y : cond, {x = y} + {x <> y}.
Proof. decide equality; try apply string_dec; apply Nat.eq_dec. Defined.
Lemma expr_dec : forall x y : expr, {x = y} + {x <> y}.
Proof. decide equality; apply string_dec. Defined.
Lemma num_dec : forall x y : num, {x = y} + {x <> y}.
Proof. decide equality; apply N.eq_dec. Defined.
Lemma src_dec : forall x y : src, {x = y} + {x <> y}.
Proof. decide equality. Defined.
Lemma table_dec : forall x y : list (string * string), {x = y} + {x <> y}.
Proof. apply list_eq_dec. decide equality; apply string_dec. Defined.
Fixpoint stmt_dec (x y : stmt) {struct x} : {x = y} + {x <> y}
with block_dec (x y : block) {struct x} : {x = y} + {x <> y}
with cases_dec (x y : cases) {struct x} : {x = y} + {x <> y}
with fn_dec (x y : fn) {struct x} : {x = y} + {x <> y}.
Proof.
  - decide equality; try apply string_dec; try apply Nat.eq_dec; try apply expr_dec; try apply num_dec; try apply src_dec; try apply cond_dec.
  - decide equality.
  - decide equality. apply string_dec.
  - decide equality; [apply table_dec|apply bool_dec].
Defined.
Definition bitOperation (g : fn) : bool := if fn_dec g parseBitOperation then true else false.

(** The parser of BIT_OPERATION and those that call it. *)
Definition withBitOperation : list string :=
  ["parseBitOperation"; "parseMeasurement"; "parseTypeDefMeasurement"; "parseModule"; "parseProject"; "parseA2l"]%string.

Definition named (l : list string) (p : string * fn) : bool := existsb (String.eqb (fst p)) l.
Lemma strict_check : forallb (fun p => named withBitOperation p || efn none (snd p)) allParsers = true.
Proof. vm_compute. reflexivity. Qed.
Lemma lax_check : forallb (fun p => named ["parseBitOperation"]%string p || efn bitOperation (snd p)) allParsers = true.
Proof. vm_compute. reflexivity. Qed.

Lemma named_in : forall l n g, ~ In n l -> named l (n, g) = false.
Proof.
  intros l n g H. destruct (named l (n, g)) eqn:E; [|reflexivity]. exfalso. apply H. apply existsb_exists in E. destruct E as (x & I & E).
  cbn in E. apply String.eqb_eq in E. subst. exact I.
Qed.

Lemma clean_iff : forall lax toks pf g i v j, efn lax g = true -> (returns toks pf g i v false j <-> clean lax toks pf g i v j).
Proof.
  intros lax toks pf g i v j H. pose proof (fun fuel => proj2 (proj2 (proj2 (sound toks pf fuel lax))) g H i) as K.
  split; intros (n & R); exists n; intros fuel F; specialize (R fuel F); specialize (K fuel); rewrite R in K.
  - rewrite K. reflexivity.
  - destruct (call isKeyword toks pf fuel g i) as [w [|] k| |]; cbn [result] in K; try discriminate. injection K as -> ->. reflexivity.
Qed.

(** A parser returns a value without an error exactly if nothing failed on the
    way, neither in it nor in the parsers of the objects inside. *)
Theorem C72_no_error_lost_guarded : forall name g toks pf i v j, In (name, g) allParsers -> ~ In name withBitOperation ->
    (returns toks pf g i v false j <-> clean none toks pf g i v j).
Proof.
  intros name g toks pf i v j I N. apply clean_iff. pose proof (proj1 (forallb_forall _ _) strict_check _ I) as K.
  cbv beta in K. rewrite (named_in _ _ _ N) in K. exact K.
Qed.
Print Assumptions C72_no_error_lost_guarded.

(** The same for all parsers but that of BIT_OPERATION, in which only the error counts that it returns. *)
Theorem C72_no_error_lost : forall name g toks pf i v j, In (name, g) allParsers -> name <> "parseBitOperation"%string ->
    (returns toks pf g i v false j <-> clean bitOperation toks pf g i v j).
Proof.
  intros name g toks pf i v j I N. apply clean_iff. pose proof (proj1 (forallb_forall _ _) lax_check _ I) as K.
  cbv beta in K. rewrite named_in in K; [exact K|]. cbn. intuition congruence.
Qed.
Print Assumptions C72_no_error_lost.

(** parseBitOperation goes on after an unexpected keyword, and the next call overwrites the error. *)
Definition bitTokens : list bytes := map b ["/begin BIT_OPERATION"; "/begin MODULE"; "LEFT_SHIFT"; "1"; "/end BIT_OPERATION"; ""]%string.
Theorem C72_bit_operation_refuted : exists v, (forall pf, returns bitTokens pf parseBitOperation 0 v false 4)
    /\ forall pf w j, ~ clean none bitTokens pf parseBitOperation 0 w j.
Proof.
  eexists. split.
  - intros pf. apply (returns_run 50). vm_compute. reflexivity.
  - intros pf w j (n & R). specialize (R (S n) ltac:(lia)). vm_compute in R. discriminate.
Qed.
Print Assumptions C72_bit_operation_refuted.

(** Whole files, parsed sequentially. *)
Theorem C72_file : forall gr pf cpus content t a, A2lFileModel.fileTokens gr cpus content (Some t) -> TokModel.tk_multithreading t = false ->
    (A2lFileModel.parseFromFile gr pf cpus (Some content) (A2lFileModel.Returned a false) <->
     exists j, clean bitOperation (TokModel.tk_list t) pf parseA2l 0 (VObj a) j).
Proof.
  intros gr pf cpus content t a T MT. pose proof (A2lFileProps.C65_sequential gr pf cpus content t (A2lFileModel.Returned a false) T MT) as S.
  assert (I : In ("parseA2l"%string, parseA2l) allParsers) by (unfold allParsers; repeat (first [left; reflexivity|right])).
  rewrite S. split.
  - intros (a' & e & j & E & R). injection E as <- <-. exists j. apply (C72_no_error_lost _ _ _ _ _ _ _ I ltac:(discriminate)), R.
  - intros (j & R). exists a, false, j. split; [reflexivity|]. apply (C72_no_error_lost _ _ _ _ _ _ _ I ltac:(discriminate)), R.
Qed.
Print Assumptions C72_file.

(** A unit of which the last exponent is no number; with the number the parser succeeds. *)
Definition unitTokens (t : string) : list bytes :=
  map b ["/begin UNIT"; "u"; "l"; "d"; "DERIVED"; "SI_EXPONENTS"; "1"; "0"; "0"; "0"; "0"; "0"; t; "/end UNIT"; ""]%string.
Example C72_example : In ("parseUnit"%string, parseUnit) allParsers /\ ~ In "parseUnit"%string withBitOperation
  /\ (exists v, returns (unitTokens "-2") noFloats parseUnit 0 v false 13)
  /\ (exists v j, returns (unitTokens "two") noFloats parseUnit 0 v true j)
  /\ forall v j, ~ clean none (unitTokens "two") noFloats parseUnit 0 v j.
Proof.
  assert (I : In ("parseUnit"%string, parseUnit) allParsers) by (unfold allParsers; repeat (first [left; reflexivity|right])).
  assert (N : ~ In "parseUnit"%string withBitOperation) by (cbn; intuition congruence).
  assert (E : exists v j, returns (unitTokens "two") noFloats parseUnit 0 v true j) by (do 2 eexists; apply (returns_run 50); vm_compute; reflexivity).
  split; [exact I|]. split; [exact N|]. split; [eexists; apply (returns_run 50); vm_compute; reflexivity|]. split; [exact E|].
  intros v j C. apply (C72_no_error_lost_guarded _ _ _ _ _ _ _ I N) in C. destruct C as (n & C), E as (w & k & m & E).
  specialize (C (n + m) ltac:(lia)). specialize (E (n + m) ltac:(lia)). congruence.
Qed.

(** ** C73 *)

(** Decimal digits and numerals. *)
Definition digit (c : ascii) (d : Z) : Prop := (0 <= d <= 9)%Z /\ Z.of_N (N_of_ascii c) = (48 + d)%Z.
Inductive numeral : bytes -> Z -> Prop :=
  | One : forall c d, digit c d -> numeral [c] d
  | More : forall s n c d, numeral s n -> digit c d -> numeral (s ++ [c]) (10 * n + d).

Lemma digit_ok : forall c d, digit_val c = Some d <-> digit c (Z.of_N d).
Proof.
  intros c d. unfold digit, digit_val. generalize (N_of_ascii c). intros n.
  destruct ((48 <=? n)%N && (n <=? 57)%N) eqn:E.
  - apply andb_true_iff in E. destruct E as [E1 E2]. apply N.leb_le in E1, E2. split; [intros H; injection H as <-; lia|].
    intros [_ H]. f_equal. lia.
  - split; [discriminate|]. intros [H1 H2]. apply andb_false_iff in E. destruct E as [E|E]; apply N.leb_gt in E; lia.
Qed.

Lemma digits_app : forall s t a, digits (s ++ t) a = match digits s a with Some n => digits t n | None => None end.
Proof. induction s as [|c s IH]; intros t a; [reflexivity|]. cbn [app digits]. destruct (digit_val c); [apply IH|reflexivity]. Qed.

Lemma numeral_digits : forall s z, numeral s z -> s <> [] /\ exists n, digits s 0 = Some n /\ z = Z.of_N n.
Proof.
  intros s z H. induction H as [c d D|s z c d H [NE (n & E & ->)] D].
  - split; [discriminate|]. exists (Z.to_N d). cbn [digits]. rewrite (proj2 (digit_ok c (Z.to_N d))).
    + split; [f_equal; lia|]. destruct D. lia.
    + destruct D as [D1 D2]. split; [lia|]. rewrite Z2N.id by lia. exact D2.
  - split; [destruct s; discriminate|]. exists (10 * n + Z.to_N d)%N. rewrite digits_app, E. cbn [digits]. rewrite (proj2 (digit_ok c (Z.to_N d))).
    + destruct D. split; [reflexivity|lia].
    + destruct D as [D1 D2]. split; [lia|]. rewrite Z2N.id by lia. exact D2.
Qed.
Lemma digits_numeral : forall s n, s <> [] -> digits s 0 = Some n -> numeral s (Z.of_N n).
Proof.
  induction s as [|c s IH] using rev_ind; intros n NE H; [congruence|]. rewrite digits_app in H. destruct (digits s 0) as [m|] eqn:E; [|discriminate].
  cbn [digits] in H. destruct (digit_val c) as [d|] eqn:D; [|discriminate]. injection H as <-. apply digit_ok in D.
  destruct s as [|c0 s].
  - cbn in E. injection E as <-. cbn [app]. constructor. exact D.
  - pose proof (More _ _ c (Z.of_N d) (IH m ltac:(discriminate) eq_refl) D) as K.
    replace (10 * Z.of_N m + Z.of_N d)%Z with (Z.of_N (10 * m + d)) in K by lia. exact K.
Qed.

(** An unsigned integer parameter of [k] bits is read exactly if it is a decimal
    numeral below 2^k, and then as its value. *)
Theorem C73_unsigned : forall pf k t v, readNum pf (NUint k) t = Some v <-> exists z, numeral t z /\ (z < 2 ^ Z.of_N k)%Z /\ v = VInt z.
Proof.
  intros pf k t v. cbn [readNum]. unfold ParseUint.
  assert (P : forall n, (n <? 2 ^ k)%N = true <-> (Z.of_N n < 2 ^ Z.of_N k)%Z).
  { intros n. rewrite N.ltb_lt. pose proof (N2Z.inj_pow 2 k) as EP. change (Z.of_N 2) with 2%Z in EP. rewrite <- EP. lia. }
  split.
  - intros H. destruct t as [|c t]; [discriminate|]. destruct (digits (c :: t) 0) as [n|] eqn:E; [|discriminate].
    destruct (n <? 2 ^ k)%N eqn:L; [|discriminate]. injection H as <-. exists (Z.of_N n). apply P in L.
    split; [apply digits_numeral; [discriminate|exact E]|]. split; [exact L|reflexivity].
  - intros (z & H & L & ->). destruct (numeral_digits _ _ H) as [NE (n & E & ->)]. destruct t as [|c t]; [congruence|].
    rewrite E. apply P in L. rewrite L. reflexivity.
Qed.
Print Assumptions C73_unsigned.

(** A numeral with or without a sign. *)
Definition signed (t : bytes) (z : Z) : Prop :=
  numeral t z \/ (exists s, t = "+"%char :: s /\ numeral s z) \/ (exists s, t = "-"%char :: s /\ numeral s (- z)).

Lemma numeral_nonneg : forall s z, numeral s z -> (0 <= z)%Z.
Proof. intros s z H. destruct (numeral_digits _ _ H) as [_ (n & _ & ->)]. lia. Qed.
Lemma uint_iff : forall k t z, ParseUint k t = Some z <-> numeral t z /\ (z < 2 ^ Z.of_N k)%Z.
Proof.
  intros k t z. pose proof (C73_unsigned (fun _ => None) k t (VInt z)) as H. cbn [readNum] in H. split.
  - intros E. rewrite E in H. destruct (proj1 H eq_refl) as (z' & N & L & E'). injection E' as <-. auto.
  - intros [N L]. destruct (ParseUint k t) as [z'|]; [|discriminate (proj2 H (ex_intro _ z (conj N (conj L eq_refl))))].
    assert (E := proj2 H (ex_intro _ z (conj N (conj L eq_refl)))). cbn in E. congruence.
Qed.
Lemma numeral_first : forall c s z, numeral (c :: s) z -> exists d, digit c d.
Proof.
  intros c s z H. destruct (numeral_digits _ _ H) as [_ (n & E & _)]. cbn [digits] in E. destruct (digit_val c) as [d|] eqn:D; [|discriminate].
  exists (Z.of_N d). apply digit_ok, D.
Qed.

(** A signed integer parameter of [k] bits likewise. *)
Theorem C73_signed : forall pf k t v, (1 <= k <= 64)%N ->
    (readNum pf (NInt k) t = Some v <-> exists z, signed t z /\ (- 2 ^ (Z.of_N k - 1) <= z < 2 ^ (Z.of_N k - 1))%Z /\ v = VInt z).
Proof.
  intros pf k t v K. cbn [readNum]. set (h := (2 ^ (Z.of_N k - 1))%Z).
  assert (HB : (0 < h /\ h <= 2 ^ 63)%Z) by (split; [apply Z.pow_pos_nonneg; lia|apply Z.pow_le_mono_r; lia]).
  change (2 ^ 63)%Z with 9223372036854775808%Z in HB.
  assert (B64 : forall z, (z < 2 ^ Z.of_N 64)%Z <-> (z < 18446744073709551616)%Z) by (intros z; reflexivity).
  assert (U : forall s z, (z < 18446744073709551616)%Z -> numeral s z -> ParseUint 64 s = Some z) by (intros s z L H; apply uint_iff; split; [exact H|apply B64, L]).
  assert (D : forall s z, numeral s z -> (z < h)%Z -> match s with "+"%char :: r => False | "-"%char :: r => False | _ => True end).
  { intros [|c s] z H _; [exact I|]. destruct (numeral_first _ _ _ H) as (d & D1 & D2).
    destruct (ascii_dec c "+") as [->|N1]; [change (Z.of_N (N_of_ascii "+")) with 43%Z in D2; lia|].
    destruct (ascii_dec c "-") as [->|N2]; [change (Z.of_N (N_of_ascii "-")) with 45%Z in D2; lia|].
    destruct c as [[] [] [] [] [] [] [] []]; try exact I; congruence. }
  assert (Q : ParseInt k t = match t with
      | "+"%char :: r => match ParseUint 64 r with Some n => if (n <? h)%Z then Some n else None | None => None end
      | "-"%char :: r => match ParseUint 64 r with Some n => if (n <=? h)%Z then Some (- n)%Z else None | None => None end
      | _ => match ParseUint 64 t with Some n => if (n <? h)%Z then Some n else None | None => None end end).
  { unfold ParseInt, h. destruct t as [|[[] [] [] [] [] [] [] []] t]; reflexivity. }
  rewrite Q. clear Q. split.
  - assert (G : forall s, option_map VInt (match ParseUint 64 s with Some n => if (n <? h)%Z then Some n else None | None => None end) = Some v ->
        exists z, numeral s z /\ (- h <= z < h)%Z /\ v = VInt z).
    { intros s E. destruct (ParseUint 64 s) as [n|] eqn:E1; [|discriminate]. destruct (n <? h)%Z eqn:L; [|discriminate]. injection E as <-.
      apply uint_iff in E1. destruct E1 as [E1 _]. pose proof (numeral_nonneg _ _ E1). apply Z.ltb_lt in L. exists n. split; [exact E1|]. split; [lia|reflexivity]. }
    assert (M : forall s, option_map VInt (match ParseUint 64 s with Some n => if (n <=? h)%Z then Some (- n)%Z else None | None => None end) = Some v ->
        exists z, numeral s (- z) /\ (- h <= z < h)%Z /\ v = VInt z).
    { intros s E. destruct (ParseUint 64 s) as [n|] eqn:E1; [|discriminate]. destruct (n <=? h)%Z eqn:L; [|discriminate]. injection E as <-.
      apply uint_iff in E1. destruct E1 as [E1 _]. pose proof (numeral_nonneg _ _ E1). apply Z.leb_le in L. exists (- n)%Z. rewrite Z.opp_involutive. split; [exact E1|]. split; [lia|reflexivity]. }
    intros E. destruct t as [|c t]; [discriminate|].
    destruct (ascii_dec c "+") as [->|N1].
    { destruct (G t E) as (z & H1 & H2 & H3). exists z. split; [right; left; eauto|auto]. }
    destruct (ascii_dec c "-") as [->|N2].
    { destruct (M t E) as (z & H1 & H2 & H3). exists z. split; [right; right; eauto|auto]. }
    assert (E' : option_map VInt (match ParseUint 64 (c :: t) with Some n => if (n <? h)%Z then Some n else None | None => None end) = Some v)
      by (destruct c as [[] [] [] [] [] [] [] []]; try exact E; congruence).
    destruct (G _ E') as (z & H1 & H2 & H3). exists z. split; [left; exact H1|auto].
  - intros (z & S & L & ->). destruct S as [S|[(s & -> & S)|(s & -> & S)]].
    + pose proof (D t z S ltac:(lia)) as DD. rewrite (U t z ltac:(lia) S), (proj2 (Z.ltb_lt _ _)) by lia.
      destruct t as [|[[] [] [] [] [] [] [] []] t]; try contradiction; reflexivity.
    + rewrite (U s z ltac:(lia) S), (proj2 (Z.ltb_lt _ _)) by lia. reflexivity.
    + rewrite (U s (- z)%Z ltac:(lia) S), (proj2 (Z.leb_le _ _)) by lia. rewrite Z.opp_involutive. reflexivity.
Qed.
Print Assumptions C73_signed.

(** ASAP2 also allows hexadecimal integers; they are never read. *)
Theorem C73_hex_refuted : forall pf k s n, n = NUint k \/ n = NInt k -> readNum pf n ("0"%char :: "x"%char :: s) = None.
Proof. intros pf k s n [->| ->]; reflexivity. Qed.
Print Assumptions C73_hex_refuted.

(** In an object: an address extension. *)
Theorem C73_extension_refuted : forall pf s, exists v,
    returns [b "ECU_ADDRESS_EXTENSION"; "0"%char :: "x"%char :: s; []] pf parseECUAddressExtension 0 v true 1.
Proof.
  intros pf s. eexists. exists 0. intros fuel _. vm_compute. reflexivity.
Qed.
Print Assumptions C73_extension_refuted.

Example C73_example : numeral (b "042") 42 /\ signed (b "-32768") (-32768)
  /\ readNum noFloats (NUint 16) (b "042") = Some (VInt 42) /\ readNum noFloats (NInt 16) (b "-32768") = Some (VInt (-32768))
  /\ readNum noFloats (NInt 16) (b "32768") = None /\ readNum noFloats (NUint 16) (b "1e3") = None.
Proof.
  split; [exact (digits_numeral (b "042") 42 ltac:(discriminate) eq_refl)|].
  split; [right; right; eexists; split; [reflexivity|]; exact (digits_numeral (b "32768") 32768 ltac:(discriminate) eq_refl)|].
  repeat split; vm_compute; reflexivity.
Qed.
