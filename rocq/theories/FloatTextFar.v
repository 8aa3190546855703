(** Exponents of any size, of which strconv does not read all digits: the proofs for C87. *)
From Coq Require Import String Ascii List Arith NArith ZArith Bool Lia SpecFloat.
From Verif Require Import GoBase GoBaseFacts StrconvModel FloatSpec FloatProofs FloatArith FloatTextSpec FloatRound FloatTextThm FloatTextMore.
Import ListNotations.

(** ** The digits of an exponent *)

(** the number that is read for the digits *)
Definition kept (ds : bytes) : N := fst (exponent 0 ds).

Lemma exponent_all : forall ds l e, areDigits false ds l -> snd (exponent e ds) = [].
Proof.
  intros ds l e H. revert e. induction H as [|c d ds l D H IH]; intros e; [reflexivity|].
  cbn [exponent]. rewrite (digit_other false c d "_") by (assumption || (cbn; tauto)).
  pose proof (digit_nonneg _ _ _ D) as D0. rewrite <- (Z2N.id d D0) in D. apply digit_iff in D. cbn [floatDigit] in D. rewrite D. apply IH.
Qed.
Lemma exponent_far : forall ds l e, areDigits false ds l -> (10000 <= e)%N -> fst (exponent e ds) = e.
Proof.
  intros ds l e H. revert e. induction H as [|c d ds l D H IH]; intros e E; [reflexivity|].
  cbn [exponent]. rewrite (digit_other false c d "_") by (assumption || (cbn; tauto)).
  pose proof (digit_nonneg _ _ _ D) as D0. rewrite <- (Z2N.id d D0) in D. apply digit_iff in D. cbn [floatDigit] in D. rewrite D.
  replace (e <? 10000)%N with false by (symmetry; apply N.ltb_ge; exact E). apply IH. exact E.
Qed.
Lemma exponent_kept : forall ds l e, areDigits false ds l -> (10000 <= more 10 (Z.of_N e) l)%Z -> (10000 <= fst (exponent e ds))%N.
Proof.
  intros ds l e H. revert e. induction H as [|c d ds l D H IH]; intros e E; [cbn in *; lia|].
  pose proof (exponent_far (c :: ds) (d :: l) e (Forall2_cons _ _ D H)) as FAR.
  cbn [exponent] in *. rewrite (digit_other false c d "_") in * by (assumption || (cbn; tauto)).
  pose proof (digit_nonneg _ _ _ D) as D0. rewrite <- (Z2N.id d D0) in D. apply digit_iff in D. cbn [floatDigit] in D. rewrite D in *.
  destruct (e <? 10000)%N eqn:L.
  - apply IH. cbn [more fold_left] in E. fold (more 10 (10 * Z.of_N e + d) l) in E. replace (Z.of_N (10 * e + Z.to_N d)) with (10 * Z.of_N e + d)%Z by lia. exact E.
  - apply N.ltb_ge in L. rewrite (FAR L). exact L.
Qed.
Lemma kept_far : forall ds l, areDigits false ds l -> (10000 <= inBase 10 l)%Z -> (10000 <= kept ds)%N.
Proof. intros ds l D H. apply (exponent_kept ds l 0 D). exact H. Qed.

(** ** What is read of a number with an exponent *)

Definition signed (neg : bool) (e : Z) : Z := ((if neg then -1 else 1) * e)%Z.

Lemma digits_first : forall ds l, areDigits false ds l -> l <> [] -> exists d ds', ds = d :: ds' /\ digit_val d <> None.
Proof.
  intros ds l D N. destruct ds as [|d ds]; [inversion D; subst; congruence|]. exists d, ds. split; [reflexivity|].
  inversion D as [|? x ? ? X]; subst. pose proof (digit_nonneg _ _ _ X) as X0. rewrite <- (Z2N.id x X0) in X. apply digit_iff in X. cbn [floatDigit] in X. congruence.
Qed.

Lemma read_decimal : forall sg neg mt l l' c sg' neg' ds k, isSign sg neg -> isMantissa false mt l l' -> c = "e"%char \/ c = "E"%char -> isSign sg' neg' -> areDigits false ds k -> k <> [] ->
    readFloat (sg ++ mt ++ c :: sg' ++ ds) = Some (neg, false, Z.to_N (inBase 10 (l ++ l')), (signed neg' (Z.of_N (kept ds)) - Z.of_nat (length l'))%Z).
Proof.
  intros sg neg mt l l' c sg' neg' ds k S0 M C S1 D N. pose proof (Expo "e" "E" c sg' neg' ds k C S1 D N) as X.
  destruct (mantissa_head _ _ _ _ M) as (c0 & r & E & Hc). destruct (digits_first _ _ D N) as (d & ds' & ED & DV). pose proof (exponent_all ds k 0 D) as EA.
  pose proof (sign_reads sg' neg' ds S1 (sign_head _ _ D)) as SG. unfold readFloat. rewrite (sign_reads sg neg) by (assumption || (rewrite E; eapply head_no_sign; exact Hc)).
  assert (St : stops false false (c :: sg' ++ ds)) by (destruct C as [->| ->]; repeat split).
  rewrite notHex_body by (eapply mantissa_notHex; [exact M|destruct C as [->| ->]; split; discriminate]).
  rewrite (mantissa_reads false mt l l' _ M St). cbn [negb baseOf].
  rewrite no_underscores.
  2:{ intros F. apply in_app_or in F. destruct F as [F|F]; [exact (mantissa_free _ _ _ _ M F)|]. revert F. eapply exponent_free; [exact X|discriminate|discriminate]. }
  assert (isByte "e" "E" c = true) as -> by (destruct C as [->| ->]; reflexivity).
  rewrite SG. unfold kept. destruct (exponent 0 ds) as [e more']. cbn [fst snd] in *. subst more'. rewrite ED. destruct (digit_val d); [|congruence]. 
  rewrite Z.mul_1_l. unfold signed. destruct neg'; rewrite ?Z.mul_1_l; [replace (-1 * Z.of_N e)%Z with (- Z.of_N e)%Z by lia|]; reflexivity.
Qed.

Lemma read_hex : forall sg neg x mt l l' c sg' neg' ds k, isSign sg neg -> x = "x"%char \/ x = "X"%char -> isMantissa true mt l l' -> c = "p"%char \/ c = "P"%char -> isSign sg' neg' -> areDigits false ds k -> k <> [] ->
    readFloat (sg ++ "0"%char :: x :: mt ++ c :: sg' ++ ds) = Some (neg, true, Z.to_N (inBase 16 (l ++ l')), (signed neg' (Z.of_N (kept ds)) - 4 * Z.of_nat (length l'))%Z).
Proof.
  intros sg neg x mt l l' c sg' neg' ds k S0 Hx M C S1 D N. pose proof (Expo "p" "P" c sg' neg' ds k C S1 D N) as X.
  destruct (mantissa_head _ _ _ _ M) as (c0 & r & E & Hc). destruct (digits_first _ _ D N) as (d & ds' & ED & DV). pose proof (exponent_all ds k 0 D) as EA.
  pose proof (sign_reads sg' neg' ds S1 (sign_head _ _ D)) as SG. unfold readFloat. rewrite (sign_reads sg neg) by (assumption || (split; discriminate)).
  assert (BY : isByte "x" "X" x = true) by (destruct Hx as [->| ->]; reflexivity).
  assert (St : stops true false (c :: sg' ++ ds)) by (destruct C as [->| ->]; repeat split).
  pose proof (mantissa_reads true mt l l' _ M St) as R. subst mt. cbn [app] in R |- *. rewrite BY.
  change (("0" =? "0")%char && true) with true. cbv beta iota. rewrite R. cbn [negb baseOf].
  rewrite no_underscores.
  2:{ intros F. rewrite app_comm_cons in F. apply in_app_or in F. destruct F as [F|F]; [exact (mantissa_free _ _ _ _ M F)|]. revert F. eapply exponent_free; [exact X|discriminate|discriminate]. }
  assert (isByte "p" "P" c = true) as -> by (destruct C as [->| ->]; reflexivity).
  rewrite SG. unfold kept. destruct (exponent 0 ds) as [e more']. cbn [fst snd] in *. subst more'. rewrite ED. destruct (digit_val d); [|congruence].
  unfold signed. destruct neg'; rewrite ?Z.mul_1_l; [replace (-1 * Z.of_N e)%Z with (- Z.of_N e)%Z by lia|]; reflexivity.
Qed.

(** ** Very large and very small numbers *)

Lemma zero_rounded : forall neg p q, (0 <= p)%Z -> (2 * (p * unit1) < q)%Z -> rounded neg p q (S754_zero neg).
Proof.
  intros neg p q P H. split; [reflexivity|]. split; [reflexivity|]. exists 0%Z. split; [reflexivity|]. intros g w _ _.
  assert (A : (Z.abs (0 * q - (if neg then -1 else 1) * p * unit1) = p * unit1)%Z).
  { assert (0 <= p * unit1)%Z by (apply Z.mul_nonneg_nonneg; [exact P|unfold unit1; apply Z.pow_nonneg; lia]). destruct neg; rewrite Z.mul_0_l, <- Z.mul_assoc; lia. }
  rewrite A. assert (B : (w <> 0 -> p * unit1 < Z.abs (w * q - (if neg then -1 else 1) * p * unit1))%Z).
  { intros W. rewrite <- Z.mul_assoc. set (u := (p * unit1)%Z) in *. clearbody u. assert (0 < q)%Z by lia. assert (q <= w * q \/ w * q <= - q)%Z by nia. destruct neg; lia. }
  destruct (Z.eq_dec w 0) as [->|W]; [rewrite A; split; [lia|tauto]|]. specialize (B W). split; [lia|]. intros _ E. lia.
Qed.

Lemma denom_pos : forall base x, (0 < base)%Z -> (0 < denom base x)%Z.
Proof. intros. unfold denom. apply Z.pow_pos_nonneg; lia. Qed.
Lemma small_zero : forall neg (hex : bool) m x, (x <= 0)%Z -> (Z.of_N m * 2 ^ 2000 <= (if hex then 2 else 10) ^ (- x))%Z -> StrconvModel.nearest neg hex m x = S754_zero neg.
Proof.
  intros neg hex m x X H. pose proof (nearest_rounded neg hex m x) as [N _]. set (base := if hex then 2%Z else 10%Z) in *.
  assert (B : (0 < base)%Z) by (destruct hex; cbn; lia). pose proof (denom_pos base x B) as Q.
  assert (EP : numer base (Z.of_N m) x = Z.of_N m) by (unfold numer; rewrite Z.max_l by lia; rewrite Z.pow_0_r; lia).
  assert (EQ : denom base x = (base ^ (- x))%Z) by (unfold denom; rewrite Z.max_r by lia; reflexivity).
  assert (Z1 : (2 * (Z.of_N m * unit1) < denom base x)%Z).
  { rewrite EQ. destruct (Z.eq_dec (Z.of_N m) 0) as [->|NZ]; [cbn [Z.mul]; apply Z.pow_pos_nonneg; lia|].
    apply Z.lt_le_trans with (Z.of_N m * 2 ^ 2000)%Z; [|exact H]. rewrite Z.mul_assoc, (Z.mul_comm 2), <- Z.mul_assoc. apply Z.mul_lt_mono_pos_l; [lia|]. vm_compute. reflexivity. }
  apply (rounded_unique neg (numer base (Z.of_N m) x) (denom base x)); [exact Q| |].
  - apply N. rewrite EP. assert (Z.of_N m <= 2 * (Z.of_N m * unit1))%Z by (assert (U1 : (1 <= unit1)%Z) by (vm_compute; discriminate); revert U1; generalize unit1; intros u U1; nia).
    assert (L1 : (1 <= limit)%Z) by (vm_compute; discriminate). apply Z.lt_le_trans with (1 * denom base x)%Z; [lia|]. apply Z.mul_le_mono_nonneg_r; lia.
  - rewrite EP. apply zero_rounded; [lia|exact Z1].
Qed.
Lemma big_infinite : forall neg (hex : bool) m x, m <> 0%N -> (2000 <= x)%Z -> StrconvModel.nearest neg hex m x = S754_infinity neg.
Proof.
  intros neg hex m x M X. pose proof (nearest_rounded neg hex m x) as [_ N]. set (base := if hex then 2%Z else 10%Z) in *. apply N. clear N.
  unfold numer, denom. rewrite (Z.max_l 0 (- x)), (Z.max_r 0 x) by lia. rewrite Z.pow_0_r, Z.mul_1_r.
  assert (P : (2 ^ 2000 <= base ^ x)%Z). { apply Z.le_trans with (2 ^ x)%Z; [apply Z.pow_le_mono_r; lia|]. apply Z.pow_le_mono_l. destruct hex; cbn; lia. }
  assert (L : (limit <= 2 ^ 2000)%Z) by (vm_compute; discriminate). apply Z.le_trans with (1 * base ^ x)%Z; [lia|]. apply Z.mul_le_mono_nonneg_r; [apply Z.pow_nonneg; destruct hex; cbn; lia|lia].
Qed.

(** the same is computed for two exponents of which none is near *)
Lemma far_same : forall neg (hex : bool) m (k : nat) x y, let base := if hex then 2%Z else 10%Z in (Z.of_N m < base ^ Z.of_nat k)%Z ->
    (2000 <= x)%Z /\ (2000 <= y)%Z \/ (x + Z.of_nat k + 2000 <= 0)%Z /\ (y + Z.of_nat k + 2000 <= 0)%Z ->
    StrconvModel.nearest neg hex m x = StrconvModel.nearest neg hex m y.
Proof.
  intros neg hex m k x y base M [[X Y]|[X Y]].
  - destruct (N.eq_dec m 0) as [->|NZ]; [reflexivity|]. rewrite !big_infinite by assumption. reflexivity.
  - assert (B : (2 <= base)%Z) by (destruct hex; cbn; lia).
    assert (S : forall z, (z + Z.of_nat k + 2000 <= 0)%Z -> StrconvModel.nearest neg hex m z = S754_zero neg).
    { intros z Zk. apply small_zero; [lia|]. fold base. apply Z.le_trans with (base ^ Z.of_nat k * base ^ 2000)%Z.
      - apply Z.mul_le_mono_nonneg; [lia|lia|apply Z.pow_nonneg; lia|]. apply Z.pow_le_mono_l. lia.
      - rewrite <- Z.pow_add_r by lia. apply Z.pow_le_mono_r; lia. }
    rewrite (S x X), (S y Y). reflexivity.
Qed.

(** ** Numbers in texts of at most 2000 characters *)

Lemma digit_below : forall hex c d, isDigit hex c d -> (d < (if hex then 16 else 10))%Z.
Proof. intros hex c d [[H _]|(-> & H & _)]; [destruct hex; lia|lia]. Qed.
Lemma more_below : forall (hex : bool) ds l a k, areDigits hex ds l -> (0 <= a)%Z -> (0 <= k)%Z -> let base := if hex then 16%Z else 10%Z in (a < base ^ k)%Z -> (more base a l < base ^ (k + Z.of_nat (length l)))%Z.
Proof.
  intros hex ds l a k D. revert a k. induction D as [|c d ds l H D IH]; intros a k A K base B; [cbn [more fold_left length]; rewrite Z.add_0_r; exact B|].
  cbn [more fold_left length]. fold (more base (base * a + d) l). replace (k + Z.of_nat (S (length l)))%Z with ((k + 1) + Z.of_nat (length l))%Z by lia.
  assert (BP : (0 < base)%Z) by (destruct hex; cbn; lia). pose proof (digit_nonneg _ _ _ H). pose proof (digit_below _ _ _ H) as DB. fold base in DB. apply IH; [nia|lia|]. fold base. rewrite Z.pow_add_r, Z.pow_1_r by lia. nia.
Qed.
Lemma digits_length : forall hex ds l, areDigits hex ds l -> length ds = length l.
Proof. intros hex ds l D. induction D; cbn; congruence. Qed.
Lemma mantissa_size : forall (hex : bool) mt l l', isMantissa hex mt l l' -> let base := if hex then 16%Z else 10%Z in (inBase base (l ++ l') < base ^ Z.of_nat (length mt))%Z /\ length l' <= length mt.
Proof.
  intros hex mt l l' M base. assert (BP : (0 < base)%Z) by (destruct hex; cbn; lia). destruct M as [ds l D N|ds l ds' l' D D' N].
  - rewrite app_nil_r. split; [|cbn; lia]. pose proof (more_below hex ds l 0 0 D ltac:(lia) ltac:(lia) ltac:(cbn; lia)) as H. rewrite (digits_length _ _ _ D). exact H.
  - pose proof (more_below hex (ds ++ ds') (l ++ l') 0 0 (Forall2_app D D') ltac:(lia) ltac:(lia) ltac:(cbn; lia)) as H. cbv zeta in H. fold base in H.
    rewrite !app_length. pose proof (digits_length _ _ _ D). pose proof (digits_length _ _ _ D'). cbn [b list_ascii_of_string length]. split; [|lia].
    eapply Z.lt_le_trans; [exact H|]. apply Z.pow_le_mono_r; [exact BP|]. rewrite app_length. lia.
Qed.

Lemma read_far : forall t neg p q e, isNumber t neg p q e -> (100000 <= Z.abs e)%Z -> length t <= 2000 ->
    exists (hex : bool) m x y, readFloat t = Some (neg, hex, m, x) /\ p = numer (if hex then 2 else 10) (Z.of_N m) y /\ q = denom (if hex then 2 else 10) y /\
      StrconvModel.nearest neg hex m x = StrconvModel.nearest neg hex m y.
Proof.
  intros t neg p q e H B L. destruct H as [sg neg mt l l' S0 M|sg neg mt l l' ex e S0 M X|sg neg x mt l l' ex e S0 Hx M X].
  - cbn in B. lia.
  - destruct X as [c sg' neg' ds k C S1 D N]. pose proof (inBase_nonneg 10 k ltac:(lia) (digits_nonneg _ _ _ D)) as P.
    assert (FAR : (100000 <= inBase 10 k)%Z) by (destruct neg'; lia). pose proof (kept_far ds k D ltac:(lia)) as KF.
    exists false. do 3 eexists. split; [apply (read_decimal sg neg mt l l' c sg' neg' ds k); assumption|].
    pose proof (mantissa_size _ _ _ _ M) as [MS ML]. cbv zeta in MS. pose proof (inBase_nonneg 10 (l ++ l') ltac:(lia) (mantissa_nonneg _ _ _ _ M)) as MP.
    rewrite Z2N.id by exact MP. split; [reflexivity|]. split; [reflexivity|].
    rewrite !app_length in L. assert (LM : length mt <= 2000) by lia. apply (far_same neg false _ (length mt)); [rewrite Z2N.id by exact MP; exact MS|].
    unfold signed. clear - KF FAR LM ML. destruct neg'; [right|left]; lia.
  - destruct X as [c sg' neg' ds k C S1 D N]. pose proof (inBase_nonneg 10 k ltac:(lia) (digits_nonneg _ _ _ D)) as P.
    assert (FAR : (100000 <= inBase 10 k)%Z) by (destruct neg'; lia). pose proof (kept_far ds k D ltac:(lia)) as KF.
    exists true. do 3 eexists. split; [apply (read_hex sg neg x mt l l' c sg' neg' ds k); assumption|].
    pose proof (mantissa_size _ _ _ _ M) as [MS ML]. cbv zeta in MS. pose proof (inBase_nonneg 16 (l ++ l') ltac:(lia) (mantissa_nonneg _ _ _ _ M)) as MP.
    rewrite Z2N.id by exact MP. split; [reflexivity|]. split; [reflexivity|].
    rewrite !app_length in L. cbn [length] in L. rewrite !app_length in L. assert (LM : length mt <= 2000) by lia. apply (far_same neg true _ (4 * length mt)).
    + rewrite Z2N.id by exact MP. replace (Z.of_nat (4 * length mt)) with (4 * Z.of_nat (length mt))%Z by lia. rewrite Z.pow_mul_r by lia. exact MS.
    + unfold signed. clear - KF FAR LM ML. destruct neg'; [right|left]; lia.
Qed.

Lemma parse_usual : forall t neg p q e, isNumber t neg p q e -> usual t e ->
    (p < limit * q -> exists f, ParseFloat t = Some f /\ rounded neg p q f)%Z /\
    (limit * q <= p -> ParseFloat t = None /\ failedFloat t = S754_infinity neg)%Z.
Proof.
  intros t neg p q e H U. destruct (Z.lt_ge_cases (Z.abs e) 100000) as [B|B]; [exact (parse_number t neg p q e H B)|].
  destruct U as [U|U]; [lia|]. destruct (read_far _ _ _ _ _ H B U) as (hex & m & x & y & R & -> & -> & NE).
  destruct (number_head _ _ _ _ _ H) as (sg & c & r & E & S0 & Hc).
  assert (SP : special t = None) by (rewrite E; eapply not_special; eassumption).
  unfold ParseFloat, failedFloat. rewrite SP, R, NE. pose proof (nearest_rounded neg hex m y) as N. cbv zeta in N. destruct N as [N1 N2]. split; intros L.
  - specialize (N1 L). exists (StrconvModel.nearest neg hex m y). split; [|exact N1]. apply rounded_finite in N1. destruct (StrconvModel.nearest neg hex m y); [reflexivity|destruct N1|destruct N1|reflexivity].
  - rewrite (N2 L). auto.
Qed.

(** ** What is read is a number *)

Lemma parse_means : forall t f, ParseFloat t = Some f -> means t f.
Proof.
  intros t f H. destruct (special t) as [g|] eqn:SP.
  - unfold ParseFloat in H. rewrite SP in H. injection H as <-. apply MeansWord. apply special_word. exact SP.
  - destruct (readFloat t) as [[[[neg hex] m] x]|] eqn:R; [|unfold ParseFloat in H; rewrite SP, R in H; discriminate]. destruct (readFloat_inv _ _ _ _ _ R) as (p & q & e & NB & _).
    pose proof (readFloat_separated _ _ _ _ _ R) as SE. apply (MeansNumber t f neg p q e NB SE). intros B.
    rewrite (proj1 (parse_plain _ _ _ _ _ NB SE)) in H. destruct (parse_usual _ _ _ _ _ NB B) as [N1 N2].
    destruct (Z.lt_ge_cases p (limit * q)) as [L|L].
    + destruct (N1 L) as (g & E & RG). rewrite E in H. injection H as <-. auto.
    + destruct (N2 L) as [E _]. congruence.
Qed.

(** ** A text of more than 100000 characters: the number is 1, and 0 is read *)

Definition longText : bytes := b "0." ++ (repeat "0"%char (Z.to_nat 100000) ++ b "1") ++ b "e100001".

Lemma zeros_digits : forall n, areDigits false (repeat "0"%char n) (repeat 0%Z n).
Proof. induction n as [|n IH]; constructor; [left; split; [lia|reflexivity]|exact IH]. Qed.
Lemma zeros_value : forall n a, a = 0%Z -> more 10 a (repeat 0%Z n) = 0%Z.
Proof. induction n as [|n IH]; intros a ->; [reflexivity|]. cbn [repeat more fold_left]. apply IH. reflexivity. Qed.

Lemma long_number : isNumber longText false 1 1 100001 /\ readFloat longText = Some (false, false, 1%N, (-90001)%Z).
Proof.
  unfold longText. assert (EN : Z.of_nat (Z.to_nat 100000) = 100000%Z) by (apply Z2Nat.id; lia). revert EN. generalize (Z.to_nat 100000). intros n EN.
  assert (D : areDigits false (repeat "0"%char n ++ b "1") (repeat 0%Z n ++ [1%Z])).
  { apply Forall2_app; [apply zeros_digits|]. repeat constructor; lia. }
  assert (M : isMantissa false (b "0." ++ (repeat "0"%char n ++ b "1")) [0%Z] (repeat 0%Z n ++ [1%Z])).
  { apply (MantPoint false (b "0") [0%Z] _ _); [repeat constructor; lia|exact D|discriminate]. }
  assert (V : inBase 10 ([0%Z] ++ (repeat 0%Z n ++ [1%Z])) = 1%Z).
  { rewrite inBase_more. cbn [app]. cbn [more fold_left]. change (more 10 (10 * 0 + 0) (repeat 0%Z n ++ [1%Z]) = 1%Z). rewrite more_app, zeros_value by reflexivity. reflexivity. }
  assert (DX : areDigits false (b "100001") [1; 0; 0; 0; 0; 1]%Z) by (repeat constructor; lia).
  assert (X : isExponent "e" "E" (b "e100001") 100001). { apply (Expo "e" "E" "e" [] false (b "100001") [1; 0; 0; 0; 0; 1]%Z); [auto|constructor|exact DX|discriminate]. }
  assert (LL : Z.of_nat (length (repeat 0%Z n ++ [1%Z])) = 100001%Z) by (rewrite app_length, repeat_length; cbn [length]; lia).
  split.
  - pose proof (NumExpo [] false _ _ _ _ _ SignNone M X) as H. rewrite V, LL in H. cbn [app] in H. rewrite <- app_assoc in H. exact H.
  - pose proof (read_decimal [] false _ _ _ "e" [] false (b "100001") [1; 0; 0; 0; 0; 1]%Z SignNone M (or_introl eq_refl) SignNone DX ltac:(discriminate)) as H.
    rewrite V, LL in H. rewrite <- app_assoc in H. cbn [app] in H. exact H.
Qed.

Lemma long_zero : ParseFloat longText = Some (S754_zero false).
Proof.
  destruct long_number as [NB R]. destruct (number_head _ _ _ _ _ NB) as (sg & c & r & E & S0 & Hc).
  assert (SP : special longText = None) by (rewrite E; eapply not_special; eassumption). unfold ParseFloat. rewrite SP, R.
  rewrite small_zero; [reflexivity|lia|]. cbv iota. apply Z.le_trans with (2 ^ 90001)%Z; [|apply Z.pow_le_mono_l; lia].
  change (Z.of_N 1) with 1%Z. rewrite Z.mul_1_l. apply Z.pow_le_mono_r; lia.
Qed.
