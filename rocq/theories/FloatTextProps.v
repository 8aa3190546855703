(** Theorems of property C87: numbers with a fraction or an exponent are read as the
    nearest float64. *)
From Coq Require Import String Ascii List Arith NArith ZArith Bool Lia SpecFloat.
From Verif Require Import GoBase GoBaseFacts StrconvModel A2lIR A2lParsers A2lModModel A2lFileModel FloatSpec FloatProofs FloatArith FloatTextSpec FloatRound FloatTextThm FloatTextMore FloatTextFar OriginSpec OriginThm OriginProps A2lThm A2lSpec A2lProps A2lTokens.
From Verif Require A2lModProps A2lNestSpec TokModel.
Import ListNotations.

(** ** The text of a number *)

(** A number below the limit is read, as the nearest float64. *)
Theorem C87_nearest : forall t neg p q e, isNumber t neg p q e -> usual t e -> (p < limit * q)%Z ->
    exists f, ParseFloat t = Some f /\ rounded neg p q f.
Proof. intros t neg p q e H B L. exact (proj1 (parse_usual t neg p q e H B) L). Qed.
Print Assumptions C87_nearest.

(** A number from the limit on is an error, and an infinity is stored. *)
Theorem C87_too_large : forall t neg p q e, isNumber t neg p q e -> usual t e -> (limit * q <= p)%Z ->
    ParseFloat t = None /\ failedFloat t = S754_infinity neg.
Proof. intros t neg p q e H B L. exact (proj2 (parse_usual t neg p q e H B) L). Qed.
Print Assumptions C87_too_large.

(** Nothing else is read, but the words inf, infinity and nan. *)
Theorem C87_only : forall t f, ParseFloat t = Some f -> means t f.
Proof. exact parse_means. Qed.
Print Assumptions C87_only.

(** In texts of at most 2000 characters, or with exponents below 100000: a text is read as
    [f] exactly if it means [f], and only one float64 is meant. *)
Definition moderate (t : bytes) : Prop := forall neg p q e, isNumber (plain t) neg p q e -> usual (plain t) e.
Theorem C87_iff : forall t f, moderate t -> (ParseFloat t = Some f <-> means t f).
Proof.
  intros t f MO. split; [apply C87_only|]. intros [neg p q e NB SE R|W]; [|apply parse_word; exact W].
  destruct (R (MO _ _ _ _ NB)) as [L RF]. rewrite (proj1 (parse_plain _ _ _ _ _ NB SE)).
  destruct (C87_nearest _ _ _ _ _ NB (MO _ _ _ _ NB) L) as (g & -> & RG). f_equal. apply (rounded_unique neg p q g f); [|exact RG|exact RF].
  destruct NB; unfold denom; apply Z.pow_pos_nonneg; lia.
Qed.
Print Assumptions C87_iff.
Theorem C87_unique : forall neg p q f g, (0 < q)%Z -> rounded neg p q f -> rounded neg p q g -> f = g.
Proof. exact rounded_unique. Qed.
Print Assumptions C87_unique.
(** Without the bound it is false: 0, a point, 100000 zeros and 1e100001 is the number 1, and
    0 is read, since only five digits of the exponent are used. *)
Theorem C87_refuted : exists t neg p q e f, isNumber t neg p q e /\ (p < limit * q)%Z /\ ParseFloat t = Some f /\ ~ rounded neg p q f.
Proof.
  exists longText, false, 1%Z, 1%Z, 100001%Z, (S754_zero false). split; [exact (proj1 long_number)|]. split; [vm_compute; reflexivity|]. split; [exact long_zero|].
  intros (_ & _ & v & V & R). cbn in V. injection V as <-. assert (G : is_float64 (S754_finite false 4503599627370496 (-52))) by (cbn [is_float64]; lia).
  destruct (R _ unit1 G eq_refl) as [K _]. vm_compute in K. apply K. reflexivity.
Qed.
Print Assumptions C87_refuted.
(** An exponent with many digits in a short text *)
Example C87_far_example : usual (b "12.5E-123456789012345") (-123456789012345) /\ (exists p q, isNumber (b "12.5E-123456789012345") false p q (-123456789012345)) /\
    ParseFloat (b "12.5E-123456789012345") = Some (S754_zero false) /\ ParseFloat (b "1e123456") = None.
Proof.
  split; [right; cbn; lia|]. split.
  - assert (X : isExponent "e" "E" (b "E-123456789012345") (-123456789012345)).
    { apply (Expo "e" "E" "E" (b "-") true (b "123456789012345") [1; 2; 3; 4; 5; 6; 7; 8; 9; 0; 1; 2; 3; 4; 5]%Z); [auto|constructor|repeat constructor; lia|discriminate]. }
    assert (M : isMantissa false (b "12.5") [1; 2]%Z [5%Z]). { apply (MantPoint false (b "12") [1; 2]%Z (b "5") [5%Z]); [repeat constructor; lia|repeat constructor; lia|discriminate]. }
    do 2 eexists. exact (NumExpo [] false _ _ _ _ _ SignNone M X).
  - split.
    + assert (R : readFloat (b "12.5E-123456789012345") = Some (false, false, 125%N, (-12346)%Z)) by (vm_compute; reflexivity).
      unfold ParseFloat. rewrite R. replace (special (b "12.5E-123456789012345")) with (@None spec_float) by (vm_compute; reflexivity). rewrite small_zero; [reflexivity|lia|].
      cbv iota. apply Z.le_trans with (2 ^ 12346)%Z; [|apply Z.pow_le_mono_l; lia]. apply Z.le_trans with (2 ^ 7 * 2 ^ 2000)%Z; [apply Z.mul_le_mono_nonneg_r; [apply Z.pow_nonneg; lia|cbn; lia]|]. rewrite <- Z.pow_add_r by lia. apply Z.pow_le_mono_r; lia.
    + assert (R : readFloat (b "1e123456") = Some (false, false, 1%N, 12345%Z)) by (vm_compute; reflexivity).
      unfold ParseFloat. rewrite R. replace (special (b "1e123456")) with (@None spec_float) by (vm_compute; reflexivity). rewrite big_infinite; [reflexivity|discriminate|lia].
Qed.
(** What is stored with an error: an infinity for a number that is too large, else 0. *)
Theorem C87_failed : forall t, moderate t -> ParseFloat t = None ->
    (exists neg p q e, isNumber (plain t) neg p q e /\ separated t /\ (limit * q <= p)%Z /\ failedFloat t = S754_infinity neg) \/
    (forall neg p q e, isNumber (plain t) neg p q e -> ~ separated t) /\ failedFloat t = S754_zero false.
Proof.
  intros t MO H. destruct (readFloat t) as [[[[neg hex] m] x]|] eqn:R.
  - left. destruct (readFloat_inv _ _ _ _ _ R) as (p & q & e & NB & _). pose proof (readFloat_separated _ _ _ _ _ R) as SE. exists neg, p, q, e. split; [exact NB|]. split; [exact SE|].
    destruct (parse_plain _ _ _ _ _ NB SE) as [E1 E2]. destruct (Z.lt_ge_cases p (limit * q)) as [L|L].
    + exfalso. destruct (C87_nearest _ _ _ _ _ NB (MO _ _ _ _ NB) L) as (g & G & _). congruence.
    + split; [exact L|]. rewrite E2. apply (C87_too_large _ _ _ _ _ NB (MO _ _ _ _ NB) L).
  - right. split; [|unfold failedFloat; rewrite R; reflexivity]. intros neg p q e NB SE. rewrite (readFloat_plain t SE) in R.
    rewrite (proj1 (parse_plain _ _ _ _ _ NB SE)) in H. destruct (parse_usual _ _ _ _ _ NB (MO _ _ _ _ NB)) as [P1 P2]. destruct (Z.lt_ge_cases p (limit * q)) as [L|L].
    + destruct (P1 L) as (g & G & _). congruence.
    + destruct (P2 L) as [_ F]. unfold failedFloat in F. rewrite R in F. discriminate.
Qed.
Print Assumptions C87_failed.

(** A number that is a float64 is read exactly, so are the integers below 2^53. *)
Lemma rounded_exact : forall neg p q f g w, (0 < q)%Z -> rounded neg p q f -> is_float64 g -> fval g = Some w -> (w * q = (if neg then -1 else 1) * p * unit1)%Z -> fval f = Some w.
Proof.
  intros neg p q f g w Q (_ & _ & v & V & R) G W E. destruct (R g w G W) as [R1 _]. rewrite E in R1. rewrite Z.sub_diag in R1. cbn [Z.abs] in R1.
  assert (X : (v * q = w * q)%Z) by lia. apply Z.mul_cancel_r in X; [|lia]. subst v. exact V.
Qed.
Lemma number_denom : forall t neg p q e, isNumber t neg p q e -> (0 < q)%Z.
Proof. intros t neg p q e []; unfold denom; apply Z.pow_pos_nonneg; lia. Qed.
Theorem C87_exact : forall t neg p q e g w, isNumber t neg p q e -> usual t e -> (p < limit * q)%Z ->
    is_float64 g -> fval g = Some w -> (w * q = (if neg then -1 else 1) * p * unit1)%Z -> exists f, ParseFloat t = Some f /\ fval f = Some w.
Proof.
  intros t neg p q e g w H B L G W E. destruct (C87_nearest _ _ _ _ _ H B L) as (f & P & R). exists f. split; [exact P|]. eapply rounded_exact; try eassumption. eapply number_denom. exact H.
Qed.
Print Assumptions C87_exact.
Theorem C87_integer : forall sg neg ds l, isSign sg neg -> areDigits false ds l -> l <> [] -> (inBase 10 l < 2 ^ 53)%Z ->
    exists f, ParseFloat (sg ++ ds) = Some f /\ isint f ((if neg then -1 else 1) * inBase 10 l).
Proof.
  intros sg neg ds l S0 D N L. pose proof (NumPlain sg neg ds l [] S0 (MantWhole false ds l D N)) as H. cbn [length Z.of_nat] in H.
  assert (P0 : (0 <= inBase 10 l)%Z) by (apply inBase_nonneg; [lia|eapply digits_nonneg; exact D]).
  assert (E1 : numer 10 (inBase 10 (l ++ [])) (- 0) = inBase 10 l) by (unfold numer; rewrite app_nil_r; cbn; lia).
  assert (E2 : denom 10 (- 0) = 1%Z) by reflexivity. rewrite E1, E2 in H.
  assert (B : (inBase 10 l < limit * 1)%Z).
  { eapply Z.lt_trans; [exact L|]. rewrite Z.mul_1_r. unfold limit. apply Z.lt_le_trans with ((2 ^ 54 - 1) * 1)%Z; [reflexivity|].
    apply Z.mul_le_mono_nonneg_l; [lia|]. apply (Z.pow_le_mono_r 2 0 970); lia. }
  destruct (C87_nearest _ _ _ _ _ H ltac:(left; reflexivity) B) as (f & PF & R). exists f. split; [exact PF|]. split; [apply R|].
  destruct (rep_int ((if neg then -1 else 1) * inBase 10 l)) as (g & G & W); [destruct neg; lia|].
  eapply rounded_exact; [|exact R|exact G|exact W|]; [reflexivity|]. rewrite Z.mul_1_r. reflexivity.
Qed.
Print Assumptions C87_integer.

(** ** Numbers in a file *)

(** No keyword is a number: the assumption of C68. *)
Theorem C87_keywords : A2lNestSpec.rejects ParseFloat.
Proof.
  intros t [K| ->]; [|reflexivity].
  assert (E : forallb (fun k => match ParseFloat (b k) with Some _ => false | None => true end) keywords = true) by (vm_compute; reflexivity).
  unfold isKeyword in K. apply existsb_exists in K. destruct K as (k & I & E'). apply beqb_eq in E'. subst t.
  pose proof (proj1 (forallb_forall _ _) E k I) as D. cbv beta in D. destruct (ParseFloat (b k)); [discriminate|reflexivity].
Qed.
Print Assumptions C87_keywords.

(** [inside v w]: the value [w] is somewhere in [v]. *)
Inductive inside : val -> val -> Prop :=
  | InSelf : forall v, inside v v
  | InList : forall l v w, In v l -> inside v w -> inside (VList l) w
  | InMap : forall m k v w, In (k, v) m -> inside v w -> inside (VMap m) w
  | InObj : forall o f v w, In (f, v) o -> inside v w -> inside (VObj o) w.

Lemma origin_inside : forall given pf lax v w, inside v w -> origin given pf lax v -> origin given pf lax w.
Proof.
  intros given pf lax v w H. induction H as [v|l v w I H IH|m k v w I H IH|o f v w I H IH]; intros O; [exact O| | |].
  - apply IH. inversion O; subst; auto.
  - apply IH. inversion O; subst; eauto.
  - apply IH. inversion O; subst; eauto.
Qed.

(** Every parser: each float in the result is the float64 for a number that stands
    between the first and the last token, or with an error a zero or an infinity. *)
Theorem C87_parser : forall name g toks i v e j f, In (name, g) allParsers -> ended toks -> returns toks ParseFloat g i v e j -> inside v (VFloat f) ->
    exists t, between toks i j t /\ (means t f \/ e = true /\ ParseFloat t = None /\ (f = S754_zero false \/ f = S754_infinity false \/ f = S754_infinity true)).
Proof.
  intros name g toks i v e j f I EN R H. destruct (C86_parser _ _ _ _ _ _ _ _ I EN R) as [_ O]. apply (origin_inside _ _ _ _ _ H) in O.
  inversion O as [| | | | |t ? T P| |t ? LX T RP| | | |]; subst.
  - exists t. split; [exact T|left; apply C87_only; exact P].
  - exists t. split; [exact T|right]. inversion RP; subst. auto.
Qed.
Print Assumptions C87_parser.

(** A file that is read without an error. *)
Theorem C87_file : forall gr cpus content a, parseFromFile gr ParseFloat cpus (Some content) (Returned a false) ->
    exists t, fileTokens gr cpus content (Some t) /\
      forall f, inside (VObj a) (VFloat f) -> exists s, In s (TokModel.tk_list t) /\ means s f.
Proof.
  intros gr cpus content a H. destruct (C86_file _ _ _ _ _ _ H) as (t & T & O & _). exists t. split; [exact T|]. intros f I. apply (origin_inside _ _ _ _ _ I) in O.
  inversion O as [| | | | |s ? S0 P| |s ? LX| | | |]; subst; [|discriminate]. exists s. split; [exact S0|apply C87_only; exact P].
Qed.
Print Assumptions C87_file.

(** ** Examples *)

(** 0.1, with its nearest float64; a tie; numbers with exponents; numbers out of range;
    texts that are no numbers. *)
Definition tenth : spec_float := S754_finite false 7205759403792794 (-56).
Example C87_example :
  (isNumber (b "0.1") false 1 10 0 /\ ParseFloat (b "0.1") = Some tenth /\ rounded false 1 10 tenth)
  /\ (isNumber (b "-12.5e-1") true 125 100 (-1) /\ ParseFloat (b "-12.5e-1") = Some (S754_finite true 5629499534213120 (-52)))
  /\ ParseFloat (b "9007199254740993") = Some (S754_finite false 4503599627370496 1)
  /\ ParseFloat (b "9007199254740995") = Some (S754_finite false 4503599627370498 1)
  /\ (ParseFloat (b "1.7976931348623157e308") <> None /\ ParseFloat (b "1.7976931348623159e308") = None /\ failedFloat (b "-1e400") = S754_infinity true)
  /\ map (fun t => ParseFloat (b t)) ["0x1"; "1e"; "."; "1,5"; "1.2.3"; ""; "x"]%string = repeat None 7
  /\ ParseFloat (b "0x1p-2") = ParseFloat (b "0.25") /\ ParseFloat (b "1_000.5") = ParseFloat (b "1000.5") /\ ParseFloat (b "1__0") = None.
Proof.
  assert (N : isNumber (b "0.1") false 1 10 0).
  { apply (NumPlain [] false (b "0.1") [0%Z] [1%Z]); [constructor|]. apply (MantPoint false (b "0") [0%Z] (b "1") [1%Z]); [| |discriminate]; repeat constructor; lia. }
  split; [split; [exact N|split; [vm_compute; reflexivity|]]|].
  - destruct (C87_nearest _ _ _ _ _ N ltac:(left; reflexivity) ltac:(vm_compute; reflexivity)) as (f & P & R). assert (E : ParseFloat (b "0.1") = Some tenth) by (vm_compute; reflexivity). congruence.
  - split; [split; [|vm_compute; reflexivity]|].
    + apply (NumExpo (b "-") true (b "12.5") [1%Z; 2%Z] [5%Z] (b "e-1") (-1)); [constructor| |].
      * apply (MantPoint false (b "12") [1%Z; 2%Z] (b "5") [5%Z]); [| |discriminate]; repeat constructor; lia.
      * apply (Expo "e" "E" "e" (b "-") true (b "1") [1%Z]); [auto|constructor|repeat constructor; lia|discriminate].
    + repeat split; try (vm_compute; reflexivity). vm_compute. discriminate.
Qed.

(** A number with underscores: they are between digits. *)
Example C87_underscores : moderate (b "-1_0.5") /\ separated (b "-1_0.5") /\ isNumber (plain (b "-1_0.5")) true 105 10 0 /\
  means (b "-1_0.5") (S754_finite true 5910974510923776 (-49)) /\ ~ separated (b "1_.5") /\ ParseFloat (b "1_.5") = None /\ ParseFloat (b "0x_1p0") = ParseFloat (b "1") /\ ParseFloat (b "1_") = None.
Proof.
  assert (R : readFloat (b "-1_0.5") = Some (true, false, 105%N, (-1)%Z)) by (vm_compute; reflexivity).
  assert (MO : moderate (b "-1_0.5")).
  { intros neg p q e _. right. cbn. lia. }
  split; [exact MO|]. split; [exact (readFloat_separated _ _ _ _ _ R)|]. split.
  - apply (NumPlain (b "-") true (b "10.5") [1%Z; 0%Z] [5%Z]); [constructor|]. apply (MantPoint false (b "10") [1%Z; 0%Z] (b "5") [5%Z]); [| |discriminate]; repeat constructor; lia.
  - split; [apply (C87_iff _ _ MO); vm_compute; reflexivity|]. split; [|repeat split; vm_compute; reflexivity].
    intros SE. destruct (SE false (b "1") (b ".5")) as [_ (c & r' & d & E & D)]; [split; [discriminate|]|reflexivity|].
    + intros (sg & neg & x & r & SG & X & E). destruct SG; cbn in E; discriminate.
    + injection E as <- _. pose proof (digit_other _ _ _ "." D ltac:(cbn; tauto)). discriminate.
Qed.

(** The coefficients of a conversion, from the text to the tree. *)
Definition coeffs : list bytes := map b ["COEFFS"; "0"; "-0.1"; "6553.5"; "0"; "0"; "1E0"; "/end COMPU_METHOD"]%string ++ [[]].
Example C87_tree : exists o f g, returns coeffs ParseFloat parseCoeffs 0 (VObj o) false 6
    /\ fget "B" o = Some (VFloat f) /\ f = S754_finite true 7205759403792794 (-56)
    /\ fget "C" o = Some (VFloat g) /\ g = S754_finite false 7205649452630016 (-40)
    /\ inside (VObj o) (VFloat f) /\ rounded true 1 10 f.
Proof.
  do 3 eexists. split; [apply (A2lModProps.returns_run 50); vm_compute; reflexivity|]. split; [vm_compute; reflexivity|]. split; [reflexivity|].
  split; [vm_compute; reflexivity|]. split; [reflexivity|].
  split; [eapply InObj; [|apply InSelf]; repeat (first [left; reflexivity|right])|].
  assert (N : isNumber (b "-0.1") true 1 10 0).
  { apply (NumPlain (b "-") true (b "0.1") [0%Z] [1%Z]); [constructor|]. apply (MantPoint false (b "0") [0%Z] (b "1") [1%Z]); [| |discriminate]; repeat constructor; lia. }
  destruct (C87_nearest _ _ _ _ _ N ltac:(left; reflexivity) ltac:(vm_compute; reflexivity)) as (f & P & R). vm_compute in P. injection P as <-. exact R.
Qed.
