(** strconv.ParseFloat, as modelled in StrconvModel.v, reads the numbers of
    FloatTextSpec.v. *)
From Coq Require Import String Ascii List Arith NArith ZArith Bool Lia SpecFloat.
From Verif Require Import GoBase GoBaseFacts StrconvModel FloatSpec FloatTextSpec FloatRound.
Import ListNotations.

(** ** Digits *)

Lemma ascii_N : forall c d, N_of_ascii c = N_of_ascii d -> c = d.
Proof. intros c d E. rewrite <- (ascii_N_embedding c), <- (ascii_N_embedding d), E. reflexivity. Qed.

Lemma digit_iff : forall hex c d, floatDigit hex c = Some d <-> isDigit hex c (Z.of_N d).
Proof.
  intros hex c d. unfold floatDigit, isDigit, hex_any, hex_upper, hex_lower, digit_val. set (n := N_of_ascii c). clearbody n.
  assert (L : forall a e, ((a <=? n) && (n <=? e))%N = true <-> (a <= n <= e)%N).
  { intros a e. rewrite andb_true_iff, !N.leb_le. reflexivity. }
  destruct hex.
  - destruct ((48 <=? n) && (n <=? 57))%N eqn:E1; [apply L in E1|].
    { split; [intros H; injection H as <-; left; lia|]. intros [H|H]; [f_equal; lia|lia]. }
    destruct ((65 <=? n) && (n <=? 70))%N eqn:E2; [apply L in E2|].
    { split; [intros H; injection H as <-; right; lia|]. intros [H|H]; [lia|f_equal; lia]. }
    destruct ((97 <=? n) && (n <=? 102))%N eqn:E3; [apply L in E3|].
    { split; [intros H; injection H as <-; right; lia|]. intros [H|H]; [lia|f_equal; lia]. }
    split; [discriminate|]. intros H. exfalso.
    assert (A : ~ (48 <= n <= 57)%N /\ ~ (65 <= n <= 70)%N /\ ~ (97 <= n <= 102)%N).
    { repeat split; intros X; apply L in X; congruence. }
    lia.
  - destruct ((48 <=? n) && (n <=? 57))%N eqn:E1; [apply L in E1|].
    { split; [intros H; injection H as <-; left; lia|]. intros [H|[H _]]; [f_equal; lia|discriminate]. }
    split; [discriminate|]. intros H. exfalso. assert (A : ~ (48 <= n <= 57)%N) by (intros X; apply L in X; congruence).
    destruct H as [H|[H _]]; [lia|discriminate].
Qed.

Lemma digit_nonneg : forall hex c d, isDigit hex c d -> (0 <= d)%Z.
Proof. intros hex c d [[H _]|(_ & H & _)]; lia. Qed.

(** A digit is no other sign. *)
Lemma digit_range : forall hex c d, isDigit hex c d -> (48 <= N_of_ascii c <= 57)%N \/ hex = true /\ ((65 <= N_of_ascii c <= 70)%N \/ (97 <= N_of_ascii c <= 102)%N).
Proof. intros hex c d [[H1 H2]|(H & H1 & H2)]; [left; lia|right; split; [exact H|lia]]. Qed.
Lemma digit_other : forall hex c d x, isDigit hex c d -> In x (b "_.+-xXpPnNiI") -> (c =? x)%char = false.
Proof.
  intros hex c d x H I. apply Ascii.eqb_neq. intros ->. apply digit_range in H.
  repeat (destruct I as [<-|I]; [vm_compute in H; intuition congruence|]). destruct I.
Qed.
Lemma decimal_other : forall c d x, isDigit false c d -> In x (b "eEpP") -> (c =? x)%char = false.
Proof.
  intros c d x H I. apply Ascii.eqb_neq. intros ->. apply digit_range in H. destruct H as [H|[H _]]; [|discriminate].
  repeat (destruct I as [<-|I]; [vm_compute in H; intuition congruence|]). destruct I.
Qed.

(** ** Mantissas *)

Definition baseOf (hex : bool) : Z := if hex then 16%Z else 10%Z.
Definition more (base a : Z) (l : list Z) : Z := fold_left (fun a d => base * a + d)%Z l a.
Lemma inBase_more : forall base l, inBase base l = more base 0 l.
Proof. reflexivity. Qed.
Lemma more_app : forall base a l l', more base a (l ++ l') = more base (more base a l) l'.
Proof. intros. apply fold_left_app. Qed.
Lemma more_nonneg : forall base l a, (0 <= base)%Z -> (0 <= a)%Z -> Forall (fun d => 0 <= d)%Z l -> (a <= more base a l \/ base = 0)%Z.
Proof. intros base l a B A F. revert a A. induction F as [|d l D F IH]; intros a A; [left; cbn; lia|]. destruct (IH (base * a + d)%Z ltac:(nia)) as [H|H]; [|auto].
  cbn [more fold_left]. fold (more base (base * a + d) l). destruct (Z.eq_dec base 0); [auto|left; nia]. Qed.

(** what follows is neither a digit nor an underscore, nor a point before which there is none *)
Definition stops (hex dot : bool) (rest : bytes) : Prop :=
  match rest with [] => True | c :: _ => (c =? "_")%char = false /\ (dot = false -> (c =? ".")%char = false) /\ floatDigit hex c = None end.

Lemma mantissa_stop : forall hex dot seen m nf rest, stops hex dot rest -> match rest with c :: _ => (c =? ".")%char = false | [] => True end ->
    mantissa hex dot seen m nf rest = (seen, m, nf, rest).
Proof.
  intros hex dot seen m nf [|c rest] H P; [reflexivity|]. destruct H as (H1 & _ & H3). cbn [mantissa]. rewrite H1, P, H3. reflexivity.
Qed.

Lemma mantissa_digits : forall hex ds l dot seen m nf rest, areDigits hex ds l ->
    mantissa hex dot seen m nf (ds ++ rest) =
    mantissa hex dot (match l with [] => seen | _ => true end) (Z.to_N (more (baseOf hex) (Z.of_N m) l)) (if dot then nf + length l else nf) rest.
Proof.
  intros hex ds l dot seen m nf rest H. revert seen m nf. induction H as [|c d ds l D H IH]; intros seen m nf.
  - cbn [app more fold_left length]. rewrite N2Z.id. destruct dot; rewrite ?Nat.add_0_r; reflexivity.
  - cbn [app mantissa]. rewrite (digit_other hex c d "_"), (digit_other hex c d ".") by (assumption || (cbn; tauto)).
    pose proof (digit_nonneg _ _ _ D) as D0. rewrite <- (Z2N.id d D0) in D. apply digit_iff in D. rewrite D. rewrite IH. f_equal.
    + destruct l; reflexivity.
    + cbn [more fold_left]. f_equal. unfold more. f_equal. rewrite N2Z.inj_add, N2Z.inj_mul, Z2N.id by exact D0. destruct hex; reflexivity.
    + destruct dot; cbn [length]; lia.
Qed.

Lemma mantissa_reads : forall hex mt l l' rest, isMantissa hex mt l l' -> stops hex false rest ->
    mantissa hex false false 0 0 (mt ++ rest) = (true, Z.to_N (inBase (baseOf hex) (l ++ l')), length l', rest).
Proof.
  intros hex mt l l' rest H S0. assert (P : match rest with c :: _ => (c =? ".")%char = false | [] => True end) by (destruct rest; [exact I|apply S0; reflexivity]).
  destruct H as [ds l D N|ds l ds' l' D D' N].
  - rewrite (mantissa_digits _ ds l) by exact D. rewrite mantissa_stop by assumption. destruct l as [|d l]; [congruence|]. rewrite app_nil_r. reflexivity.
  - rewrite <- app_assoc. rewrite (mantissa_digits _ ds l) by exact D. cbn [b list_ascii_of_string app mantissa].
    replace ("." =? "_")%char with false by reflexivity. replace ("." =? ".")%char with true by reflexivity. cbv iota.
    rewrite (mantissa_digits _ ds' l') by exact D'.
    assert (S1 : stops hex true rest) by (destruct rest; [exact I|destruct S0 as (A & _ & B); repeat split; [exact A|discriminate|exact B]]).
    rewrite mantissa_stop by assumption. f_equal. f_equal. f_equal.
    + destruct l as [|d l]; [|destruct l'; reflexivity]. destruct l' as [|d' l']; [exfalso; apply N; reflexivity|reflexivity].
    + f_equal. rewrite inBase_more, more_app. f_equal. change (Z.of_N 0) with 0%Z. rewrite Z2N.id; [reflexivity|].
      assert (F : Forall (fun d => 0 <= d)%Z l) by (clear - D; induction D as [|c d ds l H D IH]; constructor; [eapply digit_nonneg; exact H|exact IH]).
      destruct (more_nonneg (baseOf hex) l 0) as [G|G]; [destruct hex; cbn; lia|lia|exact F|exact G|destruct hex; discriminate].
Qed.

(** ** Exponents *)

Lemma exponent_reads : forall ds l e, areDigits false ds l -> (0 <= e)%Z -> (more 10 e l < 100000)%Z ->
    exponent (Z.to_N e) ds = (Z.to_N (more 10 e l), []).
Proof.
  intros ds l e H. revert e. induction H as [|c d ds l D H IH]; intros e E B; [reflexivity|].
  cbn [exponent]. rewrite (digit_other false c d "_") by (assumption || (cbn; tauto)).
  pose proof (digit_nonneg _ _ _ D) as D0. assert (D2 := D). rewrite <- (Z2N.id d D0) in D. apply digit_iff in D. cbn [floatDigit] in D. rewrite D.
  assert (F : Forall (fun d => 0 <= d)%Z l) by (clear - H; induction H as [|c d ds l D H IH]; constructor; [eapply digit_nonneg; exact D|exact IH]).
  cbn [more fold_left] in B |- *. fold (more 10 (10 * e + d) l) in B |- *.
  destruct (more_nonneg 10 l (10 * e + d)) as [G|G]; [lia|lia|exact F| |lia].
  assert (L : (Z.to_N e <? 10000)%N = true) by (apply N.ltb_lt; lia). rewrite L.
  replace (10 * Z.to_N e + Z.to_N d)%N with (Z.to_N (10 * e + d)) by lia. apply IH; [lia|exact B].
Qed.

(** ** Signs, underscores *)

Lemma sign_reads : forall sg neg r, isSign sg neg -> match r with c :: _ => c <> "+"%char /\ c <> "-"%char | [] => True end -> signOf (sg ++ r) = (neg, r).
Proof.
  intros sg neg r [] H; try reflexivity. destruct r as [|c r]; [reflexivity|]. destruct H as [H1 H2]. cbn [app].
  unfold signOf. destruct c as [[] [] [] [] [] [] [] []]; try reflexivity; exfalso; first [apply H1; reflexivity|apply H2; reflexivity].
Qed.

Lemma no_underscores : forall hex s d, ~ In "_"%char s -> underscores hex d false s = true.
Proof.
  intros hex s. induction s as [|c s IH]; intros d H; [reflexivity|]. cbn [underscores].
  destruct (c =? "_")%char eqn:E; [apply Ascii.eqb_eq in E; subst c; exfalso; apply H; left; reflexivity|].
  assert (H' : ~ In "_"%char s) by (intros X; apply H; right; exact X).
  destruct (floatDigit hex c); [apply IH; exact H'|]. cbn [negb andb]. apply IH. exact H'.
Qed.

Lemma digits_free : forall hex ds l, areDigits hex ds l -> ~ In "_"%char ds.
Proof.
  intros hex ds l H. induction H as [|c d ds l D H IH]; [intros []|]. intros [E|E]; [|auto]. subst c.
  pose proof (digit_other hex "_" d "_" D ltac:(cbn; tauto)) as X. discriminate.
Qed.
Lemma mantissa_free : forall hex mt l l', isMantissa hex mt l l' -> ~ In "_"%char mt.
Proof.
  intros hex mt l l' [ds k D N|ds k ds' k' D D' N]; [eapply digits_free; exact D|].
  intros X. apply in_app_or in X. destruct X as [X|X]; [exact (digits_free _ _ _ D X)|]. apply in_app_or in X. destruct X as [[X|[]]|X]; [discriminate|exact (digits_free _ _ _ D' X)].
Qed.
Lemma sign_free : forall sg neg, isSign sg neg -> ~ In "_"%char sg.
Proof. intros sg neg [] X; cbn in X; intuition discriminate. Qed.
Lemma exponent_free : forall lo up ex e, isExponent lo up ex e -> lo <> "_"%char -> up <> "_"%char -> ~ In "_"%char ex.
Proof.
  intros lo up ex e [c sg neg ds l C S0 D N] L U [X|X]; [destruct C; congruence|]. apply in_app_or in X. destruct X as [X|X]; [exact (sign_free _ _ S0 X)|exact (digits_free _ _ _ D X)].
Qed.

(** how a mantissa begins *)
Lemma mantissa_head : forall hex mt l l', isMantissa hex mt l l' -> exists c r, mt = c :: r /\ (c = "."%char \/ exists d, isDigit hex c d).
Proof.
  intros hex mt l l' [ds k D N|ds k ds' k' D D' N].
  - destruct D as [|c d ds k D D2]; [congruence|]. exists c, ds. eauto.
  - destruct D as [|c d ds k D D2]; [exists "."%char, ds'; auto|]. exists c, (ds ++ b "." ++ ds'). eauto.
Qed.
Lemma head_no_sign : forall hex c, (c = "."%char \/ exists d, isDigit hex c d) -> c <> "+"%char /\ c <> "-"%char.
Proof.
  intros hex c [->|(d & D)]; [split; discriminate|].
  split; intros ->; [pose proof (digit_other hex _ d "+" D ltac:(cbn; tauto))|pose proof (digit_other hex _ d "-" D ltac:(cbn; tauto))]; discriminate.
Qed.

(** ** ParseFloat on numbers *)

Lemma not_special : forall sg neg c r, isSign sg neg -> (c = "."%char \/ exists d, isDigit false c d) -> special (sg ++ c :: r) = None.
Proof.
  intros sg neg c r S0 H. pose proof (head_no_sign false c H) as NS.
  unfold special. rewrite (sign_reads sg neg) by assumption.
  assert (R : forall w x, x = "i"%char \/ x = "n"%char -> sameText (c :: r) (x :: w) = false).
  { intros w x X. unfold sameText. cbn [map beqb]. apply andb_false_iff. left. apply Ascii.eqb_neq.
    destruct H as [->|(d & D)]; [destruct X as [->| ->]; discriminate|].
    apply digit_range in D. destruct D as [D|[D _]]; [|discriminate].
    assert (((65 <=? N_of_ascii c) && (N_of_ascii c <=? 90))%N = false) as -> by (apply andb_false_iff; left; apply N.leb_gt; lia).
    intros ->. destruct X as [->| ->]; vm_compute in D; intuition congruence. }
  cbn [b list_ascii_of_string]. rewrite !R by auto. cbn [orb].
  destruct S0; cbn [app b list_ascii_of_string]; [rewrite R by auto; reflexivity|reflexivity|reflexivity].
Qed.

(** a decimal mantissa does not look like a hexadecimal prefix *)
Definition notHex (r : bytes) : Prop := match r with _ :: x :: _ => x <> "x"%char /\ x <> "X"%char | _ => True end.
Lemma notHex_body : forall r, notHex r ->
    match r with
    | z :: x :: y :: r' => if (z =? "0")%char && isByte "x" "X" x then (true, y :: r') else (false, r)
    | _ => (false, r)
    end = (false, r).
Proof.
  intros [|z [|x [|y r]]] H; try reflexivity. destruct H as [H1 H2]. apply Ascii.eqb_neq in H1, H2. unfold isByte. rewrite H1, H2, andb_false_r. reflexivity.
Qed.
Lemma digit_notx : forall c d, isDigit false c d -> c <> "x"%char /\ c <> "X"%char.
Proof.
  intros c d D. split; intros ->; [pose proof (digit_other false _ d "x" D ltac:(cbn; tauto))|pose proof (digit_other false _ d "X" D ltac:(cbn; tauto))]; discriminate.
Qed.
Lemma mantissa_notHex : forall mt l l' rest, isMantissa false mt l l' -> match rest with c :: _ => c <> "x"%char /\ c <> "X"%char | [] => True end -> notHex (mt ++ rest).
Proof.
  intros mt l l' rest H R.
  assert (T : forall ds k r, areDigits false ds k -> match r with c :: _ => c <> "x"%char /\ c <> "X"%char | [] => True end -> match ds ++ r with c :: _ => c <> "x"%char /\ c <> "X"%char | [] => True end).
  { intros ds k r [|c d ds' k' D D'] X; [exact X|]. cbn [app]. eapply digit_notx. exact D. }
  assert (U : forall c m, match m with c :: _ => c <> "x"%char /\ c <> "X"%char | [] => True end -> notHex (c :: m)) by (intros c [|x m] X; [exact I|exact X]).
  destruct H as [ds k D N|ds k ds' k' D D' N].
  - destruct D as [|c d ds k D D2]; [congruence|]. cbn [app]. apply U. eapply T; [exact D2|exact R].
  - destruct D as [|c d ds k D D2]; cbn [app b list_ascii_of_string]; apply U; rewrite <- ?app_assoc; eapply T; try eassumption. cbn. split; discriminate.
Qed.

Lemma sign_head : forall ds l, areDigits false ds l -> match ds with c :: _ => c <> "+"%char /\ c <> "-"%char | [] => True end.
Proof. intros ds l [|c d ds' l' D D']; [exact I|]. apply (head_no_sign false). right. eauto. Qed.

Lemma digits_nonneg : forall hex ds l, areDigits hex ds l -> Forall (fun d => 0 <= d)%Z l.
Proof. intros hex ds l H. induction H as [|c d ds l D H IH]; constructor; [eapply digit_nonneg; exact D|exact IH]. Qed.
Lemma inBase_nonneg : forall base l, (0 < base)%Z -> Forall (fun d => 0 <= d)%Z l -> (0 <= inBase base l)%Z.
Proof. intros base l B F. rewrite inBase_more. destruct (more_nonneg base l 0) as [G|G]; [lia|lia|exact F|exact G|lia]. Qed.
Lemma mantissa_nonneg : forall hex mt l l', isMantissa hex mt l l' -> Forall (fun d => 0 <= d)%Z (l ++ l').
Proof.
  intros hex mt l l' [ds k D N|ds k ds' k' D D' N]; apply Forall_app; split; try (eapply digits_nonneg; eassumption). constructor.
Qed.

(** the end of readFloat: the exponent *)
Lemma exponent_part : forall lo up ex e, isExponent lo up ex e -> (Z.abs e < 100000)%Z ->
    exists c ds d ds' eneg, ex = c :: ds /\ (c = lo \/ c = up) /\ signOf ds = (eneg, d :: ds') /\ digit_val d <> None /\
      exponent 0 (d :: ds') = (Z.to_N (Z.abs e), []) /\ (if eneg then (- Z.of_N (Z.to_N (Z.abs e)))%Z else Z.of_N (Z.to_N (Z.abs e))) = e.
Proof.
  intros lo up ex e H B. destruct H as [c sg neg ds l C S0 D N].
  pose proof (inBase_nonneg 10 l ltac:(lia) (digits_nonneg _ _ _ D)) as P.
  assert (A : Z.abs ((if neg then -1 else 1) * inBase 10 l) = inBase 10 l) by (destruct neg; lia). rewrite A in *.
  destruct ds as [|d ds]; [inversion D; subst; congruence|].
  exists c, (sg ++ d :: ds), d, ds, neg. split; [reflexivity|]. split; [exact C|]. split; [apply sign_reads; [exact S0|exact (sign_head _ _ D)]|].
  split; [|split; [apply (exponent_reads (d :: ds) l 0 D); [lia|exact B]|rewrite Z2N.id by exact P; destruct neg; lia]].
  inversion D as [|? x ? ? X]; subst. pose proof (digit_nonneg _ _ _ X) as X0. rewrite <- (Z2N.id x X0) in X. apply digit_iff in X. cbn [floatDigit] in X. congruence.
Qed.

(** numbers are read *)
Lemma readFloat_number : forall t neg p q e, isNumber t neg p q e -> (Z.abs e < 100000)%Z ->
    exists (hex : bool) m x, readFloat t = Some (neg, hex, m, x) /\ p = numer (if hex then 2 else 10) (Z.of_N m) x /\ q = denom (if hex then 2 else 10) x.
Proof.
  intros t neg p q e H B. destruct H as [sg neg mt l l' S0 M|sg neg mt l l' ex e S0 M X|sg neg x mt l l' ex e S0 Hx M X].
  - destruct (mantissa_head _ _ _ _ M) as (c & r & E & Hc). exists false, (Z.to_N (inBase 10 (l ++ l'))), (0 - 1 * Z.of_nat (length l'))%Z. split.
    + unfold readFloat. rewrite (sign_reads sg neg) by (assumption || (rewrite E; eapply head_no_sign; exact Hc)).
      rewrite notHex_body by (rewrite <- (app_nil_r mt); eapply mantissa_notHex; [exact M|exact I]).
      pose proof (mantissa_reads false mt l l' [] M I) as R. rewrite app_nil_r in R. rewrite R. cbn [negb baseOf].
      rewrite no_underscores by (eapply mantissa_free; exact M). reflexivity.
    + rewrite Z2N.id by (apply inBase_nonneg; [lia|eapply mantissa_nonneg; exact M]). replace (0 - 1 * Z.of_nat (length l'))%Z with (- Z.of_nat (length l'))%Z by lia. auto.
  - destruct (mantissa_head _ _ _ _ M) as (c & r & E & Hc). exists false, (Z.to_N (inBase 10 (l ++ l'))), (e - 1 * Z.of_nat (length l'))%Z.
    destruct (exponent_part _ _ _ _ X B) as (c' & ds & d & ds' & eneg & -> & C & SG & DV & EX & EE). split.
    + unfold readFloat. rewrite (sign_reads sg neg) by (assumption || (rewrite E; eapply head_no_sign; exact Hc)).
      assert (St : stops false false (c' :: ds)) by (destruct C as [->| ->]; repeat split).
      rewrite notHex_body by (eapply mantissa_notHex; [exact M|destruct C as [->| ->]; split; discriminate]).
      rewrite (mantissa_reads false mt l l' _ M St). cbn [negb baseOf].
      rewrite no_underscores.
      2:{ intros F. apply in_app_or in F. destruct F as [F|F]; [exact (mantissa_free _ _ _ _ M F)|]. revert F. eapply exponent_free; [exact X|discriminate|discriminate]. }
      assert (isByte "e" "E" c' = true) as -> by (destruct C as [->| ->]; reflexivity).
      rewrite SG. destruct (digit_val d); [|congruence]. rewrite EX. rewrite EE. reflexivity.
    + rewrite Z2N.id by (apply inBase_nonneg; [lia|eapply mantissa_nonneg; exact M]). rewrite Z.mul_1_l. auto.
  - destruct (mantissa_head _ _ _ _ M) as (c & r & E & Hc). exists true, (Z.to_N (inBase 16 (l ++ l'))), (e - 4 * Z.of_nat (length l'))%Z.
    destruct (exponent_part _ _ _ _ X B) as (c' & ds & d & ds' & eneg & -> & C & SG & DV & EX & EE). split.
    + unfold readFloat. rewrite (sign_reads sg neg) by (assumption || (split; discriminate)).
      assert (BY : isByte "x" "X" x = true) by (destruct Hx as [->| ->]; reflexivity).
      assert (St : stops true false (c' :: ds)) by (destruct C as [->| ->]; repeat split).
      pose proof (mantissa_reads true mt l l' _ M St) as R. subst mt. cbn [app] in R |- *. rewrite BY.
      change (("0" =? "0")%char && true) with true. cbv beta iota. rewrite R. cbn [negb baseOf].
      rewrite no_underscores.
      2:{ intros F. rewrite app_comm_cons in F. apply in_app_or in F. destruct F as [F|F]; [exact (mantissa_free _ _ _ _ M F)|]. revert F. eapply exponent_free; [exact X|discriminate|discriminate]. }
      assert (isByte "p" "P" c' = true) as -> by (destruct C as [->| ->]; reflexivity).
      rewrite SG. destruct (digit_val d); [|congruence]. rewrite EX. rewrite EE. reflexivity.
    + rewrite Z2N.id by (apply inBase_nonneg; [lia|eapply mantissa_nonneg; exact M]). auto.
Qed.

Lemma number_head : forall t neg p q e, isNumber t neg p q e -> exists sg c r, t = sg ++ c :: r /\ isSign sg neg /\ (c = "."%char \/ exists d, isDigit false c d).
Proof.
  intros t neg p q e [sg n mt l l' S0 M|sg n mt l l' ex x S0 M X|sg n x mt l l' ex y S0 Hx M X].
  - destruct (mantissa_head _ _ _ _ M) as (c & r & -> & Hc). exists sg, c, r. auto.
  - destruct (mantissa_head _ _ _ _ M) as (c & r & -> & Hc). exists sg, c, (r ++ ex). auto.
  - exists sg, "0"%char, (x :: mt ++ ex). split; [reflexivity|]. split; [exact S0|]. right. exists 0%Z. left. split; [lia|reflexivity].
Qed.

(** the quotient that is computed *)
Lemma base_pow : forall hex x, (0 < (if hex : bool then 2 else 10) ^ Z.max 0 x)%Z.
Proof. intros hex x. apply Z.pow_pos_nonneg; [destruct hex; lia|lia]. Qed.
Lemma nearest_rounded : forall neg (hex : bool) m x, let base := if hex then 2%Z else 10%Z in
    (numer base (Z.of_N m) x < limit * denom base x -> rounded neg (numer base (Z.of_N m) x) (denom base x) (StrconvModel.nearest neg hex m x))%Z /\
    (limit * denom base x <= numer base (Z.of_N m) x -> StrconvModel.nearest neg hex m x = S754_infinity neg)%Z.
Proof.
  intros neg hex m x base. pose proof (base_pow hex (- x)) as P2. pose proof (base_pow hex x) as P1. fold base in P1, P2. unfold numer, denom.
  assert (L : (0 < limit)%Z) by (unfold limit; apply Z.mul_pos_pos; [lia|apply Z.pow_pos_nonneg; lia]).
  destruct m as [|m].
  - split.
    + intros _. cbn [StrconvModel.nearest Z.of_N]. split; [reflexivity|]. split; [reflexivity|]. exists 0%Z. split; [reflexivity|].
      intros g w G W. rewrite Z.mul_0_l, !Z.mul_0_r. cbn [Z.mul Z.abs Z.sub Z.add]. rewrite Z.sub_0_r. split; [lia|]. intros N E. exfalso. apply N. nia.
    + rewrite Z.mul_0_l. intros H. exfalso. assert (0 < limit * base ^ Z.max 0 (- x))%Z by (apply Z.mul_pos_pos; assumption). lia.
  - cbn [StrconvModel.nearest Z.of_N]. fold base.
    pose proof (quotient_rounded neg (Z.to_pos (Zpos m * base ^ Z.max 0 x)) (Z.to_pos (base ^ Z.max 0 (- x)))) as Q. cbv zeta in Q.
    rewrite !Z2Pos.id in Q by (try apply Z.mul_pos_pos; lia). exact Q.
Qed.

Lemma rounded_finite : forall neg p q f, rounded neg p q f -> match f with S754_infinity _ | S754_nan => False | _ => True end.
Proof. intros neg p q f (_ & S0 & v & V & _). destruct f; [exact I|discriminate|exact S0|exact I]. Qed.

Lemma parse_number : forall t neg p q e, isNumber t neg p q e -> (Z.abs e < 100000)%Z ->
    (p < limit * q -> exists f, ParseFloat t = Some f /\ rounded neg p q f)%Z /\
    (limit * q <= p -> ParseFloat t = None /\ failedFloat t = S754_infinity neg)%Z.
Proof.
  intros t neg p q e H B. destruct (readFloat_number _ _ _ _ _ H B) as (hex & m & x & R & -> & ->).
  destruct (number_head _ _ _ _ _ H) as (sg & c & r & E & S0 & Hc).
  assert (SP : special t = None) by (rewrite E; eapply not_special; eassumption).
  unfold ParseFloat, failedFloat. rewrite SP, R. pose proof (nearest_rounded neg hex m x) as N. cbv zeta in N. destruct N as [N1 N2]. split; intros L.
  - specialize (N1 L). exists (StrconvModel.nearest neg hex m x). split; [|exact N1]. apply rounded_finite in N1. destruct (StrconvModel.nearest neg hex m x); [reflexivity|destruct N1|destruct N1|reflexivity].
  - rewrite (N2 L). auto.
Qed.

(** ** Conversely: what is read is a number *)

Lemma plain_app : forall s t, plain (s ++ t) = plain s ++ plain t.
Proof. intros. apply filter_app. Qed.
Lemma plain_free : forall s, ~ In "_"%char s -> plain s = s.
Proof.
  intros s. induction s as [|c s IH]; intros H; [reflexivity|]. unfold plain. cbn [filter]. fold (plain s).
  destruct (c =? "_")%char eqn:E; [apply Ascii.eqb_eq in E; subst c; exfalso; apply H; left; reflexivity|]. cbn [negb]. f_equal. apply IH. intros X. apply H. right. exact X.
Qed.
Lemma plain_cons : forall c s, (c =? "_")%char = false -> plain (c :: s) = c :: plain s.
Proof. intros c s H. unfold plain. cbn [filter]. rewrite H. reflexivity. Qed.

Lemma mantissa_dot_inv : forall hex s seen m nf seen' m' nf' rest, mantissa hex true seen m nf s = (seen', m', nf', rest) ->
    exists pre ds l, s = pre ++ rest /\ plain pre = ds /\ areDigits hex ds l /\ m' = Z.to_N (more (baseOf hex) (Z.of_N m) l) /\ nf' = nf + length l /\ seen' = (match l with [] => seen | _ => true end).
Proof.
  intros hex s. induction s as [|c s IH]; intros seen m nf seen' m' nf' rest H.
  - cbn [mantissa] in H. injection H as <- <- <- <-. exists [], [], []. cbn [app plain filter more fold_left length]. rewrite N2Z.id, Nat.add_0_r. repeat split; constructor.
  - cbn [mantissa] in H. destruct (c =? "_")%char eqn:E1.
    + destruct (IH _ _ _ _ _ _ _ H) as (pre & ds & l & -> & P & R). exists (c :: pre), ds, l. split; [reflexivity|]. split; [|exact R].
      unfold plain. cbn [filter]. rewrite E1. exact P.
    + destruct (c =? ".")%char eqn:E2.
      { injection H as <- <- <- <-. exists [], [], []. cbn [app plain filter more fold_left length]. rewrite N2Z.id, Nat.add_0_r. repeat split; constructor. }
      destruct (floatDigit hex c) as [d|] eqn:E3.
      * destruct (IH _ _ _ _ _ _ _ H) as (pre & ds & l & -> & P & D & -> & -> & ->). exists (c :: pre), (c :: ds), (Z.of_N d :: l). split; [reflexivity|].
        split; [rewrite plain_cons by exact E1; f_equal; exact P|]. split; [constructor; [apply digit_iff; exact E3|exact D]|]. split.
        -- f_equal. cbn [more fold_left]. f_equal. rewrite N2Z.inj_add, N2Z.inj_mul. destruct hex; reflexivity.
        -- cbn [length]. split; [lia|]. destruct l; reflexivity.
      * injection H as <- <- <- <-. exists [], [], []. cbn [app plain filter more fold_left length]. rewrite N2Z.id, Nat.add_0_r. repeat split; constructor.
Qed.

Lemma mantissa_inv : forall hex s seen m seen' m' nf' rest, mantissa hex false seen m 0 s = (seen', m', nf', rest) ->
    exists pre ds l, s = pre ++ rest /\ areDigits hex ds l /\
      ((plain pre = ds /\ nf' = 0 /\ m' = Z.to_N (more (baseOf hex) (Z.of_N m) l) /\ seen' = (match l with [] => seen | _ => true end)) \/
       (exists ds' l', plain pre = ds ++ b "." ++ ds' /\ areDigits hex ds' l' /\ nf' = length l' /\ m' = Z.to_N (more (baseOf hex) (Z.of_N m) (l ++ l')) /\ seen' = (match l ++ l' with [] => seen | _ => true end))).
Proof.
  intros hex s. induction s as [|c s IH]; intros seen m seen' m' nf' rest H.
  - cbn [mantissa] in H. injection H as <- <- <- <-. exists [], [], []. split; [reflexivity|]. split; [constructor|]. left. cbn [plain filter more fold_left]. rewrite N2Z.id. repeat split.
  - cbn [mantissa] in H. destruct (c =? "_")%char eqn:E1.
    + destruct (IH _ _ _ _ _ _ H) as (pre & ds & l & -> & D & R). exists (c :: pre), ds, l. split; [reflexivity|]. split; [exact D|].
      assert (P : plain (c :: pre) = plain pre) by (unfold plain; cbn [filter]; rewrite E1; reflexivity). rewrite P. exact R.
    + destruct (c =? ".")%char eqn:E2.
      { apply Ascii.eqb_eq in E2. subst c. destruct (mantissa_dot_inv _ _ _ _ _ _ _ _ _ H) as (pre & ds & l & -> & P & D & -> & -> & ->).
        exists ("."%char :: pre), [], []. split; [reflexivity|]. split; [constructor|]. right. exists ds, l. rewrite plain_cons by reflexivity. rewrite P.
        split; [reflexivity|]. split; [exact D|]. split; [reflexivity|]. split; reflexivity. }
      destruct (floatDigit hex c) as [d|] eqn:E3.
      * destruct (IH _ _ _ _ _ _ H) as (pre & ds & l & -> & D & R). exists (c :: pre), (c :: ds), (Z.of_N d :: l). split; [reflexivity|].
        split; [constructor; [apply digit_iff; exact E3|exact D]|]. rewrite plain_cons by exact E1.
        assert (M : forall k, more (baseOf hex) (Z.of_N ((if hex then 16 else 10) * m + d)) k = more (baseOf hex) (Z.of_N m) (Z.of_N d :: k)).
        { intros k. cbn [more fold_left]. f_equal. rewrite N2Z.inj_add, N2Z.inj_mul. destruct hex; reflexivity. }
        destruct R as [(P & -> & -> & ->)|(ds' & l' & P & D' & -> & -> & ->)].
        -- left. split; [f_equal; exact P|]. split; [reflexivity|]. split; [f_equal; apply M|]. destruct l; reflexivity.
        -- right. exists ds', l'. split; [rewrite P; reflexivity|]. split; [exact D'|]. split; [reflexivity|]. split; [f_equal; apply (M (l ++ l'))|]. cbn [app]. destruct (l ++ l'); reflexivity.
      * injection H as <- <- <- <-. exists [], [], []. split; [reflexivity|]. split; [constructor|]. left. cbn [plain filter more fold_left]. rewrite N2Z.id. repeat split.
Qed.

Lemma mantissa_number : forall hex s m' nf' rest, mantissa hex false false 0 0 s = (true, m', nf', rest) ->
    exists pre mt l l', s = pre ++ rest /\ plain pre = mt /\ isMantissa hex mt l l' /\ Z.of_N m' = inBase (baseOf hex) (l ++ l') /\ nf' = length l'.
Proof.
  intros hex s m' nf' rest H. destruct (mantissa_inv _ _ _ _ _ _ _ _ H) as (pre & ds & l & -> & D & [(P & -> & -> & E)|(ds' & l' & P & D' & -> & -> & E)]).
  - exists pre, ds, l, []. split; [reflexivity|]. split; [exact P|].
    assert (M : isMantissa hex ds l []) by (constructor; [exact D|intros ->; discriminate]). split; [exact M|]. split; [|reflexivity].
    rewrite app_nil_r. rewrite Z2N.id; [reflexivity|]. apply (inBase_nonneg (baseOf hex)); [destruct hex; reflexivity|]. eapply digits_nonneg; exact D.
  - exists pre, (ds ++ b "." ++ ds'), l, l'. split; [reflexivity|]. split; [exact P|].
    assert (M : isMantissa hex (ds ++ b "." ++ ds') l l') by (constructor; [exact D|exact D'|intros X; rewrite X in E; discriminate]). split; [exact M|]. split; [|reflexivity].
    rewrite Z2N.id; [reflexivity|]. apply (inBase_nonneg (baseOf hex)); [destruct hex; reflexivity|]. eapply mantissa_nonneg; exact M.
Qed.

Lemma exponent_inv : forall s e e' rest, exponent e s = (e', rest) ->
    exists pre ds l, s = pre ++ rest /\ plain pre = ds /\ areDigits false ds l /\ ((more 10 (Z.of_N e) l < 100000)%Z -> e' = Z.to_N (more 10 (Z.of_N e) l)).
Proof.
  induction s as [|c s IH]; intros e e' rest H.
  - cbn [exponent] in H. injection H as <- <-. exists [], [], []. cbn [more fold_left]. rewrite N2Z.id. repeat split; constructor.
  - cbn [exponent] in H. destruct (c =? "_")%char eqn:E1.
    + destruct (IH _ _ _ H) as (pre & ds & l & -> & P & R). exists (c :: pre), ds, l. split; [reflexivity|]. split; [|exact R].
      unfold plain. cbn [filter]. rewrite E1. exact P.
    + destruct (digit_val c) as [d|] eqn:E3.
      * destruct (IH _ _ _ H) as (pre & ds & l & -> & P & D & R). exists (c :: pre), (c :: ds), (Z.of_N d :: l). split; [reflexivity|].
        assert (DD : isDigit false c (Z.of_N d)) by (apply digit_iff; exact E3).
        split; [rewrite plain_cons by exact E1; f_equal; exact P|]. split; [constructor; [exact DD|exact D]|].
        cbn [more fold_left]. fold (more 10 (10 * Z.of_N e + Z.of_N d) l). intros B.
        destruct (more_nonneg 10 l (10 * Z.of_N e + Z.of_N d)) as [G|G]; [lia|lia|eapply digits_nonneg; exact D| |lia].
        assert (L : (e <? 10000)%N = true) by (apply N.ltb_lt; lia). rewrite L in R.
        replace (Z.of_N (10 * e + d)) with (10 * Z.of_N e + Z.of_N d)%Z in R by lia. apply R. exact B.
      * injection H as <- <-. exists [], [], []. cbn [more fold_left]. rewrite N2Z.id. repeat split; constructor.
Qed.

Lemma sign_inv : forall s neg r, signOf s = (neg, r) -> exists sg, s = sg ++ r /\ isSign sg neg.
Proof.
  intros s neg r H. destruct s as [|c s]; [injection H as <- <-; exists []; split; [reflexivity|constructor]|].
  destruct (Ascii.eqb_spec c "+"); [subst c; injection H as <- <-; exists (b "+"); split; [reflexivity|constructor]|].
  destruct (Ascii.eqb_spec c "-"); [subst c; injection H as <- <-; exists (b "-"); split; [reflexivity|constructor]|].
  pose proof (sign_reads [] false (c :: s) SignNone (conj n n0)) as X. cbn [app] in X. rewrite X in H. injection H as <- <-. exists []. split; [reflexivity|constructor].
Qed.

Lemma plain_sign : forall sg neg, isSign sg neg -> plain sg = sg.
Proof. intros sg neg S0. apply plain_free. eapply sign_free; exact S0. Qed.

Lemma exponent_number : forall lo up c rest eneg d ds e, (c = lo \/ c = up) -> lo <> "_"%char -> up <> "_"%char -> signOf rest = (eneg, d :: ds) -> digit_val d <> None -> exponent 0 (d :: ds) = (e, []) ->
    exists x, isExponent lo up (plain (c :: rest)) x /\ ((Z.abs x < 100000)%Z -> (if eneg then (- Z.of_N e)%Z else Z.of_N e) = x).
Proof.
  intros lo up c rest eneg d ds e C L U S0 DV EX. destruct (sign_inv _ _ _ S0) as (sg & -> & SG).
  destruct (exponent_inv _ _ _ _ EX) as (pre & ds' & l & E & P & D & R). rewrite app_nil_r in E. subst pre.
  assert (P0 : (0 <= inBase 10 l)%Z) by (apply inBase_nonneg; [lia|eapply digits_nonneg; exact D]).
  exists ((if eneg then -1 else 1) * inBase 10 l)%Z. split.
  - rewrite plain_cons by (apply Ascii.eqb_neq; destruct C as [->| ->]; assumption). rewrite plain_app, (plain_sign _ _ SG), P. constructor; [exact C|exact SG|exact D|].
    intros ->. inversion D; subst.
    assert (E1 : (d =? "_")%char = false) by (apply Ascii.eqb_neq; intros ->; apply DV; reflexivity).
    rewrite plain_cons in H by exact E1. discriminate.
  - intros B. assert (inBase 10 l < 100000)%Z by (destruct eneg; lia). specialize (R H). cbn [Z.of_N] in R. change (more 10 0 l) with (inBase 10 l) in R. subst e. rewrite Z2N.id by exact P0. destruct eneg; lia.
Qed.

Lemma isByte_iff : forall lo up c, isByte lo up c = true <-> c = lo \/ c = up.
Proof. intros lo up c. unfold isByte. rewrite orb_true_iff, !Ascii.eqb_eq. reflexivity. Qed.

Lemma readFloat_inv : forall t neg hex m x, readFloat t = Some (neg, hex, m, x) ->
    exists p q e, isNumber (plain t) neg p q e /\ ((Z.abs e < 100000)%Z -> p = numer (if hex then 2 else 10) (Z.of_N m) x /\ q = denom (if hex then 2 else 10) x).
Proof.
  intros t neg hex m x H. unfold readFloat in H. destruct (signOf t) as [neg' r] eqn:S0. destruct (sign_inv _ _ _ S0) as (sg & -> & SG).
  rewrite plain_app, (plain_sign _ _ SG).
  assert (HB : exists hex' body, match r with
        | z :: x :: y :: r' => if (z =? "0")%char && isByte "x" "X" x then (true, y :: r') else (false, r)
        | _ => (false, r) end = (hex', body) /\ (if hex' then exists c, r = "0"%char :: c :: body /\ (c = "x"%char \/ c = "X"%char) else r = body)).
  { destruct r as [|z [|c [|y r']]]; try (exists false; eexists; split; reflexivity).
    destruct ((z =? "0")%char && isByte "x" "X" c) eqn:E; [|exists false; eexists; split; reflexivity].
    apply andb_true_iff in E. destruct E as [E1 E2]. apply Ascii.eqb_eq in E1. subst z. apply isByte_iff in E2. exists true, (y :: r'). split; [reflexivity|]. exists c. auto. }
  destruct HB as (hex' & body & E & HB). rewrite E in H. clear E.
  destruct (mantissa hex' false false 0 0 body) as [[[seen m'] nf] rest] eqn:M. destruct seen; [|discriminate]. cbn [negb] in H.
  destruct (mantissa_number _ _ _ _ _ M) as (pre & mt & l & l' & -> & P & MT & EM & ->).
  destruct rest as [|c rest].
  - destruct hex'; [discriminate|]. destruct (underscores _ _ _ _); [|discriminate]. injection H as <- <- <- <-. subst r.
    rewrite app_nil_r, P. do 3 eexists. split; [apply NumPlain; [exact SG|exact MT]|]. intros _. cbn [baseOf] in EM. rewrite EM.
    destruct (Z.of_nat (length l')); split; reflexivity.
  - destruct (if hex' then isByte "p" "P" c else isByte "e" "E" c) eqn:BY; [|discriminate].
    destruct (signOf rest) as [eneg ds] eqn:S1. destruct ds as [|d ds]; [discriminate|]. destruct (digit_val d) eqn:DV; [|discriminate].
    destruct (exponent 0 (d :: ds)) as [e more'] eqn:EX. destruct more'; [|discriminate]. destruct (underscores _ _ _ _); [|discriminate]. injection H as <- <- <- <-.
    destruct hex'.
    + apply isByte_iff in BY. destruct (exponent_number "p" "P" c rest eneg d ds e BY ltac:(discriminate) ltac:(discriminate) S1 ltac:(congruence) EX) as (x & X & XE).
      destruct HB as (c0 & -> & C0). do 3 eexists. split.
      * rewrite plain_cons, plain_cons, plain_app, P; [|destruct C0 as [->| ->]; reflexivity|reflexivity]. apply NumHex; [exact SG|exact C0|exact MT|exact X].
      * intros B. rewrite (XE B), EM. split; reflexivity.
    + apply isByte_iff in BY. destruct (exponent_number "e" "E" c rest eneg d ds e BY ltac:(discriminate) ltac:(discriminate) S1 ltac:(congruence) EX) as (x & X & XE).
      subst r. do 3 eexists. split.
      * rewrite plain_app, P. apply NumExpo; [exact SG|exact MT|exact X].
      * intros B. rewrite (XE B), EM, Z.mul_1_l. split; reflexivity.
Qed.

Lemma sameText_letters : forall s w, sameText s w = true -> inLetters s w.
Proof.
  unfold sameText, inLetters. induction s as [|c s IH]; intros [|d w] H; try discriminate; [constructor|].
  cbn [map beqb] in H. apply andb_true_iff in H. destruct H as [H1 H2]. constructor; [|apply IH; exact H2].
  apply Ascii.eqb_eq in H1. destruct ((65 <=? N_of_ascii c) && (N_of_ascii c <=? 90))%N eqn:E; [|left; exact H1].
  apply andb_true_iff in E. rewrite !N.leb_le in E. right. split; [lia|]. subst d. apply N_ascii_embedding. lia.
Qed.

Lemma special_word : forall t f, special t = Some f -> isWord t f.
Proof.
  intros t f H. unfold special in H. destruct (signOf t) as [neg r] eqn:S0. destruct (sign_inv _ _ _ S0) as (sg & -> & SG).
  destruct (sameText r (b "inf") || sameText r (b "infinity")) eqn:E.
  - injection H as <-. apply WordInf; [exact SG|]. apply orb_true_iff in E. destruct E as [E|E]; apply sameText_letters in E; auto.
  - destruct (sameText (sg ++ r) (b "nan")) eqn:E2; [|discriminate]. injection H as <-. apply WordNaN. apply sameText_letters. exact E2.
Qed.
