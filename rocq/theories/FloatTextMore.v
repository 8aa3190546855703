(** Underscores in numbers, the words inf and nan, and that the rounded value is unique:
    the proofs for C87. *)
From Coq Require Import String Ascii List Arith NArith ZArith Bool Lia SpecFloat.
From Verif Require Import GoBase GoBaseFacts StrconvModel FloatSpec FloatProofs FloatArith FloatTextSpec FloatRound FloatTextThm.
Import ListNotations.

(** ** Underscores *)

Lemma us_no_digit : forall hex d, ~ isDigit hex "_" d.
Proof. intros hex d D. pose proof (digit_other hex "_" d "_" D ltac:(cbn; tauto)). discriminate. Qed.
Lemma floatDigit_some : forall hex c, floatDigit hex c <> None <-> exists d, isDigit hex c d.
Proof.
  intros hex c. split.
  - destruct (floatDigit hex c) as [d|] eqn:E; [|congruence]. intros _. exists (Z.of_N d). apply digit_iff. exact E.
  - intros (d & D). pose proof (digit_nonneg _ _ _ D). rewrite <- (Z2N.id d) in D by lia. apply digit_iff in D. congruence.
Qed.

(** the check, as a statement *)
Definition sepFrom (hex digit us : bool) (s : bytes) : Prop :=
  (us = true -> exists c r d, s = c :: r /\ isDigit hex c d) /\
  forall p r, s = p ++ "_"%char :: r ->
    (match rev p with [] => digit = true | c :: _ => exists d, isDigit hex c d end) /\ exists c r' d, r = c :: r' /\ isDigit hex c d.
Lemma underscores_iff : forall hex s digit us, us = false \/ digit = false -> (underscores hex digit us s = true <-> sepFrom hex digit us s).
Proof.
  intros hex s. induction s as [|c s IH]; intros digit us DU; cbn [underscores].
  - split.
    + intros H. split; [destruct us; [discriminate|discriminate]|]. intros p r E. destruct p; discriminate.
    + intros [H _]. destruct us; [|reflexivity]. destruct (H eq_refl) as (c & r & d & E & _). discriminate.
  - destruct (c =? "_")%char eqn:E.
    + apply Ascii.eqb_eq in E. subst c. rewrite andb_true_iff, IH by auto. split.
      * intros (-> & H1 & H2). destruct DU as [->|]; [|discriminate]. split; [discriminate|]. intros p r EQ. destruct p as [|x p].
        -- cbn in EQ. injection EQ as <-. split; [reflexivity|]. exact (H1 eq_refl).
        -- cbn [app] in EQ. injection EQ as <- EQ. destruct (H2 p r EQ) as [A B]. split; [|exact B]. cbn [rev].
           destruct (rev p) as [|y q] eqn:RP; [discriminate|]. exact A.
      * intros [H1 H2]. destruct (H2 [] s eq_refl) as [A B]. cbn in A. split; [exact A|]. split; [intros _; exact B|].
        intros p r EQ. destruct (H2 ("_"%char :: p) r ltac:(cbn; congruence)) as [C D]. split; [|exact D].
        cbn [rev] in C. destruct (rev p) as [|y q]; [|exact C]. exfalso. cbn in C. destruct C as (d & C). exact (us_no_digit _ _ C).
    + assert (NU : c <> "_"%char) by (apply Ascii.eqb_neq; exact E). destruct (floatDigit hex c) as [n|] eqn:F.
      * assert (D : exists d, isDigit hex c d) by (apply floatDigit_some; congruence). rewrite IH by auto. split.
        -- intros [_ H2]. split; [intros _; destruct D as (d & D); exists c, s, d; auto|]. intros p r EQ. destruct p as [|x p]; [cbn in EQ; congruence|].
           cbn [app] in EQ. injection EQ as <- EQ. destruct (H2 p r EQ) as [A B]. split; [|exact B]. cbn [rev]. destruct (rev p) as [|y q]; [exact D|exact A].
        -- intros [_ H2]. split; [discriminate|]. intros p r EQ. destruct (H2 (c :: p) r ltac:(cbn; congruence)) as [A B]. split; [|exact B].
           cbn [rev] in A. destruct (rev p) as [|y q]; [reflexivity|exact A].
      * assert (ND : forall d, ~ isDigit hex c d) by (intros d X; apply (proj2 (floatDigit_some hex c)); [exists d; exact X|exact F]).
        rewrite andb_true_iff, IH by auto. split.
        -- intros (U & _ & H2). destruct us; [discriminate|]. split; [discriminate|]. intros p r EQ. destruct p as [|x p]; [cbn in EQ; congruence|].
           cbn [app] in EQ. injection EQ as <- EQ. destruct (H2 p r EQ) as [A B]. split; [|exact B]. cbn [rev]. destruct (rev p) as [|y q]; [discriminate|exact A].
        -- intros [H1 H2]. split; [destruct us; [|reflexivity]; destruct (H1 eq_refl) as (c' & r & d & EQ & X); injection EQ as <- _; exfalso; exact (ND _ X)|].
           split; [discriminate|]. intros p r EQ. destruct (H2 (c :: p) r ltac:(cbn; congruence)) as [A B]. split; [|exact B].
           cbn [rev] in A. destruct (rev p) as [|y q]; [|exact A]. cbn in A. destruct A as (d & A). exfalso. exact (ND _ A).
Qed.

(** the parts that a text is divided into *)
Definition prefixOf (r : bytes) : bool * bytes :=
  match r with
  | z :: x :: y :: r' => if (z =? "0")%char && isByte "x" "X" x then (true, y :: r') else (false, r)
  | _ => (false, r)
  end.
Lemma sign_split : forall t neg r, signOf t = (neg, r) -> exists sg, t = sg ++ r /\ isSign sg neg /\ (sg = [] -> match r with c :: _ => c <> "+"%char /\ c <> "-"%char | [] => True end).
Proof.
  intros t neg r H. destruct t as [|c s]; [injection H as <- <-; exists []; repeat split; constructor|].
  destruct (Ascii.eqb_spec c "+"); [subst c; injection H as <- <-; exists (b "+"); repeat split; try constructor; discriminate|].
  destruct (Ascii.eqb_spec c "-"); [subst c; injection H as <- <-; exists (b "-"); repeat split; try constructor; discriminate|].
  pose proof (sign_reads [] false (c :: s) SignNone (conj n n0)) as X. cbn [app] in X. rewrite X in H. injection H as <- <-. exists []. repeat split; try constructor; assumption.
Qed.
Lemma sign_unique : forall sg neg sg' neg' c r r', isSign sg neg -> isSign sg' neg' -> c <> "+"%char -> c <> "-"%char -> sg ++ c :: r = sg' ++ r' ->
    (sg' = [] -> match r' with c :: _ => c <> "+"%char /\ c <> "-"%char | [] => True end) -> sg = sg' /\ c :: r = r'.
Proof.
  intros sg neg sg' neg' c r r' [] [] N1 N2 E H; cbn in E; try (injection E as E1 E2); subst; try (split; [reflexivity|congruence]); try congruence;
    try (exfalso; destruct (H eq_refl); congruence).
Qed.

Lemma prefix_split : forall r hex body, prefixOf r = (hex, body) -> (if hex then exists c, r = "0"%char :: c :: body /\ (c = "x"%char \/ c = "X"%char) /\ body <> [] else r = body).
Proof.
  intros [|z [|c [|y r']]] hex body H; try (injection H as <- <-; reflexivity). cbn [prefixOf] in H.
  destruct ((z =? "0")%char && isByte "x" "X" c) eqn:E; [|injection H as <- <-; reflexivity].
  apply andb_true_iff in E. destruct E as [E1 E2]. apply Ascii.eqb_eq in E1. subst z. apply isByte_iff in E2. injection H as <- <-. exists c. repeat split; auto; discriminate.
Qed.

(** [separated] in terms of the parts *)
Lemma separated_iff : forall t neg r hex body, signOf t = (neg, r) -> prefixOf r = (hex, body) -> (hex = true \/ ~ hexText t) ->
    (separated t <-> underscores hex hex false body = true).
Proof.
  intros t neg r hex body S0 P0 HT. rewrite underscores_iff by auto. destruct (sign_split _ _ _ S0) as (sg & -> & SG & NS). pose proof (prefix_split _ _ _ P0) as PS.
  assert (HX : hex = true <-> hexText (sg ++ r)).
  { split; [|destruct HT as [->|N]; [reflexivity|intros X; contradiction]]. intros ->. destruct PS as (c & -> & C & _). exists sg, neg, c, body. auto. }
  assert (SF : ~ In "_"%char sg) by (eapply sign_free; exact SG).
  split.
  - intros SE. split; [discriminate|]. intros p q EQ. destruct hex.
    + destruct PS as (c & -> & C & _). subst body. destruct (SE true (sg ++ "0"%char :: c :: p) q HX ltac:(rewrite <- app_assoc; reflexivity)) as [(s' & c' & E & H) B].
      split; [|exact B]. destruct (rev p) as [|y p'] eqn:RP; [reflexivity|].
      assert (EP : p = rev p' ++ [y]) by (rewrite <- (rev_involutive p), RP; reflexivity). subst p.
      change (sg ++ "0"%char :: c :: rev p' ++ [y]) with (sg ++ (("0"%char :: c :: rev p') ++ [y])) in E. rewrite app_assoc in E. apply app_inj_tail in E. destruct E as [E <-].
      destruct H as [H|(_ & sg' & neg' & SG' & ->)]; [exact H|]. exfalso.
      assert (L1 : length sg <= 1) by (destruct SG; cbn; lia). assert (L2 : length sg' <= 1) by (destruct SG'; cbn; lia).
      assert (NZ : forall x, In x sg -> x <> "0"%char) by (intros x X ->; destruct SG; cbn in X; intuition discriminate).
      assert (L : length (sg ++ "0"%char :: c :: rev p') = length (sg' ++ b "0")) by (rewrite E; reflexivity). rewrite !app_length in L. cbn in L.
      assert (sg = []) by (destruct sg; [reflexivity|cbn in L; lia]). subst sg. cbn in E. destruct SG'; cbn in E; try discriminate; injection E as _ E; discriminate.
    + subst r. subst body. destruct (SE false (sg ++ p) q HX ltac:(rewrite <- app_assoc; reflexivity)) as [(s' & c' & E & H) B]. split; [|exact B].
      destruct H as [H|[H _]]; [|discriminate]. destruct (rev p) as [|y p'] eqn:RP.
      * apply (f_equal (@rev ascii)) in RP. rewrite rev_involutive in RP. cbn in RP. subst p. rewrite app_nil_r in E. exfalso.
        destruct H as (d & D). destruct SG; cbn in E; [destruct s'; discriminate| |].
        -- destruct s' as [|? [|? ?]]; try discriminate. injection E as <-. pose proof (digit_other _ _ _ "+" D ltac:(cbn; tauto)). discriminate.
        -- destruct s' as [|? [|? ?]]; try discriminate. injection E as <-. pose proof (digit_other _ _ _ "-" D ltac:(cbn; tauto)). discriminate.
      * assert (EP : p = rev p' ++ [y]) by (rewrite <- (rev_involutive p), RP; reflexivity). subst p. rewrite app_assoc in E. apply app_inj_tail in E. destruct E as [_ <-]. exact H.
  - intros [_ H2] hex' s q HX' EQ. assert (hex' = hex) by (destruct hex, hex'; try reflexivity; [apply HX', HX; reflexivity|symmetry; apply HX, HX'; reflexivity]). subst hex'. clear HX'.
    assert (SPL : forall u v : bytes, ~ In "_"%char u -> u ++ v = s ++ "_"%char :: q -> exists p, s = u ++ p /\ v = p ++ "_"%char :: q).
    { induction u as [|x u IH]; intros v NI E; [exists s; auto|]. destruct s as [|y s]; [cbn in E; injection E as -> _; exfalso; apply NI; left; reflexivity|].
      clear -NI E. revert y s E. revert x NI. induction u as [|x' u IHu]; intros x NI y s E.
      - cbn in E. injection E as -> E. exists s. split; [reflexivity|exact E].
      - cbn in E. injection E as <- E. destruct s as [|y' s]; [cbn in E; injection E as -> _; exfalso; apply NI; right; left; reflexivity|].
        destruct (IHu x' ltac:(intros X; apply NI; right; exact X) y' s ltac:(cbn; exact E)) as (p & E1 & E2). exists p. split; [cbn; rewrite E1; reflexivity|exact E2]. }
    destruct hex.
    + destruct PS as (c & -> & C & _). change (sg ++ "0"%char :: c :: body) with (sg ++ ["0"%char; c] ++ body) in EQ. rewrite app_assoc in EQ.
      destruct (SPL (sg ++ ["0"%char; c]) body ltac:(intros X; apply in_app_or in X; destruct X as [X|[X|[X|[]]]]; [exact (SF X)|discriminate|destruct C; congruence]) EQ) as (p & -> & EB).
      destruct (H2 p q EB) as [A B]. split; [|exact B]. destruct (rev p) as [|y p'] eqn:RP.
      * apply (f_equal (@rev ascii)) in RP. rewrite rev_involutive in RP. cbn in RP. subst p. exists (sg ++ b "0"), c. split; [rewrite app_nil_r, <- app_assoc; reflexivity|]. right. split; [reflexivity|]. exists sg, neg. auto.
      * assert (EP : p = rev p' ++ [y]) by (rewrite <- (rev_involutive p), RP; reflexivity). subst p. exists ((sg ++ ["0"%char; c]) ++ rev p'), y. split; [rewrite !app_assoc; reflexivity|]. left. exact A.
    + subst r. destruct (SPL _ _ SF EQ) as (p & -> & EB). destruct (H2 p q EB) as [A B]. split; [|exact B]. destruct (rev p) as [|y p'] eqn:RP; [discriminate|].
      assert (EP : p = rev p' ++ [y]) by (rewrite <- (rev_involutive p), RP; reflexivity). subst p. exists (sg ++ rev p'), y. split; [rewrite app_assoc; reflexivity|]. left. exact A.
Qed.

(** ** Reading with underscores is reading without *)

Definition noUs (s : bytes) : Prop := match s with c :: _ => (c =? "_")%char = false | [] => True end.
Lemma plain_head : forall s, noUs s -> plain s = match s with [] => [] | c :: s' => c :: plain s' end.
Proof. intros [|c s] H; [reflexivity|]. apply plain_cons. exact H. Qed.
Lemma plain_us : forall s, plain ("_"%char :: s) = plain s.
Proof. reflexivity. Qed.

Lemma mantissa_plain : forall hex s dot seen m nf seen' m' nf' rest, mantissa hex dot seen m nf s = (seen', m', nf', rest) ->
    mantissa hex dot seen m nf (plain s) = (seen', m', nf', plain rest) /\ noUs rest /\ exists pre, s = pre ++ rest.
Proof.
  intros hex s. induction s as [|c s IH]; intros dot seen m nf seen' m' nf' rest H; cbn [mantissa] in H.
  - injection H as <- <- <- <-. split; [reflexivity|]. split; [exact I|]. exists []. reflexivity.
  - destruct (c =? "_")%char eqn:E.
    + apply Ascii.eqb_eq in E. subst c. rewrite plain_us. destruct (IH _ _ _ _ _ _ _ _ H) as (A & B & pre & ->). split; [exact A|]. split; [exact B|]. exists ("_"%char :: pre). reflexivity.
    + rewrite plain_cons by exact E. cbn [mantissa]. rewrite E. destruct (c =? ".")%char.
      * destruct dot.
        -- injection H as <- <- <- <-. rewrite plain_cons by exact E. split; [reflexivity|]. split; [exact E|]. exists []. reflexivity.
        -- destruct (IH _ _ _ _ _ _ _ _ H) as (A & B & pre & ->). split; [exact A|]. split; [exact B|]. exists (c :: pre). reflexivity.
      * destruct (floatDigit hex c).
        -- destruct (IH _ _ _ _ _ _ _ _ H) as (A & B & pre & ->). split; [exact A|]. split; [exact B|]. exists (c :: pre). reflexivity.
        -- injection H as <- <- <- <-. rewrite plain_cons by exact E. split; [reflexivity|]. split; [exact E|]. exists []. reflexivity.
Qed.
Lemma exponent_plain : forall s e e' rest, exponent e s = (e', rest) -> exponent e (plain s) = (e', plain rest) /\ noUs rest.
Proof.
  induction s as [|c s IH]; intros e e' rest H; cbn [exponent] in H; [injection H as <- <-; split; [reflexivity|exact I]|].
  destruct (c =? "_")%char eqn:E; [apply Ascii.eqb_eq in E; subst c; rewrite plain_us; apply IH; exact H|].
  rewrite plain_cons by exact E. cbn [exponent]. rewrite E. destruct (digit_val c); [apply IH; exact H|].
  injection H as <- <-. rewrite plain_cons by exact E. split; [reflexivity|exact E].
Qed.
Lemma signOf_sign : forall sg neg r, isSign sg neg -> (sg = [] -> match r with c :: _ => c <> "+"%char /\ c <> "-"%char | [] => True end) -> signOf (sg ++ r) = (neg, r).
Proof. intros sg neg r S0 H. destruct S0; try reflexivity. apply (sign_reads [] false r SignNone). apply H. reflexivity. Qed.
Lemma readFloat_parts : forall t neg r hex body, signOf t = (neg, r) -> prefixOf r = (hex, body) -> readFloat t =
    let '(seen, m, nf, rest) := mantissa hex false false 0 0 body in
    let scale := if hex then 4%Z else 1%Z in
    let whole e := if underscores hex hex false body then Some (neg, hex, m, (e - scale * Z.of_nat nf)%Z) else None in
    if negb seen then None
    else match rest with
         | [] => if hex then None else whole 0%Z
         | c :: rest' =>
             if (if hex then isByte "p" "P" c else isByte "e" "E" c)
             then let '(eneg, ds) := signOf rest' in
                  match ds with
                  | d :: _ => match digit_val d with
                              | Some _ => let '(e, more) := exponent 0 ds in
                                          match more with
                                          | [] => whole (if eneg then (- Z.of_N e)%Z else Z.of_N e)
                                          | _ => None
                                          end
                              | None => None
                              end
                  | [] => None
                  end
             else None
         end.
Proof. intros t neg r hex body S0 P0. unfold readFloat. rewrite S0. unfold prefixOf in P0. rewrite P0. reflexivity. Qed.

Lemma expo_nodigit : forall (hex : bool) c, (if hex then isByte "p" "P" c else isByte "e" "E" c) = true -> forall d, ~ isDigit hex c d.
Proof.
  intros hex c H d D. destruct hex; apply isByte_iff in H.
  - destruct H as [->| ->]; [pose proof (digit_other _ _ _ "p" D ltac:(cbn; tauto))|pose proof (digit_other _ _ _ "P" D ltac:(cbn; tauto))]; discriminate.
  - destruct H as [->| ->]; [pose proof (decimal_other _ _ "e" D ltac:(cbn; tauto))|pose proof (decimal_other _ _ "E" D ltac:(cbn; tauto))]; discriminate.
Qed.

Lemma readFloat_plain : forall t, separated t -> readFloat t = readFloat (plain t).
Proof.
  intros t SE. destruct (in_dec ascii_dec "_"%char t) as [US|NU]; [|rewrite plain_free by exact NU; reflexivity].
  destruct (signOf t) as [neg r] eqn:S0. destruct (prefixOf r) as [hex body] eqn:P0.
  destruct (sign_split _ _ _ S0) as (sg & ET & SG & NS). pose proof (prefix_split _ _ _ P0) as PS.
  assert (HT : hex = true \/ ~ hexText t).
  { destruct hex; [left; reflexivity|]. right. intros (sg' & neg' & x & r' & SG' & X & E). rewrite ET in E.
    destruct (sign_unique sg' neg' sg neg "0"%char (x :: r') r SG' SG ltac:(discriminate) ltac:(discriminate) ltac:(symmetry; exact E) NS) as [-> <-].
    destruct r' as [|y r'].
    - rewrite ET in US. apply in_app_or in US. destruct US as [US|[US|[US|[]]]]; [exact (sign_free _ _ SG US)|discriminate|destruct X; congruence].
    - cbn in P0. assert (isByte "x" "X" x = true) as B by (apply isByte_iff; exact X). rewrite B in P0. discriminate. }
  pose proof (proj1 (separated_iff _ _ _ _ _ S0 P0 HT) SE) as UB. pose proof (proj1 (underscores_iff hex body hex false (or_introl eq_refl)) UB) as [_ SF].
  assert (SP : signOf (plain t) = (neg, plain r) /\ prefixOf (plain r) = (hex, plain body)).
  { rewrite ET, plain_app, (plain_sign _ _ SG). destruct hex.
    - destruct PS as (c & -> & C & NB). assert (E0 : plain ("0"%char :: c :: body) = "0"%char :: c :: plain body) by (rewrite plain_cons, plain_cons; [reflexivity|destruct C as [->| ->]; reflexivity|reflexivity]).
      rewrite E0. split; [apply signOf_sign; [exact SG|intros _; split; discriminate]|].
      destruct (plain body) as [|y pb] eqn:PB.
      + exfalso. destruct body as [|y body]; [congruence|]. destruct (y =? "_")%char eqn:Y.
        * apply Ascii.eqb_eq in Y. subst y. destruct (SF [] body eq_refl) as [_ (d & q & z & -> & D)]. rewrite plain_us in PB.
          rewrite plain_cons in PB; [discriminate|]. apply (digit_other _ _ _ "_" D). cbn. tauto.
        * rewrite plain_cons in PB by exact Y. discriminate.
      + cbn [prefixOf]. assert (isByte "x" "X" c = true) as -> by (apply isByte_iff; exact C). reflexivity.
    - subst body. assert (NH : noUs r).
      { destruct r as [|c r]; [exact I|]. destruct (c =? "_")%char eqn:Y; [|exact Y]. apply Ascii.eqb_eq in Y. subst c. destruct (SF [] r eq_refl) as [Z _]. discriminate Z. }
      split.
      + apply signOf_sign; [exact SG|]. intros Z. specialize (NS Z). rewrite plain_head by exact NH. destruct r; assumption.
      + rewrite plain_head by exact NH. destruct r as [|z r]; [reflexivity|]. destruct r as [|x r]; [reflexivity|]. destruct (x =? "_")%char eqn:X.
        * apply Ascii.eqb_eq in X. subst x. destruct (SF [z] r eq_refl) as [_ (d & q & k & -> & D)]. rewrite plain_us.
          rewrite plain_cons by (apply (digit_other _ _ _ "_" D); cbn; tauto). destruct (digit_notx _ _ D) as [X1 X2]. destruct (plain q) as [|y q']; [reflexivity|]. cbn [prefixOf].
          assert (isByte "x" "X" d = false) as -> by (unfold isByte; apply Ascii.eqb_neq in X1, X2; rewrite X1, X2; reflexivity). rewrite andb_false_r. reflexivity.
        * rewrite plain_cons by exact X. destruct (plain r) as [|y r'] eqn:PR; [reflexivity|]. cbn [prefixOf].
          destruct r as [|y0 r0]; [discriminate|]. cbn [prefixOf] in P0. destruct ((z =? "0")%char && isByte "x" "X" x); [discriminate|reflexivity]. }
  destruct SP as [S1 P1]. rewrite (readFloat_parts _ _ _ _ _ S0 P0), (readFloat_parts _ _ _ _ _ S1 P1).
  destruct (mantissa hex false false 0 0 body) as [[[seen m] nf] rest] eqn:M. destruct (mantissa_plain _ _ _ _ _ _ _ _ _ _ M) as (MP & NR & pre & EB). rewrite MP. cbv zeta.
  assert (UP : underscores hex hex false (plain body) = true).
  { apply no_underscores. intros X. unfold plain in X. apply filter_In in X. destruct X as [_ X]. discriminate. }
  rewrite UB, UP. destruct seen; [|reflexivity]. cbn [negb]. rewrite (plain_head rest NR). destruct rest as [|c rest]; [reflexivity|].
  destruct (if hex then isByte "p" "P" c else isByte "e" "E" c) eqn:BY; [|reflexivity].
  pose proof (expo_nodigit _ _ BY) as ND.
  destruct (signOf rest) as [eneg ds] eqn:S2. destruct (sign_split _ _ _ S2) as (sg2 & ER & SG2 & NS2).
  assert (NDS : noUs ds).
  { destruct ds as [|d ds]; [exact I|]. destruct (d =? "_")%char eqn:Y; [|exact Y]. apply Ascii.eqb_eq in Y. subst d. exfalso.
    destruct (SF (pre ++ c :: sg2) ds ltac:(rewrite EB, ER, <- app_assoc; reflexivity)) as [A _]. rewrite rev_app_distr in A. cbn [rev] in A.
    destruct SG2; cbn in A; destruct A as (d & D); [exact (ND _ D)| |].
    - pose proof (digit_other _ _ _ "+" D ltac:(cbn; tauto)). discriminate.
    - pose proof (digit_other _ _ _ "-" D ltac:(cbn; tauto)). discriminate. }
  assert (S3 : signOf (plain rest) = (eneg, plain ds)).
  { rewrite ER, plain_app, (plain_sign _ _ SG2). apply signOf_sign; [exact SG2|]. intros Z. specialize (NS2 Z). rewrite plain_head by exact NDS. destruct ds; assumption. }
  rewrite S3. rewrite (plain_head ds NDS). destruct ds as [|d ds]; [reflexivity|]. destruct (digit_val d); [|reflexivity].
  destruct (exponent 0 (d :: ds)) as [e more'] eqn:EX. destruct (exponent_plain _ _ _ _ EX) as [EP NM]. rewrite (plain_head (d :: ds) NDS) in EP. rewrite EP.
  rewrite (plain_head more' NM). destruct more'; reflexivity.
Qed.

(** what is read has its underscores at the right places *)
Lemma readFloat_separated : forall t neg hex m x, readFloat t = Some (neg, hex, m, x) -> separated t.
Proof.
  intros t neg hex m x H. destruct (signOf t) as [neg' r] eqn:S0. destruct (prefixOf r) as [hex' body] eqn:P0. rewrite (readFloat_parts _ _ _ _ _ S0 P0) in H.
  destruct (sign_split _ _ _ S0) as (sg & ET & SG & NS).
  assert (UB : underscores hex' hex' false body = true).
  { destruct (mantissa hex' false false 0 0 body) as [[[seen m'] nf] rest]. cbv zeta in H. destruct (underscores hex' hex' false body); [reflexivity|].
    repeat match type of H with context [match ?c with _ => _ end] => destruct c; try discriminate end. }
  destruct hex'.
  - apply (separated_iff _ _ _ _ _ S0 P0); [left; reflexivity|exact UB].
  - destruct (in_dec ascii_dec "_"%char t) as [US|NU].
    + apply (separated_iff _ _ _ _ _ S0 P0); [|exact UB]. right. intros (sg' & ng & y & r' & SG' & X & E). rewrite ET in E.
      destruct (sign_unique sg' ng sg neg' "0"%char (y :: r') r SG' SG ltac:(discriminate) ltac:(discriminate) ltac:(symmetry; exact E) NS) as [-> <-].
      destruct r' as [|w r'].
      * rewrite ET in US. apply in_app_or in US. destruct US as [US|[US|[US|[]]]]; [exact (sign_free _ _ SG US)|discriminate|destruct X; congruence].
      * cbn in P0. assert (isByte "x" "X" y = true) as B by (apply isByte_iff; exact X). rewrite B in P0. discriminate.
    + intros hex2 s q _ E. exfalso. apply NU. rewrite E. apply in_or_app. right. left. reflexivity.
Qed.

Lemma separated_head : forall t neg r, separated t -> signOf t = (neg, r) -> noUs r.
Proof.
  intros t neg r SE S0. destruct (sign_split _ _ _ S0) as (sg & -> & SG & NS). destruct r as [|c r]; [exact I|]. destruct (c =? "_")%char eqn:Y; [|exact Y]. apply Ascii.eqb_eq in Y. subst c. exfalso.
  assert (NH : ~ hexText (sg ++ "_"%char :: r)).
  { intros (sg' & ng & y & r' & SG' & X & E). destruct (sign_unique sg' ng sg neg "0"%char (y :: r') ("_"%char :: r) SG' SG ltac:(discriminate) ltac:(discriminate) ltac:(symmetry; exact E) NS) as [_ Z]. discriminate. }
  destruct (SE false sg r ltac:(split; [discriminate|intros X; contradiction]) eq_refl) as [(s' & c & E & [(d & D)|[Z _]]) _]; [|discriminate].
  destruct SG; [destruct s'; discriminate| |]; destruct s' as [|? [|? ?]]; try discriminate; injection E as <-.
  - pose proof (digit_other _ _ _ "+" D ltac:(cbn; tauto)). discriminate.
  - pose proof (digit_other _ _ _ "-" D ltac:(cbn; tauto)). discriminate.
Qed.
Lemma parse_plain : forall t neg p q e, isNumber (plain t) neg p q e -> separated t -> ParseFloat t = ParseFloat (plain t) /\ failedFloat t = failedFloat (plain t).
Proof.
  intros t neg p q e H SE. unfold ParseFloat, failedFloat. rewrite <- (readFloat_plain t SE). split; [|reflexivity].
  destruct (number_head _ _ _ _ _ H) as (sg & c & r & E & S0 & Hc). rewrite E. rewrite (not_special _ _ _ _ S0 Hc).
  destruct (signOf t) as [neg' r'] eqn:S1. pose proof (separated_head _ _ _ SE S1) as NR. destruct (sign_split _ _ _ S1) as (sg' & ET & SG' & NS).
  assert (EP : sg ++ c :: r = sg' ++ plain r') by (rewrite <- E, ET, plain_app, (plain_sign _ _ SG'); reflexivity).
  destruct (head_no_sign false c Hc) as [N1 N2].
  destruct (sign_unique sg neg sg' neg' c r (plain r') S0 SG' N1 N2 EP) as [_ ER]; [intros Z; specialize (NS Z); rewrite plain_head by exact NR; destruct r'; assumption|].
  rewrite plain_head in ER by exact NR. destruct r' as [|c' r']; [discriminate|]. injection ER as <- _.
  rewrite ET, (not_special _ _ _ _ SG' Hc). reflexivity.
Qed.

(** ** The words *)
Lemma letters_sameText : forall s w, inLetters s w -> Forall (fun c => ~ (65 <= N_of_ascii c <= 90)%N) w -> sameText s w = true.
Proof.
  intros s w H. induction H as [|c d s w C H IH]; intros L; [reflexivity|]. inversion L as [|? ? L1 L2]; subst. unfold sameText. cbn [map beqb]. apply andb_true_iff. split; [|apply IH; exact L2].
  apply Ascii.eqb_eq. destruct C as [->|[C E]].
  - destruct ((65 <=? N_of_ascii d) && (N_of_ascii d <=? 90))%N eqn:X; [|reflexivity]. apply andb_true_iff in X. rewrite !N.leb_le in X. contradiction.
  - assert (((65 <=? N_of_ascii c) && (N_of_ascii c <=? 90))%N = true) as -> by (apply andb_true_iff; rewrite !N.leb_le; exact C). rewrite <- E. apply ascii_N_embedding.
Qed.
Lemma parse_word : forall t f, isWord t f -> ParseFloat t = Some f.
Proof.
  assert (SM : forall w, In w [b "inf"; b "infinity"; b "nan"] -> Forall (fun c => ~ (65 <= N_of_ascii c <= 90)%N) w).
  { intros w [<-|[<-|[<-|[]]]]; repeat constructor; intros [X Y]; vm_compute in X, Y; congruence. }
  assert (HD : forall t w x, inLetters t (x :: w) -> (x = "i"%char \/ x = "n"%char) -> match t with c :: _ => c <> "+"%char /\ c <> "-"%char | [] => True end).
  { intros t w x H X. inversion H as [|c ? s ? C]; subst. split; intros ->; destruct C as [<-|[C _]]; try (destruct X; discriminate); destruct C as [C _]; vm_compute in C; congruence. }
  intros t f [sg neg s S0 H|s H]; unfold ParseFloat, special.
  - rewrite (signOf_sign _ _ s S0) by (intros _; destruct H as [H|H]; eapply HD; [exact H|left; reflexivity|exact H|left; reflexivity]).
    assert (sameText s (b "inf") || sameText s (b "infinity") = true) as ->; [|reflexivity].
    apply orb_true_iff. destruct H as [H|H]; [left|right]; apply letters_sameText; auto; apply SM; cbn; auto.
  - pose proof (signOf_sign [] false s SignNone (fun _ => HD _ _ _ H (or_intror eq_refl))) as E. cbn [app] in E. rewrite E.
    assert (NI : forall w, sameText s ("i"%char :: w) = false).
    { intros w. inversion H as [|c ? s' ? C]; subst. unfold sameText. cbn [map beqb]. apply andb_false_iff. left. apply Ascii.eqb_neq.
      destruct C as [->|[C EC]]; [vm_compute; discriminate|]. assert (((65 <=? N_of_ascii c) && (N_of_ascii c <=? 90))%N = true) as -> by (apply andb_true_iff; rewrite !N.leb_le; exact C).
      rewrite <- EC. vm_compute. discriminate. }
    cbn [b list_ascii_of_string] in *. rewrite !NI. cbn [orb]. rewrite (letters_sameText s _ H); [reflexivity|]. apply (SM (b "nan")). cbn. auto.
Qed.

(** ** The rounded value is unique *)

Lemma even_mul : forall m x, Z.even m = true -> Z.even (m * x) = true.
Proof. intros m x H. rewrite Z.even_mul, H. reflexivity. Qed.
(** Between two numbers with even mantissas there is another one. *)
Lemma even_gap : forall v m2 k2, (0 <= k2 -> 0 < m2 < 2 ^ 53 -> Z.even m2 = true -> (0 < k2 -> 2 ^ 52 <= m2) ->
    (v = 0 \/ exists m k, 0 <= k /\ 0 < m < 2 ^ 53 /\ Z.even m = true /\ v = m * 2 ^ k) -> v < m2 * 2 ^ k2 ->
    exists m k, 0 < m < 2 ^ 53 /\ 0 <= k <= k2 /\ v < m * 2 ^ k < m2 * 2 ^ k2)%Z.
Proof.
  intros v m2 k2 K M E N V L. assert (P : (0 < 2 ^ k2)%Z) by (apply Z.pow_pos_nonneg; lia).
  assert (M2 : (2 <= m2)%Z) by (destruct (Z.eq_dec m2 1) as [->|]; [discriminate|lia]).
  destruct (Z_le_gt_dec k2 0) as [K0|K0]; [|specialize (N ltac:(lia))].
  - assert (k2 = 0%Z) by lia. subst k2. exists (m2 - 1)%Z, 0%Z. split; [lia|]. split; [lia|]. rewrite Z.pow_0_r in *. split; [|lia].
    destruct V as [->|(m & k & K1 & M1 & E1 & ->)]; [lia|]. assert (X : Z.even (m * 2 ^ k) = true) by (apply even_mul; exact E1).
    destruct (Z.eq_dec (m * 2 ^ k) (m2 - 1)) as [Y|Y]; [|lia]. rewrite Y, Z.even_sub, E in X. discriminate.
  - destruct (Z.eq_dec m2 (2 ^ 52)) as [->|NE].
    + assert (P2 : (2 ^ k2 = 2 * 2 ^ (k2 - 1))%Z) by (rewrite <- Z.pow_succ_r by lia; f_equal; lia). set (Q := (2 ^ (k2 - 1))%Z) in *.
      assert (0 < Q)%Z by (apply Z.pow_pos_nonneg; lia). exists (2 ^ 53 - 1)%Z, (k2 - 1)%Z. fold Q. split; [lia|]. split; [lia|]. rewrite P2 in *. split; [|lia].
      destruct V as [->|(m & k & K1 & M1 & E1 & ->)]; [lia|]. assert (P1 : (0 < 2 ^ k)%Z) by (apply Z.pow_pos_nonneg; lia). destruct (Z_lt_ge_dec k (k2 - 1)) as [C|C].
      * assert (Q = 2 * 2 ^ (k2 - 2 - k) * 2 ^ k)%Z as ->. { unfold Q. rewrite <- Z.pow_succ_r by lia. rewrite <- Z.pow_add_r by lia. f_equal. lia. }
        assert (0 < 2 ^ (k2 - 2 - k))%Z by (apply Z.pow_pos_nonneg; lia). nia.
      * assert (EQ : (2 ^ k = 2 ^ (k - (k2 - 1)) * Q)%Z) by (unfold Q; rewrite <- Z.pow_add_r by lia; f_equal; lia). rewrite EQ in *. rewrite Z.mul_assoc in *.
        assert (X : Z.even (m * 2 ^ (k - (k2 - 1))) = true) by (apply even_mul; exact E1). set (a := (m * 2 ^ (k - (k2 - 1)))%Z) in *.
        destruct (Z.eq_dec a (2 ^ 53 - 1)) as [Y|Y]; [rewrite Y in X; discriminate|]. nia.
    + exists (m2 - 1)%Z, k2. split; [lia|]. split; [lia|]. split; [|nia].
      destruct V as [->|(m & k & K1 & M1 & E1 & ->)]; [nia|]. assert (P1 : (0 < 2 ^ k)%Z) by (apply Z.pow_pos_nonneg; lia). destruct (Z_lt_ge_dec k k2) as [C|C].
      * assert (2 ^ k2 = 2 * 2 ^ (k2 - 1 - k) * 2 ^ k)%Z as ->. { rewrite <- Z.pow_succ_r by lia. rewrite <- Z.pow_add_r by lia. f_equal. lia. }
        assert (0 < 2 ^ (k2 - 1 - k))%Z by (apply Z.pow_pos_nonneg; lia). nia.
      * assert (EQ : (2 ^ k = 2 ^ (k - k2) * 2 ^ k2)%Z) by (rewrite <- Z.pow_add_r by lia; f_equal; lia). rewrite EQ in *. rewrite Z.mul_assoc in *.
        assert (X : Z.even (m * 2 ^ (k - k2)) = true) by (apply even_mul; exact E1). set (a := (m * 2 ^ (k - k2))%Z) in *.
        destruct (Z.eq_dec a (m2 - 1)) as [Y|Y]; [rewrite Y, Z.even_sub, E in X; discriminate|]. nia.
Qed.

(** the size of a float with an even mantissa *)
Lemma even_parts : forall s f v, canon f -> signOk s f -> evenMantissa f -> fval f = Some v ->
    exists u, (v = (if s then -1 else 1) * u /\ (u = 0 \/ exists m k, 0 <= k /\ k <= 2045 /\ 0 < m < 2 ^ 53 /\ Z.even m = true /\ (0 < k -> 2 ^ 52 <= m) /\ u = m * 2 ^ k))%Z.
Proof.
  intros s f v C S0 E V. destruct f as [s'|s'| |s' m e]; try discriminate; injection V as <-; cbn in S0.
  - exists 0%Z. split; [destruct s; reflexivity|]. left. reflexivity.
  - subst s'. exists (Zpos m * 2 ^ (e + 1074))%Z. split; [lia|]. right. exists (Zpos m), (e + 1074)%Z.
    destruct (canon_float64 _ C) as (L & E1 & E2). apply canon_iff in C. destruct C as [C _]. rewrite fexp_val in C.
    split; [lia|]. split; [lia|]. split; [lia|]. split; [exact E|]. split; [|reflexivity]. intros K. assert (D : dg m = 53%Z) by lia. pose proof (dg_bounds m) as [B _]. rewrite D in B. exact B.
Qed.

Lemma rounded_unique : forall neg p q f g, (0 < q)%Z -> rounded neg p q f -> rounded neg p q g -> f = g.
Proof.
  intros neg p q f g Q (CF & SF & v & V & NF) (CG & SG & w & W & NG).
  pose proof (NF g w (canon_float64 _ CG) W) as [A1 B1]. pose proof (NG f v (canon_float64 _ CF) V) as [A2 B2].
  destruct (Z.eq_dec v w) as [->|NE].
  - destruct (Z.eq_dec w 0) as [->|N0]; [|exact (canon_unique f g w CF CG V W N0)].
    assert (Z0 : forall h, signOk neg h -> canon h -> fval h = Some 0%Z -> h = S754_zero neg).
    { intros h S0 C H. destruct h as [s|s| |s m e]; try discriminate; cbn in S0; subst s; [reflexivity|]. exfalso. injection H as H. destruct (canon_float64 _ C) as (_ & E1 & _).
      assert (0 < 2 ^ (e + 1074))%Z by (apply Z.pow_pos_nonneg; lia). destruct neg; nia. }
    rewrite (Z0 f), (Z0 g) by assumption. reflexivity.
  - exfalso. assert (EQ : (Z.abs (v * q - (if neg then -1 else 1) * p * unit1) = Z.abs (w * q - (if neg then -1 else 1) * p * unit1))%Z) by lia.
    specialize (B1 ltac:(congruence) EQ). specialize (B2 NE (eq_sym EQ)).
    destruct (even_parts neg f v CF SF B1 V) as (u & EV & U). destruct (even_parts neg g w CG SG B2 W) as (u' & EW & U').
    assert (MID : forall a a', (a = u /\ a' = u' \/ a = u' /\ a' = u) -> (a < a')%Z ->
        (a = 0 \/ exists m k, 0 <= k /\ 0 < m < 2 ^ 53 /\ Z.even m = true /\ a = m * 2 ^ k)%Z ->
        (exists m k, 0 <= k /\ k <= 2045 /\ 0 < m < 2 ^ 53 /\ Z.even m = true /\ (0 < k -> 2 ^ 52 <= m) /\ a' = m * 2 ^ k)%Z -> False).
    { intros a a' AA LT HA (m2 & k2 & K2 & K3 & M2 & E2 & N2 & EA). subst a'.
      destruct (even_gap a m2 k2 K2 M2 E2 N2 HA LT) as (m & k & M & K & L1 & L2).
      set (h := S754_finite neg (Z.to_pos m) (k - 1074)).
      assert (FH : is_float64 h) by (cbn; rewrite Z2Pos.id by lia; lia).
      assert (VH : fval h = Some ((if neg then -1 else 1) * (m * 2 ^ k))%Z).
      { cbn [h fval]. rewrite Z2Pos.id by lia. f_equal. rewrite Z.mul_assoc. f_equal. f_equal. lia. }
      destruct (NF h _ FH VH) as [D1 _]. destruct (NG h _ FH VH) as [D2 _].
      set (c := (m * 2 ^ k)%Z) in *. set (c2 := (m2 * 2 ^ k2)%Z) in *. clearbody c c2. set (x := (p * unit1)%Z) in *.
      assert (SG1 : forall z, Z.abs ((if neg then -1 else 1) * z * q - (if neg then -1 else 1) * p * unit1) = Z.abs (z * q - x)) by (intros z; unfold x; destruct neg; lia).
      rewrite EV in D1. rewrite EW in D2. rewrite EV, EW in EQ. rewrite !SG1 in *.
      assert (a * q < c * q /\ c * q < c2 * q)%Z by (split; apply Z.mul_lt_mono_pos_r; assumption).
      destruct AA as [[-> ->]|[-> ->]]; lia. }
    assert (WK : forall z, (z = 0 \/ exists m k, 0 <= k /\ k <= 2045 /\ 0 < m < 2 ^ 53 /\ Z.even m = true /\ (0 < k -> 2 ^ 52 <= m) /\ z = m * 2 ^ k)%Z ->
       (z = 0 \/ exists m k, 0 <= k /\ 0 < m < 2 ^ 53 /\ Z.even m = true /\ z = m * 2 ^ k)%Z).
    { intros z [->|(m & k & H)]; [left; reflexivity|right]. exists m, k. intuition. }
    assert (PZ : forall z, (z = 0 \/ exists m k, 0 <= k /\ k <= 2045 /\ 0 < m < 2 ^ 53 /\ Z.even m = true /\ (0 < k -> 2 ^ 52 <= m) /\ z = m * 2 ^ k)%Z -> (0 <= z)%Z).
    { intros z [->|(m & k & K & _ & M & _ & _ & ->)]; [lia|]. assert (0 < 2 ^ k)%Z by (apply Z.pow_pos_nonneg; lia). nia. }
    destruct (Z.lt_trichotomy u u') as [L|[L|L]].
    + apply (MID u u'); auto. destruct U' as [->|U']; [|exact U']. specialize (PZ u U). lia.
    + apply NE. rewrite EV, EW, L. reflexivity.
    + apply (MID u' u); auto. destruct U as [->|U]; [|exact U]. specialize (PZ u' U'). lia.
Qed.
