From Coq Require Import String Ascii List Arith NArith ZArith Bool Lia Floats.SpecFloat.
From Verif Require Import GoBase GoStrings GoBaseFacts HexSpec HexSpecFacts FloatModel FloatSpec FloatProofs MemModel MemSpec.
Import ListNotations.

(** ** Bytes *)

Lemma u32_small : forall n, (n < 4294967296)%N -> u32 n = n.
Proof. intros n H. unfold u32. apply N.mod_small. exact H. Qed.

Lemma loop_ok : forall hex a bs i acc,
    (i + N.of_nat (length bs) <= 4294967296)%N -> bytes_at hex (a + i) bs ->
    getBytes_loop hex a (length bs) i acc = Ok (acc ++ bs).
Proof.
  intros hex a. induction bs as [|v bs IH]; intros i acc Hi H; cbn [length getBytes_loop].
  - rewrite app_nil_r. reflexivity.
  - destruct H as [H1 H2]. cbn [length] in Hi. rewrite (u32_small i) by lia.
    unfold u32. change 4294967296%N with (2 ^ 32)%N. rewrite H1.
    rewrite IH; [rewrite <- app_assoc; reflexivity|lia|].
    replace (a + (i + 1))%N with (a + i + 1)%N by lia. exact H2.
Qed.

Lemma loop_inv : forall hex a n i acc,
    (i + N.of_nat n <= 4294967296)%N ->
    (exists bs, length bs = n /\ bytes_at hex (a + i) bs /\ getBytes_loop hex a n i acc = Ok (acc ++ bs))
    \/ (exists j, (i <= j < i + N.of_nat n)%N /\ lookup ((a + j) mod 2 ^ 32) hex = None
        /\ getBytes_loop hex a n i acc = Err MAddr).
Proof.
  intros hex a. induction n as [|n IH]; intros i acc Hi; cbn [getBytes_loop].
  - left. exists []. rewrite app_nil_r. cbn. auto.
  - rewrite (u32_small i) by lia. unfold u32. change 4294967296%N with (2 ^ 32)%N.
    destruct (lookup ((a + i) mod 2 ^ 32) hex) as [v|] eqn:E.
    + destruct (IH (i + 1)%N (acc ++ [v])) as [(bs & L & H & R)|(j & Hj & Hn & R)]; [lia| |].
      * left. exists (v :: bs). cbn [length bytes_at]. split; [lia|]. split.
        -- split; [exact E|]. replace (a + i + 1)%N with (a + (i + 1))%N by lia. exact H.
        -- rewrite R, <- app_assoc. reflexivity.
      * right. exists j. split; [lia|]. auto.
    + right. exists i. split; [lia|]. auto.
Qed.

Lemma bytes_at_nth : forall hex a bs j, bytes_at hex a bs -> (N.to_nat j < length bs)%nat ->
    exists v, lookup ((a + j) mod 2 ^ 32) hex = Some v.
Proof.
  intros hex a bs. revert a. induction bs as [|v bs IH]; intros a j H L; cbn [length] in L; [lia|].
  destruct H as [H1 H2]. destruct (N.eq_dec j 0) as [->|N0].
  - rewrite N.add_0_r. eauto.
  - destruct (IH (a + 1)%N (j - 1)%N H2) as [w Hw]; [lia|]. exists w.
    replace (a + j)%N with (a + 1 + (j - 1))%N by lia. exact Hw.
Qed.

Lemma getBytes_panics : forall cx a len, (8 <= len)%N -> getBytes cx a len = Panic.
Proof.
  intros cx a len H. unfold getBytes.
  assert ((0 <? len / 8)%N = true) as ->; [|reflexivity].
  apply N.ltb_lt. apply N.div_str_pos. lia.
Qed.

Lemma getBytes_short : forall cx a len, (len < 8)%N ->
    getBytes cx a len = if (len =? 0)%N then Ok [] else Err MLen.
Proof.
  intros cx a len H. unfold getBytes. rewrite N.div_small, N.mod_small by lia. cbn [N.ltb N.compare].
  destruct (len =? 0)%N eqn:E; reflexivity.
Qed.

Lemma repaired_spec : forall cx a n, (8 * n < 4294967296)%N ->
    (exists bs, N.of_nat (length bs) = n /\ bytes_at (cx_hex cx) a bs /\ getBytes_repaired cx a (8 * n) = Ok bs)
    \/ ((exists j, (j < n)%N /\ lookup ((a + j) mod 2 ^ 32) (cx_hex cx) = None)
        /\ getBytes_repaired cx a (8 * n) = Err MAddr).
Proof.
  intros cx a n Hn. unfold getBytes_repaired.
  replace (8 * n / 8)%N with n by (rewrite N.mul_comm, N.div_mul by lia; reflexivity).
  replace ((8 * n) mod 8)%N with 0%N by (rewrite N.mul_comm, N.mod_mul by lia; reflexivity).
  cbn [N.eqb negb].
  destruct (loop_inv (cx_hex cx) a (N.to_nat n) 0 []) as [(bs & L & H & R)|(j & Hj & Hl & R)]; [lia| |].
  - left. exists bs. rewrite N.add_0_r in H. split; [lia|]. auto.
  - right. split; [|exact R]. exists j. split; [lia|exact Hl].
Qed.

(** ** Alignment *)

Lemma align_value : forall rl cx d a bd, in_force rl (cx_common cx) d bd ->
    getNextAlignedAddress cx a d rl =
      if (bd =? 0)%N then Panic
      else if (a mod bd =? 0)%N then Ok a else Ok ((a + a mod bd) mod 2 ^ 32)%N.
Proof.
  intros rl cx d a bd H.
  inversion H as [get dflt G S1|get dflt G S1 S2|get dflt G S1 S2]; subst; clear H;
    destruct d; cbn [governing] in G; try discriminate; injection G as <- <-;
    unfold getNextAlignedAddress, alignCase; rewrite ?S1, ?S2; reflexivity.
Qed.

Lemma in_force_exists : forall rl mc d, d <> DUndef -> exists bd, in_force rl mc d bd.
Proof.
  intros rl mc d H.
  assert (G : exists get dflt, governing d = Some (get, dflt)) by (destruct d; cbn; eauto; congruence).
  destruct G as (get & dflt & G).
  destruct (AlignmentBorderSet (get rl)) eqn:E1; [eexists; eapply from_layout; eauto|].
  destruct (AlignmentBorderSet (get mc)) eqn:E2; eexists; [eapply from_common|eapply from_default]; eauto.
Qed.

Lemma in_force_fun : forall rl mc d b1 b2, in_force rl mc d b1 -> in_force rl mc d b2 -> b1 = b2.
Proof.
  intros rl mc d b1 b2 H1 H2. inversion H1; subst; inversion H2; subst; congruence.
Qed.

Lemma aligned_up_val : forall a bd r, bd <> 0%N -> (a mod bd <> 0)%N ->
    (aligned_up a bd r <-> r = a - a mod bd + bd)%N.
Proof.
  intros a bd r Hb Hm.
  assert (E : (a = bd * (a / bd) + a mod bd)%N) by (apply N.div_mod; exact Hb).
  pose proof (N.mod_lt a bd Hb) as Hlt.
  set (q := (a / bd)%N) in *. set (m := (a mod bd)%N) in *. clearbody q m.
  assert (V : (a - m + bd = bd * (q + 1))%N) by lia. rewrite V.
  assert (U : forall r', (a <= r')%N -> (bd | r')%N -> (bd * (q + 1) <= r')%N).
  { intros r' H1 [c ->]. enough (q < c)%N by nia.
    destruct (N.lt_ge_cases q c) as [L|L]; [exact L|]. nia. }
  split.
  - intros (H1 & H2 & H3). apply N.le_antisymm; [|apply U; assumption].
    apply H3; [lia|]. exists (q + 1)%N. lia.
  - intros ->. split; [lia|]. split; [exists (q + 1)%N; lia|exact U].
Qed.

Lemma aligned_up_0 : forall a bd r, bd <> 0%N -> (a mod bd = 0)%N -> (aligned_up a bd r <-> r = a).
Proof.
  intros a bd r Hb Hm. apply N.mod_divide in Hm; [|exact Hb]. split.
  - intros (H1 & H2 & H3). apply N.le_antisymm; [|exact H1]. apply H3; [lia|exact Hm].
  - intros ->. split; [lia|]. split; [exact Hm|]. intros; assumption.
Qed.

Lemma ok_inj : forall E A (x y : A), @Ok E A x = Ok y -> x = y.
Proof. intros E A x y H. congruence. Qed.

Lemma align_right_iff : forall rl cx d a bd r, (a < 2 ^ 32)%N -> bd <> 0%N -> in_force rl (cx_common cx) d bd ->
    getNextAlignedAddress cx a d rl = Ok r ->
    (aligned_up a bd r <->
       (a mod bd = 0)%N \/ ((2 * (a mod bd) = bd)%N /\ (a + a mod bd < 2 ^ 32)%N)).
Proof.
  intros rl cx d a bd r Ha Hb HF. rewrite (align_value rl cx d a bd HF).
  destruct (N.eqb_spec bd 0) as [E|_]; [contradiction|].
  destruct (N.eqb_spec (a mod bd) 0) as [E|E]; intros H; apply ok_inj in H; subst r.
  - rewrite aligned_up_0 by assumption. tauto.
  - rewrite aligned_up_val by assumption.
    pose proof (N.mod_lt a bd Hb) as Hlt. pose proof (N.mod_le a bd Hb) as Hle.
    assert (W : ((a + a mod bd < 2 ^ 32)%N -> (a + a mod bd) mod 2 ^ 32 = a + a mod bd)%N)
      by (intros; apply N.mod_small; assumption).
    destruct (N.lt_ge_cases (a + a mod bd) (2 ^ 32)) as [L|L].
    + rewrite W by exact L. set (m := (a mod bd)%N) in *. clearbody m. lia.
    + assert (X : ((a + a mod bd) mod 2 ^ 32 < a)%N).
      { assert (a + a mod bd < 2 * 2 ^ 32)%N by lia.
        replace (a + a mod bd)%N with ((a + a mod bd - 2 ^ 32) + 1 * 2 ^ 32)%N by lia.
        rewrite N.mod_add by lia. rewrite N.mod_small by lia.
        assert (a mod bd < 2 ^ 32)%N by lia. lia. }
      set (m := (a mod bd)%N) in *. clearbody m.
      split; [|intros [?|[? ?]]; lia].
      intros Hx. rewrite Hx in X. lia.
Qed.

(** ** Integers *)

Lemma le_bytes_length : forall k v, length (le_bytes k v) = k.
Proof. induction k as [|k IH]; intros v; cbn [le_bytes length]; [reflexivity|rewrite IH; reflexivity]. Qed.

Lemma encode_length : forall big k v, length (encode big k v) = k.
Proof. intros [|] k v; unfold encode; rewrite ?rev_length; apply le_bytes_length. Qed.

Lemma be_val_app : forall l v, be_val (l ++ [v]) = (be_val l * 256 + v)%N.
Proof. intros l v. unfold be_val. rewrite fold_left_app. reflexivity. Qed.

Lemma be_val_le : forall k v, (v < 256 ^ N.of_nat k)%N -> be_val (rev (le_bytes k v)) = v.
Proof.
  induction k as [|k IH]; intros v H.
  - cbn in H. cbn. lia.
  - cbn [le_bytes rev]. rewrite be_val_app. rewrite IH.
    + pose proof (N.div_mod v 256). lia.
    + apply N.div_lt_upper_bound; [lia|].
      replace (N.of_nat (S k)) with (N.succ (N.of_nat k)) in H by lia. rewrite N.pow_succ_r' in H. exact H.
Qed.

(** the reader of unsigned integers selected by the byte order *)
Definition U (big : bool) (k : nat) (bs : list N) : outcome merr N := if big then beUint k bs else leUint k bs.

Lemma U_encode : forall big k v, (v < 256 ^ N.of_nat k)%N -> U big k (encode big k v) = Ok v.
Proof.
  intros big k v H. unfold U, beUint, leUint. destruct big.
  - rewrite encode_length, Nat.ltb_irrefl.
    rewrite firstn_all2 by (rewrite encode_length; lia). cbn [encode]. rewrite be_val_le by exact H. reflexivity.
  - rewrite encode_length, Nat.ltb_irrefl.
    rewrite firstn_all2 by (rewrite encode_length; lia). cbn [encode]. rewrite be_val_le by exact H. reflexivity.
Qed.

Lemma U_short : forall big k bs, (length bs < k)%nat -> U big k bs = Panic.
Proof. intros big k bs H. apply Nat.ltb_lt in H. unfold U, beUint, leUint. rewrite H. destruct big; reflexivity. Qed.

Lemma U_long : forall big k bs, (k <= length bs)%nat -> U big k bs <> Panic.
Proof. intros big k bs H. apply Nat.ltb_ge in H. unfold U, beUint, leUint. rewrite H. destruct big; discriminate. Qed.

Lemma convert_ordered : forall cx big bs d, ordered cx big ->
    convertByteSliceToDatatype cx bs d =
      if (length bs =? 0) || (N.of_nat (length bs) * 8 <? GetDatatypeLength d)%N then Err MShort
      else convertSwitch (U big) bs d.
Proof.
  intros cx big bs d H. unfold convertByteSliceToDatatype.
  destruct ((length bs =? 0) || (N.of_nat (length bs) * 8 <? GetDatatypeLength d)%N); [reflexivity|].
  inversion H as [S O|S [O|O]|S [O|O]]; rewrite O, S; reflexivity.
Qed.

(** the width the code reads for an integer type *)
Definition code_width (d : datatype) : nat :=
  match d with UBYTE | SBYTE => 1 | UWORD | SWORD => 4 | _ => 8 end.

Lemma pow256 : forall k, (256 ^ N.of_nat k = 2 ^ (8 * N.of_nat k))%N.
Proof. intros k. rewrite N.pow_mul_r. reflexivity. Qed.

Lemma twos_bound : forall k z, (twos k z < 256 ^ N.of_nat k)%N.
Proof.
  intros k z. unfold twos. rewrite pow256.
  assert (P : (0 < 2 ^ (8 * Z.of_nat k))%Z) by (apply Z.pow_pos_nonneg; lia).
  pose proof (Z.mod_pos_bound z _ P) as B.
  apply N2Z.inj_lt. rewrite Z2N.id by lia. rewrite N2Z.inj_pow, N2Z.inj_mul, nat_N_Z. apply B.
Qed.

Lemma twos_back : forall sg k z, (0 < k)%nat -> in_range sg k z ->
    (if sg then signed (8 * Z.of_nat k) (twos k z) else Z.of_N (twos k z)) = z.
Proof.
  intros sg k z Hk H. unfold twos, signed.
  assert (P : (0 < 2 ^ (8 * Z.of_nat k))%Z) by (apply Z.pow_pos_nonneg; lia).
  assert (E : (2 ^ (8 * Z.of_nat k) = 2 * 2 ^ (8 * Z.of_nat k - 1))%Z).
  { replace (8 * Z.of_nat k)%Z with (1 + (8 * Z.of_nat k - 1))%Z at 1 by lia. rewrite Z.pow_add_r by lia. lia. }
  pose proof (Z.mod_pos_bound z _ P) as B. rewrite Z2N.id by lia.
  destruct sg; cbn [in_range] in H.
  - destruct (Z.lt_ge_cases z 0) as [L|L].
    + assert ((z mod 2 ^ (8 * Z.of_nat k) = z + 2 ^ (8 * Z.of_nat k))%Z) as ->.
      { rewrite <- (Z.mod_add z 1) by lia. rewrite Z.mod_small by lia. lia. }
      destruct (Z.ltb_spec (z + 2 ^ (8 * Z.of_nat k)) (2 ^ (8 * Z.of_nat k - 1))); lia.
    + rewrite Z.mod_small by lia.
      destruct (Z.ltb_spec z (2 ^ (8 * Z.of_nat k - 1))); lia.
  - apply Z.mod_small. lia.
Qed.

Lemma single_byte : forall big v, (v < 256)%N -> encode big 1 v = [v].
Proof. intros big v H. unfold encode. cbn. rewrite N.mod_small by exact H. destruct big; reflexivity. Qed.

Lemma convert_int : forall cx big d sg z, ordered cx big -> int_type d = Some sg -> in_range sg (code_width d) z ->
    convertByteSliceToDatatype cx (encode big (code_width d) (twos (code_width d) z)) d = Ok (f_of_Z z).
Proof.
  intros cx big d sg z Ho Ht Hr. rewrite (convert_ordered _ _ _ _ Ho), encode_length.
  pose proof (twos_bound (code_width d) z) as B.
  assert (Hk : (0 < code_width d)%nat) by (destruct d; cbn; lia).
  pose proof (twos_back sg (code_width d) z Hk Hr) as T.
  set (v := twos (code_width d) z) in *. clearbody v.
  assert (Hc : (code_width d =? 0) || (N.of_nat (code_width d) * 8 <? GetDatatypeLength d)%N = false)
    by (destruct d; reflexivity).
  rewrite Hc. clear Hc.
  destruct d; cbn [int_type] in Ht; try discriminate; injection Ht as <-;
    cbn [code_width convertSwitch] in *;
    try change (8 * Z.of_nat 1)%Z with 8%Z in T; try change (8 * Z.of_nat 4)%Z with 32%Z in T;
    try change (8 * Z.of_nat 8)%Z with 64%Z in T;
    try (rewrite single_byte by exact B; rewrite T; reflexivity);
    rewrite U_encode by exact B; cbn [obind].
  all: rewrite T; reflexivity.
Qed.

Lemma convert_short : forall cx bs d, (N.of_nat (length bs) * 8 < GetDatatypeLength d)%N ->
    convertByteSliceToDatatype cx bs d = Err MShort.
Proof.
  intros cx bs d H. unfold convertByteSliceToDatatype.
  apply N.ltb_lt in H. rewrite H, orb_true_r. reflexivity.
Qed.

(** ** Panics *)

Definition order_usable (cx : memctx) : bool :=
  match cx_order cx with
  | MsbFirstMswLast | MsbLastMswFirst => false
  | BUndef => negb (cx_orderSet cx)
  | _ => true
  end.

Lemma convert_usable : forall cx bs d, order_usable cx = true ->
    exists big, convertByteSliceToDatatype cx bs d =
      if (length bs =? 0) || (N.of_nat (length bs) * 8 <? GetDatatypeLength d)%N then Err MShort
      else convertSwitch (U big) bs d.
Proof.
  intros [hex al o os] bs d H. unfold convertByteSliceToDatatype, order_usable in *. cbn [cx_order cx_orderSet] in *.
  destruct ((length bs =? 0) || (N.of_nat (length bs) * 8 <? GetDatatypeLength d)%N); [exists true; reflexivity|].
  destruct o; try discriminate; destruct os; cbn [negb] in *; try discriminate;
    try (exists true; reflexivity); exists false; reflexivity.
Qed.

Lemma convert_unusable : forall cx bs d, order_usable cx = false -> convertByteSliceToDatatype cx bs d <> Panic.
Proof.
  intros [hex al o os] bs d H. unfold convertByteSliceToDatatype, order_usable in *. cbn [cx_order cx_orderSet] in *.
  destruct ((length bs =? 0) || (N.of_nat (length bs) * 8 <? GetDatatypeLength d)%N); [discriminate|].
  destruct o; try discriminate; destruct os; cbn [negb] in *; discriminate.
Qed.

Lemma bind_panic : forall E A B (x : outcome E A) (f : A -> outcome E B), x <> Panic ->
    (forall a, f a <> Panic) -> obind x f <> Panic.
Proof. intros E A B [a|e|] f H1 H2; cbn; [apply H2|discriminate|congruence]. Qed.

Lemma convert_panic_iff : forall cx bs d,
    convertByteSliceToDatatype cx bs d = Panic <->
      (d = ULONG \/ d = SLONG) /\ (4 <= length bs < 8)%nat /\ order_usable cx = true.
Proof.
  intros cx bs d. destruct (order_usable cx) eqn:O.
  2:{ split; [intros H; exfalso; revert H; apply convert_unusable; exact O|intros (_ & _ & ?); discriminate]. }
  destruct (convert_usable cx bs d O) as [big ->].
  destruct (length bs =? 0) eqn:E0; cbn [orb].
  { apply Nat.eqb_eq in E0. split; [discriminate|intros (_ & ? & _); lia]. }
  apply Nat.eqb_neq in E0.
  destruct (N.ltb_spec (N.of_nat (length bs) * 8) (GetDatatypeLength d)) as [L|L].
  { split; [discriminate|]. intros (D & Hl & _). destruct D; subst; cbn in L; lia. }
  assert (LB : d <> ULONG -> d <> SLONG -> convertSwitch (U big) bs d <> Panic).
  { intros N1 N2. destruct d; try congruence; cbn [convertSwitch GetDatatypeLength] in *;
      try (destruct bs; [cbn in E0; lia|discriminate]); try discriminate;
      apply bind_panic; try (intros; discriminate); apply U_long; lia. }
  destruct d; try (split; [intros H; exfalso; revert H; apply LB; discriminate|intros ([?|?] & _ & _); discriminate]).
  - cbn [convertSwitch GetDatatypeLength] in *. destruct (Nat.lt_ge_cases (length bs) 8) as [Hl|Hl].
    + rewrite U_short by exact Hl. cbn. split; [intros _|reflexivity]. split; [auto|]. split; [lia|reflexivity].
    + split; [intros H; exfalso; revert H; apply bind_panic; [apply U_long; lia|discriminate]|intros (_ & ? & _); lia].
  - cbn [convertSwitch GetDatatypeLength] in *. destruct (Nat.lt_ge_cases (length bs) 8) as [Hl|Hl].
    + rewrite U_short by exact Hl. cbn. split; [intros _|reflexivity]. split; [auto|]. split; [lia|reflexivity].
    + split; [intros H; exfalso; revert H; apply bind_panic; [apply U_long; lia|discriminate]|intros (_ & ? & _); lia].
Qed.

Lemma ordered_usable : forall cx big, ordered cx big -> order_usable cx = true.
Proof.
  intros cx big H. unfold order_usable. inversion H as [S O|S [O|O]|S [O|O]]; rewrite O; try rewrite S; reflexivity.
Qed.

(** ** Floating point patterns *)

Lemma bits_split : forall mw ew s ex m, (m < 2 ^ mw)%N -> (ex < 2 ^ ew)%N ->
    let n := Z.of_N (ieee_bits mw ew s ex m) in
    (n mod 2 ^ Z.of_N mw = Z.of_N m /\ (n / 2 ^ Z.of_N mw) mod 2 ^ Z.of_N ew = Z.of_N ex
     /\ n / 2 ^ (Z.of_N mw + Z.of_N ew) = (if s then 1 else 0))%Z.
Proof.
  intros mw ew s ex m Hm He n.
  assert (E : n = ((if s then 2 ^ (Z.of_N mw + Z.of_N ew) else 0) + Z.of_N ex * 2 ^ Z.of_N mw + Z.of_N m)%Z).
  { unfold n, ieee_bits. rewrite !N2Z.inj_add, N2Z.inj_mul, N2Z.inj_pow. f_equal. f_equal.
    destruct s; [rewrite N2Z.inj_pow, N2Z.inj_add; reflexivity|reflexivity]. }
  assert (Hm' : (0 <= Z.of_N m < 2 ^ Z.of_N mw)%Z).
  { split; [lia|]. apply N2Z.inj_lt in Hm. rewrite N2Z.inj_pow in Hm. exact Hm. }
  assert (He' : (0 <= Z.of_N ex < 2 ^ Z.of_N ew)%Z).
  { split; [lia|]. apply N2Z.inj_lt in He. rewrite N2Z.inj_pow in He. exact He. }
  rewrite Z.pow_add_r in * by lia.
  remember (2 ^ Z.of_N mw)%Z as P. remember (2 ^ Z.of_N ew)%Z as Q.
  assert (0 < P)%Z by lia. assert (0 < Q)%Z by lia.
  set (k := (if s then 1 else 0)%Z).
  assert (E' : n = ((k * Q + Z.of_N ex) * P + Z.of_N m)%Z) by (rewrite E; unfold k; destruct s; lia).
  clearbody n. rewrite E'. split; [|split].
  - rewrite Z.add_comm, Z.mod_add by lia. apply Z.mod_small. exact Hm'.
  - rewrite Z.div_add_l by lia. rewrite (Z.div_small (Z.of_N m)) by lia. rewrite Z.add_0_r.
    rewrite Z.add_comm, Z.mod_add by lia. apply Z.mod_small. exact He'.
  - rewrite <- Z.div_div by lia. rewrite Z.div_add_l by lia. rewrite (Z.div_small (Z.of_N m)) by lia. rewrite Z.add_0_r.
    rewrite Z.div_add_l by lia. rewrite (Z.div_small (Z.of_N ex)) by lia. lia.
Qed.

Lemma bits_bound : forall mw ew s ex m, (m < 2 ^ mw)%N -> (ex < 2 ^ ew)%N ->
    (ieee_bits mw ew s ex m < 2 ^ (mw + ew + 1))%N.
Proof.
  intros mw ew s ex m Hm He. unfold ieee_bits. rewrite !N.pow_add_r. change (2 ^ 1)%N with 2%N.
  set (P := (2 ^ mw)%N) in *. set (Q := (2 ^ ew)%N) in *. clearbody P Q. destruct s; nia.
Qed.

Lemma decode_fields : forall mw ew s ex m, (m < 2 ^ mw)%N -> (ex < 2 ^ ew)%N ->
    float_of_bits (Z.of_N mw) (Z.of_N ew) (Z.of_N (ieee_bits mw ew s ex m)) =
      (let lo := (3 - 2 ^ (Z.of_N ew - 1) - (Z.of_N mw + 1))%Z in
      if (ex =? 0)%N then match m with Npos p => S754_finite s p lo | N0 => S754_zero s end
      else if (ex =? 2 ^ ew - 1)%N then if (m =? 0)%N then S754_infinity s else S754_nan
      else match (m + 2 ^ mw)%N with Npos p => S754_finite s p (Z.of_N ex - 1 + lo) | N0 => S754_nan end).
Proof.
  intros mw ew s ex m Hm He. destruct (bits_split mw ew s ex m Hm He) as (E1 & E2 & E3).
  unfold float_of_bits. rewrite E1, E2, E3.
  assert (P : (0 < 2 ^ ew)%N) by (apply N.neq_0_lt_0, N.pow_nonzero; lia).
  assert ((Z.of_N ex =? 0)%Z = (ex =? 0)%N) as ->.
  { destruct (N.eqb_spec ex 0); [apply Z.eqb_eq|apply Z.eqb_neq]; lia. }
  assert ((Z.of_N ex =? 2 ^ Z.of_N ew - 1)%Z = (ex =? 2 ^ ew - 1)%N) as ->.
  { replace (2 ^ Z.of_N ew)%Z with (Z.of_N (2 ^ ew)) by (rewrite N2Z.inj_pow; reflexivity).
    destruct (N.eqb_spec ex (2 ^ ew - 1)); [apply Z.eqb_eq|apply Z.eqb_neq]; lia. }
  assert ((Z.of_N m =? 0)%Z = (m =? 0)%N) as ->.
  { destruct (N.eqb_spec m 0); [apply Z.eqb_eq|apply Z.eqb_neq]; lia. }
  replace (2 ^ Z.of_N mw)%Z with (Z.of_N (2 ^ mw)) by (rewrite N2Z.inj_pow; reflexivity).
  rewrite <- N2Z.inj_add.
  assert (Z.odd (if s then 1 else 0) = s) as -> by (destruct s; reflexivity).
  destruct (ex =? 0)%N; [destruct m; reflexivity|].
  destruct (ex =? 2 ^ ew - 1)%N; [reflexivity|].
  destruct (m + 2 ^ mw)%N; reflexivity.
Qed.

Lemma convert_float32 : forall cx big v, ordered cx big -> (v < 2 ^ 32)%N ->
    convertByteSliceToDatatype cx (encode big 4 v) Float32Ieee = Ok (widen (float_of_bits 23 8 (Z.of_N v))).
Proof.
  intros cx big v Ho Hv. rewrite (convert_ordered _ _ _ _ Ho), encode_length.
  cbn [Nat.eqb orb GetDatatypeLength]. change (N.of_nat 4 * 8 <? 32)%N with false.
  cbn [convertSwitch]. rewrite U_encode by exact Hv. reflexivity.
Qed.

Lemma convert_float64 : forall cx big v, ordered cx big -> (v < 2 ^ 64)%N ->
    convertByteSliceToDatatype cx (encode big 8 v) Float64Ieee = Ok (float_of_bits 52 11 (Z.of_N v)).
Proof.
  intros cx big v Ho Hv. rewrite (convert_ordered _ _ _ _ Ho), encode_length.
  cbn [Nat.eqb orb GetDatatypeLength]. change (N.of_nat 8 * 8 <? 64)%N with false.
  cbn [convertSwitch]. rewrite U_encode by exact Hv. reflexivity.
Qed.

Lemma convert_float16 : forall cx big v, ordered cx big -> (v < 2 ^ 16)%N ->
    convertByteSliceToDatatype cx (encode big 2 v) Float16Ieee = Ok (f_of_Z (Z.of_N v)).
Proof.
  intros cx big v Ho Hv. rewrite (convert_ordered _ _ _ _ Ho), encode_length.
  cbn [Nat.eqb orb GetDatatypeLength]. change (N.of_nat 2 * 8 <? 16)%N with false.
  cbn [convertSwitch]. rewrite U_encode by exact Hv. reflexivity.
Qed.

Lemma float32_value : forall s ex m, (m < 2 ^ 23)%N -> (ex < 255)%N ->
    exactly (ieee_value 23 8 s ex m) (widen (float_of_bits 23 8 (Z.of_N (ieee_bits 23 8 s ex m)))).
Proof.
  intros s ex m Hm He.
  pose proof (decode_fields 23 8 s ex m Hm) as D.
  change (Z.of_N 23) with 23%Z in D. change (Z.of_N 8) with 8%Z in D.
  rewrite D by (change (2 ^ 8)%N with 256%N; lia). clear D.
  unfold ieee_value. change (Z.of_N 23) with 23%Z. change (Z.of_N 8) with 8%Z.
  change (3 - 2 ^ (8 - 1) - (23 + 1))%Z with (-149)%Z. change (2 ^ 8 - 1)%N with 255%N.
  change (2 ^ (8 - 1) - 1)%Z with 127%Z.
  change (2 ^ 23)%N with 8388608%N in *. change (2 ^ 23)%Z with 8388608%Z.
  cbv zeta. destruct (N.eqb_spec ex 0) as [->|Nx].
  - destruct m as [|p]; cbn [widen].
    + split; [exact I|]. cbn [fval]. destruct s; reflexivity.
    + pose proof (dg_le p 53 ltac:(lia) ltac:(lia)).
      pose proof (binary_round_exact s p (-149) ltac:(lia) ltac:(lia) ltac:(lia)) as E.
      change (1 - 127 - 23 + 1074)%Z with (-149 + 1074)%Z. cbn [Z.of_N]. rewrite Z.mul_assoc. exact E.
  - destruct (N.eqb_spec ex 255) as [->|N2]; [lia|].
    destruct (m + 8388608)%N as [|p] eqn:Ep; [lia|]. cbn [widen].
    pose proof (dg_le p 53 ltac:(lia) ltac:(lia)).
    pose proof (binary_round_exact s p (Z.of_N ex - 1 + -149) ltac:(lia) ltac:(lia) ltac:(lia)) as E.
    replace (Z.of_N ex - 127 - 23 + 1074)%Z with (Z.of_N ex - 1 + -149 + 1074)%Z by lia.
    replace (8388608 + Z.of_N m)%Z with (Zpos p) by lia. rewrite Z.mul_assoc. exact E.
Qed.

Lemma float32_special : forall s m, (m < 2 ^ 23)%N ->
    widen (float_of_bits 23 8 (Z.of_N (ieee_bits 23 8 s 255 m))) =
      if (m =? 0)%N then S754_infinity s else S754_nan.
Proof.
  intros s m Hm. pose proof (decode_fields 23 8 s 255 m Hm) as D.
  change (Z.of_N 23) with 23%Z in D. change (Z.of_N 8) with 8%Z in D.
  rewrite D by (change (2 ^ 8)%N with 256%N; lia). cbn [N.eqb].
  change (255 =? 2 ^ 8 - 1)%N with true. destruct (m =? 0)%N; reflexivity.
Qed.

Lemma float64_value : forall s ex m, (m < 2 ^ 52)%N -> (ex < 2047)%N ->
    exactly (ieee_value 52 11 s ex m) (float_of_bits 52 11 (Z.of_N (ieee_bits 52 11 s ex m))).
Proof.
  intros s ex m Hm He.
  pose proof (decode_fields 52 11 s ex m Hm) as D.
  change (Z.of_N 52) with 52%Z in D. change (Z.of_N 11) with 11%Z in D.
  rewrite D by (change (2 ^ 11)%N with 2048%N; lia). clear D.
  unfold ieee_value. change (Z.of_N 52) with 52%Z. change (Z.of_N 11) with 11%Z.
  change (3 - 2 ^ (11 - 1) - (52 + 1))%Z with (-1074)%Z. change (2 ^ 11 - 1)%N with 2047%N.
  change (2 ^ (11 - 1) - 1)%Z with 1023%Z.
  change (2 ^ 52)%N with 4503599627370496%N in *. change (2 ^ 52)%Z with 4503599627370496%Z.
  cbv zeta. destruct (N.eqb_spec ex 0) as [->|Nx].
  - destruct m as [|p].
    + split; [exact I|]. cbn [fval]. destruct s; reflexivity.
    + split; [cbn [is_float64]; lia|]. cbn [fval]. f_equal.
      change (1 - 1023 - 52 + 1074)%Z with (-1074 + 1074)%Z. cbn [Z.of_N]. rewrite Z.mul_assoc. reflexivity.
  - destruct (N.eqb_spec ex 2047) as [->|N2]; [lia|].
    destruct (m + 4503599627370496)%N as [|p] eqn:Ep; [lia|].
    split; [cbn [is_float64]; lia|]. cbn [fval]. f_equal.
    replace (Z.of_N ex - 1023 - 52 + 1074)%Z with (Z.of_N ex - 1 + -1074 + 1074)%Z by lia.
    replace (4503599627370496 + Z.of_N m)%Z with (Zpos p) by lia. rewrite Z.mul_assoc. reflexivity.
Qed.

Lemma float64_special : forall s m, (m < 2 ^ 52)%N ->
    float_of_bits 52 11 (Z.of_N (ieee_bits 52 11 s 2047 m)) =
      if (m =? 0)%N then S754_infinity s else S754_nan.
Proof.
  intros s m Hm. pose proof (decode_fields 52 11 s 2047 m Hm) as D.
  change (Z.of_N 52) with 52%Z in D. change (Z.of_N 11) with 11%Z in D.
  rewrite D by (change (2 ^ 11)%N with 2048%N; lia). cbn [N.eqb].
  change (2047 =? 2 ^ 11 - 1)%N with true. destruct (m =? 0)%N; reflexivity.
Qed.

(** ** Address texts *)

Lemma hex_decode_text : forall t bs, hex_text_any t bs -> hex_decode t = Some bs.
Proof.
  induction 1 as [|up1 up2 x y tx bs Hx Hy _ IH]; [reflexivity|].
  cbn [hex_decode]. rewrite (proj1 (digit_facts up1 x Hx)), (proj1 (digit_facts up2 y Hy)), IH. reflexivity.
Qed.

Definition c0 : ascii := "0"%char.
Definition chx : ascii := "x"%char.

Lemma digits_no_x : forall t bs, hex_text_any t bs -> ~ In chx t.
Proof.
  assert (D : forall up n, (n < 16)%N -> digit up n <> chx).
  { intros up n H E. pose proof (proj1 (digit_facts up n H)) as F. rewrite E in F. discriminate. }
  induction 1 as [|up1 up2 x y tx bs Hx Hy _ IH]; [exact (fun H => H)|].
  intros [E|[E|E]]; [exact (D _ _ Hx E)|exact (D _ _ Hy E)|exact (IH E)].
Qed.

Lemma prefix_0x : forall s, prefixb (b "0x") s = true -> exists s', s = c0 :: chx :: s'.
Proof.
  intros [|c [|d s]] H; cbn [b list_ascii_of_string prefixb] in H; try discriminate; rewrite ?andb_false_r in H; try discriminate.
  apply andb_true_iff in H. destruct H as [H1 H2]. rewrite andb_true_r in H2.
  apply Ascii.eqb_eq in H1. apply Ascii.eqb_eq in H2. subst. exists s. reflexivity.
Qed.

Lemma prefix_0x_no : forall c s, ~ In chx s -> prefixb (b "0x") (c :: s) = false.
Proof.
  intros c s H. destruct (prefixb (b "0x") (c :: s)) eqn:E; [|reflexivity].
  apply prefix_0x in E. destruct E as [s' E]. injection E as _ E. subst s. exfalso. apply H. left. reflexivity.
Qed.

Lemma replace_none : forall t, ~ In chx t -> replace_aux (b "0x") [] 0 t = t.
Proof.
  induction t as [|c t IH]; intros H; [reflexivity|].
  assert (H' : ~ In chx t) by (intros K; apply H; right; exact K).
  cbn [replace_aux]. rewrite prefix_0x_no by exact H'. rewrite IH by exact H'. reflexivity.
Qed.

Lemma replace_once : forall t1 t2, ~ In chx t1 -> ~ In chx t2 ->
    replace_all (t1 ++ b "0x" ++ t2) (b "0x") [] = t1 ++ t2.
Proof.
  unfold replace_all. induction t1 as [|c t1 IH]; intros t2 H1 H2.
  - cbn. apply replace_none. exact H2.
  - assert (H' : ~ In chx t1) by (intros K; apply H1; right; exact K).
    cbn [app]. cbn [replace_aux].
    assert (prefixb (b "0x") (c :: t1 ++ b "0x" ++ t2) = false) as ->.
    { destruct (prefixb (b "0x") (c :: t1 ++ b "0x" ++ t2)) eqn:E; [|reflexivity].
      apply prefix_0x in E. destruct E as [s' E]. injection E as _ E.
      destruct t1 as [|d t1]; [discriminate|]. injection E as -> _. exfalso. apply H'. left. reflexivity. }
    f_equal. apply IH; assumption.
Qed.

Lemma number_be : forall l, number l = be_val l.
Proof.
  intros l. unfold number, be_val. generalize 0%N. induction l as [|v l IH]; intros a; [reflexivity|].
  cbn [fold_left]. rewrite IH. f_equal. lia.
Qed.

Lemma address_bytes : forall c t bs, hex_decode (replace_all t (b "0x") []) = Some bs ->
    forall big, ordered c big -> convertStringToUint32Address c t = U big 4 bs.
Proof.
  intros c t bs H big Ho. unfold convertStringToUint32Address. rewrite H.
  inversion Ho as [S O|S [O|O]|S [O|O]]; rewrite O, S; reflexivity.
Qed.

Lemma address_text : forall c big pre t bs, ordered c big -> hex_text_any t bs ->
    pre = b "0x" \/ pre = [] ->
    convertStringToUint32Address c (pre ++ t) = U big 4 bs.
Proof.
  intros c big pre t bs Ho Ht Hp. apply address_bytes; [|exact Ho].
  pose proof (digits_no_x _ _ Ht) as Hx. destruct Hp as [-> | ->].
  - pose proof (replace_once [] t (fun H => H) Hx) as R. cbn [app] in R. rewrite R. apply hex_decode_text. exact Ht.
  - cbn [app]. unfold replace_all. rewrite replace_none by exact Hx. apply hex_decode_text. exact Ht.
Qed.

Lemma address_inner : forall c big t1 t2 bs, ordered c big -> hex_text_any (t1 ++ t2) bs ->
    convertStringToUint32Address c (t1 ++ b "0x" ++ t2) = U big 4 bs.
Proof.
  intros c big t1 t2 bs Ho Ht. apply address_bytes; [|exact Ho].
  pose proof (digits_no_x _ _ Ht) as Hx.
  rewrite replace_once; [apply hex_decode_text; exact Ht| |]; intros K; apply Hx; apply in_or_app; auto.
Qed.

Lemma replace_keeps : forall x s k, x <> c0 -> x <> chx -> In x s ->
    match k with O => True | S O => exists s', s = chx :: s' | _ => False end ->
    In x (replace_aux (b "0x") [] k s).
Proof.
  intros x s. induction s as [|c s IH]; intros k N1 N2 Hin Hk; [destruct Hin|].
  cbn [replace_aux]. destruct k as [|[|k]]; [| |destruct Hk].
  - destruct (prefixb (b "0x") (c :: s)) eqn:E.
    + apply prefix_0x in E. destruct E as [s' E]. injection E as -> ->.
      cbn [app length b list_ascii_of_string Nat.sub]. apply IH; auto.
      * destruct Hin as [Hin|Hin]; [congruence|exact Hin].
      * exists s'. reflexivity.
    + destruct Hin as [<-|Hin]; [left; reflexivity|right]. apply IH; auto.
  - destruct Hk as [s' Hk]. injection Hk as -> ->. apply IH; auto. destruct Hin as [Hin|Hin]; [congruence|exact Hin].
Qed.

Lemma hex_decode_bad : forall n s c, (length s <= n)%nat -> In c s -> hex_any c = None -> hex_decode s = None.
Proof.
  induction n as [|n IH]; intros s c L Hin Hc.
  - destruct s; [destruct Hin|cbn in L; lia].
  - destruct s as [|x [|y r]]; [destruct Hin|reflexivity|]. cbn [hex_decode].
    destruct Hin as [<-|[<-|Hin]].
    + rewrite Hc. reflexivity.
    + rewrite Hc. destruct (hex_any x); reflexivity.
    + rewrite (IH r c) by (auto; cbn in L; lia). destruct (hex_any x), (hex_any y); reflexivity.
Qed.

Lemma address_malformed : forall c t x, In x t -> hex_any x = None -> x <> chx ->
    convertStringToUint32Address c t = Err MText.
Proof.
  intros c t x Hin Hx Nx. unfold convertStringToUint32Address, replace_all.
  rewrite (hex_decode_bad _ _ x (le_n _)); [reflexivity| |exact Hx].
  apply replace_keeps; auto. intros ->. discriminate.
Qed.

(** ** Reading components *)


Lemma length_nonzero : forall d, d <> DUndef -> (8 <= GetDatatypeLength d)%N.
Proof. intros d H. destruct d; cbn; try lia; congruence. Qed.

Lemma getValue_panics : forall c rl a d, d <> DUndef -> getValue getBytes c rl a d = Panic.
Proof.
  intros c rl a d H. unfold getValue. destruct (in_force_exists rl (cx_common c) d H) as [bd F].
  rewrite (align_value rl c d a bd F). pose proof (length_nonzero d H) as L.
  destruct (bd =? 0)%N; [reflexivity|]. destruct (a mod bd =? 0)%N; cbn [obind]; apply getBytes_panics; exact L.
Qed.

Lemma getInt_panics : forall c rl d a, d <> DUndef -> getInt getBytes c rl (Comp d true) a = (Panic, a).
Proof. intros c rl d a H. unfold getInt. cbn [c_set c_type negb]. rewrite getValue_panics by exact H. reflexivity. Qed.

Lemma getIdent_panics : forall c rl d a, d <> DUndef -> getIdentification getBytes c rl (Comp d true) a = (Panic, a).
Proof. intros c rl d a H. unfold getIdentification. cbn [c_set c_type negb]. rewrite getValue_panics by exact H. reflexivity. Qed.

Lemma getAxis_panics : forall c rl n d a, d <> DUndef -> (0 < n)%nat -> axisLoop getBytes c rl n d [] a = (Panic, a).
Proof.
  intros c rl [|n] d a H Hn; [lia|]. cbn [axisLoop]. rewrite getValue_panics by exact H. reflexivity.
Qed.

Lemma type_bits : forall d, GetDatatypeLength d = (8 * (GetDatatypeLength d / 8))%N /\ (GetDatatypeLength d < 4294967296)%N.
Proof. intros d. destruct d; cbn; split; lia. Qed.

Lemma repaired_value : forall c rl a d bs, getValue getBytes_repaired c rl a d = Ok bs ->
    exists r, getNextAlignedAddress c a d rl = Ok r /\ bytes_at (cx_hex c) r bs /\
      GetDatatypeLength d = (8 * N.of_nat (length bs))%N.
Proof.
  intros c rl a d bs H. unfold getValue in H.
  destruct (getNextAlignedAddress c a d rl) as [r|e|] eqn:E; cbn [obind] in H; try discriminate.
  exists r. split; [reflexivity|]. destruct (type_bits d) as [T1 T2]. rewrite T1 in H.
  destruct (repaired_spec c r (GetDatatypeLength d / 8)) as [(bs' & L & B & R)|(_ & R)]; [rewrite <- T1; exact T2| |].
  - rewrite R in H. injection H as <-. split; [exact B|]. rewrite L. exact T1.
  - rewrite R in H. discriminate.
Qed.

Lemma repaired_position : forall c rl cmp a v p, getInt getBytes_repaired c rl cmp a = (Ok v, p) ->
    exists r bs, getNextAlignedAddress c a (c_type cmp) rl = Ok r /\ bytes_at (cx_hex c) r bs /\ (0 < length bs)%nat /\
      p = ((a + 8 * N.of_nat (length bs)) mod 2 ^ 32)%N.
Proof.
  intros c rl cmp a v p H. unfold getInt in H. destruct (c_set cmp); cbn [negb] in H; [|discriminate].
  destruct (getValue getBytes_repaired c rl a (c_type cmp)) as [bs|e|] eqn:E; try discriminate.
  destruct (repaired_value _ _ _ _ _ E) as (r & H1 & H2 & H3).
  destruct (convertByteSliceToDatatype c bs (c_type cmp)) as [f|e|] eqn:Ec; try discriminate.
  injection H as _ <-. exists r, bs. split; [exact H1|]. split; [exact H2|].
  split; [|unfold u32; rewrite H3; reflexivity].
  destruct bs; [|cbn; lia]. discriminate.
Qed.

(** Every point comes from its own place, in order. *)
Lemma repaired_axis : forall c rl d n acc a vs p, (a < 2 ^ 32)%N -> axisLoop getBytes_repaired c rl n d acc a = (Ok vs, p) ->
    p = ((a + N.of_nat n * GetDatatypeLength d) mod 2 ^ 32)%N /\
    exists vs', vs = acc ++ vs' /\ length vs' = n /\
      forall k v, nth_error vs' k = Some v ->
        exists r bs, getNextAlignedAddress c ((a + N.of_nat k * GetDatatypeLength d) mod 2 ^ 32) d rl = Ok r /\
          bytes_at (cx_hex c) r bs /\ GetDatatypeLength d = (8 * N.of_nat (length bs))%N /\
          convertByteSliceToDatatype c bs d = Ok v.
Proof.
  intros c rl d. induction n as [|n IH]; intros acc a vs p Ha H; cbn [axisLoop] in H.
  - injection H as <- <-. split.
    + rewrite N.mul_0_l, N.add_0_r. symmetry. apply N.mod_small. exact Ha.
    + exists []. rewrite app_nil_r. split; [reflexivity|]. split; [reflexivity|]. intros [|k] v E; discriminate.
  - destruct (getValue getBytes_repaired c rl a d) as [bs|e|] eqn:E; try discriminate.
    destruct (convertByteSliceToDatatype c bs d) as [f|e|] eqn:Ec; try discriminate.
    apply IH in H; [|unfold u32; apply N.mod_lt; lia]. destruct H as (H2 & vs' & H1 & L & K).
    unfold u32 in H2. change 4294967296%N with (2 ^ 32)%N in H2. rewrite N.add_mod_idemp_l in H2 by lia.
    split; [rewrite H2; f_equal; lia|].
    exists (f :: vs'). rewrite H1, <- app_assoc. split; [reflexivity|]. split; [cbn; lia|].
    intros [|k] v Hv; cbn [nth_error] in Hv.
    + injection Hv as <-. destruct (repaired_value _ _ _ _ _ E) as (r & R1 & R2 & R3). exists r, bs.
      rewrite N.mul_0_l, N.add_0_r, N.mod_small by exact Ha. auto.
    + destruct (K k v Hv) as (r & bs' & R). exists r, bs'.
      unfold u32 in R. change 4294967296%N with (2 ^ 32)%N in R. rewrite N.add_mod_idemp_l in R by lia.
      replace (a + N.of_nat (S k) * GetDatatypeLength d)%N with (a + GetDatatypeLength d + N.of_nat k * GetDatatypeLength d)%N by lia.
      exact R.
Qed.
