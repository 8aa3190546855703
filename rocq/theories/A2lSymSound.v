(** The decision procedure of A2lSym.v is right: statements and functions. *)
From Coq Require Import String Ascii List Arith NArith ZArith Bool Lia SpecFloat.
From Verif Require Import GoBase GoBaseFacts A2lIR A2lTokens A2lCheck A2lGrammar A2lSym A2lSymThm.
Import ListNotations.

Section Sound.
  Variable pf : bytes -> option spec_float.
  Variable fuel : nat.

  (** the result of a call, if there is one *)
  Definition partial (f : form) (g : fn) (ts : list bytes) (v : val) : Prop :=
    forall (before : list bytes) (first : bytes) (after : list bytes), first <> [] -> follows f (hd [] after) = true ->
      match call isKeyword (before ++ first :: ts ++ after) pf fuel g (List.length before) with
      | Ret v' e j => v' = v /\ e = false /\ j = List.length before + List.length ts
      | FBad => False
      | FFuel => True
      end.

  Record Setting (toks : list bytes) (X : ctx) (env : list part) (before after : list bytes) (o0 : fields) : Prop := {
    t_toks : toks = before ++ concat (map fst env) ++ after;
    t_fits : Forall2 (fits pf) (c_in X) env;
    t_before : before <> [];
    t_first : c_first X = true -> nth (pred (List.length before)) toks [] <> [];
    t_inv : Inv (c_true X) (c_any X) (c_maps X) o0;
    t_last : match c_last X with
             | None => True
             | Some l => exists n k, fint (c_count X) o0 = Z.of_nat n /\ n < 2 ^ 16 /\ k < n /\ l = (S k =? n)
                                     /\ forall f, mem f (c_lists X) = true -> List.length (flist f o0) = k
             end }.

  Section Env.
    Variables (toks : list bytes) (X : ctx) (env : list part) (before after : list bytes) (o0 : fields).
    Hypothesis ST : Setting toks X env before after o0.

    Definition posOf (p : nat) : nat := List.length before + List.length (concat (map fst (firstn p env))).

    Record rel (y : sy) (s : st) : Prop := {
      r_obj : s_obj s = interp env (y_acts y) o0;
      r_var : forall v a, look v (y_var y) = Some a -> fget v (s_var s) = Some (av env a);
      r_err : s_err s = y_err y;
      r_idx : S (s_idx s) = posOf (y_pos y) }.

    Lemma split_at : forall p e, nth_error env p = Some e -> exists l m, env = l ++ e :: m /\ firstn p env = l /\ firstn (S p) env = l ++ [e].
    Proof.
      intros p e H. destruct (nth_error_split env p H) as (l & m & E & L). exists l, m. split; [exact E|]. rewrite E. split.
      - rewrite <- L, firstn_app, Nat.sub_diag, firstn_all. cbn. apply app_nil_r.
      - rewrite <- L. rewrite firstn_app, firstn_all2 by apply Nat.le_succ_diag_r. rewrite Nat.sub_succ_l, Nat.sub_diag by apply le_n. reflexivity.
    Qed.
    Lemma posOf_S : forall p e, nth_error env p = Some e -> posOf (S p) = posOf p + List.length (fst e).
    Proof.
      intros p e H. destruct (split_at p e H) as (l & m & E & F1 & F2). unfold posOf. rewrite F1, F2.
      rewrite map_app, concat_app, app_length. cbn [map concat]. rewrite app_nil_r. apply Nat.add_assoc.
    Qed.
    (** the tokens around the [p]-th part *)
    Lemma toks_at : forall p e, nth_error env p = Some e -> exists l m, toks = l ++ fst e ++ m /\ List.length l = posOf p
        /\ m = concat (map fst (skipn (S p) env)) ++ after.
    Proof.
      intros p e H. destruct (split_at p e H) as (l & m & E & F1 & F2).
      exists (before ++ concat (map fst l)), (concat (map fst m) ++ after). split; [|split].
      - rewrite (t_toks _ _ _ _ _ _ ST), E. rewrite map_app, concat_app. cbn [map concat]. rewrite <- !app_assoc. reflexivity.
      - unfold posOf. rewrite F1. apply app_length.
      - f_equal. f_equal. f_equal. assert (firstn (S p) env ++ m = firstn (S p) env ++ skipn (S p) env).
        { rewrite firstn_skipn, F2, E, <- app_assoc. reflexivity. }
        apply app_inv_head in H0. exact H0.
    Qed.
    Lemma fits_at : forall p c, nth_error (c_in X) p = Some c -> exists e, nth_error env p = Some e /\ fits pf c e.
    Proof.
      pose proof (t_fits _ _ _ _ _ _ ST) as F. intros p c H. clear - F H. revert p H. induction F as [|c' e cl el F1 F2 IH]; intros [|p] H; try discriminate.
      - injection H as <-. exists e. split; [reflexivity|exact F1].
      - apply (IH p H).
    Qed.
    Lemma pos_pos : forall p, 0 < posOf p.
    Proof. intros p. unfold posOf. pose proof (t_before _ _ _ _ _ _ ST). destruct before; [contradiction|]. cbn. lia. Qed.

    (** a single token *)
    Lemma tok_at : forall p c, nth_error (c_in X) p = Some c -> single c = true ->
        exists t v, nth_error env p = Some ([t], v) /\ tokFits pf c t v /\ posOf (S p) = S (posOf p)
                    /\ posOf p < List.length toks /\ current toks (posOf p) = t.
    Proof.
      intros p c H S. destruct (fits_at p c H) as ([ws v] & E & F). destruct (fits_single _ _ _ S F) as (t & W & TF).
      cbn [fst snd] in *. subst ws. exists t, v. split; [exact E|]. split; [exact TF|].
      split; [rewrite (posOf_S _ _ E); cbn; lia|]. destruct (toks_at p _ E) as (l & m & -> & L & _). cbn [fst].
      rewrite <- L. split; [rewrite app_length; cbn; lia|]. unfold current. rewrite app_nth2, Nat.sub_diag by lia. reflexivity.
    Qed.

    Lemma cur_class : forall y s c q, rel y s -> curClass X y = Some (c, q) -> single c = true ->
        exists t v, nth_error env q = Some ([t], v) /\ tokFits pf c t v /\ current toks (s_idx s) = t /\ y_pos y = S q
                    /\ s_idx s = posOf q.
    Proof.
      intros y s c q R H S. unfold curClass in H. destruct (y_pos y) as [|q'] eqn:E; [discriminate|].
      destruct (nth_error (c_in X) q') as [c'|] eqn:N; [|discriminate]. injection H as -> ->.
      destruct (tok_at q c N S) as (t & v & E1 & E2 & E3 & E4 & E5). exists t, v.
      assert (s_idx s = posOf q) by (pose proof (r_idx _ _ R) as I; rewrite E, E3 in I; lia).
      rewrite H. auto.
    Qed.
    Lemma classIs_single : forall c s r, classIs c s = Some r -> single c = true.
    Proof. intros c s r H; destruct c; try reflexivity. discriminate. Qed.
    Lemma classKw_single : forall c r, classKw c = Some r -> single c = true.
    Proof. intros c r H; destruct c; try reflexivity. discriminate. Qed.
    Lemma textual_single : forall c, textual c = true -> single c = true.
    Proof. intros c H; destruct c; try reflexivity. discriminate. Qed.

    Lemma curIs_ok : forall y s w r, rel y s -> curIs X y w = Some r -> beqb (current toks (s_idx s)) (b w) = r.
    Proof.
      intros y s w r R H. unfold curIs in H. destruct (y_pos y) as [|q] eqn:E.
      - destruct (c_first X) eqn:F; [|discriminate]. destruct (String.eqb w "") eqn:W; [|discriminate]. cbn in H. injection H as <-.
        apply String.eqb_eq in W. subst w. apply beqb_false.
        pose proof (r_idx _ _ R) as I. rewrite E in I. unfold posOf in I. cbn in I.
        pose proof (t_first _ _ _ _ _ _ ST F) as N. unfold current. replace (s_idx s) with (pred (List.length before)) by lia. exact N.
      - destruct (curClass X y) as [[c q']|] eqn:C; [|discriminate].
        destruct (cur_class _ _ _ _ R C (classIs_single _ _ _ H)) as (t & v & _ & TF & -> & _).
        eapply classIs_ok; eassumption.
    Qed.

    Lemma flag_ok : forall y s f r, rel y s -> flag X y f = Some r -> fbool f (s_obj s) = r.
    Proof.
      intros y s f r R H. unfold flag in H. unfold fbool. rewrite (r_obj _ _ R).
      pose proof (lastOn_spec env f (y_acts y) o0) as L. destruct (t_inv _ _ _ _ _ _ ST) as [I1 I2 I3].
      destruct (lastOn f (y_acts y)) as [a|].
      - destruct L as (_ & F & o' & ->). destruct a as [g [p| |w|]|g a|g a|g n a|g a k]; try discriminate. injection H as <-.
        cbn in *. subst g. rewrite fget_set. reflexivity.
      - rewrite L. destruct (mem f (c_true X)) eqn:E1; [injection H as <-; rewrite I1 by exact E1; reflexivity|].
        destruct (mem f (c_any X)) eqn:E2; [discriminate|]. injection H as <-. rewrite I2 by assumption. reflexivity.
    Qed.
    Lemma isMap_ok : forall y s f, rel y s -> isMap X f y = true -> exists m, fget f (s_obj s) = Some (VMap m).
    Proof.
      intros y s f R H. unfold isMap in H. rewrite (r_obj _ _ R).
      pose proof (lastOn_spec env f (y_acts y) o0) as L. destruct (t_inv _ _ _ _ _ _ ST) as [I1 I2 I3].
      destruct (lastOn f (y_acts y)) as [a|].
      - destruct L as (_ & F & o' & ->). destruct a as [g [p| |w|]|g a|g a|g n a|g a k]; try discriminate; cbn in *; subst g; rewrite fget_set; eauto.
      - rewrite L. apply I3. exact H.
    Qed.

    Lemma stest_ok : forall c y s r, rel y s -> stest X c y = Some r -> test isKeyword toks c s = r.
    Proof.
      induction c as [w| |f|f n|f g| |c IHc d IHd]; intros y s r R H; cbn [stest test] in *.
      - eapply curIs_ok; eassumption.
      - destruct (curClass X y) as [[c q]|] eqn:C; [|discriminate].
        destruct (cur_class _ _ _ _ R C (classKw_single _ _ H)) as (t & v & _ & TF & -> & _). eapply classKw_ok; eassumption.
      - destruct (flag X y f) as [x|] eqn:F; [|discriminate]. injection H as <-. rewrite (flag_ok _ _ _ _ R F). reflexivity.
      - destruct (forallb isApp (on f y) && negb (mem f (c_true X)) && negb (mem f (c_any X))) eqn:E; [|discriminate].
        injection H as <-. bools. rewrite (r_obj _ _ R). rewrite interp_len by assumption.
        unfold flist at 1. rewrite (i_none _ _ _ _ (t_inv _ _ _ _ _ _ ST)) by assumption. reflexivity.
      - destruct (c_last X) as [l|] eqn:CL; [|discriminate]. pose proof (t_last _ _ _ _ _ _ ST) as TL. rewrite CL in TL.
        destruct TL as (n & k & F & B & K & El & LL).
        destruct (String.eqb g (c_count X) && mem f (c_lists X) && forallb isApp (on f y) && (List.length (on f y) =? 1) && (List.length (on g y) =? 0)) eqn:E; [|discriminate].
        injection H as <-. bools. rewrite (r_obj _ _ R). rewrite interp_len by assumption. unfold on in *.
        rewrite LL by assumption. unfold fint. rewrite interp_none.
        + change (match fget g o0 with Some (VInt z) => z | _ => 0%Z end) with (fint g o0). subst g. rewrite F.
          match goal with X : List.length (actsOn f _) = 1 |- _ => rewrite X end.
          assert (W : u16 (N.of_nat (k + 1)) = N.of_nat (k + 1)).
          { unfold u16. apply N.mod_small. change 65536%N with (N.of_nat (2 ^ 16)). lia. }
          rewrite W, nat_N_Z, El. destruct (S k =? n) eqn:Q; [apply Nat.eqb_eq in Q; apply Z.eqb_eq; lia|apply Nat.eqb_neq in Q; apply Z.eqb_neq; lia].
        + intros a I Ea. match goal with X : List.length (actsOn g _) = 0 |- _ => rename X into Z0 end.
          apply length_zero_iff_nil in Z0. assert (In a (actsOn g (y_acts y))) as J.
          { apply filter_In. split; [exact I|]. apply String.eqb_eq. auto. }
          rewrite Z0 in J. destruct J.
      - injection H as <-. apply (r_err _ _ R).
      - destruct (stest X c y) as [[|]|] eqn:E; try discriminate.
        + injection H as <-. rewrite (IHc _ _ _ R E). reflexivity.
        + rewrite (IHc _ _ _ R E). cbn. apply (IHd _ _ _ R H).
    Qed.

    Lemma av_at : forall q e, nth_error env q = Some e -> av env (ATok q) = snd e.
    Proof. intros q e H. cbn. rewrite (nth_error_nth _ _ _ H). reflexivity. Qed.

    Lemma curText_ok : forall y s a, rel y s -> curText X y = Some a -> av env a = VStr (current toks (s_idx s)).
    Proof.
      intros y s a R H. unfold curText in H. destruct (curClass X y) as [[c q]|] eqn:C; [|discriminate].
      destruct (textual c) eqn:T; [|discriminate]. injection H as <-.
      destruct (cur_class _ _ _ _ R C (textual_single _ T)) as (t & v & E & TF & -> & _).
      rewrite (av_at _ _ E). cbn [snd]. eapply textual_ok; eassumption.
    Qed.
    Lemma seval_ok : forall e y s a, rel y s -> seval X e y = Some a -> eval toks e s = av env a.
    Proof.
      intros e y s a R H. destruct e; cbn [seval eval] in *; try (injection H as <-; reflexivity); try discriminate.
      - symmetry. eapply curText_ok; eassumption.
      - rewrite (r_var _ _ R _ _ H). reflexivity.
    Qed.

    Lemma rel_act : forall y s a, rel y s -> rel (addAct a y) (St (ap env (s_obj s) a) (s_var s) (s_err s) (s_idx s)).
    Proof.
      intros y s a [R1 R2 R3 R4]. constructor; cbn [addAct y_acts y_var y_err y_pos s_obj s_var s_err s_idx]; auto. rewrite interp_app, R1. reflexivity.
    Qed.
    Lemma rel_var : forall y s v a w, rel y s -> av env a = w -> rel (addVar v a y) (setVar v w s).
    Proof.
      intros y s v a w [R1 R2 R3 R4] E. constructor; cbn; auto. intros u c H. cbn in H. destruct (String.eqb u v) eqn:Q.
      - injection H as <-. apply String.eqb_eq in Q. subst u. rewrite fget_set. congruence.
      - rewrite fget_other by (apply String.eqb_neq; exact Q). auto.
    Qed.
    Lemma rel_err : forall y s e, rel y s -> rel (sErr e y) (setErr e s).
    Proof. intros y s e [R1 R2 R3 R4]. constructor; cbn; auto. Qed.
    Lemma rel_pos : forall y s p i, rel y s -> S i = posOf p -> rel (sPos p y) (setIdx i s).
    Proof. intros y s p i [R1 R2 R3 R4] E. constructor; cbn; auto. Qed.

    Lemma adv_ok : forall y s y', rel y s -> adv X y = Some y' ->
        rel y' (setIdx (next toks (s_idx s)) s) /\ nextTok toks (s_idx s) = current toks (next toks (s_idx s)).
    Proof.
      intros y s y' R H. unfold adv in H. destruct (nth_error (c_in X) (y_pos y)) as [c|] eqn:N; [|discriminate].
      destruct (single c) eqn:S; [|discriminate]. injection H as <-.
      destruct (tok_at _ _ N S) as (t & v & E & TF & P & L & C). pose proof (r_idx _ _ R) as I.
      assert (M : moves toks (s_idx s) = true) by (unfold moves; apply Nat.ltb_lt; lia).
      unfold next, nextTok. rewrite M. split; [|reflexivity]. apply rel_pos; [exact R|]. rewrite P. lia.
    Qed.
    Lemma sread_ok : forall r y s y', rel y s -> sread X r y = Some y' ->
        rel y' (snd (readSrc toks r s)) /\ fst (readSrc toks r s) = current toks (s_idx (snd (readSrc toks r s))).
    Proof.
      intros [|] y s y' R H; cbn in *.
      - apply (adv_ok _ _ _ R H).
      - injection H as <-. split; [exact R|reflexivity].
    Qed.

    (** a call on the words of an object *)
    Lemma call_ok : forall y s sub g, rel y s -> nth_error (c_in X) (y_pos y) = Some (TSub sub) -> curIs X y "" = Some false ->
        nextOk sub (nth_error (c_in X) (S (y_pos y))) = true ->
        (forall ts v, den pf sub ts v -> partial sub g ts v) ->
        match call isKeyword toks pf fuel g (s_idx s) with
        | Ret v e j => v = av env (ATok (y_pos y)) /\ e = false /\ S j = posOf (S (y_pos y))
        | FBad => False
        | FFuel => True
        end.
    Proof.
      intros y s sub g R N C NO PT. destruct (fits_at _ _ N) as ([ws v] & E & D). cbn [fits fst snd] in D.
      destruct (toks_at _ _ E) as (l & m & T & L & M). cbn [fst] in T. pose proof (r_idx _ _ R) as I.
      pose proof (curIs_ok _ _ _ _ R C) as CE. change (b "") with (@nil Ascii.ascii) in CE.
      destruct (exists_last (l := l)) as (l' & first & ->); [intros ->; cbn in L; pose proof (pos_pos (y_pos y)); lia|].
      rewrite app_length in L. cbn in L. assert (Q : s_idx s = List.length l') by lia.
      assert (F : first <> []).
      { intros ->. rewrite T, Q in CE. unfold current in CE. rewrite <- app_assoc, app_nth2, Nat.sub_diag in CE by lia. cbn in CE. discriminate. }
      assert (FO : follows sub (hd [] m) = true).
      { destruct sub as [ty|ps cs|ps gs cs nexts|ms ps gr its stop cs]; try reflexivity. cbn [nextOk follows] in *.
        assert (ZZ : exists c, nth_error (c_in X) (S (y_pos y)) = Some c /\ single c = true /\ match nexts with [] => c = TKw | _ => c = TIn nexts end).
        { destruct nexts as [|n1 nexts]; destruct (nth_error (c_in X) (S (y_pos y))) as [[| | | |l''| |]|]; try discriminate.
          - eexists. split; [reflexivity|]. split; reflexivity.
          - apply strs_eqb_eq in NO. subst l''. eexists. split; [reflexivity|]. split; reflexivity. }
        destruct ZZ as (c & NC & SC & CC). destruct (tok_at _ _ NC SC) as (t & w & E' & TF & _ & _ & _).
        assert (hd [] m = t) as ->.
        { rewrite M. destruct (nth_error_split env _ E') as (l1 & l2 & -> & L1). rewrite skipn_app, <- L1, skipn_all, Nat.sub_diag. reflexivity. }
        destruct TF as [_ TF]. destruct nexts as [|n1 nexts]; subst c; cbn in TF; [apply TF|].
        destruct TF as [(w1 & W & ->) _]. apply existsb_exists. exists w1. split; [exact W|]. apply beqb_eq. reflexivity. }
      specialize (PT ws v D l' first m F FO). rewrite T, Q, <- app_assoc. cbn [app].
      unfold part, bytes in *.
      destruct (call isKeyword (l' ++ first :: ws ++ m) pf fuel g (List.length l')) as [v' e j| |]; try exact PT.
      destruct PT as (-> & -> & ->). split; [symmetry; apply (av_at _ _ E)|]. split; [reflexivity|].
      rewrite (posOf_S _ _ E). cbn [fst]. unfold part, bytes in *. lia.
    Qed.
  End Env.

  Definition okR (toks : list bytes) (X : ctx) env before o0 (br : bool) (y : sy) (r : res) : Prop :=
    match r with
    | Go s => br = false /\ rel env before o0 y s
    | Out s => br = true /\ rel env before o0 y s
    | Bad => False
    | Fuel => True
    end.

  Definition SX (x : stmt) : Prop := forall toks X env before after o0, Setting toks X env before after o0 ->
    forall y s br y', rel env before o0 y s -> sx X x y = Some (br, y') -> okR toks X env before o0 br y' (exec isKeyword toks pf fuel x s).
  Definition SB (k : block) : Prop := forall toks X env before after o0, Setting toks X env before after o0 ->
    forall y s br y', rel env before o0 y s -> sb X k y = Some (br, y') -> okR toks X env before o0 br y' (run isKeyword toks pf fuel k s).
  Definition SC (cs : cases) : Prop := forall toks X env before after o0, Setting toks X env before after o0 ->
    forall y s r, rel env before o0 y s -> sc X cs y = Some r ->
      match r with
      | None => pick isKeyword toks pf fuel cs (current toks (s_idx s)) s = None
      | Some (br, y') => exists q, pick isKeyword toks pf fuel cs (current toks (s_idx s)) s = Some q /\ okR toks X env before o0 br y' q
      end.
  Definition SF (g : fn) : Prop := forall f ts v, sf g f = true -> den pf f ts v -> partial f g ts v.

  (** *** Statements *)

  Lemma sx_callF_enum : forall X f table y, sx X (CallF f (Enum false table)) y =
      match curClass X y with
      | Some (TIn l, q) => if forallb (selfText table) l then Some (false, sErr false (addAct (ASet f (ATok q)) y)) else None
      | _ => None
      end.
  Proof. reflexivity. Qed.
  Lemma sx_callF : forall X f g y, (forall table, g <> Enum false table) -> sx X (CallF f g) y =
      match nth_error (c_in X) (y_pos y), curIs X y "" with
      | Some (TSub sub), Some false =>
          if nextOk sub (nth_error (c_in X) (S (y_pos y))) && sf g sub
          then Some (false, sErr false (addAct (ASet f (ATok (y_pos y))) (sPos (S (y_pos y)) y))) else None
      | _, _ => None
      end.
  Proof. intros X f [[|] table|k|pre body] y H; try reflexivity. destruct (H table eq_refl). Qed.
  Lemma sx_callV : forall X v g y, sx X (CallV v g) y =
      match nth_error (c_in X) (y_pos y), curIs X y "" with
      | Some (TSub sub), Some false =>
          if nextOk sub (nth_error (c_in X) (S (y_pos y))) && sf g sub
          then Some (false, sErr false (addVar v (ATok (y_pos y)) (sPos (S (y_pos y)) y))) else None
      | _, _ => None
      end.
  Proof. reflexivity. Qed.
  Lemma sx_if : forall X c a o y, sx X (If c a o) y = match stest X c y with Some true => sb X a y | Some false => sb X o y | None => None end.
  Proof. reflexivity. Qed.
  Lemma sx_switch : forall X r cs d y, sx X (Switch r cs d) y =
      match sread X r y with
      | Some y' => match sc X cs y' with Some (Some q) => Some q | Some None => sb X d y' | None => None end
      | None => None
      end.
  Proof. reflexivity. Qed.
  Lemma sb_seq : forall X x k y, sb X (Seq x k) y = match sx X x y with Some (false, y') => sb X k y' | r => r end.
  Proof. reflexivity. Qed.
  Lemma sc_case : forall X t k cs y, sc X (Case t k cs) y =
      match curIs X y t with Some true => option_map Some (sb X k y) | Some false => sc X cs y | None => None end.
  Proof. reflexivity. Qed.

  Lemma SX_simple_set : forall f e, SX (Set_ f e).
  Proof.
    intros f e toks X env before after o0 ST y s br y' R H. cbn [sx exec] in *. destruct e as [|v| |t| |g].
    6: { destruct (String.eqb f g) eqn:E; [|discriminate]. apply String.eqb_eq in E. subst g.
         destruct (curText X y) as [a|] eqn:C; [|discriminate]. injection H as <- <-. split; [reflexivity|].
         pose proof (curText_ok _ _ _ _ _ _ ST _ _ _ R C) as V. pose proof (rel_act _ _ _ y s (ACat f a) R) as Q.
         cbn [ap] in Q. rewrite V in Q. exact Q. }
    all: match type of H with go (option_map _ ?x) = _ => destruct x as [a|] eqn:C; [|discriminate] end; injection H as <- <-;
      split; [reflexivity|]; pose proof (seval_ok _ _ _ _ _ _ ST _ _ _ _ R C) as V;
      pose proof (rel_act _ _ _ y s (ASet f a) R) as Q; cbn [ap] in Q; rewrite <- V in Q; exact Q.
  Qed.

  (** *** Functions *)

  (** the cursor on the last of the words [pre], the object is [o] *)
  Definition At (pre : list bytes) (o : fields) (s : st) : Prop := s_obj s = o /\ s_err s = false /\ S (s_idx s) = List.length pre.

  Lemma rel_start : forall env before o0 s, At before o0 s -> rel env before o0 start s.
  Proof.
    intros env before o0 s (A1 & A2 & A3). constructor; cbn; auto; [discriminate|]. unfold posOf. cbn. rewrite A3. lia.
  Qed.
  Lemma rel_good : forall env before o0 y s n l, rel env before o0 y s -> good n l y = true ->
      At (before ++ concat (map fst (firstn n env))) (interp env l o0) s.
  Proof.
    intros env before o0 y s n l [R1 R2 R3 R4] G. apply good_eq in G. destruct G as (G1 & G2 & G3). subst n l.
    split; [exact R1|]. split; [congruence|]. rewrite R4. unfold posOf. rewrite app_length. reflexivity.
  Qed.
  Lemma firstn_env : forall (env : list part) n, List.length env = n -> firstn n env = env.
  Proof. intros env n <-. apply firstn_all. Qed.

  Lemma plain_setting : forall stop ps ts vs before first after, words pf stop ps ts vs -> first <> [] ->
      Setting (before ++ first :: ts ++ after) (plain (map (pclass stop) ps)) (envOf ts vs) (before ++ [first]) after [].
  Proof.
    intros stop ps ts vs before first after W F. constructor; cbn [plain c_in c_first c_true c_any c_maps c_last]; auto.
    - rewrite (words_concat _ _ _ _ _ W), <- app_assoc. reflexivity.
    - eapply words_fits. exact W.
    - intros E. apply app_eq_nil in E. destruct E. discriminate.
    - intros _. rewrite app_length, Nat.add_1_r. cbn [pred List.length]. rewrite app_nth2, Nat.sub_diag by lia. exact F.
    - constructor; [discriminate|reflexivity|discriminate].
  Qed.
  Lemma At_first : forall before (first : bytes), At (before ++ [first]) [] (St [] [] false (List.length before)).
  Proof. intros. split; [reflexivity|]. split; [reflexivity|]. rewrite app_length, Nat.add_1_r. reflexivity. Qed.

  Lemma SF_enum : forall adv table, SF (Enum adv table).
  Proof.
    intros adv table f ts v H D before first after F FO. cbn [sf] in H. destruct f as [[| | |l]|ps cs|ps gs cs nexts|ms ps gr its stop cs]; try discriminate.
    bools. subst adv. inversion D as [ty t w S E1 E2| | |]; subst. destruct S as [N (I & ->)]. cbn [call].
    assert (M : moves (before ++ first :: [t] ++ after) (List.length before) = true).
    { unfold moves. apply Nat.ltb_lt. rewrite app_length. cbn. lia. }
    assert (C : nth (S (List.length before)) (before ++ first :: [t] ++ after) [] = t).
    { rewrite app_nth2 by lia. replace (S (List.length before) - List.length before) with 1 by lia. reflexivity. }
    assert (N1 : nextTok (before ++ first :: [t] ++ after) (List.length before) = t) by (unfold nextTok; rewrite M; exact C).
    assert (N2 : next (before ++ first :: [t] ++ after) (List.length before) = S (List.length before)) by (unfold next; rewrite M; reflexivity).
    rewrite N1, N2, (selfText_ok _ _ _ H0 I). cbn [List.length]. split; [reflexivity|]. split; [reflexivity|]. lia.
  Qed.

  Lemma SF_straight : forall k, SB k -> SF (Straight k).
  Proof.
    intros k IH f ts v H D before first after F FO. destruct f as [ty|ps cs|ps gs cs nexts|ms ps gr its stop cs]; try discriminate.
    change ((match sb (plain (map (pclass "") ps)) k start with
             | Some (_, y) => good (List.length (map (pclass "") ps)) (pacts true 0 ps ++ cacts cs) y
             | None => false end) = true) in H.
    inversion D as [|ps' cs' ts' vs W| |]; subst.
    destruct (sb (plain (map (pclass "") ps)) k start) as [[br y]|] eqn:E; [|discriminate].
    pose proof (plain_setting _ _ _ _ before first after W F) as ST.
    pose proof (rel_start (envOf ts vs) _ _ _ (At_first before first)) as R.
    pose proof (IH _ _ _ _ _ _ ST _ _ _ _ R E) as P. rewrite call_straight.
    assert (Q : forall s, rel (envOf ts vs) (before ++ [first]) [] y s ->
        VObj (s_obj s) = VObj (consts cs (stores true ps vs [])) /\ s_err s = false /\ s_idx s = List.length before + List.length ts).
    { intros s R'. destruct (rel_good _ _ _ _ _ _ _ R' H) as (A1 & A2 & A3).
      destruct (words_length _ _ _ _ _ W) as (L1 & _). rewrite firstn_env in A3 by (rewrite map_length; exact L1).
      rewrite (words_concat _ _ _ _ _ W) in A3. rewrite !app_length in A3. cbn in A3.
      rewrite A1, interp_app, (words_interp _ _ _ _ _ _ _ W), cacts_interp. split; [reflexivity|]. split; [exact A2|]. lia. }
    unfold okR in P. change (list Ascii.ascii) with bytes in *.
    destruct (run isKeyword (before ++ first :: ts ++ after) pf fuel k (St [] [] false (List.length before))) as [s|s| |]; try exact P; apply Q; apply P.
  Qed.

  Section Loops.
    Variables pre body : block.
    Hypothesis IHpre : SB pre.
    Hypothesis IHbody : SB body.
    Variable toks : list bytes.

    (** if the loop ends, the final state satisfies [F] *)
    Definition Done (F : st -> Prop) (s : st) : Prop :=
      forall m, match iter m (run isKeyword toks pf fuel body) s with Go s' => F s' | Fuel => True | _ => False end.

    Lemma rounds_go : forall F X env before after o0, Setting toks X env before after o0 ->
        forall n goal y s y', rel env before o0 y s -> rounds n (sb X body) goal y = Some (false, y') ->
        (forall s', rel env before o0 y' s' -> Done F s') -> Done F s.
    Proof.
      intros F X env before after o0 ST. induction n as [|n IH]; intros goal y s y' R H K; cbn [rounds] in H.
      - destruct (y_pos y =? goal); [|discriminate]. injection H as <-. apply K. exact R.
      - destruct (y_pos y =? goal); [injection H as <-; apply K; exact R|].
        destruct (sb X body y) as [[br y1]|] eqn:E; [|discriminate]. destruct br; [discriminate|].
        pose proof (IHbody _ _ _ _ _ _ ST _ _ _ _ R E) as P. intros [|m]; [exact I|]. cbn [iter].
        destruct (run isKeyword toks pf fuel body s) as [s1|s1| |]; try exact P.
        + destruct P as [_ R1]. apply (IH goal y1 s1 y' R1 H K).
        + destruct P. discriminate.
    Qed.
    Lemma rounds_out : forall (F : st -> Prop) X env before after o0, Setting toks X env before after o0 ->
        forall n goal y s y', rel env before o0 y s -> rounds n (sb X body) goal y = Some (true, y') ->
        (forall s', rel env before o0 y' s' -> F s') -> Done F s.
    Proof.
      intros F X env before after o0 ST. induction n as [|n IH]; intros goal y s y' R H K; cbn [rounds] in H.
      - destruct (y_pos y =? goal); discriminate.
      - destruct (y_pos y =? goal); [discriminate|].
        destruct (sb X body y) as [[br y1]|] eqn:E; [|discriminate]. 
        pose proof (IHbody _ _ _ _ _ _ ST _ _ _ _ R E) as P. intros [|m]; [exact I|]. cbn [iter].
        destruct (run isKeyword toks pf fuel body s) as [s1|s1| |]; try exact P.
        + destruct P as [-> R1]. apply (IH goal y1 s1 y' R1 H K).
        + destruct P as [-> R1]. injection H as <-. apply K. exact R1.
    Qed.
    Lemma body_out : forall (F : st -> Prop) X env before after o0, Setting toks X env before after o0 ->
        forall y s y', rel env before o0 y s -> sb X body y = Some (true, y') ->
        (forall s', rel env before o0 y' s' -> F s') -> Done F s.
    Proof.
      intros F X env before after o0 ST y s y' R E K. pose proof (IHbody _ _ _ _ _ _ ST _ _ _ _ R E) as P. intros [|m]; [exact I|]. cbn [iter].
      destruct (run isKeyword toks pf fuel body s) as [s1|s1| |]; try exact P.
      - destruct P. discriminate.
      - apply K. apply P.
    Qed.

    (** the setting of a later part *)
    Lemma later : forall X env before after o s, toks = before ++ concat (map fst env) ++ after -> Forall2 (fits pf) (c_in X) env ->
        At before o s -> c_first X = false -> Inv (c_true X) (c_any X) (c_maps X) o ->
        match c_last X with
        | None => True
        | Some l => exists n k, fint (c_count X) o = Z.of_nat n /\ n < 2 ^ 16 /\ k < n /\ l = (S k =? n)
                                /\ forall f, mem f (c_lists X) = true -> List.length (flist f o) = k
        end -> Setting toks X env before after o /\ rel env before o start s.
    Proof.
      intros X env before after o s T FT A CF IN CL. split; [|apply rel_start; exact A]. constructor; auto.
      - intros ->. destruct A as (_ & _ & A). discriminate.
      - congruence.
    Qed.

    Lemma stage : forall F X env before after o s n m l y, toks = before ++ concat (map fst env) ++ after -> Forall2 (fits pf) (c_in X) env ->
        At before o s -> c_first X = false -> Inv (c_true X) (c_any X) (c_maps X) o ->
        match c_last X with
        | None => True
        | Some l => exists n k, fint (c_count X) o = Z.of_nat n /\ n < 2 ^ 16 /\ k < n /\ l = (S k =? n)
                                /\ forall f, mem f (c_lists X) = true -> List.length (flist f o) = k
        end ->
        rounds n (sb X body) m start = Some (false, y) -> good m l y = true ->
        (forall s', At (before ++ concat (map fst (firstn m env))) (interp env l o) s' -> Done F s') -> Done F s.
    Proof.
      intros F X env before after o s n m l y T FT A CF IN CL H G K. destruct (later X env before after o s T FT A CF IN CL) as [ST R].
      eapply rounds_go; [exact ST|exact R|exact H|]. intros s' R'. apply K. eapply rel_good; eassumption.
    Qed.

    (** any number of repetitions *)
    Lemma free_stage : forall F stop gs T A ms a1, groupOk (fun X => sb X body) stop a1 T A ms (Free gs) = true ->
        forall n ts o o', repeats pf stop false gs n ts o o' -> forall before after s, toks = before ++ ts ++ after ->
        At before o s -> Inv T A ms o ->
        (forall s', At (before ++ ts) o' s' -> Inv T A ms o' -> Done F s') -> Done F s.
    Proof.
      intros F stop gs T A ms a1 G n ts o o' R. cbn [groupOk] in G.
      match type of G with _ && match ?x with _ => _ end = _ => destruct x as [[[|] y]|] eqn:E; try (rewrite andb_false_r in G; discriminate) end.
      apply andb_true_iff in G. destruct G as [PO G].
      induction R as [o|n ts ts' vs o o' W R IH]; intros before after s TK AT IN K.
      - apply K; [rewrite app_nil_r; exact AT|exact IN].
      - destruct (words_length _ _ _ _ _ W) as (L1 & L2 & L3). rewrite map_length in *.
        refine (stage F (Ctx (map (pclass stop) gs) false T A ms None "" []) (envOf ts vs) before (ts' ++ after) o s _ _ _ y _ _ AT eq_refl IN I E G _).
        + rewrite (words_concat _ _ _ _ _ W), TK, <- app_assoc. reflexivity.
        + eapply words_fits. exact W.
        + intros s' AT'. rewrite firstn_env in AT' by exact L1. rewrite (words_concat _ _ _ _ _ W), (words_interp _ _ _ _ _ _ _ W) in AT'.
          apply (IH (before ++ ts) after s').
          * rewrite TK, <- !app_assoc. reflexivity.
          * exact AT'.
          * pose proof (pres (envOf ts vs) _ _ _ _ _ PO IN) as Q. rewrite flagsOf_false, (words_interp _ _ _ _ _ _ _ W) in Q. exact Q.
          * intros s'' AT'' IN''. apply K; [|exact IN'']. rewrite app_assoc. exact AT''.
    Qed.

    (** as often as a field says *)
    Lemma counted_stage : forall F stop c gs T A ms a1, groupOk (fun X => sb X body) stop a1 T A ms (Counted c gs) = true ->
        forall n ts o o', repeats pf stop true gs n ts o o' -> 0 < n -> forall k before after s, toks = before ++ ts ++ after ->
        At before o s -> Inv T A ms o -> fint c o = Z.of_nat (k + n) -> k + n < 2 ^ 16 ->
        (forall f, mem f (map p_field gs) = true -> List.length (flist f o) = k) ->
        (forall s', At (before ++ ts) o' s' -> Inv (flagsOf (pacts true 0 gs) ++ T) A ms o' -> Done F s') -> Done F s.
    Proof.
      intros F stop c gs T A ms a1 G n ts o o' R. cbn [groupOk] in G. apply andb_true_iff in G. destruct G as [_ G].
      rewrite forallb_forall in G.
      assert (GO : forall l, exists y, presOk T A ms (pacts l 0 gs) = true /\ mem c (map afield (pacts l 0 gs)) = false
          /\ (forall f, mem f (map p_field gs) = true -> forallb isApp (actsOn f (pacts l 0 gs)) = true /\ List.length (actsOn f (pacts l 0 gs)) = 1)
          /\ rounds (S (List.length (map (pclass stop) gs))) (sb (Ctx (map (pclass stop) gs) false T A ms (Some l) c (map p_field gs)) body)
               (List.length (map (pclass stop) gs)) start = Some (false, y)
          /\ good (List.length (map (pclass stop) gs)) (pacts l 0 gs) y = true).
      { intros l. assert (IL : In l [false; true]) by (destruct l; cbn; auto). specialize (G l IL). cbn beta zeta in G.
        match type of G with _ && match ?x with _ => _ end = _ => destruct x as [[[|] y]|] eqn:E; try (rewrite andb_false_r in G; discriminate) end.
        bools. exists y. split; [assumption|]. split; [assumption|]. split; [|split; [reflexivity|assumption]].
        intros f MF. apply mem_In in MF. rewrite forallb_forall in H1. specialize (H1 f MF). bools. auto. }
      clear G. induction R as [o|n ts ts' vs o o' W R IH]; intros NZ k before after s TK AT IN FC B LL K; [lia|].
      destruct (words_length _ _ _ _ _ W) as (L1 & L2 & L3).
      destruct (GO (n =? 0)) as (y & PO & MC & ON & E & G). rewrite map_length in *.
      refine (stage F (Ctx (map (pclass stop) gs) false T A ms (Some (n =? 0)) c (map p_field gs)) (envOf ts vs) before (ts' ++ after) o s _ _ _ y _ _ AT eq_refl IN _ E G _).
      - rewrite (words_concat _ _ _ _ _ W), TK, <- app_assoc. reflexivity.
      - eapply words_fits. exact W.
      - cbn [c_last c_count c_lists]. exists (k + S n), k. split; [exact FC|]. split; [exact B|]. split; [lia|]. split; [|exact LL].
        symmetry. destruct (n =? 0) eqn:Z; [apply Nat.eqb_eq in Z|apply Nat.eqb_neq in Z]; [apply Nat.eqb_eq|apply Nat.eqb_neq]; lia.
      - intros s' AT'. rewrite firstn_env in AT' by exact L1.
        rewrite (words_concat _ _ _ _ _ W), (words_interp _ _ _ _ _ _ _ W) in AT'.
        pose proof (pres (envOf ts vs) _ _ _ _ _ PO IN) as Q. rewrite (words_interp _ _ _ _ _ _ _ W) in Q.
        change (true && (n =? 0)) with (n =? 0) in *.
        destruct n as [|n].
        + inversion R; subst. rewrite app_nil_r in *. apply K; [exact AT'|exact Q].
        + cbn [Nat.eqb] in *. rewrite flagsOf_false in Q.
          apply (IH ltac:(lia) (S k) (before ++ ts) after s').
          * rewrite TK, <- !app_assoc. reflexivity.
          * exact AT'.
          * exact Q.
          * rewrite <- (words_interp _ _ _ _ _ _ _ W). unfold fint. rewrite interp_none.
            -- change (fint c o = Z.of_nat (S k + S n)). rewrite FC. lia.
            -- intros a Ia Ea. assert (mem c (map afield (pacts false 0 gs)) = true); [|congruence].
               apply mem_In, in_map_iff. exists a. auto.
          * lia.
          * intros f MF. rewrite <- (words_interp _ _ _ _ _ _ _ W). destruct (ON f MF) as [O1 O2]. rewrite interp_len by exact O1.
            rewrite (LL f MF), O2. lia.
          * intros s'' AT'' IN''. apply K; [|exact IN'']. rewrite app_assoc. exact AT''.
    Qed.
    (** keywords with their objects *)
    Lemma parts_stage : forall F its stop ts o o', parts pf its stop ts o o' -> forall T A ms,
        forallb (itemOk (fun X => sb X body) T A ms) its = true -> forall before after s, toks = before ++ ts ++ b stop :: after ->
        At before o s -> Inv T A ms o ->
        (forall s', At (before ++ ts) o' s' -> Inv T A ms o' -> Done F s') -> Done F s.
    Proof.
      intros F its stop ts o o' R.
      induction R as [its stop o|its stop kw f p sub ts ts' v o o' IT D FO R IH]; intros T A ms IO before after s TK AT IN K.
      - apply K; [rewrite app_nil_r; exact AT|exact IN].
      - pose proof (proj1 (forallb_forall _ _) IO _ IT) as IK. cbn [itemOk] in IK.
        match type of IK with _ && match ?x with _ => _ end = _ => destruct x as [[[|] y]|] eqn:E; try (rewrite andb_false_r in IK; discriminate) end.
        apply andb_true_iff in IK. destruct IK as [PO G]. apply andb_true_iff in PO. destruct PO as [PO _].
        assert (NX : exists env2 after2, ts' ++ b stop :: after = concat (map fst env2) ++ after2 /\ Forall2 (fits pf) (nextClass sub) env2).
        { assert (HX : exists rest, ts' ++ b stop :: after = hd (b stop) ts' :: rest) by (destruct ts'; cbn; eauto).
          destruct HX as (rest & HX). set (t := hd (b stop) ts') in *.
          destruct sub as [ty|ps cs|ps gs cs [|n1 nexts]|ms' ps gr its' stop' cs]; try (exists [], (ts' ++ b stop :: after); split; [reflexivity|constructor]).
          - exists [([t], VStr t)], rest. split; [exact HX|]. constructor; [|constructor]. cbn [fits fst snd].
            exists t. split; [reflexivity|]. split; [|split; [exact FO|reflexivity]]. intros _ ET. cbn [follows] in FO. rewrite ET in FO. discriminate FO.
          - exists [([t], VStr t)], rest. split; [exact HX|]. constructor; [|constructor]. cbn [fits fst snd].
            exists t. split; [reflexivity|]. split; [discriminate|]. split; [|reflexivity]. cbn [follows] in FO. apply existsb_exists in FO.
            destruct FO as (w & W1 & W2). apply beqb_eq in W2. eauto. }
        destruct NX as (env2 & after2 & NX & FT).
        refine (stage F (Ctx (TExact kw :: TSub sub :: nextClass sub) false T A ms None "" []) (([b kw], VStr (b kw)) :: (ts, v) :: env2)
                  before after2 o s _ _ _ y _ _ AT eq_refl IN I E G _).
        + cbn [map fst concat app]. rewrite <- app_assoc, <- NX, TK. rewrite <- app_comm_cons, <- app_assoc. reflexivity.
        + constructor; [|constructor; [exact D|exact FT]]. cbn [fits fst snd]. exists (b kw). split; [reflexivity|]. split; [discriminate|]. split; reflexivity.
        + cbn [firstn map fst concat app]. rewrite app_nil_r. intros s' AT'.
          assert (PI : interp (([b kw], VStr (b kw)) :: (ts, v) :: env2) [placeAct p f] o = place_in p f v o) by (destruct p; reflexivity).
          assert (PF : flagsOf [placeAct p f] = []) by (destruct p; reflexivity).
          pose proof (pres (([b kw], VStr (b kw)) :: (ts, v) :: env2) _ _ _ _ _ PO IN) as Q. rewrite PF, PI in Q. rewrite PI in AT'.
          apply (IH T A ms IO (before ++ b kw :: ts) after s').
          * rewrite TK, <- !app_assoc. cbn [app]. rewrite <- !app_assoc. reflexivity.
          * exact AT'.
          * exact Q.
          * intros s'' AT'' IN''. apply K; [|exact IN'']. rewrite <- app_assoc in AT''. exact AT''.
    Qed.

    Lemma params_stage : forall F stop ps a1, paramsOk (fun X => sb X pre) (fun X => sb X body) (map (pclass stop) ps) a1 = true ->
        forall ts vs before first after, words pf stop ps ts vs -> first <> [] -> toks = before ++ first :: ts ++ after ->
        (forall s, At (before ++ first :: ts) (interp (envOf ts vs) a1 []) s -> Done F s) ->
        match run isKeyword toks pf fuel pre (St [] [] false (List.length before)) with Go s => Done F s | Fuel => True | _ => False end.
    Proof.
      intros F stop ps a1 P ts vs before first after W FN TK K. unfold paramsOk in P.
      destruct (sb (plain (map (pclass stop) ps)) pre start) as [[[|] y]|] eqn:E; try discriminate.
      destruct (rounds _ _ _ y) as [[[|] y']|] eqn:E' in P; try discriminate.
      pose proof (plain_setting _ _ _ _ before first after W FN) as ST. rewrite <- TK in ST.
      pose proof (rel_start (envOf ts vs) _ _ _ (At_first before first)) as R.
      pose proof (IHpre _ _ _ _ _ _ ST _ _ _ _ R E) as Q. unfold okR in Q. unfold bytes in *.
      destruct (run isKeyword toks pf fuel pre (St [] [] false (List.length before))) as [s|s| |]; try exact Q.
      - destruct Q as [_ R1]. eapply rounds_go; [exact ST|exact R1|exact E'|]. intros s' R'. apply K.
        pose proof (rel_good _ _ _ _ _ _ _ R' P) as AT. destruct (words_length _ _ _ _ _ W) as (L1 & _).
        rewrite firstn_env in AT by (rewrite map_length; exact L1). rewrite (words_concat _ _ _ _ _ W), <- app_assoc in AT. exact AT.
      - destruct Q. discriminate.
    Qed.

    (** from the final state to the result *)
    Lemma loop_result : forall (before : list bytes) (first : bytes) ts o,
        match run isKeyword toks pf fuel pre (St [] [] false (List.length before)) with
        | Go s => Done (At (before ++ first :: ts) o) s
        | Fuel => True
        | _ => False
        end ->
        match call isKeyword toks pf fuel (Loop pre body) (List.length before) with
        | Ret v e j => v = VObj o /\ e = false /\ j = List.length before + List.length ts
        | FBad => False
        | FFuel => True
        end.
    Proof.
      intros before first ts o H. rewrite call_loop. destruct (run isKeyword toks pf fuel pre (St [] [] false (List.length before))) as [s|s| |]; try exact H; [|destruct H].
      specialize (H fuel). destruct (iter fuel (run isKeyword toks pf fuel body) s) as [s'|s'| |]; try exact H; [|destruct H].
      destruct H as (A1 & A2 & A3). split; [congruence|]. split; [exact A2|]. rewrite app_length in A3. cbn in A3. lia.
    Qed.
  End Loops.

  Lemma SF_loop : forall pre body, SB pre -> SB body -> SF (Loop pre body).
  Proof.
    intros pre body IHpre IHbody f ts v H D before first after FN FO.
    destruct f as [ty|ps cs|ps gs cs nexts|ms ps gr its stop cs]; [discriminate| | |].
    - (* Fixed *)
      change (match sb (plain (map (pclass "") ps)) pre start with
              | Some (false, y) => match rounds (S (List.length (map (pclass "") ps))) (sb (plain (map (pclass "") ps)) body) (S (List.length (map (pclass "") ps))) y with
                                   | Some (true, y') => good (List.length (map (pclass "") ps)) (pacts true 0 ps ++ cacts cs) y'
                                   | _ => false
                                   end
              | _ => false
              end = true) in H.
      inversion D as [|ps' cs' ts' vs W| |]; subst.
      destruct (sb (plain (map (pclass "") ps)) pre start) as [[[|] y]|] eqn:E; try discriminate.
      destruct (rounds _ _ _ y) as [[[|] y']|] eqn:E' in H; try discriminate.
      pose proof (plain_setting _ _ _ _ before first after W FN) as ST.
      pose proof (rel_start (envOf ts vs) _ _ _ (At_first before first)) as R.
      pose proof (IHpre _ _ _ _ _ _ ST _ _ _ _ R E) as Q. unfold okR in Q.
      eapply (loop_result _ _ _ _ first).
      unfold okR in Q. change (list Ascii.ascii) with bytes in *.
      destruct (run isKeyword (before ++ first :: ts ++ after) pf fuel pre (St [] [] false (List.length before))) as [s|s| |]; try exact Q.
      + destruct Q as [_ R1]. eapply rounds_out; [exact IHbody|exact ST|exact R1|exact E'|]. intros s' R'.
        pose proof (rel_good _ _ _ _ _ _ _ R' H) as AT. destruct (words_length _ _ _ _ _ W) as (L1 & _).
        rewrite firstn_env in AT by (rewrite map_length; exact L1).
        rewrite (words_concat _ _ _ _ _ W), <- app_assoc, interp_app, (words_interp _ _ _ _ _ _ _ W), cacts_interp in AT. exact AT.
      + destruct Q. discriminate.
    - (* Ahead *)
      change (aheadOk (fun X => sb X pre) (fun X => sb X body) ps gs cs nexts = true) in H. unfold aheadOk in H.
      apply andb_true_iff in H. destruct H as [H EN]. apply andb_true_iff in H. destruct H as [H NE].
      apply andb_true_iff in H. destruct H as [H GO]. apply andb_true_iff in H. destruct H as [PA PR].
      inversion D as [| |ps' gs' cs' nexts' ts1 ts2 vs o W RP|]; subst. destruct RP as (n & RP).
      eapply (loop_result _ _ _ _ first). rewrite <- app_assoc.
      eapply (params_stage pre body IHpre IHbody _ _ _ _ _ PA ts1 vs before first (ts2 ++ after) W FN eq_refl).
      intros s AT. rewrite (words_interp _ _ _ _ _ _ _ W) in AT.
      assert (IN : Inv (flagsOf (pacts true 0 ps)) (othersOf (pacts true 0 ps) ++ othersOf (pacts false 0 gs)) [] (stores true ps vs [])).
      { rewrite <- (words_interp _ _ _ _ _ _ _ W). rewrite <- (app_nil_r (flagsOf _)). apply pres; [exact PR|].
        constructor; [discriminate|reflexivity|discriminate]. }
      eapply (free_stage body IHbody _ _ _ _ _ _ _ _ GO _ _ _ _ RP (before ++ first :: ts1) after s); [|exact AT|exact IN|].
      { rewrite <- app_assoc. reflexivity. }
      intros s' AT' IN'.
      assert (NX : exists c t rest, after = t :: rest /\ In c (match nexts with [] => [TKw] | _ => map TExact nexts end)
                     /\ fits pf c ([t], VStr t)).
      { destruct nexts as [|n1 nexts].
        - destruct after as [|t rest]; [cbn in FO; discriminate|]. exists TKw, t, rest. split; [reflexivity|]. split; [left; reflexivity|].
          cbn [fits fst snd hd] in *. exists t. split; [reflexivity|]. split; [|split; [exact FO|reflexivity]]. intros _ ->. discriminate FO.
        - cbn [follows] in FO. apply existsb_exists in FO. destruct FO as (w & W1 & W2). apply beqb_eq in W2.
          rewrite forallb_forall in NE. specialize (NE w W1). apply negb_true_iff, eqb_empty in NE.
          destruct after as [|t rest]; [cbn in W2; congruence|]. exists (TExact w), t, rest. split; [reflexivity|].
          split; [apply in_map; exact W1|]. cbn [fits fst snd hd] in *. exists t. split; [reflexivity|]. split; [discriminate|]. split; [exact W2|reflexivity]. }
      destruct NX as (c & t & rest & -> & IC & FT). rewrite forallb_forall in EN. specialize (EN c IC).
      destruct (sb _ body start) as [[[|] y]|] eqn:E in EN; try discriminate.
      match type of E with sb ?X _ _ = _ => destruct (later (before ++ first :: ts1 ++ ts2 ++ t :: rest) X [([t], VStr t)] ((before ++ first :: ts1) ++ ts2) rest o s' ltac:(cbn; rewrite <- !app_assoc; reflexivity)
                  ltac:(constructor; [exact FT|constructor]) AT' eq_refl IN' I) as [ST R] end.
      eapply body_out; [exact IHbody|exact ST|exact R|exact E|]. intros s'' R''.
      pose proof (rel_good _ _ _ _ _ _ _ R'' EN) as AT''. cbn [firstn map concat] in AT''. rewrite app_nil_r, cacts_interp, <- app_assoc in AT''. exact AT''.
    - (* Block *)
      change (blockOk (fun X => sb X pre) (fun X => sb X body) ms ps gr its stop cs = true) in H. unfold blockOk in H.
      set (T := flagsOf (pacts true 0 ps)) in *. set (A := ms ++ othersOf (pacts true 0 ps) ++ othersOf (gacts gr) ++ map ifield its) in *.
      apply andb_true_iff in H. destruct H as [H EN]. apply andb_true_iff in H. destruct H as [H SN].
      apply andb_true_iff in H. destruct H as [H IO]. apply andb_true_iff in H. destruct H as [H GO].
      apply andb_true_iff in H. destruct H as [PA PR].
      inversion D as [| | |ms' ps' gr' its' stop' cs' ts1 ts2 ts3 vs o o' W RP PT]; subst.
      eapply (loop_result _ _ _ _ first).
      replace (before ++ first :: (ts1 ++ ts2 ++ ts3 ++ [b stop]) ++ after) with (before ++ first :: ts1 ++ ts2 ++ ts3 ++ b stop :: after)
        by (rewrite <- !app_assoc; reflexivity).
      set (toks := before ++ first :: ts1 ++ ts2 ++ ts3 ++ b stop :: after).
      eapply (params_stage pre body IHpre IHbody toks _ _ _ _ PA ts1 vs before first (ts2 ++ ts3 ++ b stop :: after) W FN eq_refl).
      intros s AT. rewrite interp_app, macts_interp, (words_interp _ _ _ _ _ _ _ W) in AT.
      assert (IN : Inv T A ms (stores true ps vs (newMaps ms))).
      { rewrite <- (words_interp _ _ _ _ _ _ _ W). rewrite <- (app_nil_r T). apply pres; [exact PR|]. apply newMaps_inv. }
      assert (END : forall s', At (before ++ first :: ts1 ++ ts2 ++ ts3) o' s' -> Inv (flagsOf (gacts gr) ++ T) A ms o' ->
                    Done body toks (At (before ++ first :: ts1 ++ ts2 ++ ts3 ++ [b stop]) (consts cs o')) s').
      { intros s' AT' IN'. destruct (sb _ body start) as [[[|] y]|] eqn:E in EN; try discriminate.
        match type of E with sb ?X _ _ = _ => destruct (later toks X [([b stop], VStr (b stop))] (before ++ first :: ts1 ++ ts2 ++ ts3) after o' s'
                    ltac:(unfold toks; cbn; rewrite <- ?app_assoc; cbn; rewrite <- ?app_assoc; reflexivity)
                    ltac:(constructor; [exists (b stop); split; [reflexivity|split; [discriminate|split; reflexivity]]|constructor]) AT' eq_refl IN' I) as [ST R] end.
        eapply body_out; [exact IHbody|exact ST|exact R|exact E|]. intros s'' R''.
        pose proof (rel_good _ _ _ _ _ _ _ R'' EN) as AT''. cbn [firstn map concat fst app] in AT''. rewrite cacts_interp, <- app_assoc in AT''.
        cbn [app] in AT''. rewrite <- !app_assoc in AT''. exact AT''. }
      assert (MID : forall s', At (before ++ first :: ts1 ++ ts2) o s' -> Inv (flagsOf (gacts gr) ++ T) A ms o ->
                    Done body toks (At (before ++ first :: ts1 ++ ts2 ++ ts3 ++ [b stop]) (consts cs o')) s').
      { intros s' AT' IN'. eapply (parts_stage body IHbody toks _ _ _ _ _ _ PT _ _ _ IO (before ++ first :: ts1 ++ ts2) after s'); [|exact AT'|exact IN'|].
        - unfold toks. rewrite <- app_assoc. cbn [app]. rewrite <- app_assoc. reflexivity.
        - intros s'' AT'' IN''. apply END; [|exact IN'']. rewrite <- app_assoc in AT''. cbn [app] in AT''. rewrite <- app_assoc in AT''. exact AT''. }
      destruct gr as [|gs|c gs]; cbn [repeated gacts] in *.
      + destruct RP as [-> ->]. apply MID; [rewrite app_nil_r; exact AT|exact IN].
      + destruct RP as (n & RP). rewrite flagsOf_false in MID. cbn [app] in MID.
        eapply (free_stage body IHbody toks _ _ _ _ _ _ _ GO _ _ _ _ RP (before ++ first :: ts1) (ts3 ++ b stop :: after) s); [|exact AT|exact IN|].
        * unfold toks. rewrite <- app_assoc. reflexivity.
        * intros s' AT' IN'. apply MID; [|exact IN']. rewrite <- app_assoc in AT'. exact AT'.
      + destruct RP as (n & N1 & N2 & N3 & RP).
        eapply (counted_stage body IHbody toks _ _ _ _ _ _ _ _ GO _ _ _ _ RP N1 0 (before ++ first :: ts1) (ts3 ++ b stop :: after) s);
          [|exact AT|exact IN|exact N3|exact N2| |].
        * unfold toks. rewrite <- app_assoc. reflexivity.
        * intros f MF. cbn [groupOk] in GO. apply andb_true_iff in GO. destruct GO as [GO _]. rewrite forallb_forall in GO.
          apply mem_In in MF. specialize (GO f MF). apply andb_true_iff in GO. destruct GO as [G1 G2]. apply negb_true_iff in G1, G2.
          rewrite <- (words_interp _ _ _ _ _ _ _ W). unfold flist. rewrite interp_none.
          -- unfold newMaps. rewrite newMaps_get, G2. reflexivity.
          -- intros a Ia Ea. assert (mem f (map afield (pacts true 0 ps)) = true); [|congruence]. apply mem_In, in_map_iff. exists a. auto.
        * intros s' AT' IN'. apply MID; [|exact IN']. rewrite <- app_assoc in AT'. exact AT'.
  Qed.

  Theorem sound : (forall x, SX x) /\ (forall k, SB k) /\ (forall cs, SC cs) /\ (forall g, SF g).
  Proof.
    apply ir_ind.
    - (* Next *) intros toks X env before after o0 ST y s br y' R H. cbn [sx exec] in *.
      destruct (adv X y) as [y1|] eqn:A; [|discriminate]. injection H as <- <-. split; [reflexivity|]. apply (adv_ok _ _ _ _ _ _ ST _ _ _ R A).
    - (* Prev *) intros toks X env before after o0 ST y s br y' R H. cbn [sx exec] in *.
      destruct (curClass X y) as [[c q]|] eqn:C; [|discriminate]. destruct (single c) eqn:SG; [|discriminate]. injection H as <- <-.
      destruct (cur_class _ _ _ _ _ _ ST _ _ _ _ R C SG) as (t & v & _ & _ & _ & _ & I).
      pose proof (pos_pos _ _ _ _ _ _ ST q) as P. destruct (s_idx s) as [|i] eqn:J; [lia|]. split; [reflexivity|].
      apply rel_pos; [exact R|exact I].
    - apply SX_simple_set.
    - (* App *) intros f e toks X env before after o0 ST y s br y' R H. cbn [sx exec] in *.
      destruct (seval X e y) as [a|] eqn:C; [|discriminate]. injection H as <- <-. split; [reflexivity|].
      rewrite (seval_ok _ _ _ _ _ _ ST _ _ _ _ R C). apply (rel_act _ _ _ y s (AApp f a) R).
    - (* Fill *) intros f n e toks X env before after o0 ST y s br y' R H. cbn [sx exec] in *.
      destruct (seval X e y) as [a|] eqn:C; [|discriminate]. injection H as <- <-. split; [reflexivity|].
      rewrite (seval_ok _ _ _ _ _ _ ST _ _ _ _ R C). apply (rel_act _ _ _ y s (AFill f n a) R).
    - (* Put *) intros f v k toks X env before after o0 ST y s br y' R H. cbn [sx exec] in *.
      destruct (isMap X f y) eqn:M; [|discriminate]. destruct (look v (y_var y)) as [a|] eqn:C; [|discriminate].
      injection H as <- <-. destruct (isMap_ok _ _ _ _ _ _ ST _ _ _ R M) as (m & E). rewrite E. split; [reflexivity|].
      pose proof (rel_act _ _ _ y s (APut f a k) R) as Q. pose proof (r_var _ _ _ _ _ R _ _ C) as V. cbn [ap] in Q.
      unfold varName, eval. rewrite V. unfold fmap in Q. rewrite E in Q. exact Q.
    - (* Num *) intros v n r toks X env before after o0 ST y s br y' R H. cbn [sx exec] in *.
      destruct (sread X r y) as [y1|] eqn:A; [|discriminate]. destruct (sread_ok _ _ _ _ _ _ ST _ _ _ _ R A) as [R1 T1].
      destruct (readSrc toks r s) as [t s1]. cbn [fst snd] in *.
      destruct (curClass X y1) as [[c q]|] eqn:C; [|discriminate]. destruct c; try discriminate.
      destruct (num_eqb n0 n) eqn:E; [|discriminate]. apply num_eqb_eq in E. subst n0. injection H as <- <-.
      destruct (cur_class _ _ _ _ _ _ ST _ _ _ _ R1 C eq_refl) as (t' & w & EN & [_ [_ RN]] & CT & _ & _).
      rewrite T1, CT, RN. split; [reflexivity|]. apply rel_err, rel_var; [exact R1|]. apply (av_at _ _ _ EN).
    - (* CallF *) intros f g IH toks X env before after o0 ST y s br y' R H.
      assert (CASES : (exists table, g = Enum false table) \/ forall table, g <> Enum false table).
      { destruct g as [[|] table|k|pre body]; try (right; intros; discriminate). left. eauto. }
      destruct CASES as [[table ->]|NE].
      + rewrite sx_callF_enum in H. destruct (curClass X y) as [[c q]|] eqn:C; [|discriminate]. destruct c; try discriminate.
        destruct (forallb (selfText table) l) eqn:E; [|discriminate]. injection H as <- <-.
        destruct (cur_class _ _ _ _ _ _ ST _ _ _ _ R C eq_refl) as (t & w & EN & [_ [IN ->]] & CT & _ & _).
        rewrite exec_callF. cbn [call]. rewrite CT, (selfText_ok _ _ _ E IN). split; [reflexivity|].
        pose proof (rel_act _ _ _ y s (ASet f (ATok q)) R) as Q. cbn [ap] in Q. rewrite (av_at _ _ _ EN) in Q. cbn [snd] in Q.
        apply (rel_err _ _ _ _ _ false) in Q. destruct s. exact Q.
      + rewrite (sx_callF _ _ _ _ NE) in H. destruct (nth_error (c_in X) (y_pos y)) as [c|] eqn:N; [|discriminate].
        destruct c; try discriminate. destruct (curIs X y "") as [[|]|] eqn:CE; try discriminate.
        destruct (nextOk f0 (nth_error (c_in X) (S (y_pos y))) && sf g f0) eqn:E; [|discriminate]. injection H as <- <-. bools.
        pose proof (call_ok _ _ _ _ _ _ ST _ _ _ g R N CE ltac:(assumption) (fun ts v D => IH f0 ts v ltac:(assumption) D)) as P.
        rewrite exec_callF. destruct (call isKeyword toks pf fuel g (s_idx s)) as [v e j| |]; try exact P.
        destruct P as (-> & -> & J). split; [reflexivity|].
        pose proof (rel_act _ _ _ _ _ (ASet f (ATok (y_pos y))) (rel_pos _ _ _ y s _ _ R J)) as Q. cbn [ap] in Q.
        apply (rel_err _ _ _ _ _ false) in Q. exact Q.
    - (* CallV *) intros f g IH toks X env before after o0 ST y s br y' R H.
      rewrite sx_callV in H. destruct (nth_error (c_in X) (y_pos y)) as [c|] eqn:N; [|discriminate].
      destruct c; try discriminate. destruct (curIs X y "") as [[|]|] eqn:CE; try discriminate.
      destruct (nextOk f0 (nth_error (c_in X) (S (y_pos y))) && sf g f0) eqn:E; [|discriminate]. injection H as <- <-. bools.
      pose proof (call_ok _ _ _ _ _ _ ST _ _ _ g R N CE ltac:(assumption) (fun ts v D => IH f0 ts v ltac:(assumption) D)) as P.
      rewrite exec_callV. destruct (call isKeyword toks pf fuel g (s_idx s)) as [v e j| |]; try exact P.
      destruct P as (-> & -> & J). split; [reflexivity|].
      pose proof (rel_var _ _ _ _ _ f _ _ (rel_pos _ _ _ y s _ _ R J) (eq_refl (av env (ATok (y_pos y))))) as Q.
      apply (rel_err _ _ _ _ _ false) in Q. exact Q.
    - (* Raise *) intros toks X env before after o0 ST y s br y' R [= <- <-]. split; [reflexivity|]. apply rel_err. exact R.
    - (* Break *) intros toks X env before after o0 ST y s br y' R [= <- <-]. split; [reflexivity|exact R].
    - (* If *) intros c a IHa o IHo toks X env before after o0 ST y s br y' R H. rewrite sx_if in H. rewrite exec_if.
      destruct (stest X c y) as [x|] eqn:E; [|discriminate]. rewrite (stest_ok _ _ _ _ _ _ ST _ _ _ _ R E).
      destruct x; [eapply IHa|eapply IHo]; eassumption.
    - (* Switch *) intros r cs IHc d IHd toks X env before after o0 ST y s br y' R H. rewrite sx_switch in H. rewrite exec_switch.
      destruct (sread X r y) as [y1|] eqn:A; [|discriminate]. destruct (sread_ok _ _ _ _ _ _ ST _ _ _ _ R A) as [R1 T1]. rewrite T1.
      destruct (sc X cs y1) as [q|] eqn:C; [|discriminate]. pose proof (IHc _ _ _ _ _ _ ST _ _ _ R1 C) as P.
      destruct q as [[br1 y2]|].
      + injection H as <- <-. destruct P as (q & -> & P). exact P.
      + rewrite P. eapply IHd; eassumption.
    - (* Skip *) intros toks X env before after o0 ST y s br y' R [= <- <-]. split; [reflexivity|exact R].
    - (* Seq *) intros x IHx k IHk toks X env before after o0 ST y s br y' R H. rewrite sb_seq in H. rewrite run_seq.
      destruct (sx X x y) as [[br1 y1]|] eqn:E; [|discriminate]. pose proof (IHx _ _ _ _ _ _ ST _ _ _ _ R E) as P.
      destruct (exec isKeyword toks pf fuel x s) as [s1|s1| |]; try exact P.
      + destruct P as [-> R1]. eapply IHk; eassumption.
      + destruct P as [-> R1]. injection H as <- <-. split; [reflexivity|exact R1].
    - (* Default *) intros toks X env before after o0 ST y s r R [= <-]. reflexivity.
    - (* Case *) intros t k IHk cs IHc toks X env before after o0 ST y s r R H. rewrite sc_case in H.
      destruct (curIs X y t) as [[|]|] eqn:C; try discriminate; pose proof (curIs_ok _ _ _ _ _ _ ST _ _ _ _ R C) as Q.
      + destruct (sb X k y) as [[br y1]|] eqn:E; [|discriminate]. injection H as <-.
        rewrite pick_case, Q. eexists. split; [reflexivity|]. eapply IHk; eassumption.
      + pose proof (IHc _ _ _ _ _ _ ST _ _ _ R H) as P. rewrite pick_case, Q. exact P.
    - exact SF_enum.
    - exact SF_straight.
    - exact (fun pre H body H' => SF_loop pre body H H').
  Qed.
End Sound.
