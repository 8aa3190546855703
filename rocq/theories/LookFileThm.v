(** From the contents of a token list to the fields of a module. *)
From Coq Require Import String Ascii List Arith NArith ZArith Bool Lia SpecFloat.
From Verif Require Import GoBase GoBaseFacts A2lModStore A2lIR A2lTokens A2lSpec A2lParsers A2lFileThm A2lGrammar A2lForms A2lTripSpec A2lFormProps A2lProps.
From Verif Require Import CompuModel LookModel TreeModel TreeSpec TreeThm TreeLook.
From Verif Require Import A2lFileModel A2lFileSpec A2lExactSpec A2lExact A2lExactThm A2lExactProps A2lOddSpec A2lOddProps LookFileSpec.
From Verif Require A2lModSpec OriginProps A2lExploreThm.
Import ListNotations.

Definition ent (m : member) : entry := Entry (m_kw m) [] (m_val m).
Definition addMembers (its : list item) (l : list member) (o : fields) : fields := addEntries its (map ent l) o.

Lemma last_map : forall Q l e, lastSuch Q (map ent l) e <-> exists m, lastOf (fun m => Q (ent m)) l m /\ e = ent m.
Proof.
  intros Q l e. split.
  - intros (l1 & l2 & E & QE & F). apply map_eq_app in E. destruct E as (m1 & m2 & -> & <- & E). apply map_eq_cons in E. destruct E as (m & m3 & -> & <- & <-).
    exists m. split; [|reflexivity]. exists m1, m3. split; [reflexivity|]. split; [exact QE|]. apply Forall_forall. intros y I. rewrite Forall_forall in F. apply F. apply in_map. exact I.
  - intros (m & (l1 & l2 & -> & QM & F) & ->). exists (map ent l1), (map ent l2). split; [rewrite map_app; reflexivity|]. split; [exact QM|].
    apply Forall_forall. intros y I. apply in_map_iff in I. destruct I as (z & <- & I). rewrite Forall_forall in F. exact (F z I).
Qed.
Lemma lastOf_in : forall A (P : A -> Prop) l x, lastOf P l x -> In x l /\ P x.
Proof. intros A P l x (l1 & l2 & -> & H & _). split; [apply in_or_app; right; left; reflexivity|exact H]. Qed.
Lemma lastOf_fun : forall A (P : A -> Prop) l x y, lastOf P l x -> lastOf P l y -> x = y.
Proof.
  intros A P l x y (l1 & l2 & -> & HX & FX) (l1' & l2' & E & HY & FY). rewrite Forall_forall in FX, FY. revert l1' E. induction l1 as [|a l1 IH]; intros [|a' l1'] E.
  - injection E as E _. exact E.
  - injection E as <- E. exfalso. apply (FX y); [rewrite E; apply in_or_app; right; left; reflexivity|exact HY].
  - injection E as -> E. exfalso. apply (FY x); [rewrite <- E; apply in_or_app; right; left; reflexivity|exact HX].
  - injection E as _ E. exact (IH l1' E).
Qed.

(** ** Fields *)

Lemma place_cong : forall p f v g o o', fget g o = fget g o' -> fget g (place_in p f v o) = fget g (place_in p f v o').
Proof.
  intros p f v g o o' E. destruct (String.eqb_spec g f) as [->|N].
  - destruct p; cbn [place_in]; rewrite !fget_fset, String.eqb_refl; [reflexivity| |]; unfold flist, fmap; rewrite E; reflexivity.
  - rewrite !place_other by exact N. exact E.
Qed.
Lemma entries_cong : forall its l g o o', fget g o = fget g o' -> fget g (addEntries its l o) = fget g (addEntries its l o').
Proof.
  intros its l. induction l as [|e l IH]; intros g o o' E; [exact E|]. cbn [addEntries fold_left]. apply IH. unfold addEntry. destruct (slot its (e_kw e)) as [[f p]|]; [|exact E].
  apply place_cong. exact E.
Qed.

(** words only, no keywords *)
Definition textual (p : param) : bool := match p_type p with Any => false | _ => true end.
Definition optParam (f : param -> bool) (r : option param) : bool := match r with Some p => f p | None => true end.
Definition goodItems (its : list item) (stop : string) : bool :=
  distinct (stop :: kws its) && isKeyword (b stop) && forallb (fun kw => isKeyword (b kw)) (kws its).

Lemma key_inj : forall x y, b x = b y -> x = y.
Proof. intros x y H. apply A2lExploreThm.b_inj. exact H. Qed.

Section Tokens.
  Variable toks : list bytes.
  Variable pf : bytes -> option spec_float.
  Hypothesis EN : ended toks.
  Notation tok := (tok toks).
  Notation reads := (reads toks pf (odd toks pf)).

  Lemma reads_fun : forall g f i v j v' j', shapeFn ownFn g f = true -> tok i <> [] -> reads f i v j -> reads f i v' j' -> v = v' /\ j = j'.
  Proof.
    intros g f i v j v' j' SH N R R'.
    assert (LT : i < length toks) by (destruct (Nat.lt_ge_cases i (length toks)) as [H|H]; [exact H|]; exfalso; apply N; apply nth_overflow; exact H).
    apply (shape_exact toks pf EN (odd toks pf) (odd_len toks pf EN) ownFn (odd_is toks pf EN) g f) in R; auto.
    apply (shape_exact toks pf EN (odd toks pf) (odd_len toks pf EN) ownFn (odd_is toks pf EN) g f) in R'; auto.
    destruct (OriginProps.returns_fun _ _ _ _ _ _ _ _ _ _ R R') as (? & _ & ?). auto.
  Qed.

  Lemma fits_textual : forall p t v, textual p = true -> fits pf (p_type p) t v -> t <> [] /\ isKeyword t = false.
  Proof. intros p t v T [N F]. split; [exact N|]. unfold textual in T. destruct (p_type p); try discriminate T; apply F. Qed.

  Lemma mixed_contents : forall its stop ps r i j o o', mixed toks pf (odd toks pf) its stop ps r i j o o' -> NoDup (kws its) ->
      forallb textual ps = true -> optParam textual r = true ->
      exists l, contents toks pf its i j l /\ forall f, forallb (spares f) ps = true -> optParam (spares f) r = true -> fget f o' = fget f (addMembers its l o).
  Proof.
    intros its stop ps r i j o o' H. induction H as [its stop ps r i o|its stop p ps r i j v o o' PL FI M IH|its stop p i j v o o' PL FI M IH|its stop i j o o' PL N K M IH|its stop ps r kw f p sub i v k j o o' IN T R M IH]; intros ND TP TR.
    - exists []. split; [constructor|]. reflexivity.
    - cbn [forallb] in TP. apply andb_true_iff in TP. destruct TP as [TP1 TP2]. destruct (IH ND TP2 TR) as (l & C & F). destruct (fits_textual _ _ _ TP1 FI) as [N K].
      exists l. split; [constructor; assumption|]. intros f SP SR. cbn [forallb] in SP. apply andb_true_iff in SP. destruct SP as [SP1 SP2]. rewrite (F f SP2 SR).
      apply entries_cong. apply store_other. exact SP1.
    - cbn [optParam] in TR. destruct (IH ND TP TR) as (l & C & F). destruct (fits_textual _ _ _ TR FI) as [N K].
      exists l. split; [constructor; assumption|]. intros f SP SR. rewrite (F f SP SR). apply entries_cong. apply store_other. exact SR.
    - destruct (IH ND TP TR) as (l & C & F). exists l. split; [constructor; assumption|exact F].
    - destruct (IH ND TP TR) as (l & C & F). exists (Member kw (S i) v :: l). split; [exact (co_item toks pf its kw f p sub i v k j l IN T R C)|]. intros g SP SR. rewrite (F g SP SR).
      unfold addMembers. cbn [map addEntries fold_left]. unfold addEntry at 2. cbn [ent e_kw e_val m_kw m_val]. rewrite (slot_in _ _ _ _ _ ND IN). reflexivity.
  Qed.

  Lemma keyword_full : forall t, isKeyword t = true -> t <> [].
  Proof. intros t K ->. discriminate K. Qed.

  Lemma contents_unique : forall its stop, goodItems its stop = true -> (forall kw f p sub, In (Item kw f p sub) its -> exists g, shapeFn ownFn g sub = true) ->
      forall i j l, contents toks pf its i j l -> tok (S j) = b stop -> forall j' l', contents toks pf its i j' l' -> tok (S j') = b stop -> j = j' /\ l = l'.
  Proof.
    intros its stop G SH. unfold goodItems in G. apply andb_true_iff in G. destruct G as [G GK]. apply andb_true_iff in G. destruct G as [GD GS].
    apply distinct_nodup in GD. inversion GD as [|? ? NS ND]; subst. rewrite forallb_forall in GK.
    assert (KI : forall kw f p sub, In (Item kw f p sub) its -> In kw (kws its) /\ isKeyword (b kw) = true).
    { intros kw f p sub I. assert (X : In kw (kws its)) by (apply in_map_iff; exists (Item kw f p sub); auto). split; [exact X|apply GK; exact X]. }
    intros i j l C. induction C as [i|i j l N K C IH|kw f p sub i v k j l IN T R C IH]; intros TS j' l' C' TS'.
    - destruct C' as [|i j' l' N' K' _|kw f p sub i v k j' l' IN T R _].
      + auto.
      + rewrite TS, GS in K'. discriminate.
      + exfalso. apply NS. rewrite TS in T. apply key_inj in T. subst kw. apply (KI _ _ _ _ IN).
    - destruct C' as [|i j' l' N' K' C'|kw f p sub i v k j' l' IN T R _].
      + rewrite TS', GS in K. discriminate.
      + apply IH; assumption.
      + rewrite T, (proj2 (KI _ _ _ _ IN)) in K. discriminate.
    - destruct C' as [|i j' l' N' K' C'|kw' f' p' sub' i v' k' j' l' IN' T' R' C'].
      + exfalso. apply NS. rewrite TS' in T. apply key_inj in T. subst kw. apply (KI _ _ _ _ IN).
      + rewrite T, (proj2 (KI _ _ _ _ IN)) in K'. discriminate.
      + assert (kw = kw') as <- by (apply key_inj; congruence).
        assert (SE : sub = sub').
        { clear -ND IN IN'. induction its as [|[a b c d] its IH]; [destruct IN|]. cbn [kws map] in ND. inversion ND as [|? ? NI ND']; subst.
          destruct IN as [IN|IN], IN' as [IN'|IN'].
          - congruence.
          - injection IN as -> _ _ _. exfalso. apply NI. apply in_map_iff. exists (Item kw f' p' sub'). auto.
          - injection IN' as -> _ _ _. exfalso. apply NI. apply in_map_iff. exists (Item kw f p sub). auto.
          - apply IH; assumption. }
        subst sub'. destruct (SH _ _ _ _ IN) as (g & SG).
        destruct (reads_fun g sub (S i) v k v' k' SG) as [<- <-]; [rewrite T; apply keyword_full; apply (KI _ _ _ _ IN)|exact R|exact R'|].
        destruct (IH TS j' l' C' TS') as [<- <-]. auto.
  Qed.

  (** ** Maps, single parts and lists *)

  Lemma map_members : forall its l ms kw f key, owns its f kw = true -> slot its kw = Some (f, Under key) -> fget f (newMaps ms) = Some (VMap []) ->
      forall k v, A2lModSpec.mget k (fmap f (addMembers its l (newMaps ms))) = Some v <-> exists m, lastOf (called kw key k) l m /\ m_val m = v.
  Proof.
    intros its l ms kw f key OW SL Z k v. unfold addMembers. rewrite (under_entries its f kw key OW SL).
    assert (Z' : A2lModSpec.mget k (fmap f (newMaps ms)) = None) by (unfold fmap; rewrite Z; reflexivity). rewrite Z'.
    set (Q := fun e => e_kw e = kw /\ keyOf key (e_val e) = k).
    assert (H : forall x, In x (map ent l) -> (String.eqb (e_kw x) kw && beqb (keyOf key (e_val x)) k = true <-> Q x)).
    { intros x _. rewrite andb_true_iff, String.eqb_eq, beqb_eq. reflexivity. }
    pose proof (fun e => lastVal_such Q (fun e => String.eqb (e_kw e) kw && beqb (keyOf key (e_val e)) k) (map ent l) e H) as L. destruct (lastVal _ (map ent l)) as [e|].
    - split.
      + intros [= <-]. pose proof (proj1 (L e) eq_refl) as LS. apply last_map in LS. destruct LS as (m & LM & ->). exists m. split; [exact LM|reflexivity].
      + intros (m & LM & <-). assert (LS : lastSuch Q (map ent l) (ent m)) by (apply last_map; exists m; split; [exact LM|reflexivity]). apply L in LS. injection LS as ->. reflexivity.
    - split; [discriminate|]. intros (m & LM & <-). assert (LS : lastSuch Q (map ent l) (ent m)) by (apply last_map; exists m; split; [exact LM|reflexivity]). apply L in LS. discriminate.
  Qed.

  Lemma single_member : forall its l o kw f, owns its f kw = true -> slot its kw = Some (f, Single) ->
      (exists m, lastOf (ofKind kw) l m /\ fget f (addMembers its l o) = Some (m_val m)) \/
      ((forall m, In m l -> m_kw m <> kw) /\ fget f (addMembers its l o) = fget f o).
  Proof.
    intros its l o kw f OW SL. unfold addMembers. rewrite (single_entries its f kw OW SL).
    assert (H : forall x, In x (map ent l) -> (String.eqb (e_kw x) kw = true <-> isKw kw x)) by (intros x _; apply String.eqb_eq).
    pose proof (fun e => lastVal_such (isKw kw) (fun e => String.eqb (e_kw e) kw) (map ent l) e H) as L. destruct (lastVal _ (map ent l)) as [e|] eqn:LV.
    - left. pose proof (proj1 (L e) eq_refl) as LS. apply last_map in LS. destruct LS as (m & LM & ->). exists m. split; [exact LM|reflexivity].
    - right. split; [|reflexivity]. intros m I E. apply lastVal_none in LV. rewrite Forall_forall in LV. specialize (LV (ent m) (in_map _ _ _ I)). cbn [ent e_kw] in LV.
      apply String.eqb_neq in LV. contradiction.
  Qed.

  Lemma several_members : forall its l o kw f, owns its f kw = true -> slot its kw = Some (f, Several) ->
      flist f (addMembers its l o) = flist f o ++ map m_val (filter (fun m => String.eqb (m_kw m) kw) l).
  Proof.
    intros its l o kw f OW SL. unfold addMembers. rewrite (several_entries its f kw OW SL). f_equal. induction l as [|m l IH]; [reflexivity|]. cbn [map filter ent e_kw].
    destruct (String.eqb (m_kw m) kw); cbn [map ent e_val]; rewrite IH; reflexivity.
  Qed.
End Tokens.
