(** From entries to fields. *)
From Coq Require Import String Ascii List Arith NArith ZArith Bool Lia SpecFloat.
From Verif Require Import GoBase GoBaseFacts A2lModStore A2lIR A2lSpec A2lParsers A2lFileThm A2lGrammar A2lForms A2lTripSpec A2lFormProps A2lProps LookModel CompuModel TreeModel TreeSpec.
From Verif Require A2lModSpec ValuesModel.
Import ListNotations.

(** ** Entries and parts *)

Definition slot (its : list item) (kw : string) : option (string * place) :=
  match find (fun i => match i with Item kw' _ _ _ => String.eqb kw kw' end) its with
  | Some (Item _ f p _) => Some (f, p)
  | None => None
  end.
Definition kws (its : list item) : list string := map (fun i => match i with Item kw _ _ _ => kw end) its.
Definition addEntry (its : list item) (o : fields) (e : entry) : fields :=
  match slot its (e_kw e) with Some (f, p) => place_in p f (e_val e) o | None => o end.
Definition addEntries (its : list item) (l : list entry) (o : fields) : fields := fold_left (addEntry its) l o.

Lemma slot_in : forall its kw f p sub, NoDup (kws its) -> In (Item kw f p sub) its -> slot its kw = Some (f, p).
Proof.
  intros its kw f p sub. unfold slot. induction its as [|[kw' f' p' sub'] its IH]; intros ND I; [destruct I|].
  cbn [kws map] in ND. inversion ND as [|? ? N1 N2]; subst. cbn [find]. destruct (String.eqb_spec kw kw') as [<-|NE].
  - destruct I as [I|I]; [congruence|]. exfalso. apply N1. apply in_map_iff. exists (Item kw f p sub). auto.
  - destruct I as [I|I]; [congruence|]. apply IH; assumption.
Qed.

Lemma parts_entries : forall pf its stop ts o o', parts pf its stop ts o o' -> NoDup (kws its) ->
    exists l, entries pf its stop ts l /\ o' = addEntries its l o.
Proof.
  intros pf its stop ts o o' PA ND. induction PA as [its stop o|its stop kw f p sub ts ts' v o o' IN D FO PA IH].
  - exists []. split; [constructor|reflexivity].
  - destruct (IH ND) as (l & E & ->). exists (Entry kw ts v :: l). split; [econstructor; eauto|].
    cbn [addEntries fold_left]. unfold addEntry at 2. cbn [e_kw e_val]. rewrite (slot_in _ _ _ _ _ ND IN). reflexivity.
Qed.
Lemma entries_parts : forall pf its stop ts l, entries pf its stop ts l -> NoDup (kws its) ->
    forall o, parts pf its stop ts o (addEntries its l o).
Proof.
  intros pf its stop ts l E ND. induction E as [|kw f p sub ts ts' v l IN D FO E IH]; intro o; [constructor|].
  cbn [addEntries fold_left]. unfold addEntry at 2. cbn [e_kw e_val]. rewrite (slot_in _ _ _ _ _ ND IN).
  econstructor; eauto.
Qed.

(** ** The last entry *)

Fixpoint lastVal (P : entry -> bool) (l : list entry) : option entry :=
  match l with
  | [] => None
  | e :: l' => match lastVal P l' with Some x => Some x | None => if P e then Some e else None end
  end.
Lemma lastVal_none : forall P l, lastVal P l = None <-> Forall (fun x => P x = false) l.
Proof.
  intros P l. induction l as [|e l IH]; cbn [lastVal]; [split; constructor|]. destruct (lastVal P l) as [x|].
  - split; [discriminate|]. intros F. inversion F; subst. pose proof (proj2 IH H2). discriminate.
  - destruct (P e) eqn:E.
    + split; [discriminate|]. intros F. inversion F; subst. congruence.
    + split; [|reflexivity]. intros _. constructor; [exact E|apply IH; reflexivity].
Qed.
Lemma lastVal_such : forall (Q : entry -> Prop) P l e, (forall x, In x l -> (P x = true <-> Q x)) -> (lastVal P l = Some e <-> lastSuch Q l e).
Proof.
  intros Q P l e. induction l as [|x l IH]; intro H; cbn [lastVal].
  - split; [discriminate|]. intros (l1 & l2 & E & _). destruct l1; discriminate.
  - assert (H' : forall y, In y l -> (P y = true <-> Q y)) by (intros y I; apply H; right; exact I). specialize (IH H').
    destruct (lastVal P l) as [y|] eqn:L.
    + split.
      * intros [= ->]. destruct (proj1 IH eq_refl) as (l1 & l2 & -> & R). exists (x :: l1), l2. auto.
      * intros (l1 & l2 & E & Qe & F). destruct l1 as [|z l1]; injection E as <- E.
        -- exfalso. assert (K : lastVal P l2 = None).
           { apply lastVal_none. apply Forall_forall. intros z I. subst l2. destruct (P z) eqn:PZ; [|reflexivity].
             apply H' in PZ; [|exact I]. rewrite Forall_forall in F. destruct (F z I PZ). }
           congruence.
        -- apply IH. exists l1, l2. auto.
    + assert (NO : forall y, In y l -> ~ Q y).
      { intros y I QY. apply H' in QY; [|exact I]. apply lastVal_none in L. rewrite Forall_forall in L. specialize (L y I). congruence. }
      destruct (P x) eqn:PX.
      * split.
        -- intros [= <-]. exists [], l. split; [reflexivity|]. split; [apply H; [left; reflexivity|exact PX]|]. apply Forall_forall. exact NO.
        -- intros (l1 & l2 & E & Qe & F). destruct l1 as [|z l1]; injection E as <- E; [reflexivity|]. exfalso. apply (NO e); [|exact Qe].
           subst l. apply in_or_app. right. left. reflexivity.
      * split; [discriminate|]. intros (l1 & l2 & E & Qe & F). exfalso. destruct l1 as [|z l1]; injection E as <- E.
        -- apply H in Qe; [congruence|left; reflexivity].
        -- apply (NO e); [|exact Qe]. subst l. apply in_or_app. right. left. reflexivity.
Qed.

(** ** Fields *)

(** only [kw] is stored in the field [f] *)
Definition owns (its : list item) (f kw : string) : bool :=
  forallb (fun i => match i with Item kw' f' _ _ => negb (String.eqb f f') || String.eqb kw kw' end) its.
Lemma owns_other : forall its f kw kw' f' p, owns its f kw = true -> slot its kw' = Some (f', p) -> kw' <> kw -> f <> f'.
Proof.
  intros its f kw kw' f' p O S N ->. unfold slot in S. destruct (find _ its) as [[kw2 f2 p2 sub2]|] eqn:F; [|discriminate].
  injection S as -> ->. apply find_some in F. destruct F as [I E]. apply String.eqb_eq in E. subst kw2.
  unfold owns in O. rewrite forallb_forall in O. specialize (O _ I). cbn in O. rewrite String.eqb_refl in O. cbn in O. apply String.eqb_eq in O. congruence.
Qed.
Lemma place_other : forall p f g v o, f <> g -> fget f (place_in p g v o) = fget f o.
Proof. intros p f g v o N. destruct p; cbn; rewrite fget_fset; destruct (String.eqb_spec f g); congruence. Qed.
Lemma fmap_fget : forall f o o', fget f o = fget f o' -> fmap f o = fmap f o'.
Proof. intros f o o' E. unfold fmap. rewrite E. reflexivity. Qed.

Lemma under_entries : forall its f kw key, owns its f kw = true -> slot its kw = Some (f, Under key) -> forall l o x,
    A2lModSpec.mget x (fmap f (addEntries its l o))
    = match lastVal (fun e => String.eqb (e_kw e) kw && beqb (keyOf key (e_val e)) x) l with
      | Some e => Some (e_val e)
      | None => A2lModSpec.mget x (fmap f o)
      end.
Proof.
  intros its f kw key OW SL l. induction l as [|e l IH]; intros o x; [reflexivity|]. cbn [addEntries fold_left lastVal].
  fold (addEntries its l (addEntry its o e)). rewrite IH. destruct (lastVal _ l) as [y|]; [reflexivity|].
  destruct (String.eqb_spec (e_kw e) kw) as [E|N].
  - unfold addEntry. rewrite E, SL. cbn [place_in]. unfold fmap at 1. rewrite fget_fset, String.eqb_refl. rewrite mget_mput.
    cbn [andb]. destruct (beqb x (keyOf key (e_val e))) eqn:B.
    + apply beqb_eq in B. subst x. rewrite beqb_refl. reflexivity.
    + destruct (beqb (keyOf key (e_val e)) x) eqn:B'; [apply beqb_eq in B'; subst x; rewrite beqb_refl in B; discriminate|reflexivity].
  - cbn [andb]. f_equal. apply fmap_fget. unfold addEntry. destruct (slot its (e_kw e)) as [[f' p]|] eqn:SE; [|reflexivity].
    apply place_other. eapply owns_other; eauto.
Qed.
Lemma single_entries : forall its f kw, owns its f kw = true -> slot its kw = Some (f, Single) -> forall l o,
    fget f (addEntries its l o) = match lastVal (fun e => String.eqb (e_kw e) kw) l with Some e => Some (e_val e) | None => fget f o end.
Proof.
  intros its f kw OW SL l. induction l as [|e l IH]; intro o; [reflexivity|]. cbn [addEntries fold_left lastVal].
  fold (addEntries its l (addEntry its o e)). rewrite IH. destruct (lastVal _ l) as [y|]; [reflexivity|].
  destruct (String.eqb_spec (e_kw e) kw) as [E|N].
  - unfold addEntry. rewrite E, SL. cbn [place_in]. rewrite fget_fset, String.eqb_refl. reflexivity.
  - unfold addEntry. destruct (slot its (e_kw e)) as [[f' p]|] eqn:SE; [|reflexivity].
    apply place_other. eapply owns_other; eauto.
Qed.
Lemma several_entries : forall its f kw, owns its f kw = true -> slot its kw = Some (f, Several) -> forall l o,
    flist f (addEntries its l o) = flist f o ++ map e_val (filter (fun e => String.eqb (e_kw e) kw) l).
Proof.
  intros its f kw OW SL l. induction l as [|e l IH]; intro o; [cbn; rewrite app_nil_r; reflexivity|]. cbn [addEntries fold_left filter].
  fold (addEntries its l (addEntry its o e)). rewrite IH.
  destruct (String.eqb_spec (e_kw e) kw) as [E|N].
  - unfold addEntry. rewrite E, SL. cbn [place_in]. unfold flist at 1. rewrite fget_fset, String.eqb_refl. cbn [map]. rewrite <- app_assoc. reflexivity.
  - f_equal. unfold flist. unfold addEntry. destruct (slot its (e_kw e)) as [[f' p]|] eqn:SE; [|reflexivity].
    rewrite place_other; [reflexivity|]. eapply owns_other; eauto.
Qed.
Lemma unowned : forall its f, forallb (fun i => match i with Item _ f' _ _ => negb (String.eqb f f') end) its = true -> forall l o, fget f (addEntries its l o) = fget f o.
Proof.
  intros its f F l. induction l as [|e l IH]; intro o; [reflexivity|]. cbn [addEntries fold_left]. fold (addEntries its l (addEntry its o e)). rewrite IH.
  unfold addEntry, slot. destruct (find _ its) as [[kw2 f2 p2 sub2]|] eqn:FI; [|reflexivity]. apply find_some in FI. destruct FI as [I _].
  rewrite forallb_forall in F. specialize (F _ I). cbn in F. apply place_other. intros ->. rewrite String.eqb_refl in F. discriminate.
Qed.

(** ** Parameters *)

Definition spares (f : string) (p : param) : bool :=
  negb (String.eqb f (p_field p)) && match p_flag p with Some g => negb (String.eqb f g) | None => true end.
Lemma store_other : forall f m o p v, spares f p = true -> fget f (store m o (p, v)) = fget f o.
Proof.
  intros f m o p v S. unfold spares in S. apply andb_true_iff in S. destruct S as [S1 S2]. unfold store. cbn [fst snd].
  assert (N : f <> p_field p) by (intros ->; rewrite String.eqb_refl in S1; discriminate).
  assert (P : fget f (put (p_how p) (p_field p) v o) = fget f o).
  { destruct (p_how p); cbn; try reflexivity; rewrite fget_fset; destruct (String.eqb_spec f (p_field p)); congruence. }
  destruct m; [|exact P]. unfold mark. revert S2. destruct (p_flag p) as [g|]; intro S2; [|exact P].
  rewrite fget_fset. apply negb_true_iff in S2. rewrite S2. exact P.
Qed.
Lemma stores_other : forall f m ps vs o, forallb (spares f) ps = true -> fget f (stores m ps vs o) = fget f o.
Proof.
  intros f m ps. induction ps as [|p ps IH]; intros vs o S; [reflexivity|]. cbn [forallb] in S. apply andb_true_iff in S. destruct S as [S1 S2].
  destruct vs as [|v vs]; [reflexivity|]. unfold stores. cbn [combine fold_left]. fold (stores m ps vs (store m o (p, v))).
  rewrite IH by exact S2. apply store_other. exact S1.
Qed.
Lemma repeats_other : forall pf stop m ps n ts o o' f, repeats pf stop m ps n ts o o' -> forallb (spares f) ps = true -> fget f o' = fget f o.
Proof.
  intros pf stop m ps n ts o o' f R S. induction R as [o|n ts ts' vs o o' W R IH]; [reflexivity|]. rewrite IH. apply stores_other. exact S.
Qed.
Definition groupParams (g : group) : list param := match g with NoGroup => [] | Free ps => ps | Counted _ ps => ps end.
Lemma repeated_other : forall pf stop g ts o o' f, repeated pf stop g ts o o' -> forallb (spares f) (groupParams g) = true -> fget f o' = fget f o.
Proof.
  intros pf stop g ts o o' f R S. destruct g as [|ps|c ps]; cbn [repeated groupParams] in *.
  - destruct R as [_ ->]. reflexivity.
  - destruct R as [n R]. eapply repeats_other; eauto.
  - destruct R as (n & _ & _ & _ & R). eapply repeats_other; eauto.
Qed.
Lemma consts_other : forall f cs o, forallb (fun fc => negb (String.eqb f (fst fc))) cs = true -> fget f (consts cs o) = fget f o.
Proof.
  intros f cs. induction cs as [|[g c] cs IH]; intros o S; [reflexivity|]. cbn [forallb fst] in S. apply andb_true_iff in S. destruct S as [S1 S2].
  unfold consts. cbn [fold_left fst snd]. fold (consts cs (fset g (cval c) o)). rewrite IH by exact S2. rewrite fget_fset.
  apply negb_true_iff in S1. rewrite S1. reflexivity.
Qed.
Lemma parts_other : forall pf its stop ts o o' f, parts pf its stop ts o o' ->
    forallb (fun i => match i with Item _ f' _ _ => negb (String.eqb f f') end) its = true -> fget f o' = fget f o.
Proof.
  intros pf its stop ts o o' f PA S. induction PA as [|its stop kw f' p sub ts ts' v o o' IN D FO PA IH]; [reflexivity|].
  rewrite IH by exact S. rewrite forallb_forall in S. specialize (S _ IN). cbn in S. apply place_other. intros ->. rewrite String.eqb_refl in S. discriminate.
Qed.

(** ** The name is the first word *)

Definition plainText (key : string) (p : param) : bool :=
  match p with
  | Param One f (Some g) Text => String.eqb f key && negb (String.eqb g key)
  | Param One f None Text => String.eqb f key
  | _ => false
  end.
Definition headed (key : string) (f : form) : bool :=
  match f with
  | Fixed (p :: ps) cs => plainText key p && forallb (spares key) ps && forallb (fun fc => negb (String.eqb key (fst fc))) cs
  | Block _ (p :: ps) g its _ cs =>
      plainText key p && forallb (spares key) ps && forallb (spares key) (groupParams g)
      && forallb (fun i => match i with Item _ f' _ _ => negb (String.eqb key f') end) its && forallb (fun fc => negb (String.eqb key (fst fc))) cs
  | _ => false
  end.

Lemma plainText_store : forall pf stop key p ps ts vs o, plainText key p = true -> forallb (spares key) ps = true -> words pf stop (p :: ps) ts vs ->
    fget key (stores true (p :: ps) vs o) = Some (VStr (hd [] ts)).
Proof.
  intros pf stop key p ps ts vs o P S W. inversion W as [|p0 ps0 t ts0 v vs0 ST W']; subst.
  unfold stores. cbn [combine fold_left]. fold (stores true ps vs0 (store true o (p, v))). rewrite stores_other by exact S.
  destruct p as [h f g ty]. cbn [p_type] in ST. destruct h; try discriminate. destruct ty; try (destruct g; discriminate).
  destruct ST as (_ & _ & ->). unfold store. cbn [fst snd p_how p_field p_flag put hd]. destruct g as [g|]; cbn [plainText mark] in *.
  - apply andb_true_iff in P. destruct P as [P1 P2]. apply String.eqb_eq in P1. subst f. rewrite fget_fset.
    apply negb_true_iff in P2. rewrite String.eqb_sym in P2. rewrite P2. rewrite fget_fset, String.eqb_refl. reflexivity.
  - apply String.eqb_eq in P. subst f. rewrite fget_fset, String.eqb_refl. reflexivity.
Qed.

Lemma den_name : forall pf key f ts v, headed key f = true -> den pf f ts v -> keyOf key v = hd [] ts.
Proof.
  intros pf key f ts v H D. destruct D as [ty t v ST|ps cs ts vs W|ps gs cs nexts ts ts' vs o W R|ms ps g its stop cs ts ts' ts'' vs o o' W R PA]; try discriminate.
  - destruct ps as [|p ps]; [discriminate|]. cbn [headed] in H. rewrite !andb_true_iff in H. destruct H as [[H1 H2] H3].
    cbn [keyOf]. unfold fstr. rewrite consts_other by exact H3. rewrite (plainText_store _ _ _ _ _ _ _ _ H1 H2 W). reflexivity.
  - destruct ps as [|p ps]; [discriminate|]. cbn [headed] in H. rewrite !andb_true_iff in H. destruct H as [[[[H1 H2] H3] H4] H5].
    cbn [keyOf]. unfold fstr. rewrite consts_other by exact H5. rewrite (parts_other _ _ _ _ _ _ _ PA H4). rewrite (repeated_other _ _ _ _ _ _ _ R H3).
    rewrite (plainText_store _ _ _ _ _ _ _ _ H1 H2 W). inversion W; subst. reflexivity.
Qed.

(** all objects of the kind have their name in [key] *)
Definition headedAll (its : list item) (kw key : string) : bool :=
  forallb (fun i => match i with Item kw' _ _ sub => negb (String.eqb kw kw') || headed key sub end) its.
Lemma entries_name : forall pf its stop ts l kw key, entries pf its stop ts l -> headedAll its kw key = true ->
    forall e, In e l -> e_kw e = kw -> keyOf key (e_val e) = hd [] (e_words e).
Proof.
  intros pf its stop ts l kw key E H. induction E as [|kw' f p sub ts ts' v l IN D FO E IH]; intros e I K; [destruct I|].
  destruct I as [<-|I]; [|apply IH; assumption]. cbn [e_kw e_val e_words] in *. subst kw'.
  unfold headedAll in H. rewrite forallb_forall in H. specialize (H _ IN). cbn in H. rewrite String.eqb_refl in H. cbn in H.
  eapply den_name; eauto.
Qed.

(** ** Modules *)

Lemma NoDup_b : forall l : list string, (fix nd (l : list string) : bool := match l with [] => true | x :: l' => negb (existsb (String.eqb x) l') && nd l' end) l = true -> NoDup l.
Proof.
  induction l as [|x l IH]; intro H; [constructor|]. apply andb_true_iff in H. destruct H as [H1 H2]. constructor; [|apply IH; exact H2].
  intro I. apply negb_true_iff in H1. assert (existsb (String.eqb x) l = true) by (apply existsb_exists; exists x; split; [exact I|apply String.eqb_refl]). congruence.
Qed.
Ltac nodup := apply NoDup_b; vm_compute; reflexivity.

(** the keywords of blocks are not what ends the blocks, and words determine what they describe *)
Lemma den_unique : forall name f g pf ts v v', In (name, f) readForms -> In (name, g) allParsers -> (forall t, follows f t = true) ->
    den pf f ts v -> den pf f ts v' -> v = v'.
Proof.
  intros name f g pf ts v v' I1 I2 F D D'.
  pose proof (C64_reads name f g pf ts v I1 I2 D [] (b "x") [[]] ltac:(discriminate) ltac:(exists []; reflexivity) (F _)) as R.
  pose proof (C64_reads name f g pf ts v' I1 I2 D' [] (b "x") [[]] ltac:(discriminate) ltac:(exists []; reflexivity) (F _)) as R'.
  destruct (returns_fun _ _ _ _ _ _ _ _ _ _ R R') as (E & _). exact E.
Qed.

(** ** Blocks without repetitions *)

Lemma block_entries : forall name g pf ms ps its stop cs ts v, In (name, Block ms ps NoGroup its stop cs) readForms -> In (name, g) allParsers ->
    NoDup (kws its) -> den pf (Block ms ps NoGroup its stop cs) ts v ->
    exists ws vs c, ts = ws ++ c ++ [b stop] /\ words pf stop ps ws vs
      /\ (exists l, entries pf its stop c l)
      /\ forall l, entries pf its stop c l -> v = VObj (consts cs (addEntries its l (stores true ps vs (newMaps ms)))).
Proof.
  intros name g pf ms ps its stop cs ts v I1 I2 ND D. pose proof D as D0. inversion D as [| | |? ? ? ? ? ? ws ts' c vs o o' W R PA]; subst.
  destruct R as [-> ->]. cbn [app]. exists ws, vs, c. split; [reflexivity|]. split; [exact W|]. split.
  - destruct (parts_entries _ _ _ _ _ _ PA ND) as (l & E & _). eauto.
  - intros l E. refine (den_unique name _ g pf _ _ _ I1 I2 (fun t => eq_refl) D0 _).
    refine (d_block pf ms ps NoGroup its stop cs ws [] c vs _ _ W (conj eq_refl eq_refl) _). apply entries_parts; assumption.
Qed.

Lemma words_length : forall pf stop ps ts vs, words pf stop ps ts vs -> length ts = length ps.
Proof. intros pf stop ps ts vs W. induction W; cbn; congruence. Qed.

(** with the form of the parameters used up *)
Lemma ends_with : forall (A : Type) (c c' : list A) x y, c ++ [x] = c' ++ [y] -> c = c' /\ x = y.
Proof. intros A c c' x y E. apply app_inj_tail in E. exact E. Qed.

Definition moduleMapsOf : list string := match moduleRead with Block ms _ _ _ _ _ => ms | _ => [] end.
Definition moduleParams : list param := match moduleRead with Block _ ps _ _ _ _ => ps | _ => [] end.
Lemma module_entries : forall pf ts v, den pf moduleRead ts v ->
    (exists l, moduleHas pf ts l) /\
    forall l, moduleHas pf ts l -> exists vs, v = VObj (addEntries (itemsOf moduleRead) l (stores true moduleParams vs (newMaps moduleMapsOf))).
Proof.
  intros pf ts v D. destruct (block_entries "parseModule" parseModule pf moduleMapsOf moduleParams (itemsOf moduleRead) "/end MODULE" [] ts v) as (ws & vs & c & E & W & (l0 & X) & U);
    [listed|listed|nodup|exact D|]. pose proof (words_length _ _ _ _ _ W) as L. cbn in L. destruct ws as [|w1 [|w2 [|]]]; try discriminate. subst ts. split.
  - exists l0, w1, w2, c. split; [reflexivity|exact X].
  - intros l (n & lg & c' & E & X'). injection E as <- <- E. destruct (ends_with _ _ _ _ _ E) as [<- _]. exists vs. rewrite (U l X'). reflexivity.
Qed.
Definition modParParams : list param := match modParRead with Block _ ps _ _ _ _ => ps | _ => [] end.
Definition modParMaps : list string := match modParRead with Block ms _ _ _ _ _ => ms | _ => [] end.
Lemma modPar_entries : forall pf ts v, den pf modParRead ts v ->
    (exists l, modParHas pf ts l) /\
    forall l, modParHas pf ts l -> exists vs, v = VObj (addEntries (itemsOf modParRead) l (stores true modParParams vs (newMaps modParMaps))).
Proof.
  intros pf ts v D. destruct (block_entries "parseModPar" parseModPar pf modParMaps modParParams (itemsOf modParRead) "/end MOD_PAR" [] ts v) as (ws & vs & c & E & W & (l0 & X) & U);
    [listed|listed|nodup|exact D|]. pose proof (words_length _ _ _ _ _ W) as L. cbn in L. destruct ws as [|w1 [|]]; try discriminate. subst ts. split.
  - exists l0, w1, c. split; [reflexivity|exact X].
  - intros l (n & c' & E & X'). injection E as <- E. destruct (ends_with _ _ _ _ _ E) as [<- _]. exists vs. rewrite (U l X'). reflexivity.
Qed.
Definition projectParams : list param := match projectRead with Block _ ps _ _ _ _ => ps | _ => [] end.
Lemma project_entries : forall pf ts v, den pf projectRead ts v ->
    (exists l, projectHas pf ts l) /\
    forall l, projectHas pf ts l -> exists vs, v = VObj (addEntries (itemsOf projectRead) l (stores true projectParams vs [])).
Proof.
  intros pf ts v D. destruct (block_entries "parseProject" parseProject pf [] projectParams (itemsOf projectRead) "/end PROJECT" [] ts v) as (ws & vs & c & E & W & (l0 & X) & U);
    [listed|listed|nodup|exact D|]. pose proof (words_length _ _ _ _ _ W) as L. cbn in L. destruct ws as [|w1 [|w2 [|]]]; try discriminate. subst ts. split.
  - exists l0, w1, w2, c. split; [reflexivity|exact X].
  - intros l (n & lg & c' & E & X'). injection E as <- <- E. destruct (ends_with _ _ _ _ _ E) as [<- _]. exists vs. rewrite (U l X'). reflexivity.
Qed.
