From Coq Require Import String Ascii List Arith NArith Bool Lia.
From Verif Require Import GoBase GoBaseFacts GoStrings ConcModel HexSpec IhexSpec IhexModel IhexThm SrecModel SrecProofs
  SrecSpec SrecThm CalibModel CalibProofs CalibSpec.
Import ListNotations.

Lemma prefixb_iff : forall p s, prefixb p s = true <-> exists q, s = p ++ q.
Proof.
  induction p as [|c p IH]; intros s; cbn [prefixb].
  - split; [exists s; reflexivity|reflexivity].
  - destruct s as [|d s]; [split; [discriminate|intros [q Hq]; discriminate]|].
    rewrite andb_true_iff, Ascii.eqb_eq, IH. split.
    + intros [-> [q ->]]. exists q. reflexivity.
    + intros [q Hq]. inversion Hq; subst. split; [reflexivity|exists q; reflexivity].
Qed.

Lemma containsb_iff : forall p s, containsb p s = true <-> occurs p s.
Proof.
  intros p. induction s as [|c s IH]; cbn [containsb]; rewrite orb_true_iff, prefixb_iff; split.
  - intros [[q ->]|H]; [exists [], q; reflexivity|discriminate].
  - intros (p0 & q & Hq). left. destruct p0; [exists q; exact Hq|discriminate].
  - intros [[q Hq]|H]; [exists [], q; exact Hq|]. apply IH in H. destruct H as (p0 & q & ->). exists (c :: p0), q. reflexivity.
  - intros (p0 & q & Hq). destruct p0 as [|d p0]; [left; exists q; exact Hq|right].
    inversion Hq; subst. apply IH. exists p0, q. reflexivity.
Qed.

Lemma lower_ascii_spec : forall c, N_of_ascii (lower_ascii c) =
    (let n := N_of_ascii c in if ((65 <=? n) && (n <=? 90))%N then (n + 32)%N else n).
Proof. intros [[] [] [] [] [] [] [] []]; vm_compute; reflexivity. Qed.

Lemma to_lower_spec : forall s s', lowered s s' <-> s' = to_lower s.
Proof.
  intros s s'. unfold lowered, to_lower. split.
  - intros H. induction H as [|c c' s s' Hc H IH]; [reflexivity|]. cbn [map]. f_equal; [|exact IH].
    rewrite <- (ascii_N_embedding c'), <- (ascii_N_embedding (lower_ascii c)), lower_ascii_spec, Hc. reflexivity.
  - intros ->. induction s as [|c s IH]; constructor; [apply lower_ascii_spec|exact IH].
Qed.

Lemma hexKind_spec : forall path low, lowered path low ->
    (hexKindOf path = KIhex <-> occurs (b ".hex") low)
    /\ (hexKindOf path = KSrec <-> ~ occurs (b ".hex") low /\ occurs (b ".s19") low)
    /\ (hexKindOf path = KNone <-> ~ occurs (b ".hex") low /\ ~ occurs (b ".s19") low).
Proof.
  intros path low Hl. apply to_lower_spec in Hl. subst low. unfold hexKindOf.
  rewrite <- !containsb_iff.
  destruct (containsb (b ".hex") (to_lower path)), (containsb (b ".s19") (to_lower path));
    repeat split; intros;
    repeat match goal with K : _ /\ _ |- _ => destruct K end; try reflexivity; try discriminate;
    match goal with K : ~ (true = true) |- _ => exfalso; apply K; reflexivity end.
Qed.

Lemma lower_dot : forall c, lower_ascii c = "."%char <-> c = "."%char.
Proof. intros [[] [] [] [] [] [] [] []]; vm_compute; split; intros H; (discriminate || reflexivity). Qed.

Lemma lower_app : forall s1 s2, to_lower (s1 ++ s2) = to_lower s1 ++ to_lower s2.
Proof. intros. apply map_app. Qed.

Lemma lower_no_dot : forall s, ~ In "."%char s -> ~ In "."%char (to_lower s).
Proof. intros s H Hin. apply in_map_iff in Hin. destruct Hin as (c & Hc & Hi). apply (proj1 (lower_dot c)) in Hc. rewrite Hc in Hi. exact (H Hi). Qed.

Lemma split_at_dot : forall s1 s2 p q : bytes, ~ In "."%char s1 -> ~ In "."%char s2 ->
    s1 ++ "."%char :: s2 = p ++ "."%char :: q -> p = s1 /\ q = s2.
Proof.
  induction s1 as [|c s1 IH]; intros s2 p q H1 H2 E.
  - destruct p as [|d p]; [inversion E; auto|]. inversion E; subst. exfalso. apply H2, in_or_app. right; left; reflexivity.
  - destruct p as [|d p].
    + inversion E; subst. exfalso. apply H1. left; reflexivity.
    + inversion E; subst. destruct (IH s2 p q) as [-> ->]; auto. intros H. apply H1. right; exact H.
Qed.

Lemma ext_guarded : forall stem x low, ~ In "."%char stem -> ~ In "."%char x -> List.length x = 3 -> lowered x low ->
    hexKindOf (stem ++ "."%char :: x) =
      (if list_eq_dec ascii_dec low (b "hex") then KIhex
       else if list_eq_dec ascii_dec low (b "s19") then KSrec else KNone).
Proof.
  intros stem x low H1 H2 Hl Hx. apply to_lower_spec in Hx. subst low.
  assert (Hlow : to_lower (stem ++ "."%char :: x) = to_lower stem ++ "."%char :: to_lower x) by apply lower_app.
  pose proof (hexKind_spec (stem ++ "."%char :: x) _ (proj2 (to_lower_spec _ _) eq_refl)) as (K1 & K2 & K3).
  rewrite Hlow in K1, K2, K3.
  assert (Hl' : List.length (to_lower x) = 3) by (unfold to_lower; rewrite map_length; exact Hl).
  assert (O : forall e, List.length e = 3 -> (occurs ("."%char :: e) (to_lower stem ++ "."%char :: to_lower x) <-> to_lower x = e)).
  { intros e He. split.
    - intros (p & q & E). cbn [app] in E. apply split_at_dot in E; try (apply lower_no_dot; assumption).
      destruct E as [_ E]. rewrite <- E in Hl'. rewrite app_length in Hl'. destruct q; [rewrite app_nil_r in E; auto|cbn in Hl'; lia].
    - intros E. exists (to_lower stem), []. rewrite app_nil_r, E. reflexivity. }
  change (b ".hex") with ("."%char :: b "hex") in *. change (b ".s19") with ("."%char :: b "s19") in *.
  rewrite (O (b "hex") eq_refl), (O (b "s19") eq_refl) in *.
  destruct (list_eq_dec ascii_dec (to_lower x) (b "hex")) as [E|E]; [apply K1, E|].
  destruct (list_eq_dec ascii_dec (to_lower x) (b "s19")) as [E2|E2]; [apply K2; auto|apply K3; auto].
Qed.

(** ** From files to maps *)

Lemma always_impl : forall X (R : X -> Prop) (P Q : X -> Prop), (forall x, P x -> Q x) -> always R P -> always R Q.
Proof. intros X R P Q H [H1 H2]. split; [exact H1|]. intros r Hr. apply H, H2, Hr. Qed.

Lemma hexOut_ihex : forall EA np path text P, hexKindOf path = KIhex ->
    always (parseFile_exec np text) (fun r => exists m, r = Ok (m, None) /\ P m) ->
    always (@hexOut EA np path (Some text)) (fun r => exists m, r = Ok m /\ P m).
Proof.
  intros EA np path text P Hk [[o Ho] Hall]. unfold hexOut. rewrite Hk. split.
  - destruct (Hall o Ho) as (m & -> & Hp). exists (Ok m). exists (Ok (m, None)). auto.
  - intros r (o' & Ho' & ->). destruct (Hall o' Ho') as (m & -> & Hp). eauto.
Qed.

Lemma hexOut_srec : forall EA np path text P, hexKindOf path = KSrec ->
    always (s_parseFile_exec np text) (fun r => exists m, r = Ok (m, None) /\ P m) ->
    always (@hexOut EA np path (Some text)) (fun r => exists m, r = Ok m /\ P m).
Proof.
  intros EA np path text P Hk [[o Ho] Hall]. unfold hexOut. rewrite Hk. split.
  - destruct (Hall o Ho) as (m & -> & Hp). exists (Ok m). exists (Ok (m, None)). auto.
  - intros r (o' & Ho' & ->). destruct (Hall o' Ho') as (m & -> & Hp). eauto.
Qed.

Lemma hexOut_total : forall EA np path file, 0 < np ->
    (exists r, @hexOut EA np path file r) /\ forall r, @hexOut EA np path file r -> r <> Panic.
Proof.
  intros EA np path file Hnp. unfold hexOut.
  assert (HI : forall text, exists m e, always (parseFile_exec np text) (fun r => r = Ok (m, e))).
  { intros text. apply (ihex_completes np text Hnp). }
  assert (HS : forall text, exists m e, always (s_parseFile_exec np text) (fun r => r = Ok (m, e))).
  { intros text. apply (srec_completes np text Hnp). }
  destruct (hexKindOf path); [| |split; [eauto|intros r ->; discriminate]];
    (destruct file as [text|]; [|split; [eauto|intros r ->; discriminate]]).
  - destruct (HI text) as (m & e & [[o Ho] Ha]). split; [do 2 eexists; split; [exact Ho|reflexivity]|].
    intros r (o' & Ho' & ->). rewrite (Ha _ Ho'). destruct e; discriminate.
  - destruct (HS text) as (m & e & [[o Ho] Ha]). split; [do 2 eexists; split; [exact Ho|reflexivity]|].
    intros r (o' & Ho' & ->). rewrite (Ha _ Ho'). destruct e; discriminate.
Qed.

Lemma read_ok : forall A H E (RA : outcome E A -> Prop) (RH : outcome E H -> Prop) PA PH,
    always RA (fun r => exists a, r = Ok a /\ PA a) -> always RH (fun r => exists m, r = Ok m /\ PH m) ->
    always (readCalibration RA RH None)
      (fun r => exists a m, r = RReturned (CD (Some a) (Some m)) None /\ PA a /\ PH m).
Proof.
  intros A H E RA RH PA PH [[oa Ha] Alla] [[oh Hh] Allh]. split.
  - destruct (Alla _ Ha) as (a & -> & _). destruct (Allh _ Hh) as (m & -> & _).
    eexists. apply rc_results. left. eauto.
  - intros r Hr. apply rc_results in Hr. destruct Hr as [(x & y & H1 & H2 & ->)|[(e & Hd & _)|(Hp & _)]].
    + destruct (Alla _ H1) as (a & E1 & P1). destruct (Allh _ H2) as (m & E2 & P2).
      inversion E1; inversion E2; subst. eauto.
    + exfalso. destruct Hd as [[H1 _]|[H1 _]]; [destruct (Alla _ H1) as (? & E1 & _)|destruct (Allh _ H1) as (? & E1 & _)]; discriminate.
    + exfalso. destruct Hp as [H1|H1]; [destruct (Alla _ H1) as (? & E1 & _)|destruct (Allh _ H1) as (? & E1 & _)]; discriminate.
Qed.

Lemma hexOut_ihex_err : forall EA np path text (P : herr -> Prop), hexKindOf path = KIhex ->
    always (parseFile_exec np text) (fun r => exists m e, r = Ok (m, Some e) /\ P e) ->
    always (@hexOut EA np path (Some text)) (fun r => exists e, r = Err (CEHex e) /\ P e).
Proof.
  intros EA np path text P Hk [[o Ho] Hall]. unfold hexOut. rewrite Hk. split.
  - destruct (Hall o Ho) as (m & e & -> & Hp). exists (Err (CEHex e)). exists (Ok (m, Some e)). auto.
  - intros r (o' & Ho' & ->). destruct (Hall o' Ho') as (m & e & -> & Hp). eauto.
Qed.

Lemma hexOut_srec_err : forall EA np path text (P : herr -> Prop), hexKindOf path = KSrec ->
    always (s_parseFile_exec np text) (fun r => exists m e, r = Ok (m, Some e) /\ P e) ->
    always (@hexOut EA np path (Some text)) (fun r => exists e, r = Err (CEHex e) /\ P e).
Proof.
  intros EA np path text P Hk [[o Ho] Hall]. unfold hexOut. rewrite Hk. split.
  - destruct (Hall o Ho) as (m & e & -> & Hp). exists (Err (CEHex e)). exists (Ok (m, Some e)). auto.
  - intros r (o' & Ho' & ->). destruct (Hall o' Ho') as (m & e & -> & Hp). eauto.
Qed.

Lemma read_err : forall A H E (RA : outcome E A -> Prop) (RH : outcome E H -> Prop) (PE : E -> Prop),
    always RA (fun r => exists a, r = Ok a) -> always RH (fun r => exists e, r = Err e /\ PE e) ->
    always (readCalibration RA RH None) (fun r => exists e, r = RReturned (CD None None) (Some e) /\ PE e).
Proof.
  intros A H E RA RH PE [[oa Ha] Alla] [[oh Hh] Allh]. split.
  - destruct (Alla _ Ha) as (a & ->). destruct (Allh _ Hh) as (e & -> & _).
    eexists. apply rc_results. right; left. exists e. split; [right; split; [exact Hh|exists (inl a); exact Ha]|reflexivity].
  - intros r Hr. apply rc_results in Hr. destruct Hr as [(x & y & H1 & H2 & ->)|[(e & Hd & ->)|(Hp & _)]].
    + destruct (Allh _ H2) as (e & E2 & _). discriminate.
    + destruct Hd as [[H1 _]|[H1 _]]; [destruct (Alla _ H1) as (? & E1); discriminate|].
      destruct (Allh _ H1) as (e' & E1 & P). injection E1 as <-. eauto.
    + exfalso. destruct Hp as [H1|H1]; [destruct (Alla _ H1) as (? & E1)|destruct (Allh _ H1) as (? & E1 & _)]; discriminate.
Qed.

Lemma read_ihex : forall EA A np RA (PA : A -> Prop) path t items, 0 < np -> hexKindOf path = KIhex ->
    always RA (fun r => exists a, r = Ok a /\ PA a) ->
    Forall item_ok items -> zero_upper_last (items_recs items) -> NoDup (map fst (image (items_recs items))) ->
    always (@readCalibrationFiles EA A np true RA path (Some (ifile t items)))
      (fun r => exists a m, r = RReturned (CD (Some a) (Some m)) None /\ PA a /\ map_is m (image (items_recs items))).
Proof.
  intros EA A np RA PA path t items Hnp Hk Ha Hi Hz Hn. unfold readCalibrationFiles.
  apply (read_ok _ _ _ RA _ PA (fun m => map_is m (image (items_recs items))) Ha).
  apply hexOut_ihex; [exact Hk|]. apply ihex_round_trip; assumption.
Qed.

Lemma read_srec : forall EA A np RA (PA : A -> Prop) path t items tail, 0 < np -> hexKindOf path = KSrec ->
    always RA (fun r => exists a, r = Ok a /\ PA a) ->
    Forall sitem_ok items -> Forall not_s3 tail -> NoDup (map fst (s3image (sitems_recs items))) ->
    always (@readCalibrationFiles EA A np true RA path (Some (sfile t items tail)))
      (fun r => exists a m, r = RReturned (CD (Some a) (Some m)) None /\ PA a /\ map_is m (s3image (sitems_recs items))).
Proof.
  intros EA A np RA PA path t items tail Hnp Hk Ha Hi Ht Hn. unfold readCalibrationFiles.
  apply (read_ok _ _ _ RA _ PA (fun m => map_is m (s3image (sitems_recs items))) Ha).
  apply hexOut_srec; [exact Hk|]. apply srec_round_trip; assumption.
Qed.

(** The reader as a whole: one outcome per schedule of the caller and its two
    reader goroutines, with deterministic readers [oa] and [oh]. *)
Lemma rc_det : forall A H E (oa : outcome E A) (oh : outcome E H), oa <> Panic -> oh <> Panic ->
    always (readCalibration (fun r => r = oa) (fun r => r = oh) None)
      (fun r => match oa, oh with
                | Ok a, Ok m => r = RReturned (CD (Some a) (Some m)) None
                | Err e, Ok _ | Ok _, Err e => r = RReturned (CD None None) (Some e)
                | Err e1, Err e2 => r = RReturned (CD None None) (Some e1) \/ r = RReturned (CD None None) (Some e2)
                | _, _ => False
                end).
Proof.
  intros A H E oa oh Ha Hh. split.
  - destruct oa as [a|e|]; [| |congruence]; (destruct oh as [m|e2|]; [| |congruence]).
    + eexists. apply rc_results. left. eauto.
    + eexists. apply rc_results. right; left. exists e2. split; [right; split; [reflexivity|exists (inl a); reflexivity]|reflexivity].
    + eexists. apply rc_results. right; left. exists e. split; [left; split; [reflexivity|exists (inl m); reflexivity]|reflexivity].
    + eexists. apply rc_results. right; left. exists e. split; [left; split; [reflexivity|exists (inr e2); reflexivity]|reflexivity].
  - intros r Hr. apply rc_results in Hr. destruct Hr as [(x & y & E1 & E2 & ->)|[(e & Hd & ->)|(Hp & _)]].
    + rewrite <- E1, <- E2. reflexivity.
    + destruct Hd as [[E1 [[m|e2] E2]]|[E1 [[a|e2] E2]]]; cbn in E2; rewrite <- E1, <- E2; auto.
    + destruct Hp; congruence.
Qed.

Lemma rc_err_both : forall A H E (e1 e2 : E),
    readCalibration (fun r => r = @Err E A e1) (fun r => r = @Err E H e2) None (RReturned (CD None None) (Some e1))
    /\ readCalibration (fun r => r = @Err E A e1) (fun r => r = @Err E H e2) None (RReturned (CD None None) (Some e2)).
Proof.
  intros A H E e1 e2. split; apply rc_results; right; left.
  - exists e1. split; [left; split; [reflexivity|exists (inr e2); reflexivity]|reflexivity].
  - exists e2. split; [right; split; [reflexivity|exists (inr e1); reflexivity]|reflexivity].
Qed.
