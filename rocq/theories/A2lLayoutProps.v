(** Positions (C49) and data types (C50) of the components of a record layout. *)
From Coq Require Import String List ZArith Bool Lia.
From Verif Require Import GoBase GoBaseFacts A2lIR A2lTokens A2lParsers A2lLayoutModel A2lLayoutSpec.
Import ListNotations.

Lemma pbool_flag : forall rl c m, pbool (c, m) rl = true <-> flag rl c m.
Proof.
  intros rl c m. unfold pbool, flag, member, part, fbool. cbn. destruct (fget c rl) as [[]|]; cbn; try (split; discriminate).
  destruct (fget m fields) as [[]|]; cbn; try (split; discriminate). split; [intros ->; reflexivity|injection 1; auto].
Qed.
Lemma pint_number : forall rl c m, pint (c, m) rl = number rl c m.
Proof. intros rl c m. unfold pint, number, member, part, fint. cbn. destruct (fget c rl) as [[]|]; reflexivity. Qed.
Lemma pstr_text : forall rl c m, pstr (c, m) rl = text rl c m.
Proof. intros rl c m. unfold pstr, text, member, part, fstr. cbn. destruct (fget c rl) as [[]|]; reflexivity. Qed.

(** The tables contain one row for every component, with its own names. *)
Definition own (c : string) : block :=
  let g := (if hidden c then "positionSet" else "PositionSet")%string in
  let p := (if hidden c then "position" else "Position")%string in
  Block (c, g) (c, p) (c, p) c.
Definition owntype (c : string) : dcase :=
  DCase c (c, if hidden c then "datatypeSet" else "DatatypeSet")%string (c, if hidden c then "datatype" else "Datatype")%string.

Lemma blocks_own : blocks = map own (map b_name blocks).
Proof. vm_compute. reflexivity. Qed.
Lemma cases_own : cases = map owntype (map d_case cases).
Proof. vm_compute. reflexivity. Qed.

Definition within (l m : list string) : bool := forallb (fun x => existsb (String.eqb x) m) l.
Lemma within_ok : forall l m, within l m = true -> incl l m.
Proof.
  intros l m H x I. pose proof (proj1 (forallb_forall _ _) H x I) as E. apply existsb_exists in E. destruct E as (y & J & E).
  apply String.eqb_eq in E. subst y. exact J.
Qed.
Lemma blocks_all : forall c, In c components <-> In c (map b_name blocks).
Proof. intros c. split; apply within_ok; vm_compute; reflexivity. Qed.
Lemma cases_all : forall c, In c components /\ c <> "Reserved"%string <-> In c (map d_case cases).
Proof.
  intros c. split.
  - intros [I N]. assert (In c (remove string_dec "Reserved"%string components)) as J by (apply in_in_remove; assumption).
    revert c J I N. intros c J _ _. revert c J. apply within_ok. vm_compute. reflexivity.
  - intros I. split; [revert c I; apply within_ok; vm_compute; reflexivity|].
    intros ->. assert (F : existsb (String.eqb "Reserved") (map d_case cases) = false) by (vm_compute; reflexivity).
    rewrite <- not_true_iff_false in F. apply F. apply existsb_exists. exists "Reserved"%string. split; [exact I|reflexivity].
Qed.
Fixpoint distinctb (l : list string) : bool := match l with [] => true | x :: l' => negb (existsb (String.eqb x) l') && distinctb l' end.
Lemma distinctb_ok : forall l, distinctb l = true -> NoDup l.
Proof.
  induction l as [|x l IH]; cbn; intros H; constructor; apply andb_true_iff in H; destruct H as [H1 H2]; auto.
  intros I. apply negb_true_iff in H1. rewrite <- not_true_iff_false in H1. apply H1. apply existsb_exists. exists x. split; [exact I|apply String.eqb_refl].
Qed.
Lemma blocks_nodup : NoDup (map b_name blocks).
Proof. apply distinctb_ok. vm_compute. reflexivity. Qed.

Lemma own_placed : forall rl c p, placed rl c p <-> pbool (b_guard (own c)) rl = true /\ pint (b_look (own c)) rl = p.
Proof. intros rl c p. unfold placed, own. cbn [b_guard b_look]. destruct (hidden c); rewrite pbool_flag, pint_number; reflexivity. Qed.
Lemma own_put : forall c, b_put (own c) = b_look (own c).
Proof. reflexivity. Qed.

Lemma run_ok : forall rl cs order, NoDup cs ->
  let '(m, e) := runBlocks rl (map own cs) order in
  if e then exists c p, In c cs /\ placed rl c p /\ (pget p order <> None \/ exists d, In d cs /\ d <> c /\ placed rl d p)
  else (forall p n, pget p m = Some n <-> pget p order = Some n \/ In n cs /\ placed rl n p) /\
       (forall c p, In c cs -> placed rl c p -> pget p order = None) /\
       (forall c d p, In c cs -> In d cs -> placed rl c p -> placed rl d p -> c = d).
Proof.
  intros rl. induction cs as [|c cs IH]; intros order ND; cbn [map runBlocks].
  - split; [|split]; [intros p n; split; [auto|intros [H|[[] _]]; exact H]|intros ? ? []|intros ? ? ? []].
  - inversion ND as [|? ? NI ND']; subst. destruct (pbool (b_guard (own c)) rl) eqn:G.
    + assert (PL : forall p, placed rl c p <-> p = pint (b_look (own c)) rl).
      { intros p. rewrite own_placed. split; [intros [_ ->]; reflexivity|intros ->; auto]. }
      rewrite own_put. destruct (pget (pint (b_look (own c)) rl) order) eqn:X.
      * exists c, (pint (b_look (own c)) rl). split; [left; reflexivity|]. split; [apply PL; reflexivity|]. left. rewrite X. discriminate.
      * specialize (IH ((pint (b_look (own c)) rl, b_name (own c)) :: order) ND').
        destruct (runBlocks rl (map own cs) _) as [m [|]].
        -- destruct IH as (d & p & I & P & [Q|(d' & I' & N & P')]).
           ++ exists d, p. split; [right; exact I|]. split; [exact P|]. cbn [pget] in Q. destruct (p =? _)%Z eqn:E.
              ** apply Z.eqb_eq in E. right. exists c. split; [left; reflexivity|]. split; [intros ->; contradiction|]. apply PL. exact E.
              ** left. exact Q.
           ++ exists d, p. split; [right; exact I|]. split; [exact P|]. right. exists d'. split; [right; exact I'|]. auto.
        -- destruct IH as (A & B & C). cbn [pget] in *. split; [|split].
           ++ intros p n. rewrite A. destruct (p =? pint (b_look (own c)) rl)%Z eqn:E.
              ** apply Z.eqb_eq in E. subst p. cbn [own b_name]. split.
                 --- intros [H|[I P]]; [injection H as <-; right; split; [left; reflexivity|apply PL; reflexivity]|].
                     right. split; [right; exact I|exact P].
                 --- intros [H|[[<-|I] P]]; [rewrite X in H; discriminate|left; reflexivity|].
                     pose proof (B _ _ I P) as Q. rewrite Z.eqb_refl in Q. discriminate.
              ** split; [intros [H|[I P]]; [left; exact H|right; split; [right; exact I|exact P]]|].
                 intros [H|[[<-|I] P]]; [left; exact H| |right; auto]. apply PL in P. apply Z.eqb_neq in E. congruence.
           ++ intros d p [<-|I] P; [apply PL in P; subst p; exact X|]. pose proof (B _ _ I P) as Q. destruct (p =? _)%Z; [discriminate|exact Q].
           ++ intros d d' p [<-|I] [<-|I'] P P'; [reflexivity| | |eapply C; eauto].
              ** apply PL in P. subst p. pose proof (B _ _ I' P') as Q. rewrite Z.eqb_refl in Q. discriminate.
              ** apply PL in P'. subst p. pose proof (B _ _ I P) as Q. rewrite Z.eqb_refl in Q. discriminate.
    + assert (PL : forall p, ~ placed rl c p) by (intros p; rewrite own_placed, G; intros [? _]; discriminate).
      specialize (IH order ND'). destruct (runBlocks rl (map own cs) order) as [m [|]].
      * destruct IH as (d & p & I & P & Q). exists d, p. split; [right; exact I|]. split; [exact P|].
        destruct Q as [Q|(d' & I' & N & P')]; [left; exact Q|right; exists d'; split; [right; exact I'|auto]].
      * destruct IH as (A & B & C). split; [|split].
        -- intros p n. rewrite A. split; [intros [H|[I P]]; [left; exact H|right; split; [right; exact I|exact P]]|].
           intros [H|[[<-|I] P]]; [left; exact H|exfalso; exact (PL _ P)|right; auto].
        -- intros d p [<-|I] P; [exfalso; exact (PL _ P)|eapply B; eauto].
        -- intros d d' p [<-|I] [<-|I'] P P'; [reflexivity|exfalso; exact (PL _ P)|exfalso; exact (PL _ P')|eapply C; eauto].
Qed.

(** ** C49 *)

(** All components at different positions: the map holds exactly them. *)
Theorem C49_positions : forall rl,
  (forall c d p, In c components -> In d components -> placed rl c p -> placed rl d p -> c = d) ->
  exists m, GetRecordLayoutRelativePositions rl = (m, false) /\ forall p n, pget p m = Some n <-> In n components /\ placed rl n p.
Proof.
  intros rl H. unfold GetRecordLayoutRelativePositions. pose proof (run_ok rl (map b_name blocks) [] blocks_nodup) as R.
  rewrite <- blocks_own in R. destruct (runBlocks rl blocks []) as [m [|]].
  - exfalso. destruct R as (c & p & I & P & [Q|(d & J & N & P')]); [apply Q; reflexivity|]. apply N. symmetry.
    apply blocks_all in I. apply blocks_all in J. eapply H; eauto.
  - exists m. split; [reflexivity|]. intros p n. destruct R as (R & _). rewrite R, <- blocks_all. cbn. intuition discriminate.
Qed.
Print Assumptions C49_positions.

(** The error tells whether two components share a position. *)
Theorem C49_error : forall rl,
  snd (GetRecordLayoutRelativePositions rl) = true <->
  exists c d p, In c components /\ In d components /\ c <> d /\ placed rl c p /\ placed rl d p.
Proof.
  intros rl. unfold GetRecordLayoutRelativePositions. pose proof (run_ok rl (map b_name blocks) [] blocks_nodup) as R.
  rewrite <- blocks_own in R. destruct (runBlocks rl blocks []) as [m [|]]; cbn [snd].
  - split; [intros _|reflexivity]. destruct R as (c & p & I & P & [Q|(d & J & N & P')]); [exfalso; apply Q; reflexivity|].
    exists c, d, p. rewrite !blocks_all. auto.
  - split; [discriminate|]. intros (c & d & p & I & J & N & P & P'). exfalso. apply N. rewrite blocks_all in I, J. destruct R as (_ & _ & R). eauto.
Qed.
Print Assumptions C49_error.

(** ** C50 *)

Lemma cases_run : forall rl name cs, runCases rl name (map owntype cs) =
  if existsb (String.eqb name) cs then if pbool (d_guard (owntype name)) rl then Some (pstr (d_type (owntype name)) rl) else None else None.
Proof.
  intros rl name. induction cs as [|c cs IH]; [reflexivity|]. cbn [map runCases existsb]. cbn [owntype d_case].
  destruct (String.eqb name c) eqn:E; [apply String.eqb_eq in E; subst c; reflexivity|exact IH].
Qed.

(** The lookup knows the data type of every component that has one; RESERVED
    has a size, not a data type. *)
Theorem C50_datatype : forall rl name d,
  GetDatatypeByFieldName rl name = Some d <-> In name components /\ name <> "Reserved"%string /\ typed rl name d.
Proof.
  intros rl name d. unfold GetDatatypeByFieldName. rewrite cases_own, cases_run.
  assert (T : typed rl name d <-> pbool (d_guard (owntype name)) rl = true /\ pstr (d_type (owntype name)) rl = d).
  { unfold typed, owntype. cbn [d_guard d_type]. destruct (hidden name); rewrite pbool_flag, pstr_text; reflexivity. }
  rewrite T. split.
  - destruct (existsb _ _) eqn:E; [|discriminate]. apply existsb_exists in E. destruct E as (c & I & E). apply String.eqb_eq in E. subst c.
    apply cases_all in I. destruct I as [I N]. destruct (pbool _ rl); [|discriminate]. injection 1 as <-. auto.
  - intros (I & N & G & <-). assert (E : existsb (String.eqb name) (map d_case cases) = true).
    { apply existsb_exists. exists name. split; [apply cases_all; auto|apply String.eqb_refl]. }
    rewrite E, G. reflexivity.
Qed.
Print Assumptions C50_datatype.

(** A record layout as the parser delivers it: two components at different
    positions, then two at the same one. *)
Definition layoutOf (words : list string) : fields :=
  match call isKeyword (b "RECORD_LAYOUT" :: map b words ++ [[]]) (fun _ => None) 1000 parseRecordLayout 0 with
  | Ret (VObj o) false _ => o
  | _ => []
  end.
Example C49_example :
  let rl := layoutOf ["R"; "SRC_ADDR_X"; "1"; "UWORD"; "NO_AXIS_PTS_X"; "2"; "UBYTE"; "/end RECORD_LAYOUT"]%string in
  placed rl "SrcAddrX" 1 /\ placed rl "NoAxisPtsX" 2 /\
  GetRecordLayoutRelativePositions rl = ([(1, "SrcAddrX"); (2, "NoAxisPtsX")]%Z%string, false) /\
  GetDatatypeByFieldName rl "SrcAddrX" = Some (b "UWORD").
Proof. vm_compute. repeat split. Qed.
Example C49_error_example :
  let rl := layoutOf ["R"; "SRC_ADDR_X"; "2"; "UWORD"; "NO_AXIS_PTS_X"; "2"; "UBYTE"; "/end RECORD_LAYOUT"]%string in
  placed rl "SrcAddrX" 2 /\ placed rl "NoAxisPtsX" 2 /\ snd (GetRecordLayoutRelativePositions rl) = true.
Proof. vm_compute. repeat split. Qed.
