(** Theorem of property C94 for files in any encoding. *)
From Coq Require Import String Ascii List Arith NArith ZArith Bool Lia SpecFloat.
From Verif Require Import GoBase GoBaseFacts StrconvModel FloatSpec A2lIR A2lFileModel GoTypes A2lStructs A2lTypeProps HashModel HashSpec HashThm HashProps HashAnySpec HashAny.
From Verif Require A2lFileProps A2lModProps.
Import ListNotations.
Local Open Scope string_scope.
Local Open Scope list_scope.

(** Any file, any outcome: the hash map has at each place what the tree has there, with
    texts repaired, and it has nothing else; of keys that are the same when repaired the
    last one in byte order is kept. *)
Theorem C94_any_encoding : forall gr pf cpus file a e h, parseFromFile gr pf cpus file (Returned a e) -> toHashMap a = Some h -> forall p,
    (forall u w, leadsAs type_A2L (Some (VObj a)) p u w -> exists x, at_ h p = Some x /\ showsAs u w x) /\
    (forall x, at_ h p = Some x -> exists u w, leadsAs type_A2L (Some (VObj a)) p u w /\ showsAs u w x).
Proof. intros gr pf cpus file a e h P H p. apply placesAs; [exact tree_narrow|exact (C93_file _ _ _ _ _ _ P)|exact H]. Qed.
Print Assumptions C94_any_encoding.

(** A text is repaired in one way, and a text in UTF-8 is not changed. *)
Theorem C94_repaired : forall s, (exists r, repaired s r) /\ (forall r r', repaired s r -> repaired s r' -> r = r') /\ (utf8 s -> repaired s s).
Proof.
  intros s. split; [exists (coerce s); apply repaired_iff; reflexivity|]. split.
  - intros r r' H H'. apply repaired_iff in H, H'. congruence.
  - intros U. apply repaired_iff. symmetry. apply coerce_utf8, U.
Qed.
Print Assumptions C94_repaired.

(** No key is without a place: one of the keys with the same repair is kept. *)
Theorem C94_kept : forall t m k x, In (k, x) m -> exists k' k1 x1, repaired k k' /\ In (k1, x1) m /\ upTo k k1 /\ leadsAs (GMap t) (Some (VMap m)) [Key k'] t (Some x1).
Proof.
  intros t m k x I. exists (coerce k).
  assert (G : forall l : list (bytes * val), (exists k0 x0, In (k0, x0) l /\ repaired k0 (coerce k)) -> exists k1 x1, In (k1, x1) l /\ repaired k1 (coerce k) /\ forall k2 x2, In (k2, x2) l -> repaired k2 (coerce k) -> upTo k2 k1).
  { induction l as [|[q y] l IH]; [intros (k0 & x0 & [] & _)|]. intros E.
    assert (D : (exists k0 x0, In (k0, x0) l /\ repaired k0 (coerce k)) \/ forall k0 x0, In (k0, x0) l -> ~ repaired k0 (coerce k)).
    { clear IH E. induction l as [|[r z] l IH]; [right; intros ? ? []|]. destruct IH as [(k0 & x0 & J & R)|N]; [left; exists k0, x0; split; [right; exact J|exact R]|].
      destruct (beqb (coerce k) (coerce r)) eqn:B; [apply beqb_eq in B; left; exists r, z; split; [left; reflexivity|apply repaired_iff; exact B]|].
      right. intros k0 x0 [J|J]; [injection J as <- <-; intros R; apply repaired_iff in R; rewrite R, (proj2 (beqb_eq _ _) eq_refl) in B; discriminate|exact (N _ _ J)]. }
    destruct D as [D|N].
    - destruct (IH D) as (k1 & x1 & J & R & M). destruct (beqb (coerce k) (coerce q)) eqn:B.
      + apply beqb_eq in B. destruct (before q k1) eqn:BF.
        * exists k1, x1. split; [right; exact J|]. split; [exact R|]. intros k2 x2 [X|X] R2; [injection X as <- <-; apply before_iff, BF|exact (M _ _ X R2)].
        * exists q, y. split; [left; reflexivity|]. split; [apply repaired_iff; exact B|]. intros k2 x2 [X|X] R2; [injection X as <- <-; apply upTo_refl|].
          exact (upTo_trans _ _ (M _ _ X R2) _ (upTo_total _ _ BF)).
      + exists k1, x1. split; [right; exact J|]. split; [exact R|]. intros k2 x2 [X|X] R2; [|exact (M _ _ X R2)].
        injection X as <- <-. apply repaired_iff in R2. rewrite R2, (proj2 (beqb_eq _ _) eq_refl) in B. discriminate.
    - destruct E as (k0 & x0 & [J|J] & R); [injection J as -> ->|destruct (N _ _ J R)]. exists k0, x0. split; [left; reflexivity|]. split; [exact R|].
      intros k2 x2 [X|X] R2; [injection X as <- <-; apply upTo_refl|destruct (N _ _ X R2)]. }
  assert (RK : repaired k (coerce k)) by (apply repaired_iff; reflexivity).
  destruct (G m (ex_intro _ k (ex_intro _ x (conj I RK)))) as (k1 & x1 & J & R & M). exists k1, x1. split; [exact RK|]. split; [exact J|]. split; [exact (M _ _ I RK)|].
  econstructor; [exact J|exact R|exact M|constructor].
Qed.
Print Assumptions C94_kept.

(** [C94_any_encoding]: the file with two methods whose names are one byte each, in
    ISO 8859-1.  The place U+FFFD shows the second one; in the unit of the first one U+FFFD
    would stand for the degree sign. *)
Example C94_latin : exists x a h d, (forall gr, parseFromFile gr ParseFloat 1 (Some x) (Returned a false)) /\ toHashMap a = Some h /\
    let place := [Key (b "Project"); Key (b "Modules"); Item 0; Key (b "CompuMethods"); Key unknown] in
    leadsAs type_A2L (Some (VObj a)) place type_CompuMethod (Some (VObj d)) /\ fstr "Unit" d = b "K" /\
    at_ h (place ++ [Key (b "Unit")]) = Some (HStr (b "K")) /\ repaired (degree ++ b "C") (unknown ++ b "C") /\
    (forall p u w, leadsAs type_A2L (Some (VObj a)) p u w -> exists y, at_ h p = Some y /\ showsAs u w y).
Proof.
  assert (X : exists a d, (forall gr, parseFromFile gr ParseFloat 1 (Some (hashFile (method degree (degree ++ b "C") (b "1")) (method plusMinus (b "K") (b "1")))) (Returned a false)) /\
    let place := [Key (b "Project"); Key (b "Modules"); Item 0; Key (b "CompuMethods"); Key unknown] in
    leadsAs type_A2L (Some (VObj a)) place type_CompuMethod (Some (VObj d)) /\ fstr "Unit" d = b "K" /\
    exists h, toHashMap a = Some h /\ at_ h (place ++ [Key (b "Unit")]) = Some (HStr (b "K"))).
  { do 2 eexists. split; [|cbv zeta; split; [|split; [|eexists; split]]].
    - intros gr. apply (A2lFileProps.C65_sequential _ ParseFloat 1 _ _ _ (latin_tokens gr) eq_refl). do 3 eexists. split; [reflexivity|]. apply (A2lModProps.returns_run 80). vm_compute. reflexivity.
    - eapply la_field; [exists "P"%char; eexists; split; [reflexivity|cbn; tauto]|reflexivity|]. eapply la_field; [exists "M"%char; eexists; split; [reflexivity|cbn; tauto]|reflexivity|].
      eapply la_slice; [reflexivity|]. eapply la_field; [exists "C"%char; eexists; split; [reflexivity|cbn; tauto]|reflexivity|]. eapply la_map; [right; left; reflexivity|apply repaired_iff; vm_compute; reflexivity| |constructor].
      intros k2 x2 [I|[I|[]]] _; injection I as <- _; apply before_iff; vm_compute; reflexivity.
    - reflexivity.
    - vm_compute. reflexivity.
    - vm_compute. reflexivity. }
  destruct X as (a & d & P & L & U & h & H & K). eexists. exists a, h, d. split; [exact P|]. split; [exact H|]. cbv zeta. split; [exact L|]. split; [exact U|]. split; [exact K|].
  split; [apply repaired_iff; vm_compute; reflexivity|]. intros p. exact (proj1 (C94_any_encoding (fun _ => false) _ _ _ _ _ _ (P _) H p)).
Qed.
