(** What a described module, project or file contains, as lists of the keywords
    with their words; and what is to be found under a name. *)
From Coq Require Import String Ascii List Arith ZArith Bool SpecFloat.
From Verif Require Import GoBase A2lIR A2lGrammar A2lForms A2lTripSpec LookModel.
Import ListNotations.

(** A keyword, the words after it, and what they describe. *)
Record entry := Entry { e_kw : string; e_words : list bytes; e_val : val }.

Definition itemsOf (f : form) : list item := match f with Block _ _ _ its _ _ => its | _ => [] end.

Section Contents.
  Variable pf : bytes -> option spec_float.

  (** The words are the entries [l], in this order. *)
  Inductive entries (its : list item) (stop : string) : list bytes -> list entry -> Prop :=
  | en_nil : entries its stop [] []
  | en_cons : forall kw f p sub ts ts' v l,
      In (Item kw f p sub) its -> den pf sub ts v -> follows sub (hd (b stop) ts') = true -> entries its stop ts' l ->
      entries its stop (b kw :: ts ++ ts') (Entry kw ts v :: l).

  (** [name "a long name" ... /end MODULE] *)
  Definition moduleHas (ts : list bytes) (l : list entry) : Prop :=
    exists name long c, ts = name :: long :: c ++ [b "/end MODULE"] /\ entries (itemsOf moduleRead) "/end MODULE" c l.
  (** ["a comment" ... /end MOD_PAR] *)
  Definition modParHas (ts : list bytes) (l : list entry) : Prop :=
    exists comment c, ts = comment :: c ++ [b "/end MOD_PAR"] /\ entries (itemsOf modParRead) "/end MOD_PAR" c l.
  (** [name "a long name" ... /end PROJECT] *)
  Definition projectHas (ts : list bytes) (l : list entry) : Prop :=
    exists name long c, ts = name :: long :: c ++ [b "/end PROJECT"] /\ entries (itemsOf projectRead) "/end PROJECT" c l.
  Definition fileHas (ts : list bytes) (l : list entry) : Prop := entries (fileItems projectRead) "" ts l.
End Contents.

(** [e] is the last entry with property [P]. *)
Definition lastSuch (P : entry -> Prop) (l : list entry) (e : entry) : Prop :=
  exists l1 l2, l = l1 ++ e :: l2 /\ P e /\ Forall (fun x => ~ P x) l2.
(** The first word after the keyword is the name. *)
Definition isNamed (kw : string) (k : bytes) (e : entry) : Prop := e_kw e = kw /\ hd [] (e_words e) = k.
Definition isKw (kw : string) (e : entry) : Prop := e_kw e = kw.

(** What a module with entries [l] contains under the name [k]. *)
Inductive written (pf : bytes -> option spec_float) (l : list entry) (k : bytes) : object val -> Prop :=
| wr_axis e : lastSuch (isNamed "/begin AXIS_PTS" k) l e -> written pf l k (AxisPts (e_val e))
| wr_char e : lastSuch (isNamed "/begin CHARACTERISTIC" k) l e -> written pf l k (Characteristic (e_val e))
| wr_meth e : lastSuch (isNamed "/begin COMPU_METHOD" k) l e -> written pf l k (CompuMethodO (e_val e))
| wr_tab e : lastSuch (isNamed "/begin COMPU_TAB" k) l e -> written pf l k (CompuTabO (e_val e))
| wr_vtab e : lastSuch (isNamed "/begin COMPU_VTAB" k) l e -> written pf l k (CompuVTabO (e_val e))
| wr_range e : lastSuch (isNamed "/begin COMPU_VTAB_RANGE" k) l e -> written pf l k (CompuVTabRangeO (e_val e))
| wr_fun e : lastSuch (isNamed "/begin FUNCTION" k) l e -> written pf l k (Function_ (e_val e))
| wr_group e : lastSuch (isNamed "/begin GROUP" k) l e -> written pf l k (Group_ (e_val e))
| wr_meas e : lastSuch (isNamed "/begin MEASUREMENT" k) l e -> written pf l k (Measurement (e_val e))
| wr_layout e : lastSuch (isNamed "/begin RECORD_LAYOUT" k) l e -> written pf l k (RecordLayout (e_val e))
| wr_const p l' e value : lastSuch (isKw "/begin MOD_PAR") l p -> modParHas pf (e_words p) l' ->
    lastSuch (isNamed "SYSTEM_CONSTANT" k) l' e -> e_words e = [k; value] -> written pf l k (SystemConstantO (SysConst k value true))
| wr_unit e : lastSuch (isNamed "/begin UNIT" k) l e -> written pf l k (Unit_ (e_val e)).

(** The words of module [n] of a file (after the keyword); only the last project counts. *)
Definition fileModule (pf : bytes -> option spec_float) (ts : list bytes) (n : nat) (words : list bytes) : Prop :=
  exists lf p lp e, fileHas pf ts lf /\ lastSuch (isKw "/begin PROJECT") lf p /\ projectHas pf (e_words p) lp /\
    nth_error (filter (fun x => String.eqb (e_kw x) "/begin MODULE") lp) n = Some e /\ e_words e = words.

(** ** Conversions *)

(** [name "a long name" kind format unit ... /end COMPU_METHOD] *)
Definition methodHas (pf : bytes -> option spec_float) (ts : list bytes) (kind : string) (l : list entry) : Prop :=
  exists name long format unit c, ts = name :: long :: b kind :: format :: unit :: c ++ [b "/end COMPU_METHOD"] /\
    entries pf (itemsOf compuMethodForm) "/end COMPU_METHOD" c l.
(** [name "a long name" kind n in1 out1 ... inn outn ... /end COMPU_TAB], and
    likewise for verbal tables *)
Definition tableHas (pf : bytes -> option spec_float) (f : form) (stop : string) (ts : list bytes) (rows : list (bytes * bytes)) (l : list entry) : Prop :=
  exists name long kind count c, ts = name :: long :: kind :: count :: flat_map (fun r => [fst r; snd r]) rows ++ c ++ [b stop] /\
    ParseUint 16 count = Some (Z.of_nat (length rows)) /\ entries pf (itemsOf f) stop c l.
(** [name "a long name" n min1 max1 out1 ... minn maxn outn ... /end COMPU_VTAB_RANGE] *)
Definition rangesHas (pf : bytes -> option spec_float) (ts : list bytes) (rows : list (bytes * bytes * bytes)) (l : list entry) : Prop :=
  exists name long count c, ts = name :: long :: count :: flat_map (fun r => [fst (fst r); snd (fst r); snd r]) rows ++ c ++ [b "/end COMPU_VTAB_RANGE"] /\
    ParseUint 16 count = Some (Z.of_nat (length rows)) /\ entries pf (itemsOf compuVtabRangeForm) "/end COMPU_VTAB_RANGE" c l.

(** the words of the last entry of a keyword, if there is one *)
Definition lastWords (kw : string) (l : list entry) (o : option (list bytes)) : Prop :=
  match o with
  | Some ws => exists e, lastSuch (isKw kw) l e /\ e_words e = ws
  | None => forall e, In e l -> e_kw e <> kw
  end.
