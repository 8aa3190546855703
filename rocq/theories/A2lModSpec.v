(** What a module consists of, and when a parsed module contains it. *)
From Coq Require Import String List Arith Bool SpecFloat.
From Verif Require Import GoBase A2lIR A2lTokens A2lParsers A2lSpec A2lModModel.
Import ListNotations.

(** The kinds of objects of a module (ASAP2): first token, parser, and the field of
    the struct Module for the only object of the kind or the map (with the
    field that is its key) for all objects of the kind. *)
Definition kinds : list (string * (fn * action)) := [
  ("/begin A2ML", (parseA2ML, Keep "a2ml"));
  ("/begin AXIS_PTS", (parseAxisPts, Put_ "AxisPts" "name"));
  ("/begin BLOB", (parseBlob, Put_ "blobs" "name"));
  ("/begin CHARACTERISTIC", (parseCharacteristic, Put_ "Characteristics" "Name"));
  ("/begin COMPU_METHOD", (parseCompuMethod, Put_ "CompuMethods" "Name"));
  ("/begin COMPU_TAB", (parseCompuTab, Put_ "CompuTabs" "Name"));
  ("/begin COMPU_VTAB", (parseCompuVtab, Put_ "CompuVTabs" "Name"));
  ("/begin COMPU_VTAB_RANGE", (parseCompuVtabRange, Put_ "CompuVTabRanges" "Name"));
  ("/begin FRAME", (parseFrame, Keep "frame"));
  ("/begin FUNCTION", (parseFunction, Put_ "Functions" "name"));
  ("/begin GROUP", (parseGroup, Put_ "Groups" "groupName"));
  ("/begin IF_DATA", (parseIfData, Put_ "ifData" "name"));
  ("/begin INSTANCE", (parseInstance, Put_ "instances" "name"));
  ("/begin MEASUREMENT", (parseMeasurement, Put_ "Measurements" "name"));
  ("/begin MOD_COMMON", (parseModCommon, Keep "ModCommon"));
  ("/begin MOD_PAR", (parseModPar, Keep "ModPar"));
  ("/begin RECORD_LAYOUT", (parseRecordLayout, Put_ "RecordLayouts" "Name"));
  ("/begin TRANSFORMER", (parseTransformer, Put_ "transformers" "name"));
  ("/begin TYPEDEF_AXIS", (parseTypeDefAxis, Put_ "typeDefAxis" "name"));
  ("/begin TYPEDEF_BLOB", (parseTypeDefBlob, Put_ "typeDefBlobs" "name"));
  ("/begin TYPEDEF_CHARACTERISTIC", (parseTypeDefCharacteristic, Put_ "typeDefCharacteristics" "name"));
  ("/begin TYPEDEF_MEASUREMENT", (parseTypeDefMeasurement, Put_ "typeDefMeasurements" "name"));
  ("/begin TYPEDEF_STRUCTURE", (parseTypeDefStructure, Put_ "typeDefStructures" "name"));
  ("/begin UNIT", (parseUnit, Put_ "Units" "name"));
  ("/begin USER_RIGHTS", (parseUserRights, Put_ "userRights" "userLevelId"));
  ("/begin VARIANT_CODING", (parseVariantCoding, Keep "variantCoding"))]%string.

Definition begins (t : bytes) : Prop := exists k, In k kinds /\ t = b (fst k).

(** An object of a module: index of its first and of its last token, its place,
    and the object. *)
Record item := Item { it_from : nat; it_to : nat; it_act : action; it_val : val }.

Section Module.
  Variable toks : list bytes.
  Variable pf : bytes -> option spec_float.
  Definition tok (i : nat) : bytes := nth i toks [].
  Definition word (t : bytes) : Prop := t <> [] /\ isKeyword t = false.

  (** [content i items e]: the tokens after index [i] are objects, with words
      between them, up to the end of the module at index [e]. *)
  Inductive content : nat -> list item -> nat -> Prop :=
  | ContEnd : forall i, tok (S i) = b "/end MODULE" -> content i [] (S i)
  | ContWord : forall i items e, word (tok (S i)) -> content (S i) items e -> content i items e
  | ContObj : forall i t g a v j items e,
      In (t, (g, a)) kinds -> tok (S i) = b t -> returns toks pf g (S i) v false j -> content j items e ->
      content i (Item (S i) j a v :: items) e.

  (** A module: the token /begin MODULE at index [i], name, long identifier, objects. *)
  Definition isModule (i : nat) (items : list item) (e : nat) : Prop :=
    word (tok (i + 1)) /\ word (tok (i + 2)) /\ content (i + 2) items e.
End Module.

(** Index [e] is the first with the end of a module or without a token. *)
Definition clean (toks : list bytes) (e : nat) : Prop := forall p, p < e -> tok toks p <> b "/end MODULE" /\ tok toks p <> [].

(** [broken i items p]: the tokens after index [i] are objects, with words between
    them, up to an object at index [p] that its parser refuses. *)
Inductive broken (toks : list bytes) (pf : bytes -> option spec_float) : nat -> list item -> nat -> Prop :=
| BrkHere : forall i t g a v j, In (t, (g, a)) kinds -> tok toks (S i) = b t -> returns toks pf g (S i) v true j -> broken toks pf i [] (S i)
| BrkWord : forall i items p, word (tok toks (S i)) -> broken toks pf (S i) items p -> broken toks pf i items p
| BrkObj : forall i t g a v j items p,
    In (t, (g, a)) kinds -> tok toks (S i) = b t -> returns toks pf g (S i) v false j -> broken toks pf j items p ->
    broken toks pf i (Item (S i) j a v :: items) p.

(** The indices at which the goroutines after the first begin. *)
Definition border (np start stop p : nat) : Prop := exists k, 0 < k < np /\ p = start + (stop - start) / np * k.

(** No token that begins an object follows a border inside the object that the
    border falls into. *)
Definition tidy (toks : list bytes) (np start stop : nat) (items : list item) : Prop :=
  forall p x q, border np start stop p -> In x items -> it_from x <= p -> p < q <= it_to x -> ~ begins (tok toks q).

(** Two objects that a module cannot both hold: of the same kind and with the
    same name, or of a kind of which there is only one. *)
Definition tag (x : action * val) : string * bytes :=
  match fst x with
  | Keep f => (f, [])
  | Put_ f k => (f, keyOf k (snd x))
  end.
Definition distinct (l : list (action * val)) : Prop := NoDup (map tag l).
Definition stored (items : list item) : list (action * val) := map (fun x => (it_act x, it_val x)) items.

Fixpoint mget (x : bytes) (m : list (bytes * val)) : option val :=
  match m with
  | [] => None
  | (y, v) :: m' => if beqb x y then Some v else mget x m'
  end.

(** The struct [o] holds exactly the objects [l]. *)
Definition holds (o : fields) (l : list (action * val)) : Prop :=
  forall t g a, In (t, (g, a)) kinds ->
    match a with
    | Keep f => forall v, fget f o = Some v <-> In (Keep f, v) l
    | Put_ f k => exists m, fget f o = Some (VMap m) /\ forall x v, mget x m = Some v <-> In (Put_ f k, v) l /\ keyOf k v = x
    end.
Definition named (o : fields) (name long : bytes) : Prop :=
  fget "Name" o = Some (VStr name) /\ fget "nameSet" o = Some (VBool true) /\
  fget "longIdentifier" o = Some (VStr long) /\ fget "longIdentifierSet" o = Some (VBool true).
