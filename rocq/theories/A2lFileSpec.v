(** When two parsed A2L files have the same content. *)
From Coq Require Import String List.
From Verif Require Import GoBase A2lIR A2lSpec A2lModModel A2lModSpec.
Import ListNotations.

(** Two files that agree in everything but their modules, which are related
    one by one by [same]. *)
Definition likeProject (same : val -> val -> Prop) (p p' : fields) : Prop :=
  (forall f, f <> "Modules"%string -> fget f p = fget f p') /\ Forall2 same (flist "Modules" p) (flist "Modules" p').
Definition likeFile (same : val -> val -> Prop) (a a' : fields) : Prop :=
  (forall f, f <> "Project"%string -> fget f a = fget f a')
  /\ match fget "Project" a, fget "Project" a' with
     | None, None => True
     | Some (VObj p), Some (VObj p') => likeProject same p p'
     | _, _ => False
     end.

(** Two modules with the same names and the same objects (maps may differ in
    their order). *)
Definition sameModule (v w : val) : Prop :=
  exists o o' name long l, v = VObj o /\ w = VObj o' /\ named o name long /\ named o' name long /\ holds o l /\ holds o' l.

(** The second module lacks exactly the objects that begin at a border. *)
Definition lacksBorders (toks : list bytes) (pf : bytes -> option SpecFloat.spec_float) (np : nat) (v w : val) : Prop :=
  exists i items stop o o' name long kept, tok toks i = b "/begin MODULE" /\ isModule toks pf i items stop /\ v = VObj o /\ w = VObj o' /\ named o name long /\ named o' name long
    /\ holds o (stored items) /\ holds o' (stored kept) /\ forall x, In x kept <-> In x items /\ ~ border np (i + 2) stop (it_from x).

(** The module at index [i] can be shared out to [np] goroutines: its end is the
    first in the list, no object begins after a border inside another object,
    and no two objects have the same place. *)
Definition divisible (toks : list bytes) (pf : bytes -> option SpecFloat.spec_float) (np i : nat) : Prop :=
  exists items stop, isModule toks pf i items stop /\ clean toks stop /\ tidy toks np (i + 2) stop items /\ distinct (stored items).
(** No object begins at a border. *)
Definition inside (toks : list bytes) (pf : bytes -> option SpecFloat.spec_float) (np i : nat) : Prop :=
  forall items stop x, isModule toks pf i items stop -> In x items -> ~ border np (i + 2) stop (it_from x).
