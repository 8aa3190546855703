(** What the goroutines of the parallel module parser read when a border of their
    shares falls into an object, and which of several objects with the same place
    a module holds. *)
From Coq Require Import String List Arith Bool SpecFloat.
From Verif Require Import GoBase A2lIR A2lParsers A2lSpec A2lModModel A2lModSpec.
Import ListNotations.

Section Cut.
  Variable toks : list bytes.
  Variable pf : bytes -> option spec_float.

  (** [nestedIn i e l]: the objects of the kinds of a module that lie behind index
      [i], up to index [e], are [l] (without those inside an object of [l]). *)
  Inductive nestedIn : nat -> nat -> list item -> Prop :=
  | NestEnd : forall e, nestedIn e e []
  | NestOther : forall i e l, ~ begins (tok toks (S i)) -> nestedIn (S i) e l -> nestedIn i e l
  | NestObj : forall i t g a v j e l,
      In (t, (g, a)) kinds -> tok toks (S i) = b t -> returns toks pf g (S i) v false j -> nestedIn j e l ->
      nestedIn i e (Item (S i) j a v :: l).

  (** Tokens of object [x] follow index [p], which lies in it. *)
  Definition cuts (p : nat) (x : item) : Prop := it_from x <= p < it_to x.

  (** In the objects that are cut by a border, the objects behind the border are complete. *)
  Definition complete (np start stop : nat) (items : list item) : Prop :=
    forall p x, border np start stop p -> In x items -> cuts p x -> exists l, nestedIn p (it_to x) l.

  (** The share of goroutine [k] is between two edges. *)
  Definition edge (np start stop k : nat) : nat := if k =? np then stop else start + (stop - start) / np * k.
  Definition between (p q : nat) (x : item) : bool := (p <? it_from x) && (it_from x <? q).

  (** [shareOf np start stop items k l]: goroutine [k] reads the objects [l]: first
      those in the rest of the object that its first edge cuts, then those of the module. *)
  Definition shareOf (np start stop : nat) (items : list item) (k : nat) (l : list item) : Prop :=
    let p := edge np start stop k in
    exists rest, ((exists x, In x items /\ cuts p x /\ nestedIn p (it_to x) rest) \/ (forall x, In x items -> ~ cuts p x) /\ rest = [])
      /\ l = filter (between p (edge np start stop (S k))) (rest ++ items).
End Cut.

(** The object of the kind of [a] with name [x] in the struct [o]. *)
Definition found (o : fields) (a : action) (x : bytes) : option val :=
  match a with
  | Keep f => fget f o
  | Put_ f _ => match fget f o with Some (VMap m) => mget x m | _ => None end
  end.
Definition names (a : action) (x : bytes) (v : val) : Prop :=
  match a with Keep _ => True | Put_ _ k => keyOf k v = x end.

(** [v] is the last object of the kind of [a] with name [x] in [l]. *)
Definition lastAt (a : action) (x : bytes) (l : list (action * val)) (v : val) : Prop :=
  exists l1 l2, l = l1 ++ (a, v) :: l2 /\ names a x v /\ forall w, In (a, w) l2 -> ~ names a x w.

(** The struct [o] holds, of the objects in the same place, one of those that are
    the last in a list of [ls]. *)
Definition holdsLast (o : fields) (ls : list (list (action * val))) : Prop :=
  forall t g a x, In (t, (g, a)) kinds ->
    (forall v, found o a x = Some v -> exists l, In l ls /\ lastAt a x l v) /\
    (found o a x = None -> forall l v, In l ls -> ~ lastAt a x l v).
