(** Types of Go as far as the structs of package a2l use them, and the values of A2lIR.v
    that belong to them. *)
From Coq Require Import String Ascii List Arith NArith ZArith Bool SpecFloat.
From Verif Require Import GoBase A2lIR.
Import ListNotations.

Inductive gty :=
| GBool                                  (* bool *)
| GStr                                   (* string, and the enumerations *)
| GFloat                                 (* float64 *)
| GUint (bits : N)                       (* uint16, uint32 *)
| GSint (bits : N)                       (* int16, int32 *)
| GSlice (t : gty)                       (* []t *)
| GArray (n : nat) (t : gty)             (* [n]t *)
| GMap (t : gty)                         (* map[string]t *)
| GNumbered (t : gty)                    (* map[uint16]t *)
| GAny                                   (* interface{} *)
| GError                                 (* error *)
| GStruct (fs : list (string * gty)).    (* struct *)

(** The declared type of a field. *)
Fixpoint declared (f : string) (fs : list (string * gty)) : option gty :=
  match fs with
  | [] => None
  | (g, t) :: fs' => if String.eqb f g then Some t else declared f fs'
  end.

(** [conforms t v]: [v] is a value of type [t].  A field that is not in the list of an
    object is zero; fields of the types interface{}, error and map[uint16]t are never set. *)
Inductive conforms : gty -> val -> Prop :=
| cf_bool : forall x, conforms GBool (VBool x)
| cf_str : forall s, conforms GStr (VStr s)
| cf_float : forall f, conforms GFloat (VFloat f)
| cf_uint : forall k z, (0 <= z < 2 ^ Z.of_N k)%Z -> conforms (GUint k) (VInt z)
| cf_sint : forall k z, (- 2 ^ (Z.of_N k - 1) <= z < 2 ^ (Z.of_N k - 1))%Z -> conforms (GSint k) (VInt z)
| cf_slice : forall t l, (forall v, In v l -> conforms t v) -> conforms (GSlice t) (VList l)
| cf_array : forall n t l, length l = n -> (forall v, In v l -> conforms t v) -> conforms (GArray n t) (VList l)
| cf_map : forall t m, NoDup (map fst m) -> (forall k v, In (k, v) m -> conforms t v) -> conforms (GMap t) (VMap m)
| cf_struct : forall fs o, (forall f v, fget f o = Some v -> exists t, declared f fs = Some t /\ conforms t v) -> conforms (GStruct fs) (VObj o).
