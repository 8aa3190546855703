(** What a hash map of a tree should be, place by place. *)
From Coq Require Import String Ascii List Arith NArith ZArith Bool SpecFloat.
From Verif Require Import GoBase FloatSpec A2lIR GoTypes HashModel.
Import ListNotations.

(** ** Places *)

(** A place: the keys and indexes that lead to it. *)
Inductive step := Key (k : bytes) | Item (n : nat).

(** What is at a place of a hash map. *)
Fixpoint hget (k : bytes) (m : list (bytes * hash)) : option hash :=
  match m with
  | [] => None
  | (k', h) :: m' => if beqb k k' then Some h else hget k m'
  end.
Fixpoint at_ (h : hash) (p : list step) : option hash :=
  match p with
  | [] => Some h
  | Key k :: p' => match h with HMap m => match hget k m with Some x => at_ x p' | None => None end | _ => None end
  | Item n :: p' => match h with HList l => match nth_error l n with Some x => at_ x p' | None => None end | _ => None end
  end.

(** A field that other packages see begins with a capital letter. *)
Definition public (f : string) : Prop := exists c r, f = String c r /\ In c (list_ascii_of_string "ABCDEFGHIJKLMNOPQRSTUVWXYZ").

(** [leads t v p u w]: in the value [v] of type [t], by public fields, indexes and keys,
    the place [p] is the value [w] of type [u].  [None] stands for the zero value. *)
Inductive leads : gty -> option val -> list step -> gty -> option val -> Prop :=
| le_here : forall t v, leads t v [] t v
| le_field : forall fs o f t p u w, public f -> declared f fs = Some t -> leads t (fget f o) p u w -> leads (GStruct fs) (Some (VObj o)) (Key (b f) :: p) u w
| le_field0 : forall fs f t p u w, public f -> declared f fs = Some t -> leads t None p u w -> leads (GStruct fs) None (Key (b f) :: p) u w
| le_slice : forall t l n x p u w, nth_error l n = Some x -> leads t (Some x) p u w -> leads (GSlice t) (Some (VList l)) (Item n :: p) u w
| le_array : forall k t l n x p u w, nth_error l n = Some x -> leads t (Some x) p u w -> leads (GArray k t) (Some (VList l)) (Item n :: p) u w
| le_array0 : forall k t n p u w, n < k -> leads t None p u w -> leads (GArray k t) None (Item n :: p) u w
| le_map : forall t m k x p u w, In (k, x) m -> leads t (Some x) p u w -> leads (GMap t) (Some (VMap m)) (Key k :: p) u w.

(** [shows t v h]: [h] is what a value [v] of type [t] should be in a hash map; what is
    inside lists and maps is said by the places in them. *)
Inductive shows : gty -> option val -> hash -> Prop :=
| sh_bool : forall x, shows GBool (Some (VBool x)) (HBool x)
| sh_bool0 : shows GBool None (HBool false)
| sh_str : forall s, shows GStr (Some (VStr s)) (HStr s)
| sh_str0 : shows GStr None (HStr [])
| sh_float : forall f, shows GFloat (Some (VFloat f)) (HNum f)
| sh_float0 : shows GFloat None (HNum (S754_zero false))
| sh_uint : forall k z f, isint f z -> shows (GUint k) (Some (VInt z)) (HNum f)
| sh_uint0 : forall k f, isint f 0 -> shows (GUint k) None (HNum f)
| sh_sint : forall k z f, isint f z -> shows (GSint k) (Some (VInt z)) (HNum f)
| sh_sint0 : forall k f, isint f 0 -> shows (GSint k) None (HNum f)
| sh_slice : forall t l l', length l' = length l -> shows (GSlice t) (Some (VList l)) (HList l')
| sh_slice0 : forall t, shows (GSlice t) None HNil
| sh_array : forall n t v l, length l = n -> shows (GArray n t) v (HList l)
| sh_map : forall t m m', length m' = length m -> shows (GMap t) (Some (VMap m)) (HMap m')
| sh_map0 : forall t, shows (GMap t) None HNil
| sh_numbered : forall t, shows (GNumbered t) None HNil
| sh_any : shows GAny None HNil
| sh_error : shows GError None HNil
| sh_struct : forall fs v m, shows (GStruct fs) v (HMap m).

(** ** UTF-8 (the Unicode Standard, table 3-7) *)

Definition byteIn (lo hi : N) (c : ascii) : Prop := (lo <= N_of_ascii c <= hi)%N.
Definition tail (c : ascii) : Prop := byteIn 0x80 0xBF c.
Inductive utf8 : bytes -> Prop :=
| u_nil : utf8 []
| u_1 : forall c s, byteIn 0 0x7F c -> utf8 s -> utf8 (c :: s)
| u_2 : forall c d s, byteIn 0xC2 0xDF c -> tail d -> utf8 s -> utf8 (c :: d :: s)
| u_3 : forall c d e s, (N_of_ascii c = 0xE0%N /\ byteIn 0xA0 0xBF d) \/ (byteIn 0xE1 0xEC c /\ tail d) \/ (N_of_ascii c = 0xED%N /\ byteIn 0x80 0x9F d) \/ (byteIn 0xEE 0xEF c /\ tail d) ->
    tail e -> utf8 s -> utf8 (c :: d :: e :: s)
| u_4 : forall c d e f s, (N_of_ascii c = 0xF0%N /\ byteIn 0x90 0xBF d) \/ (byteIn 0xF1 0xF3 c /\ tail d) \/ (N_of_ascii c = 0xF4%N /\ byteIn 0x80 0x8F d) ->
    tail e -> tail f -> utf8 s -> utf8 (c :: d :: e :: f :: s).

(** All texts in a value, and all keys of its maps, are UTF-8. *)
Inductive encoded : val -> Prop :=
| en_str : forall s, utf8 s -> encoded (VStr s)
| en_int : forall z, encoded (VInt z)
| en_float : forall f, encoded (VFloat f)
| en_bool : forall x, encoded (VBool x)
| en_list : forall l, (forall v, In v l -> encoded v) -> encoded (VList l)
| en_map : forall m, (forall k v, In (k, v) m -> utf8 k /\ encoded v) -> encoded (VMap m)
| en_obj : forall o, (forall f v, fget f o = Some v -> encoded v) -> encoded (VObj o).

(** ** What is seen of a value *)

(** [alike t v w]: the values [v] and [w] of type [t] differ at most in fields that are not
    public. *)
Inductive alike : gty -> option val -> option val -> Prop :=
| al_same : forall t v, alike t v v
| al_struct : forall fs o o', (forall f u, public f -> declared f fs = Some u -> alike u (fget f o) (fget f o')) ->
    alike (GStruct fs) (Some (VObj o)) (Some (VObj o'))
| al_zero : forall fs o', (forall f u, public f -> declared f fs = Some u -> alike u None (fget f o')) -> alike (GStruct fs) None (Some (VObj o'))
| al_slice : forall t l l', length l = length l' -> (forall n x y, nth_error l n = Some x -> nth_error l' n = Some y -> alike t (Some x) (Some y)) ->
    alike (GSlice t) (Some (VList l)) (Some (VList l'))
| al_map : forall t m m', map fst m = map fst m' -> (forall n k x y, nth_error m n = Some (k, x) -> nth_error m' n = Some (k, y) -> alike t (Some x) (Some y)) ->
    alike (GMap t) (Some (VMap m)) (Some (VMap m')).
