(** What a hash map of a tree should be when texts in it may be in any encoding. *)
From Coq Require Import String Ascii List Arith NArith ZArith Bool SpecFloat.
From Verif Require Import GoBase FloatSpec A2lIR GoTypes HashModel HashSpec.
Import ListNotations.

(** One character in UTF-8 (the Unicode Standard, table 3-7). *)
Inductive letter : bytes -> Prop :=
| l_1 : forall c, byteIn 0 0x7F c -> letter [c]
| l_2 : forall c d, byteIn 0xC2 0xDF c -> tail d -> letter [c; d]
| l_3 : forall c d e, (N_of_ascii c = 0xE0%N /\ byteIn 0xA0 0xBF d) \/ (byteIn 0xE1 0xEC c /\ tail d) \/ (N_of_ascii c = 0xED%N /\ byteIn 0x80 0x9F d) \/ (byteIn 0xEE 0xEF c /\ tail d) ->
    tail e -> letter [c; d; e]
| l_4 : forall c d e f, (N_of_ascii c = 0xF0%N /\ byteIn 0x90 0xBF d) \/ (byteIn 0xF1 0xF3 c /\ tail d) \/ (N_of_ascii c = 0xF4%N /\ byteIn 0x80 0x8F d) ->
    tail e -> tail f -> letter [c; d; e; f].

(** U+FFFD, the replacement character. *)
Definition unknown : bytes := map ascii_of_N [0xEF; 0xBF; 0xBD]%N.

(** [repaired s r]: characters of [s] are kept; each byte at which no character begins
    becomes U+FFFD. *)
Inductive repaired : bytes -> bytes -> Prop :=
| rp_nil : repaired [] []
| rp_letter : forall l s r, letter l -> repaired s r -> repaired (l ++ s) (l ++ r)
| rp_byte : forall c s r, (forall l q, letter l -> c :: s <> l ++ q) -> repaired s r -> repaired (c :: s) (unknown ++ r).

(** The order of texts, byte by byte. *)
Inductive upTo : bytes -> bytes -> Prop :=
| up_nil : forall t, upTo [] t
| up_same : forall c s t, upTo s t -> upTo (c :: s) (c :: t)
| up_less : forall c d s t, (N_of_ascii c < N_of_ascii d)%N -> upTo (c :: s) (d :: t).

(** [leadsAs t v p u w]: the value [w] of type [u] is the one that the place [p] of the hash
    map of [v] shows: as [leads], but keys of maps are repaired, and of the keys that become
    the same the last one counts. *)
Inductive leadsAs : gty -> option val -> list step -> gty -> option val -> Prop :=
| la_here : forall t v, leadsAs t v [] t v
| la_field : forall fs o f t p u w, public f -> declared f fs = Some t -> leadsAs t (fget f o) p u w -> leadsAs (GStruct fs) (Some (VObj o)) (Key (b f) :: p) u w
| la_field0 : forall fs f t p u w, public f -> declared f fs = Some t -> leadsAs t None p u w -> leadsAs (GStruct fs) None (Key (b f) :: p) u w
| la_slice : forall t l n x p u w, nth_error l n = Some x -> leadsAs t (Some x) p u w -> leadsAs (GSlice t) (Some (VList l)) (Item n :: p) u w
| la_array : forall k t l n x p u w, nth_error l n = Some x -> leadsAs t (Some x) p u w -> leadsAs (GArray k t) (Some (VList l)) (Item n :: p) u w
| la_array0 : forall k t n p u w, n < k -> leadsAs t None p u w -> leadsAs (GArray k t) None (Item n :: p) u w
| la_map : forall t m k x k' p u w, In (k, x) m -> repaired k k' -> (forall k2 x2, In (k2, x2) m -> repaired k2 k' -> upTo k2 k) ->
    leadsAs t (Some x) p u w -> leadsAs (GMap t) (Some (VMap m)) (Key k' :: p) u w.

(** [showsAs t v h]: as [shows], but texts are repaired, and maps can have fewer entries. *)
Inductive showsAs : gty -> option val -> hash -> Prop :=
| sa_str : forall s r, repaired s r -> showsAs GStr (Some (VStr s)) (HStr r)
| sa_map : forall t m m', NoDup (map fst m') -> showsAs (GMap t) (Some (VMap m)) (HMap m')
| sa_same : forall t v h, (t = GStr -> v = None) -> (forall u, t = GMap u -> v = None) -> shows t v h -> showsAs t v h.
