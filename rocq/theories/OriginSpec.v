(** Where the contents of the parsed tree come from. *)
From Coq Require Import String Ascii List Arith ZArith Bool SpecFloat.
From Verif Require Import GoBase A2lIR A2lModModel A2lModSpec A2lStrictProps.
Import ListNotations.

(** [replaced pf t v]: the text [t] is not a number of the kind that is expected (it is no
    number at all, or it is out of the range of [k] bits), and [v] is zero or a bound of
    the range. *)
Definition width (k : Z) : Prop := In k [8; 16; 32; 64]%Z.
Inductive replaced (pf : bytes -> option spec_float) (t : bytes) : val -> Prop :=
  | ReUnsigned : forall k z, width k -> (forall n, numeral t n -> (2 ^ k <= n)%Z) -> z = 0%Z \/ z = (2 ^ k - 1)%Z -> replaced pf t (VInt z)
  | ReSigned : forall k z, width k -> (forall n, signed t n -> ~ (- 2 ^ (k - 1) <= n < 2 ^ (k - 1))%Z) ->
               z = 0%Z \/ z = (2 ^ (k - 1) - 1)%Z \/ z = (- 2 ^ (k - 1))%Z -> replaced pf t (VInt z)
  | ReFloat : forall f, pf t = None -> f = S754_zero false \/ f = S754_infinity false \/ f = S754_infinity true -> replaced pf t (VFloat f).

(** [origin given pf lax v]: the value [v] is made of texts that are [given] only, of
    numbers that such texts denote, of flags that are set, and of empty values.
    The only other text is DIRECT, the default of the addressing mode of a BLOB.
    A text can also be joined from several given ones with spaces.  An object in a map
    is filed under one of its own texts, or under the empty text.  If [lax], numbers can
    also be there in place of texts that could not be read. *)
Inductive origin (given : bytes -> Prop) (pf : bytes -> option spec_float) (lax : bool) : val -> Prop :=
  | OrText : forall s, given s -> origin given pf lax (VStr s)
  | OrEmpty : origin given pf lax (VStr [])
  | OrDirect : origin given pf lax (VStr (b "DIRECT"))
  | OrJoined : forall s t, origin given pf lax (VStr s) -> given t -> origin given pf lax (VStr (s ++ b " " ++ t))
  | OrInt : forall t z, given t -> signed t z -> origin given pf lax (VInt z)
  | OrFloat : forall t f, given t -> pf t = Some f -> origin given pf lax (VFloat f)
  | OrReInt : forall t z, lax = true -> given t -> replaced pf t (VInt z) -> origin given pf lax (VInt z)
  | OrReFloat : forall t f, lax = true -> given t -> replaced pf t (VFloat f) -> origin given pf lax (VFloat f)
  | OrSet : origin given pf lax (VBool true)
  | OrList : forall l, (forall v, In v l -> origin given pf lax v) -> origin given pf lax (VList l)
  | OrMap : forall m, (forall k v, In (k, v) m -> origin given pf lax v) ->
            (forall k v, In (k, v) m -> k = [] \/ exists o f, v = VObj o /\ fget f o = Some (VStr k)) ->
            origin given pf lax (VMap m)
  | OrObj : forall o, (forall f v, In (f, v) o -> origin given pf lax v) -> origin given pf lax (VObj o).

(** The tokens from index [i] to index [j]. *)
Definition between (toks : list bytes) (i j : nat) (t : bytes) : Prop := exists k, i <= k <= j /\ nth k toks [] = t.

(** An object of kind [x] stands in the file from its begin to its end, and nothing in
    [v] is from anywhere else.  (A FRAME can be left without an end, see C59.) *)
Definition stands (toks : list bytes) (pf : bytes -> option spec_float) (x : string) (v : val) : Prop :=
  exists i j, i <= j < length toks /\ nth i toks [] = b ("/begin " ++ x) /\ (x <> "FRAME"%string -> nth j toks [] = b ("/end " ++ x)) /\
    origin (between toks i j) pf false v.

(** All objects that the module [o] holds stand in the file as objects of their kind;
    those in maps are filed under their names. *)
Definition allStand (toks : list bytes) (pf : bytes -> option spec_float) (o : fields) : Prop :=
  forall x g a, In (("/begin " ++ x)%string, (g, a)) kinds ->
    match a with
    | Keep f => forall v, fget f o = Some v -> stands toks pf x v
    | Put_ f k => exists m, fget f o = Some (VMap m) /\ forall key v, In (key, v) m -> key = keyOf k v /\ stands toks pf x v
    end.
