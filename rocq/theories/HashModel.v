(** Model of toHashMap (a2l/a2l.go 36-52): json.Marshal of the tree, then json.Unmarshal
    of the text into a map[string]interface{}.

    The text in between is left out; what becomes of a value on this way is written down
    per type, after the documentation and the source of encoding/json: unexported fields are
    skipped; the structs have no tags, and no type has methods of its own for JSON.  NaN and
    infinities are an error.  A finite float64 is written so that it is read back as it
    was; integers are read back as float64.  Bytes of texts that are no UTF-8 become
    U+FFFD.  A nil slice or map becomes nil.  The keys of a map are written in order; where
    two are the same afterwards, the later one is kept.  Log output is left out; an error
    (with which the map is nil) is [None]. *)
From Coq Require Import String Ascii List Arith NArith ZArith Bool SpecFloat.
From Verif Require Import GoBase FloatModel A2lIR A2lTextModel GoTypes A2lStructs.
Import ListNotations.

(** interface{}: nil, bool, float64, string, []interface{}, map[string]interface{} *)
Inductive hash :=
| HNil
| HBool (x : bool)
| HNum (f : spec_float)
| HStr (s : bytes)
| HList (l : list hash)
| HMap (m : list (bytes * hash)).

(** go/token.IsExported; the field names are ASCII *)
Definition exported (f : string) : bool :=
  match f with String c _ => (65 <=? N_of_ascii c)%N && (N_of_ascii c <=? 90)%N | EmptyString => false end.

(** U+FFFD in UTF-8 *)
Definition replacement : bytes := map ascii_of_N [0xEF; 0xBF; 0xBD]%N.
(** encoding/json (encodeState).string: a rune of width 1 that is utf8.RuneError becomes
    U+FFFD.  [skip]: bytes of the rune that are still to come. *)
Fixpoint coerce_aux (skip : nat) (s : bytes) : bytes :=
  match s with
  | [] => []
  | c :: s' =>
      match skip with
      | S k => c :: coerce_aux k s'
      | O => let '(r, n) := decodeRune s in
             if (r =? runeError)%N && (n =? 1) then replacement ++ coerce_aux 0 s' else c :: coerce_aux (n - 1) s'
      end
  end.
Definition coerce (s : bytes) : bytes := coerce_aux 0 s.

Definition finite (f : spec_float) : bool := match f with S754_zero _ | S754_finite _ _ _ => true | _ => false end.

(** the order of strings in Go *)
Fixpoint before (s t : bytes) : bool :=
  match s, t with
  | [], _ => true
  | _ :: _, [] => false
  | c :: s', d :: t' => if Ascii.eqb c d then before s' t' else (N_of_ascii c <? N_of_ascii d)%N
  end.
Fixpoint insert {A} (x : bytes * A) (l : list (bytes * A)) : list (bytes * A) :=
  match l with
  | [] => [x]
  | y :: l' => if before (fst x) (fst y) then x :: l else y :: insert x l'
  end.
Definition sorted {A} (l : list (bytes * A)) : list (bytes * A) := fold_right insert [] l.

(** m[k] = h *)
Fixpoint hput (k : bytes) (h : hash) (m : list (bytes * hash)) : list (bytes * hash) :=
  match m with
  | [] => [(k, h)]
  | (k', w) :: m' => if beqb k k' then (k, h) :: m' else (k', w) :: hput k h m'
  end.
Definition entries (l : list (bytes * hash)) : list (bytes * hash) := fold_left (fun m p => hput (coerce (fst p)) (snd p) m) (sorted l) [].

Fixpoint all {A} (l : list (option A)) : option (list A) :=
  match l with
  | [] => Some []
  | None :: _ => None
  | Some x :: l' => option_map (cons x) (all l')
  end.
Definition keyed {A} (k : bytes) (x : option A) : option (bytes * A) := option_map (pair k) x.

(** [None]: the zero value of the type *)
Definition fieldOf (f : string) (v : option val) : option val := match v with Some (VObj o) => fget f o | _ => None end.

Fixpoint hashOf (t : gty) (v : option val) : option hash :=
  match t with
  | GBool => Some (HBool (match v with Some (VBool x) => x | _ => false end))
  | GStr => Some (HStr (coerce (match v with Some (VStr s) => s | _ => [] end)))
  | GFloat => let f := match v with Some (VFloat f) => f | _ => S754_zero false end in if finite f then Some (HNum f) else None
  | GUint _ | GSint _ => Some (HNum (f_of_Z (match v with Some (VInt z) => z | _ => 0%Z end)))
  | GSlice u => match v with
                | Some (VList l) => option_map HList (all (map (fun x => hashOf u (Some x)) l))
                | _ => Some HNil
                end
  | GArray n u => option_map HList (all (match v with
                                         | Some (VList l) => map (fun x => hashOf u (Some x)) l
                                         | _ => repeat (hashOf u None) n
                                         end))
  | GMap u => match v with
              | Some (VMap m) => option_map (fun l => HMap (entries l)) (all (map (fun p => keyed (fst p) (hashOf u (Some (snd p)))) m))
              | _ => Some HNil
              end
  | GNumbered _ | GAny | GError => Some HNil (* never set, see C93 *)
  | GStruct fs =>
      option_map HMap
        ((fix go fs := match fs with
                       | [] => Some []
                       | (f, u) :: fs' =>
                           if exported f then
                             match hashOf u (fieldOf f v), go fs' with
                             | Some h, Some l => Some ((b f, h) :: l)
                             | _, _ => None
                             end
                           else go fs'
                       end) fs)
  end.

(** a2l.go 38-52 *)
Definition toHashMap (a : fields) : option hash := hashOf type_A2L (Some (VObj a)).
