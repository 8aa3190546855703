(** The subset of Go in which the parsers of package a2l are written, with its
    meaning.

    Each function [parseX(tok *tokenGenerator) (X, error)] of a2l/*.go fills the
    fields of one struct from the tokens.  A2lParsers.v contains these functions
    statement by statement as values of type [fn].  Log calls are left out; an
    error is reduced to whether it is nil. *)
From Coq Require Import String Ascii List Arith NArith ZArith Bool SpecFloat.
From Verif Require Import GoBase StrconvModel.
Import ListNotations.

(** ** Values *)

Inductive val :=
  | VStr (s : bytes)
  | VInt (z : Z)
  | VFloat (f : spec_float)
  | VBool (x : bool)
  | VList (l : list val)
  | VMap (m : list (bytes * val))
  | VObj (fields : list (string * val)).

Definition fields := list (string * val).

Fixpoint fget (f : string) (o : fields) : option val :=
  match o with
  | [] => None
  | (g, v) :: o' => if String.eqb f g then Some v else fget f o'
  end.
Fixpoint fset (f : string) (v : val) (o : fields) : fields :=
  match o with
  | [] => [(f, v)]
  | (g, w) :: o' => if String.eqb f g then (f, v) :: o' else (g, w) :: fset f v o'
  end.

(** Reading a field of a struct; a field that was not assigned is zero. *)
Definition fbool (f : string) (o : fields) : bool := match fget f o with Some (VBool x) => x | _ => false end.
Definition fstr (f : string) (o : fields) : bytes := match fget f o with Some (VStr s) => s | _ => [] end.
Definition fint (f : string) (o : fields) : Z := match fget f o with Some (VInt z) => z | _ => 0%Z end.
Definition flist (f : string) (o : fields) : list val := match fget f o with Some (VList l) => l | _ => [] end.
Definition fmap (f : string) (o : fields) : list (bytes * val) := match fget f o with Some (VMap m) => m | _ => [] end.

Fixpoint mput (k : bytes) (v : val) (m : list (bytes * val)) : list (bytes * val) :=
  match m with
  | [] => [(k, v)]
  | (k', w) :: m' => if beqb k k' then (k, v) :: m' else (k', w) :: mput k v m'
  end.

(** ** Numbers: strconv.ParseUint(s, 10, bits), strconv.ParseInt(s, 10, bits) *)

Fixpoint digits (s : bytes) (acc : N) : option N :=
  match s with
  | [] => Some acc
  | c :: s' => match digit_val c with Some d => digits s' (10 * acc + d)%N | None => None end
  end.
Definition ParseUint (bits : N) (s : bytes) : option Z :=
  match s with
  | [] => None
  | _ => match digits s 0 with
         | Some n => if (n <? 2 ^ bits)%N then Some (Z.of_N n) else None
         | None => None
         end
  end.
Definition ParseInt (bits : N) (s : bytes) : option Z :=
  let '(neg, r) := match s with
                   | "+"%char :: r => (false, r)
                   | "-"%char :: r => (true, r)
                   | _ => (false, s)
                   end in
  match ParseUint 64 r with
  | Some n => if neg then if (n <=? 2 ^ (Z.of_N bits - 1))%Z then Some (- n)%Z else None
              else if (n <? 2 ^ (Z.of_N bits - 1))%Z then Some n else None
  | None => None
  end.

(** ** Statements

    [x.f] is a field of the struct under construction, [v] a local variable. *)

Inductive expr :=
  | Cur                                  (* tok.current() *)
  | Var (v : string)                     (* v *)
  | Tru                                  (* true *)
  | Lit (s : string)                     (* a constant text *)
  | EmptyMap                             (* make(map[string]T, n) *)
  | CatCur (f : string).                 (* x.f + spaceToken + tok.current() *)

Inductive num := NUint (bits : N) | NInt (bits : N) | NFloat.

Inductive cond :=
  | CurIs (s : string)                   (* tok.current() == s *)
  | CurKw                                (* isKeyword(tok.current()) *)
  | NotSet (f : string)                  (* !x.f *)
  | LenIs (f : string) (n : nat)         (* len(x.f) == n *)
  | Len16Is (f g : string)               (* uint16(len(x.f)) == x.g *)
  | ErrSet                               (* err != nil *)
  | Or (c d : cond).                     (* c || d *)

(** what a switch or a number is read from: tok.next() or tok.current() *)
Inductive src := FromNext | FromCur.

Inductive stmt :=
  | Next                                 (* tok.next() *)
  | Prev                                 (* tok.previous() *)
  | Set_ (f : string) (e : expr)         (* x.f = e *)
  | App (f : string) (e : expr)          (* x.f = append(x.f, e) *)
  | Fill (f : string) (n : nat) (e : expr) (* for i := 0; i < n; i++ { x.f[i] = e } *)
  | Put (f : string) (v : string) (k : string) (* x.f[v.k] = v *)
  | Num (v : string) (n : num) (s : src) (* v, err = strconv.ParseN(s, ...) *)
  | CallF (f : string) (g : fn)          (* x.f, err = g(tok) *)
  | CallV (v : string) (g : fn)          (* v, err = g(tok) *)
  | Raise                                (* err = errors.New(...) *)
  | Break                                (* break forLoop *)
  | If (c : cond) (a : block) (o : block)
  | Switch (s : src) (cs : cases) (d : block)
with block :=
  | Skip
  | Seq (s : stmt) (k : block)
with cases :=
  | Default
  | Case (t : string) (k : block) (cs : cases)
with fn :=
  | Enum (next : bool) (table : list (string * string)) (* a switch over the current (next) token *)
  | Straight (k : block)                 (* statements *)
  | Loop (pre : block) (body : block).   (* statements, then for { ... } *)

(** The integer conversions uint16(buf), int16(buf), uint32(buf), int32(buf) in
    the source are applied to results of ParseUint and ParseInt of the same size
    and are left out. *)

(** ** Meaning *)

Record st := St { s_obj : fields; s_var : fields; s_err : bool; s_idx : nat }.

(** [Bad]: a panic; [Fuel]: the loop did not end within the given bound. *)
Inductive res := Go (s : st) | Out (s : st) | Bad | Fuel.
Inductive fres := Ret (v : val) (e : bool) (i : nat) | FBad | FFuel.

Section Exec.
  (** the keywords (tokens.go), the tokens (tokenList), strconv.ParseFloat, and
      a bound for the number of rounds of each loop *)
  Variable isKeyword : bytes -> bool.
  Variable toks : list bytes.
  Variable ParseFloat : bytes -> option spec_float.
  Variable fuel : nat.

  (** token_generator.go 21-27 *)
  Definition current (i : nat) : bytes := nth i toks [].
  (** token_generator.go 29-37: the new index and the token returned *)
  Definition moves (i : nat) : bool := S i <? List.length toks.
  Definition next (i : nat) : nat := if moves i then S i else i.
  Definition nextTok (i : nat) : bytes := if moves i then current (S i) else [].

  Definition eval (e : expr) (s : st) : val :=
    match e with
    | Cur => VStr (current (s_idx s))
    | Var v => match fget v (s_var s) with Some x => x | None => VObj [] end
    | Tru => VBool true
    | Lit t => VStr (b t)
    | EmptyMap => VMap []
    | CatCur f => VStr (fstr f (s_obj s) ++ b " " ++ current (s_idx s))
    end.

  Definition readNum (n : num) (t : bytes) : option val :=
    match n with
    | NUint k => option_map VInt (ParseUint k t)
    | NInt k => option_map VInt (ParseInt k t)
    | NFloat => option_map VFloat (ParseFloat t)
    end.

  (** what strconv returns together with an error; where the error is ignored at
      first, this is stored *)
  Definition failedNum (n : num) (t : bytes) : val :=
    match n with
    | NUint k => VInt (Z.of_N (failedUint k 0 t))
    | NInt k => VInt (failedInt k t)
    | NFloat => VFloat (failedFloat t)
    end.

  Fixpoint test (c : cond) (s : st) : bool :=
    match c with
    | CurIs t => beqb (current (s_idx s)) (b t)
    | CurKw => isKeyword (current (s_idx s))
    | NotSet f => negb (fbool f (s_obj s))
    | LenIs f n => List.length (flist f (s_obj s)) =? n
    | Len16Is f g => (Z.of_N (u16 (N.of_nat (List.length (flist f (s_obj s))))) =? fint g (s_obj s))%Z
    | ErrSet => s_err s
    | Or c d => test c s || test d s
    end.

  Definition setObj (f : string) (v : val) (s : st) : st := St (fset f v (s_obj s)) (s_var s) (s_err s) (s_idx s).
  Definition setVar (x : string) (v : val) (s : st) : st := St (s_obj s) (fset x v (s_var s)) (s_err s) (s_idx s).
  Definition setErr (e : bool) (s : st) : st := St (s_obj s) (s_var s) e (s_idx s).
  Definition setIdx (i : nat) (s : st) : st := St (s_obj s) (s_var s) (s_err s) i.

  (** the text of the token read, and the state afterwards *)
  Definition readSrc (r : src) (s : st) : bytes * st :=
    match r with
    | FromNext => (nextTok (s_idx s), setIdx (next (s_idx s)) s)
    | FromCur => (current (s_idx s), s)
    end.

  Definition varName (v k : string) (s : st) : bytes :=
    match fget v (s_var s) with Some (VObj o) => fstr k o | _ => [] end.

  Fixpoint findText (t : bytes) (table : list (string * string)) : option bytes :=
    match table with
    | [] => None
    | (c, v) :: table' => if beqb t (b c) then Some (b v) else findText t table'
    end.

  Fixpoint iter (n : nat) (body : st -> res) (s : st) : res :=
    match n with
    | 0 => Fuel
    | S n' => match body s with
              | Go s' => iter n' body s'
              | Out s' => Go s'
              | r => r
              end
    end.

  Fixpoint exec (x : stmt) (s : st) : res :=
    match x with
    | Next => Go (setIdx (next (s_idx s)) s)
    | Prev => match s_idx s with 0 => Bad | S i => Go (setIdx i s) end
    | Set_ f e => Go (setObj f (eval e s) s)
    | App f e => Go (setObj f (VList (flist f (s_obj s) ++ [eval e s])) s)
    | Fill f n e => Go (setObj f (VList (repeat (eval e s) n)) s)
    | Put f v k => match fget f (s_obj s) with
                   | Some (VMap m) => Go (setObj f (VMap (mput (varName v k s) (eval (Var v) s) m)) s)
                   | _ => Bad (* nil map *)
                   end
    | Num v n r => let '(t, s') := readSrc r s in
                   match readNum n t with
                   | Some w => Go (setErr false (setVar v w s'))
                   | None => Go (setErr true (setVar v (failedNum n t) s'))
                   end
    | CallF f g => match call g (s_idx s) with
                   | Ret v e i => Go (setIdx i (setErr e (setObj f v s)))
                   | FBad => Bad
                   | FFuel => Fuel
                   end
    | CallV v g => match call g (s_idx s) with
                   | Ret w e i => Go (setIdx i (setErr e (setVar v w s)))
                   | FBad => Bad
                   | FFuel => Fuel
                   end
    | Raise => Go (setErr true s)
    | Break => Out s
    | If c a o => if test c s then run a s else run o s
    | Switch r cs d => let '(t, s') := readSrc r s in
                       match pick cs t s' with Some q => q | None => run d s' end
    end
  with run (k : block) (s : st) : res :=
    match k with
    | Skip => Go s
    | Seq x k' => match exec x s with Go s' => run k' s' | r => r end
    end
  with pick (cs : cases) (t : bytes) (s : st) : option res :=
    match cs with
    | Default => None
    | Case c k cs' => if beqb t (b c) then Some (run k s) else pick cs' t s
    end
  with call (g : fn) (i : nat) : fres :=
    match g with
    | Enum adv table => let i' := if adv then next i else i in
                        let t := if adv then nextTok i else current i in
                        match findText t table with
                        | Some v => Ret (VStr v) false i'
                        | None => Ret (VStr []) true i'
                        end
    | Straight k => match run k (St [] [] false i) with
                    | Go s | Out s => Ret (VObj (s_obj s)) (s_err s) (s_idx s)
                    | Bad => FBad
                    | Fuel => FFuel
                    end
    | Loop pre body => match run pre (St [] [] false i) with
                       | Go s => match iter fuel (run body) s with
                                 | Go s' | Out s' => Ret (VObj (s_obj s')) (s_err s') (s_idx s')
                                 | Bad => FBad
                                 | Fuel => FFuel
                                 end
                       | Out s => Ret (VObj (s_obj s)) (s_err s) (s_idx s)
                       | Bad => FBad
                       | Fuel => FFuel
                       end
    end.
End Exec.

Notation "{{ x ; .. ; y }}" := (Seq x .. (Seq y Skip) ..).
