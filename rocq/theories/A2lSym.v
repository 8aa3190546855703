(** A decision procedure for: parser [g] reads objects of form [f].

    Parsers are executed on token classes instead of tokens.  Definitions only;
    A2lSymThm.v proves that a positive answer is right. *)
From Coq Require Import String Ascii List Arith ZArith NArith Bool SpecFloat.
From Verif Require Import GoBase A2lIR A2lTokens A2lGrammar.
Import ListNotations.

(** what the input consists of: a certain word, words for parameters, some
    keyword, the words of an object *)
Inductive tclass := TExact (s : string) | TWord | TOther (stop : string) | TNum (n : num) | TIn (l : list string) | TKw | TSub (f : form).

(** values: the value of the [p]-th part of the input, and constants *)
Inductive aval := ATok (p : nat) | ATrue | ALit (s : string) | AMap.
(** changes of the object *)
Inductive act := ASet (f : string) (a : aval) | AApp (f : string) (a : aval) | ACat (f : string) (a : aval)
  | AFill (f : string) (n : nat) (a : aval) | APut (f : string) (a : aval) (k : string).
Definition afield (a : act) : string := match a with ASet f _ | AApp f _ | ACat f _ | AFill f _ _ | APut f _ _ => f end.

(** a state: number of parts read, changes so far, variables, error *)
Record sy := Sy { y_pos : nat; y_acts : list act; y_var : list (string * aval); y_err : bool }.
(** the surroundings: the input; whether the token before it is known not to be
    empty; about the object before the changes: which flags
    are set, which fields are unknown (the others are unset), which are maps; in
    a counted group: whether it is the last round, the count, the lists *)
Record ctx := Ctx { c_in : list tclass; c_first : bool; c_true : list string; c_any : list string; c_maps : list string;
                    c_last : option bool; c_count : string; c_lists : list string }.

Definition mem (f : string) (l : list string) : bool := existsb (String.eqb f) l.

Definition num_eqb (m n : num) : bool :=
  match m, n with NUint x, NUint y => N.eqb x y | NInt x, NInt y => N.eqb x y | NFloat, NFloat => true | _, _ => false end.
Definition aval_eqb (x y : aval) : bool :=
  match x, y with ATok p, ATok q => Nat.eqb p q | ATrue, ATrue => true | ALit s, ALit t => String.eqb s t | AMap, AMap => true | _, _ => false end.
Definition act_eqb (x y : act) : bool :=
  match x, y with
  | ASet f a, ASet g c => String.eqb f g && aval_eqb a c
  | AApp f a, AApp g c => String.eqb f g && aval_eqb a c
  | ACat f a, ACat g c => String.eqb f g && aval_eqb a c
  | AFill f n a, AFill g m c => String.eqb f g && Nat.eqb n m && aval_eqb a c
  | APut f a k, APut g c l => String.eqb f g && aval_eqb a c && String.eqb k l
  | _, _ => false
  end.
Fixpoint acts_eqb (l m : list act) : bool :=
  match l, m with [], [] => true | x :: l', y :: m' => act_eqb x y && acts_eqb l' m' | _, _ => false end.

Definition single (c : tclass) : bool := match c with TSub _ => false | _ => true end.
(** is the token equal to [s]?  [None]: not known *)
Definition classIs (c : tclass) (s : string) : option bool :=
  match c with
  | TExact t => Some (String.eqb t s)
  | TWord | TNum _ => if String.eqb s "" then Some false else if reserved (b s) then Some false else None
  | TOther stop => if String.eqb s "" then Some false else if String.eqb s stop then Some false else None
  | TIn l => if mem s l then None else Some false
  | TKw => if String.eqb s "" then Some false else None
  | TSub _ => None
  end.
Definition classKw (c : tclass) : option bool :=
  match c with
  | TExact t => Some (isKeyword (b t))
  | TWord | TNum _ => Some false
  | TIn l => if forallb (fun s => negb (isKeyword (b s))) l then Some false
             else if forallb (fun s => isKeyword (b s)) l then Some true else None
  | TKw => Some true
  | TOther _ | TSub _ => None
  end.
(** is the value of the class its text? *)
Definition textual (c : tclass) : bool := match c with TNum _ | TSub _ => false | _ => true end.

Definition actsOn (f : string) (l : list act) : list act := filter (fun a => String.eqb f (afield a)) l.

Section Ctx.
  Variable X : ctx.

  (** the class of the current token and its number *)
  Definition curClass (y : sy) : option (tclass * nat) :=
    match y_pos y with 0 => None | S q => match nth_error (c_in X) q with Some c => Some (c, q) | None => None end end.
  Definition curIs (y : sy) (s : string) : option bool :=
    match y_pos y with
    | 0 => if c_first X && String.eqb s "" then Some false else None
    | S _ => match curClass y with Some (c, _) => classIs c s | None => None end
    end.

  Definition lastOn (f : string) (l : list act) : option act :=
    fold_left (fun r a => if String.eqb f (afield a) then Some a else r) l None.
  Definition flag (y : sy) (f : string) : option bool :=
    match lastOn f (y_acts y) with
    | Some (ASet _ ATrue) => Some true
    | Some _ => None
    | None => if mem f (c_true X) then Some true else if mem f (c_any X) then None else Some false
    end.
  Definition on (f : string) (y : sy) : list act := actsOn f (y_acts y).
  Definition isApp (a : act) : bool := match a with AApp _ _ => true | _ => false end.
  Definition isMap (f : string) (y : sy) : bool :=
    match lastOn f (y_acts y) with
    | Some (APut _ _ _) | Some (ASet _ AMap) => true
    | Some _ => false
    | None => mem f (c_maps X)
    end.

  Fixpoint stest (c : cond) (y : sy) : option bool :=
    match c with
    | CurIs s => curIs y s
    | CurKw => match curClass y with Some (c, _) => classKw c | None => None end
    | NotSet f => option_map negb (flag y f)
    | LenIs f n => if forallb isApp (on f y) && negb (mem f (c_true X)) && negb (mem f (c_any X))
                   then Some (List.length (on f y) =? n) else None
    | Len16Is f g => match c_last X with
                     | Some l => if String.eqb g (c_count X) && mem f (c_lists X) && forallb isApp (on f y)
                                    && (List.length (on f y) =? 1) && (List.length (on g y) =? 0) then Some l else None
                     | None => None
                     end
    | ErrSet => Some (y_err y)
    | Or c d => match stest c y with Some true => Some true | Some false => stest d y | None => None end
    end.

  Definition curText (y : sy) : option aval :=
    match curClass y with Some (c, q) => if textual c then Some (ATok q) else None | None => None end.
  Fixpoint look (v : string) (l : list (string * aval)) : option aval :=
    match l with [] => None | (w, a) :: l' => if String.eqb v w then Some a else look v l' end.
  Definition seval (e : expr) (y : sy) : option aval :=
    match e with
    | Cur => curText y
    | Var v => look v (y_var y)
    | Tru => Some ATrue
    | Lit s => Some (ALit s)
    | EmptyMap => Some AMap
    | CatCur _ => None
    end.

  Definition addAct (a : act) (y : sy) : sy := Sy (y_pos y) (y_acts y ++ [a]) (y_var y) (y_err y).
  Definition addVar (v : string) (a : aval) (y : sy) : sy := Sy (y_pos y) (y_acts y) ((v, a) :: y_var y) (y_err y).
  Definition sErr (e : bool) (y : sy) : sy := Sy (y_pos y) (y_acts y) (y_var y) e.
  Definition sPos (p : nat) (y : sy) : sy := Sy p (y_acts y) (y_var y) (y_err y).
  (** one more token *)
  Definition adv (y : sy) : option sy :=
    match nth_error (c_in X) (y_pos y) with
    | Some c => if single c then Some (sPos (S (y_pos y)) y) else None
    | None => None
    end.
  Definition sread (r : src) (y : sy) : option sy := match r with FromNext => adv y | FromCur => Some y end.
  Definition go (o : option sy) : option (bool * sy) := option_map (pair false) o.
End Ctx.

Definition selfText (table : list (string * string)) (s : string) : bool :=
  match findText (b s) table with Some v => beqb v (b s) | None => false end.

(** rounds of a loop until [goal] parts are read or the loop is left *)
Fixpoint rounds (n : nat) (body : sy -> option (bool * sy)) (goal : nat) (y : sy) : option (bool * sy) :=
  if y_pos y =? goal then Some (false, y)
  else match n with
       | 0 => None
       | S n' => match body y with
                 | Some (false, y') => rounds n' body goal y'
                 | r => r
                 end
       end.

Definition pclass (stop : string) (p : param) : tclass :=
  match p_type p with Text => TWord | Any => TOther stop | Number n => TNum n | Choice l => TIn l end.
Definition putAct (p : param) (i : nat) : list act :=
  match p_how p with
  | One => [ASet (p_field p) (ATok i)]
  | Append => [AApp (p_field p) (ATok i)]
  | Concat => [ACat (p_field p) (ATok i)]
  | Copies n => [AFill (p_field p) n (ATok i)]
  | Nowhere => []
  end.
Definition markAct (m : bool) (p : param) : list act :=
  if m then match p_flag p with Some g => [ASet g ATrue] | None => [] end else [].
Fixpoint pacts (m : bool) (i : nat) (ps : list param) : list act :=
  match ps with [] => [] | p :: ps' => putAct p i ++ markAct m p ++ pacts m (S i) ps' end.
Definition cacts (cs : list (string * const)) : list act :=
  map (fun fc => ASet (fst fc) (match snd fc with CTrue => ATrue | CText s => ALit s end)) cs.
Definition macts (ms : list string) : list act := map (fun f => ASet f AMap) ms.

Definition isTrue (a : act) : bool := match a with ASet _ ATrue => true | _ => false end.

Definition start : sy := Sy 0 [] [] false.
Definition plain (l : list tclass) : ctx := Ctx l true [] [] [] None "" [].
(** [n] parts read, no error, these changes *)
Definition good (n : nat) (l : list act) (y : sy) : bool := (y_pos y =? n) && negb (y_err y) && acts_eqb (y_acts y) l.

Definition gacts (g : group) : list act :=
  match g with NoGroup => [] | Free gs => pacts false 0 gs | Counted _ gs => pacts true 0 gs end.
Definition ifield (i : item) : string := match i with Item _ f _ _ => f end.
Definition placeAct (p : place) (f : string) : act :=
  match p with Single => ASet f (ATok 1) | Several => AApp f (ATok 1) | Under k => APut f (ATok 1) k end.
Fixpoint strs_eqb (l m : list string) : bool :=
  match l, m with [], [] => true | x :: l', y :: m' => String.eqb x y && strs_eqb l' m' | _, _ => false end.
(** the class of the words that may follow an object *)
Definition nextClass (sub : form) : list tclass :=
  match sub with Ahead _ _ _ [] => [TKw] | Ahead _ _ _ l => [TIn l] | _ => [] end.
Definition nextOk (sub : form) (c : option tclass) : bool :=
  match sub with
  | Ahead _ _ _ [] => match c with Some TKw => true | _ => false end
  | Ahead _ _ _ l => match c with Some (TIn l') => strs_eqb l l' | _ => false end
  | _ => true
  end.

(** flags set, and the other fields changed *)
Definition flagsOf (l : list act) : list string := map afield (filter isTrue l).
Definition othersOf (l : list act) : list string := map afield (filter (fun a => negb (isTrue a)) l).
Definition isPut (a : act) : bool := match a with APut _ _ _ => true | _ => false end.
(** the changes [l] do not touch the flags [T], only the fields [A] and their
    own flags, and leave maps maps *)
Definition presOk (T A ms : list string) (l : list act) : bool :=
  forallb (fun a => isTrue a || (negb (mem (afield a) T) && mem (afield a) A && negb (mem (afield a) (flagsOf l)))) l &&
  forallb (fun a => negb (mem (afield a) ms) || isPut a) l.

(** ** The parts in which a parser with a loop is executed *)
Section Parts.
  Variables pre body : ctx -> sy -> option (bool * sy).

  (** the parameters, to which the changes [a1] belong *)
  Definition paramsOk (cl : list tclass) (a1 : list act) : bool :=
    match pre (plain cl) start with
    | Some (false, y) => match rounds (S (List.length cl)) (body (plain cl)) (List.length cl) y with
                         | Some (false, y') => good (List.length cl) a1 y'
                         | _ => false
                         end
    | _ => false
    end.
  (** the repeated parameters, after the changes [a1] *)
  Definition groupOk (stop : string) (a1 : list act) (T A ms : list string) (g : group) : bool :=
    match g with
    | NoGroup => true
    | Free gs =>
        let gl := map (pclass stop) gs in
        presOk T A ms (pacts false 0 gs) &&
        match rounds (S (List.length gl)) (body (Ctx gl false T A ms None "" [])) (List.length gl) start with
        | Some (false, y) => good (List.length gl) (pacts false 0 gs) y
        | _ => false
        end
    | Counted c gs =>
        let gl := map (pclass stop) gs in
        let gf := map p_field gs in
        forallb (fun f => negb (mem f (map afield a1)) && negb (mem f ms)) gf &&
        forallb (fun l => let acts := pacts l 0 gs in
                          presOk T A ms acts && negb (mem c (map afield acts)) &&
                          forallb (fun f => forallb isApp (actsOn f acts) && (List.length (actsOn f acts) =? 1)) gf &&
                          match rounds (S (List.length gl)) (body (Ctx gl false T A ms (Some l) c gf)) (List.length gl) start with
                          | Some (false, y) => good (List.length gl) acts y
                          | _ => false
                          end) [false; true]
    end.
  Definition itemOk (T A ms : list string) (i : item) : bool :=
    match i with
    | Item kw f p sub =>
        presOk T A ms [placeAct p f] && negb (String.eqb kw "") &&
        match rounds 2 (body (Ctx (TExact kw :: TSub sub :: nextClass sub) false T A ms None "" [])) 2 start with
        | Some (false, y) => good 2 [placeAct p f] y
        | _ => false
        end
    end.
  Definition blockOk (ms : list string) (ps : list param) (g : group) (its : list item) (stop : string) (cs : list (string * const)) : bool :=
    let a1 := pacts true 0 ps in
    let T := flagsOf a1 in
    let A := ms ++ othersOf a1 ++ othersOf (gacts g) ++ map ifield its in
    let T' := flagsOf (gacts g) ++ T in
    paramsOk (map (pclass stop) ps) (macts ms ++ a1) && presOk [] A ms a1 &&
    groupOk stop a1 T A ms g &&
    forallb (itemOk T' A ms) its && negb (String.eqb stop "") &&
    match body (Ctx [TExact stop] false T' A ms None "" []) start with
    | Some (true, y) => good 1 (cacts cs) y
    | _ => false
    end.
  Definition aheadOk (ps gs : list param) (cs : list (string * const)) (nexts : list string) : bool :=
    let a1 := pacts true 0 ps in
    let T := flagsOf a1 in
    let A := othersOf a1 ++ othersOf (pacts false 0 gs) in
    paramsOk (map (pclass "") ps) a1 && presOk [] A [] a1 &&
    groupOk "" a1 T A [] (Free gs) &&
    forallb (fun s => negb (String.eqb s "")) nexts &&
    forallb (fun c => match body (Ctx [c] false T A [] None "" []) start with
                      | Some (true, y) => good 0 (cacts cs) y
                      | _ => false
                      end) (match nexts with [] => [TKw] | _ => map TExact nexts end).
End Parts.

Fixpoint sx (X : ctx) (x : stmt) (y : sy) {struct x} : option (bool * sy) :=
  match x with
  | Next => go (adv X y)
  | Prev => match curClass X y with Some (c, q) => if single c then Some (false, sPos q y) else None | None => None end
  | Set_ f e => match e with
                | CatCur g => if String.eqb f g then go (option_map (fun a => addAct (ACat f a) y) (curText X y)) else None
                | _ => go (option_map (fun a => addAct (ASet f a) y) (seval X e y))
                end
  | App f e => go (option_map (fun a => addAct (AApp f a) y) (seval X e y))
  | Fill f n e => go (option_map (fun a => addAct (AFill f n a) y) (seval X e y))
  | Put f v k => if isMap X f y then go (option_map (fun a => addAct (APut f a k) y) (look v (y_var y))) else None
  | Num v n r => match sread X r y with
                 | Some y' => match curClass X y' with
                              | Some (TNum m, q) => if num_eqb m n then Some (false, sErr false (addVar v (ATok q) y')) else None
                              | _ => None
                              end
                 | None => None
                 end
  | CallF f g => match g with
                 | Enum false table =>
                     match curClass X y with
                     | Some (TIn l, q) => if forallb (selfText table) l then Some (false, sErr false (addAct (ASet f (ATok q)) y)) else None
                     | _ => None
                     end
                 | _ => match nth_error (c_in X) (y_pos y), curIs X y "" with
                        | Some (TSub sub), Some false =>
                            if nextOk sub (nth_error (c_in X) (S (y_pos y))) && sf g sub
                            then Some (false, sErr false (addAct (ASet f (ATok (y_pos y))) (sPos (S (y_pos y)) y))) else None
                        | _, _ => None
                        end
                 end
  | CallV v g => match nth_error (c_in X) (y_pos y), curIs X y "" with
                 | Some (TSub sub), Some false =>
                     if nextOk sub (nth_error (c_in X) (S (y_pos y))) && sf g sub
                     then Some (false, sErr false (addVar v (ATok (y_pos y)) (sPos (S (y_pos y)) y))) else None
                 | _, _ => None
                 end
  | Raise => Some (false, sErr true y)
  | Break => Some (true, y)
  | If c a o => match stest X c y with Some true => sb X a y | Some false => sb X o y | None => None end
  | Switch r cs d => match sread X r y with
                     | Some y' => match sc X cs y' with Some (Some q) => Some q | Some None => sb X d y' | None => None end
                     | None => None
                     end
  end
with sb (X : ctx) (k : block) (y : sy) {struct k} : option (bool * sy) :=
  match k with
  | Skip => Some (false, y)
  | Seq x k' => match sx X x y with
                | Some (false, y') => sb X k' y'
                | r => r
                end
  end
(** [Some None]: no case applies *)
with sc (X : ctx) (cs : cases) (y : sy) {struct cs} : option (option (bool * sy)) :=
  match cs with
  | Default => Some None
  | Case t k cs' => match curIs X y t with
                    | Some true => option_map Some (sb X k y)
                    | Some false => sc X cs' y
                    | None => None
                    end
  end
with sf (g : fn) (f : form) {struct g} : bool :=
  match g with
  | Enum adv table => match f with Value (Choice l) => adv && forallb (selfText table) l | _ => false end
  | Straight k =>
      match f with
      | Fixed ps cs => let cl := map (pclass "") ps in
                       match sb (plain cl) k start with
                       | Some (_, y) => good (List.length cl) (pacts true 0 ps ++ cacts cs) y
                       | None => false
                       end
      | _ => false
      end
  | Loop pre body =>
      match f with
      | Value _ => false
      | Fixed ps cs => let cl := map (pclass "") ps in
                       match sb (plain cl) pre start with
                       | Some (false, y) => match rounds (S (List.length cl)) (sb (plain cl) body) (S (List.length cl)) y with
                                            | Some (true, y') => good (List.length cl) (pacts true 0 ps ++ cacts cs) y'
                                            | _ => false
                                            end
                       | _ => false
                       end
      | Ahead ps gs cs nexts => aheadOk (fun X => sb X pre) (fun X => sb X body) ps gs cs nexts
      | Block ms ps gr its stop cs => blockOk (fun X => sb X pre) (fun X => sb X body) ms ps gr its stop cs
      end
  end.
