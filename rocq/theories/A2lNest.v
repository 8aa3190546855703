(** An analysis of parser functions: the tokens consumed without error are well
    nested. *)
From Coq Require Import String Ascii List Arith NArith ZArith Bool Lia SpecFloat.
From Verif Require Import GoBase GoBaseFacts A2lIR A2lTokens A2lSpec A2lCheck A2lNestSpec.
Import ListNotations.

(** What is known of the tokens from the start to the cursor: they are nested
    - [Clean]: including the token under the cursor, which is not the last one;
    - [Pending]: without the token under the cursor, which is not the last one;
    - [Keyword]: likewise, and the token under the cursor is a keyword;
    - [Is t]: without the token under the cursor, which is [t].
    [Stuck]: the cursor is at the last token.  [Lost]: nothing is known. *)
Inductive tk := Clean | Pending | Keyword | Is (t : string) | Stuck | Lost.
(** with the error *)
Definition ns := (tk * bool)%type.

Definition teqb (x y : tk) : bool :=
  match x, y with
  | Clean, Clean | Pending, Pending | Keyword, Keyword | Stuck, Stuck | Lost, Lost => true
  | Is t, Is u => String.eqb t u
  | _, _ => false
  end.
Definition nseqb (x y : ns) : bool := teqb (fst x) (fst y) && Bool.eqb (snd x) (snd y).
Definition has (x : ns) (l : list ns) : bool := existsb (nseqb x) l.
Definition add (x : ns) (l : list ns) : list ns := if has x l then l else x :: l.
Definition union (l m : list ns) : list ns := fold_right add m l.

Definition nextNs (t : tk) : list tk :=
  match t with
  | Clean => [Pending; Is ""]
  | Is u => if isEmpty u then [t] else if bracket (b u) then [Lost] else [Pending; Is ""]
  | Stuck => [Stuck]
  | _ => [Lost]
  end.
(** the token under the cursor is a number or in a table of words *)
Definition wordNs (t : tk) : list tk :=
  match t with
  | Is u => if isEmpty u then [] else [Clean]
  | Stuck => []
  | Lost => [Lost]
  | _ => [Clean]
  end.
Definition isNs (u : string) (t : tk) : list tk :=
  match t with
  | Clean => if isEmpty u then [] else [Clean]
  | Pending => if isEmpty u then [] else [Is u]
  | Keyword => if isKeyword (b u) then [Is u] else []
  | Is u' => if String.eqb u u' then [t] else []
  | Stuck => if isEmpty u then [Stuck] else []
  | Lost => [Lost]
  end.

Definition with_ (e : bool) (l : list tk) : list ns := map (fun t => (t, e)) l.
Fixpoint refT (c : cond) (a : ns) : list ns :=
  match c with
  | CurIs u => with_ (snd a) (isNs u (fst a))
  | CurKw => match fst a with
             | Pending => [(Keyword, snd a)]
             | Is u => if isKeyword (b u) then [a] else []
             | Stuck => []
             | _ => [a]
             end
  | ErrSet => if snd a then [a] else []
  | Or c d => union (refT c a) (refT d a)
  | _ => [a]
  end.
Fixpoint refF (c : cond) (a : ns) : list ns :=
  match c with
  | CurIs u => match fst a with
               | Is u' => if String.eqb u u' then [] else [a]
               | Stuck => if isEmpty u then [] else [a]
               | _ => [a]
               end
  | CurKw => match fst a with
             | Pending => [(Clean, snd a)]
             | Keyword => []
             | Is u => if isKeyword (b u) then [] else [a]
             | _ => [a]
             end
  | ErrSet => if snd a then [] else [a]
  | Or c d => flat_map (refF d) (refF c a)
  | _ => [a]
  end.

Definition nsrc (r : src) (t : tk) : list tk := match r with FromNext => nextNs t | FromCur => [t] end.

(** states in which a statement is left normally, and by break *)
Definition nout := (list ns * list ns)%type.
Definition nor (x y : nout) : nout := (union (fst x) (fst y), union (snd x) (snd y)).
Fixpoint nall (f : ns -> nout) (l : list ns) : nout :=
  match l with [] => ([], []) | a :: l' => nor (f a) (nall f l') end.
Definition nthen (x : nout) (f : ns -> nout) : nout := nor ([], snd x) (nall f (fst x)).

(** What a function called at a token that is not the last consumes when it
    returns no error: nested tokens; nested tokens and an end keyword (or, if the
    flag is set, it is at the last token); nothing, and the token under the cursor
    is not a begin or end keyword. *)
Inductive kind := Plain | Closes (t : string) (last : bool) | Taken | Unknown.

Definition atLast (t : tk) : bool := match t with Stuck => true | Is t => isEmpty t | _ => false end.
Definition kindOf (os : list ns) : kind :=
  let l := map fst (filter (fun a => negb (snd a)) os) in
  if forallb (teqb Clean) l then Plain
  else match filter (fun t => negb (atLast t)) l with
       | Is t :: l' => if forallb (teqb (Is t)) l' then Closes t (existsb atLast l) else Unknown
       | _ => Unknown
       end.

Definition words (table : list (string * string)) : bool :=
  forallb (fun p => negb (isEmpty (fst p)) && negb (bracket (b (fst p)))) table.

(** [t] and [c] are the begin and the end keyword of the same object *)
Definition pair_ (t c : string) : bool :=
  let x := substring 7 (String.length t) t in String.eqb t ("/begin " ++ x) && String.eqb c ("/end " ++ x) && bracket (b t) && bracket (b c).

(** the states after a call without error of a function of kind [k]; [stop t]: it
    returns without error only at [t]; [ok]: it returns *)
Definition afterCall (op : list string) (k : kind) (stop : string -> bool) (ok : unit -> bool) (a : tk) : list tk :=
  match a, k with
  | Stuck, _ => if ok tt then [Stuck] else [Lost]
  | Lost, _ => [Lost]
  | _, Taken => wordNs a
  | Clean, Plain => [Clean]
  | Is t, Plain => [if isEmpty t then Lost else if bracket (b t) then Lost else Clean]
  | Is t, Closes c last => (if pair_ t c then Clean else Lost) :: if last then [Stuck] else []
  | Is t, Unknown => [if existsb (fun x => String.eqb t ("/begin " ++ x) && stop ("/end " ++ x)) op then Clean else Lost]
  | _, _ => [Lost]
  end%string.

(** rounds of a loop: the states in which the loop is left *)
Fixpoint rounds (n : nat) (body : ns -> nout) (l : list ns) : option (list ns) :=
  match n with
  | 0 => None
  | S n' => let '(gs, os) := nall body l in
            if forallb (fun g => has g l) gs then Some os else rounds n' body (union gs l)
  end.

Section Names.
(** the objects whose contents are not looked at *)
Variable op : list string.

Fixpoint nst (x : stmt) (a : ns) : nout :=
  match x with
  | Next => (with_ (snd a) (nextNs (fst a)), [])
  | Prev => match fst a with
            | Keyword => ([(Clean, snd a)], [])
            | Is t => ([(if isEmpty t then Lost else Clean, snd a)], [])
            | _ => ([(Lost, snd a)], [])
            end
  | Set_ _ _ | App _ _ | Fill _ _ _ | Put _ _ _ => ([a], [])
  | Num _ _ r => let l := nsrc r (fst a) in (with_ false (flat_map wordNs l) ++ with_ true l, [])
  | CallF _ g | CallV _ g =>
      (with_ false (afterCall op (kindFn g) (endsAt g) (fun _ => okfn g) (fst a)) ++ [(Lost, true)], [])
  | Raise => ([(fst a, true)], [])
  | Break => ([], [a])
  | If c k k' => nor (nall (nbl k) (refT c a)) (nall (nbl k') (refF c a))
  | Switch r cs d => let l := with_ (snd a) (nsrc r (fst a)) in nor (nca cs l) (nall (nbl d) l)
  end
with nbl (k : block) (a : ns) : nout :=
  match k with
  | Skip => ([a], [])
  | Seq x k' => nthen (nst x a) (nbl k')
  end
with nca (cs : cases) (l : list ns) : nout :=
  match cs with
  | Default => ([], [])
  | Case t k cs' => nor (nall (nbl k) (flat_map (fun a => with_ (snd a) (isNs t (fst a))) l)) (nca cs' l)
  end
with kindFn (g : fn) : kind :=
  match g with
  | Enum adv table => if words table then if adv then Plain else Taken else Unknown
  | Straight k => let '(gs, os) := nbl k (Clean, false) in kindOf (union gs os)
  | Loop pre body =>
      let '(gs, os) := nbl pre (Clean, false) in
      match rounds 6 (nbl body) gs with
      | Some os' => kindOf (union os os')
      | None => Unknown
      end
  end.

(** A function that starts with the token under the cursor and ends at the last
    token: the states in which it is left without an error. *)
Definition nestedFile (g : fn) : bool :=
  match g with
  | Loop Skip body => match rounds 6 (nbl body) [(Pending, false); (Is "", false)] with
                      | Some os => forallb (fun a => snd a || teqb (fst a) (Is "")) os
                      | None => false
                      end
  | _ => false
  end.
End Names.
