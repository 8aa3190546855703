(** An analysis of parser functions: behind every token consumed without error the
    objects of the kinds of a module are complete, and none of these tokens ends a
    module. *)
From Coq Require Import String Ascii List Arith NArith ZArith Bool Lia SpecFloat.
From Verif Require Import GoBase GoBaseFacts A2lIR A2lTokens A2lParsers A2lSpec A2lCheck A2lModModel A2lModSpec A2lNestSpec A2lNest A2lQuietSpec.
From Verif Require A2lStrictProps.
Import ListNotations.

(** The states and their sets are those of A2lNest.v, read so:
    - [Clean]: the objects are complete including the token under the cursor, which is not the last one;
    - [Pending], [Keyword], [Is t]: without the token under the cursor;
    - [Stuck]: the cursor is at the last token.  [Lost]: nothing is known. *)
Definition isBegin (t : bytes) : bool := existsb (fun k => beqb t (b (fst k))) kinds.
Definition isLoud (t : bytes) : bool := isBegin t || beqb t (b "/end MODULE").

Definition nextQ (t : tk) : list tk :=
  match t with
  | Clean => [Pending; Is ""]
  | Is u => if isEmpty u then [t] else if isLoud (b u) then [Lost] else [Pending; Is ""]
  | Stuck => [Stuck]
  | _ => [Lost]
  end.
Definition srcQ (r : src) (t : tk) : list tk := match r with FromNext => nextQ t | FromCur => [t] end.

(** What a function called at a token that is not the last consumes when it
    returns no error: complete objects (or, if the flag is set, it is at the last
    token); nothing, and the token under the cursor is not [loud]. *)
Inductive knd := Whole (last : bool) | Word | Open.

Definition wholeQ (t : tk) : bool := match t with Clean => true | Is t => negb (isLoud (b t)) | Stuck => true | _ => false end.
Definition kndOf (os : list ns) : knd :=
  let l := map fst (filter (fun a => negb (snd a)) os) in
  if forallb wholeQ l then Whole (existsb atLast l) else Open.

Definition sameFn (g h : fn) : bool := if A2lStrictProps.fn_dec g h then true else false.
(** [g] is the parser of the objects of a module that begin with [t] *)
Definition own (t : string) (g : fn) : bool := existsb (fun k => String.eqb t (fst k) && sameFn g (fst (snd k))) kinds.
(** [g] is the parser of the objects of [unread] that begin with [t] *)
Definition listed (t : string) (g : fn) : bool :=
  existsb (fun k => String.eqb t ("/begin " ++ fst k) && sameFn g (snd k) && endsAt g ("/end " ++ fst k)) unread.

Definition lastQ (last : bool) : list tk := if last then [Stuck] else [].
(** the states after a call without error of [g], of kind [k]; [ok]: it returns *)
Definition callQ (k : knd) (g : fn) (ok : unit -> bool) (a : tk) : list tk :=
  match a, k with
  | Stuck, _ => if ok tt then [Stuck] else [Lost]
  | Lost, _ => [Lost]
  | _, Word => wordNs a
  | Clean, Whole last => Clean :: lastQ last
  | Is t, Whole last => (if isEmpty t then Lost else if isLoud (b t) then if own t g then Clean else Lost else Clean) :: lastQ last
  | Is t, Open => [if listed t g then if isLoud (b t) then if own t g then Clean else Lost else Clean else Lost]
  | _, _ => [Lost]
  end.

Fixpoint qst (x : stmt) (a : ns) : nout :=
  match x with
  | Next => (with_ (snd a) (nextQ (fst a)), [])
  | Prev => match fst a with
            | Keyword => ([(Clean, snd a)], [])
            | Is t => ([(if isEmpty t then Lost else Clean, snd a)], [])
            | _ => ([(Lost, snd a)], [])
            end
  | Set_ _ _ | App _ _ | Fill _ _ _ | Put _ _ _ => ([a], [])
  | Num _ _ r => let l := srcQ r (fst a) in (with_ false (flat_map wordNs l) ++ with_ true l, [])
  | CallF _ g | CallV _ g =>
      (with_ false (callQ (kndFn g) g (fun _ => okfn g) (fst a)) ++ [(Lost, true)], [])
  | Raise => ([(fst a, true)], [])
  | Break => ([], [a])
  | If c k k' => nor (nall (qbl k) (refT c a)) (nall (qbl k') (refF c a))
  | Switch r cs d => let l := with_ (snd a) (srcQ r (fst a)) in nor (qca cs l) (nall (qbl d) l)
  end
with qbl (k : block) (a : ns) : nout :=
  match k with
  | Skip => ([a], [])
  | Seq x k' => nthen (qst x a) (qbl k')
  end
with qca (cs : cases) (l : list ns) : nout :=
  match cs with
  | Default => ([], [])
  | Case t k cs' => nor (nall (qbl k) (flat_map (fun a => with_ (snd a) (isNs t (fst a))) l)) (qca cs' l)
  end
with kndFn (g : fn) : knd :=
  match g with
  | Enum adv table => if words table then if adv then Whole false else Word else Open
  | Straight k => let '(gs, os) := qbl k (Clean, false) in kndOf (union gs os)
  | Loop pre body =>
      let '(gs, os) := qbl pre (Clean, false) in
      match rounds 6 (qbl body) gs with
      | Some os' => kndOf (union os os')
      | None => Open
      end
  end.
