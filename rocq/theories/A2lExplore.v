(** A procedure that follows all ways through a parser and decides whether the
    words read on each of them are those of a form.  Definitions only;
    A2lExploreThm.v proves that a positive answer is right. *)
From Coq Require Import String Ascii List Arith NArith ZArith Bool SpecFloat.
From Verif Require Import GoBase A2lIR A2lTokens A2lGrammar A2lAcceptSpec.
Import ListNotations.
Local Open Scope string_scope.

(** ** What is known about the words read *)

(** a word: not empty, a keyword or not, numbers as which it was read, one of
    these, none of these; or the words of the object that belongs to a keyword
    (the last of these, or the keyword, not empty) *)
Inductive part := Wd (e : bool) (k : option bool) (ns : list num) (x : option (list string)) (no : list string) | Sub (e : bool) (kw : string).
Definition unknown : part := Wd false None [] None [].

(** [Stuck]: the cursor is on the last token and does not move; [Gone]: nothing
    is known about the cursor *)
Inductive mode := Ok_ | Stuck | Gone.
(** the words since the start, the last one first; the error; flags *)
Record sy := Sy { y_mode : mode; y_parts : list part; y_err : option bool; y_obj : list (string * option bool) }.

Definition mem (f : string) (l : list string) : bool := existsb (String.eqb f) l.
Definition num_eqb (m n : num) : bool :=
  match m, n with NUint x, NUint y => N.eqb x y | NInt x, NInt y => N.eqb x y | NFloat, NFloat => true | _, _ => false end.

Definition nonEmpty (p : part) : bool :=
  match p with
  | Wd e k ns x no => e || match k with Some true => true | _ => false end || mem "" no
                      || match x with Some l => negb (mem "" l) | None => false end
                      || existsb (fun n => match n with NFloat => false | _ => true end) ns
  | Sub e _ => e
  end.
Definition notKw (p : part) : bool :=
  match p with
  | Wd e k ns x no => match k with Some false => true | _ => false end
                      || match x with Some l => forallb (fun s => negb (isKeyword (b s))) l | None => false end
  | Sub _ _ => false
  end.
Definition isKw (p : part) : bool :=
  match p with
  | Wd e k ns x no => match k with Some true => true | _ => false end
                      || match x with Some l => forallb (fun s => isKeyword (b s)) l | None => false end
  | Sub _ _ => false
  end.

(** the word is [s], is not [s]; [None]: that cannot be *)
Definition learnIs (s : string) (p : part) : option part :=
  match p with
  | Wd e k ns x no =>
      if nonEmpty p && String.eqb s "" then None
      else if mem s no then None
      else if match x with Some l => negb (mem s l) | None => false end then None
      else if notKw p && isKeyword (b s) then None
      else if isKw p && negb (isKeyword (b s)) then None
      else Some (Wd e k ns (Some [s]) no)
  | Sub _ _ => Some p
  end.
Definition learnNot (s : string) (p : part) : option part :=
  match p with
  | Wd e k ns x no =>
      match x with
      | Some l => if forallb (String.eqb s) l then None else Some (Wd e k ns (Some (filter (fun t => negb (String.eqb s t)) l)) (s :: no))
      | None => Some (Wd e k ns None (s :: no))
      end
  | Sub _ _ => Some p
  end.
Definition learnKw (r : bool) (p : part) : option part :=
  match p with
  | Wd e k ns x no => if (if r then notKw p else isKw p) then None else Some (Wd e (Some r) ns x no)
  | Sub _ _ => Some p
  end.
Definition learnNum (n : num) (p : part) : part :=
  match p with Wd e k ns x no => Wd e k (n :: ns) x no | Sub _ _ => p end.
(** the word is in the list *)
Definition learnIn (l : list string) (p : part) : part :=
  match p with Wd e k ns x no => Wd e k ns (Some l) no | Sub _ _ => p end.

Definition withHead (y : sy) (p : part) : sy :=
  match y_parts y with _ :: ps => Sy (y_mode y) (p :: ps) (y_err y) (y_obj y) | [] => y end.
Definition withErr (e : option bool) (y : sy) : sy := Sy (y_mode y) (y_parts y) e (y_obj y).
Definition withMode (m : mode) (y : sy) : sy := Sy m (y_parts y) (y_err y) (y_obj y).
Definition withObj (f : string) (v : option bool) (y : sy) : sy := Sy (y_mode y) (y_parts y) (y_err y) ((f, v) :: y_obj y).
Definition withParts (l : list part) (y : sy) : sy := Sy (y_mode y) l (y_err y) (y_obj y).

Fixpoint look (f : string) (l : list (string * option bool)) : option (option bool) :=
  match l with [] => None | (g, v) :: l' => if String.eqb f g then Some v else look f l' end.

Definition optl {A} (o : option A) : list A := match o with Some a => [a] | None => [] end.
Fixpoint flat {A B} (f : A -> option (list B)) (l : list A) : option (list B) :=
  match l with
  | [] => Some []
  | a :: l' => match f a, flat f l' with Some x, Some y => Some (x ++ y)%list | _, _ => None end
  end.

Definition paths := option (list (bool * sy)).

Section Explore.
  (** the keywords of the object with what follows them; are all flags not in [y_obj] unset? *)
  Variable its : list item.
  Variable closed : bool.

  Definition flag (f : string) (y : sy) : option bool :=
    match look f (y_obj y) with Some v => v | None => if closed then Some false else None end.

  Definition adv (y : sy) : option (list sy) :=
    match y_mode y with
    | Ok_ => match y_parts y with
             | p :: _ => let y' := withParts (unknown :: y_parts y) y in
                         Some (if nonEmpty p then [y'] else [y'; withMode Stuck y])
             | [] => None
             end
    | Stuck => Some [y]
    | Gone => None
    end.
  Definition sread (r : src) (y : sy) : option (list sy) := match r with FromNext => adv y | FromCur => Some [y] end.

  (** the ways on which the current token is [s], or is not *)
  Definition curIs (s : string) (y : sy) : list (bool * sy) :=
    match y_mode y, y_parts y with
    | Ok_, p :: _ => (map (fun q => (true, withHead y q)) (optl (learnIs s p)) ++ map (fun q => (false, withHead y q)) (optl (learnNot s p)))%list
    | Stuck, _ => [(String.eqb s "", y)]
    | _, _ => [(true, y); (false, y)]
    end.
  Definition curKw (y : sy) : list (bool * sy) :=
    match y_mode y, y_parts y with
    | Ok_, p :: _ => (map (fun q => (true, withHead y q)) (optl (learnKw true p)) ++ map (fun q => (false, withHead y q)) (optl (learnKw false p)))%list
    | Stuck, _ => [(false, y)]
    | _, _ => [(true, y); (false, y)]
    end.
  Fixpoint split (c : cond) (y : sy) : list (bool * sy) :=
    match c with
    | CurIs s => curIs s y
    | CurKw => curKw y
    | NotSet f => match flag f y with
                  | Some v => [(negb v, y)]
                  | None => [(true, withObj f (Some false) y); (false, withObj f (Some true) y)]
                  end
    | LenIs _ _ | Len16Is _ _ => [(true, y); (false, y)]
    | ErrSet => match y_err y with Some e => [(e, y)] | None => [(true, withErr (Some true) y); (false, withErr (Some false) y)] end
    | Or c d => flat_map (fun r => if fst r : bool then [(true, snd r)] else split d (snd r)) (split c y)
    end.

  Definition valueFlag (e : expr) : option bool :=
    match e with Tru => Some true | Var _ => None | _ => Some false end.

  (** reading the current token as a number, as one of [l] *)
  Definition number (n : num) (y : sy) : list sy :=
    match y_mode y, y_parts y with
    | Ok_, p :: _ => [withErr (Some false) (withHead y (learnNum n p)); withErr (Some true) y]
    | Stuck, _ => match n with NFloat => [withErr None y] | _ => [withErr (Some true) y] end
    | _, _ => [withErr None y]
    end.
  Definition choose (l : list string) (y : sy) : list sy :=
    match y_mode y, y_parts y with
    | Ok_, p :: _ =>
        let l' := filter (fun s => match learnIs s p with Some _ => true | None => false end) l in
        (match l' with [] => [] | _ => [withErr (Some false) (withHead y (learnIn l' p))] end ++ [withErr (Some true) y])%list
    | Stuck, _ => if mem "" l then [withErr None y] else [withErr (Some true) y]
    | _, _ => [withErr None y]
    end.
End Explore.

Definition exact (p : part) : option string := match p with Wd _ _ _ (Some [s]) _ => Some s | _ => None end.
Definition findItem (kw : string) (its : list item) : option form :=
  match find (fun i => match i with Item k _ _ _ => String.eqb kw k end) its with Some (Item _ _ _ sub) => Some sub | None => None end.

(** does an object of this form end with a word that is not empty? *)
Definition solid (f : form) : bool := match f with Block _ _ _ _ stop _ => negb (String.eqb stop "/end FRAME") | _ => true end.
Definition oneText : form := Fixed [Param One "" None Text] [].
Definition keys (table : list (string * string)) : list string := map fst table.

(** ** Checks *)

Definition fitP (ty : ptype) (p : part) : bool :=
  match p with
  | Wd e k ns x no => nonEmpty p &&
      match ty with
      | Text => notKw p
      | Any => true
      | Number n => existsb (num_eqb n) ns
      | Choice l => match x with Some l' => forallb (fun s => mem s l) l' | None => false end
      end
  | Sub _ _ => false
  end.
Fixpoint fitAll (ps : list param) (l : list part) : bool :=
  match ps, l with [], [] => true | p :: ps', q :: l' => fitP (p_type p) q && fitAll ps' l' | _, _ => false end.
Definition failed (y : sy) : bool := match y_err y with Some true => true | _ => false end.
Definition okMode (y : sy) : bool := match y_mode y with Ok_ => true | _ => false end.
(** the words after the first one *)
Definition wordsOf (y : sy) : list part := tl (rev (y_parts y)).

Definition wordP (stop : string) (p : part) : bool :=
  mem stop unchecked ||
  nonEmpty p && notKw p ||
  mem stop foreign && nonEmpty p && match p with Wd _ _ _ _ no => mem stop no | Sub _ _ => false end ||
  match exact p with Some k => existsb (fun q => String.eqb stop (fst q) && String.eqb k (snd q)) taken | None => false end.
Fixpoint insideP (stop : string) (l : list part) : bool :=
  match l with
  | [] => true
  | p :: l' => match p, l' with
               | Sub _ _, _ => false
               | _, Sub _ kw :: l'' => match exact p with Some k => String.eqb k kw | None => false end && insideP stop l''
               | _, _ => wordP stop p && insideP stop l'
               end
  end.
Definition endP (stop : string) (l : list part) : bool :=
  match l with
  | [p] => match exact p with Some k => String.eqb k stop || String.eqb stop "/end FRAME" && String.eqb k "" | None => false end
  | _ => false
  end.

Definition headSolid (y : sy) : bool := match y_parts y with p :: _ => nonEmpty p | [] => false end.
(** [n]: the first word is not empty *)
Definition fixedEnd (n : bool) (ps : list param) (y : sy) : bool :=
  failed y || okMode y && fitAll ps (wordsOf y) && (negb n || headSolid y).
(** rounds of a loop; [w]: at the beginning of each round the current token is
    known not to be empty; [s]: at the end *)
Definition round (w : bool) : sy := Sy Ok_ [if w then Wd true None [] None [] else unknown] None [].
Definition stuck : sy := Sy Stuck [] None [].
Definition leaveOk (good : list part -> bool) (y : sy) : bool := failed y || okMode y && good (wordsOf y).
Definition goOk (w : bool) (good : list part -> bool) (y : sy) : bool :=
  match y_mode y with Ok_ => good (wordsOf y) && (negb w || headSolid y) | Stuck => negb w | Gone => false end.
Definition roundOk (w s : bool) (leave go : list part -> bool) (r : bool * sy) : bool :=
  if fst r : bool then leaveOk leave (snd r) && (negb s || failed (snd r) || headSolid (snd r)) else goOk w go (snd r).
Definition roundsOk (body : sy -> paths) (w s : bool) (leave go : list part -> bool) : bool :=
  match body (round w), body stuck with
  | Some l, Some l' => forallb (roundOk w s leave go) l && (w || forallb (fun r => fst r && failed (snd r)) l')
  | _, _ => false
  end.
Definition plainP (l : list part) : bool := forallb (fun p => nonEmpty p && notKw p) l.
(** nothing was read *)
Definition untouched (r : bool * sy) : bool :=
  negb (fst r) && okMode (snd r) && match y_parts (snd r) with [_] => true | _ => false end.

(** at most [n] rounds; the states in which the loop is left *)
Fixpoint rounds (n : nat) (body : sy -> paths) (ys : list sy) : option (list sy) :=
  match ys, n with
  | [], _ => Some []
  | _, 0 => None
  | _, S n' => match flat body ys with
               | Some l => match rounds n' body (map snd (filter (fun r => negb (fst r)) l)) with
                           | Some os => Some (map snd (filter fst l) ++ os)%list
                           | None => None
                           end
               | None => None
               end
  end.

Definition start (first : part) : sy := Sy Ok_ [first] (Some false) [].
Definition one (y : sy) : paths := Some [(false, y)].

(** the call of a parser, given the answers about it *)
Definition tableOf (g : fn) : option (list (string * string)) := match g with Enum false table => Some table | _ => None end.
Definition xcall (its : list item) (table : option (list (string * string))) (acc : option form -> part -> bool) (y : sy) : option (list sy) :=
  match table with
  | Some table => Some (choose (keys table) y)
  | None =>
      match y_mode y, y_parts y with
      | Ok_, p :: _ =>
          let word := withErr (Some false) (withParts (Wd true (Some false) [] None [] :: y_parts y) y) in
          let bad := withErr (Some true) (withMode Gone y) in
          match exact p with
          | Some kw => match findItem kw its with
                       | Some sub => if acc (Some sub) p then Some [withErr (Some false) (withParts (Sub (solid sub && nonEmpty p) kw :: y_parts y) y); bad] else None
                       | None => if acc None p then Some [bad] else if acc (Some oneText) p then Some [word; bad] else None
                       end
          | None => if acc (Some oneText) p then Some [word; bad] else None
          end
      | _, _ => None
      end
  end.

Fixpoint xs (its : list item) (closed : bool) (x : stmt) (y : sy) {struct x} : paths :=
  match x with
  | Next => option_map (map (pair false)) (adv y)
  | Prev => match y_mode y, y_parts y with
            | Ok_, Wd _ _ _ _ _ :: p :: l => one (withParts (p :: l) y)
            | _, _ => None
            end
  | Set_ f e => one (withObj f (valueFlag e) y)
  | App f _ => one (withObj f (Some false) y)
  | Fill f _ _ => one (withObj f (Some false) y)
  | Put f _ _ => one (withObj f (Some false) y)
  | Num _ n r => match sread r y with Some l => Some (map (pair false) (flat_map (number n) l)) | None => None end
  | CallF f g => option_map (map (fun y' => (false, withObj f None y'))) (xcall its (tableOf g) (af g) y)
  | CallV _ g => option_map (map (pair false)) (xcall its (tableOf g) (af g) y)
  | Raise => one (withErr (Some true) y)
  | Break => Some [(true, y)]
  | If c a d => flat (fun r => if fst r : bool then xb its closed a (snd r) else xb its closed d (snd r)) (split closed c y)
  | Switch r cs d => match sread r y with Some l => flat (xc its closed cs (xb its closed d)) l | None => None end
  end
with xb (its : list item) (closed : bool) (k : block) (y : sy) {struct k} : paths :=
  match k with
  | Skip => one y
  | Seq x k' => match xs its closed x y with
                | Some l => flat (fun r => if fst r : bool then Some [r] else xb its closed k' (snd r)) l
                | None => None
                end
  end
with xc (its : list item) (closed : bool) (cs : cases) (other : sy -> paths) (y : sy) {struct cs} : paths :=
  match cs with
  | Default => other y
  | Case t k cs' => flat (fun r => if fst r : bool then xb its closed k (snd r) else xc its closed cs' other (snd r)) (curIs t y)
  end
(** parser [g] accepts only objects of form [f], or none at all, if the cursor is on a word [first] *)
with af (g : fn) (f : option form) (first : part) {struct g} : bool :=
  match g with
  | Enum next table => match f with Some (Value (Choice l)) => next && forallb (fun s => mem s l && negb (String.eqb s "")) (keys table) | _ => false end
  | Straight k =>
      match xb [] true k (start first) with
      | Some l => match f with
                  | Some (Fixed ps _) => forallb (fun r => fixedEnd (nonEmpty first) ps (snd r)) l
                  | None => forallb (fun r => failed (snd r)) l
                  | _ => false
                  end
      | None => false
      end
  | Loop pre body =>
      match f with
      | Some (Fixed _ _) | None =>
          match xb [] true pre (start first) with
          | Some l => forallb (fun r => negb (fst r)) l &&
              match rounds (match f with Some (Fixed ps _) => S (List.length ps) | _ => 4 end) (xb [] true body) (map snd l) with
              | Some os => match f with
                           | Some (Fixed ps _) => forallb (fixedEnd (nonEmpty first) ps) os
                           | _ => forallb failed os
                           end
              | None => false
              end
          | None => false
          end
      | Some (Block _ _ _ its stop _) =>
          match xb [] true pre (start first) with
          | Some l => forallb untouched l && negb (String.eqb stop "") &&
              (if roundsOk (xb its false body) false (negb (String.eqb stop "/end FRAME")) (endP stop) (insideP stop) then true else nonEmpty first && roundsOk (xb its false body) true (negb (String.eqb stop "/end FRAME")) (endP stop) (insideP stop))
          | _ => false
          end
      | Some (Ahead _ _ _ _) =>
          match xb [] true pre (start first) with
          | Some l => forallb untouched l && nonEmpty first && roundsOk (xb [] false body) true true plainP plainP
          | _ => false
          end
      | Some (Value _) => false
      end
  end.

Definition someWord : part := Wd true None [] None [].
