(** A check that a parser reads objects of a form in the common way.

    Used in A2lExactThm.v; nothing here is part of a statement. *)
From Coq Require Import String Ascii List Arith NArith ZArith Bool Lia SpecFloat.
From Verif Require Import GoBase GoBaseFacts A2lIR A2lTokens A2lGrammar A2lCheck A2lExactSpec.
Import ListNotations.
Local Open Scope string_scope.
Local Open Scope list_scope.

(** ** Equality *)

Definition num_eq (x y : num) : {x = y} + {x <> y}.
Proof. decide equality; apply N.eq_dec. Defined.
Definition ptype_eq (x y : ptype) : {x = y} + {x <> y}.
Proof. decide equality; [apply num_eq|apply (list_eq_dec string_dec)]. Defined.
Definition how_eq (x y : how) : {x = y} + {x <> y}.
Proof. decide equality; apply Nat.eq_dec. Defined.
Definition flag_eq (x y : option string) : {x = y} + {x <> y}.
Proof. decide equality; apply string_dec. Defined.
Definition param_eq (x y : param) : {x = y} + {x <> y}.
Proof. decide equality; [apply ptype_eq|apply flag_eq|apply string_dec|apply how_eq]. Defined.
Definition const_eq (x y : string * const) : {x = y} + {x <> y}.
Proof. decide equality; [decide equality; apply string_dec|apply string_dec]. Defined.
Definition expr_eq (x y : expr) : {x = y} + {x <> y}.
Proof. decide equality; apply string_dec. Defined.
Definition cond_eq (x y : cond) : {x = y} + {x <> y}.
Proof. decide equality; try apply string_dec; apply Nat.eq_dec. Defined.
Definition src_eq (x y : src) : {x = y} + {x <> y}.
Proof. decide equality. Defined.
Definition entry_eq (x y : string * string) : {x = y} + {x <> y}.
Proof. decide equality; apply string_dec. Defined.

Definition yes {A B : Prop} (d : {A} + {B}) : bool := if d then true else false.

Fixpoint sameS (x y : stmt) {struct x} : bool :=
  match x, y with
  | Next, Next | Prev, Prev | Raise, Raise | Break, Break => true
  | Set_ f e, Set_ f' e' | App f e, App f' e' => yes (string_dec f f') && yes (expr_eq e e')
  | Fill f n e, Fill f' n' e' => yes (string_dec f f') && (n =? n')%nat && yes (expr_eq e e')
  | Put f v k, Put f' v' k' => yes (string_dec f f') && yes (string_dec v v') && yes (string_dec k k')
  | Num v n s, Num v' n' s' => yes (string_dec v v') && yes (num_eq n n') && yes (src_eq s s')
  | CallF f g, CallF f' g' | CallV f g, CallV f' g' => yes (string_dec f f') && sameF g g'
  | If c k o, If c' k' o' => yes (cond_eq c c') && sameB k k' && sameB o o'
  | Switch r cs d, Switch r' cs' d' => yes (src_eq r r') && sameC cs cs' && sameB d d'
  | _, _ => false
  end
with sameB (x y : block) {struct x} : bool :=
  match x, y with
  | Skip, Skip => true
  | Seq s k, Seq s' k' => sameS s s' && sameB k k'
  | _, _ => false
  end
with sameC (x y : cases) {struct x} : bool :=
  match x, y with
  | Default, Default => true
  | Case t k cs, Case t' k' cs' => yes (string_dec t t') && sameB k k' && sameC cs cs'
  | _, _ => false
  end
with sameF (x y : fn) {struct x} : bool :=
  match x, y with
  | Enum a l, Enum a' l' => Bool.eqb a a' && yes (list_eq_dec entry_eq l l')
  | Straight k, Straight k' => sameB k k'
  | Loop p k, Loop p' k' => sameB p p' && sameB k k'
  | _, _ => false
  end.

Lemma yes_true : forall (A B : Prop) (d : {A} + {B}), yes d = true -> A.
Proof. intros A B [a|n] H; [exact a|discriminate]. Qed.

Lemma same_eq : (forall x y, sameS x y = true -> x = y) /\ (forall x y, sameB x y = true -> x = y)
   /\ (forall x y, sameC x y = true -> x = y) /\ (forall x y, sameF x y = true -> x = y).
Proof.
  apply ir_ind; intros;
    repeat match goal with
      | H : _ = true |- _ = ?y => is_var y; destruct y; cbn in H; try discriminate
      end; try reflexivity;
    repeat match goal with
      | H : _ && _ = true |- _ => apply andb_true_iff in H; destruct H
      | H : yes _ = true |- _ => apply yes_true in H; subst
      | H : (_ =? _)%nat = true |- _ => apply Nat.eqb_eq in H; subst
      | H : Bool.eqb _ _ = true |- _ => apply Bool.eqb_prop in H; subst
      | IH : (forall y, ?s ?x y = true -> ?x = y), H : ?s ?x ?z = true |- _ => apply IH in H; subst
      end; reflexivity.
Qed.

(** ** Stores *)

(** [Some brk]: the statements after a value was stored set the flag of [p],
    and leave the loop if [brk] *)
Definition tailOf (p : param) (k : block) : option bool :=
  match p_flag p, k with
  | Some g, Seq (Set_ g' Tru) Skip => if String.eqb g g' then Some false else None
  | Some g, Seq (Set_ g' Tru) (Seq Break Skip) => if String.eqb g g' then Some true else None
  | None, Skip => Some false
  | None, Seq Break Skip => Some true
  | _, _ => None
  end.

Definition freeWords (l : list string) : list string := filter (fun s => negb (isKeyword (b s))) l.
Definition within (l l' : list string) : bool := forallb (fun s => oneOf s l') l.
Definition tableOk (texts : list string) (table : list (string * string)) : bool :=
  forallb (fun e => String.eqb (fst e) (snd e)) table
  && within (freeWords texts) (map fst table) && within (freeWords (map fst table)) texts.

(** the statements [k] store the current token as parameter [p]; with an error
    they leave the loop if [leave], otherwise they go on *)
Definition isStore (leave : bool) (p : param) (k : block) : option bool :=
  let esc (e : block) := match e with Skip => negb leave | Seq Break Skip => leave | _ => false end in
  match p_type p with
  | Text | Any =>
      match p_how p, k with
      | One, Seq (Set_ f Cur) k' => if String.eqb f (p_field p) then tailOf p k' else None
      | Append, Seq (App f Cur) k' => if String.eqb f (p_field p) then tailOf p k' else None
      | Concat, Seq (Set_ f (CatCur f')) k' => if String.eqb f (p_field p) && String.eqb f' (p_field p) then tailOf p k' else None
      | Copies n, Seq (Fill f n' Cur) k' => if String.eqb f (p_field p) && (n =? n')%nat then tailOf p k' else None
      | _, _ => None
      end
  | Number n =>
      match k with
      | Seq (Num v n' FromCur) (Seq (If ErrSet e Skip) (Seq x k')) =>
          if yes (num_eq n n') && esc e then
            match p_how p, x with
            | One, Set_ f (Var v') => if String.eqb f (p_field p) && String.eqb v v' then tailOf p k' else None
            | Append, App f (Var v') => if String.eqb f (p_field p) && String.eqb v v' then tailOf p k' else None
            | Copies m, Fill f m' (Var v') => if String.eqb f (p_field p) && String.eqb v v' && (m =? m')%nat then tailOf p k' else None
            | _, _ => None
            end
          else None
      | _ => None
      end
  | Choice texts =>
      match p_how p, k with
      | One, Seq (CallF f (Enum false table)) (Seq (If ErrSet e Skip) k') =>
          if String.eqb f (p_field p) && esc e && tableOk texts table then tailOf p k' else None
      | _, _ => None
      end
  end.

Definition stays (o : option bool) : bool := match o with Some false => true | _ => false end.
Definition leaves (o : option bool) : bool := match o with Some true => true | _ => false end.

(** ** The chain of parameters *)

Fixpoint cellsOf (k : block) : list (string * block) :=
  match k with
  | Seq (If (NotSet fl) kb k') Skip => (fl, kb) :: cellsOf k'
  | _ => []
  end.
Fixpoint closed (k : block) : bool :=
  match k with
  | Skip => true
  | Seq (If (NotSet fl) kb k') Skip => closed k'
  | _ => false
  end.

(** the number of parameters in front that have a flag of their own *)
Fixpoint lead (ps : list param) (cs : list (string * block)) : nat :=
  match ps, cs with
  | p :: ps', (fl, _) :: cs' => if yes (flag_eq (p_flag p) (Some fl)) then S (lead ps' cs') else 0
  | _, _ => 0
  end.

Definition isNowhere (p : param) : bool :=
  match p_how p, p_flag p, p_type p with Nowhere, None, Text => true | _, _, _ => false end.
Definition isAny (p : param) : bool := match p_type p with Any => true | _ => false end.

Definition leadFlags (ps : list param) (k : block) : list string := map fst (firstn (lead ps (cellsOf k)) (cellsOf k)).
(** the flag in front of the further words; never set *)
Definition tailFlags (ps : list param) (r : option param) (k : block) : list string :=
  match r with
  | Some _ => match skipn (lead ps (cellsOf k)) (cellsOf k) with (fl, _) :: _ => [fl] | [] => [] end
  | None => []
  end.

Definition noneOf (l l' : list string) : bool := forallb (fun s => negb (oneOf s l')) l.
Fixpoint distinct (l : list string) : bool := match l with [] => true | s :: l' => negb (oneOf s l') && distinct l' end.

Definition storesAll (leave : bool) (ps : list param) (cs : list (string * block)) (n : nat) : bool :=
  forallb (fun pc => stays (isStore leave (fst pc) (snd (snd pc)))) (combine (firstn n ps) (firstn n cs)).

(** [k] stores words for [ps], then further words as [r] *)
Definition chainOk (ps : list param) (r : option param) (k : block) : bool :=
  let cs := cellsOf k in
  let n := lead ps cs in
  storesAll true ps cs n
  && match r with
     | Some q => forallb (fun p => yes (param_eq p q)) (skipn n ps)
                 && match skipn n cs with (_, kb) :: _ => stays (isStore true q kb) | [] => false end
     | None => forallb isNowhere (skipn n ps) && match skipn n cs with [] => closed k | _ => false end
     end.

(** fields that the words and the objects are stored in *)
Definition fieldsOf (ps : list param) (r : option param) (its : list item) : list string :=
  map p_field ps ++ match r with Some q => [p_field q] | None => [] end
  ++ map (fun it => match it with Item _ f _ _ => f end) its.
Definition flagsOf (r : option param) : list string :=
  match r with Some q => match p_flag q with Some g => [g] | None => [] end | None => [] end.

(** the flags are flags: each is set by its parameter and by nothing else;
    [ends] are flags that are never set, [ms] fields with maps *)
Definition flagsOk (ms : list string) (ps : list param) (r : option param) (its : list item) (ends : list string) (k : block) : bool :=
  let l := leadFlags ps k in
  let u := tailFlags ps r k ++ ends in
  distinct l && noneOf l u
  && noneOf (l ++ u) (fieldsOf ps r its) && noneOf (l ++ u) ms
  && noneOf (flagsOf r) u && noneOf (flagsOf r) ms
  && noneOf (map p_field ps ++ match r with Some q => [p_field q] | None => [] end) ms
  && forallb (fun it => match it with Item _ f (Under _) _ => oneOf f ms | Item _ f _ _ => negb (oneOf f ms) end) its.

(** ** Objects *)

Fixpoint findItem (kw : string) (its : list item) : option (string * place * form) :=
  match its with
  | [] => None
  | Item kw' f p sub :: its' => if String.eqb kw kw' then Some (f, p, sub) else findItem kw its'
  end.
Definition kwOf (it : item) : string := match it with Item kw _ _ _ => kw end.
Fixpoint keysOf (cs : cases) : list string := match cs with Default => [] | Case t _ cs' => t :: keysOf cs' end.

(** the loop as a switch over the next token *)
Definition bodyOf (k : block) : option (cases * block) :=
  match k with
  | Seq (Switch FromNext cs d) Skip => Some (cs, d)
  | Seq Next d => Some (Default, d)
  | _ => None
  end.
(** behind the test for the end of the file *)
Definition eofOf (k : block) : option block :=
  match k with
  | Seq (If (CurIs "") (Seq Raise (Seq Break Skip)) d) Skip => Some d
  | _ => None
  end.
(** behind the test for keywords *)
Definition kwTest (k : block) : option block :=
  match k with
  | Seq (If CurKw (Seq Raise (Seq Break Skip)) d) Skip => Some d
  | _ => None
  end.
Fixpoint setsOf (k : block) : option (list (string * const)) :=
  match k with
  | Seq Break Skip => Some []
  | Seq (Set_ f Tru) k' => option_map (cons (f, CTrue)) (setsOf k')
  | _ => None
  end.
(** what is done at the end of the object: the constants, and a flag that must not be set *)
Definition endsOf (k : block) : option (list (string * const) * list string) :=
  match k with
  | Seq (If (NotSet fl) (Seq (Set_ f (Lit t)) Skip) Skip) (Seq Break Skip) => Some ([(f, CText t)], [fl])
  | _ => option_map (fun cs => (cs, [])) (setsOf k)
  end.
(** the same when the object ends before the current token *)
Fixpoint backOf (k : block) : option (list (string * const)) :=
  match k with
  | Seq Prev (Seq Break Skip) => Some []
  | Seq (Set_ f Tru) k' => option_map (cons (f, CTrue)) (backOf k')
  | _ => None
  end.
Definition consts_eq (l l' : list (string * const)) : bool := yes (list_eq_dec const_eq l l').

(** a case that always ends with an error: it tests the keyword itself *)
Definition dead (kw : string) (k : block) : bool :=
  match k with
  | Seq (CallF _ (Enum false table)) (Seq (If ErrSet (Seq Break Skip) Skip) _) => negb (oneOf kw (map fst table)) && isKeyword (b kw)
  | _ => false
  end.

Fixpoint mapsOfPre (k : block) : option (list string) :=
  match k with
  | Skip => Some []
  | Seq (Set_ f EmptyMap) k' => option_map (cons f) (mapsOfPre k')
  | _ => None
  end.

Definition oneBody (k : block) : option block :=
  match k with
  | Seq (If (CurIs "") (Seq Raise Skip) (Seq (If CurKw (Seq Raise Skip) k2) Skip)) Skip =>
      Some match k2 with Seq (If (NotSet fl) kb Skip) Skip => kb | _ => k2 end
  | _ => None
  end.
Definition oneParam (ps : list param) (k : block) : bool :=
  match ps, k with
  | [p], Seq Next d => match oneBody d with Some kb => stays (isStore false p kb) | None => false end && negb (isAny p)
  | _, _ => false
  end.
Definition noParam (cs : list (string * const)) (k : block) : bool :=
  match k with
  | Seq (If (NotSet fl) (Seq (Set_ f Tru) (Seq (Set_ g Tru) Skip)) Skip) Skip => consts_eq cs [(f, CTrue); (g, CTrue)]
  | Seq (If (CurIs "") (Seq Raise Skip) (Seq (If (NotSet fl) (Seq (Set_ f Tru) (Seq (Set_ g Tru) Skip)) Skip) Skip)) Skip =>
      consts_eq cs [(f, CTrue); (g, CTrue)]
  | _ => false
  end.

(** a loop over a fixed number of parameters; the last one ends it *)
Definition fixedLoop (ps : list param) (body : block) : bool :=
  match bodyOf body with
  | Some (Default, d) =>
      match eofOf d with
      | Some d1 =>
          match kwTest d1 with
          | Some k =>
              let n := List.length ps in
              let cs := cellsOf k in
              (lead ps cs =? n)%nat && (0 <? n)%nat && storesAll true ps cs (n - 1)
              && match nth_error ps (n - 1), nth_error cs (n - 1) with
                 | Some p, Some (_, kb) => leaves (isStore true p kb)
                 | _, _ => false
                 end
              && forallb (fun p => negb (isAny p)) ps
              && flagsOk [] ps None [] [] k
          | None => false
          end
      | None => false
      end
  | _ => false
  end.

Definition aheadLoop (ps gs : list param) (cs : list (string * const)) (nexts : list string) (body : block) : bool :=
  match bodyOf body with
  | Some (Default, d) =>
      match eofOf d with
      | Some (Seq (If c e d2) Skip) =>
          match backOf e with
          | Some cs' =>
              match c, nexts with
              | CurKw, [] => consts_eq cs cs' && chainOk ps (further ps (Free gs) "") d2 && flagsOk [] ps (further ps (Free gs) "") [] [] d2
              | Or (CurIs s) (CurIs s'), [n; n'] =>
                  match kwTest d2 with
                  | Some k =>
                      String.eqb s n && String.eqb s' n' && negb (isEmpty s) && negb (isEmpty s')
                      && isKeyword (b s) && isKeyword (b s')
                      && consts_eq cs cs' && chainOk ps (further ps (Free gs) "") k && flagsOk [] ps (further ps (Free gs) "") [] [] k
                  | None => false
                  end
              | _, _ => false
              end
          | None => false
          end
      | _ => false
      end && forallb (fun p => negb (isAny p)) (ps ++ match further ps (Free gs) "" with Some q => [q] | None => [] end)
  | _ => false
  end.

Section Shape.
  (** the parsers of the special objects *)
  Variable ownFn : string -> option fn.

  Fixpoint shapeFn (g : fn) (f : form) {struct g} : bool :=
    match f with
    | Value (Choice texts) =>
        match g with
        | Enum true table => tableOk texts table && forallb (fun e => negb (isKeyword (b (fst e)))) table && forallb (fun e => negb (isEmpty (fst e))) table
        | _ => false
        end
    | Value _ => false
    | Fixed ps cs =>
        match g with
        | Straight k => match ps with [] => noParam cs k | _ => oneParam ps k && consts_eq cs [] end
        | Loop Skip body => fixedLoop ps body && consts_eq cs []
        | _ => false
        end
    | Ahead ps gs cs nexts =>
        match g with
        | Loop Skip body => aheadLoop ps gs cs nexts body
        | _ => false
        end
    | Block ms ps gr its stop cs =>
        if oneOf stop special then match ownFn stop with Some h => sameF g h | None => false end
        else
        match g with
        | Loop pre body =>
            match mapsOfPre pre with
            | Some ms' => yes (list_eq_dec string_dec ms ms')
            | None => false
            end
            && distinct (map kwOf its) && negb (oneOf stop (map kwOf its)) && negb (oneOf "" (map kwOf its)) && negb (isEmpty stop)
            && match body with
               | Seq (Switch FromNext cases d) Skip =>
                   shapeCases cases its && distinct (keysOf cases) && within (map kwOf its) (keysOf cases)
                   && negb (oneOf stop (keysOf cases)) && negb (oneOf "" (keysOf cases))
                   && match eofOf d with
                      | Some (Seq (If (CurIs stop') e d2) Skip) =>
                          match endsOf e, kwTest d2 with
                          | Some (cs', ends), Some k =>
                              String.eqb stop stop' && consts_eq cs cs'
                              && chainOk ps (further ps gr stop) k && flagsOk ms ps (further ps gr stop) its ends k
                              && forallb (fun p => negb (isAny p)) (ps ++ match further ps gr stop with Some q => [q] | None => [] end)
                          | _, _ => false
                          end
                      | _ => false
                      end
               | Seq Next d =>
                   match its with
                   | [] =>
                       match eofOf d with
                       | Some (Seq (If (CurIs stop') e d2) Skip) =>
                           match endsOf e with
                           | Some (cs', ends) =>
                               String.eqb stop stop' && consts_eq cs cs'
                               && match kwTest d2 with
                                  | Some k =>
                                      chainOk ps (further ps gr stop) k && flagsOk ms ps (further ps gr stop) its ends k
                                      && forallb (fun p => negb (isAny p)) (ps ++ match further ps gr stop with Some q => [q] | None => [] end)
                                  | None =>
                                      chainOk ps (further ps gr stop) d2 && flagsOk ms ps (further ps gr stop) its ends d2
                                      && forallb isAny (ps ++ match further ps gr stop with Some q => [q] | None => [] end)
                                      && match further ps gr stop with Some _ => true | None => false end
                                  end
                           | None => false
                           end
                       | _ => false
                       end
                   | _ => false
                   end
               | _ => false
               end
        | _ => false
        end
    end
  with shapeCases (cs : cases) (its : list item) {struct cs} : bool :=
    match cs with
    | Default => true
    | Case kw k cs' =>
        match findItem kw its with
        | Some (f, p, sub) =>
            match k with
            | Seq (CallF f' g) (Seq (If ErrSet (Seq Break Skip) Skip) Skip) =>
                match p with Single => String.eqb f f' && shapeFn g sub | _ => false end
            | Seq (CallV v g) (Seq (If ErrSet (Seq Break Skip) Skip) (Seq x Skip)) =>
                shapeFn g sub
                && match p, x with
                   | Several, App f' (Var v') => String.eqb f f' && String.eqb v v'
                   | Under key, Put f' v' key' => String.eqb f f' && String.eqb v v' && String.eqb key key'
                   | _, _ => false
                   end
            | _ => false
            end
        | None => dead kw k
        end && shapeCases cs' its
    end.
End Shape.
