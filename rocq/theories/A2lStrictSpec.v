(** The parsers of A2lIR.v as they are meant: the first error ends everything. *)
From Coq Require Import String Ascii List Arith NArith ZArith Bool SpecFloat.
From Verif Require Import GoBase A2lIR A2lTokens.
Import ListNotations.

(** ** Meaning without errors

    The statements of A2lIR.v once more, for runs in which nothing fails: no
    number that cannot be read, no word that is not in its table, no raised
    error, no failing call.  [None]: something failed (or panicked, or took too
    long). *)
Inductive flow := Goes (o v : fields) (i : nat) | Leaves (o v : fields) (i : nat).

Section Strict.
  Variable toks : list bytes.
  Variable pf : bytes -> option spec_float.
  Variable fuel : nat.
  (** functions that are not looked into: only the error that they return counts *)
  Variable lax : fn -> bool.

  Definition result (r : fres) : option (val * nat) := match r with Ret v false i => Some (v, i) | _ => None end.
  Definition plain (o v : fields) (i : nat) : st := St o v false i.
  Definition source (r : src) (i : nat) : bytes * nat :=
    match r with FromNext => (nextTok toks i, next toks i) | FromCur => (current toks i, i) end.

  Fixpoint repeatOk (n : nat) (body : fields -> fields -> nat -> option flow) (o v : fields) (i : nat) : option flow :=
    match n with
    | 0 => None
    | S n' => match body o v i with
              | Some (Goes o' v' i') => repeatOk n' body o' v' i'
              | r => r
              end
    end.

  Fixpoint stmtOk (x : stmt) (o v : fields) (i : nat) : option flow :=
    match x with
    | Next => Some (Goes o v (next toks i))
    | Prev => match i with 0 => None | S i' => Some (Goes o v i') end
    | Set_ f e => Some (Goes (fset f (eval toks e (plain o v i)) o) v i)
    | App f e => Some (Goes (fset f (VList (flist f o ++ [eval toks e (plain o v i)])) o) v i)
    | Fill f n e => Some (Goes (fset f (VList (repeat (eval toks e (plain o v i)) n)) o) v i)
    | Put f w k => match fget f o with
                   | Some (VMap m) => Some (Goes (fset f (VMap (mput (varName w k (plain o v i)) (eval toks (Var w) (plain o v i)) m)) o) v i)
                   | _ => None
                   end
    | Num w n r => let '(t, i') := source r i in
                   match readNum pf n t with Some z => Some (Goes o (fset w z v) i') | None => None end
    | CallF f g => match (if lax g then result (call isKeyword toks pf fuel g i) else fnOk g i) with Some (z, i') => Some (Goes (fset f z o) v i') | None => None end
    | CallV w g => match (if lax g then result (call isKeyword toks pf fuel g i) else fnOk g i) with Some (z, i') => Some (Goes o (fset w z v) i') | None => None end
    | Raise => None
    | Break => Some (Leaves o v i)
    | If c a d => if test isKeyword toks c (plain o v i) then blockOk a o v i else blockOk d o v i
    | Switch r cs d => let '(t, i') := source r i in
                       match casesOk cs t o v i' with Some q => q | None => blockOk d o v i' end
    end
  with blockOk (k : block) (o v : fields) (i : nat) : option flow :=
    match k with
    | Skip => Some (Goes o v i)
    | Seq x k' => match stmtOk x o v i with Some (Goes o' v' i') => blockOk k' o' v' i' | r => r end
    end
  with casesOk (cs : cases) (t : bytes) (o v : fields) (i : nat) : option (option flow) :=
    match cs with
    | Default => None
    | Case c k cs' => if beqb t (b c) then Some (blockOk k o v i) else casesOk cs' t o v i
    end
  with fnOk (g : fn) (i : nat) : option (val * nat) :=
    match g with
    | Enum adv table => match findText (if adv then nextTok toks i else current toks i) table with
                        | Some v => Some (VStr v, if adv then next toks i else i)
                        | None => None
                        end
    | Straight k => match blockOk k [] [] i with
                    | Some (Goes o _ i') | Some (Leaves o _ i') => Some (VObj o, i')
                    | None => None
                    end
    | Loop pre body => match blockOk pre [] [] i with
                       | Some (Goes o v i') => match repeatOk fuel (blockOk body) o v i' with
                                               | Some (Leaves o' _ j) => Some (VObj o', j)
                                               | _ => None
                                               end
                       | Some (Leaves o _ i') => Some (VObj o, i')
                       | None => None
                       end
    end.
End Strict.

