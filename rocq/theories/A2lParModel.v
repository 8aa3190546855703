(** parseModuleMultithreaded (a2l/module.go 327-450) with every goroutine, wait group
    and channel in detail: the machine of FanFullModel.v with the tables of A2lModModel.v. *)
From Coq Require Import String List Arith Bool SpecFloat.
From Verif Require Import GoBase A2lIR A2lTokens A2lParsers FanModel FanFullModel A2lModModel.
Import ListNotations.

(** The module while it is parsed: its fields, and the length of the field errors. *)
Definition memory := (fields * nat)%type.

(** The body of a collector's loop: 471 for the errors, 477-655 for the other channels. *)
Definition collect (c : string) (v : val) (m : memory) : memory :=
  if String.eqb c errChan then (fst m, S (snd m))
  else match find (fun p => String.eqb (fst p) c) channels with
       | Some (_, (_, a)) => (absorb a (fst m) v, snd m)
       | None => m
       end.

(** The collectors in the order of their go statements (468-656), and how many
    are announced to wgCollectors (467). *)
Definition collectors : list string := errChan :: map fst channels.
Definition announced : nat := 27.

Section Module.
  Variable toks : list bytes.
  Variable pf : bytes -> option spec_float.

  (** [inCall np i o e stop outs n u]: the call with numProc = [np] and the cursor at
      [i] has started its goroutines for the tokens up to [stop], with the fields [o]
      and the error [e]; they send [outs]; [u] is reached after [n] steps.
      wgParsers.Add(numProc) is line 402. *)
  Definition inCall (np i : nat) (o : fields) (e : bool) (stop : nat) (outs : list (list message)) (n : nat) (u : full val memory) : Prop :=
    exists start, header toks i = (o, e, start) /\ firstEnd toks 0 = stop /\ start < stop /\
      Forall2 (fun k out => loops toks pf (maxIndex np start stop k) (minIndex np start stop k) out) (seq 0 np) outs /\
      usteps (capOf np) collect closing n (uinit outs collectors np announced (o, 0)) u.

  (** What the call can return (444-449). *)
  Inductive parallelFull (np i : nat) : val -> bool -> nat -> Prop :=
  | FullNoEnd : forall o e start,
      header toks i = (o, e, start) -> firstEnd toks 0 <= start ->
      parallelFull np i (VObj o) true start
  | FullEnd : forall o e stop outs n u,
      inCall np i o e stop outs n u -> returned u ->
      parallelFull np i (VObj (fst (u_mem u))) (match snd (u_mem u) with 0 => e | _ => true end) stop.
End Module.
