(** Small-step machines for the goroutine patterns of the repository.

    [collect]: a main goroutine starts [n] workers, each with its own buffered
    channel; worker [i] sends a list of messages and closes its channel; the
    main goroutine ranges over the channels in order and folds the messages
    into an accumulator, possibly returning early.

      ihex32/hex.go 112-130 (capacity len(lines)), 173-199 (capacity 1)
      srec19/hex.go 112-130 (capacity len(lines)), 162-188 (capacity 1)
      a2l/token_generator.go 51-71 (capacity 1)

    What each worker computes between its channel operations reads only data
    that no goroutine writes during the phase, so a worker is represented by
    the list of messages it sends.  All interleavings of sends, closes,
    receives are runs of the machine. *)

From Coq Require Import List Arith Lia Bool.
Import ListNotations.
Set Implicit Arguments.

Section Collect.
  Variable M : Type.               (* messages *)
  Variable A : Type.               (* accumulator of the main goroutine *)
  (** one received message: new accumulator, and whether main returns now *)
  Variable absorb : A -> M -> A * bool.
  Variable cap : nat.              (* channel capacity *)

  (** A worker with its channel: messages still to send, buffered messages,
      and whether the channel has been closed. *)
  Record wstate := W { w_todo : list M; w_buf : list M; w_closed : bool }.

  (** Main: the channel it is reading, its accumulator, and whether it has
      left the loops (by draining all channels or by an early return). *)
  Record cstate := C { c_ws : list wstate; c_cur : nat; c_acc : A; c_done : bool }.

  Definition set_nth (ws : list wstate) (i : nat) (w : wstate) : list wstate :=
    firstn i ws ++ w :: skipn (S i) ws.

  Inductive cstep : cstate -> cstate -> Prop :=
  | CSend : forall ws i m ms buf cur acc dn,
      nth_error ws i = Some (W (m :: ms) buf false) ->
      length buf < cap ->
      cstep (C ws cur acc dn) (C (set_nth ws i (W ms (buf ++ [m]) false)) cur acc dn)
  | CClose : forall ws i buf cur acc dn,
      nth_error ws i = Some (W [] buf false) ->
      cstep (C ws cur acc dn) (C (set_nth ws i (W [] buf true)) cur acc dn)
  | CRecv : forall ws cur todo m buf closed acc,
      nth_error ws cur = Some (W todo (m :: buf) closed) ->
      cstep (C ws cur acc false)
            (C (set_nth ws cur (W todo buf closed)) cur
               (fst (absorb acc m)) (snd (absorb acc m)))
  | CNext : forall ws cur todo acc,
      nth_error ws cur = Some (W todo [] true) ->
      cstep (C ws cur acc false) (C ws (S cur) acc false)
  | CEnd : forall ws cur acc,
      nth_error ws cur = None ->
      cstep (C ws cur acc false) (C ws cur acc true).

  Inductive csteps : cstate -> cstate -> Prop :=
  | CRefl : forall s, csteps s s
  | CTrans : forall s1 s2 s3, cstep s1 s2 -> csteps s2 s3 -> csteps s1 s3.

  Definition cinit (msgs : list (list M)) (a0 : A) : cstate :=
    C (map (fun ms => W ms [] false) msgs) 0 a0 false.

  (** [crun msgs a0 a]: some schedule lets main leave the phase with
      accumulator [a]. *)
  Definition crun (msgs : list (list M)) (a0 a : A) : Prop :=
    exists ws cur, csteps (cinit msgs a0) (C ws cur a true).

  (** The sequential meaning of the loops: fold with early return. *)
  Fixpoint fold_stop (acc : A) (ms : list M) : A * bool :=
    match ms with
    | [] => (acc, false)
    | m :: rest =>
        let '(acc', stop) := absorb acc m in
        if stop then (acc', true) else fold_stop acc' rest
    end.
End Collect.
Arguments W {M}.
Arguments C {M A}.
