(** Small-step machine for a2l/module.go 385-450, 455-706: several workers send
    values on shared channels; each channel has a collector of its own that
    receives until the channel is closed and empty; one goroutine waits for the
    workers and then closes the channels one after the other; the caller waits
    for the collectors.

    What a worker computes between its sends reads only data that no goroutine
    writes during the phase, so a worker is the list of values it sends, each
    with its channel.  A worker that has sent everything has called wg.Done.
    Every interleaving of sends, receives and closes is a run. *)
From Coq Require Import String List Arith.
Import ListNotations.

Section Fan.
  Variable V : Type.
  Variable cap : string -> nat.          (* capacities of the channels *)

  (** Values still to be sent by each worker, contents of the channels, channels
      not yet closed (in the order of closing), what each collector has received
      so far, and the collectors that still run. *)
  Record fan := Fan { f_work : list (list (string * V));
                      f_buf : string -> list V;
                      f_open : list string;
                      f_got : string -> list V;
                      f_coll : list string }.

  Definition upd (g : string -> list V) (c : string) (l : list V) : string -> list V :=
    fun d => if String.eqb d c then l else g d.
  Definition put {A : Type} (i : nat) (x : A) (l : list A) : list A := firstn i l ++ x :: skipn (S i) l.
  Definition without (c : string) (l : list string) : list string := filter (fun d => negb (String.eqb d c)) l.

  Inductive fstep : fan -> fan -> Prop :=
  | FSend : forall w i c v ms buf op got coll,
      nth_error w i = Some ((c, v) :: ms) -> length (buf c) < cap c ->
      fstep (Fan w buf op got coll) (Fan (put i ms w) (upd buf c (buf c ++ [v])) op got coll)
  | FRecv : forall w c v vs buf op got coll,
      In c coll -> buf c = v :: vs ->
      fstep (Fan w buf op got coll) (Fan w (upd buf c vs) op (upd got c (got c ++ [v])) coll)
  | FClose : forall w c op buf got coll,
      Forall (eq []) w ->
      fstep (Fan w buf (c :: op) got coll) (Fan w buf op got coll)
  | FDone : forall w c buf op got coll,
      In c coll -> ~ In c op -> buf c = [] ->
      fstep (Fan w buf op got coll) (Fan w buf op got (without c coll)).

  Inductive fsteps : fan -> fan -> Prop :=
  | FRefl : forall s, fsteps s s
  | FTrans : forall s1 s2 s3, fstep s1 s2 -> fsteps s2 s3 -> fsteps s1 s3.

  Definition finit (w : list (list (string * V))) (chans : list string) : fan :=
    Fan w (fun _ => []) chans (fun _ => []) chans.

  (** The caller continues when all collectors have finished. *)
  Definition ffinal (s : fan) : Prop := f_coll s = [].
End Fan.
Arguments Fan {V}.
Arguments f_work {V}. Arguments f_buf {V}. Arguments f_open {V}. Arguments f_got {V}. Arguments f_coll {V}.
Arguments fstep {V}. Arguments fsteps {V}. Arguments finit {V}. Arguments ffinal {V}. Arguments upd {V}.
