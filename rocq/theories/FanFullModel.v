(** The machine of FanModel.v in detail, a2l/module.go 403-450, 455-706: go statements
    executed one after the other, wait groups with their counters, closed channels, and
    the memory that the collectors write to.  A send on a closed channel, closing a
    channel twice and a negative counter are panics. *)
From Coq Require Import String List Arith.
From Verif Require Import FanModel.
Import ListNotations.

Section Full.
  Variables V M : Type.
  Variable cap : string -> nat.              (* capacities of the channels *)
  Variable store : string -> V -> M -> M.    (* what the collector of a channel does with a value *)

  (** parseModuleMainLoop (708-1005): not yet started; with the values to be sent; finished.
      wg.Done is deferred (719), so that it comes after the last send. *)
  Inductive worker := WNew (ms : list (string * V)) | WRun (ms : list (string * V)) | WEnd.
  (** closeChannelsAfterParsing (666-705): not yet started; in wg.Wait; with the channels to be closed. *)
  Inductive closer := CNew | CWait | CClose (cs : list string).
  (** A collector (468-656): not yet started; receiving; with a value received, to be
      stored; behind the loop, before wg.Done; finished. *)
  Inductive coll := KNew | KRecv | KStore (v : V) | KExit | KEnd.
  (** The statements of the caller from 418 on: go parseModuleMainLoop (428), go
      closeChannelsAfterParsing (434), wgCollectors.Add (467), go func (468-656),
      wgCollectors.Wait (658). *)
  Inductive stmt := GoWorker (i : nat) | GoCloser | AddColl (n : nat) | GoColl (c : string) | WaitColl.

  Record full := Full {
    u_main : list stmt;                  (* what the caller has still to do *)
    u_work : list worker; u_wgp : nat;   (* wgParsers *)
    u_closer : closer; u_closed : list string;
    u_buf : string -> list V;
    u_coll : string -> coll; u_wgc : nat; (* wgCollectors *)
    u_got : string -> list V;            (* what each collector has stored *)
    u_mem : M;                           (* the module *)
    u_panic : bool }.

  Definition updf {T : Type} (g : string -> T) (c : string) (x : T) : string -> T := fun d => if String.eqb d c then x else g d.

  Variable closing : list string.        (* the channels in the order of closing *)

  Inductive ustep : full -> full -> Prop :=
  | UGoWorker : forall i r ms w wgp cl cd buf co wgc got m, nth_error w i = Some (WNew ms) ->
      ustep (Full (GoWorker i :: r) w wgp cl cd buf co wgc got m false) (Full r (put i (WRun ms) w) wgp cl cd buf co wgc got m false)
  | UGoCloser : forall r w wgp cd buf co wgc got m,
      ustep (Full (GoCloser :: r) w wgp CNew cd buf co wgc got m false) (Full r w wgp CWait cd buf co wgc got m false)
  | UAddColl : forall n r w wgp cl cd buf co wgc got m,
      ustep (Full (AddColl n :: r) w wgp cl cd buf co wgc got m false) (Full r w wgp cl cd buf co (wgc + n) got m false)
  | UGoColl : forall c r w wgp cl cd buf co wgc got m, co c = KNew ->
      ustep (Full (GoColl c :: r) w wgp cl cd buf co wgc got m false) (Full r w wgp cl cd buf (updf co c KRecv) wgc got m false)
  | UWaitColl : forall r w wgp cl cd buf co got m,
      ustep (Full (WaitColl :: r) w wgp cl cd buf co 0 got m false) (Full r w wgp cl cd buf co 0 got m false)
  (* a parsing goroutine *)
  | USend : forall mn w i c v ms wgp cl cd buf co wgc got m, nth_error w i = Some (WRun ((c, v) :: ms)) -> ~ In c cd -> length (buf c) < cap c ->
      ustep (Full mn w wgp cl cd buf co wgc got m false) (Full mn (put i (WRun ms) w) wgp cl cd (upd buf c (buf c ++ [v])) co wgc got m false)
  | USendPanic : forall mn w i c v ms wgp cl cd buf co wgc got m, nth_error w i = Some (WRun ((c, v) :: ms)) -> In c cd ->
      ustep (Full mn w wgp cl cd buf co wgc got m false) (Full mn w wgp cl cd buf co wgc got m true)
  | UWorkDone : forall mn w i n cl cd buf co wgc got m, nth_error w i = Some (WRun []) ->
      ustep (Full mn w (S n) cl cd buf co wgc got m false) (Full mn (put i WEnd w) n cl cd buf co wgc got m false)
  | UWorkDonePanic : forall mn w i cl cd buf co wgc got m, nth_error w i = Some (WRun []) ->
      ustep (Full mn w 0 cl cd buf co wgc got m false) (Full mn w 0 cl cd buf co wgc got m true)
  (* the closing goroutine *)
  | UCloserWait : forall mn w cd buf co wgc got m,
      ustep (Full mn w 0 CWait cd buf co wgc got m false) (Full mn w 0 (CClose closing) cd buf co wgc got m false)
  | UClose : forall mn w wgp c cs cd buf co wgc got m, ~ In c cd ->
      ustep (Full mn w wgp (CClose (c :: cs)) cd buf co wgc got m false) (Full mn w wgp (CClose cs) (c :: cd) buf co wgc got m false)
  | UClosePanic : forall mn w wgp c cs cd buf co wgc got m, In c cd ->
      ustep (Full mn w wgp (CClose (c :: cs)) cd buf co wgc got m false) (Full mn w wgp (CClose (c :: cs)) cd buf co wgc got m true)
  (* a collector *)
  | URecv : forall mn w wgp cl cd buf c v vs co wgc got m, co c = KRecv -> buf c = v :: vs ->
      ustep (Full mn w wgp cl cd buf co wgc got m false) (Full mn w wgp cl cd (upd buf c vs) (updf co c (KStore v)) wgc got m false)
  | UStore : forall mn w wgp cl cd buf c v co wgc got m, co c = KStore v ->
      ustep (Full mn w wgp cl cd buf co wgc got m false) (Full mn w wgp cl cd buf (updf co c KRecv) wgc (upd got c (got c ++ [v])) (store c v m) false)
  | UExit : forall mn w wgp cl cd buf c co wgc got m, co c = KRecv -> buf c = [] -> In c cd ->
      ustep (Full mn w wgp cl cd buf co wgc got m false) (Full mn w wgp cl cd buf (updf co c KExit) wgc got m false)
  | UCollDone : forall mn w wgp cl cd buf c co n got m, co c = KExit ->
      ustep (Full mn w wgp cl cd buf co (S n) got m false) (Full mn w wgp cl cd buf (updf co c KEnd) n got m false)
  | UCollDonePanic : forall mn w wgp cl cd buf c co got m, co c = KExit ->
      ustep (Full mn w wgp cl cd buf co 0 got m false) (Full mn w wgp cl cd buf co 0 got m true).

  Inductive usteps : nat -> full -> full -> Prop :=
  | URefl : forall s, usteps 0 s s
  | UTrans : forall n s1 s2 s3, ustep s1 s2 -> usteps n s2 s3 -> usteps (S n) s1 s3.

  (** [starts]: the collectors in the order of their go statements; [np], [nc]: the
      arguments of wgParsers.Add and wgCollectors.Add. *)
  Definition program (n nc : nat) (starts : list string) : list stmt :=
    map GoWorker (seq 0 n) ++ [GoCloser; AddColl nc] ++ map GoColl starts ++ [WaitColl].
  Definition uinit (w : list (list (string * V))) (starts : list string) (np nc : nat) (m : M) : full :=
    Full (program (length w) nc starts) (map WNew w) np CNew [] (fun _ => []) (fun _ => KNew) 0 (fun _ => []) m false.

  (** The call returns when the caller has nothing left to do. *)
  Definition returned (u : full) : Prop := u_main u = [].
End Full.
Arguments WNew {V}. Arguments WRun {V}. Arguments WEnd {V}.
Arguments KNew {V}. Arguments KRecv {V}. Arguments KStore {V}. Arguments KExit {V}. Arguments KEnd {V}.
Arguments Full {V M}.
Arguments u_main {V M}. Arguments u_work {V M}. Arguments u_wgp {V M}. Arguments u_closer {V M}. Arguments u_closed {V M}. Arguments u_buf {V M}.
Arguments u_coll {V M}. Arguments u_wgc {V M}. Arguments u_got {V M}. Arguments u_mem {V M}. Arguments u_panic {V M}.
Arguments ustep {V M}. Arguments usteps {V M}. Arguments uinit {V M}. Arguments returned {V M}.
