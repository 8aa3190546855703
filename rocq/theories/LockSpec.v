(** What it means that goroutines do not get into each other's way. *)
From Coq Require Import String Ascii List Arith NArith Bool.
From Verif Require Import GoBase HexSpec IhexModel LockModel.
Import ListNotations.

(** The next step of the goroutine reads or writes the offset of record [j]. *)
Definition about_to_read (wk : lworker) (j : nat) : Prop :=
  exists w pc, wk = LIn w pc /\ ow_idx w = j /\ (pc = PEla \/ pc = PEq1 \/ pc = PNe1 \/ pc = PNe2).
Definition about_to_write (wk : lworker) (j : nat) : Prop :=
  exists w pc, wk = LIn w pc /\ ow_idx w = j /\ (pc = PW1 \/ pc = PT1 \/ pc = PW2 \/ pc = PT2).

(** A data race: one goroutine is about to write what another is about to read or
    write. *)
Definition race (s : l2) : Prop :=
  exists k k' wk wk' j, k <> k' /\ nth_error (l_off s) k = Some wk /\ nth_error (l_off s) k' = Some wk'
    /\ about_to_write wk j /\ (about_to_read wk' j \/ about_to_write wk' j).

(** Unlocking a mutex that is not locked is a fatal error in Go. *)
Definition bad_unlock (s : l2) : Prop :=
  exists k w, (nth_error (l_off s) k = Some (LIn w PEnd) \/ nth_error (l_off s) k = Some (LIn w PBrk))
    /\ nth_error (l_held s) (ow_idx w) <> Some true.

Definition l2done (s : l2) : Prop := (exists r, l_main s = MRet r)
  /\ Forall (fun w => w = LDone) (l_off s) /\ Forall (fun c => c = CsDone) (l_cs s)
  /\ Forall (fun h => h = false) (l_held s).
