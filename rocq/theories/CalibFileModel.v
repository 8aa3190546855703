(** ReadCalibration (calib_data.go 45-98) with the models of both readers. *)
From Coq Require Import List Arith NArith Bool SpecFloat.
From Verif Require Import GoBase A2lIR A2lFileModel IhexModel CalibModel.
Import ListNotations.

(** What readA2L (calib_data.go 102-114) makes of ParseFromFile; [file] is the
    content of the A2L file, None if it cannot be read. *)
Definition a2lOut (gr : N -> bool) (pf : bytes -> option spec_float) (cpus : nat) (file : option bytes) (r : outcome (cerr unit) A2lIR.fields) : Prop :=
  exists f, parseFromFile gr pf cpus file f /\
    r = match f with
        | Returned a e => if e then Err (CEA2l tt) else Ok a
        | Crashed => Panic
        end.

(** ReadCalibration on a machine with [cpus] CPUs; [log]: configureLogger succeeds. *)
Definition calibration (gr : N -> bool) (pf : bytes -> option spec_float) (cpus : nat) (log : bool) (a2lFile : option bytes)
    (hexPath : bytes) (hexFile : option bytes) : rcres A2lIR.fields gomap (cerr unit) -> Prop :=
  readCalibrationFiles cpus log (a2lOut gr pf cpus a2lFile) hexPath hexFile.
