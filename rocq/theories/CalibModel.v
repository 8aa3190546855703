(** Model of ReadCalibration and its two reader goroutines (calib_data.go 45-158).

    The A2L reader is a parameter: the set of outcomes of [a2l.ParseFromFile];
    the hex reader is the model of ihex32 and srec19.  Logging is not modelled,
    except that [configureLogger] may fail. *)
From Coq Require Import String Ascii List Arith NArith Bool.
From Verif Require Import GoBase GoStrings IhexModel SrecModel.
Import ListNotations.
Set Implicit Arguments.

(** calib_data.go 124-157: which reader [readHex] calls.  Go's [strings.ToLower]
    maps runes; no rune outside ASCII is mapped to one of the letters searched
    for here, so lowering ASCII letters only gives the same answer. *)
Inductive hexKind := KIhex | KSrec | KNone.
Definition hexKindOf (path : bytes) : hexKind :=
  if containsb (b ".hex") (to_lower path) then KIhex
  else if containsb (b ".s19") (to_lower path) then KSrec
  else KNone.

(** Errors of the readers: of a hex reader, or the message of [readHex] itself
    (calib_data.go 153), or of the A2L reader, or of the logger. *)
Inductive cerr (EA : Type) :=
| CEHex (e : herr) | CEType | CEA2l (e : EA) | CELog.
Arguments CEHex {EA}. Arguments CEType {EA}. Arguments CEA2l {EA}. Arguments CELog {EA}.

(** The outcome of the hex reader selected for [path]; [file] is the content of
    the file, [None] if it cannot be read. *)
Definition hexOut {EA} (np : nat) (path : bytes) (file : option bytes) (r : outcome (cerr EA) gomap) : Prop :=
  match hexKindOf path with
  | KNone => r = Err CEType
  | k =>
      match file with
      | None => r = Err (CEHex EFile)
      | Some text =>
          exists o, (match k with KSrec => s_parseFile_exec np text o | _ => parseFile_exec np text o end)
            /\ r = match o with
                   | Ok (m, None) => Ok m
                   | Ok (_, Some e) => Err (CEHex e)
                   | Err e => Err (CEHex e)
                   | Panic => Panic
                   end
      end
  end.

Section RC.
  Variables A H E : Type.
  Variable RA : outcome E A -> Prop.     (* outcomes of the A2L reader *)
  Variable RH : outcome E H -> Prop.     (* outcomes of the hex reader *)

  (** A reader goroutine (calib_data.go 102-114, 118-158): reading; about to
      send the result [inl] on its own channel or the error [inr] on the error
      channel; about to close its own channel; about to call [wg.Done];
      finished. *)
  Inductive pc (X : Type) :=
  | PRead | PSend (r : X + E) | PClose (r : X + E) | PDone (r : X + E) | PEnd (r : X + E).
  Arguments PRead {X}.

  (** [cd.A2l], [cd.Hex]: [None] is the zero value. *)
  Record caldata := CD { cd_a2l : option A; cd_hex : option H }.

  (** ReadCalibration (calib_data.go 69-98): waiting for the wait group;
      errChan closed, about to look at its length; draining it; receiving the
      A2L; receiving the hex map; returned.  [MCrash]: a goroutine panicked. *)
  Inductive mpc :=
  | MWait | MCheck | MDrain (first : option E) | MRecvA | MRecvH (a : option A)
  | MRet (cd : caldata) (err : option E) | MCrash.

  Record rcs := RC {
    rc_a : pc A; rc_h : pc H;
    rc_wg : nat;
    rc_err : list E; rc_errClosed : bool;          (* capacity 2 *)
    rc_ac : list A; rc_acClosed : bool;            (* capacity 1 *)
    rc_hc : list H; rc_hcClosed : bool;            (* capacity 1 *)
    rc_main : mpc
  }.

  Definition crash (s : rcs) : rcs :=
    RC (rc_a s) (rc_h s) (rc_wg s) (rc_err s) (rc_errClosed s) (rc_ac s) (rc_acClosed s) (rc_hc s) (rc_hcClosed s) MCrash.

  (** Send on a channel: blocks when full, panics when closed. *)
  Inductive rstep : rcs -> rcs -> Prop :=
  (* the A2L goroutine *)
  | RAOk : forall h wg err ec ac acl hc hcl mn x, RA (Ok x) -> mn <> MCrash ->
      rstep (RC PRead h wg err ec ac acl hc hcl mn) (RC (PSend (inl x)) h wg err ec ac acl hc hcl mn)
  | RAErr : forall h wg err ec ac acl hc hcl mn e, RA (Err e) -> mn <> MCrash ->
      rstep (RC PRead h wg err ec ac acl hc hcl mn) (RC (PSend (inr e)) h wg err ec ac acl hc hcl mn)
  | RAPanic : forall h wg err ec ac acl hc hcl mn, RA Panic -> mn <> MCrash ->
      rstep (RC PRead h wg err ec ac acl hc hcl mn) (RC PRead h wg err ec ac acl hc hcl MCrash)
  | RASendOk : forall h wg err ec ac hc hcl mn x, List.length ac < 1 -> mn <> MCrash ->
      rstep (RC (PSend (inl x)) h wg err ec ac false hc hcl mn) (RC (PClose (inl x)) h wg err ec (ac ++ [x]) false hc hcl mn)
  | RASendOkClosed : forall h wg err ec ac hc hcl mn x, mn <> MCrash ->
      rstep (RC (PSend (inl x)) h wg err ec ac true hc hcl mn) (RC (PSend (inl x)) h wg err ec ac true hc hcl MCrash)
  | RASendErr : forall h wg err ac acl hc hcl mn e, List.length err < 2 -> mn <> MCrash ->
      rstep (RC (PSend (inr e)) h wg err false ac acl hc hcl mn) (RC (PClose (inr e)) h wg (err ++ [e]) false ac acl hc hcl mn)
  | RASendErrClosed : forall h wg err ac acl hc hcl mn e, mn <> MCrash ->
      rstep (RC (PSend (inr e)) h wg err true ac acl hc hcl mn) (RC (PSend (inr e)) h wg err true ac acl hc hcl MCrash)
  | RAClose : forall h wg err ec ac hc hcl mn r, mn <> MCrash ->
      rstep (RC (PClose r) h wg err ec ac false hc hcl mn) (RC (PDone r) h wg err ec ac true hc hcl mn)
  | RACloseClosed : forall h wg err ec ac hc hcl mn r, mn <> MCrash ->
      rstep (RC (PClose r) h wg err ec ac true hc hcl mn) (RC (PClose r) h wg err ec ac true hc hcl MCrash)
  | RADone : forall h wg err ec ac acl hc hcl mn r, mn <> MCrash ->
      rstep (RC (PDone r) h (S wg) err ec ac acl hc hcl mn) (RC (PEnd r) h wg err ec ac acl hc hcl mn)
  | RADoneNeg : forall h err ec ac acl hc hcl mn r, mn <> MCrash ->
      rstep (RC (PDone r) h 0 err ec ac acl hc hcl mn) (RC (PDone r) h 0 err ec ac acl hc hcl MCrash)
  (* the hex goroutine *)
  | RHOk : forall a wg err ec ac acl hc hcl mn x, RH (Ok x) -> mn <> MCrash ->
      rstep (RC a PRead wg err ec ac acl hc hcl mn) (RC a (PSend (inl x)) wg err ec ac acl hc hcl mn)
  | RHErr : forall a wg err ec ac acl hc hcl mn e, RH (Err e) -> mn <> MCrash ->
      rstep (RC a PRead wg err ec ac acl hc hcl mn) (RC a (PSend (inr e)) wg err ec ac acl hc hcl mn)
  | RHPanic : forall a wg err ec ac acl hc hcl mn, RH Panic -> mn <> MCrash ->
      rstep (RC a PRead wg err ec ac acl hc hcl mn) (RC a PRead wg err ec ac acl hc hcl MCrash)
  | RHSendOk : forall a wg err ec ac acl hc mn x, List.length hc < 1 -> mn <> MCrash ->
      rstep (RC a (PSend (inl x)) wg err ec ac acl hc false mn) (RC a (PClose (inl x)) wg err ec ac acl (hc ++ [x]) false mn)
  | RHSendOkClosed : forall a wg err ec ac acl hc mn x, mn <> MCrash ->
      rstep (RC a (PSend (inl x)) wg err ec ac acl hc true mn) (RC a (PSend (inl x)) wg err ec ac acl hc true MCrash)
  | RHSendErr : forall a wg err ac acl hc hcl mn e, List.length err < 2 -> mn <> MCrash ->
      rstep (RC a (PSend (inr e)) wg err false ac acl hc hcl mn) (RC a (PClose (inr e)) wg (err ++ [e]) false ac acl hc hcl mn)
  | RHSendErrClosed : forall a wg err ac acl hc hcl mn e, mn <> MCrash ->
      rstep (RC a (PSend (inr e)) wg err true ac acl hc hcl mn) (RC a (PSend (inr e)) wg err true ac acl hc hcl MCrash)
  | RHClose : forall a wg err ec ac acl hc mn r, mn <> MCrash ->
      rstep (RC a (PClose r) wg err ec ac acl hc false mn) (RC a (PDone r) wg err ec ac acl hc true mn)
  | RHCloseClosed : forall a wg err ec ac acl hc mn r, mn <> MCrash ->
      rstep (RC a (PClose r) wg err ec ac acl hc true mn) (RC a (PClose r) wg err ec ac acl hc true MCrash)
  | RHDone : forall a wg err ec ac acl hc hcl mn r, mn <> MCrash ->
      rstep (RC a (PDone r) (S wg) err ec ac acl hc hcl mn) (RC a (PEnd r) wg err ec ac acl hc hcl mn)
  | RHDoneNeg : forall a err ec ac acl hc hcl mn r, mn <> MCrash ->
      rstep (RC a (PDone r) 0 err ec ac acl hc hcl mn) (RC a (PDone r) 0 err ec ac acl hc hcl MCrash)
  (* ReadCalibration *)
  | RWait : forall a h err ac acl hc hcl,                                   (* 73-77 *)
      rstep (RC a h 0 err false ac acl hc hcl MWait) (RC a h 0 err true ac acl hc hcl MCheck)
  | RCheck : forall a h wg err ec ac acl hc hcl,                            (* 83 *)
      rstep (RC a h wg err ec ac acl hc hcl MCheck)
            (RC a h wg err ec ac acl hc hcl (match err with [] => MRecvA | _ => MDrain None end))
  | RDrain : forall a h wg e err ec ac acl hc hcl f,                        (* 84-89 *)
      rstep (RC a h wg (e :: err) ec ac acl hc hcl (MDrain f)) (RC a h wg err ec ac acl hc hcl (MDrain (Some e)))
  | RDrained : forall a h wg ac acl hc hcl f,                               (* 90 *)
      rstep (RC a h wg [] true ac acl hc hcl (MDrain f)) (RC a h wg [] true ac acl hc hcl (MRet (CD None None) f))
  | RRecvA : forall a h wg err ec x ac acl hc hcl,                          (* 93 *)
      rstep (RC a h wg err ec (x :: ac) acl hc hcl MRecvA) (RC a h wg err ec ac acl hc hcl (MRecvH (Some x)))
  | RRecvAClosed : forall a h wg err ec hc hcl,
      rstep (RC a h wg err ec [] true hc hcl MRecvA) (RC a h wg err ec [] true hc hcl (MRecvH None))
  | RRecvH : forall a h wg err ec ac acl x hc hcl oa,                       (* 94-96 *)
      rstep (RC a h wg err ec ac acl (x :: hc) hcl (MRecvH oa)) (RC a h wg err ec ac acl hc hcl (MRet (CD oa (Some x)) None))
  | RRecvHClosed : forall a h wg err ec ac acl oa,
      rstep (RC a h wg err ec ac acl [] true (MRecvH oa)) (RC a h wg err ec ac acl [] true (MRet (CD oa None) None)).

  Definition rinit : rcs := RC PRead PRead 2 [] false [] false [] false MWait.

  Inductive rsteps : rcs -> rcs -> Prop :=
  | RRefl : forall s, rsteps s s
  | RTrans : forall s1 s2 s3, rstep s1 s2 -> rsteps s2 s3 -> rsteps s1 s3.

  (** ReadCalibration, [log]: the error of [configureLogger] (calib_data.go
      61-64), after which nothing is started. *)
  Inductive rcres := RReturned (cd : caldata) (err : option E) | RCrashed.
  Definition readCalibration (log : option E) (r : rcres) : Prop :=
    match log with
    | Some e => r = RReturned (CD None None) (Some e)
    | None => exists s, rsteps rinit s /\
        match rc_main s with
        | MRet cd err => r = RReturned cd err
        | MCrash => r = RCrashed
        | _ => False
        end
    end.
End RC.
Arguments PRead {E X}. Arguments MWait {A H E}. Arguments MCheck {A H E}. Arguments MDrain {A H E}.
Arguments MRecvA {A H E}. Arguments MRecvH {A H E}. Arguments MRet {A H E}. Arguments MCrash {A H E}.
Arguments RReturned {A H E}. Arguments CD {A H}.
Arguments RCrashed {A H E}.

(** ReadCalibration for two paths on a machine with [np] CPUs. *)
Definition readCalibrationFiles (EA A : Type) (np : nat) (log : bool) (RA : outcome (cerr EA) A -> Prop)
    (hexPath : bytes) (hexFile : option bytes) (r : rcres A gomap (cerr EA)) : Prop :=
  readCalibration RA (hexOut np hexPath hexFile) (if log then None else Some CELog) r.
