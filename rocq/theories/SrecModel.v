(** Model of package [srec19] (srec19/hex.go, srec19/record.go,
    srec19/tokens.go).

    srec19/hex.go is ihex32/hex.go without the offset goroutines (the texts
    differ in the package name and those lines only), so [hexToByte],
    [store_all], [splitLines] and the error type of IhexModel are used again;
    they stand for srec19/hex.go 24-97 and 247-257 (the table has the same 412
    entries), 176-186, 216-220.  Simplifications as in IhexModel. *)

From Coq Require Import String Ascii List Arith NArith Bool.
From Verif Require Import GoBase GoStrings ConcModel IhexModel.
Import ListNotations.

(** tokens.go 4, 5 *)
Definition s_beginLineToken : ascii := "S"%char.
Definition s_dataRecordToken : bytes := b "3".

(** record.go 10-24 *)
Record srecord := SRec {
  s_byteCount : bytes;
  s_addressField : bytes;
  s_recordType : bytes;
  s_data : list bytes;
  s_checksum : bytes
}.

Open Scope outcome_scope.

(** record.go 27-43.  The data loop is that of the Intel HEX reader starting at
    index 12 ([data_loop]: i < len(line)-3; i += 2). *)
Definition s_parseRecord (line : bytes) : outcome herr srecord :=
  rt <- slice line 1 2 ;;
  c0 <- index line 0 ;;
  if Ascii.eqb c0 s_beginLineToken && beqb rt (b "3") && (12 <=? List.length line)%nat then
    bc <- slice line 2 4 ;;
    af <- slice line 4 12 ;;
    ds <- data_loop (S (List.length line)) 12 line ;;
    cs <- slice line (List.length line - 2) (List.length line) ;;
    Ok (SRec bc af rt ds cs)
  else Err ELine.

(** hex.go 230-245 *)
Fixpoint s_parseRecordRoutine (lines : list bytes) : outcome herr (list srecord) :=
  match lines with
  | [] => Ok []
  | l :: ls =>
      if (11 <=? List.length l)%nat then
        match s_parseRecord l with
        | Ok r => rs <- s_parseRecordRoutine ls ;; Ok (r :: rs)
        | Err _ => Ok []
        | Panic => Panic
        end
      else s_parseRecordRoutine ls
  end.

(** record.go 63-119 *)
Definition s_validateChecksum (r : srecord) : outcome herr bool :=
  a0 <- slice (s_addressField r) 0 2 ;;
  a1 <- slice (s_addressField r) 2 4 ;;
  a2 <- slice (s_addressField r) 4 6 ;;
  a3 <- slice (s_addressField r) 6 8 ;;
  match sum_pairs 0 ([s_byteCount r; a0; a1; a2; a3] ++ s_data r ++ [s_checksum r]) with
  | Some s => Ok (s =? 255)%N
  | None => Err EHex
  end.

(** record.go 146-162 *)
Fixpoint s_calc_loop (i : N) (ds : list bytes) (addr : bytes) : outcome herr (list (N * N) * bool) :=
  match ds with
  | [] => Ok ([], false)
  | s :: ds' =>
      match hexToByte s with
      | None => Ok ([], true)
      | Some v =>
          match hex_decode addr with
          | None => Ok ([], true)
          | Some bs =>
              la <- be32 bs ;;
              rest <- s_calc_loop (i + 1) ds' addr ;;
              Ok ((u32 (la + u32 i), v) :: fst rest, snd rest)
          end
      end
  end.

(** record.go 139-164 *)
Definition s_calcDataEntries (r : srecord) : outcome herr (list (N * N) * bool) :=
  s_calc_loop 0 (s_data r) (s_addressField r).

(** record.go 121-136 *)
Fixpoint s_calcData_msgs (recs : list srecord) (ds : list (N * N))
  : outcome herr (list (list (N * N))) :=
  match recs with
  | [] => Ok [ds]
  | r :: recs' =>
      if beqb (s_recordType r) s_dataRecordToken then
        d <- s_calcDataEntries r ;;
        if snd d
        then ms <- s_calcData_msgs recs' (ds ++ fst d) ;; Ok ([] :: ms)
        else s_calcData_msgs recs' (ds ++ fst d)
      else s_calcData_msgs recs' ds
  end.
Definition s_calcDataRoutine (recs : list srecord) : outcome herr (list (list (N * N))) :=
  s_calcData_msgs recs [].

(** hex.go 125-130 *)
Definition s_absorb_recs (acc : list srecord) (rs : list srecord) : list srecord * bool :=
  (acc ++ rs, false).

(** ** The phase with checksum goroutines (hex.go 132-160, record.go 47-60) *)

Inductive qres := QBad | QGood | QPanic.
Record q2 := Q2 {
  q_cs : list csw;
  q_chan : list bool;         (* vcsChan, capacity numProc *)
  q_main : option qres        (* None: waiting for the goroutines *)
}.

Inductive q2step (np : nat) (recs : list srecord) : q2 -> q2 -> Prop :=
| QCsOk : forall cs ch mn i j e r,
    nth_error cs i = Some (CsRun j e) -> j < e -> nth_error recs j = Some r ->
    s_validateChecksum r = Ok true ->
    q2step np recs (Q2 cs ch mn) (Q2 (upd cs i (CsRun (S j) e)) ch mn)
| QCsBad : forall cs ch mn i j e r,
    nth_error cs i = Some (CsRun j e) -> j < e -> nth_error recs j = Some r ->
    s_validateChecksum r <> Ok true -> s_validateChecksum r <> Panic ->
    q2step np recs (Q2 cs ch mn) (Q2 (upd cs i CsSend) ch mn)
| QCsPanic : forall cs ch mn i j e r,
    nth_error cs i = Some (CsRun j e) -> j < e -> nth_error recs j = Some r ->
    s_validateChecksum r = Panic ->
    q2step np recs (Q2 cs ch mn) (Q2 cs ch (Some QPanic))
| QCsEnd : forall cs ch mn i j e,
    nth_error cs i = Some (CsRun j e) -> e <= j ->
    q2step np recs (Q2 cs ch mn) (Q2 (upd cs i CsDone) ch mn)
| QCsSend : forall cs ch mn i,
    nth_error cs i = Some CsSend -> List.length ch < np ->
    q2step np recs (Q2 cs ch mn) (Q2 (upd cs i CsDone) (ch ++ [false]) mn)
| QMain : forall cs ch,
    Forall (fun c => c = CsDone) cs ->
    q2step np recs (Q2 cs ch None) (Q2 cs ch (Some (if existsb negb ch then QBad else QGood))).

Inductive q2steps (np : nat) (recs : list srecord) : q2 -> q2 -> Prop :=
| Q2Refl : forall s, q2steps np recs s s
| Q2Trans : forall s1 s2 s3, q2step np recs s1 s2 -> q2steps np recs s2 s3 -> q2steps np recs s1 s3.

Definition q2init (np : nat) (recs : list srecord) : q2 :=
  Q2 (map (fun i => CsRun (chunk_start (List.length recs) np i)
                          (chunk_end (List.length recs) np i)) (seq 0 np)) [] None.

Definition q2run (np : nat) (recs : list srecord) (r : qres) : Prop :=
  exists cs ch, q2steps np recs (q2init np recs) (Q2 cs ch (Some r)).

(** ** [parseHex] (hex.go 101-191) *)

Definition s_parse_msgs (np : nat) (lines : list bytes) : outcome herr (list (list (list srecord))) :=
  mapO (fun c => rs <- s_parseRecordRoutine c ;; Ok [rs]) (chunks np lines).
Definition s_data_msgs (np : nat) (recs : list srecord) : outcome herr (list (list (list (N * N)))) :=
  mapO s_calcDataRoutine (chunks np recs).

Inductive s_parseHex_exec (np : nat) (lines : list bytes) : outcome herr hres -> Prop :=
| YPanicParse : s_parse_msgs np lines = Panic -> s_parseHex_exec np lines Panic
| YBad : forall ms recs,
    s_parse_msgs np lines = Ok ms ->
    crun s_absorb_recs (List.length lines) ms [] recs ->
    q2run np recs QBad ->
    s_parseHex_exec np lines (Ok ([], Some EChecksum))
| YPanicCs : forall ms recs,
    s_parse_msgs np lines = Ok ms ->
    crun s_absorb_recs (List.length lines) ms [] recs ->
    q2run np recs QPanic ->
    s_parseHex_exec np lines Panic
| YPanicData : forall ms recs,
    s_parse_msgs np lines = Ok ms ->
    crun s_absorb_recs (List.length lines) ms [] recs ->
    q2run np recs QGood ->
    s_data_msgs np recs = Panic ->
    s_parseHex_exec np lines Panic
| YData : forall ms recs dms res,
    s_parse_msgs np lines = Ok ms ->
    crun s_absorb_recs (List.length lines) ms [] recs ->
    q2run np recs QGood ->
    s_data_msgs np recs = Ok dms ->
    crun absorb_data 1 dms ([], None) res ->
    s_parseHex_exec np lines (Ok res).

(** hex.go 205-227 for a file with content [text] *)
Definition s_parseFile_exec (np : nat) (text : bytes) (res : outcome herr hres) : Prop :=
  s_parseHex_exec np (splitLines text) res.
