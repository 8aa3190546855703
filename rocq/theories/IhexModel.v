(** Model of package [ihex32] (ihex32/hex.go, ihex32/record.go,
    ihex32/tokens.go).

    Simplifications: log output is dropped; error texts are replaced by the
    constructors of [herr]; [numProc = runtime.NumCPU()] (hex.go 17) is a
    parameter [np]; the package variable [validateChecksums] (hex.go 20) is
    never changed and taken as [true]; initial slice and map capacities (hex.go
    106-107) have no meaning here. *)

From Coq Require Import String Ascii List Arith NArith Bool.
From Verif Require Import GoBase GoStrings ConcModel.
Import ListNotations.

(** tokens.go 4, 5, 11 *)
Definition beginLineToken : ascii := ":"%char.
Definition dataRecordToken : bytes := b "00".
Definition extendedLinearAddressRecordToken : bytes := b "04".
Definition zeroOffset : bytes := b "0000".

Inductive herr :=
| EFile                                   (* could not read file *)
| ELine                                   (* line too short / no begin symbol *)
| EHex                                    (* not a hex byte *)
| EChecksum                               (* invalid checksums detected *)
| ECollision (addr val1 val2 : N).        (* colliding address values *)

(** record.go 10-25 (without the mutex, see [offset_step]) *)
Record record := Rec {
  byteCount : bytes;
  addressField : bytes;
  recordType : bytes;
  data : list bytes;
  checksum : bytes;
  offset : bytes
}.

Definition set_offset (r : record) (o : bytes) : record :=
  Rec (byteCount r) (addressField r) (recordType r) (data r) (checksum r) o.

Open Scope outcome_scope.

(** record.go 34-36: [for i := 9; i < len(line)-3; i += 2].  [fuel] bounds the
    iterations; running out of it is shown impossible by being a [Panic]. *)
Fixpoint data_loop (fuel i : nat) (line : bytes) : outcome herr (list bytes) :=
  match fuel with
  | O => Panic
  | S fuel' =>
      if (i + 3 <? List.length line)%nat
      then x <- slice line i (i + 2) ;;
           rest <- data_loop fuel' (i + 2) line ;;
           Ok (x :: rest)
      else Ok []
  end.

(** record.go 28-54 *)
Definition parseRecord (line : bytes) : outcome herr record :=
  c0 <- index line 0 ;;
  if Ascii.eqb c0 beginLineToken && (11 <=? List.length line)%nat then
    bc <- slice line 1 3 ;;
    af <- slice line 3 7 ;;
    rt <- slice line 7 9 ;;
    ds <- data_loop (S (List.length line)) 9 line ;;
    off <- (if beqb rt extendedLinearAddressRecordToken
            then if (13 <=? List.length line)%nat then slice line 9 13 else Err ELine
            else Ok zeroOffset) ;;
    cs <- slice line (List.length line - 2) (List.length line) ;;
    Ok (Rec bc af rt ds cs off)
  else Err ELine.

(** hex.go 241-256: lines of at least 11 bytes are parsed; the first line that
    does not parse ends the loop without a report. *)
Fixpoint parseRecordRoutine (lines : list bytes) : outcome herr (list record) :=
  match lines with
  | [] => Ok []
  | l :: ls =>
      if (11 <=? List.length l)%nat then
        match parseRecord l with
        | Ok r => rs <- parseRecordRoutine ls ;; Ok (r :: rs)
        | Err _ => Ok []
        | Panic => Panic
        end
      else parseRecordRoutine ls
  end.

(** hex.go 24-97 and 259-269: the table maps exactly the 412 strings that are
    two upper case or two lower case hexadecimal digits (checked by extracting
    the table text); "aB" is not in it. *)
Definition hexToByte (s : bytes) : option N :=
  match s with
  | [c; d] =>
      match hex_upper c, hex_upper d with
      | Some x, Some y => Some (16 * x + y)%N
      | _, _ =>
          match hex_lower c, hex_lower d with
          | Some x, Some y => Some (16 * x + y)%N
          | _, _ => None
          end
      end
  | _ => None
  end.

(** Sum of the values of hex pairs starting from [acc], with uint8 overflow;
    [None] when a pair is not in the table (record.go 107-143, the repeated
    pattern [buf, err = hexToByte(..); if err != nil return; sum = sum + buf]). *)
Fixpoint sum_pairs (acc : N) (l : list bytes) : option N :=
  match l with
  | [] => Some acc
  | p :: l' =>
      match hexToByte p with
      | Some v => sum_pairs (u8 (acc + v)) l'
      | None => None
      end
  end.

(** record.go 100-151 *)
Definition validateChecksum (r : record) : outcome herr bool :=
  ah <- slice (addressField r) 0 2 ;;
  al <- slice (addressField r) 2 4 ;;
  match sum_pairs 0 ([byteCount r; ah; al; recordType r] ++ data r ++ [checksum r]) with
  | Some s => Ok (s =? 0)%N
  | None => Err EHex
  end.

(** binary.BigEndian.Uint16 / Uint32: use the first 2 / 4 bytes, panic when
    there are fewer. *)
Definition be16 (bs : list N) : outcome herr N :=
  match bs with
  | x :: y :: _ => Ok (256 * x + y)%N
  | _ => Panic
  end.
Definition be32 (bs : list N) : outcome herr N :=
  match bs with
  | x :: y :: z :: w :: _ => Ok (16777216 * x + 65536 * y + 256 * z + w)%N
  | _ => Panic
  end.

(** record.go 178-205: the loop body for index [i]; on error the entries
    built so far are returned together with the error. *)
Fixpoint calc_loop (i : N) (ds : list bytes) (addr off : bytes)
  : outcome herr (list (N * N) * bool) :=
  match ds with
  | [] => Ok ([], false)
  | s :: ds' =>
      match hex_decode addr with
      | None => Ok ([], true)
      | Some bs =>
          la0 <- be16 bs ;;
          let la := u16 (la0 + u16 i) in
          match hex_decode off with
          | None => Ok ([], true)
          | Some obs =>
              match hexToByte s with
              | None => Ok ([], true)
              | Some v =>
                  a <- be32 (obs ++ [la / 256; la mod 256]%N) ;;
                  rest <- calc_loop (i + 1) ds' addr off ;;
                  Ok ((a, v) :: fst rest, snd rest)
              end
          end
      end
  end.

(** record.go 171-207; the flag says whether an error is returned *)
Definition calcDataEntries (r : record) : outcome herr (list (N * N) * bool) :=
  calc_loop 0 (data r) (addressField r) (offset r).

(** record.go 153-168: the messages sent on the channel: an empty slice for
    each failing record, finally all entries. *)
Fixpoint calcData_msgs (recs : list record) (ds : list (N * N))
  : outcome herr (list (list (N * N))) :=
  match recs with
  | [] => Ok [ds]
  | r :: recs' =>
      if beqb (recordType r) dataRecordToken then
        d <- calcDataEntries r ;;
        if snd d
        then ms <- calcData_msgs recs' (ds ++ fst d) ;; Ok ([] :: ms)
        else calcData_msgs recs' (ds ++ fst d)
      else calcData_msgs recs' ds
  end.
Definition calcDataRoutine (recs : list record) : outcome herr (list (list (N * N))) :=
  calcData_msgs recs [].

(** hex.go 187-199: main's treatment of one received slice of data bytes. *)
Definition hres := (gomap * option herr)%type.

Fixpoint store_all (m : gomap) (ds : list (N * N)) : hres :=
  match ds with
  | [] => (m, None)
  | (a, v) :: ds' =>
      match lookup a m with
      | Some v0 => (m, Some (ECollision a v0 v))
      | None => store_all (insert a v m) ds'
      end
  end.
Definition absorb_data (acc : hres) (ds : list (N * N)) : hres * bool :=
  let r := store_all (fst acc) ds in
  (r, match snd r with Some _ => true | None => false end).

(** hex.go 126-130: main's treatment of one received slice of records. *)
Definition absorb_recs (acc : list record) (rs : list record) : list record * bool :=
  (acc ++ rs, false).

(** ** The phase with offset and checksum goroutines (hex.go 132-170)

    [addOffsets] goroutines (record.go 58-81), [validateChecksumsRoutine]
    goroutines (record.go 85-97) and main run concurrently.  One loop iteration
    of [addOffsets] holds the record's mutex throughout (record.go 64-79), so
    it is one atomic step (proved right in LockProps.v).  A checksum goroutine reads only fields that nobody
    writes; checking one record is one step, its send another. *)

(** a goroutine running [addOffsets]: loop index, [offs],
    [firstRecordAfterNewOffset]; [ow_done] after [wg.Done()] *)
Record offw := OW { ow_idx : nat; ow_offs : bytes; ow_first : bool; ow_done : bool }.

Definition set_rec (recs : list record) (i : nat) (r : record) : list record :=
  firstn i recs ++ r :: skipn (S i) recs.

(** record.go 63-80, one iteration (or leaving the loop) *)
Definition offset_step (recs : list record) (w : offw) : list record * offw :=
  let i := ow_idx w in
  match nth_error recs i with
  | None => (recs, OW i (ow_offs w) (ow_first w) true)
  | Some r =>
      if beqb (recordType r) extendedLinearAddressRecordToken then
        (recs, OW (S i) (offset r) true false)
      else if beqb (recordType r) dataRecordToken then
        if ow_first w && beqb (offset r) (ow_offs w) then
          (recs, OW i (ow_offs w) (ow_first w) true)
        else if ow_first w && negb (beqb (offset r) (ow_offs w)) then
          (set_rec recs i (set_offset r (ow_offs w)), OW (S i) (ow_offs w) false false)
        else if negb (beqb (offset r) (ow_offs w)) && negb (beqb (ow_offs w) zeroOffset) then
          (set_rec recs i (set_offset r (ow_offs w)), OW (S i) (ow_offs w) (ow_first w) false)
        else (recs, OW (S i) (ow_offs w) (ow_first w) false)
      else (recs, OW (S i) (ow_offs w) (ow_first w) false)
  end.

(** a checksum goroutine: checking record [i] of its part that ends before
    [e], about to send [false], finished *)
Inductive csw := CsRun (i e : nat) | CsSend | CsDone.

(** main in this phase *)
Inductive p2res :=
| P2Bad                       (* return h, "invalid checksums detected" *)
| P2Good (recs : list record) (* go on with these records *)
| P2Panic.
Inductive p2main := MWaitCs | MWaitOff | MRet (r : p2res).

Record p2 := P2 {
  p_recs : list record;
  p_off : list offw;
  p_cs : list csw;
  p_chan : list bool;         (* vcsChan, capacity numProc *)
  p_main : p2main
}.

Definition upd {A} (l : list A) (i : nat) (x : A) : list A :=
  firstn i l ++ x :: skipn (S i) l.

Inductive p2step (np : nat) : p2 -> p2 -> Prop :=
| SOff : forall recs off cs ch mn i w,
    nth_error off i = Some w -> ow_done w = false ->
    p2step np (P2 recs off cs ch mn)
              (P2 (fst (offset_step recs w)) (upd off i (snd (offset_step recs w))) cs ch mn)
(* record.go 90-96: next record is fine *)
| SCsOk : forall recs off cs ch mn i j e r,
    nth_error cs i = Some (CsRun j e) -> j < e -> nth_error recs j = Some r ->
    validateChecksum r = Ok true ->
    p2step np (P2 recs off cs ch mn) (P2 recs off (upd cs i (CsRun (S j) e)) ch mn)
(* next record is bad *)
| SCsBad : forall recs off cs ch mn i j e r,
    nth_error cs i = Some (CsRun j e) -> j < e -> nth_error recs j = Some r ->
    validateChecksum r <> Ok true -> validateChecksum r <> Panic ->
    p2step np (P2 recs off cs ch mn) (P2 recs off (upd cs i CsSend) ch mn)
| SCsPanic : forall recs off cs ch mn i j e r,
    nth_error cs i = Some (CsRun j e) -> j < e -> nth_error recs j = Some r ->
    validateChecksum r = Panic ->
    p2step np (P2 recs off cs ch mn) (P2 recs off cs ch (MRet P2Panic))
| SCsEnd : forall recs off cs ch mn i j e,
    nth_error cs i = Some (CsRun j e) -> e <= j ->
    p2step np (P2 recs off cs ch mn) (P2 recs off (upd cs i CsDone) ch mn)
(* c <- false; break; wg.Done() *)
| SCsSend : forall recs off cs ch mn i,
    nth_error cs i = Some CsSend -> List.length ch < np ->
    p2step np (P2 recs off cs ch mn) (P2 recs off (upd cs i CsDone) (ch ++ [false]) mn)
(* hex.go 157-166: wgChecksum.Wait(), close, inspect *)
| SMainCs : forall recs off cs ch,
    Forall (fun c => c = CsDone) cs ->
    p2step np (P2 recs off cs ch MWaitCs)
              (P2 recs off cs ch (if existsb negb ch then MRet P2Bad else MWaitOff))
(* hex.go 170: wgOffset.Wait() *)
| SMainOff : forall recs off cs ch,
    Forall (fun w => ow_done w = true) off ->
    p2step np (P2 recs off cs ch MWaitOff) (P2 recs off cs ch (MRet (P2Good recs))).

Inductive p2steps (np : nat) : p2 -> p2 -> Prop :=
| P2Refl : forall s, p2steps np s s
| P2Trans : forall s1 s2 s3, p2step np s1 s2 -> p2steps np s2 s3 -> p2steps np s1 s3.

(** hex.go 133-154: the goroutines at their start *)
Definition p2init (np : nat) (recs : list record) : p2 :=
  P2 recs
     (map (fun i => OW (chunk_start (List.length recs) np i) zeroOffset false false) (seq 0 np))
     (map (fun i => CsRun (chunk_start (List.length recs) np i)
                          (chunk_end (List.length recs) np i)) (seq 0 np))
     [] MWaitCs.

Definition p2run (np : nat) (recs : list record) (r : p2res) : Prop :=
  exists recs' off cs ch, p2steps np (p2init np recs) (P2 recs' off cs ch (MRet r)).

(** ** The whole of [parseHex] (hex.go 101-202) *)

Fixpoint mapO {A B} (f : A -> outcome herr B) (l : list A) : outcome herr (list B) :=
  match l with
  | [] => Ok []
  | x :: l' => y <- f x ;; ys <- mapO f l' ;; Ok (y :: ys)
  end.

(** messages sent by the parsing goroutines: one slice of records each *)
Definition parse_msgs (np : nat) (lines : list bytes) : outcome herr (list (list (list record))) :=
  mapO (fun c => rs <- parseRecordRoutine c ;; Ok [rs]) (chunks np lines).

(** messages sent by the data goroutines *)
Definition data_msgs (np : nat) (recs : list record) : outcome herr (list (list (list (N * N)))) :=
  mapO calcDataRoutine (chunks np recs).

(** [parseHex_exec np lines res]: some schedule of all goroutines makes
    [parseHex(lines)] end with [res] ([Ok (h, err)] for a return, [Panic] for a
    crash of a goroutine). *)
Inductive parseHex_exec (np : nat) (lines : list bytes) : outcome herr hres -> Prop :=
| XPanicParse : parse_msgs np lines = Panic -> parseHex_exec np lines Panic
| XBad : forall ms recs,
    parse_msgs np lines = Ok ms ->
    crun absorb_recs (List.length lines) ms [] recs ->
    p2run np recs P2Bad ->
    parseHex_exec np lines (Ok ([], Some EChecksum))
| XPanicCs : forall ms recs,
    parse_msgs np lines = Ok ms ->
    crun absorb_recs (List.length lines) ms [] recs ->
    p2run np recs P2Panic ->
    parseHex_exec np lines Panic
| XPanicData : forall ms recs recs',
    parse_msgs np lines = Ok ms ->
    crun absorb_recs (List.length lines) ms [] recs ->
    p2run np recs (P2Good recs') ->
    data_msgs np recs' = Panic ->
    parseHex_exec np lines Panic
| XData : forall ms recs recs' dms res,
    parse_msgs np lines = Ok ms ->
    crun absorb_recs (List.length lines) ms [] recs ->
    p2run np recs (P2Good recs') ->
    data_msgs np recs' = Ok dms ->
    crun absorb_data 1 dms ([], None) res ->
    parseHex_exec np lines (Ok res).

(** hex.go 227-231 *)
Definition crlf : bytes := [ascii_of_N 13; ascii_of_N 10].
Definition lf : bytes := [ascii_of_N 10].
Definition splitLines (text : bytes) : list bytes :=
  let lines := split crlf text in
  if (List.length lines =? 1)%nat then split lf text else lines.

(** hex.go 216-238 for a file with content [text]; [os.ReadFile] failing is the
    [EFile] error with a nil map. *)
Definition parseFile_exec (np : nat) (text : bytes) (res : outcome herr hres) : Prop :=
  parseHex_exec np (splitLines text) res.
