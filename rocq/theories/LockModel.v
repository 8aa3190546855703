(** The goroutines of [ihex32.addOffsets] (record.go 56-81) in full detail: each
    record has its mutex (record.go 13, 64, 70, 79), and every access to a field of
    a record is a step of its own.  Go strings are two machine words, so writing
    [recs[i].offset] is not atomic: between the two steps of a write the field may
    contain anything.

    [IhexModel.v] takes an iteration of the loop as one step; that this is right is
    proved in LockProps.v.  The rest of the phase (checksum goroutines, main) is
    as in IhexModel.v; the checksum goroutines read fields that nobody writes. *)
From Coq Require Import String Ascii List Arith NArith Bool.
From Verif Require Import GoBase GoStrings ConcModel IhexModel.
Import ListNotations.

(** Where a goroutine stands between Lock and Unlock *)
Inductive lpc :=
| PType          (* 65, 68: about to look at the type *)
| PEla           (* 66: about to read the offset *)
| PEq1           (* 69: offset == offs, after firstRecordAfterNewOffset *)
| PNe1           (* 72: offset != offs, after firstRecordAfterNewOffset *)
| PNe2           (* 75: offset != offs && offs != "0000" *)
| PW1            (* 73: about to write *)
| PT1            (* 73: in the middle of writing *)
| PW2            (* 76 *)
| PT2
| PEnd           (* 79: about to unlock *)
| PBrk.          (* 70: about to unlock and leave the loop *)

(** A goroutine: before the loop test of record [ow_idx], holding the mutex of that
    record, after [wg.Done()].  [ow_done] is not used here. *)
Inductive lworker := LTop (w : offw) | LIn (w : offw) (pc : lpc) | LDone.

(** One step of a goroutine that holds the mutex of [r]; [g] is what can be seen in
    the middle of a write. *)
Definition inside (g : bytes) (r : record) (w : offw) (pc : lpc) : record * offw * lpc :=
  let '(OW i offs first _) := w in
  match pc with
  | PType => (r, w, if beqb (recordType r) extendedLinearAddressRecordToken then PEla
                    else if beqb (recordType r) dataRecordToken then (if first then PEq1 else PNe2)
                    else PEnd)
  | PEla => (r, OW i (offset r) true false, PEnd)
  | PEq1 => (r, w, if beqb (offset r) offs then PBrk else PNe1)
  | PNe1 => (r, w, if beqb (offset r) offs then PNe2 else PW1)
  | PNe2 => (r, w, if beqb (offset r) offs then PEnd else if beqb offs zeroOffset then PEnd else PW2)
  | PW1 => (set_offset r g, w, PT1)
  | PT1 => (set_offset r offs, OW i offs false false, PEnd)
  | PW2 => (set_offset r g, w, PT2)
  | PT2 => (set_offset r offs, w, PEnd)
  | PEnd | PBrk => (r, w, pc)
  end.

Record l2 := L2 {
  l_recs : list record;
  l_held : list bool;         (* the mutexes *)
  l_off : list lworker;
  l_cs : list csw;
  l_chan : list bool;
  l_main : p2main
}.

Inductive l2step (np : nat) : l2 -> l2 -> Prop :=
(* 63: i < len(recs) fails; wg.Done() *)
| KEnd : forall recs held off cs ch mn k w,
    nth_error off k = Some (LTop w) -> List.length recs <= ow_idx w ->
    l2step np (L2 recs held off cs ch mn) (L2 recs held (upd off k LDone) cs ch mn)
(* 64: recs[i].rwm.Lock() *)
| KLock : forall recs held off cs ch mn k w,
    nth_error off k = Some (LTop w) -> ow_idx w < List.length recs -> nth_error held (ow_idx w) = Some false ->
    l2step np (L2 recs held off cs ch mn)
              (L2 recs (upd held (ow_idx w) true) (upd off k (LIn w PType)) cs ch mn)
(* 65-78 *)
| KIn : forall recs held off cs ch mn k w pc r g r' w' pc',
    nth_error off k = Some (LIn w pc) -> pc <> PEnd -> pc <> PBrk -> nth_error recs (ow_idx w) = Some r ->
    inside g r w pc = (r', w', pc') ->
    l2step np (L2 recs held off cs ch mn) (L2 (upd recs (ow_idx w) r') held (upd off k (LIn w' pc')) cs ch mn)
(* 79: Unlock, i++ *)
| KUnlock : forall recs held off cs ch mn k w,
    nth_error off k = Some (LIn w PEnd) ->
    l2step np (L2 recs held off cs ch mn)
              (L2 recs (upd held (ow_idx w) false)
                  (upd off k (LTop (OW (S (ow_idx w)) (ow_offs w) (ow_first w) false))) cs ch mn)
(* 70, 71: Unlock, break; wg.Done() *)
| KBreak : forall recs held off cs ch mn k w,
    nth_error off k = Some (LIn w PBrk) ->
    l2step np (L2 recs held off cs ch mn) (L2 recs (upd held (ow_idx w) false) (upd off k LDone) cs ch mn)
(* the checksum goroutines and main, as in [p2step] *)
| KCsOk : forall recs held off cs ch mn i j e r,
    nth_error cs i = Some (CsRun j e) -> j < e -> nth_error recs j = Some r ->
    validateChecksum r = Ok true ->
    l2step np (L2 recs held off cs ch mn) (L2 recs held off (upd cs i (CsRun (S j) e)) ch mn)
| KCsBad : forall recs held off cs ch mn i j e r,
    nth_error cs i = Some (CsRun j e) -> j < e -> nth_error recs j = Some r ->
    validateChecksum r <> Ok true -> validateChecksum r <> Panic ->
    l2step np (L2 recs held off cs ch mn) (L2 recs held off (upd cs i CsSend) ch mn)
| KCsPanic : forall recs held off cs ch mn i j e r,
    nth_error cs i = Some (CsRun j e) -> j < e -> nth_error recs j = Some r ->
    validateChecksum r = Panic ->
    l2step np (L2 recs held off cs ch mn) (L2 recs held off cs ch (MRet P2Panic))
| KCsEnd : forall recs held off cs ch mn i j e,
    nth_error cs i = Some (CsRun j e) -> e <= j ->
    l2step np (L2 recs held off cs ch mn) (L2 recs held off (upd cs i CsDone) ch mn)
| KCsSend : forall recs held off cs ch mn i,
    nth_error cs i = Some CsSend -> List.length ch < np ->
    l2step np (L2 recs held off cs ch mn) (L2 recs held off (upd cs i CsDone) (ch ++ [false]) mn)
| KMainCs : forall recs held off cs ch,
    Forall (fun c => c = CsDone) cs ->
    l2step np (L2 recs held off cs ch MWaitCs)
              (L2 recs held off cs ch (if existsb negb ch then MRet P2Bad else MWaitOff))
| KMainOff : forall recs held off cs ch,
    Forall (fun w => w = LDone) off ->
    l2step np (L2 recs held off cs ch MWaitOff) (L2 recs held off cs ch (MRet (P2Good recs))).

(** hex.go 133-154 *)
Definition l2init (np : nat) (recs : list record) : l2 :=
  L2 recs (map (fun _ => false) recs)
     (map (fun i => LTop (OW (chunk_start (List.length recs) np i) zeroOffset false false)) (seq 0 np))
     (map (fun i => CsRun (chunk_start (List.length recs) np i) (chunk_end (List.length recs) np i)) (seq 0 np))
     [] MWaitCs.

Inductive l2steps (np : nat) : l2 -> l2 -> Prop :=
| L2Refl : forall s, l2steps np s s
| L2Trans : forall s1 s2 s3, l2step np s1 s2 -> l2steps np s2 s3 -> l2steps np s1 s3.

Definition l2run (np : nat) (recs : list record) (r : p2res) : Prop :=
  exists recs' held off cs ch, l2steps np (l2init np recs) (L2 recs' held off cs ch (MRet r)).

(** hex.go 101-202, as [parseHex_exec] but with the detailed goroutines *)
Inductive parseHex_fine (np : nat) (lines : list bytes) : outcome herr hres -> Prop :=
| FPanicParse : parse_msgs np lines = Panic -> parseHex_fine np lines Panic
| FBad : forall ms recs,
    parse_msgs np lines = Ok ms ->
    crun absorb_recs (List.length lines) ms [] recs ->
    l2run np recs P2Bad ->
    parseHex_fine np lines (Ok ([], Some EChecksum))
| FPanicCs : forall ms recs,
    parse_msgs np lines = Ok ms ->
    crun absorb_recs (List.length lines) ms [] recs ->
    l2run np recs P2Panic ->
    parseHex_fine np lines Panic
| FPanicData : forall ms recs recs',
    parse_msgs np lines = Ok ms ->
    crun absorb_recs (List.length lines) ms [] recs ->
    l2run np recs (P2Good recs') ->
    data_msgs np recs' = Panic ->
    parseHex_fine np lines Panic
| FData : forall ms recs recs' dms res,
    parse_msgs np lines = Ok ms ->
    crun absorb_recs (List.length lines) ms [] recs ->
    l2run np recs (P2Good recs') ->
    data_msgs np recs' = Ok dms ->
    crun absorb_data 1 dms ([], None) res ->
    parseHex_fine np lines (Ok res).

(** hex.go 216-238 *)
Definition parseFile_fine (np : nat) (text : bytes) (res : outcome herr hres) : Prop :=
  parseHex_fine np (splitLines text) res.
