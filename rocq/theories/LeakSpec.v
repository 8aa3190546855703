(** When a goroutine of the machine of ConcModel.v ends, and when it cannot. *)
From Coq Require Import List Arith Bool NArith.
From Verif Require Import GoBase ConcModel HexSpec IhexModel SrecModel SrecProofs LockModel LockSpec.
Import ListNotations.

(** A goroutine that has sent everything and closed its channel. *)
Definition finished {M : Type} (w : wstate M) : Prop := w_todo w = [] /\ w_closed w = true.

(** [reads absorb a l a' st]: main receives the messages [l] one after the other, and
    [st] says whether it returns with the last one. *)
Inductive reads {M A : Type} (absorb : A -> M -> A * bool) : A -> list M -> A -> bool -> Prop :=
| RNil : forall a, reads absorb a [] a false
| RSnoc : forall a l a1 m a2 st, reads absorb a l a1 false -> absorb a1 m = (a2, st) -> reads absorb a (l ++ [m]) a2 st.

(** Main returns while it reads channel [k], after the messages [p] of it. *)
Definition stopsAt {M A : Type} (absorb : A -> M -> A * bool) (a0 : A) (msgs : list (list M)) (k : nat) (p : list M) : Prop :=
  exists ms r a, nth_error msgs k = Some ms /\ ms = p ++ r /\ p <> [] /\ reads absorb a0 (concat (firstn k msgs) ++ p) a true.

(** A line of 14 characters of the type extended linear address (04): characters 9-10 are
    its only data pair and 12-13 its checksum, so character 11 is in no pair; yet the
    offset is made of characters 9-12. *)
Definition shortEla (l : bytes) : Prop := length l = 14 /\ firstn 2 (skipn 7 l) = extendedLinearAddressRecordToken.

(** All goroutines that reading the Intel HEX text [text] starts come to their end,
    under every schedule: those that parse lines, those that add offsets and validate
    checksums, and those that compute data. *)
Definition ihexEnds (np : nat) (text : bytes) : Prop :=
  exists ms, parse_msgs np (splitLines text) = Ok ms
    /\ completes (cstep absorb_recs (length (splitLines text))) (fun s => c_done s = true /\ Forall finished (c_ws s)) (cinit ms [])
    /\ forall recs, crun absorb_recs (length (splitLines text)) ms [] recs ->
         completes (l2step np) l2done (l2init np recs)
         /\ forall recs', p2run np recs (P2Good recs') ->
              exists dms, data_msgs np recs' = Ok dms
                /\ completes (cstep absorb_data 1) (fun s => c_done s = true /\ Forall finished (c_ws s)) (cinit dms ([], None)).
Definition srecEnds (np : nat) (text : bytes) : Prop :=
  exists ms, s_parse_msgs np (splitLines text) = Ok ms
    /\ completes (cstep s_absorb_recs (length (splitLines text))) (fun s => c_done s = true /\ Forall finished (c_ws s)) (cinit ms [])
    /\ forall recs, crun s_absorb_recs (length (splitLines text)) ms [] recs ->
         completes (q2step np recs) q2done (q2init np recs)
         /\ (q2run np recs QGood ->
              exists dms, s_data_msgs np recs = Ok dms
                /\ completes (cstep absorb_data 1) (fun s => c_done s = true /\ Forall finished (c_ws s)) (cinit dms ([], None))).
