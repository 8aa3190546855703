(** Hex files of the same memory: other records, another order of the records,
    another format. *)
From Coq Require Import String Ascii List Arith NArith Bool.
From Verif Require Import GoBase HexSpec IhexSpec SrecSpec IhexModel SrecModel.
Import ListNotations.

Inductive format := IntelHex | S19.

(** A file of a format that describes the bytes [img]. *)
Inductive hexFile : format -> bytes -> list (N * N) -> Prop :=
| intel_file t items : Forall item_ok items -> zero_upper_last (items_recs items) -> hexFile IntelHex (ifile t items) (image (items_recs items))
| s19_file t items tail : Forall sitem_ok items -> Forall not_s3 tail -> hexFile S19 (sfile t items tail) (s3image (sitems_recs items)).

(** The readers (ihex32/hex.go, srec19/hex.go, ParseFromFile). *)
Definition hexRead (f : format) (np : nat) (text : bytes) (r : outcome herr hres) : Prop :=
  match f with IntelHex => parseFile_exec np text r | S19 => s_parseFile_exec np text r end.

(** The same addresses with the same bytes. *)
Definition agree (m1 m2 : gomap) : Prop := forall a, lookup a m1 = lookup a m2.

(** Memory in segments of 64 KiB: upper half of the addresses; lower half and bytes
    of each record. *)
Definition segment : Type := N * list (N * list N).
Definition segmentRecs (s : segment) : list irec := IEla (fst s) :: map (fun d => IData (fst d) (snd d)) (snd s).
Definition segmentItems (s : segment) : list iitem := map (IRec true) (segmentRecs s).
Definition segmentsFile (t : term) (l : list segment) : bytes := ifile t (flat_map segmentItems l ++ [IRec true iend]).
Definition segment_ok (s : segment) : Prop :=
  (0 < fst s < 65536)%N /\ Forall (fun d => fst d < 65536 /\ Forall (fun v => v < 256) (snd d) /\ N.of_nat (List.length (snd d)) <= 255 /\ fst d + N.of_nat (List.length (snd d)) <= 65536)%N (snd s).
Definition segmentBytes (s : segment) : list (N * N) := flat_map (fun d => placed (65536 * fst s + fst d) (snd d))%N (snd s).
