(** Specification of Intel HEX 32 files, independent of the reader. *)
From Coq Require Import String Ascii List Arith NArith Bool.
From Verif Require Import GoBase HexSpec.
Import ListNotations.

(** A record: data at a 16 bit address, extended linear address (upper half of
    the following addresses), any other type (1 end of file, 2, 3, 5, ...). *)
Inductive irec :=
| IData (a : N) (bs : list N)
| IEla (u : N)
| IOther (t : N) (a : N) (bs : list N).

Definition ipayload (r : irec) : list N :=
  match r with
  | IData _ bs => bs
  | IEla u => [u / 256; u mod 256]%N
  | IOther _ _ bs => bs
  end.
Definition iaddr (r : irec) : N :=
  match r with IData a _ => a | IEla _ => 0%N | IOther _ a _ => a end.
Definition itype (r : irec) : N :=
  match r with IData _ _ => 0%N | IEla _ => 4%N | IOther t _ _ => t end.

(** byte count, address, type, data *)
Definition ibody (r : irec) : list N :=
  [N.of_nat (List.length (ipayload r)); iaddr r / 256; iaddr r mod 256; itype r]%N ++ ipayload r.

(** two's complement checksum: all bytes add up to 0 modulo 256 *)
Definition icheck (l : list N) : N := ((256 - nsum l mod 256) mod 256)%N.
Definition ibytes (r : irec) : list N := ibody r ++ [icheck (ibody r)].

(** A line: colon and the bytes as hex digits. *)
Definition iline_of (up : bool) (l : list N) : bytes := ":"%char :: hexs up l.
Definition iline (x : bool * irec) : bytes := iline_of (fst x) (ibytes (snd x)).

(** What the format allows: field widths; at most 255 bytes. *)
Definition ivalid (r : irec) : Prop :=
  (iaddr r < 65536)%N /\ (itype r < 256)%N /\ Forall (fun v => v < 256)%N (ipayload r)
  /\ (List.length (ipayload r) <= 255)%nat
  /\ match r with
     | IData a bs => (a + N.of_nat (List.length bs) <= 65536)%N
     | IEla u => (u < 65536)%N
     | IOther t _ _ => t <> 0%N /\ t <> 4%N
     end.

(** The same, but data may pass a 64 KiB border. *)
Definition iform (r : irec) : Prop :=
  (iaddr r < 65536)%N /\ (itype r < 256)%N /\ Forall (fun v => v < 256)%N (ipayload r)
  /\ (List.length (ipayload r) <= 255)%nat
  /\ match r with
     | IData _ _ => True
     | IEla u => (u < 65536)%N
     | IOther t _ _ => t <> 0%N /\ t <> 4%N
     end.

(** Field widths only. *)
Definition ifits (r : irec) : Prop :=
  (iaddr r < 65536)%N /\ (itype r < 256)%N /\ Forall (fun v => v < 256)%N (ipayload r)
  /\ (List.length (ipayload r) <= 255)%nat.

Definition iend : irec := IOther 1 0 [].

(** The upper address half in force after some records. *)
Definition upper_step (u : option N) (r : irec) : option N :=
  match r with IEla u' => Some u' | _ => u end.
Definition upper (rs : list irec) : option N := fold_left upper_step rs None.

(** The memory image a file describes. *)
Fixpoint image_from (u : N) (rs : list irec) : list (N * N) :=
  match rs with
  | [] => []
  | IData a bs :: rs' => placed (65536 * u + a) bs ++ image_from u rs'
  | IEla u' :: rs' => image_from u' rs'
  | IOther _ _ _ :: rs' => image_from u rs'
  end.
Definition image (rs : list irec) : list (N * N) := image_from 0 rs.

(** No data under an explicit upper half 0000 precedes data under a nonzero
    upper half. *)
Definition zero_upper_last (rs : list irec) : Prop :=
  forall i j a1 b1 a2 b2 u, i < j ->
    nth_error rs i = Some (IData a1 b1) -> upper (firstn i rs) = Some 0%N ->
    nth_error rs j = Some (IData a2 b2) -> upper (firstn j rs) = Some u -> u = 0%N.

(** ** Any file: what is read *)

(** Bytes from address [a] on in the upper half [u]: addresses past the 64 KiB
    border start again at its beginning. *)
Fixpoint wrapped (u a : N) (bs : list N) : list (N * N) :=
  match bs with
  | [] => []
  | v :: bs' => (65536 * u + a mod 65536, v)%N :: wrapped u (a + 1)%N bs'
  end.

(** The memory image with such addresses. *)
Fixpoint wrapped_image (u : N) (rs : list irec) : list (N * N) :=
  match rs with
  | [] => []
  | IData a bs :: rs' => wrapped u a bs ++ wrapped_image u rs'
  | IEla u' :: rs' => wrapped_image u' rs'
  | IOther _ _ _ :: rs' => wrapped_image u rs'
  end.

(** [k] is the closest extended linear address record before [i]. *)
Definition closest (rs : list irec) (k i : nat) (u : N) : Prop :=
  k < i /\ nth_error rs k = Some (IEla u) /\ forall j u', k < j < i -> nth_error rs j <> Some (IEla u').

(** A record for the upper half 0000 between [s] and [k] is the closest to
    some data. *)
Definition zero_used (rs : list irec) (s k : nat) : Prop :=
  exists k' d a bs, s <= k' < k /\ nth_error rs d = Some (IData a bs) /\ closest rs k' d 0%N.

(** One of [np] readers, that start at multiples of [length rs / np], passes
    the closest address record before [i], not having met data under an
    explicit 0000. *)
Definition taken (np : nat) (rs : list irec) (i : nat) (u : N) : Prop :=
  exists g k, g < np /\ g * (List.length rs / np) <= k /\ closest rs k i u
    /\ ~ zero_used rs (g * (List.length rs / np)) k.

(** The upper half the data record [i] gets: that one, otherwise 0. *)
Definition upper_read (np : nat) (rs : list irec) (i : nat) (u : N) : Prop :=
  (u <> 0%N -> taken np rs i u) /\ (forall u', taken np rs i u' -> u' = u).

Definition image_with (rs : list irec) (us : list N) : list (N * N) :=
  flat_map (fun p => match fst p with IData a bs => wrapped (snd p) a bs | _ => [] end) (combine rs us).
Definition image_read (np : nat) (rs : list irec) (img : list (N * N)) : Prop :=
  exists us, List.length us = List.length rs
    /\ (forall i a bs u, nth_error rs i = Some (IData a bs) -> nth_error us i = Some u -> upper_read np rs i u)
    /\ img = image_with rs us.

(** A file: records and blank (or otherwise short) lines in between. *)
Inductive iitem := IRec (up : bool) (r : irec) | IBlank (l : bytes).
Definition item_line (x : iitem) : bytes :=
  match x with IRec up r => iline (up, r) | IBlank l => l end.
Definition item_ok (x : iitem) : Prop :=
  match x with IRec _ r => ivalid r | IBlank l => (List.length l < 11)%nat /\ no_eol l end.
Definition item_form (x : iitem) : Prop :=
  match x with IRec _ r => iform r | IBlank l => (List.length l < 11)%nat /\ no_eol l end.
Fixpoint items_recs (l : list iitem) : list irec :=
  match l with
  | [] => []
  | IRec _ r :: l' => r :: items_recs l'
  | IBlank _ :: l' => items_recs l'
  end.
Definition is_data_or_ela (x : iitem) : bool :=
  match x with IRec _ (IData _ _) | IRec _ (IEla _) => true | _ => false end.
Definition ifile (t : term) (items : list iitem) : bytes :=
  join (term_bytes t) (map item_line items).

(** ** Arbitrary lines *)

(** What makes a line a record line: colon, at least 5 bytes, an extended
    linear address line at least 6 bytes, only whole bytes. *)
Definition line_type (l : bytes) : bytes := firstn 2 (skipn 7 l).
Definition record_line (l : bytes) : Prop :=
  hd_error l = Some ":"%char /\ (11 <= List.length l)%nat /\
  (line_type l = b "04" -> (13 <= List.length l)%nat).
(** Lines a file may have: records, and short lines. *)
Definition fine_line (l : bytes) : Prop := (List.length l < 11)%nat \/ record_line l.
(** The same as tests. *)
Definition record_lineb (l : bytes) : bool :=
  match l with c :: _ => Ascii.eqb c ":"%char | [] => false end && (11 <=? List.length l)%nat
  && (negb (beqb (line_type l) (b "04")) || (13 <=? List.length l)%nat).
Definition fine_lineb (l : bytes) : bool := (List.length l <? 11)%nat || record_lineb l.

(** An extended linear address line with the upper half 0000. *)
Definition zero_ela (l : bytes) : Prop := line_type l = b "04" /\ firstn 4 (skipn 9 l) = b "0000".

Definition whole_bytes (l : bytes) : Prop := Nat.Odd (List.length l).

(** All pairs are bytes and they add up to 0 modulo 256. *)
Definition good_sum (l : bytes) : Prop :=
  exists tx bs, l = ":"%char :: tx /\ hex_text tx bs /\ (nsum bs mod 256 = 0)%N.

(** [l] is a data record line with 16 bit address [addr]; [v] is its data byte
    number [i]. *)
Definition data_byte (l : bytes) (addr : N) (i : nat) (v : N) : Prop :=
  exists n1 n2 af x y pre d post,
    l = ":"%char :: n1 :: n2 :: af ++ b "00" ++ pre ++ d ++ post
    /\ hex_text_any af [x; y] /\ addr = (256 * x + y)%N
    /\ List.length pre = (2 * i)%nat /\ hex_text_any d [v] /\ (2 <= List.length post)%nat.

(** [l] is an extended linear address line for the upper half [u]. *)
Definition ela_line (l : bytes) (u : N) : Prop :=
  exists n1 n2 af o x y post,
    l = ":"%char :: n1 :: n2 :: af ++ b "04" ++ o ++ post
    /\ List.length af = 4 /\ hex_text_any o [x; y] /\ u = (256 * x + y)%N.

(** The line of bytes [l] with byte [k] replaced by [v]. *)
Definition corrupted (up up' : bool) (l : list N) (k : nat) (v : N) : bytes :=
  ":"%char :: hexs up (firstn k l) ++ hex2 up' v ++ hexs up (skipn (S k) l).
