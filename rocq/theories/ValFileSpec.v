(** What the values of a characteristic depend on, in any file that is read without
    an error. *)
From Coq Require Import String Ascii List Arith NArith Bool SpecFloat.
From Verif Require Import GoBase A2lIR A2lTokens A2lExactSpec HexSpec.
Import ListNotations.

(** [bare s t]: [t] is [s] without the parts "0x". *)
Inductive bare : bytes -> bytes -> Prop :=
| ba_nil : bare [] []
| ba_prefix : forall s t, bare s t -> bare ("0" :: "x" :: s)%char t
| ba_other : forall c s t, ~ (c = "0" /\ exists s', s = "x" :: s')%char -> bare s t -> bare (c :: s) (c :: t).

(** An address text of whole bytes, but fewer than four. *)
Definition shortAddress (s : bytes) : Prop := exists t bs, bare s t /\ hex_text_any t bs /\ length bs < 4.

(** BYTE_ORDER of MOD_COMMON says one of the orders that are not supported. *)
Definition mixedOrder (m : fields) : Prop :=
  exists c o s, fget "ModCommon" m = Some (VObj c) /\ fget "ByteOrder" c = Some (VObj o) /\ fget "ByteOrder" o = Some (VStr (b s)) /\
    (s = "MSB_FIRST_MSW_LAST" \/ s = "MSB_LAST_MSW_FIRST")%string.

(** The record layout that the characteristic [ch] of module [m] names is in the module. *)
Definition deposited (m ch : fields) : Prop :=
  fget "DepositSet" ch = Some (VBool true) /\ exists ls rl, fget "RecordLayouts" m = Some (VMap ls) /\ In (fstr "Deposit" ch, rl) ls.
