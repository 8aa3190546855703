(** Which goroutine of parseModuleMultithreaded touches what, independent of the proofs. *)
From Coq Require Import String List.
From Verif Require Import GoBase A2lIR FanFullModel A2lModModel.
Import ListNotations.

(** The goroutines, and what they share. *)
Inductive who := Caller | Parser (i : nat) | Closer | Collector (c : string).
Inductive place := Tokens | Field (f : string).

(** The field that a channel is for. *)
Definition target (c : string) : string :=
  if String.eqb c "cError" then "errors"
  else match find (fun p => String.eqb (fst p) c) channels with
       | Some (_, (_, Keep f)) | Some (_, (_, Put_ f _)) => f
       | None => ""
       end%string.

(** What a goroutine is about to do: a collector with a value in hand writes its
    field; a parsing goroutine reads the tokens; the caller, once it has returned,
    reads everything. *)
Inductive touches {V M : Type} (u : full V M) : who -> place -> bool -> Prop :=
| TWrite : forall c v, u_coll u c = KStore v -> touches u (Collector c) (Field (target c)) true
| TParse : forall i l, nth_error (u_work u) i = Some (WRun l) -> touches u (Parser i) Tokens false
| TRead : forall f, u_main u = [] -> touches u Caller (Field f) false.

(** Two goroutines are about to touch the same place, and one of them writes. *)
Definition race {V M : Type} (u : full V M) : Prop :=
  exists g1 g2 p w, g1 <> g2 /\ touches u g1 p true /\ touches u g2 p w.

(** A goroutine that has not ended. *)
Inductive lives {V M : Type} (u : full V M) : who -> Prop :=
| LParser : forall i l, nth_error (u_work u) i = Some (WNew l) \/ nth_error (u_work u) i = Some (WRun l) -> lives u (Parser i)
| LCloser : u_closer u <> CClose [] -> lives u Closer
| LCollector : forall c, In c closing -> u_coll u c <> KEnd -> lives u (Collector c).

Definition sameFields (o o' : fields) : Prop := forall f, fget f o = fget f o'.
