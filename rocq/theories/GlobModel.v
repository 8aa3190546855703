(** Several calls of ParseFromFile (a2l/a2l.go 55-85) in one program.  The tokens,
    the number of modules and the choice of the parser are variables of the
    package (token_generator.go 14-15, a2l.go 22), shared by all calls; A2lFileModel.v
    has one call only, where they can be results.  Log output is left out. *)
From Coq Require Import List Arith NArith Bool SpecFloat.
From Verif Require Import GoBase A2lIR A2lTextModel A2lFileModel.
From Verif Require TokModel.
Import ListNotations.

(** tokenList, moduleCount, useMultithreading *)
Record globals := Globals { g_list : list bytes; g_count : N; g_mt : bool }.

(** A tokenBuilderRoutine (token_generator.go 88-98) with its channel of capacity 1.
    [Counting n t]: it will find [t], and has [n] modules of it still to count (120-124);
    [Sent buf closed]: it has sent its tokens, which are still in the channel or not. *)
Inductive worker :=
| Counting (n : nat) (t : list bytes)
| Sent (buf : option (list bytes)) (closed : bool).

Definition spawn (t : list bytes) : worker := Counting (List.length (filter (beqb TokModel.beginModuleToken) t)) t.

(** Where a call is. *)
Inductive caller :=
| Begin (file : option bytes)             (* not called yet *)
| Zero (text : bytes)                     (* before moduleCount = 0 *)
| Make (text : bytes)                     (* before tokenList = make(..) *)
| Collect (ws : list worker) (cur : nat)  (* receiving from channel number cur *)
| Decide                                  (* before moduleCount > 1 *)
| Check                                   (* tg.index <= len(tokenList)-1 in the first tok.current() *)
| Index                                   (* tokenList[tg.index] there *)
| Done (r : fileResult).

Fixpoint upd {A} (k : nat) (x : A) (l : list A) : list A :=
  match l, k with
  | [], _ => []
  | _ :: l', 0 => x :: l'
  | y :: l', S k' => y :: upd k' x l'
  end.

(** A step of a goroutine of the tokenizer: counting a module (an atomic addition to a
    uint32), sending (the channel has room), closing. *)
Inductive wstep : globals -> worker -> globals -> worker -> Prop :=
| WCount : forall l c m n t, wstep (Globals l c m) (Counting (S n) t) (Globals l (u32 (c + 1)) m) (Counting n t)
| WSend : forall g t, wstep g (Counting 0 t) g (Sent (Some t) false)
| WClose : forall g buf, wstep g (Sent buf false) g (Sent buf true).

Section Calls.
  Variable gr : N -> bool.
  Variable pf : bytes -> option spec_float.
  Variable cpus : nat.

  (** What parseA2l (a2l.go 90-131) can return with the variables [g]. *)
  Definition parses (g : globals) (r : fileResult) : Prop :=
    exists a e j, a2l (g_list g) pf (parsesModule (g_list g) pf (cpus * 2) (g_mt g)) [] 0 a e j /\ r = Returned a e.

  (** A step of a call, with the goroutines that it has started.  Each access to a
      variable is a step, except that parseA2l is one step after its first
      tok.current(), which is two (token_generator.go 21-27), and that
      tokenList = append(tokenList, ..) is one: with several calls at a time the program
      can do more than this. *)
  Inductive cstep : globals -> caller -> globals -> caller -> Prop :=
  | CNoFile : forall g, cstep g (Begin None) g (Done (Returned [] true))
      (* a2l.go 64-67 *)
  | CRead : forall g content, cstep g (Begin (Some content)) g (Zero (cleanBytesString gr content))
      (* 133-141 *)
  | CZero : forall l c m text, cstep (Globals l c m) (Zero text) (Globals l 0 m) (Make text)
      (* token_generator.go 45 *)
  | CMake : forall l c m text ls,
      TokModel.all_ok (TokModel.chunkResults (cpus * 2) text) = Some ls ->
      cstep (Globals l c m) (Make text) (Globals [] c m) (Collect (map spawn ls) 0)
      (* 47-65 *)
  | CPanic : forall g text,
      TokModel.all_ok (TokModel.chunkResults (cpus * 2) text) = None ->
      cstep g (Make text) g (Done Crashed)
      (* a goroutine panics *)
  | CWorker : forall g g' ws cur k w w',
      nth_error ws k = Some w -> wstep g w g' w' -> cstep g (Collect ws cur) g' (Collect (upd k w' ws) cur)
  | CTake : forall l c m ws cur t closed,
      nth_error ws cur = Some (Sent (Some t) closed) ->
      cstep (Globals l c m) (Collect ws cur) (Globals (l ++ t) c m) (Collect (upd cur (Sent None closed) ws) cur)
      (* 68-69 *)
  | CNext : forall g ws cur,
      nth_error ws cur = Some (Sent None true) -> cstep g (Collect ws cur) g (Collect ws (S cur))
      (* 67-68 *)
  | CEnd : forall l c m ws,
      cstep (Globals l c m) (Collect ws (List.length ws)) (Globals (l ++ [TokModel.emptyToken]) c m) Decide
      (* 72 *)
  | CDecide : forall l c m, cstep (Globals l c m) Decide (Globals l c (negb (1 <? c)%N)) Check
      (* 78-84 *)
  | CCheckEmpty : forall g r, g_list g = [] -> parses g r -> cstep g Check g (Done r)
  | CCheck : forall g, g_list g <> [] -> cstep g Check g Index
  | CIndexPanic : forall g, g_list g = [] -> cstep g Index g (Done Crashed)
  | CParse : forall g r, g_list g <> [] -> parses g r -> cstep g Index g (Done r).

  (** The program: the variables, and calls.  Any of them can make a step. *)
  Definition sys := (globals * list caller)%type.

  Inductive sstep : sys -> sys -> Prop :=
  | Step : forall g g' cs k c c', nth_error cs k = Some c -> cstep g c g' c' -> sstep (g, cs) (g', upd k c' cs).

  (** Calls one after the other: a call makes a step only while no other one has
      begun and not ended. *)
  Definition idle (c : caller) : Prop := match c with Begin _ | Done _ => True | _ => False end.

  Inductive serial : sys -> sys -> Prop :=
  | Serial : forall g g' cs k c c', nth_error cs k = Some c -> cstep g c g' c' ->
      (forall k' c2, nth_error cs k' = Some c2 -> k' <> k -> idle c2) -> serial (g, cs) (g', upd k c' cs).
End Calls.
