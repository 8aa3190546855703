(** Reading an A2L file: a2l/a2l.go 55-131 (ParseFromFile, parseA2l) and
    a2l/project.go 18-68 (parseProject), with the choice between the sequential
    and the parallel parser of modules.  A2lParsers.v has the same two functions
    for sequential parsing only, where they can be written as programs; parallel
    parsing can end in different ways, so that here they are relations.  Log
    output is left out; an error is reduced to whether it is nil. *)
From Coq Require Import String List Arith NArith Bool SpecFloat.
From Verif Require Import GoBase A2lIR A2lTokens A2lParsers A2lSpec A2lModModel A2lTextModel.
From Verif Require TokModel.
Import ListNotations.

(** What the default case of a loop does: end it, with or without an error, or go
    on with the struct. *)
Inductive round := Stop (e : bool) | Cont (o : fields).

(** project.go 46-64, with the current token [t] *)
Definition projectOther (t : bytes) (p : fields) : round :=
  if beqb t [] then Stop true
  else if beqb t (b "/end PROJECT") then Stop false
  else if isKeyword t then Stop true
  else if fbool "nameSet" p
       then if fbool "longIdentifierSet" p then Cont p
            else Cont (fset "longIdentifierSet" (VBool true) (fset "longIdentifier" (VStr t) p))
       else Cont (fset "nameSet" (VBool true) (fset "Name" (VStr t) p)).

(** a2l.go 119-127, with the current token [t] *)
Definition a2lOther (t : bytes) (a : fields) : round :=
  if beqb t [] then Stop false
  else if isKeyword t then Stop true
  else Cont a.

Section File.
  Variable toks : list bytes.
  Variable pf : bytes -> option spec_float.
  (** [module i v e j]: parsing a module with the cursor at [i] can return [v], an
      error or not, and leave the cursor at [j]. *)
  Variable module : nat -> val -> bool -> nat -> Prop.
  Notation next := (next toks).
  Notation nextTok := (nextTok toks).
  Notation current := (current toks).

  (** [project p i p' e j]: the loop of parseProject (22-66), entered with the struct
      [p] and the cursor at [i], can end with [p'], an error or not, and the
      cursor at [j].  The switch reads tok.next(), its default case tok.current(). *)
  Inductive project : fields -> nat -> fields -> bool -> nat -> Prop :=
  | PrHeader : forall p i v j p' e k,
      nextTok i = b "/begin HEADER" -> returns toks pf parseHeader (next i) v false j ->
      project (fset "header" v p) j p' e k -> project p i p' e k
  | PrHeaderErr : forall p i v j,
      nextTok i = b "/begin HEADER" -> returns toks pf parseHeader (next i) v true j ->
      project p i (fset "header" v p) true j
  | PrModule : forall p i v j p' e k,
      nextTok i = b "/begin MODULE" -> module (next i) v false j ->
      project (fset "Modules" (VList (flist "Modules" p ++ [v])) p) j p' e k -> project p i p' e k
  | PrModuleErr : forall p i v j,
      nextTok i = b "/begin MODULE" -> module (next i) v true j ->
      project p i p true j
  | PrGo : forall p i q p' e k,
      nextTok i <> b "/begin HEADER" -> nextTok i <> b "/begin MODULE" -> projectOther (current (next i)) p = Cont q ->
      project q (next i) p' e k -> project p i p' e k
  | PrStop : forall p i e,
      nextTok i <> b "/begin HEADER" -> nextTok i <> b "/begin MODULE" -> projectOther (current (next i)) p = Stop e ->
      project p i p e (next i).

  (** What the cases of parseA2l call (96-118), and the field for the result. *)
  Inductive part : bytes -> nat -> string -> val -> bool -> nat -> Prop :=
  | PartAsap2 : forall i v e j, returns toks pf parseASAP2Version i v e j -> part (b "ASAP2_VERSION") i "Asap2Version" v e j
  | PartA2ml : forall i v e j, returns toks pf parseA2MLVersion i v e j -> part (b "A2ML_VERSION") i "A2mlVersion" v e j
  | PartProject : forall i p e j, project [] i p e j -> part (b "/begin PROJECT") i "Project" (VObj p) e j.

  (** [a2l a i a' e j]: the loop of parseA2l (94-129), likewise. *)
  Inductive a2l : fields -> nat -> fields -> bool -> nat -> Prop :=
  | AlPart : forall a i f v j a' e k,
      part (current i) i f v false j -> a2l (fset f v a) (next j) a' e k -> a2l a i a' e k
  | AlPartErr : forall a i f v j,
      part (current i) i f v true j -> a2l a i (fset f v a) true j
  | AlGo : forall a i q a' e k,
      ~ In (current i) [b "ASAP2_VERSION"; b "A2ML_VERSION"; b "/begin PROJECT"] -> a2lOther (current i) a = Cont q ->
      a2l q (next i) a' e k -> a2l a i a' e k
  | AlStop : forall a i e,
      ~ In (current i) [b "ASAP2_VERSION"; b "A2ML_VERSION"; b "/begin PROJECT"] -> a2lOther (current i) a = Stop e ->
      a2l a i a e i.
End File.

(** project.go 34-38; [mt] is useMultithreading, set by the tokenizer for every
    file (token_generator.go 76-83). *)
Definition parsesModule (toks : list bytes) (pf : bytes -> option spec_float) (np : nat) (mt : bool) : nat -> val -> bool -> nat -> Prop :=
  if mt then parallel toks pf np else returns toks pf parseModule.

(** The tokens of a file (ParseFromFile 64-75, readFileToString 134-141), with
    numProc = 2 * runtime.NumCPU() (25). *)
Definition fileTokens (gr : N -> bool) (cpus : nat) (content : bytes) (r : option TokModel.tokens) : Prop :=
  TokModel.tok_exec (cpus * 2) (cleanBytesString gr content) r.

(** ParseFromFile returns a struct and an error or nil, or a goroutine panics. *)
Inductive fileResult := Returned (a : fields) (e : bool) | Crashed.

(** [parseFromFile .. file r]: ParseFromFile (55-85) can end with [r]; [file] is None
    when os.ReadFile fails. *)
Inductive parseFromFile (gr : N -> bool) (pf : bytes -> option spec_float) (cpus : nat) : option bytes -> fileResult -> Prop :=
| PfNoFile : parseFromFile gr pf cpus None (Returned [] true)
| PfCrash : forall content, fileTokens gr cpus content None -> parseFromFile gr pf cpus (Some content) Crashed
| PfTokens : forall content t a e j,
    fileTokens gr cpus content (Some t) ->
    a2l (TokModel.tk_list t) pf (parsesModule (TokModel.tk_list t) pf (cpus * 2) (TokModel.tk_multithreading t)) [] 0 a e j ->
    parseFromFile gr pf cpus (Some content) (Returned a e).
