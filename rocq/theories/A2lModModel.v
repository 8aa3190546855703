(** Parsing a module with several goroutines: a2l/module.go 327-450, 454-706
    (parseModuleMultithreaded, collectChannelsMultithreaded,
    closeChannelsAfterParsing), 708-1005 (parseModuleMainLoop).  The tables are
    printed by tools/gen_module.py.  Log output is left out; an error is reduced
    to whether it is nil, so that of the field errors only the length is known. *)
From Coq Require Import String List Arith Bool SpecFloat.
From Verif Require Import GoBase A2lIR A2lTokens A2lParsers FanModel.
Import ListNotations.

(** What a collector does with a value (461-641):
    myModule.F = elem, or myModule.F[elem.K] = elem. *)
Inductive action := Keep (f : string) | Put_ (f k : string).

(** The key of a value: elem.K *)
Definition keyOf (k : string) (v : val) : bytes := match v with VObj o => fstr k o | _ => [] end.

(** The maps exist (332-352), so that assigning to a missing one, a panic in Go,
    is not represented. *)
Definition absorb (a : action) (o : fields) (v : val) : fields :=
  match a with
  | Keep f => fset f v o
  | Put_ f k => match fget f o with
                | Some (VMap m) => fset f (VMap (mput (keyOf k v) v m)) o
                | _ => o
                end
  end.

(** A case of parseModuleMainLoop (755-990): case T: buf, err = G(&tg);
    if err != nil { cError <- err; break }; C <- buf *)
Record row := Row { r_tok : string; r_parse : fn; r_chan : string }.

Definition rows : list row := [
  Row "/begin A2ML" parseA2ML "cA2ml";
  Row "/begin AXIS_PTS" parseAxisPts "cAxisPts";
  Row "/begin BLOB" parseBlob "cBlob";
  Row "/begin CHARACTERISTIC" parseCharacteristic "cCharacteristic";
  Row "/begin COMPU_METHOD" parseCompuMethod "cCompuMethod";
  Row "/begin COMPU_TAB" parseCompuTab "cCompuTab";
  Row "/begin COMPU_VTAB" parseCompuVtab "cCompuVtab";
  Row "/begin COMPU_VTAB_RANGE" parseCompuVtabRange "cCompuVtabRange";
  Row "/begin FRAME" parseFrame "cFrame";
  Row "/begin FUNCTION" parseFunction "cFunction";
  Row "/begin GROUP" parseGroup "cGroup";
  Row "/begin IF_DATA" parseIfData "cIfData";
  Row "/begin INSTANCE" parseInstance "cInstance";
  Row "/begin MEASUREMENT" parseMeasurement "cMeasurement";
  Row "/begin MOD_COMMON" parseModCommon "cModCommon";
  Row "/begin MOD_PAR" parseModPar "cModPar";
  Row "/begin RECORD_LAYOUT" parseRecordLayout "cRecordLayout";
  Row "/begin TRANSFORMER" parseTransformer "cTransformer";
  Row "/begin TYPEDEF_AXIS" parseTypeDefAxis "cTypeDefAxis";
  Row "/begin TYPEDEF_BLOB" parseTypeDefBlob "cTypeDefBlob";
  Row "/begin TYPEDEF_CHARACTERISTIC" parseTypeDefCharacteristic "cTypeDefCharacteristic";
  Row "/begin TYPEDEF_MEASUREMENT" parseTypeDefMeasurement "cTypeDefMeasurement";
  Row "/begin TYPEDEF_STRUCTURE" parseTypeDefStructure "cTypeDefStructure";
  Row "/begin UNIT" parseUnit "cUnit";
  Row "/begin USER_RIGHTS" parseUserRights "cUserRights";
  Row "/begin VARIANT_CODING" parseVariantCoding "cVariantCoding"]%string.

(** The channels with their capacities (377-403) and collectors (469-641), without
    cError, whose capacity is numProc and whose collector appends to errors. *)
Definition channels : list (string * (nat * action)) := [
  ("cA2ml", (1, Keep "a2ml"));
  ("cAxisPts", (100, Put_ "AxisPts" "name"));
  ("cBlob", (5, Put_ "blobs" "name"));
  ("cCharacteristic", (1000, Put_ "Characteristics" "Name"));
  ("cCompuMethod", (100, Put_ "CompuMethods" "Name"));
  ("cCompuTab", (100, Put_ "CompuTabs" "Name"));
  ("cCompuVtab", (100, Put_ "CompuVTabs" "Name"));
  ("cCompuVtabRange", (100, Put_ "CompuVTabRanges" "Name"));
  ("cFrame", (1, Keep "frame"));
  ("cFunction", (1000, Put_ "Functions" "name"));
  ("cGroup", (100, Put_ "Groups" "groupName"));
  ("cIfData", (100, Put_ "ifData" "name"));
  ("cMeasurement", (1000, Put_ "Measurements" "name"));
  ("cModCommon", (1, Keep "ModCommon"));
  ("cModPar", (1, Keep "ModPar"));
  ("cRecordLayout", (100, Put_ "RecordLayouts" "Name"));
  ("cInstance", (10, Put_ "instances" "name"));
  ("cTransformer", (10, Put_ "transformers" "name"));
  ("cTypeDefAxis", (10, Put_ "typeDefAxis" "name"));
  ("cTypeDefBlob", (10, Put_ "typeDefBlobs" "name"));
  ("cTypeDefCharacteristic", (10, Put_ "typeDefCharacteristics" "name"));
  ("cTypeDefMeasurement", (10, Put_ "typeDefMeasurements" "name"));
  ("cTypeDefStructure", (10, Put_ "typeDefStructures" "name"));
  ("cUnit", (100, Put_ "Units" "name"));
  ("cUserRights", (10, Put_ "userRights" "userLevelId"));
  ("cVariantCoding", (1, Keep "variantCoding"))]%string.

(** The order of closing (661-690). *)
Definition closing : list string := ["cError"; "cA2ml"; "cAxisPts"; "cBlob"; "cCharacteristic"; 
  "cCompuMethod"; "cCompuTab"; "cCompuVtab"; "cCompuVtabRange"; "cFrame"; "cFunction"; "cGroup"; 
  "cIfData"; "cInstance"; "cMeasurement"; "cModCommon"; "cModPar"; "cRecordLayout"; "cTransformer"; 
  "cTypeDefAxis"; "cTypeDefBlob"; "cTypeDefCharacteristic"; "cTypeDefMeasurement"; 
  "cTypeDefStructure"; "cUnit"; "cUserRights"; "cVariantCoding"]%string.

Definition errChan : string := "cError".
Definition capOf (np : nat) (c : string) : nat :=
  if String.eqb c errChan then np
  else match find (fun p => String.eqb (fst p) c) channels with Some (_, (n, _)) => n | None => 0 end.

(** What is on the channels: objects, and errors (without content). *)
Definition message := (string * val)%type.
Definition anError : message := (errChan, VStr []).

Fixpoint findRow (t : bytes) (rs : list row) : option row :=
  match rs with
  | [] => None
  | r :: rs' => if beqb t (b (r_tok r)) then Some r else findRow t rs'
  end.

Section Module.
  Variable toks : list bytes.
  Variable pf : bytes -> option spec_float.
  Notation next := (next toks).
  Notation nextTok := (nextTok toks).
  Notation current := (current toks).

  (** The loop of parseModuleMainLoop (750-1004) from index [i]: the values sent.
      [None]: no end within [n] rounds, or a panic in an object parser. *)
  Fixpoint mainLoop (fuel n : nat) (max i : nat) : option (list message) :=
    match n with
    | 0 => None
    | S n' =>
        if max <=? i then Some []
        else
          match findRow (nextTok i) rows with
          | Some r =>
              match call isKeyword toks pf fuel (r_parse r) (next i) with
              | Ret v e j => if e then Some [anError] else option_map (cons (r_chan r, v)) (mainLoop fuel n' max j)
              | _ => None
              end
          | None =>
              if beqb (current (next i)) [] then Some [anError]
              else if beqb (current (next i)) (b "/end MODULE") then Some []
              else if max <=? next i then Some []
              else mainLoop fuel n' max (next i)
          end
    end.

  (** [loops max i out]: the loop, begun at index [i], sends [out]. *)
  Definition loops (max i : nat) (out : list message) : Prop :=
    exists n, forall fuel, n <= fuel -> mainLoop fuel fuel max i = Some out.

  (** The maps (332-352). *)
  Definition emptyModule : fields :=
    map (fun f => (f, VMap []))
      ["AxisPts"; "blobs"; "Characteristics"; "CompuMethods"; "CompuTabs"; "CompuVTabs"; "CompuVTabRanges"; "Functions"; "Groups";
       "ifData"; "instances"; "Measurements"; "RecordLayouts"; "transformers"; "typeDefAxis"; "typeDefBlobs"; "typeDefCharacteristics";
       "typeDefMeasurements"; "typeDefStructures"; "Units"; "userRights"]%string.

  (** The loop 356-374: name and long identifier. *)
  Definition header (i : nat) : fields * bool * nat :=
    let i1 := next i in
    if beqb (current i1) [] then (emptyModule, true, i1)
    else
      let o1 := fset "nameSet" (VBool true) (fset "Name" (VStr (current i1)) emptyModule) in
      let i2 := next i1 in
      if beqb (current i2) [] then (o1, true, i2)
      else (fset "longIdentifierSet" (VBool true) (fset "longIdentifier" (VStr (current i2)) o1), false, i2).

  (** The loop 412-416 goes from the last token to the first and keeps the last
      index that it finds: the first /end MODULE of the whole list, 0 if there is none. *)
  Fixpoint firstEnd (l : list bytes) (k : nat) : nat :=
    match l with
    | [] => 0
    | t :: l' => if beqb t (b "/end MODULE") then k else firstEnd l' (S k)
    end.

  (** 422-428 *)
  Definition minIndex (np start stop k : nat) : nat := start + (stop - start) / np * k.
  Definition maxIndex (np start stop k : nat) : nat :=
    if S k =? np then stop else minIndex np start stop k + (stop - start) / np - 1.

  (** What the collectors do, each with the values of its channel; they write to
      different fields. *)
  Definition collected (got : string -> list val) (o : fields) : fields :=
    fold_left (fun o p => fold_left (absorb (snd (snd p))) (got (fst p)) o) channels o.

  (** [parallel np i v e j]: parseModuleMultithreaded with numProc = [np], called
      with the cursor at [i], can return [v], an error or not, and leave the
      cursor at [j]. *)
  Inductive parallel (np i : nat) : val -> bool -> nat -> Prop :=
  | ParNoEnd : forall o e start,
      header i = (o, e, start) -> firstEnd toks 0 <= start ->
      parallel np i (VObj o) true start
  | ParEnd : forall o e start stop outs s,
      header i = (o, e, start) -> firstEnd toks 0 = stop -> start < stop ->
      Forall2 (fun k out => loops (maxIndex np start stop k) (minIndex np start stop k) out) (seq 0 np) outs ->
      fsteps (capOf np) (finit outs closing) s -> ffinal s ->
      parallel np i (VObj (collected (f_got s) o)) (match f_got s errChan with [] => e | _ => true end) stop.
End Module.
