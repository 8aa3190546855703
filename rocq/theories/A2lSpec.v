(** What is said about the parsers of package a2l. *)
From Coq Require Import String Ascii List Arith Bool SpecFloat.
From Verif Require Import GoBase A2lIR A2lTokens.
Import ListNotations.

(** Token lists end with the empty token (C44). *)
Definition ended (toks : list bytes) : Prop := exists l, toks = l ++ [[]].

(** Function [g], called with the cursor at [i], returns the value [v], an error
    or not ([e]), and leaves the cursor at [j]. *)
Definition returns (toks : list bytes) (pf : bytes -> option spec_float) (g : fn) (i : nat) (v : val) (e : bool) (j : nat) : Prop :=
  exists n, forall fuel, n <= fuel -> call isKeyword toks pf fuel g i = Ret v e j.

(** The objects enclosed by a begin and an end keyword: parser and end keyword. *)
Definition brackets : list (string * string) := [
  ("parseHeader", "/end HEADER");
  ("parseA2ML", "/end A2ML");
  ("parseAnnotationText", "/end ANNOTATION_TEXT");
  ("parseAnnotation", "/end ANNOTATION");
  ("parseFunctionList", "/end FUNCTION_LIST");
  ("parseIfData", "/end IF_DATA");
  ("parseAxisPts", "/end AXIS_PTS");
  ("parseBlob", "/end BLOB");
  ("parseFixAxisParList", "/end FIX_AXIS_PAR_LIST");
  ("parseAxisDescr", "/end AXIS_DESCR");
  ("parseDependentCharacteristic", "/end DEPENDENT_CHARACTERISTIC");
  ("parseMapList", "/end MAP_LIST");
  ("parseVirtualCharacteristic", "/end VIRTUAL_CHARACTERISTIC");
  ("parseCharacteristic", "/end CHARACTERISTIC");
  ("parseFormula", "/end FORMULA");
  ("parseCompuMethod", "/end COMPU_METHOD");
  ("parseCompuTab", "/end COMPU_TAB");
  ("parseCompuVtab", "/end COMPU_VTAB");
  ("parseCompuVtabRange", "/end COMPU_VTAB_RANGE");
  ("parseFrame", "/end FRAME");
  ("parseArComponent", "/end AR_COMPONENT");
  ("parseDefCharacteristic", "/end DEF_CHARACTERISTIC");
  ("parseInMeasurement", "/end IN_MEASUREMENT");
  ("parseLocMeasurement", "/end LOC_MEASUREMENT");
  ("parseOutMeasurement", "/end OUT_MEASUREMENT");
  ("parseRefCharacteristic", "/end REF_CHARACTERISTIC");
  ("parseSubFunction", "/end SUB_FUNCTION");
  ("parseFunction", "/end FUNCTION");
  ("parseRefMeasurement", "/end REF_MEASUREMENT");
  ("parseSubGroup", "/end SUB_GROUP");
  ("parseGroup", "/end GROUP");
  ("parseOverwrite", "/end OVERWRITE");
  ("parseInstance", "/end INSTANCE");
  ("parseBitOperation", "/end BIT_OPERATION");
  ("parseVirtual", "/end VIRTUAL");
  ("parseMeasurement", "/end MEASUREMENT");
  ("parseModCommon", "/end MOD_COMMON");
  ("parseCalibrationHandle", "/end CALIBRATION_HANDLE");
  ("parseCalibrationMethod", "/end CALIBRATION_METHOD");
  ("parseMemoryLayout", "/end MEMORY_LAYOUT");
  ("parseMemorySegment", "/end MEMORY_SEGMENT");
  ("parseModPar", "/end MOD_PAR");
  ("parseRecordLayout", "/end RECORD_LAYOUT");
  ("parseTransformerInObject", "/end TRANSFORMER_IN_OBJECTS");
  ("parseTransformerOutObject", "/end TRANSFORMER_OUT_OBJECTS");
  ("parseTransformer", "/end TRANSFORMER");
  ("parseTypeDefAxis", "/end TYPEDEF_AXIS");
  ("parseTypeDefBlob", "/end TYPEDEF_BLOB");
  ("parseTypeDefCharacteristic", "/end TYPEDEF_CHARACTERISTIC");
  ("parseTypeDefMeasurement", "/end TYPEDEF_MEASUREMENT");
  ("parseStructureComponent", "/end STRUCTURE_COMPONENT");
  ("parseTypeDefStructure", "/end TYPEDEF_STRUCTURE");
  ("parseUnit", "/end UNIT");
  ("parseRefGroup", "/end REF_GROUP");
  ("parseUserRights", "/end USER_RIGHTS");
  ("parseVarAddress", "/end VAR_ADDRESS");
  ("parseVarCharacteristic", "/end VAR_CHARACTERISTIC");
  ("parseVarCriterion", "/end VAR_CRITERION");
  ("parseVarForbiddenComb", "/end VAR_FORBIDDEN_COMB");
  ("parseVariantCoding", "/end VARIANT_CODING");
  ("parseModule", "/end MODULE");
  ("parseProject", "/end PROJECT")]%string.
