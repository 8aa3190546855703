(** The keywords (tokens.go 360 ff.).  Written by tools/gen_parsers.py. *)
From Coq Require Import String List.
From Verif Require Import GoBase.
Import ListNotations.
Local Open Scope string_scope.

Definition keywords : list string := [
  "A2ML_VERSION";
  "ADDR_EPK";
  "ADDRESS_TYPE";
  "ALIGNMENT_BYTE";
  "ALIGNMENT_FLOAT16_IEEE";
  "ALIGNMENT_FLOAT32_IEEE";
  "ALIGNMENT_FLOAT64_IEEE";
  "ALIGNMENT_INT64";
  "ALIGNMENT_LONG";
  "ALIGNMENT_WORD";
  "ALTERNATE_CURVES";
  "ALTERNATE_WITH_X";
  "ALTERNATE_WITH_Y";
  "ANNOTATION_LABEL";
  "ANNOTATION_ORIGIN";
  "AR_PROTOTYPE_OF";
  "ARRAY_SIZE";
  "ASAP2_VERSION";
  "AXIS_PTS_4";
  "AXIS_PTS_5";
  "AXIS_PTS_REF";
  "AXIS_PTS_X";
  "AXIS_PTS_Y";
  "AXIS_PTS_Z";
  "AXIS_RESCALE_X";
  "/begin A2ML";
  "/begin ANNOTATION_TEXT";
  "/begin ANNOTATION";
  "/begin AR_COMPONENT";
  "/begin AXIS_DESCR";
  "/begin AXIS_PTS";
  "/begin BIT_OPERATION";
  "/begin BLOB";
  "/begin CALIBRATION_HANDLE";
  "/begin CALIBRATION_METHOD";
  "/begin CHARACTERISTIC";
  "/begin COMPU_METHOD";
  "/begin COMPU_TAB";
  "/begin COMPU_VTAB_RANGE";
  "/begin COMPU_VTAB";
  "/begin DEF_CHARACTERISTIC";
  "/begin DEPENDENT_CHARACTERISTIC";
  "/begin FIX_AXIS_PAR_LIST";
  "/begin FIX_AXIS_PAR";
  "/begin FORMULA";
  "/begin FRAME";
  "/begin FUNCTION_LIST";
  "/begin FUNCTION";
  "/begin GROUP";
  "/begin HEADER";
  "/begin IF_DATA";
  "/begin IN_MEASUREMENT";
  "/begin INSTANCE";
  "/begin LOC_MEASUREMENT";
  "/begin MAP_LIST";
  "/begin MEASUREMENT";
  "/begin MEMORY_LAYOUT";
  "/begin MEMORY_SEGMENT";
  "/begin MOD_COMMON";
  "/begin MOD_PAR";
  "/begin MODULE";
  "/begin OUT_MEASUREMENT";
  "/begin OVERWRITE";
  "/begin PROJECT";
  "/begin RECORD_LAYOUT";
  "/begin REF_CHARACTERISTIC";
  "/begin REF_GROUP";
  "/begin REF_MEASUREMENT";
  "/begin STRUCTURE_COMPONENT";
  "/begin SUB_FUNCTION";
  "/begin SUB_GROUP";
  "/begin TRANSFORMER_IN_OBJECTS";
  "/begin TRANSFORMER_OUT_OBJECTS";
  "/begin TRANSFORMER";
  "/begin TYPEDEF_AXIS";
  "/begin TYPEDEF_BLOB";
  "/begin TYPEDEF_CHARACTERISTIC";
  "/begin TYPEDEF_MEASUREMENT";
  "/begin TYPEDEF_STRUCTURE";
  "/begin UNIT";
  "/begin USER_RIGHTS";
  "/begin VAR_ADDRESS";
  "/begin VAR_CHARACTERISTIC";
  "/begin VAR_CRITERION";
  "/begin VAR_FORBIDDEN_COMB";
  "/begin VARIANT_CODING";
  "/begin VIRTUAL_CHARACTERISTIC";
  "/begin VIRTUAL";
  "BIT_MASK";
  "BYTE_ORDER";
  "CALIBRATION_ACCESS";
  "CALIBRATION_HANDLE_TEXT";
  "COEFFS_LINEAR";
  "COEFFS";
  "COMPARISON_QUANTITY";
  "COMPU_TAB_REF";
  "CONSISTENT_EXCHANGE";
  "CONVERSION";
  "CPU_TYPE";
  "CURVE_AXIS_REF";
  "CUSTOMER_NO";
  "CUSTOMER";
  "DATA_SIZE";
  "DEFAULT_VALUE_NUMERIC";
  "DEFAULT_VALUE";
  "DEPOSIT";
  "DISCRETE";
  "DISPLAY_IDENTIFIER";
  "DIST_OP_4";
  "DIST_OP_5";
  "DIST_OP_X";
  "DIST_OP_Y";
  "DIST_OP_Z";
  "ECU_ADDRESS_EXTENSION";
  "ECU_ADDRESS";
  "ECU_CALIBRATION_OFFSET";
  "ECU";
  "/end A2ML";
  "/end ANNOTATION_TEXT";
  "/end ANNOTATION";
  "/end AR_COMPONENT";
  "/end AXIS_DESCR";
  "/end AXIS_PTS";
  "/end BIT_OPERATION";
  "/end BLOB";
  "/end CALIBRATION_HANDLE";
  "/end CALIBRATION_METHOD";
  "/end CHARACTERISTIC";
  "/end COMPU_METHOD";
  "/end COMPU_TAB";
  "/end COMPU_VTAB_RANGE";
  "/end COMPU_VTAB";
  "/end DEF_CHARACTERISTIC";
  "/end DEPENDENT_CHARACTERISTIC";
  "/end FIX_AXIS_PAR_LIST";
  "/end FIX_AXIS_PAR";
  "/end FORMULA";
  "/end FRAME";
  "/end FUNCTION_LIST";
  "/end FUNCTION";
  "/end GROUP";
  "/end HEADER";
  "/end IF_DATA";
  "/end IN_MEASUREMENT";
  "/end INSTANCE";
  "/end LOC_MEASUREMENT";
  "/end MAP_LIST";
  "/end MEASUREMENT";
  "/end MEMORY_LAYOUT";
  "/end MEMORY_SEGMENT";
  "/end MOD_COMMON";
  "/end MOD_PAR";
  "/end MODULE";
  "/end OUT_MEASUREMENT";
  "/end OVERWRITE";
  "/end PROJECT";
  "/end RECORD_LAYOUT";
  "/end REF_CHARACTERISTIC";
  "/end REF_GROUP";
  "/end REF_MEASUREMENT";
  "/end STRUCTURE_COMPONENT";
  "/end SUB_FUNCTION";
  "/end SUB_GROUP";
  "/end TRANSFORMER_IN_OBJECTS";
  "/end TRANSFORMER_OUT_OBJECTS";
  "/end TRANSFORMER";
  "/end TYPEDEF_AXIS";
  "/end TYPEDEF_BLOB";
  "/end TYPEDEF_CHARACTERISTIC";
  "/end TYPEDEF_MEASUREMENT";
  "/end TYPEDEF_STRUCTURE";
  "/end UNIT";
  "/end USER_RIGHTS";
  "/end USER";
  "/end VAR_ADDRESS";
  "/end VAR_CHARACTERISTIC";
  "/end VAR_CRITERION";
  "/end VAR_FORBIDDEN_COMB";
  "/end VARIANT_CODING";
  "/end VIRTUAL_CHARACTERISTIC";
  "/end VIRTUAL";
  "ENCODING";
  "EPK";
  "ERROR_MASK";
  "EXTENDED_LIMITS";
  "FIX_AXIS_PAR_DIST";
  "FIX_NO_AXIS_PTS_4";
  "FIX_NO_AXIS_PTS_5";
  "FIX_NO_AXIS_PTS_X";
  "FIX_NO_AXIS_PTS_Y";
  "FIX_NO_AXIS_PTS_Z";
  "FNC_VALUES";
  "FORMAT";
  "FORMULA_INV";
  "FRAME_MEASUREMENT";
  "FUNCTION_VERSION";
  "GUARD_RAILS";
  "IDENTIFICATION";
  "INPUT_QUANTITY";
  "LAYOUT";
  "LEFT_SHIFT";
  "LIMITS";
  "MATRIX_DIM";
  "MAX_GRAD";
  "MAX_REFRESH";
  "MODEL_LINK";
  "MONOTONY";
  "NO_AXIS_PTS_4";
  "NO_AXIS_PTS_5";
  "NO_AXIS_PTS_X";
  "NO_AXIS_PTS_Y";
  "NO_AXIS_PTS_Z";
  "NO_OF_INTERFACES";
  "NO_RESCALE_X";
  "NUMBER";
  "OFFSET_4";
  "OFFSET_5";
  "OFFSET_X";
  "OFFSET_Y";
  "OFFSET_Z";
  "PHONE_NO";
  "PHYS_UNIT";
  "PROJECT_NO";
  "REF_MEMORY_SEGMENT";
  "REF_UNIT";
  "RIGHT_SHIFT";
  "RIP_ADDR_4";
  "RIP_ADDR_5";
  "RIP_ADDR_W";
  "RIP_ADDR_X";
  "RIP_ADDR_Y";
  "RIP_ADDR_Z";
  "ROOT";
  "SHIFT_OP_4";
  "SHIFT_OP_5";
  "SHIFT_OP_X";
  "SHIFT_OP_Y";
  "SHIFT_OP_Z";
  "SI_EXPONENTS";
  "SIGN_EXTEND";
  "SRC_ADDR_4";
  "SRC_ADDR_5";
  "SRC_ADDR_X";
  "SRC_ADDR_Y";
  "SRC_ADDR_Z";
  "STATIC_ADDRESS_OFFSETS";
  "STATIC_RECORD_LAYOUT";
  "STATUS_STRING_REF";
  "STEP_SIZE";
  "SUPPLIER";
  "SYMBOL_LINK";
  "SYMBOL_TYPE_LINK";
  "SYSTEM_CONSTANT";
  "UNIT_CONVERSION";
  "USER";
  "VAR_MEASUREMENT";
  "VAR_NAMING";
  "VAR_SELECTION_CHARACTERISTIC";
  "VERSION"].

(** token_generator.go 325-330 *)
Definition isKeyword (s : bytes) : bool := existsb (fun k => beqb s (b k)) keywords.
