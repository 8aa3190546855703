(** The parsers of package a2l, statement by statement in the language of
    A2lIR.v.  Written by tools/gen_parsers.py, which leaves out log calls and
    stops at every statement it does not know.  parseProject is the version for
    useMultithreading = false. *)
From Coq Require Import String List NArith.
From Verif Require Import GoBase A2lIR.
Import ListNotations.
Local Open Scope string_scope.

(** enums.go 20-34 *)
Definition parseEncodingEnum : fn :=
  Enum false [("UTF8", "UTF8"); ("UTF16", "UTF16"); ("UTF32", "UTF32")].

(** enums.go 168-198 *)
Definition parseDataTypeEnum : fn :=
  Enum false [("UBYTE", "UBYTE"); ("SBYTE", "SBYTE"); ("UWORD", "UWORD"); ("SWORD", "SWORD"); ("ULONG", "ULONG"); ("SLONG", "SLONG"); ("A_UINT64", "A_UINT64"); ("A_INT64", "A_INT64"); ("FLOAT16_IEEE", "FLOAT16_IEEE"); ("FLOAT32_IEEE", "FLOAT32_IEEE"); ("FLOAT64_IEEE", "FLOAT64_IEEE")].

(** enums.go 223-237 *)
Definition parseDataSizeEnum : fn :=
  Enum false [("BYTE", "BYTE"); ("WORD", "WORD"); ("LONG", "LONG")].

(** enums.go 255-271 *)
Definition parseAddrTypeEnum : fn :=
  Enum false [("PBYTE", "PBYTE"); ("PWORD", "PWORD"); ("PLONG", "PLONG"); ("DIRECT", "DIRECT")].

(** enums.go 285-305 *)
Definition parseByteOrderEnum : fn :=
  Enum false [("LITTLE_ENDIAN", "LITTLE_ENDIAN"); ("BIG_ENDIAN", "BIG_ENDIAN"); ("MSB_LAST", "MSB_LAST"); ("MSB_FIRST", "MSB_FIRST"); ("MSB_FIRST_MSW_LAST", "MSB_FIRST_MSW_LAST"); ("MSB_LAST_MSW_FIRST", "MSB_LAST_MSW_FIRST")].

(** enums.go 334-346 *)
Definition parseIndexOrderEnum : fn :=
  Enum false [("INDEX_INCR", "INDEX_INCR"); ("INDEX_DECR", "INDEX_DECR")].

(** enums.go 378-400 *)
Definition parseAttributeEnum : fn :=
  Enum false [("CURVE_AXIS", "CURVE_AXIS"); ("COM_AXIS", "COM_AXIS"); ("FIX_AXIS", "FIX_AXIS"); ("RES_AXIS", "RES_AXIS"); ("STD_AXIS", "STD_AXIS"); ("INTERN", "INTERN"); ("EXTERN", "EXTERN")].

(** enums.go 412-428 *)
Definition parseCalibrationAccessEnum : fn :=
  Enum true [("CALIBRATION", "CALIBRATION"); ("NO_CALIBRATION", "NO_CALIBRATION"); ("NOT_IN_MCD_SYSTEM", "NOT_IN_MCD_SYSTEM"); ("OFFLINE_CALIBRATION", "OFFLINE_CALIBRATION")].

(** enums.go 455-483 *)
Definition parseTypeEnum : fn :=
  Enum false [("ASCII", "ASCII"); ("CURVE", "CURVE"); ("MAP", "MAP"); ("CUBOID", "CUBOID"); ("CUBE_4", "CUBE_4"); ("CUBE_5", "CUBE_5"); ("VAL_BLK", "VAL_BLK"); ("VALUE", "VALUE"); ("DERIVED", "DERIVED"); ("EXTENDED_SI", "EXTENDED_SI")].

(** enums.go 519-541 *)
Definition parseConversionTypeEnum : fn :=
  Enum false [("IDENTICAL", "IDENTICAL"); ("FORM", "FORM"); ("LINEAR", "LINEAR"); ("RAT_FUNC", "RAT_FUNC"); ("TAB_INTP", "TAB_INTP"); ("TAB_NOINTP", "TAB_NOINTP"); ("TAB_VERB", "TAB_VERB")].

(** enums.go 594-612 *)
Definition parseIndexModeEnum : fn :=
  Enum false [("ALTERNATE_CURVES", "ALTERNATE_CURVES"); ("ALTERNATE_WITH_X", "ALTERNATE_WITH_X"); ("ALTERNATE_WITH_Y", "ALTERNATE_WITH_Y"); ("COLUMN_DIR", "COLUMN_DIR"); ("ROW_DIR", "ROW_DIR")].

(** enums.go 622-634 *)
Definition parseModeEnum : fn :=
  Enum false [("ABSOLUTE", "ABSOLUTE"); ("DIFFERENCE", "DIFFERENCE")].

(** enums.go 653-683 *)
Definition parsePrgTypeEnum : fn :=
  Enum false [("PRG_CODE", "PRG_CODE"); ("PRG_DATA", "PRG_DATA"); ("PRG_RESERVED", "PRG_RESERVED"); ("CALIBRATION_VARIABLES", "CALIBRATION_VARIABLES"); ("CODE", "CODE"); ("DATA", "DATA"); ("EXCLUDE_FROM_FLASH", "EXCLUDE_FROM_FLASH"); ("OFFLINE_DATA", "OFFLINE_DATA"); ("RESERVED", "RESERVED"); ("SERAM", "SERAM"); ("VARIABLES", "VARIABLES")].

(** enums.go 698-720 *)
Definition parseMemoryTypeEnum : fn :=
  Enum false [("EEPROM", "EEPROM"); ("EPROM", "EPROM"); ("FLASH", "FLASH"); ("RAM", "RAM"); ("ROM", "ROM"); ("REGISTER", "REGISTER"); ("NOT_IN_ECU", "NOT_IN_ECU")].

(** enums.go 735-757 *)
Definition parseMonotonyTypeEnum : fn :=
  Enum false [("MON_DECREASE", "MON_DECREASE"); ("MON_INCREASE", "MON_INCREASE"); ("STRICT_DECREASE", "STRICT_DECREASE"); ("STRICT_INCREASE", "STRICT_INCREASE"); ("MONOTONOUS", "MONOTONOUS"); ("STRICT_MON", "STRICT_MON"); ("NOT_MON", "NOT_MON")].

(** enums.go 766-776 *)
Definition parseTagEnum : fn :=
  Enum false [("NUMERIC", "NUMERIC")].

(** enums.go 786-798 *)
Definition parseTriggerEnum : fn :=
  Enum false [("ON_CHANGE", "ON_CHANGE"); ("ON_USER_REQUEST", "ON_USER_REQUEST")].

(** a2ml_version.go 32-70 *)
Definition parseA2MLVersion : fn := Loop
  Skip
  {{ Next;
     If (CurIs "") {{ Raise; Break }}
    {{ If CurKw {{ Raise; Break }}
    {{ If (NotSet "versionNoSet") {{ Num "buf" (NUint 16) FromCur; If ErrSet {{ Break }} Skip; Set_ "VersionNo" (Var "buf"); Set_ "versionNoSet" Tru }}
    {{ If (NotSet "upgradeNoSet") {{ Num "buf" (NUint 16) FromCur; If ErrSet {{ Break }} Skip; Set_ "UpgradeNo" (Var "buf"); Set_ "upgradeNoSet" Tru; Break }}
    Skip }} }} }} }}.

(** asap2_version.go 21-59 *)
Definition parseASAP2Version : fn := Loop
  Skip
  {{ Next;
     If (CurIs "") {{ Raise; Break }}
    {{ If CurKw {{ Raise; Break }}
    {{ If (NotSet "versionNoSet") {{ Num "buf" (NUint 16) FromCur; If ErrSet {{ Break }} Skip; Set_ "versionNo" (Var "buf"); Set_ "versionNoSet" Tru }}
    {{ If (NotSet "upgradeNoSet") {{ Num "buf" (NUint 16) FromCur; If ErrSet {{ Break }} Skip; Set_ "upgradeNo" (Var "buf"); Set_ "upgradeNoSet" Tru; Break }}
    Skip }} }} }} }}.

(** project_no.go 14-30 *)
Definition parseProjectNo : fn := Straight
  {{ Next;
     If (CurIs "") {{ Raise }}
    {{ If CurKw {{ Raise }} {{ If (NotSet "projectNumberSet") {{ Set_ "projectNumber" Cur; Set_ "projectNumberSet" Tru }} Skip }} }} }}.

(** version.go 14-30 *)
Definition parseVersion : fn := Straight
  {{ Next;
     If (CurIs "") {{ Raise }}
    {{ If CurKw {{ Raise }}
    {{ If (NotSet "versionIdentifierSet") {{ Set_ "versionIdentifier" Cur; Set_ "versionIdentifierSet" Tru }} Skip }} }} }}.

(** header.go 16-55 *)
Definition parseHeader : fn := Loop
  Skip
  {{ Switch FromNext (
    Case "PROJECT_NO" {{ CallF "projectNo" parseProjectNo; If ErrSet {{ Break }} Skip }} (
    Case "VERSION" {{ CallF "version" parseVersion; If ErrSet {{ Break }} Skip }} (
    Default)))
    {{ If (CurIs "") {{ Raise; Break }}
      {{ If (CurIs "/end HEADER") {{ Break }}
      {{ If CurKw {{ Raise; Break }} {{ If (NotSet "commentSet") {{ Set_ "comment" Cur; Set_ "commentSet" Tru }} Skip }} }} }} }} }}.

(** a2ml.go 15-33 *)
Definition parseA2ML : fn := Loop
  Skip
  {{ Next;
     If (CurIs "") {{ Raise; Break }}
    {{ If (CurIs "/end A2ML") {{ Set_ "formatSpecificationSet" Tru; Break }}
    {{ If (NotSet "formatSpecificationSet") {{ Set_ "formatSpecification" (CatCur "formatSpecification") }} Skip }} }} }}.

(** annotation_label.go 15-31 *)
Definition parseAnnotationLabel : fn := Straight
  {{ Next;
     If (CurIs "") {{ Raise }}
    {{ If CurKw {{ Raise }} {{ If (NotSet "labelSet") {{ Set_ "label" Cur; Set_ "labelSet" Tru }} Skip }} }} }}.

(** annotation_origin.go 15-31 *)
Definition parseAnnotationOrigin : fn := Straight
  {{ Next;
     If (CurIs "") {{ Raise }}
    {{ If CurKw {{ Raise }} {{ If (NotSet "originSet") {{ Set_ "origin" Cur; Set_ "originSet" Tru }} Skip }} }} }}.

(** annotation_text.go 16-38 *)
Definition parseAnnotationText : fn := Loop
  Skip
  {{ Next;
     If (CurIs "") {{ Raise; Break }}
    {{ If (CurIs "/end ANNOTATION_TEXT") {{ Set_ "annotationTextSet" Tru; Break }}
    {{ If CurKw {{ Raise; Break }} {{ If (NotSet "annotationTextSet") {{ Set_ "annotationText" (CatCur "annotationText") }} Skip }} }} }} }}.

(** annotation.go 17-61 *)
Definition parseAnnotation : fn := Loop
  Skip
  {{ Switch FromNext (
    Case "ANNOTATION_LABEL" {{ CallF "annotationLabel" parseAnnotationLabel; If ErrSet {{ Break }} Skip }} (
    Case "ANNOTATION_ORIGIN" {{ CallF "annotationOrigin" parseAnnotationOrigin; If ErrSet {{ Break }} Skip }} (
    Case "/begin ANNOTATION_TEXT" {{ CallV "buf" parseAnnotationText; If ErrSet {{ Break }} Skip; App "annotationText" (Var "buf") }} (
    Default))))
    {{ If (CurIs "") {{ Raise; Break }} {{ If (CurIs "/end ANNOTATION") {{ Break }} {{ If CurKw {{ Raise; Break }} Skip }} }} }} }}.

(** byte_order.go 14-33 *)
Definition parseByteOrder : fn := Straight
  {{ Next;
     If (CurIs "") {{ Raise }}
    {{ If CurKw {{ Raise }}
    {{ If (NotSet "ByteOrderSet") {{ CallF "ByteOrder" parseByteOrderEnum; If ErrSet Skip Skip; Set_ "ByteOrderSet" Tru }} Skip }} }} }}.

(** deposit.go 14-33 *)
Definition parseDeposit : fn := Straight
  {{ Next;
     If (CurIs "") {{ Raise }}
    {{ If CurKw {{ Raise }}
    {{ If (NotSet "modeSet") {{ CallF "mode" parseModeEnum; If ErrSet Skip Skip; Set_ "modeSet" Tru }} Skip }} }} }}.

(** display_identifier.go 14-30 *)
Definition parseDisplayIdentifier : fn := Straight
  {{ Next;
     If (CurIs "") {{ Raise }}
    {{ If CurKw {{ Raise }} {{ If (NotSet "displayNameSet") {{ Set_ "displayName" Cur; Set_ "displayNameSet" Tru }} Skip }} }} }}.

(** ecu_address_extension.go 25-46 *)
Definition parseECUAddressExtension : fn := Straight
  {{ Next;
     If (CurIs "") {{ Raise }}
    {{ If CurKw {{ Raise }}
    {{ If (NotSet "extensionSet") {{ Num "buf" (NInt 16) FromCur; If ErrSet Skip Skip; Set_ "extension" (Var "buf"); Set_ "extensionSet" Tru }}
    Skip }} }} }}.

(** extended_limits.go 17-55 *)
Definition parseExtendedLimits : fn := Loop
  Skip
  {{ Next;
     If (CurIs "") {{ Raise; Break }}
    {{ If CurKw {{ Raise; Break }}
    {{ If (NotSet "lowerLimitSet") {{ Num "buf" NFloat FromCur; If ErrSet {{ Break }} Skip; Set_ "lowerLimit" (Var "buf"); Set_ "lowerLimitSet" Tru }}
    {{ If (NotSet "upperLimitSet") {{ Num "buf" NFloat FromCur; If ErrSet {{ Break }} Skip; Set_ "upperLimit" (Var "buf"); Set_ "upperLimitSet" Tru; Break }}
    Skip }} }} }} }}.

(** format.go 14-30 *)
Definition parseFormat : fn := Straight
  {{ Next;
     If (CurIs "") {{ Raise }}
    {{ If CurKw {{ Raise }} {{ If (NotSet "formatStringSet") {{ Set_ "formatString" Cur; Set_ "formatStringSet" Tru }} Skip }} }} }}.

(** function_list.go 14-37 *)
Definition parseFunctionList : fn := Loop
  Skip
  {{ Next;
     If (CurIs "") {{ Raise; Break }}
    {{ If (CurIs "/end FUNCTION_LIST") {{ Set_ "nameSet" Tru; Break }}
    {{ If CurKw {{ Raise; Break }} {{ If (NotSet "nameSet") {{ App "name" Cur }} Skip }} }} }} }}.

(** guard_rails.go 14-26 *)
Definition parseGuardRails : fn := Straight
  {{ If (CurIs "") {{ Raise }} {{ If (NotSet "valueSet") {{ Set_ "value" Tru; Set_ "valueSet" Tru }} Skip }} }}.

(** if_data.go 16-39 *)
Definition parseIfData : fn := Loop
  Skip
  {{ Next;
     If (CurIs "") {{ Raise; Break }}
    {{ If (CurIs "/end IF_DATA") {{ Set_ "dataSet" Tru; Break }}
    {{ If (NotSet "nameSet") {{ Set_ "name" Cur; Set_ "nameSet" Tru }} {{ If (NotSet "dataSet") {{ App "data" Cur }} Skip }} }} }} }}.

(** model_link.go 28-44 *)
Definition parseModelLink : fn := Straight
  {{ Next;
     If (CurIs "") {{ Raise }}
    {{ If CurKw {{ Raise }} {{ If (NotSet "modelNameSet") {{ Set_ "modelName" Cur; Set_ "modelNameSet" Tru }} Skip }} }} }}.

(** monotony.go 14-33 *)
Definition parseMonotony : fn := Straight
  {{ Next;
     If (CurIs "") {{ Raise }}
    {{ If CurKw {{ Raise }}
    {{ If (NotSet "monotonySet") {{ CallF "monotony" parseMonotonyTypeEnum; If ErrSet Skip Skip; Set_ "monotonySet" Tru }} Skip }} }} }}.

(** phys_unit.go 14-30 *)
Definition parsePhysUnit : fn := Straight
  {{ Next;
     If (CurIs "") {{ Raise }}
    {{ If CurKw {{ Raise }} {{ If (NotSet "unitSet") {{ Set_ "unit" Cur; Set_ "unitSet" Tru }} Skip }} }} }}.

(** read_only.go 10-19 *)
Definition parseReadOnly : fn := Straight
  {{ If (NotSet "valueSet") {{ Set_ "value" Tru; Set_ "valueSet" Tru }} Skip }}.

(** ref_memory_segment.go 14-30 *)
Definition parseRefMemorySegment : fn := Straight
  {{ Next;
     If (CurIs "") {{ Raise }}
    {{ If CurKw {{ Raise }} {{ If (NotSet "nameSet") {{ Set_ "name" Cur; Set_ "nameSet" Tru }} Skip }} }} }}.

(** step_size.go 15-36 *)
Definition parseStepSize : fn := Straight
  {{ Next;
     If (CurIs "") {{ Raise }}
    {{ If CurKw {{ Raise }}
    {{ If (NotSet "stepSizeSet") {{ Num "buf" NFloat FromCur; If ErrSet Skip Skip; Set_ "stepSize" (Var "buf"); Set_ "stepSizeSet" Tru }}
    Skip }} }} }}.

(** symbol_link.go 17-50 *)
Definition parseSymbolLink : fn := Loop
  Skip
  {{ Next;
     If (CurIs "") {{ Raise; Break }}
    {{ If CurKw {{ Raise; Break }}
    {{ If (NotSet "symbolNameSet") {{ Set_ "symbolName" Cur; Set_ "symbolNameSet" Tru }}
    {{ If (NotSet "offsetSet") {{ Num "buf" (NInt 32) FromCur; If ErrSet {{ Break }} Skip; Set_ "offset" (Var "buf"); Set_ "offsetSet" Tru; Break }}
    Skip }} }} }} }}.

(** axis_pts.go 75-292 *)
Definition parseAxisPts : fn := Loop
  Skip
  {{ Switch FromNext (
    Case "/begin ANNOTATION" {{ CallV "buf" parseAnnotation; If ErrSet {{ Break }} Skip; App "annotation" (Var "buf") }} (
    Case "BYTE_ORDER" {{ CallF "byteOrder" parseByteOrder; If ErrSet {{ Break }} Skip }} (
    Case "CALIBRATION_ACCESS" {{ CallF "calibrationAccess" parseCalibrationAccessEnum; If ErrSet {{ Break }} Skip }} (
    Case "DEPOSIT" {{ CallF "deposit" parseDeposit; If ErrSet {{ Break }} Skip }} (
    Case "DISPLAY_IDENTIFIER" {{ CallF "displayIdentifier" parseDisplayIdentifier; If ErrSet {{ Break }} Skip }} (
    Case "ECU_ADDRESS_EXTENSION" {{ CallF "ecuAddressExtension" parseECUAddressExtension; If ErrSet {{ Break }} Skip }} (
    Case "EXTENDED_LIMITS" {{ CallF "extendedLimits" parseExtendedLimits; If ErrSet {{ Break }} Skip }} (
    Case "FORMAT" {{ CallF "format" parseFormat; If ErrSet {{ Break }} Skip }} (
    Case "/begin FUNCTION_LIST" {{ CallV "buf" parseFunctionList; If ErrSet {{ Break }} Skip; App "functionList" (Var "buf") }} (
    Case "GUARD_RAILS" {{ CallF "guardRails" parseGuardRails; If ErrSet {{ Break }} Skip }} (
    Case "/begin IF_DATA" {{ CallV "buf" parseIfData; If ErrSet {{ Break }} Skip; App "ifData" (Var "buf") }} (
    Case "MODEL_LINK" {{ CallF "modelLink" parseModelLink; If ErrSet {{ Break }} Skip }} (
    Case "MONOTONY" {{ CallF "monotony" parseMonotony; If ErrSet {{ Break }} Skip }} (
    Case "PHYS_UNIT" {{ CallF "physUnit" parsePhysUnit; If ErrSet {{ Break }} Skip }} (
    Case "READ_ONLY" {{ CallF "readOnly" parseReadOnly; If ErrSet {{ Break }} Skip }} (
    Case "REF_MEMORY_SEGMENT" {{ CallF "refMemorySegment" parseRefMemorySegment; If ErrSet {{ Break }} Skip }} (
    Case "STEP_SIZE" {{ CallF "stepSize" parseStepSize; If ErrSet {{ Break }} Skip }} (
    Case "SYMBOL_LINK" {{ CallF "symbolLink" parseSymbolLink; If ErrSet {{ Break }} Skip }} (
    Default)))))))))))))))))))
    {{ If (CurIs "") {{ Raise; Break }}
      {{ If (CurIs "/end AXIS_PTS") {{ Break }}
      {{ If CurKw {{ Raise; Break }}
      {{ If (NotSet "nameSet") {{ Set_ "name" Cur; Set_ "nameSet" Tru }}
      {{ If (NotSet "longIdentifierSet") {{ Set_ "longIdentifier" Cur; Set_ "longIdentifierSet" Tru }}
      {{ If (NotSet "addressSet") {{ Set_ "address" Cur; Set_ "addressSet" Tru }}
      {{ If (NotSet "inputQuantitySet") {{ Set_ "inputQuantity" Cur; Set_ "inputQuantitySet" Tru }}
      {{ If (NotSet "depositIdentSet") {{ Set_ "depositIdent" Cur; Set_ "depositIdentSet" Tru }}
      {{ If (NotSet "maxDiffSet") {{ Num "buf" NFloat FromCur; If ErrSet {{ Break }} Skip; Set_ "maxDiff" (Var "buf"); Set_ "maxDiffSet" Tru }}
      {{ If (NotSet "conversionSet") {{ Set_ "conversion" Cur; Set_ "conversionSet" Tru }}
      {{ If (NotSet "maxAxisPointsSet") {{ Num "buf" (NUint 16) FromCur; If ErrSet {{ Break }} Skip; Set_ "maxAxisPoints" (Var "buf"); Set_ "maxAxisPointsSet" Tru }}
      {{ If (NotSet "lowerLimitSet") {{ Num "buf" NFloat FromCur; If ErrSet {{ Break }} Skip; Set_ "lowerLimit" (Var "buf"); Set_ "lowerLimitSet" Tru }}
      {{ If (NotSet "upperLimitSet") {{ Num "buf" NFloat FromCur; If ErrSet {{ Break }} Skip; Set_ "upperLimit" (Var "buf"); Set_ "upperLimitSet" Tru }}
      Skip }} }} }} }} }} }} }} }} }} }} }} }} }} }}.

(** max_refresh.go 17-55 *)
Definition parseMaxRefresh : fn := Loop
  Skip
  {{ Next;
     If (CurIs "") {{ Raise; Break }}
    {{ If CurKw {{ Raise; Break }}
    {{ If (NotSet "scalingUnitSet") {{ Num "buf" (NUint 16) FromCur; If ErrSet {{ Break }} Skip; Set_ "scalingUnit" (Var "buf"); Set_ "scalingUnitSet" Tru }}
    {{ If (NotSet "rateSet") {{ Num "buf" (NUint 32) FromCur; If ErrSet {{ Break }} Skip; Set_ "rate" (Var "buf"); Set_ "rateSet" Tru; Break }}
    Skip }} }} }} }}.

(** blob.go 33-144 *)
Definition parseBlob : fn := Loop
  Skip
  {{ Switch FromNext (
    Case "/begin ANNOTATION" {{ CallV "buf" parseAnnotation; If ErrSet {{ Break }} Skip; App "annotation" (Var "buf") }} (
    Case "ADDRESS_TYPE" {{ CallF "addressType" parseAddrTypeEnum; If ErrSet {{ Break }} Skip; Set_ "addressTypeSet" Tru }} (
    Case "CALIBRATION_ACCESS" {{ CallF "calibrationAccess" parseCalibrationAccessEnum; If ErrSet {{ Break }} Skip }} (
    Case "DISPLAY_IDENTIFIER" {{ CallF "displayIdentifier" parseDisplayIdentifier; If ErrSet {{ Break }} Skip }} (
    Case "ECU_ADDRESS_EXTENSION" {{ CallF "ecuAddressExtension" parseECUAddressExtension; If ErrSet {{ Break }} Skip }} (
    Case "/begin IF_DATA" {{ CallV "buf" parseIfData; If ErrSet {{ Break }} Skip; App "IfData" (Var "buf") }} (
    Case "MAX_REFRESH" {{ CallF "maxRefresh" parseMaxRefresh; If ErrSet {{ Break }} Skip }} (
    Case "MODEL_LINK" {{ CallF "modelLink" parseModelLink; If ErrSet {{ Break }} Skip }} (
    Case "SYMBOL_LINK" {{ CallF "symbolLink" parseSymbolLink; If ErrSet {{ Break }} Skip }} (
    Default))))))))))
    {{ If (CurIs "") {{ Raise; Break }}
      {{ If (CurIs "/end BLOB") {{ If (NotSet "addressTypeSet") {{ Set_ "addressType" (Lit "DIRECT") }} Skip; Break }}
      {{ If CurKw {{ Raise; Break }}
      {{ If (NotSet "nameSet") {{ Set_ "name" Cur; Set_ "nameSet" Tru }}
      {{ If (NotSet "longIdentifierSet") {{ Set_ "longIdentifier" Cur; Set_ "longIdentifierSet" Tru }}
      {{ If (NotSet "addressSet") {{ Set_ "address" Cur; Set_ "addressSet" Tru }}
      {{ If (NotSet "sizeSet") {{ Num "buf" (NUint 32) FromCur; If ErrSet {{ Break }} Skip; Set_ "size" (Var "buf"); Set_ "sizeSet" Tru }}
      Skip }} }} }} }} }} }} }} }}.

(** axis_pts_ref.go 24-40 *)
Definition parseAxisPtsRef : fn := Straight
  {{ Next;
     If (CurIs "") {{ Raise }}
    {{ If CurKw {{ Raise }} {{ If (NotSet "axisPointsSet") {{ Set_ "axisPoints" Cur; Set_ "axisPointsSet" Tru }} Skip }} }} }}.

(** curve_axis_ref.go 14-30 *)
Definition parseCurveAxisRef : fn := Straight
  {{ Next;
     If (CurIs "") {{ Raise }}
    {{ If CurKw {{ Raise }} {{ If (NotSet "curveAxisSet") {{ Set_ "curveAxis" Cur; Set_ "curveAxisSet" Tru }} Skip }} }} }}.

(** fix_axis_par.go 19-67 *)
Definition parseFixAxisPar : fn := Loop
  Skip
  {{ Next;
     If (CurIs "") {{ Raise; Break }}
    {{ If CurKw {{ Raise; Break }}
    {{ If (NotSet "offsetSet") {{ Num "buf" (NInt 16) FromCur; If ErrSet {{ Break }} Skip; Set_ "offset" (Var "buf"); Set_ "offsetSet" Tru }}
    {{ If (NotSet "shiftSet") {{ Num "buf" (NInt 16) FromCur; If ErrSet {{ Break }} Skip; Set_ "shift" (Var "buf"); Set_ "shiftSet" Tru }}
    {{ If (NotSet "numberapoSet") {{ Num "buf" (NUint 16) FromCur; If ErrSet {{ Break }} Skip; Set_ "numberapo" (Var "buf"); Set_ "numberapoSet" Tru; Break }}
    Skip }} }} }} }} }}.

(** fix_axis_par_dist.go 19-67 *)
Definition parseFixAxisParDist : fn := Loop
  Skip
  {{ Next;
     If (CurIs "") {{ Raise; Break }}
    {{ If CurKw {{ Raise; Break }}
    {{ If (NotSet "offsetSet") {{ Num "buf" (NInt 16) FromCur; If ErrSet {{ Break }} Skip; Set_ "offset" (Var "buf"); Set_ "offsetSet" Tru }}
    {{ If (NotSet "distanceSet") {{ Num "buf" (NInt 16) FromCur; If ErrSet {{ Break }} Skip; Set_ "distance" (Var "buf"); Set_ "distanceSet" Tru }}
    {{ If (NotSet "numberapoSet") {{ Num "buf" (NUint 16) FromCur; If ErrSet {{ Break }} Skip; Set_ "numberapo" (Var "buf"); Set_ "numberapoSet" Tru; Break }}
    Skip }} }} }} }} }}.

(** fix_axis_par_list.go 15-44 *)
Definition parseFixAxisParList : fn := Loop
  Skip
  {{ Next;
     If (CurIs "") {{ Raise; Break }}
    {{ If (CurIs "/end FIX_AXIS_PAR_LIST") {{ Set_ "axisPtsValueSet" Tru; Break }}
    {{ If CurKw {{ Raise; Break }}
    {{ If (NotSet "axisPtsValueSet") {{ Num "buf" NFloat FromCur; If ErrSet {{ Break }} Skip; App "axisPtsValue" (Var "buf") }}
    Skip }} }} }} }}.

(** max_grad.go 15-36 *)
Definition parseMaxGrad : fn := Straight
  {{ Next;
     If (CurIs "") {{ Raise }}
    {{ If CurKw {{ Raise }}
    {{ If (NotSet "maxGradientSet") {{ Num "buf" NFloat FromCur; If ErrSet Skip Skip; Set_ "maxGradient" (Var "buf"); Set_ "maxGradientSet" Tru }}
    Skip }} }} }}.

(** axis_descr.go 86-262 *)
Definition parseAxisDescr : fn := Loop
  Skip
  {{ Switch FromNext (
    Case "/begin ANNOTATION" {{ CallV "buf" parseAnnotation; If ErrSet {{ Break }} Skip; App "annotation" (Var "buf") }} (
    Case "AXIS_PTS_REF" {{ CallF "axisPtsRef" parseAxisPtsRef; If ErrSet {{ Break }} Skip }} (
    Case "BYTE_ORDER" {{ CallF "byteOrder" parseByteOrder; If ErrSet {{ Break }} Skip }} (
    Case "CURVE_AXIS_REF" {{ CallF "curveAxisRef" parseCurveAxisRef; If ErrSet {{ Break }} Skip }} (
    Case "DEPOSIT" {{ CallF "deposit" parseDeposit; If ErrSet {{ Break }} Skip }} (
    Case "EXTENDED_LIMITS" {{ CallF "extendedLimits" parseExtendedLimits; If ErrSet {{ Break }} Skip }} (
    Case "FIX_AXIS_PAR" {{ CallF "fixAxisPar" parseFixAxisPar; If ErrSet {{ Break }} Skip }} (
    Case "FIX_AXIS_PAR_DIST" {{ CallF "fixAxisParDist" parseFixAxisParDist; If ErrSet {{ Break }} Skip }} (
    Case "/begin FIX_AXIS_PAR_LIST" {{ CallV "buf" parseFixAxisParList; If ErrSet {{ Break }} Skip; App "fixAxisParList" (Var "buf") }} (
    Case "FORMAT" {{ CallF "format" parseFormat; If ErrSet {{ Break }} Skip }} (
    Case "MAX_GRAD" {{ CallF "maxGrad" parseMaxGrad; If ErrSet {{ Break }} Skip }} (
    Case "MONOTONY" {{ CallF "monotony" parseMonotony; If ErrSet {{ Break }} Skip }} (
    Case "PHYS_UNIT" {{ CallF "physUnit" parsePhysUnit; If ErrSet {{ Break }} Skip }} (
    Case "READ_ONLY" {{ CallF "readOnly" parseReadOnly; If ErrSet {{ Break }} Skip }} (
    Case "STEP_SIZE" {{ CallF "stepSize" parseStepSize; If ErrSet {{ Break }} Skip }} (
    Default))))))))))))))))
    {{ If (CurIs "") {{ Raise; Break }}
      {{ If (CurIs "/end AXIS_DESCR") {{ Break }}
      {{ If CurKw {{ Raise; Break }}
      {{ If (NotSet "attributeSet") {{ CallF "attribute" parseAttributeEnum; If ErrSet {{ Break }} Skip; Set_ "attributeSet" Tru }}
      {{ If (NotSet "inputQuantitySet") {{ Set_ "inputQuantity" Cur; Set_ "inputQuantitySet" Tru }}
      {{ If (NotSet "conversionSet") {{ Set_ "conversion" Cur; Set_ "conversionSet" Tru }}
      {{ If (NotSet "maxAxisPointsSet") {{ Num "buf" (NUint 16) FromCur; If ErrSet {{ Break }} Skip; Set_ "maxAxisPoints" (Var "buf"); Set_ "maxAxisPointsSet" Tru }}
      {{ If (NotSet "lowerLimitSet") {{ Num "buf" NFloat FromCur; If ErrSet {{ Break }} Skip; Set_ "lowerLimit" (Var "buf"); Set_ "lowerLimitSet" Tru }}
      {{ If (NotSet "upperLimitSet") {{ Num "buf" NFloat FromCur; If ErrSet {{ Break }} Skip; Set_ "upperLimit" (Var "buf"); Set_ "upperLimitSet" Tru }}
      Skip }} }} }} }} }} }} }} }} }} }}.

(** bit_mask.go 34-50 *)
Definition parseBitMask : fn := Straight
  {{ Next;
     If (CurIs "") {{ Raise }}
    {{ If CurKw {{ Raise }} {{ If (NotSet "maskSet") {{ Set_ "mask" Cur; Set_ "maskSet" Tru }} Skip }} }} }}.

(** comparison_quantity.go 14-30 *)
Definition parseComparisonQuantity : fn := Straight
  {{ Next;
     If (CurIs "") {{ Raise }}
    {{ If CurKw {{ Raise }} {{ If (NotSet "nameSet") {{ Set_ "name" Cur; Set_ "nameSet" Tru }} Skip }} }} }}.

(** dependent_characteristic.go 16-44 *)
Definition parseDependentCharacteristic : fn := Loop
  Skip
  {{ Next;
     If (CurIs "") {{ Raise; Break }}
    {{ If (CurIs "/end DEPENDENT_CHARACTERISTIC") {{ Set_ "characteristicSet" Tru; Break }}
    {{ If CurKw {{ Raise; Break }}
    {{ If (NotSet "formulaSet") {{ Set_ "formula" Cur; Set_ "formulaSet" Tru }}
    {{ If (NotSet "characteristicSet") {{ App "characteristic" Cur }} Skip }} }} }} }} }}.

(** discrete.go 10-19 *)
Definition parseDiscrete : fn := Straight
  {{ If (NotSet "valueSet") {{ Set_ "value" Tru; Set_ "valueSet" Tru }} Skip }}.

(** map_list.go 14-37 *)
Definition parseMapList : fn := Loop
  Skip
  {{ Next;
     If (CurIs "") {{ Raise; Break }}
    {{ If (CurIs "/end MAP_LIST") {{ Set_ "nameSet" Tru; Break }}
    {{ If CurKw {{ Raise; Break }} {{ If (NotSet "nameSet") {{ App "name" Cur }} Skip }} }} }} }}.

(** matrix_dim.go 30-96 *)
Definition parseMatrixDim : fn := Loop
  Skip
  {{ Next;
     If (CurIs "") {{ Raise; Break }}
    {{ If CurKw {{ Prev; Break }}
    {{ If (NotSet "DimXSet") {{ Num "buf" (NUint 16) FromCur; If ErrSet {{ Break }} Skip; Set_ "DimX" (Var "buf"); Set_ "DimXSet" Tru }}
    {{ If (NotSet "DimYSet") {{ Num "buf" (NUint 16) FromCur; If ErrSet {{ Break }} Skip; Set_ "DimY" (Var "buf") }}
    {{ If (NotSet "DimZSet") {{ Num "buf" (NUint 16) FromCur; If ErrSet {{ Break }} Skip; Set_ "DimZ" (Var "buf") }}
    {{ If (NotSet "Dim4Set") {{ Num "buf" (NUint 16) FromCur; If ErrSet {{ Break }} Skip; Set_ "Dim4" (Var "buf") }}
    {{ If (NotSet "Dim5Set") {{ Num "buf" (NUint 16) FromCur; If ErrSet {{ Break }} Skip; Set_ "Dim5" (Var "buf"); Break }} Skip }} }} }} }} }} }} }}.

(** number.go 15-36 *)
Definition parseNumber : fn := Straight
  {{ Next;
     If (CurIs "") {{ Raise }}
    {{ If CurKw {{ Raise }}
    {{ If (NotSet "numberSet") {{ Num "buf" (NUint 16) FromCur; If ErrSet Skip Skip; Set_ "number" (Var "buf"); Set_ "numberSet" Tru }}
    Skip }} }} }}.

(** virtual_characteristic.go 16-43 *)
Definition parseVirtualCharacteristic : fn := Loop
  Skip
  {{ Next;
     If (CurIs "") {{ Raise; Break }}
    {{ If (CurIs "/end VIRTUAL_CHARACTERISTIC") {{ Set_ "characteristicSet" Tru; Break }}
    {{ If CurKw {{ Raise; Break }}
    {{ If (NotSet "formulaSet") {{ Set_ "formula" Cur; Set_ "formulaSet" Tru }}
    {{ If (NotSet "characteristicSet") {{ App "characteristic" Cur }} Skip }} }} }} }} }}.

(** characteristic.go 61-343 *)
Definition parseCharacteristic : fn := Loop
  Skip
  {{ Switch FromNext (
    Case "/begin ANNOTATION" {{ CallV "buf" parseAnnotation; If ErrSet {{ Break }} Skip; App "annotation" (Var "buf") }} (
    Case "/begin AXIS_DESCR" {{ CallV "buf" parseAxisDescr; If ErrSet {{ Break }} Skip; App "axisDescr" (Var "buf") }} (
    Case "BIT_MASK" {{ CallF "bitMask" parseBitMask; If ErrSet {{ Break }} Skip }} (
    Case "BYTE_ORDER" {{ CallF "byteOrder" parseByteOrder; If ErrSet {{ Break }} Skip }} (
    Case "CALIBRATION_ACCESS" {{ CallF "calibrationAccess" parseCalibrationAccessEnum; If ErrSet {{ Break }} Skip }} (
    Case "COMPARISON_QUANTITY" {{ CallF "comparisonQuantity" parseComparisonQuantity; If ErrSet {{ Break }} Skip }} (
    Case "/begin DEPENDENT_CHARACTERISTIC" {{ CallV "buf" parseDependentCharacteristic; If ErrSet {{ Break }} Skip; App "dependentCharacteristic" (Var "buf") }} (
    Case "DISCRETE" {{ CallF "discrete" parseDiscrete; If ErrSet {{ Break }} Skip }} (
    Case "DISPLAY_IDENTIFIER" {{ CallF "displayIdentifier" parseDisplayIdentifier; If ErrSet {{ Break }} Skip }} (
    Case "ENCODING" {{ CallF "encoding" parseEncodingEnum; If ErrSet {{ Break }} Skip }} (
    Case "ECU_ADDRESS_EXTENSION" {{ CallF "ecuAddressExtension" parseECUAddressExtension; If ErrSet {{ Break }} Skip }} (
    Case "EXTENDED_LIMITS" {{ CallF "extendedLimits" parseExtendedLimits; If ErrSet {{ Break }} Skip }} (
    Case "FORMAT" {{ CallF "format" parseFormat; If ErrSet {{ Break }} Skip }} (
    Case "/begin FUNCTION_LIST" {{ CallV "buf" parseFunctionList; If ErrSet {{ Break }} Skip; App "functionList" (Var "buf") }} (
    Case "GUARD_RAILS" {{ CallF "guardRails" parseGuardRails; If ErrSet {{ Break }} Skip }} (
    Case "/begin IF_DATA" {{ CallV "buf" parseIfData; If ErrSet {{ Break }} Skip; App "ifData" (Var "buf") }} (
    Case "/begin MAP_LIST" {{ CallV "buf" parseMapList; If ErrSet {{ Break }} Skip; App "mapList" (Var "buf") }} (
    Case "MATRIX_DIM" {{ CallF "MatrixDim" parseMatrixDim; If ErrSet {{ Break }} Skip }} (
    Case "MAX_REFRESH" {{ CallF "maxRefresh" parseMaxRefresh; If ErrSet {{ Break }} Skip }} (
    Case "MODEL_LINK" {{ CallF "modelLink" parseModelLink; If ErrSet {{ Break }} Skip }} (
    Case "NUMBER" {{ CallF "number" parseNumber; If ErrSet {{ Break }} Skip }} (
    Case "PHYS_UNIT" {{ CallF "physUnit" parsePhysUnit; If ErrSet {{ Break }} Skip }} (
    Case "READ_ONLY" {{ CallF "readOnly" parseReadOnly; If ErrSet {{ Break }} Skip }} (
    Case "REF_MEMORY_SEGMENT" {{ CallF "refMemorySegment" parseRefMemorySegment; If ErrSet {{ Break }} Skip }} (
    Case "STEP_SIZE" {{ CallF "stepSize" parseStepSize; If ErrSet {{ Break }} Skip }} (
    Case "SYMBOL_LINK" {{ CallF "symbolLink" parseSymbolLink; If ErrSet {{ Break }} Skip }} (
    Case "/begin VIRTUAL_CHARACTERISTIC" {{ CallV "buf" parseVirtualCharacteristic; If ErrSet {{ Break }} Skip; App "virtualCharacteristic" (Var "buf") }} (
    Default))))))))))))))))))))))))))))
    {{ If (CurIs "") {{ Raise; Break }}
      {{ If (CurIs "/end CHARACTERISTIC") {{ Break }}
      {{ If CurKw {{ Raise; Break }}
      {{ If (NotSet "nameSet") {{ Set_ "Name" Cur; Set_ "nameSet" Tru }}
      {{ If (NotSet "longIdentifierSet") {{ Set_ "LongIdentifier" Cur; Set_ "longIdentifierSet" Tru }}
      {{ If (NotSet "TypeSet") {{ CallF "Type" parseTypeEnum; If ErrSet {{ Break }} Skip; Set_ "TypeSet" Tru }}
      {{ If (NotSet "addressSet") {{ Set_ "Address" Cur; Set_ "addressSet" Tru }}
      {{ If (NotSet "DepositSet") {{ Set_ "Deposit" Cur; Set_ "DepositSet" Tru }}
      {{ If (NotSet "maxDiffSet") {{ Num "buf" NFloat FromCur; If ErrSet {{ Break }} Skip; Set_ "maxDiff" (Var "buf"); Set_ "maxDiffSet" Tru }}
      {{ If (NotSet "conversionSet") {{ Set_ "conversion" Cur; Set_ "conversionSet" Tru }}
      {{ If (NotSet "lowerLimitSet") {{ Num "buf" NFloat FromCur; If ErrSet {{ Break }} Skip; Set_ "lowerLimit" (Var "buf"); Set_ "lowerLimitSet" Tru }}
      {{ If (NotSet "upperLimitSet") {{ Num "buf" NFloat FromCur; If ErrSet {{ Break }} Skip; Set_ "upperLimit" (Var "buf"); Set_ "upperLimitSet" Tru }}
      Skip }} }} }} }} }} }} }} }} }} }} }} }} }}.

(** coeffs.go 25-103 *)
Definition parseCoeffs : fn := Loop
  Skip
  {{ Next;
     If (CurIs "") {{ Raise; Break }}
    {{ If CurKw {{ Raise; Break }}
    {{ If (NotSet "ASet") {{ Num "buf" NFloat FromCur; If ErrSet {{ Break }} Skip; Set_ "A" (Var "buf"); Set_ "ASet" Tru }}
    {{ If (NotSet "BSet") {{ Num "buf" NFloat FromCur; If ErrSet {{ Break }} Skip; Set_ "B" (Var "buf"); Set_ "BSet" Tru }}
    {{ If (NotSet "CSet") {{ Num "buf" NFloat FromCur; If ErrSet {{ Break }} Skip; Set_ "C" (Var "buf"); Set_ "CSet" Tru }}
    {{ If (NotSet "DSet") {{ Num "buf" NFloat FromCur; If ErrSet {{ Break }} Skip; Set_ "D" (Var "buf"); Set_ "DSet" Tru }}
    {{ If (NotSet "ESet") {{ Num "buf" NFloat FromCur; If ErrSet {{ Break }} Skip; Set_ "E" (Var "buf"); Set_ "ESet" Tru }}
    {{ If (NotSet "FSet") {{ Num "buf" NFloat FromCur; If ErrSet {{ Break }} Skip; Set_ "F" (Var "buf"); Set_ "FSet" Tru; Break }}
    Skip }} }} }} }} }} }} }} }}.

(** coeffs_linear.go 17-55 *)
Definition parseCoeffsLinear : fn := Loop
  Skip
  {{ Next;
     If (CurIs "") {{ Raise; Break }}
    {{ If CurKw {{ Raise; Break }}
    {{ If (NotSet "ASet") {{ Num "buf" NFloat FromCur; If ErrSet {{ Break }} Skip; Set_ "A" (Var "buf"); Set_ "ASet" Tru }}
    {{ If (NotSet "BSet") {{ Num "buf" NFloat FromCur; If ErrSet {{ Break }} Skip; Set_ "B" (Var "buf"); Set_ "BSet" Tru; Break }}
    Skip }} }} }} }}.

(** compu_tab_ref.go 14-29 *)
Definition parseCompuTabRef : fn := Straight
  {{ Next;
     If (CurIs "") {{ Raise }}
    {{ If CurKw {{ Raise }}
    {{ If (NotSet "ConversionTableSet") {{ Set_ "ConversionTable" Cur; Set_ "ConversionTableSet" Tru }} Skip }} }} }}.

(** formula_inv.go 14-30 *)
Definition parseFormulaInv : fn := Straight
  {{ Next;
     If (CurIs "") {{ Raise }} {{ If CurKw {{ Raise }} {{ If (NotSet "gxSet") {{ Set_ "gx" Cur; Set_ "gxSet" Tru }} Skip }} }} }}.

(** formula.go 15-47 *)
Definition parseFormula : fn := Loop
  Skip
  {{ Switch FromNext (
    Case "FORMULA_INV" {{ CallF "formulaInv" parseFormulaInv; If ErrSet {{ Break }} Skip }} (
    Default))
    {{ If (CurIs "") {{ Raise; Break }}
      {{ If (CurIs "/end FORMULA") {{ Set_ "fxSet" Tru; Break }}
      {{ If CurKw {{ Raise; Break }} {{ If (NotSet "fxSet") {{ App "fx" Cur }} Skip }} }} }} }} }}.

(** ref_unit.go 14-30 *)
Definition parseRefUnit : fn := Straight
  {{ Next;
     If (CurIs "") {{ Raise }}
    {{ If CurKw {{ Raise }} {{ If (NotSet "unitSet") {{ Set_ "unit" Cur; Set_ "unitSet" Tru }} Skip }} }} }}.

(** status_string_ref.go 32-48 *)
Definition parseStatusStringRef : fn := Straight
  {{ Next;
     If (CurIs "") {{ Raise }}
    {{ If CurKw {{ Raise }}
    {{ If (NotSet "ConversionTableSet") {{ Set_ "ConversionTable" Cur; Set_ "ConversionTableSet" Tru }} Skip }} }} }}.

(** compu_method.go 28-117 *)
Definition parseCompuMethod : fn := Loop
  Skip
  {{ Switch FromNext (
    Case "COEFFS" {{ CallF "Coeffs" parseCoeffs; If ErrSet {{ Break }} Skip }} (
    Case "COEFFS_LINEAR" {{ CallF "CoeffsLinear" parseCoeffsLinear; If ErrSet {{ Break }} Skip }} (
    Case "COMPU_TAB_REF" {{ CallF "CompuTabRef" parseCompuTabRef; If ErrSet {{ Break }} Skip }} (
    Case "/begin FORMULA" {{ CallV "buf" parseFormula; If ErrSet {{ Break }} Skip; App "Formula" (Var "buf") }} (
    Case "REF_UNIT" {{ CallF "RefUnit" parseRefUnit; If ErrSet {{ Break }} Skip }} (
    Case "STATUS_STRING_REF" {{ CallF "StatusStringRef" parseStatusStringRef; If ErrSet {{ Break }} Skip }} (
    Default)))))))
    {{ If (CurIs "") {{ Raise; Break }}
      {{ If (CurIs "/end COMPU_METHOD") {{ Break }}
      {{ If CurKw {{ Raise; Break }}
      {{ If (NotSet "NameSet") {{ Set_ "Name" Cur; Set_ "NameSet" Tru }}
      {{ If (NotSet "LongIdentifierSet") {{ Set_ "LongIdentifier" Cur; Set_ "LongIdentifierSet" Tru }}
      {{ If (NotSet "ConversionTypeSet") {{ CallF "ConversionType" parseConversionTypeEnum; If ErrSet {{ Break }} Skip; Set_ "ConversionTypeSet" Tru }}
      {{ If (NotSet "FormatSet") {{ Set_ "Format" Cur; Set_ "FormatSet" Tru }}
      {{ If (NotSet "UnitSet") {{ Set_ "Unit" Cur; Set_ "UnitSet" Tru }} Skip }} }} }} }} }} }} }} }} }}.

(** default_value.go 14-30 *)
Definition parseDefaultValue : fn := Straight
  {{ Next;
     If (CurIs "") {{ Raise }}
    {{ If CurKw {{ Raise }} {{ If (NotSet "DisplayStringSet") {{ Set_ "DisplayString" Cur; Set_ "DisplayStringSet" Tru }} Skip }} }} }}.

(** default_value_numeric.go 15-36 *)
Definition parseDefaultValueNumeric : fn := Straight
  {{ Next;
     If (CurIs "") {{ Raise }}
    {{ If CurKw {{ Raise }}
    {{ If (NotSet "DisplayValueSet") {{ Num "buf" NFloat FromCur; If ErrSet Skip Skip; Set_ "DisplayValue" (Var "buf"); Set_ "DisplayValueSet" Tru }}
    Skip }} }} }}.

(** compu_tab.go 27-111 *)
Definition parseCompuTab : fn := Loop
  Skip
  {{ Switch FromNext (
    Case "DEFAULT_VALUE" {{ CallF "DefaultValue" parseDefaultValue; If ErrSet {{ Break }} Skip }} (
    Case "DEFAULT_VALUE_NUMERIC" {{ CallF "DefaultValueNumeric" parseDefaultValueNumeric; If ErrSet {{ Break }} Skip }} (
    Default)))
    {{ If (CurIs "") {{ Raise; Break }}
      {{ If (CurIs "/end COMPU_TAB") {{ Break }}
      {{ If CurKw {{ Raise; Break }}
      {{ If (NotSet "NameSet") {{ Set_ "Name" Cur; Set_ "NameSet" Tru }}
      {{ If (NotSet "longIdentifierSet") {{ Set_ "longIdentifier" Cur; Set_ "longIdentifierSet" Tru }}
      {{ If (NotSet "ConversionTypeSet") {{ CallF "ConversionType" parseConversionTypeEnum; If ErrSet {{ Break }} Skip; Set_ "ConversionTypeSet" Tru }}
      {{ If (NotSet "NumberValuePairsSet") {{ Num "buf" (NUint 16) FromCur;
         If ErrSet {{ Break }} Skip;
         Set_ "NumberValuePairs" (Var "buf");
         Set_ "NumberValuePairsSet" Tru }}
      {{ If (Or (NotSet "InValSet") (NotSet "OutValSet")) {{ Num "buf" NFloat FromCur;
         If ErrSet {{ Break }} Skip;
         App "InVal" (Var "buf");
         If (Len16Is "InVal" "NumberValuePairs") {{ Set_ "InValSet" Tru }} Skip;
         Num "buf" NFloat FromNext;
         If ErrSet {{ Break }} Skip;
         App "OutVal" (Var "buf");
         If (Len16Is "OutVal" "NumberValuePairs") {{ Set_ "OutValSet" Tru }} Skip }}
      Skip }} }} }} }} }} }} }} }} }}.

(** compu_vtab.go 26-98 *)
Definition parseCompuVtab : fn := Loop
  Skip
  {{ Switch FromNext (
    Case "DEFAULT_VALUE" {{ CallF "DefaultValue" parseDefaultValue; If ErrSet {{ Break }} Skip }} (
    Default))
    {{ If (CurIs "") {{ Raise; Break }}
      {{ If (CurIs "/end COMPU_VTAB") {{ Break }}
      {{ If CurKw {{ Raise; Break }}
      {{ If (NotSet "NameSet") {{ Set_ "Name" Cur; Set_ "NameSet" Tru }}
      {{ If (NotSet "LongIdentifierSet") {{ Set_ "LongIdentifier" Cur; Set_ "LongIdentifierSet" Tru }}
      {{ If (NotSet "ConversionTypeSet") {{ CallF "ConversionType" parseConversionTypeEnum; If ErrSet {{ Break }} Skip; Set_ "ConversionTypeSet" Tru }}
      {{ If (NotSet "NumberValuePairsSet") {{ Num "buf" (NUint 16) FromCur;
         If ErrSet {{ Break }} Skip;
         Set_ "NumberValuePairs" (Var "buf");
         Set_ "NumberValuePairsSet" Tru }}
      {{ If (Or (NotSet "InValSet") (NotSet "OutValSet")) {{ Num "buf" NFloat FromCur;
         If ErrSet {{ Break }} Skip;
         App "InVal" (Var "buf");
         If (Len16Is "InVal" "NumberValuePairs") {{ Set_ "InValSet" Tru }} Skip;
         Next;
         App "OutVal" Cur;
         If (Len16Is "OutVal" "NumberValuePairs") {{ Set_ "OutValSet" Tru }} Skip }}
      Skip }} }} }} }} }} }} }} }} }}.

(** compu_vtab_range.go 26-103 *)
Definition parseCompuVtabRange : fn := Loop
  Skip
  {{ Switch FromNext (
    Case "DEFAULT_VALUE" {{ CallF "DefaultValue" parseDefaultValue; If ErrSet {{ Break }} Skip }} (
    Default))
    {{ If (CurIs "") {{ Raise; Break }}
      {{ If (CurIs "/end COMPU_VTAB_RANGE") {{ Break }}
      {{ If CurKw {{ Raise; Break }}
      {{ If (NotSet "NameSet") {{ Set_ "Name" Cur; Set_ "NameSet" Tru }}
      {{ If (NotSet "LongIdentifierSet") {{ Set_ "LongIdentifier" Cur; Set_ "LongIdentifierSet" Tru }}
      {{ If (NotSet "NumberValueTriplesSet") {{ Num "buf" (NUint 16) FromCur;
         If ErrSet {{ Break }} Skip;
         Set_ "NumberValueTriples" (Var "buf");
         Set_ "NumberValueTriplesSet" Tru }}
      {{ If (Or (NotSet "InValMinSet") (Or (NotSet "InValMaxSet") (NotSet "OutValSet"))) {{ Num "buf" NFloat FromCur;
         If ErrSet {{ Break }} Skip;
         App "InValMin" (Var "buf");
         If (Len16Is "InValMin" "NumberValueTriples") {{ Set_ "InValMinSet" Tru }} Skip;
         Next;
         Num "buf" NFloat FromCur;
         If ErrSet {{ Break }} Skip;
         App "InValMax" (Var "buf");
         If (Len16Is "InValMax" "NumberValueTriples") {{ Set_ "InValMaxSet" Tru }} Skip;
         Next;
         App "OutVal" Cur;
         If (Len16Is "OutVal" "NumberValueTriples") {{ Set_ "OutValSet" Tru }} Skip }}
      Skip }} }} }} }} }} }} }} }}.

(** frame_measurement.go 14-41 *)
Definition parseFrameMeasurement : fn := Loop
  Skip
  {{ Next;
     If (CurIs "") {{ Raise; Break }}
    {{ If (Or (CurIs "/end FRAME") (CurIs "/begin IF_DATA")) {{ Set_ "identifierSet" Tru; Prev; Break }}
    {{ If CurKw {{ Raise; Break }} {{ If (NotSet "identifierSet") {{ App "identifier" Cur }} Skip }} }} }} }}.

(** frame.go 23-76 *)
Definition parseFrame : fn := Loop
  Skip
  {{ Switch FromNext (
    Case "FRAME_MEASUREMENT" {{ CallF "frameMeasurement" parseFrameMeasurement; If ErrSet {{ Break }} Skip }} (
    Case "/begin IF_DATA" {{ CallV "buf" parseIfData; If ErrSet {{ Break }} Skip; App "ifData" (Var "buf") }} (
    Default)))
    {{ If (CurIs "") {{ Break }}
      {{ If (CurIs "/end FRAME") {{ Break }}
      {{ If CurKw {{ Raise; Break }}
      {{ If (NotSet "nameSet") {{ Set_ "name" Cur }}
      {{ If (NotSet "longIdentifierSet") {{ Set_ "longIdentifier" Cur }}
      {{ If (NotSet "scalingUnitSet") {{ Num "buf" (NUint 16) FromCur; If ErrSet {{ Break }} Skip; Set_ "scalingUnit" (Var "buf") }}
      {{ If (NotSet "rateSet") {{ Num "buf" (NUint 32) FromCur; If ErrSet {{ Break }} Skip; Set_ "rate" (Var "buf") }} Skip }} }} }} }} }} }} }} }}.

(** ar_prototype_of.go 17-33 *)
Definition parseArPrototypeOf : fn := Straight
  {{ Next;
     If (CurIs "") {{ Raise }}
    {{ If CurKw {{ Raise }} {{ If (NotSet "nameSet") {{ Set_ "name" Cur; Set_ "nameSet" Tru }} Skip }} }} }}.

(** ar_component.go 32-64 *)
Definition parseArComponent : fn := Loop
  Skip
  {{ Switch FromNext (
    Case "AR_PROTOTYPE_OF" {{ CallF "arPrototypeOf" parseArPrototypeOf; If ErrSet {{ Break }} Skip }} (
    Default))
    {{ If (CurIs "") {{ Raise; Break }}
      {{ If (CurIs "/end AR_COMPONENT") {{ Break }}
      {{ If CurKw {{ Raise; Break }}
      {{ If (NotSet "componentTypeSet") {{ Set_ "componentType" Cur; Set_ "componentTypeSet" Tru }} Skip }} }} }} }} }}.

(** def_characteristic.go 14-37 *)
Definition parseDefCharacteristic : fn := Loop
  Skip
  {{ Next;
     If (CurIs "") {{ Raise; Break }}
    {{ If (CurIs "/end DEF_CHARACTERISTIC") {{ Set_ "identifierSet" Tru; Break }}
    {{ If CurKw {{ Raise; Break }} {{ If (NotSet "identifierSet") {{ App "identifier" Cur }} Skip }} }} }} }}.

(** function_version.go 14-30 *)
Definition parseFunctionVersion : fn := Straight
  {{ Next;
     If (CurIs "") {{ Raise }}
    {{ If CurKw {{ Raise }}
    {{ If (NotSet "versionIdentifierSet") {{ Set_ "versionIdentifier" Cur; Set_ "versionIdentifierSet" Tru }} Skip }} }} }}.

(** in_measurement.go 14-37 *)
Definition parseInMeasurement : fn := Loop
  Skip
  {{ Next;
     If (CurIs "") {{ Raise; Break }}
    {{ If (CurIs "/end IN_MEASUREMENT") {{ Set_ "identifierSet" Tru; Break }}
    {{ If CurKw {{ Raise; Break }} {{ If (NotSet "identifierSet") {{ App "identifier" Cur }} Skip }} }} }} }}.

(** loc_measurement.go 14-37 *)
Definition parseLocMeasurement : fn := Loop
  Skip
  {{ Next;
     If (CurIs "") {{ Raise; Break }}
    {{ If (CurIs "/end LOC_MEASUREMENT") {{ Set_ "identifierSet" Tru; Break }}
    {{ If CurKw {{ Raise; Break }} {{ If (NotSet "identifierSet") {{ App "identifier" Cur }} Skip }} }} }} }}.

(** out_measurement.go 14-37 *)
Definition parseOutMeasurement : fn := Loop
  Skip
  {{ Next;
     If (CurIs "") {{ Raise; Break }}
    {{ If (CurIs "/end OUT_MEASUREMENT") {{ Set_ "identifierSet" Tru; Break }}
    {{ If CurKw {{ Raise; Break }} {{ If (NotSet "identifierSet") {{ App "identifier" Cur }} Skip }} }} }} }}.

(** ref_characteristic.go 14-37 *)
Definition parseRefCharacteristic : fn := Loop
  Skip
  {{ Next;
     If (CurIs "") {{ Raise; Break }}
    {{ If (CurIs "/end REF_CHARACTERISTIC") {{ Set_ "identifierSet" Tru; Break }}
    {{ If CurKw {{ Raise; Break }} {{ If (NotSet "identifierSet") {{ App "identifier" Cur }} Skip }} }} }} }}.

(** sub_function.go 14-37 *)
Definition parseSubFunction : fn := Loop
  Skip
  {{ Next;
     If (CurIs "") {{ Raise; Break }}
    {{ If (CurIs "/end SUB_FUNCTION") {{ Set_ "identifierSet" Tru; Break }}
    {{ If CurKw {{ Raise; Break }} {{ If (NotSet "identifierSet") {{ App "identifier" Cur }} Skip }} }} }} }}.

(** function.go 26-128 *)
Definition parseFunction : fn := Loop
  Skip
  {{ Switch FromNext (
    Case "/begin ANNOTATION" {{ CallV "buf" parseAnnotation; If ErrSet {{ Break }} Skip; App "annotation" (Var "buf") }} (
    Case "/begin AR_COMPONENT" {{ CallF "arComponent" parseArComponent; If ErrSet {{ Break }} Skip }} (
    Case "/begin DEF_CHARACTERISTIC" {{ CallF "defCharacteristic" parseDefCharacteristic; If ErrSet {{ Break }} Skip }} (
    Case "FUNCTION_VERSION" {{ CallF "functionVersion" parseFunctionVersion; If ErrSet {{ Break }} Skip }} (
    Case "/begin IF_DATA" {{ CallV "buf" parseIfData; If ErrSet {{ Break }} Skip; App "ifData" (Var "buf") }} (
    Case "/begin IN_MEASUREMENT" {{ CallF "inMeasurement" parseInMeasurement; If ErrSet {{ Break }} Skip }} (
    Case "/begin LOC_MEASUREMENT" {{ CallF "locMeasurement" parseLocMeasurement; If ErrSet {{ Break }} Skip }} (
    Case "/begin OUT_MEASUREMENT" {{ CallF "outMeasurement" parseOutMeasurement; If ErrSet {{ Break }} Skip }} (
    Case "/begin REF_CHARACTERISTIC" {{ CallF "refCharacteristic" parseRefCharacteristic; If ErrSet {{ Break }} Skip }} (
    Case "/begin SUB_FUNCTION" {{ CallF "subFunction" parseSubFunction; If ErrSet {{ Break }} Skip }} (
    Default)))))))))))
    {{ If (CurIs "") {{ Raise; Break }}
      {{ If (CurIs "/end FUNCTION") {{ Break }}
      {{ If CurKw {{ Raise; Break }}
      {{ If (NotSet "nameSet") {{ Set_ "name" Cur; Set_ "nameSet" Tru }}
      {{ If (NotSet "longIdentifierSet") {{ Set_ "longIdentifier" Cur; Set_ "longIdentifierSet" Tru }} Skip }} }} }} }} }} }}.

(** ref_measurement.go 14-37 *)
Definition parseRefMeasurement : fn := Loop
  Skip
  {{ Next;
     If (CurIs "") {{ Raise; Break }}
    {{ If (CurIs "/end REF_MEASUREMENT") {{ Set_ "identifierSet" Tru; Break }}
    {{ If CurKw {{ Raise; Break }} {{ If (NotSet "identifierSet") {{ App "identifier" Cur }} Skip }} }} }} }}.

(** root.go 10-19 *)
Definition parseRoot : fn := Straight
  {{ If (NotSet "valueSet") {{ Set_ "value" Tru; Set_ "valueSet" Tru }} Skip }}.

(** sub_group.go 14-37 *)
Definition parseSubGroup : fn := Loop
  Skip
  {{ Next;
     If (CurIs "") {{ Raise; Break }}
    {{ If (CurIs "/end SUB_GROUP") {{ Set_ "identifierSet" Tru; Break }}
    {{ If CurKw {{ Raise; Break }} {{ If (NotSet "identifierSet") {{ App "identifier" Cur }} Skip }} }} }} }}.

(** group.go 23-105 *)
Definition parseGroup : fn := Loop
  Skip
  {{ Switch FromNext (
    Case "/begin ANNOTATION" {{ CallV "buf" parseAnnotation; If ErrSet {{ Break }} Skip; App "annotation" (Var "buf") }} (
    Case "/begin FUNCTION_LIST" {{ CallF "functionList" parseFunctionList; If ErrSet {{ Break }} Skip }} (
    Case "/begin IF_DATA" {{ CallV "buf" parseIfData; If ErrSet {{ Break }} Skip; App "ifData" (Var "buf") }} (
    Case "/begin REF_CHARACTERISTIC" {{ CallF "refCharacteristic" parseRefCharacteristic; If ErrSet {{ Break }} Skip }} (
    Case "/begin REF_MEASUREMENT" {{ CallF "refMeasurement" parseRefMeasurement; If ErrSet {{ Break }} Skip }} (
    Case "ROOT" {{ CallF "root" parseRoot; If ErrSet {{ Break }} Skip }} (
    Case "/begin SUB_GROUP" {{ CallF "subGroup" parseSubGroup; If ErrSet {{ Break }} Skip }} (
    Default))))))))
    {{ If (CurIs "") {{ Raise; Break }}
      {{ If (CurIs "/end GROUP") {{ Break }}
      {{ If CurKw {{ Raise; Break }}
      {{ If (NotSet "groupNameSet") {{ Set_ "groupName" Cur; Set_ "groupNameSet" Tru }}
      {{ If (NotSet "groupLongIdentifierSet") {{ Set_ "groupLongIdentifier" Cur; Set_ "groupLongIdentifierSet" Tru }} Skip }} }} }} }} }} }}.

(** limits.go 17-55 *)
Definition parseLimits : fn := Loop
  Skip
  {{ Next;
     If (CurIs "") {{ Raise; Break }}
    {{ If CurKw {{ Raise; Break }}
    {{ If (NotSet "lowerLimitSet") {{ Num "buf" NFloat FromCur; If ErrSet {{ Break }} Skip; Set_ "lowerLimit" (Var "buf"); Set_ "lowerLimitSet" Tru }}
    {{ If (NotSet "upperLimitSet") {{ Num "buf" NFloat FromCur; If ErrSet {{ Break }} Skip; Set_ "upperLimit" (Var "buf"); Set_ "upperLimitSet" Tru; Break }}
    Skip }} }} }} }}.

(** overwrite.go 24-100 *)
Definition parseOverwrite : fn := Loop
  Skip
  {{ Switch FromNext (
    Case "CONVERSION" {{ Set_ "conversion" Cur }} (
    Case "EXTENDED_LIMITS" {{ CallF "extendedLimits" parseExtendedLimits; If ErrSet {{ Break }} Skip }} (
    Case "FORMAT" {{ CallF "format" parseFormat; If ErrSet {{ Break }} Skip }} (
    Case "INPUT_QUANTITY" {{ Set_ "inputQuantity" Cur }} (
    Case "LIMITS" {{ CallF "limits" parseLimits; If ErrSet {{ Break }} Skip }} (
    Case "MONOTONY" {{ CallF "monotony" parseMonotony; If ErrSet {{ Break }} Skip }} (
    Case "PHYS_UNIT" {{ CallF "physUnit" parsePhysUnit; If ErrSet {{ Break }} Skip }} (
    Default))))))))
    {{ If (CurIs "") {{ Raise; Break }}
      {{ If (CurIs "/end OVERWRITE") {{ Break }}
      {{ If CurKw {{ Raise; Break }}
      {{ If (NotSet "nameSet") {{ Set_ "name" Cur; Set_ "nameSet" Tru }}
      {{ If (NotSet "axisNumberSet") {{ Num "buf" (NUint 16) FromCur; If ErrSet {{ Break }} Skip; Set_ "axisNumer" (Var "buf"); Set_ "axisNumberSet" Tru }}
      Skip }} }} }} }} }} }}.

(** read_write.go 10-19 *)
Definition parseReadWrite : fn := Straight
  {{ If (NotSet "valueSet") {{ Set_ "value" Tru; Set_ "valueSet" Tru }} Skip }}.

(** instance.go 32-157 *)
Definition parseInstance : fn := Loop
  Skip
  {{ Switch FromNext (
    Case "/begin ANNOTATION" {{ CallV "buf" parseAnnotation; If ErrSet {{ Break }} Skip; App "annotation" (Var "buf") }} (
    Case "ADDRESS_TYPE" {{ CallF "addressType" parseAddrTypeEnum; If ErrSet {{ Break }} Skip }} (
    Case "CALIBRATION_ACCESS" {{ CallF "calibrationAccess" parseCalibrationAccessEnum; If ErrSet {{ Break }} Skip }} (
    Case "DISPLAY_IDENTIFIER" {{ CallF "displayIdentifier" parseDisplayIdentifier; If ErrSet {{ Break }} Skip }} (
    Case "ECU_ADDRESS_EXTENSION" {{ CallF "ecuAddressExtension" parseECUAddressExtension; If ErrSet {{ Break }} Skip }} (
    Case "/begin IF_DATA" {{ CallV "buf" parseIfData; If ErrSet {{ Break }} Skip; App "ifData" (Var "buf") }} (
    Case "MATRIX_DIM" {{ CallF "matrixDim" parseMatrixDim; If ErrSet {{ Break }} Skip }} (
    Case "MAX_REFRESH" {{ CallF "maxRefresh" parseMaxRefresh; If ErrSet {{ Break }} Skip }} (
    Case "MODEL_LINK" {{ CallF "modelLink" parseModelLink; If ErrSet {{ Break }} Skip }} (
    Case "/begin OVERWRITE" {{ CallF "overwrite" parseOverwrite; If ErrSet {{ Break }} Skip }} (
    Case "READ_WRITE" {{ CallF "readWrite" parseReadWrite; If ErrSet {{ Break }} Skip }} (
    Case "SYMBOL_LINK" {{ CallF "symbolLink" parseSymbolLink; If ErrSet {{ Break }} Skip }} (
    Default)))))))))))))
    {{ If (CurIs "") {{ Raise; Break }}
      {{ If (CurIs "/end INSTANCE") {{ Break }}
      {{ If CurKw {{ Raise; Break }}
      {{ If (NotSet "nameSet") {{ Set_ "name" Cur; Set_ "nameSet" Tru }}
      {{ If (NotSet "longIdentifierSet") {{ Set_ "LongIdentifier" Cur; Set_ "longIdentifierSet" Tru }}
      {{ If (NotSet "typeDefNameSet") {{ Set_ "typeDefName" Cur; Set_ "typeDefNameSet" Tru }}
      {{ If (NotSet "addressSet") {{ Set_ "address" Cur; Set_ "addressSet" Tru }} Skip }} }} }} }} }} }} }} }}.

(** array_size.go 19-40 *)
Definition parseArraySize : fn := Straight
  {{ Next;
     If (CurIs "") {{ Raise }}
    {{ If CurKw {{ Raise }}
    {{ If (NotSet "numberSet") {{ Num "buf" (NUint 16) FromCur; If ErrSet Skip Skip; Set_ "number" (Var "buf"); Set_ "numberSet" Tru }}
    Skip }} }} }}.

(** left_shift.go 15-36 *)
Definition parseLeftShift : fn := Straight
  {{ Next;
     If (CurIs "") {{ Raise }}
    {{ If CurKw {{ Raise }}
    {{ If (NotSet "bitcountSet") {{ Num "buf" (NUint 32) FromCur; If ErrSet Skip Skip; Set_ "bitcount" (Var "buf"); Set_ "bitcountSet" Tru }}
    Skip }} }} }}.

(** right_shift.go 15-36 *)
Definition parseRightShift : fn := Straight
  {{ Next;
     If (CurIs "") {{ Raise }}
    {{ If CurKw {{ Raise }}
    {{ If (NotSet "bitcountSet") {{ Num "buf" (NUint 32) FromCur; If ErrSet Skip Skip; Set_ "bitcount" (Var "buf"); Set_ "bitcountSet" Tru }}
    Skip }} }} }}.

(** sign_extend.go 10-19 *)
Definition parseSignExtend : fn := Straight
  {{ If (NotSet "valueSet") {{ Set_ "value" Tru; Set_ "valueSet" Tru }} Skip }}.

(** bit_operation.go 22-63 *)
Definition parseBitOperation : fn := Loop
  Skip
  {{ Switch FromNext (
    Case "LEFT_SHIFT" {{ CallF "leftShift" parseLeftShift; If ErrSet {{ Break }} Skip }} (
    Case "RIGHT_SHIFT" {{ CallF "rightShift" parseRightShift; If ErrSet {{ Break }} Skip }} (
    Case "SIGN_EXTEND" {{ CallF "signExtend" parseSignExtend; If ErrSet {{ Break }} Skip }} (
    Default))))
    {{ If (CurIs "") {{ Raise; Break }} {{ If (CurIs "/end BIT_OPERATION") {{ Break }} {{ If CurKw {{ Raise }} Skip }} }} }} }}.

(** ecu_address.go 14-30 *)
Definition parseEcuAddress : fn := Straight
  {{ Next;
     If (CurIs "") {{ Raise }}
    {{ If CurKw {{ Raise }} {{ If (NotSet "addressSet") {{ Set_ "address" Cur; Set_ "addressSet" Tru }} Skip }} }} }}.

(** error_mask.go 14-30 *)
Definition parseErrorMask : fn := Straight
  {{ Next;
     If (CurIs "") {{ Raise }}
    {{ If CurKw {{ Raise }} {{ If (NotSet "maskSet") {{ Set_ "mask" Cur; Set_ "maskSet" Tru }} Skip }} }} }}.

(** layout.go 14-33 *)
Definition parseLayout : fn := Straight
  {{ Next;
     If (CurIs "") {{ Raise }}
    {{ If CurKw {{ Raise }}
    {{ If (NotSet "indexModeSet") {{ CallF "indexMode" parseIndexModeEnum; If ErrSet Skip Skip; Set_ "indexModeSet" Tru }} Skip }} }} }}.

(** virtual.go 14-37 *)
Definition parseVirtual : fn := Loop
  Skip
  {{ Next;
     If (CurIs "") {{ Raise; Break }}
    {{ If (CurIs "/end VIRTUAL") {{ Set_ "measuringChannelSet" Tru; Break }}
    {{ If CurKw {{ Raise; Break }} {{ If (NotSet "measuringChannelSet") {{ App "measuringChannel" Cur }} Skip }} }} }} }}.

(** measurement.go 51-290 *)
Definition parseMeasurement : fn := Loop
  Skip
  {{ Switch FromNext (
    Case "/begin ANNOTATION" {{ CallV "buf" parseAnnotation; If ErrSet {{ Break }} Skip; App "annotation" (Var "buf") }} (
    Case "ARRAY_SIZE" {{ CallF "arraySize" parseArraySize; If ErrSet {{ Break }} Skip }} (
    Case "BIT_MASK" {{ CallF "bitMask" parseBitMask; If ErrSet {{ Break }} Skip }} (
    Case "/begin BIT_OPERATION" {{ CallF "bitOperation" parseBitOperation; If ErrSet {{ Break }} Skip }} (
    Case "BYTE_ORDER" {{ CallF "byteOrder" parseByteOrder; If ErrSet {{ Break }} Skip }} (
    Case "DISCRETE" {{ CallF "discrete" parseDiscrete; If ErrSet {{ Break }} Skip }} (
    Case "DISPLAY_IDENTIFIER" {{ CallF "displayIdentifier" parseDisplayIdentifier; If ErrSet {{ Break }} Skip }} (
    Case "ECU_ADDRESS" {{ CallF "ecuAddress" parseEcuAddress; If ErrSet {{ Break }} Skip }} (
    Case "ECU_ADDRESS_EXTENSION" {{ CallF "ecuAddressExtension" parseECUAddressExtension; If ErrSet {{ Break }} Skip }} (
    Case "ERROR_MASK" {{ CallF "errorMask" parseErrorMask; If ErrSet {{ Break }} Skip }} (
    Case "FORMAT" {{ CallF "format" parseFormat; If ErrSet {{ Break }} Skip }} (
    Case "/begin FUNCTION_LIST" {{ CallF "functionList" parseFunctionList; If ErrSet {{ Break }} Skip }} (
    Case "/begin IF_DATA" {{ CallV "buf" parseIfData; If ErrSet {{ Break }} Skip; App "ifData" (Var "buf") }} (
    Case "LAYOUT" {{ CallF "layout" parseLayout; If ErrSet {{ Break }} Skip }} (
    Case "MATRIX_DIM" {{ CallF "matrixDim" parseMatrixDim; If ErrSet {{ Break }} Skip }} (
    Case "MAX_REFRESH" {{ CallF "maxRefresh" parseMaxRefresh; If ErrSet {{ Break }} Skip }} (
    Case "MODEL_LINK" {{ CallF "modelLink" parseModelLink; If ErrSet {{ Break }} Skip }} (
    Case "PHYS_UNIT" {{ CallF "physUnit" parsePhysUnit; If ErrSet {{ Break }} Skip }} (
    Case "READ_WRITE" {{ CallF "readWrite" parseReadWrite; If ErrSet {{ Break }} Skip }} (
    Case "REF_MEMORY_SEGMENT" {{ CallF "refMemorySegment" parseRefMemorySegment; If ErrSet {{ Break }} Skip }} (
    Case "SYMBOL_LINK" {{ CallF "symbolLink" parseSymbolLink; If ErrSet {{ Break }} Skip }} (
    Case "/begin VIRTUAL" {{ CallF "virtual" parseVirtual; If ErrSet {{ Break }} Skip }} (
    Default)))))))))))))))))))))))
    {{ If (CurIs "") {{ Raise; Break }}
      {{ If (CurIs "/end MEASUREMENT") {{ Break }}
      {{ If CurKw {{ Raise; Break }}
      {{ If (NotSet "nameSet") {{ Set_ "name" Cur; Set_ "nameSet" Tru }}
      {{ If (NotSet "longIdentifierSet") {{ Set_ "longIdentifier" Cur; Set_ "longIdentifierSet" Tru }}
      {{ If (NotSet "datatypeSet") {{ CallF "datatype" parseDataTypeEnum; If ErrSet {{ Break }} Skip; Set_ "datatypeSet" Tru }}
      {{ If (NotSet "conversionSet") {{ Set_ "conversion" Cur }}
      {{ If (NotSet "resolutionSet") {{ Num "buf" (NUint 16) FromCur; If ErrSet {{ Break }} Skip; Set_ "resolution" (Var "buf"); Set_ "resolutionSet" Tru }}
      {{ If (NotSet "accuracySet") {{ Num "buf" NFloat FromCur; If ErrSet {{ Break }} Skip; Set_ "accuracy" (Var "buf"); Set_ "accuracySet" Tru }}
      {{ If (NotSet "lowerLimitSet") {{ Num "buf" NFloat FromCur; If ErrSet {{ Break }} Skip; Set_ "lowerLimit" (Var "buf"); Set_ "lowerLimitSet" Tru }}
      {{ If (NotSet "upperLimitSet") {{ Num "buf" NFloat FromCur; If ErrSet {{ Break }} Skip; Set_ "upperLimit" (Var "buf"); Set_ "upperLimitSet" Tru }}
      Skip }} }} }} }} }} }} }} }} }} }} }} }}.

(** alignment_byte.go 19-40 *)
Definition parseAlignmentByte : fn := Straight
  {{ Next;
     If (CurIs "") {{ Raise }}
    {{ If CurKw {{ Raise }}
    {{ If (NotSet "AlignmentBorderSet") {{ Num "buf" (NUint 16) FromCur; If ErrSet Skip Skip; Set_ "AlignmentBorder" (Var "buf"); Set_ "AlignmentBorderSet" Tru }}
    Skip }} }} }}.

(** alignment_float16_ieee.go 19-40 *)
Definition parseAlignmentFloat16Ieee : fn := Straight
  {{ Next;
     If (CurIs "") {{ Raise }}
    {{ If CurKw {{ Raise }}
    {{ If (NotSet "AlignmentBorderSet") {{ Num "buf" (NUint 16) FromCur; If ErrSet Skip Skip; Set_ "AlignmentBorder" (Var "buf"); Set_ "AlignmentBorderSet" Tru }}
    Skip }} }} }}.

(** alignment_float32_ieee.go 19-40 *)
Definition parseAlignmentFloat32Ieee : fn := Straight
  {{ Next;
     If (CurIs "") {{ Raise }}
    {{ If CurKw {{ Raise }}
    {{ If (NotSet "AlignmentBorderSet") {{ Num "buf" (NUint 16) FromCur; If ErrSet Skip Skip; Set_ "AlignmentBorder" (Var "buf"); Set_ "AlignmentBorderSet" Tru }}
    Skip }} }} }}.

(** alignment_float64_ieee.go 19-40 *)
Definition parseAlignmentFloat64Ieee : fn := Straight
  {{ Next;
     If (CurIs "") {{ Raise }}
    {{ If CurKw {{ Raise }}
    {{ If (NotSet "AlignmentBorderSet") {{ Num "buf" (NUint 16) FromCur; If ErrSet Skip Skip; Set_ "AlignmentBorder" (Var "buf"); Set_ "AlignmentBorderSet" Tru }}
    Skip }} }} }}.

(** alignment_int64.go 19-40 *)
Definition parseAlignmentInt64 : fn := Straight
  {{ Next;
     If (CurIs "") {{ Raise }}
    {{ If CurKw {{ Raise }}
    {{ If (NotSet "AlignmentBorderSet") {{ Num "buf" (NUint 16) FromCur; If ErrSet Skip Skip; Set_ "AlignmentBorder" (Var "buf"); Set_ "AlignmentBorderSet" Tru }}
    Skip }} }} }}.

(** alignment_long.go 19-40 *)
Definition parseAlignmentLong : fn := Straight
  {{ Next;
     If (CurIs "") {{ Raise }}
    {{ If CurKw {{ Raise }}
    {{ If (NotSet "AlignmentBorderSet") {{ Num "buf" (NUint 16) FromCur; If ErrSet Skip Skip; Set_ "AlignmentBorder" (Var "buf"); Set_ "AlignmentBorderSet" Tru }}
    Skip }} }} }}.

(** alignment_word.go 19-40 *)
Definition parseAlignmentWord : fn := Straight
  {{ Next;
     If (CurIs "") {{ Raise }}
    {{ If CurKw {{ Raise }}
    {{ If (NotSet "AlignmentBorderSet") {{ Num "buf" (NUint 16) FromCur; If ErrSet Skip Skip; Set_ "AlignmentBorder" (Var "buf"); Set_ "AlignmentBorderSet" Tru }}
    Skip }} }} }}.

(** data_size.go 15-36 *)
Definition parseDataSize : fn := Straight
  {{ Next;
     If (CurIs "") {{ Raise }}
    {{ If CurKw {{ Raise }}
    {{ If (NotSet "sizeSet") {{ Num "buf" (NUint 16) FromCur; If ErrSet Skip Skip; Set_ "size" (Var "buf"); Set_ "sizeSet" Tru }}
    Skip }} }} }}.

(** mod_common.go 24-119 *)
Definition parseModCommon : fn := Loop
  Skip
  {{ Switch FromNext (
    Case "ALIGNMENT_BYTE" {{ CallF "AlignmentByte" parseAlignmentByte; If ErrSet {{ Break }} Skip }} (
    Case "ALIGNMENT_FLOAT16_IEEE" {{ CallF "AlignmentFloat16Ieee" parseAlignmentFloat16Ieee; If ErrSet {{ Break }} Skip }} (
    Case "ALIGNMENT_FLOAT32_IEEE" {{ CallF "AlignmentFloat32Ieee" parseAlignmentFloat32Ieee; If ErrSet {{ Break }} Skip }} (
    Case "ALIGNMENT_FLOAT64_IEEE" {{ CallF "AlignmentFloat64Ieee" parseAlignmentFloat64Ieee; If ErrSet {{ Break }} Skip }} (
    Case "ALIGNMENT_INT64" {{ CallF "AlignmentInt64" parseAlignmentInt64; If ErrSet {{ Break }} Skip }} (
    Case "ALIGNMENT_LONG" {{ CallF "AlignmentLong" parseAlignmentLong; If ErrSet {{ Break }} Skip }} (
    Case "ALIGNMENT_WORD" {{ CallF "AlignmentWord" parseAlignmentWord; If ErrSet {{ Break }} Skip }} (
    Case "BYTE_ORDER" {{ CallF "ByteOrder" parseByteOrder; If ErrSet {{ Break }} Skip }} (
    Case "DATA_SIZE" {{ CallF "dataSize" parseDataSize; If ErrSet {{ Break }} Skip }} (
    Case "DEPOSIT" {{ CallF "deposit" parseDeposit; If ErrSet {{ Break }} Skip }} (
    Default)))))))))))
    {{ If (CurIs "") {{ Raise; Break }}
      {{ If (CurIs "/end MOD_COMMON") {{ Break }}
      {{ If CurKw {{ Raise; Break }} {{ If (NotSet "commentSet") {{ Set_ "comment" Cur; Set_ "commentSet" Tru }} Skip }} }} }} }} }}.

(** addr_epk.go 15-31 *)
Definition parseAddrEpk : fn := Straight
  {{ Next;
     If (CurIs "") {{ Raise }}
    {{ If CurKw {{ Raise }} {{ If (NotSet "addressSet") {{ Set_ "address" Cur; Set_ "addressSet" Tru }} Skip }} }} }}.

(** calibration_handle_text.go 14-30 *)
Definition parseCalibrationHandleText : fn := Straight
  {{ Next;
     If (CurIs "") {{ Raise }}
    {{ If CurKw {{ Raise }} {{ If (NotSet "textSet") {{ Set_ "text" Cur; Set_ "textSet" Tru }} Skip }} }} }}.

(** calibration_handle.go 15-47 *)
Definition parseCalibrationHandle : fn := Loop
  Skip
  {{ Switch FromNext (
    Case "CALIBRATION_HANDLE_TEXT" {{ CallF "calibrationHandleText" parseCalibrationHandleText; If ErrSet {{ Break }} Skip }} (
    Default))
    {{ If (CurIs "") {{ Raise; Break }}
      {{ If (CurIs "/end CALIBRATION_HANDLE") {{ Set_ "handleSet" Tru; Break }}
      {{ If CurKw {{ Raise; Break }} {{ If (NotSet "handleSet") {{ App "handle" Cur }} Skip }} }} }} }} }}.

(** calibration_method.go 18-62 *)
Definition parseCalibrationMethod : fn := Loop
  Skip
  {{ Switch FromNext (
    Case "/begin CALIBRATION_HANDLE" {{ CallV "buf" parseCalibrationHandle; If ErrSet {{ Break }} Skip; App "calibrationHandle" (Var "buf") }} (
    Default))
    {{ If (CurIs "") {{ Raise; Break }}
      {{ If (CurIs "/end CALIBRATION_METHOD") {{ Break }}
      {{ If CurKw {{ Raise; Break }}
      {{ If (NotSet "methodSet") {{ Set_ "method" Cur; Set_ "methodSet" Tru }}
      {{ If (NotSet "versionSet") {{ Num "buf" (NUint 32) FromCur; If ErrSet {{ Break }} Skip; Set_ "version" (Var "buf"); Set_ "versionSet" Tru }}
      Skip }} }} }} }} }} }}.

(** cpu_type.go 14-30 *)
Definition parseCpuType : fn := Straight
  {{ Next;
     If (CurIs "") {{ Raise }} {{ If CurKw {{ Raise }} {{ If (NotSet "cpuSet") {{ Set_ "cpu" Cur; Set_ "cpuSet" Tru }} Skip }} }} }}.

(** customer.go 14-30 *)
Definition parseCustomer : fn := Straight
  {{ Next;
     If (CurIs "") {{ Raise }}
    {{ If CurKw {{ Raise }} {{ If (NotSet "customerSet") {{ Set_ "customer" Cur; Set_ "customerSet" Tru }} Skip }} }} }}.

(** customer_no.go 14-30 *)
Definition parseCustomerNo : fn := Straight
  {{ Next;
     If (CurIs "") {{ Raise }}
    {{ If CurKw {{ Raise }} {{ If (NotSet "numberSet") {{ Set_ "number" Cur; Set_ "numberSet" Tru }} Skip }} }} }}.

(** ecu.go 14-30 *)
Definition parseEcu : fn := Straight
  {{ Next;
     If (CurIs "") {{ Raise }}
    {{ If CurKw {{ Raise }} {{ If (NotSet "controlUnitSet") {{ Set_ "controlUnit" Cur; Set_ "controlUnitSet" Tru }} Skip }} }} }}.

(** ecu_calibration_offset.go 24-40 *)
Definition parseEcuCalibrationOffset : fn := Straight
  {{ Next;
     If (CurIs "") {{ Raise }}
    {{ If CurKw {{ Raise }} {{ If (NotSet "offsetSet") {{ Set_ "offset" Cur; Set_ "offsetSet" Tru }} Skip }} }} }}.

(** epk.go 14-30 *)
Definition parseEpk : fn := Straight
  {{ Next;
     If (CurIs "") {{ Raise }}
    {{ If CurKw {{ Raise }} {{ If (NotSet "identifierSet") {{ Set_ "identifier" Cur; Set_ "identifierSet" Tru }} Skip }} }} }}.

(** memory_layout.go 22-78 *)
Definition parseMemoryLayout : fn := Loop
  Skip
  {{ Switch FromNext (
    Case "/begin IF_DATA" {{ CallV "buf" parseIfData; If ErrSet {{ Break }} Skip; App "ifData" (Var "buf") }} (
    Default))
    {{ If (CurIs "") {{ Raise; Break }}
      {{ If (CurIs "/end MEMORY_LAYOUT") {{ Break }}
      {{ If CurKw {{ Raise; Break }}
      {{ If (NotSet "prgTypeSet") {{ CallF "prgType" parsePrgTypeEnum; If ErrSet {{ Break }} Skip; Set_ "prgTypeSet" Tru }}
      {{ If (NotSet "addressSet") {{ Set_ "address" Cur; Set_ "addressSet" Tru }}
      {{ If (NotSet "sizeSet") {{ Set_ "size" Cur; Set_ "sizeSet" Tru }}
      {{ If (NotSet "offsetSet") {{ Num "buf" (NInt 32) FromCur;
         If ErrSet {{ Break }} Skip;
         App "offset" (Var "buf");
         If (LenIs "offset" 5) {{ Set_ "offsetSet" Tru }} Skip }}
      Skip }} }} }} }} }} }} }} }}.

(** memory_segment.go 29-102 *)
Definition parseMemorySegment : fn := Loop
  Skip
  {{ Switch FromNext (
    Case "/begin IF_DATA" {{ CallV "buf" parseIfData; If ErrSet {{ Break }} Skip; App "ifData" (Var "buf") }} (
    Default))
    {{ If (CurIs "") {{ Raise; Break }}
      {{ If (CurIs "/end MEMORY_SEGMENT") {{ Break }}
      {{ If CurKw {{ Raise; Break }}
      {{ If (NotSet "nameSet") {{ Set_ "name" Cur; Set_ "nameSet" Tru }}
      {{ If (NotSet "longIdentifierSet") {{ Set_ "longIdentifier" Cur; Set_ "longIdentifierSet" Tru }}
      {{ If (NotSet "prgTypeSet") {{ CallF "prgType" parsePrgTypeEnum; If ErrSet {{ Break }} Skip; Set_ "prgTypeSet" Tru }}
      {{ If (NotSet "memoryTypeSet") {{ CallF "memoryType" parseMemoryTypeEnum; If ErrSet {{ Break }} Skip; Set_ "memoryTypeSet" Tru }}
      {{ If (NotSet "attributeSet") {{ CallF "attribute" parseAttributeEnum; If ErrSet {{ Break }} Skip; Set_ "attributeSet" Tru }}
      {{ If (NotSet "addressSet") {{ Set_ "address" Cur; Set_ "addressSet" Tru }}
      {{ If (NotSet "sizeSet") {{ Set_ "size" Cur; Set_ "sizeSet" Tru }}
      {{ If (NotSet "offsetSet") {{ Fill "offset" 5 Cur; Set_ "offsetSet" Tru }} Skip }} }} }} }} }} }} }} }} }} }} }} }}.

(** no_of_interfaces.go 15-36 *)
Definition parseNoOfInterfaces : fn := Straight
  {{ Next;
     If (CurIs "") {{ Raise }}
    {{ If CurKw {{ Raise }}
    {{ If (NotSet "numSet") {{ Num "buf" (NUint 16) FromCur; If ErrSet Skip Skip; Set_ "num" (Var "buf"); Set_ "numSet" Tru }} Skip }} }} }}.

(** phone_no.go 14-30 *)
Definition parsePhoneNo : fn := Straight
  {{ Next;
     If (CurIs "") {{ Raise }}
    {{ If CurKw {{ Raise }} {{ If (NotSet "telnumSet") {{ Set_ "telnum" Cur; Set_ "telnumSet" Tru }} Skip }} }} }}.

(** supplier.go 14-30 *)
Definition parseSupplier : fn := Straight
  {{ Next;
     If (CurIs "") {{ Raise }}
    {{ If CurKw {{ Raise }} {{ If (NotSet "manufacturerSet") {{ Set_ "manufacturer" Cur; Set_ "manufacturerSet" Tru }} Skip }} }} }}.

(** system_constant.go 16-42 *)
Definition parseSystemConstant : fn := Loop
  Skip
  {{ Next;
     If (CurIs "") {{ Raise; Break }}
    {{ If CurKw {{ Raise; Break }}
    {{ If (NotSet "NameSet") {{ Set_ "Name" Cur; Set_ "NameSet" Tru }}
    {{ If (NotSet "ValueSet") {{ Set_ "Value" Cur; Set_ "ValueSet" Tru; Break }} Skip }} }} }} }}.

(** user.go 14-31 *)
Definition parseUser : fn := Straight
  {{ Next;
     If (CurIs "") {{ Raise }}
    {{ If CurKw {{ Raise }} {{ If (NotSet "userNameSet") {{ Set_ "userName" Cur; Set_ "userNameSet" Tru }} Skip }} }} }}.

(** mod_par.go 30-178 *)
Definition parseModPar : fn := Loop
  {{ Set_ "SystemConstants" EmptyMap }}
  {{ Switch FromNext (
    Case "ADDR_EPK" {{ CallV "buf" parseAddrEpk; If ErrSet {{ Break }} Skip; App "addrEpk" (Var "buf") }} (
    Case "/begin CALIBRATION_METHOD" {{ CallV "buf" parseCalibrationMethod; If ErrSet {{ Break }} Skip; App "calibrationMethod" (Var "buf") }} (
    Case "CPU_TYPE" {{ CallF "cpuType" parseCpuType; If ErrSet {{ Break }} Skip }} (
    Case "CUSTOMER" {{ CallF "customer" parseCustomer; If ErrSet {{ Break }} Skip }} (
    Case "CUSTOMER_NO" {{ CallF "customerNo" parseCustomerNo; If ErrSet {{ Break }} Skip }} (
    Case "ECU" {{ CallF "ecu" parseEcu; If ErrSet {{ Break }} Skip }} (
    Case "ECU_CALIBRATION_OFFSET" {{ CallF "ecuCalibrationOffset" parseEcuCalibrationOffset; If ErrSet {{ Break }} Skip }} (
    Case "EPK" {{ CallF "epk" parseEpk; If ErrSet {{ Break }} Skip }} (
    Case "/begin MEMORY_LAYOUT" {{ CallV "buf" parseMemoryLayout; If ErrSet {{ Break }} Skip; App "memoryLayout" (Var "buf") }} (
    Case "/begin MEMORY_SEGMENT" {{ CallV "buf" parseMemorySegment; If ErrSet {{ Break }} Skip; App "memorySegment" (Var "buf") }} (
    Case "NO_OF_INTERFACES" {{ CallF "noOfInterfaces" parseNoOfInterfaces; If ErrSet {{ Break }} Skip }} (
    Case "PHONE_NO" {{ CallF "phoneNo" parsePhoneNo; If ErrSet {{ Break }} Skip }} (
    Case "SUPPLIER" {{ CallF "supplier" parseSupplier; If ErrSet {{ Break }} Skip }} (
    Case "SYSTEM_CONSTANT" {{ CallV "buf" parseSystemConstant; If ErrSet {{ Break }} Skip; Put "SystemConstants" "buf" "Name" }} (
    Case "USER" {{ CallF "user" parseUser; If ErrSet {{ Break }} Skip }} (
    Case "VERSION" {{ CallF "version" parseVersion; If ErrSet {{ Break }} Skip }} (
    Default)))))))))))))))))
    {{ If (CurIs "") {{ Raise; Break }}
      {{ If (CurIs "/end MOD_PAR") {{ Break }}
      {{ If CurKw {{ Raise; Break }} {{ If (NotSet "commentSet") {{ Set_ "comment" Cur; Set_ "commentSet" Tru }} Skip }} }} }} }} }}.

(** axis_pts_4.go 25-77 *)
Definition parseAxisPts4 : fn := Loop
  Skip
  {{ Next;
     If (CurIs "") {{ Raise; Break }}
    {{ If CurKw {{ Raise; Break }}
    {{ If (NotSet "PositionSet") {{ Num "buf" (NUint 16) FromCur; If ErrSet {{ Break }} Skip; Set_ "Position" (Var "buf"); Set_ "PositionSet" Tru }}
    {{ If (NotSet "DatatypeSet") {{ CallF "Datatype" parseDataTypeEnum; If ErrSet {{ Break }} Skip; Set_ "DatatypeSet" Tru }}
    {{ If (NotSet "IndexIncrSet") {{ CallF "IndexIncr" parseIndexOrderEnum; If ErrSet {{ Break }} Skip; Set_ "IndexIncrSet" Tru }}
    {{ If (NotSet "AddressingSet") {{ CallF "Addressing" parseAddrTypeEnum; If ErrSet {{ Break }} Skip; Set_ "AddressingSet" Tru; Break }}
    Skip }} }} }} }} }} }}.

(** axis_pts_5.go 25-77 *)
Definition parseAxisPts5 : fn := Loop
  Skip
  {{ Next;
     If (CurIs "") {{ Raise; Break }}
    {{ If CurKw {{ Raise; Break }}
    {{ If (NotSet "PositionSet") {{ Num "buf" (NUint 16) FromCur; If ErrSet {{ Break }} Skip; Set_ "Position" (Var "buf"); Set_ "PositionSet" Tru }}
    {{ If (NotSet "DatatypeSet") {{ CallF "Datatype" parseDataTypeEnum; If ErrSet {{ Break }} Skip; Set_ "DatatypeSet" Tru }}
    {{ If (NotSet "IndexIncrSet") {{ CallF "IndexIncr" parseIndexOrderEnum; If ErrSet {{ Break }} Skip; Set_ "IndexIncrSet" Tru }}
    {{ If (NotSet "AddressingSet") {{ CallF "Addressing" parseAddrTypeEnum; If ErrSet {{ Break }} Skip; Set_ "AddressingSet" Tru; Break }}
    Skip }} }} }} }} }} }}.

(** axis_pts_x.go 25-77 *)
Definition parseAxisPtsX : fn := Loop
  Skip
  {{ Next;
     If (CurIs "") {{ Raise; Break }}
    {{ If CurKw {{ Raise; Break }}
    {{ If (NotSet "PositionSet") {{ Num "buf" (NUint 16) FromCur; If ErrSet {{ Break }} Skip; Set_ "Position" (Var "buf"); Set_ "PositionSet" Tru }}
    {{ If (NotSet "DatatypeSet") {{ CallF "Datatype" parseDataTypeEnum; If ErrSet {{ Break }} Skip; Set_ "DatatypeSet" Tru }}
    {{ If (NotSet "IndexIncrSet") {{ CallF "IndexIncr" parseIndexOrderEnum; If ErrSet {{ Break }} Skip; Set_ "IndexIncrSet" Tru }}
    {{ If (NotSet "AddressingSet") {{ CallF "Addressing" parseAddrTypeEnum; If ErrSet {{ Break }} Skip; Set_ "AddressingSet" Tru; Break }}
    Skip }} }} }} }} }} }}.

(** axis_pts_y.go 25-77 *)
Definition parseAxisPtsY : fn := Loop
  Skip
  {{ Next;
     If (CurIs "") {{ Raise; Break }}
    {{ If CurKw {{ Raise; Break }}
    {{ If (NotSet "PositionSet") {{ Num "buf" (NUint 16) FromCur; If ErrSet {{ Break }} Skip; Set_ "Position" (Var "buf"); Set_ "PositionSet" Tru }}
    {{ If (NotSet "DatatypeSet") {{ CallF "Datatype" parseDataTypeEnum; If ErrSet {{ Break }} Skip; Set_ "DatatypeSet" Tru }}
    {{ If (NotSet "IndexIncrSet") {{ CallF "IndexIncr" parseIndexOrderEnum; If ErrSet {{ Break }} Skip; Set_ "IndexIncrSet" Tru }}
    {{ If (NotSet "AddressingSet") {{ CallF "Addressing" parseAddrTypeEnum; If ErrSet {{ Break }} Skip; Set_ "AddressingSet" Tru; Break }}
    Skip }} }} }} }} }} }}.

(** axis_pts_z.go 25-77 *)
Definition parseAxisPtsZ : fn := Loop
  Skip
  {{ Next;
     If (CurIs "") {{ Raise; Break }}
    {{ If CurKw {{ Raise; Break }}
    {{ If (NotSet "PositionSet") {{ Num "buf" (NUint 16) FromCur; If ErrSet {{ Break }} Skip; Set_ "Position" (Var "buf"); Set_ "PositionSet" Tru }}
    {{ If (NotSet "DatatypeSet") {{ CallF "Datatype" parseDataTypeEnum; If ErrSet {{ Break }} Skip; Set_ "DatatypeSet" Tru }}
    {{ If (NotSet "IndexIncrSet") {{ CallF "IndexIncr" parseIndexOrderEnum; If ErrSet {{ Break }} Skip; Set_ "IndexIncrSet" Tru }}
    {{ If (NotSet "AddressingSet") {{ CallF "Addressing" parseAddrTypeEnum; If ErrSet {{ Break }} Skip; Set_ "AddressingSet" Tru; Break }}
    Skip }} }} }} }} }} }}.

(** axis_rescale_x.go 70-132 *)
Definition parseAxisRescaleX : fn := Loop
  Skip
  {{ Next;
     If (CurIs "") {{ Raise; Break }}
    {{ If CurKw {{ Raise; Break }}
    {{ If (NotSet "PositionSet") {{ Num "buf" (NUint 16) FromCur; If ErrSet {{ Break }} Skip; Set_ "Position" (Var "buf"); Set_ "PositionSet" Tru }}
    {{ If (NotSet "DatatypeSet") {{ CallF "Datatype" parseDataTypeEnum; If ErrSet {{ Break }} Skip; Set_ "DatatypeSet" Tru }}
    {{ If (NotSet "MaxNumberOfRescalePairsSet") {{ Num "buf" (NUint 16) FromCur;
       If ErrSet {{ Break }} Skip;
       Set_ "MaxNumberOfRescalePairs" (Var "buf");
       Set_ "MaxNumberOfRescalePairsSet" Tru }}
    {{ If (NotSet "IndexIncrSet") {{ CallF "IndexIncr" parseIndexOrderEnum; If ErrSet {{ Break }} Skip; Set_ "IndexIncrSet" Tru }}
    {{ If (NotSet "AdressingSet") {{ CallF "Adressing" parseAddrTypeEnum; If ErrSet {{ Break }} Skip; Set_ "AdressingSet" Tru; Break }}
    Skip }} }} }} }} }} }} }}.

(** dist_op_4.go 36-72 *)
Definition parseDistOp4 : fn := Loop
  Skip
  {{ Next;
     If (CurIs "") {{ Raise; Break }}
    {{ If CurKw {{ Raise; Break }}
    {{ If (NotSet "PositionSet") {{ Num "buf" (NUint 16) FromCur; If ErrSet {{ Break }} Skip; Set_ "Position" (Var "buf"); Set_ "PositionSet" Tru }}
    {{ If (NotSet "DatatypeSet") {{ CallF "Datatype" parseDataTypeEnum; If ErrSet {{ Break }} Skip; Set_ "DatatypeSet" Tru; Break }}
    Skip }} }} }} }}.

(** dist_op_5.go 36-72 *)
Definition parseDistOp5 : fn := Loop
  Skip
  {{ Next;
     If (CurIs "") {{ Raise; Break }}
    {{ If CurKw {{ Raise; Break }}
    {{ If (NotSet "PositionSet") {{ Num "buf" (NUint 16) FromCur; If ErrSet {{ Break }} Skip; Set_ "Position" (Var "buf"); Set_ "PositionSet" Tru }}
    {{ If (NotSet "DatatypeSet") {{ CallF "Datatype" parseDataTypeEnum; If ErrSet {{ Break }} Skip; Set_ "DatatypeSet" Tru; Break }}
    Skip }} }} }} }}.

(** dist_op_x.go 36-72 *)
Definition parseDistOpX : fn := Loop
  Skip
  {{ Next;
     If (CurIs "") {{ Raise; Break }}
    {{ If CurKw {{ Raise; Break }}
    {{ If (NotSet "PositionSet") {{ Num "buf" (NUint 16) FromCur; If ErrSet {{ Break }} Skip; Set_ "Position" (Var "buf"); Set_ "PositionSet" Tru }}
    {{ If (NotSet "DatatypeSet") {{ CallF "Datatype" parseDataTypeEnum; If ErrSet {{ Break }} Skip; Set_ "DatatypeSet" Tru; Break }}
    Skip }} }} }} }}.

(** dist_op_y.go 36-72 *)
Definition parseDistOpY : fn := Loop
  Skip
  {{ Next;
     If (CurIs "") {{ Raise; Break }}
    {{ If CurKw {{ Raise; Break }}
    {{ If (NotSet "PositionSet") {{ Num "buf" (NUint 16) FromCur; If ErrSet {{ Break }} Skip; Set_ "Position" (Var "buf"); Set_ "PositionSet" Tru }}
    {{ If (NotSet "DatatypeSet") {{ CallF "Datatype" parseDataTypeEnum; If ErrSet {{ Break }} Skip; Set_ "DatatypeSet" Tru; Break }}
    Skip }} }} }} }}.

(** dist_op_z.go 36-72 *)
Definition parseDistOpZ : fn := Loop
  Skip
  {{ Next;
     If (CurIs "") {{ Raise; Break }}
    {{ If CurKw {{ Raise; Break }}
    {{ If (NotSet "PositionSet") {{ Num "buf" (NUint 16) FromCur; If ErrSet {{ Break }} Skip; Set_ "Position" (Var "buf"); Set_ "PositionSet" Tru }}
    {{ If (NotSet "DatatypeSet") {{ CallF "Datatype" parseDataTypeEnum; If ErrSet {{ Break }} Skip; Set_ "DatatypeSet" Tru; Break }}
    Skip }} }} }} }}.

(** fix_no_axis_pts_4.go 15-36 *)
Definition parseFixNoAxisPts4 : fn := Straight
  {{ Next;
     If (CurIs "") {{ Raise }}
    {{ If CurKw {{ Raise }}
    {{ If (NotSet "NumberOfAxisPointsSet") {{ Num "buf" (NUint 16) FromCur; If ErrSet Skip Skip; Set_ "NumberOfAxisPoints" (Var "buf"); Set_ "NumberOfAxisPointsSet" Tru }}
    Skip }} }} }}.

(** fix_no_axis_pts_5.go 15-36 *)
Definition parseFixNoAxisPts5 : fn := Straight
  {{ Next;
     If (CurIs "") {{ Raise }}
    {{ If CurKw {{ Raise }}
    {{ If (NotSet "NumberOfAxisPointsSet") {{ Num "buf" (NUint 16) FromCur; If ErrSet Skip Skip; Set_ "NumberOfAxisPoints" (Var "buf"); Set_ "NumberOfAxisPointsSet" Tru }}
    Skip }} }} }}.

(** fix_no_axis_pts_x.go 15-36 *)
Definition parseFixNoAxisPtsX : fn := Straight
  {{ Next;
     If (CurIs "") {{ Raise }}
    {{ If CurKw {{ Raise }}
    {{ If (NotSet "NumberOfAxisPointsSet") {{ Num "buf" (NUint 16) FromCur; If ErrSet Skip Skip; Set_ "NumberOfAxisPoints" (Var "buf"); Set_ "NumberOfAxisPointsSet" Tru }}
    Skip }} }} }}.

(** fix_no_axis_pts_y.go 15-36 *)
Definition parseFixNoAxisPtsY : fn := Straight
  {{ Next;
     If (CurIs "") {{ Raise }}
    {{ If CurKw {{ Raise }}
    {{ If (NotSet "NumberOfAxisPointsSet") {{ Num "buf" (NUint 16) FromCur; If ErrSet Skip Skip; Set_ "NumberOfAxisPoints" (Var "buf"); Set_ "NumberOfAxisPointsSet" Tru }}
    Skip }} }} }}.

(** fix_no_axis_pts_z.go 15-36 *)
Definition parseFixNoAxisPtsZ : fn := Straight
  {{ Next;
     If (CurIs "") {{ Raise }}
    {{ If CurKw {{ Raise }}
    {{ If (NotSet "NumberOfAxisPointsSet") {{ Num "buf" (NUint 16) FromCur; If ErrSet Skip Skip; Set_ "NumberOfAxisPoints" (Var "buf"); Set_ "NumberOfAxisPointsSet" Tru }}
    Skip }} }} }}.

(** fnc_values.go 40-92 *)
Definition parseFncValues : fn := Loop
  Skip
  {{ Next;
     If (CurIs "") {{ Raise; Break }}
    {{ If CurKw {{ Raise; Break }}
    {{ If (NotSet "PositionSet") {{ Num "buf" (NUint 16) FromCur; If ErrSet {{ Break }} Skip; Set_ "Position" (Var "buf"); Set_ "PositionSet" Tru }}
    {{ If (NotSet "DatatypeSet") {{ CallF "Datatype" parseDataTypeEnum; If ErrSet {{ Break }} Skip; Set_ "DatatypeSet" Tru }}
    {{ If (NotSet "IndexModeSet") {{ CallF "IndexMode" parseIndexModeEnum; If ErrSet {{ Break }} Skip; Set_ "IndexModeSet" Tru }}
    {{ If (NotSet "AddresstypeSet") {{ CallF "Addresstype" parseAddrTypeEnum; If ErrSet {{ Break }} Skip; Set_ "AddresstypeSet" Tru; Break }}
    Skip }} }} }} }} }} }}.

(** identification.go 18-54 *)
Definition parseIdentification : fn := Loop
  Skip
  {{ Next;
     If (CurIs "") {{ Raise; Break }}
    {{ If CurKw {{ Raise; Break }}
    {{ If (NotSet "PositionSet") {{ Num "buf" (NUint 16) FromCur; If ErrSet {{ Break }} Skip; Set_ "Position" (Var "buf"); Set_ "PositionSet" Tru }}
    {{ If (NotSet "DatatypeSet") {{ CallF "Datatype" parseDataTypeEnum; If ErrSet {{ Break }} Skip; Set_ "DatatypeSet" Tru; Break }}
    Skip }} }} }} }}.

(** no_axis_pts_4.go 17-53 *)
Definition parseNoAxisPts4 : fn := Loop
  Skip
  {{ Next;
     If (CurIs "") {{ Raise; Break }}
    {{ If CurKw {{ Raise; Break }}
    {{ If (NotSet "PositionSet") {{ Num "buf" (NUint 16) FromCur; If ErrSet {{ Break }} Skip; Set_ "Position" (Var "buf"); Set_ "PositionSet" Tru }}
    {{ If (NotSet "DatatypeSet") {{ CallF "Datatype" parseDataTypeEnum; If ErrSet {{ Break }} Skip; Set_ "DatatypeSet" Tru; Break }}
    Skip }} }} }} }}.

(** no_axis_pts_5.go 17-53 *)
Definition parseNoAxisPts5 : fn := Loop
  Skip
  {{ Next;
     If (CurIs "") {{ Raise; Break }}
    {{ If CurKw {{ Raise; Break }}
    {{ If (NotSet "PositionSet") {{ Num "buf" (NUint 16) FromCur; If ErrSet {{ Break }} Skip; Set_ "Position" (Var "buf"); Set_ "PositionSet" Tru }}
    {{ If (NotSet "DatatypeSet") {{ CallF "Datatype" parseDataTypeEnum; If ErrSet {{ Break }} Skip; Set_ "DatatypeSet" Tru; Break }}
    Skip }} }} }} }}.

(** no_axis_pts_x.go 17-53 *)
Definition parseNoAxisPtsX : fn := Loop
  Skip
  {{ Next;
     If (CurIs "") {{ Raise; Break }}
    {{ If CurKw {{ Raise; Break }}
    {{ If (NotSet "PositionSet") {{ Num "buf" (NUint 16) FromCur; If ErrSet {{ Break }} Skip; Set_ "Position" (Var "buf"); Set_ "PositionSet" Tru }}
    {{ If (NotSet "DatatypeSet") {{ CallF "Datatype" parseDataTypeEnum; If ErrSet {{ Break }} Skip; Set_ "DatatypeSet" Tru; Break }}
    Skip }} }} }} }}.

(** no_axis_pts_y.go 17-53 *)
Definition parseNoAxisPtsY : fn := Loop
  Skip
  {{ Next;
     If (CurIs "") {{ Raise; Break }}
    {{ If CurKw {{ Raise; Break }}
    {{ If (NotSet "PositionSet") {{ Num "buf" (NUint 16) FromCur; If ErrSet {{ Break }} Skip; Set_ "Position" (Var "buf"); Set_ "PositionSet" Tru }}
    {{ If (NotSet "DatatypeSet") {{ CallF "Datatype" parseDataTypeEnum; If ErrSet {{ Break }} Skip; Set_ "DatatypeSet" Tru; Break }}
    Skip }} }} }} }}.

(** no_axis_pts_z.go 17-53 *)
Definition parseNoAxisPtsZ : fn := Loop
  Skip
  {{ Next;
     If (CurIs "") {{ Raise; Break }}
    {{ If CurKw {{ Raise; Break }}
    {{ If (NotSet "PositionSet") {{ Num "buf" (NUint 16) FromCur; If ErrSet {{ Break }} Skip; Set_ "Position" (Var "buf"); Set_ "PositionSet" Tru }}
    {{ If (NotSet "DatatypeSet") {{ CallF "Datatype" parseDataTypeEnum; If ErrSet {{ Break }} Skip; Set_ "DatatypeSet" Tru; Break }}
    Skip }} }} }} }}.

(** no_rescale_x.go 18-54 *)
Definition parseNoRescaleX : fn := Loop
  Skip
  {{ Next;
     If (CurIs "") {{ Raise; Break }}
    {{ If CurKw {{ Raise; Break }}
    {{ If (NotSet "PositionSet") {{ Num "buf" (NUint 16) FromCur; If ErrSet {{ Break }} Skip; Set_ "Position" (Var "buf"); Set_ "PositionSet" Tru; Break }}
    {{ If (NotSet "DatatypeSet") {{ CallF "Datatype" parseDataTypeEnum; If ErrSet {{ Break }} Skip; Set_ "DatatypeSet" Tru }} Skip }} }} }} }}.

(** offset_4.go 24-60 *)
Definition parseOffset4 : fn := Loop
  Skip
  {{ Next;
     If (CurIs "") {{ Raise; Break }}
    {{ If CurKw {{ Raise; Break }}
    {{ If (NotSet "PositionSet") {{ Num "buf" (NUint 16) FromCur; If ErrSet {{ Break }} Skip; Set_ "Position" (Var "buf"); Set_ "PositionSet" Tru }}
    {{ If (NotSet "DatatypeSet") {{ CallF "Datatype" parseDataTypeEnum; If ErrSet {{ Break }} Skip; Set_ "DatatypeSet" Tru; Break }}
    Skip }} }} }} }}.

(** offset_5.go 24-60 *)
Definition parseOffset5 : fn := Loop
  Skip
  {{ Next;
     If (CurIs "") {{ Raise; Break }}
    {{ If CurKw {{ Raise; Break }}
    {{ If (NotSet "PositionSet") {{ Num "buf" (NUint 16) FromCur; If ErrSet {{ Break }} Skip; Set_ "Position" (Var "buf"); Set_ "PositionSet" Tru }}
    {{ If (NotSet "DatatypeSet") {{ CallF "Datatype" parseDataTypeEnum; If ErrSet {{ Break }} Skip; Set_ "DatatypeSet" Tru; Break }}
    Skip }} }} }} }}.

(** offset_x.go 24-60 *)
Definition parseOffsetX : fn := Loop
  Skip
  {{ Next;
     If (CurIs "") {{ Raise; Break }}
    {{ If CurKw {{ Raise; Break }}
    {{ If (NotSet "PositionSet") {{ Num "buf" (NUint 16) FromCur; If ErrSet {{ Break }} Skip; Set_ "Position" (Var "buf"); Set_ "PositionSet" Tru }}
    {{ If (NotSet "DatatypeSet") {{ CallF "Datatype" parseDataTypeEnum; If ErrSet {{ Break }} Skip; Set_ "DatatypeSet" Tru; Break }}
    Skip }} }} }} }}.

(** offset_y.go 24-60 *)
Definition parseOffsetY : fn := Loop
  Skip
  {{ Next;
     If (CurIs "") {{ Raise; Break }}
    {{ If CurKw {{ Raise; Break }}
    {{ If (NotSet "PositionSet") {{ Num "buf" (NUint 16) FromCur; If ErrSet {{ Break }} Skip; Set_ "Position" (Var "buf"); Set_ "PositionSet" Tru }}
    {{ If (NotSet "DatatypeSet") {{ CallF "Datatype" parseDataTypeEnum; If ErrSet {{ Break }} Skip; Set_ "DatatypeSet" Tru; Break }}
    Skip }} }} }} }}.

(** offset_z.go 24-60 *)
Definition parseOffsetZ : fn := Loop
  Skip
  {{ Next;
     If (CurIs "") {{ Raise; Break }}
    {{ If CurKw {{ Raise; Break }}
    {{ If (NotSet "PositionSet") {{ Num "buf" (NUint 16) FromCur; If ErrSet {{ Break }} Skip; Set_ "Position" (Var "buf"); Set_ "PositionSet" Tru }}
    {{ If (NotSet "DatatypeSet") {{ CallF "Datatype" parseDataTypeEnum; If ErrSet {{ Break }} Skip; Set_ "DatatypeSet" Tru; Break }}
    Skip }} }} }} }}.

(** reserved.go 22-58 *)
Definition parseReserved : fn := Loop
  Skip
  {{ Next;
     If (CurIs "") {{ Raise; Break }}
    {{ If CurKw {{ Raise; Break }}
    {{ If (NotSet "PositionSet") {{ Num "buf" (NUint 16) FromCur; If ErrSet {{ Break }} Skip; Set_ "Position" (Var "buf"); Set_ "PositionSet" Tru }}
    {{ If (NotSet "DataSizeSet") {{ CallF "DataSize" parseDataSizeEnum; If ErrSet {{ Break }} Skip; Set_ "DataSizeSet" Tru; Break }}
    Skip }} }} }} }}.

(** rip_addr_4.go 49-85 *)
Definition parseRipAddr4 : fn := Loop
  Skip
  {{ Next;
     If (CurIs "") {{ Raise; Break }}
    {{ If CurKw {{ Raise; Break }}
    {{ If (NotSet "PositionSet") {{ Num "buf" (NUint 16) FromCur; If ErrSet {{ Break }} Skip; Set_ "Position" (Var "buf"); Set_ "PositionSet" Tru }}
    {{ If (NotSet "DatatypeSet") {{ CallF "Datatype" parseDataTypeEnum; If ErrSet {{ Break }} Skip; Set_ "DatatypeSet" Tru; Break }}
    Skip }} }} }} }}.

(** rip_addr_5.go 49-85 *)
Definition parseRipAddr5 : fn := Loop
  Skip
  {{ Next;
     If (CurIs "") {{ Raise; Break }}
    {{ If CurKw {{ Raise; Break }}
    {{ If (NotSet "PositionSet") {{ Num "buf" (NUint 16) FromCur; If ErrSet {{ Break }} Skip; Set_ "Position" (Var "buf"); Set_ "PositionSet" Tru }}
    {{ If (NotSet "DatatypeSet") {{ CallF "Datatype" parseDataTypeEnum; If ErrSet {{ Break }} Skip; Set_ "DatatypeSet" Tru; Break }}
    Skip }} }} }} }}.

(** rip_addr_w.go 49-85 *)
Definition parseRipAddrW : fn := Loop
  Skip
  {{ Next;
     If (CurIs "") {{ Raise; Break }}
    {{ If CurKw {{ Raise; Break }}
    {{ If (NotSet "PositionSet") {{ Num "buf" (NUint 16) FromCur; If ErrSet {{ Break }} Skip; Set_ "Position" (Var "buf"); Set_ "PositionSet" Tru }}
    {{ If (NotSet "DatatypeSet") {{ CallF "Datatype" parseDataTypeEnum; If ErrSet {{ Break }} Skip; Set_ "DatatypeSet" Tru; Break }}
    Skip }} }} }} }}.

(** rip_addr_x.go 49-85 *)
Definition parseRipAddrX : fn := Loop
  Skip
  {{ Next;
     If (CurIs "") {{ Raise; Break }}
    {{ If CurKw {{ Raise; Break }}
    {{ If (NotSet "positionSet") {{ Num "buf" (NUint 16) FromCur; If ErrSet {{ Break }} Skip; Set_ "position" (Var "buf"); Set_ "positionSet" Tru }}
    {{ If (NotSet "datatypeSet") {{ CallF "datatype" parseDataTypeEnum; If ErrSet {{ Break }} Skip; Set_ "datatypeSet" Tru; Break }}
    Skip }} }} }} }}.

(** rip_addr_y.go 49-85 *)
Definition parseRipAddrY : fn := Loop
  Skip
  {{ Next;
     If (CurIs "") {{ Raise; Break }}
    {{ If CurKw {{ Raise; Break }}
    {{ If (NotSet "PositionSet") {{ Num "buf" (NUint 16) FromCur; If ErrSet {{ Break }} Skip; Set_ "Position" (Var "buf"); Set_ "PositionSet" Tru }}
    {{ If (NotSet "DatatypeSet") {{ CallF "Datatype" parseDataTypeEnum; If ErrSet {{ Break }} Skip; Set_ "DatatypeSet" Tru; Break }}
    Skip }} }} }} }}.

(** rip_addr_z.go 49-85 *)
Definition parseRipAddrZ : fn := Loop
  Skip
  {{ Next;
     If (CurIs "") {{ Raise; Break }}
    {{ If CurKw {{ Raise; Break }}
    {{ If (NotSet "PositionSet") {{ Num "buf" (NUint 16) FromCur; If ErrSet {{ Break }} Skip; Set_ "Position" (Var "buf"); Set_ "PositionSet" Tru }}
    {{ If (NotSet "DatatypeSet") {{ CallF "Datatype" parseDataTypeEnum; If ErrSet {{ Break }} Skip; Set_ "DatatypeSet" Tru; Break }}
    Skip }} }} }} }}.

(** shift_op_4.go 27-63 *)
Definition parseShiftOp4 : fn := Loop
  Skip
  {{ Next;
     If (CurIs "") {{ Raise; Break }}
    {{ If CurKw {{ Raise; Break }}
    {{ If (NotSet "PositionSet") {{ Num "buf" (NUint 16) FromCur; If ErrSet {{ Break }} Skip; Set_ "Position" (Var "buf"); Set_ "PositionSet" Tru }}
    {{ If (NotSet "DatatypeSet") {{ CallF "Datatype" parseDataTypeEnum; If ErrSet {{ Break }} Skip; Set_ "DatatypeSet" Tru; Break }}
    Skip }} }} }} }}.

(** shift_op_5.go 27-63 *)
Definition parseShiftOp5 : fn := Loop
  Skip
  {{ Next;
     If (CurIs "") {{ Raise; Break }}
    {{ If CurKw {{ Raise; Break }}
    {{ If (NotSet "PositionSet") {{ Num "buf" (NUint 16) FromCur; If ErrSet {{ Break }} Skip; Set_ "Position" (Var "buf"); Set_ "PositionSet" Tru }}
    {{ If (NotSet "DatatypeSet") {{ CallF "Datatype" parseDataTypeEnum; If ErrSet {{ Break }} Skip; Set_ "DatatypeSet" Tru; Break }}
    Skip }} }} }} }}.

(** shift_op_x.go 27-63 *)
Definition parseShiftOpX : fn := Loop
  Skip
  {{ Next;
     If (CurIs "") {{ Raise; Break }}
    {{ If CurKw {{ Raise; Break }}
    {{ If (NotSet "PositionSet") {{ Num "buf" (NUint 16) FromCur; If ErrSet {{ Break }} Skip; Set_ "Position" (Var "buf"); Set_ "PositionSet" Tru }}
    {{ If (NotSet "DatatypeSet") {{ CallF "Datatype" parseDataTypeEnum; If ErrSet {{ Break }} Skip; Set_ "DatatypeSet" Tru; Break }}
    Skip }} }} }} }}.

(** shift_op_y.go 27-63 *)
Definition parseShiftOpY : fn := Loop
  Skip
  {{ Next;
     If (CurIs "") {{ Raise; Break }}
    {{ If CurKw {{ Raise; Break }}
    {{ If (NotSet "PositionSet") {{ Num "buf" (NUint 16) FromCur; If ErrSet {{ Break }} Skip; Set_ "Position" (Var "buf"); Set_ "PositionSet" Tru }}
    {{ If (NotSet "DatatypeSet") {{ CallF "Datatype" parseDataTypeEnum; If ErrSet {{ Break }} Skip; Set_ "DatatypeSet" Tru; Break }}
    Skip }} }} }} }}.

(** shift_op_z.go 27-63 *)
Definition parseShiftOpZ : fn := Loop
  Skip
  {{ Next;
     If (CurIs "") {{ Raise; Break }}
    {{ If CurKw {{ Raise; Break }}
    {{ If (NotSet "PositionSet") {{ Num "buf" (NUint 16) FromCur; If ErrSet {{ Break }} Skip; Set_ "Position" (Var "buf"); Set_ "PositionSet" Tru }}
    {{ If (NotSet "DatatypeSet") {{ CallF "Datatype" parseDataTypeEnum; If ErrSet {{ Break }} Skip; Set_ "DatatypeSet" Tru; Break }}
    Skip }} }} }} }}.

(** src_addr_4.go 18-54 *)
Definition parseSrcAddr4 : fn := Loop
  Skip
  {{ Next;
     If (CurIs "") {{ Raise; Break }}
    {{ If CurKw {{ Raise; Break }}
    {{ If (NotSet "positionSet") {{ Num "buf" (NUint 16) FromCur; If ErrSet {{ Break }} Skip; Set_ "position" (Var "buf"); Set_ "positionSet" Tru }}
    {{ If (NotSet "datatypeSet") {{ CallF "datatype" parseDataTypeEnum; If ErrSet {{ Break }} Skip; Set_ "datatypeSet" Tru; Break }}
    Skip }} }} }} }}.

(** src_addr_5.go 18-54 *)
Definition parseSrcAddr5 : fn := Loop
  Skip
  {{ Next;
     If (CurIs "") {{ Raise; Break }}
    {{ If CurKw {{ Raise; Break }}
    {{ If (NotSet "positionSet") {{ Num "buf" (NUint 16) FromCur; If ErrSet {{ Break }} Skip; Set_ "position" (Var "buf"); Set_ "positionSet" Tru }}
    {{ If (NotSet "datatypeSet") {{ CallF "datatype" parseDataTypeEnum; If ErrSet {{ Break }} Skip; Set_ "datatypeSet" Tru; Break }}
    Skip }} }} }} }}.

(** src_addr_x.go 18-54 *)
Definition parseSrcAddrX : fn := Loop
  Skip
  {{ Next;
     If (CurIs "") {{ Raise; Break }}
    {{ If CurKw {{ Raise; Break }}
    {{ If (NotSet "positionSet") {{ Num "buf" (NUint 16) FromCur; If ErrSet {{ Break }} Skip; Set_ "position" (Var "buf"); Set_ "positionSet" Tru }}
    {{ If (NotSet "datatypeSet") {{ CallF "datatype" parseDataTypeEnum; If ErrSet {{ Break }} Skip; Set_ "datatypeSet" Tru; Break }}
    Skip }} }} }} }}.

(** src_addr_y.go 18-54 *)
Definition parseSrcAddrY : fn := Loop
  Skip
  {{ Next;
     If (CurIs "") {{ Raise; Break }}
    {{ If CurKw {{ Raise; Break }}
    {{ If (NotSet "positionSet") {{ Num "buf" (NUint 16) FromCur; If ErrSet {{ Break }} Skip; Set_ "position" (Var "buf"); Set_ "positionSet" Tru }}
    {{ If (NotSet "datatypeSet") {{ CallF "datatype" parseDataTypeEnum; If ErrSet {{ Break }} Skip; Set_ "datatypeSet" Tru; Break }}
    Skip }} }} }} }}.

(** src_addr_z.go 18-54 *)
Definition parseSrcAddrZ : fn := Loop
  Skip
  {{ Next;
     If (CurIs "") {{ Raise; Break }}
    {{ If CurKw {{ Raise; Break }}
    {{ If (NotSet "positionSet") {{ Num "buf" (NUint 16) FromCur; If ErrSet {{ Break }} Skip; Set_ "position" (Var "buf"); Set_ "positionSet" Tru }}
    {{ If (NotSet "datatypeSet") {{ CallF "datatype" parseDataTypeEnum; If ErrSet {{ Break }} Skip; Set_ "datatypeSet" Tru; Break }}
    Skip }} }} }} }}.

(** static_address_offsets.go 10-19 *)
Definition parseStaticAddressOffsets : fn := Straight
  {{ If (NotSet "valueSet") {{ Set_ "value" Tru; Set_ "valueSet" Tru }} Skip }}.

(** static_record_layout.go 21-30 *)
Definition parseStaticRecordLayout : fn := Straight
  {{ If (NotSet "valueSet") {{ Set_ "value" Tru; Set_ "valueSet" Tru }} Skip }}.

(** record_layout.go 70-480 *)
Definition parseRecordLayout : fn := Loop
  Skip
  {{ Switch FromNext (
    Case "ALIGNMENT_BYTE" {{ CallF "AlignmentByte" parseAlignmentByte; If ErrSet {{ Break }} Skip }} (
    Case "ALIGNMENT_FLOAT16_IEEE" {{ CallF "AlignmentFloat16Ieee" parseAlignmentFloat16Ieee; If ErrSet {{ Break }} Skip }} (
    Case "ALIGNMENT_FLOAT32_IEEE" {{ CallF "AlignmentFloat32Ieee" parseAlignmentFloat32Ieee; If ErrSet {{ Break }} Skip }} (
    Case "ALIGNMENT_FLOAT64_IEEE" {{ CallF "AlignmentFloat64Ieee" parseAlignmentFloat64Ieee; If ErrSet {{ Break }} Skip }} (
    Case "ALIGNMENT_INT64" {{ CallF "AlignmentInt64" parseAlignmentInt64; If ErrSet {{ Break }} Skip }} (
    Case "ALIGNMENT_LONG" {{ CallF "AlignmentLong" parseAlignmentLong; If ErrSet {{ Break }} Skip }} (
    Case "ALIGNMENT_WORD" {{ CallF "AlignmentWord" parseAlignmentWord; If ErrSet {{ Break }} Skip }} (
    Case "AXIS_PTS_X" {{ CallF "AxisPtsX" parseAxisPtsX; If ErrSet {{ Break }} Skip }} (
    Case "AXIS_PTS_Y" {{ CallF "AxisPtsY" parseAxisPtsY; If ErrSet {{ Break }} Skip }} (
    Case "AXIS_PTS_Z" {{ CallF "AxisPtsZ" parseAxisPtsZ; If ErrSet {{ Break }} Skip }} (
    Case "AXIS_PTS_4" {{ CallF "AxisPts4" parseAxisPts4; If ErrSet {{ Break }} Skip }} (
    Case "AXIS_PTS_5" {{ CallF "AxisPts5" parseAxisPts5; If ErrSet {{ Break }} Skip }} (
    Case "AXIS_RESCALE_X" {{ CallF "AxisRescaleX" parseAxisRescaleX; If ErrSet {{ Break }} Skip }} (
    Case "DIST_OP_X" {{ CallF "DistOpX" parseDistOpX; If ErrSet {{ Break }} Skip }} (
    Case "DIST_OP_Y" {{ CallF "DistOpY" parseDistOpY; If ErrSet {{ Break }} Skip }} (
    Case "DIST_OP_Z" {{ CallF "DistOpZ" parseDistOpZ; If ErrSet {{ Break }} Skip }} (
    Case "DIST_OP_4" {{ CallF "DistOp4" parseDistOp4; If ErrSet {{ Break }} Skip }} (
    Case "DIST_OP_5" {{ CallF "DistOp5" parseDistOp5; If ErrSet {{ Break }} Skip }} (
    Case "FIX_NO_AXIS_PTS_X" {{ CallF "FixNoAxisPtsX" parseFixNoAxisPtsX; If ErrSet {{ Break }} Skip }} (
    Case "FIX_NO_AXIS_PTS_Y" {{ CallF "FixNoAxisPtsY" parseFixNoAxisPtsY; If ErrSet {{ Break }} Skip }} (
    Case "FIX_NO_AXIS_PTS_Z" {{ CallF "FixNoAxisPtsZ" parseFixNoAxisPtsZ; If ErrSet {{ Break }} Skip }} (
    Case "FIX_NO_AXIS_PTS_4" {{ CallF "FixNoAxisPts4" parseFixNoAxisPts4; If ErrSet {{ Break }} Skip }} (
    Case "FIX_NO_AXIS_PTS_5" {{ CallF "FixNoAxisPts5" parseFixNoAxisPts5; If ErrSet {{ Break }} Skip }} (
    Case "FNC_VALUES" {{ CallF "FncValues" parseFncValues; If ErrSet {{ Break }} Skip }} (
    Case "IDENTIFICATION" {{ CallF "Identification" parseIdentification; If ErrSet {{ Break }} Skip }} (
    Case "NO_AXIS_PTS_X" {{ CallF "NoAxisPtsX" parseNoAxisPtsX; If ErrSet {{ Break }} Skip }} (
    Case "NO_AXIS_PTS_Y" {{ CallF "NoAxisPtsY" parseNoAxisPtsY; If ErrSet {{ Break }} Skip }} (
    Case "NO_AXIS_PTS_Z" {{ CallF "NoAxisPtsZ" parseNoAxisPtsZ; If ErrSet {{ Break }} Skip }} (
    Case "NO_AXIS_PTS_4" {{ CallF "NoAxisPts4" parseNoAxisPts4; If ErrSet {{ Break }} Skip }} (
    Case "NO_AXIS_PTS_5" {{ CallF "NoAxisPts5" parseNoAxisPts5; If ErrSet {{ Break }} Skip }} (
    Case "NO_RESCALE_X" {{ CallF "NoRescaleX" parseNoRescaleX; If ErrSet {{ Break }} Skip }} (
    Case "OFFSET_X" {{ CallF "OffsetX" parseOffsetX; If ErrSet {{ Break }} Skip }} (
    Case "OFFSET_Y" {{ CallF "OffsetY" parseOffsetY; If ErrSet {{ Break }} Skip }} (
    Case "OFFSET_Z" {{ CallF "OffsetZ" parseOffsetZ; If ErrSet {{ Break }} Skip }} (
    Case "OFFSET_4" {{ CallF "Offset4" parseOffset4; If ErrSet {{ Break }} Skip }} (
    Case "OFFSET_5" {{ CallF "Offset5" parseOffset5; If ErrSet {{ Break }} Skip }} (
    Case "RESERVED" {{ CallF "Reserved" parseReserved; If ErrSet {{ Break }} Skip }} (
    Case "RIP_ADDR_W" {{ CallF "RipAddrW" parseRipAddrW; If ErrSet {{ Break }} Skip }} (
    Case "RIP_ADDR_X" {{ CallF "RipAddrX" parseRipAddrX; If ErrSet {{ Break }} Skip }} (
    Case "RIP_ADDR_Y" {{ CallF "RipAddrY" parseRipAddrY; If ErrSet {{ Break }} Skip }} (
    Case "RIP_ADDR_Z" {{ CallF "RipAddrZ" parseRipAddrZ; If ErrSet {{ Break }} Skip }} (
    Case "RIP_ADDR_4" {{ CallF "RipAddr4" parseRipAddr4; If ErrSet {{ Break }} Skip }} (
    Case "RIP_ADDR_5" {{ CallF "RipAddr5" parseRipAddr5; If ErrSet {{ Break }} Skip }} (
    Case "SRC_ADDR_X" {{ CallF "SrcAddrX" parseSrcAddrX; If ErrSet {{ Break }} Skip }} (
    Case "SRC_ADDR_Y" {{ CallF "SrcAddrY" parseSrcAddrY; If ErrSet {{ Break }} Skip }} (
    Case "SRC_ADDR_Z" {{ CallF "SrcAddrZ" parseSrcAddrZ; If ErrSet {{ Break }} Skip }} (
    Case "SRC_ADDR_4" {{ CallF "SrcAddr4" parseSrcAddr4; If ErrSet {{ Break }} Skip }} (
    Case "SRC_ADDR_5" {{ CallF "SrcAddr5" parseSrcAddr5; If ErrSet {{ Break }} Skip }} (
    Case "SHIFT_OP_X" {{ CallF "ShiftOpX" parseShiftOpX; If ErrSet {{ Break }} Skip }} (
    Case "SHIFT_OP_Y" {{ CallF "ShiftOpY" parseShiftOpY; If ErrSet {{ Break }} Skip }} (
    Case "SHIFT_OP_Z" {{ CallF "ShiftOpZ" parseShiftOpZ; If ErrSet {{ Break }} Skip }} (
    Case "SHIFT_OP_4" {{ CallF "ShiftOp4" parseShiftOp4; If ErrSet {{ Break }} Skip }} (
    Case "SHIFT_OP_5" {{ CallF "ShiftOp5" parseShiftOp5; If ErrSet {{ Break }} Skip }} (
    Case "STATIC_RECORD_LAYOUT" {{ CallF "StaticRecordLayout" parseStaticRecordLayout; If ErrSet {{ Break }} Skip }} (
    Case "STATIC_ADDRESS_OFFSETS" {{ CallF "StaticAddressOffsets" parseStaticAddressOffsets; If ErrSet {{ Break }} Skip }} (
    Default))))))))))))))))))))))))))))))))))))))))))))))))))))))))
    {{ If (CurIs "") {{ Raise; Break }}
      {{ If (CurIs "/end RECORD_LAYOUT") {{ Break }}
      {{ If CurKw {{ Raise; Break }} {{ If (NotSet "NameSet") {{ Set_ "Name" Cur; Set_ "NameSet" Tru }} Skip }} }} }} }} }}.

(** transformer_in_object.go 14-37 *)
Definition parseTransformerInObject : fn := Loop
  Skip
  {{ Next;
     If (CurIs "") {{ Raise; Break }}
    {{ If (CurIs "/end TRANSFORMER_IN_OBJECTS") {{ Set_ "identifierSet" Tru; Break }}
    {{ If CurKw {{ Raise; Break }} {{ If (NotSet "identifierSet") {{ App "identifier" Cur }} Skip }} }} }} }}.

(** transformer_out_object.go 14-37 *)
Definition parseTransformerOutObject : fn := Loop
  Skip
  {{ Next;
     If (CurIs "") {{ Raise; Break }}
    {{ If (CurIs "/end TRANSFORMER_OUT_OBJECTS") {{ Set_ "identifierSet" Tru; Break }}
    {{ If CurKw {{ Raise; Break }} {{ If (NotSet "identifierSet") {{ App "identifier" Cur }} Skip }} }} }} }}.

(** transformer.go 31-104 *)
Definition parseTransformer : fn := Loop
  Skip
  {{ Switch FromNext (
    Case "/begin TRANSFORMER_IN_OBJECTS" {{ CallF "transformerInObjects" parseTransformerInObject; If ErrSet {{ Break }} Skip }} (
    Case "/begin TRANSFORMER_OUT_OBJECTS" {{ CallF "transformerOutObjects" parseTransformerOutObject; If ErrSet {{ Break }} Skip }} (
    Default)))
    {{ If (CurIs "") {{ Raise; Break }}
      {{ If (CurIs "/end TRANSFORMER") {{ Break }}
      {{ If CurKw {{ Raise; Break }}
      {{ If (NotSet "nameSet") {{ Set_ "name" Cur; Set_ "nameSet" Tru }}
      {{ If (NotSet "versionSet") {{ Set_ "version" Cur; Set_ "versionSet" Tru }}
      {{ If (NotSet "executable32Set") {{ Set_ "executable32" Cur; Set_ "executable32Set" Tru }}
      {{ If (NotSet "executable64Set") {{ Set_ "executable64" Cur; Set_ "executable64Set" Tru }}
      {{ If (NotSet "timeOutSet") {{ Num "buf" (NUint 32) FromCur; If ErrSet {{ Break }} Skip; Set_ "timeOut" (Var "buf"); Set_ "timeOutSet" Tru }}
      {{ If (NotSet "triggerSet") {{ CallF "trigger" parseTriggerEnum; If ErrSet {{ Break }} Skip; Set_ "triggerSet" Tru }}
      {{ If (NotSet "inverseTransformerSet") {{ Set_ "inverseTransformer" Cur; Set_ "inverseTransformerSet" Tru }} Skip }} }} }} }} }} }} }} }} }} }} }}.

(** type_def_axis.go 38-168 *)
Definition parseTypeDefAxis : fn := Loop
  Skip
  {{ Switch FromNext (
    Case "BYTE_ORDER" {{ CallF "byteOrder" parseByteOrder; If ErrSet {{ Break }} Skip }} (
    Case "DEPOSIT" {{ CallF "deposit" parseDeposit; If ErrSet {{ Break }} Skip }} (
    Case "EXTENDED_LIMITS" {{ CallF "extendedLimits" parseExtendedLimits; If ErrSet {{ Break }} Skip }} (
    Case "FORMAT" {{ CallF "format" parseFormat; If ErrSet {{ Break }} Skip }} (
    Case "MONOTONY" {{ CallF "monotony" parseMonotony; If ErrSet {{ Break }} Skip }} (
    Case "PHYS_UNIT" {{ CallF "physUnit" parsePhysUnit; If ErrSet {{ Break }} Skip }} (
    Case "STEP_SIZE" {{ CallF "stepSize" parseStepSize; If ErrSet {{ Break }} Skip }} (
    Default))))))))
    {{ If (CurIs "") {{ Raise; Break }}
      {{ If (CurIs "/end TYPEDEF_AXIS") {{ Break }}
      {{ If CurKw {{ Raise; Break }}
      {{ If (NotSet "nameSet") {{ Set_ "name" Cur; Set_ "nameSet" Tru }}
      {{ If (NotSet "longIdentifierSet") {{ Set_ "LongIdentifier" Cur; Set_ "longIdentifierSet" Tru }}
      {{ If (NotSet "inputQuantitySet") {{ Set_ "inputQuantity" Cur; Set_ "inputQuantitySet" Tru }}
      {{ If (NotSet "recordLayoutSet") {{ Set_ "recordLayout" Cur; Set_ "recordLayoutSet" Tru }}
      {{ If (NotSet "maxDiffSet") {{ Num "buf" NFloat FromCur; If ErrSet {{ Break }} Skip; Set_ "maxDiff" (Var "buf"); Set_ "maxDiffSet" Tru }}
      {{ If (NotSet "conversionSet") {{ Set_ "conversion" Cur; Set_ "conversionSet" Tru }}
      {{ If (NotSet "maxAxisPointsSet") {{ Num "buf" (NUint 16) FromCur; If ErrSet {{ Break }} Skip; Set_ "maxAxisPoints" (Var "buf"); Set_ "maxAxisPointsSet" Tru }}
      {{ If (NotSet "lowerLimitSet") {{ Num "buf" NFloat FromCur; If ErrSet {{ Break }} Skip; Set_ "lowerLimit" (Var "buf"); Set_ "lowerLimitSet" Tru }}
      {{ If (NotSet "upperLimitSet") {{ Num "buf" NFloat FromCur; If ErrSet {{ Break }} Skip; Set_ "upperLimit" (Var "buf"); Set_ "upperLimitSet" Tru }}
      Skip }} }} }} }} }} }} }} }} }} }} }} }} }}.

(** type_def_blob.go 20-66 *)
Definition parseTypeDefBlob : fn := Loop
  Skip
  {{ Switch FromNext (
    Case "ADDRESS_TYPE" {{ CallF "addressType" parseAddrTypeEnum; If ErrSet {{ Break }} Skip }} (
    Default))
    {{ If (CurIs "") {{ Raise; Break }}
      {{ If (CurIs "/end TYPEDEF_BLOB") {{ Break }}
      {{ If CurKw {{ Raise; Break }}
      {{ If (NotSet "nameSet") {{ Set_ "name" Cur; Set_ "nameSet" Tru }}
      {{ If (NotSet "longIdentifierSet") {{ Set_ "longIdentifier" Cur; Set_ "longIdentifierSet" Tru }}
      {{ If (NotSet "sizeSet") {{ Num "buf" (NUint 32) FromCur; If ErrSet {{ Break }} Skip; Set_ "size" (Var "buf"); Set_ "sizeSet" Tru }}
      Skip }} }} }} }} }} }} }}.

(** type_def_characteristic.go 40-194 *)
Definition parseTypeDefCharacteristic : fn := Loop
  Skip
  {{ Switch FromNext (
    Case "/begin AXIS_DESCR" {{ CallV "buf" parseAxisDescr; If ErrSet {{ Break }} Skip; App "axisDescr" (Var "buf") }} (
    Case "BIT_MASK" {{ CallF "bitMask" parseBitMask; If ErrSet {{ Break }} Skip }} (
    Case "BYTE_ORDER" {{ CallF "byteOrder" parseByteOrder; If ErrSet {{ Break }} Skip }} (
    Case "DISCRETE" {{ CallF "discrete" parseDiscrete; If ErrSet {{ Break }} Skip }} (
    Case "DISPLAY_IDENTIFIER" {{ CallF "encoding" parseEncodingEnum; If ErrSet {{ Break }} Skip }} (
    Case "EXTENDED_LIMITS" {{ CallF "extendedLimits" parseExtendedLimits; If ErrSet {{ Break }} Skip }} (
    Case "FORMAT" {{ CallF "format" parseFormat; If ErrSet {{ Break }} Skip }} (
    Case "MATRIX_DIM" {{ CallF "matrixDim" parseMatrixDim; If ErrSet {{ Break }} Skip }} (
    Case "NUMBER" {{ CallF "number" parseNumber; If ErrSet {{ Break }} Skip }} (
    Case "PHYS_UNIT" {{ CallF "physUnit" parsePhysUnit; If ErrSet {{ Break }} Skip }} (
    Case "STEP_SIZE" {{ CallF "stepSize" parseStepSize; If ErrSet {{ Break }} Skip }} (
    Default))))))))))))
    {{ If (CurIs "") {{ Raise; Break }}
      {{ If (CurIs "/end TYPEDEF_CHARACTERISTIC") {{ Break }}
      {{ If CurKw {{ Raise; Break }}
      {{ If (NotSet "nameSet") {{ Set_ "name" Cur; Set_ "nameSet" Tru }}
      {{ If (NotSet "longIdentifierSet") {{ Set_ "LongIdentifier" Cur; Set_ "longIdentifierSet" Tru }}
      {{ If (NotSet "TypeSet") {{ CallF "Type" parseTypeEnum; If ErrSet {{ Break }} Skip; Set_ "TypeSet" Tru }}
      {{ If (NotSet "recordLayoutSet") {{ Set_ "recordLayout" Cur; Set_ "recordLayoutSet" Tru }}
      {{ If (NotSet "maxDiffSet") {{ Num "buf" NFloat FromCur; If ErrSet {{ Break }} Skip; Set_ "maxDiff" (Var "buf"); Set_ "maxDiffSet" Tru }}
      {{ If (NotSet "conversionSet") {{ Set_ "conversion" Cur; Set_ "conversionSet" Tru }}
      {{ If (NotSet "lowerLimitSet") {{ Num "buf" NFloat FromCur; If ErrSet {{ Break }} Skip; Set_ "lowerLimit" (Var "buf"); Set_ "lowerLimitSet" Tru }}
      {{ If (NotSet "upperLimitSet") {{ Num "buf" NFloat FromCur; If ErrSet {{ Break }} Skip; Set_ "upperLimit" (Var "buf"); Set_ "upperLimitSet" Tru }}
      Skip }} }} }} }} }} }} }} }} }} }} }} }}.

(** type_def_measurement.go 38-182 *)
Definition parseTypeDefMeasurement : fn := Loop
  Skip
  {{ Switch FromNext (
    Case "BIT_MASK" {{ CallF "bitMask" parseBitMask; If ErrSet {{ Break }} Skip }} (
    Case "/begin BIT_OPERATION" {{ CallF "bitOperation" parseBitOperation; If ErrSet {{ Break }} Skip }} (
    Case "BYTE_ORDER" {{ CallF "byteOrder" parseByteOrder; If ErrSet {{ Break }} Skip }} (
    Case "DISCRETE" {{ CallF "discrete" parseDiscrete; If ErrSet {{ Break }} Skip }} (
    Case "ERROR_MASK" {{ CallF "errorMask" parseErrorMask; If ErrSet {{ Break }} Skip }} (
    Case "FORMAT" {{ CallF "format" parseFormat; If ErrSet {{ Break }} Skip }} (
    Case "LAYOUT" {{ CallF "layout" parseLayout; If ErrSet {{ Break }} Skip }} (
    Case "MATRIX_DIM" {{ CallF "matrixDim" parseMatrixDim; If ErrSet {{ Break }} Skip }} (
    Case "PHYS_UNIT" {{ CallF "physUnit" parsePhysUnit; If ErrSet {{ Break }} Skip }} (
    Default))))))))))
    {{ If (CurIs "") {{ Raise; Break }}
      {{ If (CurIs "/end TYPEDEF_MEASUREMENT") {{ Break }}
      {{ If CurKw {{ Raise; Break }}
      {{ If (NotSet "nameSet") {{ Set_ "name" Cur; Set_ "nameSet" Tru }}
      {{ If (NotSet "longIdentifierSet") {{ Set_ "longIdentifier" Cur; Set_ "longIdentifierSet" Tru }}
      {{ If (NotSet "datatypeSet") {{ CallF "datatype" parseDataTypeEnum; If ErrSet {{ Break }} Skip; Set_ "datatypeSet" Tru }}
      {{ If (NotSet "conversionSet") {{ Set_ "conversion" Cur }}
      {{ If (NotSet "resolutionSet") {{ Num "buf" (NUint 16) FromCur; If ErrSet {{ Break }} Skip; Set_ "resolution" (Var "buf"); Set_ "resolutionSet" Tru }}
      {{ If (NotSet "accuracySet") {{ Num "buf" NFloat FromCur; If ErrSet {{ Break }} Skip; Set_ "accuracy" (Var "buf"); Set_ "accuracySet" Tru }}
      {{ If (NotSet "lowerLimitSet") {{ Num "buf" NFloat FromCur; If ErrSet {{ Break }} Skip; Set_ "lowerLimit" (Var "buf"); Set_ "lowerLimitSet" Tru }}
      {{ If (NotSet "upperLimitSet") {{ Num "buf" NFloat FromCur; If ErrSet {{ Break }} Skip; Set_ "upperLimit" (Var "buf"); Set_ "upperLimitSet" Tru }}
      Skip }} }} }} }} }} }} }} }} }} }} }} }}.

(** consistent_exchange.go 10-19 *)
Definition parseConsistentExchangeKeyword : fn := Straight
  {{ If (NotSet "valueSet") {{ Set_ "value" Tru; Set_ "valueSet" Tru }} Skip }}.

(** symbol_type_link.go 13-28 *)
Definition parseSymbolTypeLink : fn := Straight
  {{ Next; If (CurIs "") {{ Raise }} {{ If CurKw {{ Raise }} {{ Set_ "symbolName" Cur }} }} }}.

(** structure_component.go 22-83 *)
Definition parseStructureComponent : fn := Loop
  Skip
  {{ Switch FromNext (
    Case "ADDRESS_TYPE" {{ CallF "addressType" parseAddrTypeEnum; If ErrSet {{ Break }} Skip }} (
    Case "LAYOUT" {{ CallF "layout" parseLayout; If ErrSet {{ Break }} Skip }} (
    Case "MATRIX_DIM" {{ CallF "matrixDim" parseMatrixDim; If ErrSet {{ Break }} Skip }} (
    Case "SYMBOL_TYPE_LINK" {{ CallF "symbolTypeLink" parseSymbolTypeLink; If ErrSet {{ Break }} Skip }} (
    Default)))))
    {{ If (CurIs "") {{ Raise; Break }}
      {{ If (CurIs "/end STRUCTURE_COMPONENT") {{ Break }}
      {{ If CurKw {{ Raise; Break }}
      {{ If (NotSet "nameSet") {{ Set_ "name" Cur; Set_ "nameSet" Tru }}
      {{ If (NotSet "typeDefNameSet") {{ Set_ "typeDefName" Cur; Set_ "typeDefNameSet" Tru }}
      {{ If (NotSet "addressOffsetSet") {{ Set_ "addressOffset" Cur; Set_ "addressOffsetSet" Tru }} Skip }} }} }} }} }} }} }}.

(** type_def_structure.go 23-92 *)
Definition parseTypeDefStructure : fn := Loop
  Skip
  {{ Switch FromNext (
    Case "ADDRESS_TYPE" {{ CallF "addressType" parseAddrTypeEnum; If ErrSet {{ Break }} Skip }} (
    Case "CONSISTENT_EXCHANGE" {{ CallF "consistentExchange" parseConsistentExchangeKeyword; If ErrSet {{ Break }} Skip }} (
    Case "/begin STRUCTURE_COMPONENT" {{ CallV "buf" parseStructureComponent; If ErrSet {{ Break }} Skip; App "structureComponent" (Var "buf") }} (
    Case "SYMBOL_TYPE_LINK" {{ CallF "symbolTypeLink" parseSymbolTypeLink; If ErrSet {{ Break }} Skip }} (
    Default)))))
    {{ If (CurIs "") {{ Raise; Break }}
      {{ If (CurIs "/end TYPEDEF_STRUCTURE") {{ Break }}
      {{ If CurKw {{ Raise; Break }}
      {{ If (NotSet "nameSet") {{ Set_ "name" Cur; Set_ "nameSet" Tru }}
      {{ If (NotSet "longIdentifierSet") {{ Set_ "longIdentifier" Cur; Set_ "longIdentifierSet" Tru }}
      {{ If (NotSet "sizeSet") {{ Num "buf" (NUint 32) FromCur; If ErrSet {{ Break }} Skip; Set_ "size" (Var "buf"); Set_ "sizeSet" Tru }}
      Skip }} }} }} }} }} }} }}.

(** si_exponents.go 27-115 *)
Definition parseSiExponents : fn := Loop
  Skip
  {{ Next;
     If (CurIs "") {{ Raise; Break }}
    {{ If CurKw {{ Raise; Break }}
    {{ If (NotSet "lengthSet") {{ Num "buf" (NInt 16) FromCur; If ErrSet {{ Break }} Skip; Set_ "length" (Var "buf"); Set_ "lengthSet" Tru }}
    {{ If (NotSet "massSet") {{ Num "buf" (NInt 16) FromCur; If ErrSet {{ Break }} Skip; Set_ "mass" (Var "buf"); Set_ "massSet" Tru }}
    {{ If (NotSet "timeSet") {{ Num "buf" (NInt 16) FromCur; If ErrSet {{ Break }} Skip; Set_ "time" (Var "buf"); Set_ "timeSet" Tru }}
    {{ If (NotSet "electricCurrentSet") {{ Num "buf" (NInt 16) FromCur; If ErrSet {{ Break }} Skip; Set_ "electricCurrent" (Var "buf"); Set_ "electricCurrentSet" Tru }}
    {{ If (NotSet "temperatureSet") {{ Num "buf" (NInt 16) FromCur; If ErrSet {{ Break }} Skip; Set_ "temperature" (Var "buf"); Set_ "temperatureSet" Tru }}
    {{ If (NotSet "amountOfSubstanceSet") {{ Num "buf" (NInt 16) FromCur;
       If ErrSet {{ Break }} Skip;
       Set_ "amountOfSubstance" (Var "buf");
       Set_ "amountOfSubstanceSet" Tru }}
    {{ If (NotSet "luminousIntensitySet") {{ Num "buf" (NInt 16) FromCur;
       If ErrSet {{ Break }} Skip;
       Set_ "luminousIntensity" (Var "buf");
       Set_ "luminousIntensitySet" Tru;
       Break }}
    Skip }} }} }} }} }} }} }} }} }}.

(** unit_conversion.go 17-55 *)
Definition parseUnitConversion : fn := Loop
  Skip
  {{ Next;
     If (CurIs "") {{ Raise; Break }}
    {{ If CurKw {{ Raise; Break }}
    {{ If (NotSet "gradientSet") {{ Num "buf" NFloat FromCur; If ErrSet {{ Break }} Skip; Set_ "gradient" (Var "buf"); Set_ "gradientSet" Tru }}
    {{ If (NotSet "offsetSet") {{ Num "buf" NFloat FromCur; If ErrSet {{ Break }} Skip; Set_ "offset" (Var "buf"); Set_ "offsetSet" Tru; Break }}
    Skip }} }} }} }}.

(** unit.go 23-85 *)
Definition parseUnit : fn := Loop
  Skip
  {{ Switch FromNext (
    Case "REF_UNIT" {{ CallF "refUnit" parseRefUnit; If ErrSet {{ Break }} Skip }} (
    Case "SI_EXPONENTS" {{ CallF "siExponents" parseSiExponents; If ErrSet {{ Break }} Skip }} (
    Case "UNIT_CONVERSION" {{ CallF "unitConversion" parseUnitConversion; If ErrSet {{ Break }} Skip }} (
    Default))))
    {{ If (CurIs "") {{ Raise; Break }}
      {{ If (CurIs "/end UNIT") {{ Break }}
      {{ If CurKw {{ Raise; Break }}
      {{ If (NotSet "nameSet") {{ Set_ "name" Cur; Set_ "nameSet" Tru }}
      {{ If (NotSet "longIdentifierSet") {{ Set_ "longIdentifier" Cur; Set_ "nameSet" Tru }}
      {{ If (NotSet "displaySet") {{ Set_ "display" Cur; Set_ "displaySet" Tru }}
      {{ If (NotSet "TypeSet") {{ CallF "Type" parseTypeEnum; If ErrSet {{ Break }} Skip; Set_ "TypeSet" Tru }} Skip }} }} }} }} }} }} }} }}.

(** ref_group.go 14-37 *)
Definition parseRefGroup : fn := Loop
  Skip
  {{ Next;
     If (CurIs "") {{ Raise; Break }}
    {{ If (CurIs "/end REF_GROUP") {{ Set_ "identifierSet" Tru; Break }}
    {{ If CurKw {{ Raise; Break }} {{ If (NotSet "identifierSet") {{ App "identifier" Cur }} Skip }} }} }} }}.

(** user_rights.go 16-57 *)
Definition parseUserRights : fn := Loop
  Skip
  {{ Switch FromNext (
    Case "READ_ONLY" {{ CallF "readOnly" parseReadOnly; If ErrSet {{ Break }} Skip }} (
    Case "/begin REF_GROUP" {{ CallV "buf" parseRefGroup; If ErrSet {{ Break }} Skip; App "refGroup" (Var "buf") }} (
    Default)))
    {{ If (CurIs "") {{ Raise; Break }}
      {{ If (CurIs "/end USER_RIGHTS") {{ Break }}
      {{ If CurKw {{ Raise; Break }} {{ If (NotSet "userLevelIdSet") {{ Set_ "userLevelId" Cur; Set_ "userLevelIdSet" Tru }} Skip }} }} }} }} }}.

(** var_address.go 14-37 *)
Definition parseVarAddress : fn := Loop
  Skip
  {{ Next;
     If (CurIs "") {{ Raise; Break }}
    {{ If (CurIs "/end VAR_ADDRESS") {{ Set_ "addressSet" Tru; Break }}
    {{ If CurKw {{ Raise; Break }} {{ If (NotSet "addressSet") {{ App "address" Cur }} Skip }} }} }} }}.

(** var_characteristic.go 17-55 *)
Definition parseVarCharacteristic : fn := Loop
  Skip
  {{ Switch FromNext (
    Case "/begin VAR_ADDRESS" {{ CallV "buf" parseVarAddress; If ErrSet {{ Break }} Skip; App "varAddress" (Var "buf") }} (
    Default))
    {{ If (CurIs "") {{ Raise; Break }}
      {{ If (CurIs "/end VAR_CHARACTERISTIC") {{ Set_ "identCriterionNameSet" Tru; Break }}
      {{ If CurKw {{ Raise; Break }}
      {{ If (NotSet "nameSet") {{ Set_ "name" Cur; Set_ "nameSet" Tru }}
      {{ If (NotSet "identCriterionNameSet") {{ App "identCriterionName" Cur }} Skip }} }} }} }} }} }}.

(** var_measurement.go 14-30 *)
Definition parseVarMeasurement : fn := Straight
  {{ Next;
     If (CurIs "") {{ Raise }}
    {{ If CurKw {{ Raise }} {{ If (NotSet "nameSet") {{ Set_ "name" Cur; Set_ "nameSet" Tru }} Skip }} }} }}.

(** var_selection_characteristic.go 14-30 *)
Definition parseVarSelectionCharacteristic : fn := Straight
  {{ Next;
     If (CurIs "") {{ Raise }}
    {{ If CurKw {{ Raise }} {{ If (NotSet "nameSet") {{ Set_ "name" Cur; Set_ "nameSet" Tru }} Skip }} }} }}.

(** var_criterion.go 20-67 *)
Definition parseVarCriterion : fn := Loop
  Skip
  {{ Switch FromNext (
    Case "VAR_MEASUREMENT" {{ CallF "varMeasurement" parseVarMeasurement; If ErrSet {{ Break }} Skip }} (
    Case "VAR_SELECTION_CHARACTERISTIC" {{ CallF "varSelectionCharacteristic" parseVarSelectionCharacteristic; If ErrSet {{ Break }} Skip }} (
    Default)))
    {{ If (CurIs "") {{ Raise; Break }}
      {{ If (CurIs "/end VAR_CRITERION") {{ Set_ "valueSet" Tru; Break }}
      {{ If CurKw {{ Raise; Break }}
      {{ If (NotSet "nameSet") {{ Set_ "name" Cur; Set_ "nameSet" Tru }}
      {{ If (NotSet "longIdentifierSet") {{ Set_ "longIdentifier" Cur; Set_ "longIdentifierSet" Tru }}
      {{ If (NotSet "valueSet") {{ App "value" Cur }} Skip }} }} }} }} }} }} }}.

(** var_forbidden_comb.go 16-48 *)
Definition parseVarForbiddenComb : fn := Loop
  Skip
  {{ Next;
     If (CurIs "") {{ Raise; Break }}
    {{ If (CurIs "/end VAR_FORBIDDEN_COMB") {{ Set_ "criterionNameSet" Tru; Set_ "criterionValueSet" Tru; Break }}
    {{ If CurKw {{ Raise; Break }}
    {{ If (Or (NotSet "criterionNameSet") (NotSet "criterionValueSet")) {{ App "criterionName" Cur;
       Switch FromNext (
      Case "" {{ Raise; Break }} (
      Default))
      {{ App "criterionValue" Cur }} }}
    Skip }} }} }} }}.

(** var_naming.go 14-33 *)
Definition parseVarNaming : fn := Straight
  {{ Next;
     If (CurIs "") {{ Raise }}
    {{ If CurKw {{ Raise }} {{ If (NotSet "tagSet") {{ CallF "tag" parseTagEnum; If ErrSet Skip Skip; Set_ "tagSet" Tru }} Skip }} }} }}.

(** var_separator.go 14-30 *)
Definition parseVarSeparator : fn := Straight
  {{ Next;
     If (CurIs "") {{ Raise }}
    {{ If CurKw {{ Raise }} {{ If (NotSet "separatorSet") {{ Set_ "separator" Cur; Set_ "separatorSet" Tru }} Skip }} }} }}.

(** variant_coding.go 18-81 *)
Definition parseVariantCoding : fn := Loop
  Skip
  {{ Switch FromNext (
    Case "/begin VAR_CHARACTERISTIC" {{ CallV "buf" parseVarCharacteristic; If ErrSet {{ Break }} Skip; App "varCharacteristic" (Var "buf") }} (
    Case "/begin VAR_CRITERION" {{ CallV "buf" parseVarCriterion; If ErrSet {{ Break }} Skip; App "varCriterion" (Var "buf") }} (
    Case "/begin VAR_FORBIDDEN_COMB" {{ CallV "buf" parseVarForbiddenComb; If ErrSet {{ Break }} Skip; App "varForbiddenComb" (Var "buf") }} (
    Case "VAR_NAMING" {{ CallF "varNaming" parseVarNaming; If ErrSet {{ Break }} Skip }} (
    Default)))))
    {{ If (CurIs "") {{ Raise; Break }}
      {{ If (CurIs "/end VARIANT_CODING") {{ Break }}
      {{ If CurKw {{ Raise; Break }}
      {{ If (NotSet "varSeparatorSet") {{ CallF "varSeparator" parseVarSeparator; If ErrSet {{ Break }} Skip; Set_ "varSeparatorSet" Tru }}
      Skip }} }} }} }} }}.

(** module.go 45-321 *)
Definition parseModule : fn := Loop
  {{ Set_ "AxisPts" EmptyMap;
     Set_ "blobs" EmptyMap;
     Set_ "Characteristics" EmptyMap;
     Set_ "CompuMethods" EmptyMap;
     Set_ "CompuTabs" EmptyMap;
     Set_ "CompuVTabs" EmptyMap;
     Set_ "CompuVTabRanges" EmptyMap;
     Set_ "Functions" EmptyMap;
     Set_ "Groups" EmptyMap;
     Set_ "ifData" EmptyMap;
     Set_ "instances" EmptyMap;
     Set_ "Measurements" EmptyMap;
     Set_ "RecordLayouts" EmptyMap;
     Set_ "transformers" EmptyMap;
     Set_ "typeDefAxis" EmptyMap;
     Set_ "typeDefBlobs" EmptyMap;
     Set_ "typeDefCharacteristics" EmptyMap;
     Set_ "typeDefMeasurements" EmptyMap;
     Set_ "typeDefStructures" EmptyMap;
     Set_ "Units" EmptyMap;
     Set_ "userRights" EmptyMap }}
  {{ Switch FromNext (
    Case "/begin A2ML" {{ CallF "a2ml" parseA2ML; If ErrSet {{ Break }} Skip }} (
    Case "/begin AXIS_PTS" {{ CallV "bufAxisPts" parseAxisPts; If ErrSet {{ Break }} Skip; Put "AxisPts" "bufAxisPts" "name" }} (
    Case "/begin BLOB" {{ CallV "bufBlob" parseBlob; If ErrSet {{ Break }} Skip; Put "blobs" "bufBlob" "name" }} (
    Case "/begin CHARACTERISTIC" {{ CallV "bufCharacteristic" parseCharacteristic; If ErrSet {{ Break }} Skip; Put "Characteristics" "bufCharacteristic" "Name" }} (
    Case "/begin COMPU_METHOD" {{ CallV "bufCompuMethod" parseCompuMethod; If ErrSet {{ Break }} Skip; Put "CompuMethods" "bufCompuMethod" "Name" }} (
    Case "/begin COMPU_TAB" {{ CallV "bufCompuTab" parseCompuTab; If ErrSet {{ Break }} Skip; Put "CompuTabs" "bufCompuTab" "Name" }} (
    Case "/begin COMPU_VTAB" {{ CallV "bufCompuVtab" parseCompuVtab; If ErrSet {{ Break }} Skip; Put "CompuVTabs" "bufCompuVtab" "Name" }} (
    Case "/begin COMPU_VTAB_RANGE" {{ CallV "bufCompuVtabRange" parseCompuVtabRange; If ErrSet {{ Break }} Skip; Put "CompuVTabRanges" "bufCompuVtabRange" "Name" }} (
    Case "/begin FRAME" {{ CallF "frame" parseFrame; If ErrSet {{ Break }} Skip }} (
    Case "/begin FUNCTION" {{ CallV "bufFunction" parseFunction; If ErrSet {{ Break }} Skip; Put "Functions" "bufFunction" "name" }} (
    Case "/begin GROUP" {{ CallV "bufGroup" parseGroup; If ErrSet {{ Break }} Skip; Put "Groups" "bufGroup" "groupName" }} (
    Case "/begin IF_DATA" {{ CallV "bufIfData" parseIfData; If ErrSet {{ Break }} Skip; Put "ifData" "bufIfData" "name" }} (
    Case "/begin INSTANCE" {{ CallV "bufInstance" parseInstance; If ErrSet {{ Break }} Skip; Put "instances" "bufInstance" "name" }} (
    Case "/begin MEASUREMENT" {{ CallV "bufMeasurement" parseMeasurement; If ErrSet {{ Break }} Skip; Put "Measurements" "bufMeasurement" "name" }} (
    Case "/begin MOD_COMMON" {{ CallF "ModCommon" parseModCommon; If ErrSet {{ Break }} Skip }} (
    Case "/begin MOD_PAR" {{ CallF "ModPar" parseModPar; If ErrSet {{ Break }} Skip }} (
    Case "/begin RECORD_LAYOUT" {{ CallV "bufRecordLayout" parseRecordLayout; If ErrSet {{ Break }} Skip; Put "RecordLayouts" "bufRecordLayout" "Name" }} (
    Case "/begin TRANSFORMER" {{ CallV "bufTransformer" parseTransformer; If ErrSet {{ Break }} Skip; Put "transformers" "bufTransformer" "name" }} (
    Case "/begin TYPEDEF_AXIS" {{ CallV "bufTypeDefAxis" parseTypeDefAxis; If ErrSet {{ Break }} Skip; Put "typeDefAxis" "bufTypeDefAxis" "name" }} (
    Case "/begin TYPEDEF_BLOB" {{ CallV "bufTypeDefBlob" parseTypeDefBlob; If ErrSet {{ Break }} Skip; Put "typeDefBlobs" "bufTypeDefBlob" "name" }} (
    Case "/begin TYPEDEF_CHARACTERISTIC" {{ CallV "bufTypeDefCharacteristic" parseTypeDefCharacteristic;
         If ErrSet {{ Break }} Skip;
         Put "typeDefCharacteristics" "bufTypeDefCharacteristic" "name" }} (
    Case "/begin TYPEDEF_MEASUREMENT" {{ CallV "bufTypeDefMeasurement" parseTypeDefMeasurement;
         If ErrSet {{ Break }} Skip;
         Put "typeDefMeasurements" "bufTypeDefMeasurement" "name" }} (
    Case "/begin TYPEDEF_STRUCTURE" {{ CallV "bufTypeDefStructure" parseTypeDefStructure;
         If ErrSet {{ Break }} Skip;
         Put "typeDefStructures" "bufTypeDefStructure" "name" }} (
    Case "/begin UNIT" {{ CallV "bufUnit" parseUnit; If ErrSet {{ Break }} Skip; Put "Units" "bufUnit" "name" }} (
    Case "/begin USER_RIGHTS" {{ CallV "bufUserRights" parseUserRights; If ErrSet {{ Break }} Skip; Put "userRights" "bufUserRights" "userLevelId" }} (
    Case "/begin VARIANT_CODING" {{ CallF "variantCoding" parseVariantCoding; If ErrSet {{ Break }} Skip }} (
    Default)))))))))))))))))))))))))))
    {{ If (CurIs "") {{ Raise; Break }}
      {{ If (CurIs "/end MODULE") {{ Break }}
      {{ If CurKw {{ Raise; Break }}
      {{ If (NotSet "nameSet") {{ Set_ "Name" Cur; Set_ "nameSet" Tru }}
      {{ If (NotSet "longIdentifierSet") {{ Set_ "longIdentifier" Cur; Set_ "longIdentifierSet" Tru }} Skip }} }} }} }} }} }}.

(** project.go 18-68 *)
Definition parseProject : fn := Loop
  Skip
  {{ Switch FromNext (
    Case "/begin HEADER" {{ CallF "header" parseHeader; If ErrSet {{ Break }} Skip }} (
    Case "/begin MODULE" {{ CallV "buf" parseModule; If ErrSet {{ Break }} Skip; App "Modules" (Var "buf") }} (
    Default)))
    {{ If (CurIs "") {{ Raise; Break }}
      {{ If (CurIs "/end PROJECT") {{ Break }}
      {{ If CurKw {{ Raise; Break }}
      {{ If (NotSet "nameSet") {{ Set_ "Name" Cur; Set_ "nameSet" Tru }}
      {{ If (NotSet "longIdentifierSet") {{ Set_ "longIdentifier" Cur; Set_ "longIdentifierSet" Tru }} Skip }} }} }} }} }} }}.

(** a2l.go 90-131 *)
Definition parseA2l : fn := Loop
  Skip
  {{ Switch FromCur (
    Case "ASAP2_VERSION" {{ CallF "Asap2Version" parseASAP2Version; If ErrSet {{ Break }} Skip }} (
    Case "A2ML_VERSION" {{ CallF "A2mlVersion" parseA2MLVersion; If ErrSet {{ Break }} Skip }} (
    Case "/begin PROJECT" {{ CallF "Project" parseProject; If ErrSet {{ Break }} Skip }} (
    Default))))
    {{ If (CurIs "") {{ Break }} {{ If CurKw {{ Raise; Break }} Skip }} }};
     Next }}.

(** All of them. *)
Definition allParsers : list (string * fn) := [
  ("parseEncodingEnum", parseEncodingEnum);
  ("parseDataTypeEnum", parseDataTypeEnum);
  ("parseDataSizeEnum", parseDataSizeEnum);
  ("parseAddrTypeEnum", parseAddrTypeEnum);
  ("parseByteOrderEnum", parseByteOrderEnum);
  ("parseIndexOrderEnum", parseIndexOrderEnum);
  ("parseAttributeEnum", parseAttributeEnum);
  ("parseCalibrationAccessEnum", parseCalibrationAccessEnum);
  ("parseTypeEnum", parseTypeEnum);
  ("parseConversionTypeEnum", parseConversionTypeEnum);
  ("parseIndexModeEnum", parseIndexModeEnum);
  ("parseModeEnum", parseModeEnum);
  ("parsePrgTypeEnum", parsePrgTypeEnum);
  ("parseMemoryTypeEnum", parseMemoryTypeEnum);
  ("parseMonotonyTypeEnum", parseMonotonyTypeEnum);
  ("parseTagEnum", parseTagEnum);
  ("parseTriggerEnum", parseTriggerEnum);
  ("parseA2MLVersion", parseA2MLVersion);
  ("parseASAP2Version", parseASAP2Version);
  ("parseProjectNo", parseProjectNo);
  ("parseVersion", parseVersion);
  ("parseHeader", parseHeader);
  ("parseA2ML", parseA2ML);
  ("parseAnnotationLabel", parseAnnotationLabel);
  ("parseAnnotationOrigin", parseAnnotationOrigin);
  ("parseAnnotationText", parseAnnotationText);
  ("parseAnnotation", parseAnnotation);
  ("parseByteOrder", parseByteOrder);
  ("parseDeposit", parseDeposit);
  ("parseDisplayIdentifier", parseDisplayIdentifier);
  ("parseECUAddressExtension", parseECUAddressExtension);
  ("parseExtendedLimits", parseExtendedLimits);
  ("parseFormat", parseFormat);
  ("parseFunctionList", parseFunctionList);
  ("parseGuardRails", parseGuardRails);
  ("parseIfData", parseIfData);
  ("parseModelLink", parseModelLink);
  ("parseMonotony", parseMonotony);
  ("parsePhysUnit", parsePhysUnit);
  ("parseReadOnly", parseReadOnly);
  ("parseRefMemorySegment", parseRefMemorySegment);
  ("parseStepSize", parseStepSize);
  ("parseSymbolLink", parseSymbolLink);
  ("parseAxisPts", parseAxisPts);
  ("parseMaxRefresh", parseMaxRefresh);
  ("parseBlob", parseBlob);
  ("parseAxisPtsRef", parseAxisPtsRef);
  ("parseCurveAxisRef", parseCurveAxisRef);
  ("parseFixAxisPar", parseFixAxisPar);
  ("parseFixAxisParDist", parseFixAxisParDist);
  ("parseFixAxisParList", parseFixAxisParList);
  ("parseMaxGrad", parseMaxGrad);
  ("parseAxisDescr", parseAxisDescr);
  ("parseBitMask", parseBitMask);
  ("parseComparisonQuantity", parseComparisonQuantity);
  ("parseDependentCharacteristic", parseDependentCharacteristic);
  ("parseDiscrete", parseDiscrete);
  ("parseMapList", parseMapList);
  ("parseMatrixDim", parseMatrixDim);
  ("parseNumber", parseNumber);
  ("parseVirtualCharacteristic", parseVirtualCharacteristic);
  ("parseCharacteristic", parseCharacteristic);
  ("parseCoeffs", parseCoeffs);
  ("parseCoeffsLinear", parseCoeffsLinear);
  ("parseCompuTabRef", parseCompuTabRef);
  ("parseFormulaInv", parseFormulaInv);
  ("parseFormula", parseFormula);
  ("parseRefUnit", parseRefUnit);
  ("parseStatusStringRef", parseStatusStringRef);
  ("parseCompuMethod", parseCompuMethod);
  ("parseDefaultValue", parseDefaultValue);
  ("parseDefaultValueNumeric", parseDefaultValueNumeric);
  ("parseCompuTab", parseCompuTab);
  ("parseCompuVtab", parseCompuVtab);
  ("parseCompuVtabRange", parseCompuVtabRange);
  ("parseFrameMeasurement", parseFrameMeasurement);
  ("parseFrame", parseFrame);
  ("parseArPrototypeOf", parseArPrototypeOf);
  ("parseArComponent", parseArComponent);
  ("parseDefCharacteristic", parseDefCharacteristic);
  ("parseFunctionVersion", parseFunctionVersion);
  ("parseInMeasurement", parseInMeasurement);
  ("parseLocMeasurement", parseLocMeasurement);
  ("parseOutMeasurement", parseOutMeasurement);
  ("parseRefCharacteristic", parseRefCharacteristic);
  ("parseSubFunction", parseSubFunction);
  ("parseFunction", parseFunction);
  ("parseRefMeasurement", parseRefMeasurement);
  ("parseRoot", parseRoot);
  ("parseSubGroup", parseSubGroup);
  ("parseGroup", parseGroup);
  ("parseLimits", parseLimits);
  ("parseOverwrite", parseOverwrite);
  ("parseReadWrite", parseReadWrite);
  ("parseInstance", parseInstance);
  ("parseArraySize", parseArraySize);
  ("parseLeftShift", parseLeftShift);
  ("parseRightShift", parseRightShift);
  ("parseSignExtend", parseSignExtend);
  ("parseBitOperation", parseBitOperation);
  ("parseEcuAddress", parseEcuAddress);
  ("parseErrorMask", parseErrorMask);
  ("parseLayout", parseLayout);
  ("parseVirtual", parseVirtual);
  ("parseMeasurement", parseMeasurement);
  ("parseAlignmentByte", parseAlignmentByte);
  ("parseAlignmentFloat16Ieee", parseAlignmentFloat16Ieee);
  ("parseAlignmentFloat32Ieee", parseAlignmentFloat32Ieee);
  ("parseAlignmentFloat64Ieee", parseAlignmentFloat64Ieee);
  ("parseAlignmentInt64", parseAlignmentInt64);
  ("parseAlignmentLong", parseAlignmentLong);
  ("parseAlignmentWord", parseAlignmentWord);
  ("parseDataSize", parseDataSize);
  ("parseModCommon", parseModCommon);
  ("parseAddrEpk", parseAddrEpk);
  ("parseCalibrationHandleText", parseCalibrationHandleText);
  ("parseCalibrationHandle", parseCalibrationHandle);
  ("parseCalibrationMethod", parseCalibrationMethod);
  ("parseCpuType", parseCpuType);
  ("parseCustomer", parseCustomer);
  ("parseCustomerNo", parseCustomerNo);
  ("parseEcu", parseEcu);
  ("parseEcuCalibrationOffset", parseEcuCalibrationOffset);
  ("parseEpk", parseEpk);
  ("parseMemoryLayout", parseMemoryLayout);
  ("parseMemorySegment", parseMemorySegment);
  ("parseNoOfInterfaces", parseNoOfInterfaces);
  ("parsePhoneNo", parsePhoneNo);
  ("parseSupplier", parseSupplier);
  ("parseSystemConstant", parseSystemConstant);
  ("parseUser", parseUser);
  ("parseModPar", parseModPar);
  ("parseAxisPts4", parseAxisPts4);
  ("parseAxisPts5", parseAxisPts5);
  ("parseAxisPtsX", parseAxisPtsX);
  ("parseAxisPtsY", parseAxisPtsY);
  ("parseAxisPtsZ", parseAxisPtsZ);
  ("parseAxisRescaleX", parseAxisRescaleX);
  ("parseDistOp4", parseDistOp4);
  ("parseDistOp5", parseDistOp5);
  ("parseDistOpX", parseDistOpX);
  ("parseDistOpY", parseDistOpY);
  ("parseDistOpZ", parseDistOpZ);
  ("parseFixNoAxisPts4", parseFixNoAxisPts4);
  ("parseFixNoAxisPts5", parseFixNoAxisPts5);
  ("parseFixNoAxisPtsX", parseFixNoAxisPtsX);
  ("parseFixNoAxisPtsY", parseFixNoAxisPtsY);
  ("parseFixNoAxisPtsZ", parseFixNoAxisPtsZ);
  ("parseFncValues", parseFncValues);
  ("parseIdentification", parseIdentification);
  ("parseNoAxisPts4", parseNoAxisPts4);
  ("parseNoAxisPts5", parseNoAxisPts5);
  ("parseNoAxisPtsX", parseNoAxisPtsX);
  ("parseNoAxisPtsY", parseNoAxisPtsY);
  ("parseNoAxisPtsZ", parseNoAxisPtsZ);
  ("parseNoRescaleX", parseNoRescaleX);
  ("parseOffset4", parseOffset4);
  ("parseOffset5", parseOffset5);
  ("parseOffsetX", parseOffsetX);
  ("parseOffsetY", parseOffsetY);
  ("parseOffsetZ", parseOffsetZ);
  ("parseReserved", parseReserved);
  ("parseRipAddr4", parseRipAddr4);
  ("parseRipAddr5", parseRipAddr5);
  ("parseRipAddrW", parseRipAddrW);
  ("parseRipAddrX", parseRipAddrX);
  ("parseRipAddrY", parseRipAddrY);
  ("parseRipAddrZ", parseRipAddrZ);
  ("parseShiftOp4", parseShiftOp4);
  ("parseShiftOp5", parseShiftOp5);
  ("parseShiftOpX", parseShiftOpX);
  ("parseShiftOpY", parseShiftOpY);
  ("parseShiftOpZ", parseShiftOpZ);
  ("parseSrcAddr4", parseSrcAddr4);
  ("parseSrcAddr5", parseSrcAddr5);
  ("parseSrcAddrX", parseSrcAddrX);
  ("parseSrcAddrY", parseSrcAddrY);
  ("parseSrcAddrZ", parseSrcAddrZ);
  ("parseStaticAddressOffsets", parseStaticAddressOffsets);
  ("parseStaticRecordLayout", parseStaticRecordLayout);
  ("parseRecordLayout", parseRecordLayout);
  ("parseTransformerInObject", parseTransformerInObject);
  ("parseTransformerOutObject", parseTransformerOutObject);
  ("parseTransformer", parseTransformer);
  ("parseTypeDefAxis", parseTypeDefAxis);
  ("parseTypeDefBlob", parseTypeDefBlob);
  ("parseTypeDefCharacteristic", parseTypeDefCharacteristic);
  ("parseTypeDefMeasurement", parseTypeDefMeasurement);
  ("parseConsistentExchangeKeyword", parseConsistentExchangeKeyword);
  ("parseSymbolTypeLink", parseSymbolTypeLink);
  ("parseStructureComponent", parseStructureComponent);
  ("parseTypeDefStructure", parseTypeDefStructure);
  ("parseSiExponents", parseSiExponents);
  ("parseUnitConversion", parseUnitConversion);
  ("parseUnit", parseUnit);
  ("parseRefGroup", parseRefGroup);
  ("parseUserRights", parseUserRights);
  ("parseVarAddress", parseVarAddress);
  ("parseVarCharacteristic", parseVarCharacteristic);
  ("parseVarMeasurement", parseVarMeasurement);
  ("parseVarSelectionCharacteristic", parseVarSelectionCharacteristic);
  ("parseVarCriterion", parseVarCriterion);
  ("parseVarForbiddenComb", parseVarForbiddenComb);
  ("parseVarNaming", parseVarNaming);
  ("parseVarSeparator", parseVarSeparator);
  ("parseVariantCoding", parseVariantCoding);
  ("parseModule", parseModule);
  ("parseProject", parseProject);
  ("parseA2l", parseA2l)].
