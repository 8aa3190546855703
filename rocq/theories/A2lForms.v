(** The syntax of the ASAP2 objects.  Written by tools/gen_forms.py from the
    struct declarations of package a2l. *)
From Coq Require Import String List NArith.
From Verif Require Import GoBase A2lIR A2lGrammar.
Import ListNotations.
Local Open Scope string_scope.

(** enums.go, type AddrTypeEnum *)
Definition addrTypeTexts : list string :=
  ["PBYTE"; "PWORD"; "PLONG"; "PLONGLONG"; "DIRECT"].

(** enums.go, type ByteOrderEnum *)
Definition byteOrderTexts : list string :=
  ["LITTLE_ENDIAN"; "BIG_ENDIAN"; "MSB_LAST"; "MSB_FIRST"; "MSB_FIRST_MSW_LAST"; "MSB_LAST_MSW_FIRST"].

(** enums.go, type DataSizeEnum *)
Definition dataSizeTexts : list string :=
  ["BYTE"; "WORD"; "LONG"].

(** enums.go, type DataTypeEnum *)
Definition dataTypeTexts : list string :=
  ["UBYTE"; "SBYTE"; "UWORD"; "SWORD"; "ULONG"; "SLONG"; "A_UINT64"; "A_INT64"; "FLOAT16_IEEE"; "FLOAT32_IEEE"; "FLOAT64_IEEE"].

(** enums.go, type TypeEnum *)
Definition typeTexts : list string :=
  ["ASCII"; "CURVE"; "MAP"; "CUBOID"; "CUBE_4"; "CUBE_5"; "VAL_BLK"; "VALUE"; "DERIVED"; "EXTENDED_SI"].

(** enums.go, type attributeEnum *)
Definition attributeTexts : list string :=
  ["CURVE_AXIS"; "COM_AXIS"; "FIX_AXIS"; "RES_AXIS"; "STD_AXIS"; "INTERN"; "EXTERN"].

(** enums.go, type calibrationAccessEnum *)
Definition calibrationAccessTexts : list string :=
  ["CALIBRATION"; "NO_CALIBRATION"; "NOT_IN_MCD_SYSTEM"; "OFFLINE_CALIBRATION"].

(** enums.go, type conversionTypeEnum *)
Definition conversionTypeTexts : list string :=
  ["IDENTICAL"; "FORM"; "LINEAR"; "RAT_FUNC"; "TAB_INTP"; "TAB_NOINTP"; "TAB_VERB"].

(** enums.go, type encodingEnum *)
Definition encodingTexts : list string :=
  ["UTF8"; "UTF16"; "UTF32"].

(** enums.go, type indexModeEnum *)
Definition indexModeTexts : list string :=
  ["ALTERNATE_CURVES"; "ALTERNATE_WITH_X"; "ALTERNATE_WITH_Y"; "COLUMN_DIR"; "ROW_DIR"].

(** enums.go, type indexOrderEnum *)
Definition indexOrderTexts : list string :=
  ["INDEX_INCR"; "INDEX_DECR"].

(** enums.go, type memoryTypeEnum *)
Definition memoryTypeTexts : list string :=
  ["EEPROM"; "EPROM"; "FLASH"; "RAM"; "ROM"; "REGISTER"; "NOT_IN_ECU"].

(** enums.go, type modeEnum *)
Definition modeTexts : list string :=
  ["ABSOLUTE"; "DIFFERENCE"].

(** enums.go, type monotonyTypeEnum *)
Definition monotonyTypeTexts : list string :=
  ["MON_DECREASE"; "MON_INCREASE"; "STRICT_DECREASE"; "STRICT_INCREASE"; "MONOTONOUS"; "STRICT_MON"; "NOT_MON"].

(** enums.go, type prgTypeEnum *)
Definition prgTypeTexts : list string :=
  ["PRG_CODE"; "PRG_DATA"; "PRG_RESERVED"; "CALIBRATION_VARIABLES"; "CODE"; "DATA"; "EXCLUDE_FROM_FLASH"; "OFFLINE_DATA"; "RESERVED"; "SERAM"; "VARIABLES"].

(** enums.go, type tagEnum *)
Definition tagTexts : list string :=
  ["NUMERIC"].

(** enums.go, type triggerEnum *)
Definition triggerTexts : list string :=
  ["ON_CHANGE"; "ON_USER_REQUEST"].

(** those that parseAddrTypeEnum knows *)
Definition addrTypeRead : list string := ["PBYTE"; "PWORD"; "PLONG"; "DIRECT"].

(** those that are not in the list of keywords (tokens.go) *)
Definition indexModeRead : list string := ["COLUMN_DIR"; "ROW_DIR"].

(** a2ml.go *)
Definition a2mlForm : form :=
  Block []
    []
    (Free [Param Concat "formatSpecification" None Any])
    []
    "/end A2ML" [("formatSpecificationSet", CTrue)].

(** a2ml_version.go *)
Definition a2mlVersionForm : form :=
  Fixed [P "VersionNo" "versionNoSet" (Number (NUint 16));
      P "UpgradeNo" "upgradeNoSet" (Number (NUint 16))] [].

(** addr_epk.go *)
Definition addrEpkForm : form :=
  Fixed [P "address" "addressSet" (Text)] [].

(** alignment_byte.go *)
Definition alignmentByteForm : form :=
  Fixed [P "AlignmentBorder" "AlignmentBorderSet" (Number (NUint 16))] [].

(** alignment_float16_ieee.go *)
Definition alignmentFloat16IeeeForm : form :=
  Fixed [P "AlignmentBorder" "AlignmentBorderSet" (Number (NUint 16))] [].

(** alignment_float32_ieee.go *)
Definition alignmentFloat32IeeeForm : form :=
  Fixed [P "AlignmentBorder" "AlignmentBorderSet" (Number (NUint 16))] [].

(** alignment_float64_ieee.go *)
Definition alignmentFloat64IeeeForm : form :=
  Fixed [P "AlignmentBorder" "AlignmentBorderSet" (Number (NUint 16))] [].

(** alignment_int64.go *)
Definition alignmentInt64Form : form :=
  Fixed [P "AlignmentBorder" "AlignmentBorderSet" (Number (NUint 16))] [].

(** alignment_long.go *)
Definition alignmentLongForm : form :=
  Fixed [P "AlignmentBorder" "AlignmentBorderSet" (Number (NUint 16))] [].

(** alignment_word.go *)
Definition alignmentWordForm : form :=
  Fixed [P "AlignmentBorder" "AlignmentBorderSet" (Number (NUint 16))] [].

(** annotation_label.go *)
Definition annotationLabelForm : form :=
  Fixed [P "label" "labelSet" (Text)] [].

(** annotation_origin.go *)
Definition annotationOriginForm : form :=
  Fixed [P "origin" "originSet" (Text)] [].

(** annotation_text.go *)
Definition annotationTextForm : form :=
  Block []
    []
    (Free [Param Concat "annotationText" None Text])
    []
    "/end ANNOTATION_TEXT" [("annotationTextSet", CTrue)].

(** annotation.go *)
Definition annotationForm : form :=
  Block []
    []
    NoGroup
    [Item "ANNOTATION_LABEL" "annotationLabel" Single annotationLabelForm;
      Item "ANNOTATION_ORIGIN" "annotationOrigin" Single annotationOriginForm;
      Item "/begin ANNOTATION_TEXT" "annotationText" Several annotationTextForm]
    "/end ANNOTATION" [].

(** ar_prototype_of.go *)
Definition arPrototypeOfForm : form :=
  Fixed [P "name" "nameSet" (Text)] [].

(** ar_component.go *)
Definition arComponentForm : form :=
  Block []
    [P "componentType" "componentTypeSet" (Text)]
    NoGroup
    [Item "AR_PROTOTYPE_OF" "arPrototypeOf" Single arPrototypeOfForm]
    "/end AR_COMPONENT" [].

(** array_size.go *)
Definition arraySizeForm : form :=
  Fixed [P "number" "numberSet" (Number (NUint 16))] [].

(** asap2_version.go *)
Definition asap2VersionForm : form :=
  Fixed [P "versionNo" "versionNoSet" (Number (NUint 16));
      P "upgradeNo" "upgradeNoSet" (Number (NUint 16))] [].

(** axis_pts_ref.go *)
Definition axisPtsRefForm : form :=
  Fixed [P "axisPoints" "axisPointsSet" (Text)] [].

(** byte_order.go *)
Definition byteOrderForm : form :=
  Fixed [P "ByteOrder" "ByteOrderSet" (Choice byteOrderTexts)] [].

(** curve_axis_ref.go *)
Definition curveAxisRefForm : form :=
  Fixed [P "curveAxis" "curveAxisSet" (Text)] [].

(** deposit.go *)
Definition depositForm : form :=
  Fixed [P "mode" "modeSet" (Choice modeTexts)] [].

(** extended_limits.go *)
Definition extendedLimitsForm : form :=
  Fixed [P "lowerLimit" "lowerLimitSet" (Number NFloat);
      P "upperLimit" "upperLimitSet" (Number NFloat)] [].

(** fix_axis_par.go *)
Definition fixAxisParForm : form :=
  Fixed [P "offset" "offsetSet" (Number (NInt 16));
      P "shift" "shiftSet" (Number (NInt 16));
      P "numberapo" "numberapoSet" (Number (NUint 16))] [].

(** fix_axis_par_dist.go *)
Definition fixAxisParDistForm : form :=
  Fixed [P "offset" "offsetSet" (Number (NInt 16));
      P "distance" "distanceSet" (Number (NInt 16));
      P "numberapo" "numberapoSet" (Number (NUint 16))] [].

(** fix_axis_par_list.go *)
Definition fixAxisParListForm : form :=
  Block []
    []
    (Free [Param Append "axisPtsValue" None (Number NFloat)])
    []
    "/end FIX_AXIS_PAR_LIST" [("axisPtsValueSet", CTrue)].

(** format.go *)
Definition formatForm : form :=
  Fixed [P "formatString" "formatStringSet" (Text)] [].

(** max_grad.go *)
Definition maxGradForm : form :=
  Fixed [P "maxGradient" "maxGradientSet" (Number NFloat)] [].

(** monotony.go *)
Definition monotonyForm : form :=
  Fixed [P "monotony" "monotonySet" (Choice monotonyTypeTexts)] [].

(** phys_unit.go *)
Definition physUnitForm : form :=
  Fixed [P "unit" "unitSet" (Text)] [].

(** read_only.go *)
Definition readOnlyForm : form :=
  Fixed [] [("value", CTrue); ("valueSet", CTrue)].

(** step_size.go *)
Definition stepSizeForm : form :=
  Fixed [P "stepSize" "stepSizeSet" (Number NFloat)] [].

(** axis_descr.go *)
Definition axisDescrForm : form :=
  Block []
    [P "attribute" "attributeSet" (Choice attributeTexts);
      P "inputQuantity" "inputQuantitySet" (Text);
      P "conversion" "conversionSet" (Text);
      P "maxAxisPoints" "maxAxisPointsSet" (Number (NUint 16));
      P "lowerLimit" "lowerLimitSet" (Number NFloat);
      P "upperLimit" "upperLimitSet" (Number NFloat)]
    NoGroup
    [Item "/begin ANNOTATION" "annotation" Several annotationForm;
      Item "AXIS_PTS_REF" "axisPtsRef" Single axisPtsRefForm;
      Item "BYTE_ORDER" "byteOrder" Single byteOrderForm;
      Item "CURVE_AXIS_REF" "curveAxisRef" Single curveAxisRefForm;
      Item "DEPOSIT" "deposit" Single depositForm;
      Item "EXTENDED_LIMITS" "extendedLimits" Single extendedLimitsForm;
      Item "FIX_AXIS_PAR" "fixAxisPar" Single fixAxisParForm;
      Item "FIX_AXIS_PAR_DIST" "fixAxisParDist" Single fixAxisParDistForm;
      Item "/begin FIX_AXIS_PAR_LIST" "fixAxisParList" Several fixAxisParListForm;
      Item "FORMAT" "format" Single formatForm;
      Item "MAX_GRAD" "maxGrad" Single maxGradForm;
      Item "MONOTONY" "monotony" Single monotonyForm;
      Item "PHYS_UNIT" "physUnit" Single physUnitForm;
      Item "READ_ONLY" "readOnly" Single readOnlyForm;
      Item "STEP_SIZE" "stepSize" Single stepSizeForm]
    "/end AXIS_DESCR" [].

(** display_identifier.go *)
Definition displayIdentifierForm : form :=
  Fixed [P "displayName" "displayNameSet" (Text)] [].

(** ecu_address_extension.go *)
Definition ecuAddressExtensionForm : form :=
  Fixed [P "extension" "extensionSet" (Number (NInt 16))] [].

(** function_list.go *)
Definition functionListForm : form :=
  Block []
    []
    (Free [Param Append "name" None (Text)])
    []
    "/end FUNCTION_LIST" [("nameSet", CTrue)].

(** guard_rails.go *)
Definition guardRailsForm : form :=
  Fixed [] [("value", CTrue); ("valueSet", CTrue)].

(** if_data.go *)
Definition ifDataForm : form :=
  Block []
    [P "name" "nameSet" (Any)]
    (Free [Param Append "data" None (Any)])
    []
    "/end IF_DATA" [("dataSet", CTrue)].

(** model_link.go *)
Definition modelLinkForm : form :=
  Fixed [P "modelName" "modelNameSet" (Text)] [].

(** ref_memory_segment.go *)
Definition refMemorySegmentForm : form :=
  Fixed [P "name" "nameSet" (Text)] [].

(** symbol_link.go *)
Definition symbolLinkForm : form :=
  Fixed [P "symbolName" "symbolNameSet" (Text);
      P "offset" "offsetSet" (Number (NInt 32))] [].

(** axis_pts.go *)
Definition axisPtsForm : form :=
  Block []
    [P "name" "nameSet" (Text);
      P "longIdentifier" "longIdentifierSet" (Text);
      P "address" "addressSet" (Text);
      P "inputQuantity" "inputQuantitySet" (Text);
      P "depositIdent" "depositIdentSet" (Text);
      P "maxDiff" "maxDiffSet" (Number NFloat);
      P "conversion" "conversionSet" (Text);
      P "maxAxisPoints" "maxAxisPointsSet" (Number (NUint 16));
      P "lowerLimit" "lowerLimitSet" (Number NFloat);
      P "upperLimit" "upperLimitSet" (Number NFloat)]
    NoGroup
    [Item "/begin ANNOTATION" "annotation" Several annotationForm;
      Item "BYTE_ORDER" "byteOrder" Single byteOrderForm;
      Item "CALIBRATION_ACCESS" "calibrationAccess" Single (Value (Choice calibrationAccessTexts));
      Item "DEPOSIT" "deposit" Single depositForm;
      Item "DISPLAY_IDENTIFIER" "displayIdentifier" Single displayIdentifierForm;
      Item "ECU_ADDRESS_EXTENSION" "ecuAddressExtension" Single ecuAddressExtensionForm;
      Item "EXTENDED_LIMITS" "extendedLimits" Single extendedLimitsForm;
      Item "FORMAT" "format" Single formatForm;
      Item "/begin FUNCTION_LIST" "functionList" Several functionListForm;
      Item "GUARD_RAILS" "guardRails" Single guardRailsForm;
      Item "/begin IF_DATA" "ifData" Several ifDataForm;
      Item "MONOTONY" "monotony" Single monotonyForm;
      Item "MODEL_LINK" "modelLink" Single modelLinkForm;
      Item "PHYS_UNIT" "physUnit" Single physUnitForm;
      Item "READ_ONLY" "readOnly" Single readOnlyForm;
      Item "REF_MEMORY_SEGMENT" "refMemorySegment" Single refMemorySegmentForm;
      Item "STEP_SIZE" "stepSize" Single stepSizeForm;
      Item "SYMBOL_LINK" "symbolLink" Single symbolLinkForm]
    "/end AXIS_PTS" [].

(** axis_pts_4.go *)
Definition axisPts4Form : form :=
  Fixed [P "Position" "PositionSet" (Number (NUint 16));
      P "Datatype" "DatatypeSet" (Choice dataTypeTexts);
      P "IndexIncr" "IndexIncrSet" (Choice indexOrderTexts);
      P "Addressing" "AddressingSet" (Choice addrTypeTexts)] [].

(** axis_pts_5.go *)
Definition axisPts5Form : form :=
  Fixed [P "Position" "PositionSet" (Number (NUint 16));
      P "Datatype" "DatatypeSet" (Choice dataTypeTexts);
      P "IndexIncr" "IndexIncrSet" (Choice indexOrderTexts);
      P "Addressing" "AddressingSet" (Choice addrTypeTexts)] [].

(** axis_pts_x.go *)
Definition axisPtsXForm : form :=
  Fixed [P "Position" "PositionSet" (Number (NUint 16));
      P "Datatype" "DatatypeSet" (Choice dataTypeTexts);
      P "IndexIncr" "IndexIncrSet" (Choice indexOrderTexts);
      P "Addressing" "AddressingSet" (Choice addrTypeTexts)] [].

(** axis_pts_y.go *)
Definition axisPtsYForm : form :=
  Fixed [P "Position" "PositionSet" (Number (NUint 16));
      P "Datatype" "DatatypeSet" (Choice dataTypeTexts);
      P "IndexIncr" "IndexIncrSet" (Choice indexOrderTexts);
      P "Addressing" "AddressingSet" (Choice addrTypeTexts)] [].

(** axis_pts_z.go *)
Definition axisPtsZForm : form :=
  Fixed [P "Position" "PositionSet" (Number (NUint 16));
      P "Datatype" "DatatypeSet" (Choice dataTypeTexts);
      P "IndexIncr" "IndexIncrSet" (Choice indexOrderTexts);
      P "Addressing" "AddressingSet" (Choice addrTypeTexts)] [].

(** axis_rescale_x.go *)
Definition axisRescaleXForm : form :=
  Fixed [P "Position" "PositionSet" (Number (NUint 16));
      P "Datatype" "DatatypeSet" (Choice dataTypeTexts);
      P "MaxNumberOfRescalePairs" "MaxNumberOfRescalePairsSet" (Number (NUint 16));
      P "IndexIncr" "IndexIncrSet" (Choice indexOrderTexts);
      P "Adressing" "AdressingSet" (Choice addrTypeTexts)] [].

(** bit_mask.go *)
Definition bitMaskForm : form :=
  Fixed [P "mask" "maskSet" (Text)] [].

(** left_shift.go *)
Definition leftShiftForm : form :=
  Fixed [P "bitcount" "bitcountSet" (Number (NUint 32))] [].

(** right_shift.go *)
Definition rightShiftForm : form :=
  Fixed [P "bitcount" "bitcountSet" (Number (NUint 32))] [].

(** sign_extend.go *)
Definition signExtendForm : form :=
  Fixed [] [("value", CTrue); ("valueSet", CTrue)].

(** bit_operation.go *)
Definition bitOperationForm : form :=
  Block []
    []
    NoGroup
    [Item "LEFT_SHIFT" "leftShift" Single leftShiftForm;
      Item "RIGHT_SHIFT" "rightShift" Single rightShiftForm;
      Item "SIGN_EXTEND" "signExtend" Single signExtendForm]
    "/end BIT_OPERATION" [].

(** max_refresh.go *)
Definition maxRefreshForm : form :=
  Fixed [P "scalingUnit" "scalingUnitSet" (Number (NUint 16));
      P "rate" "rateSet" (Number (NUint 32))] [].

(** blob.go *)
Definition blobForm : form :=
  Block []
    [P "name" "nameSet" (Text);
      P "longIdentifier" "longIdentifierSet" (Text);
      P "address" "addressSet" (Text);
      P "size" "sizeSet" (Number (NUint 32))]
    NoGroup
    [Item "ADDRESS_TYPE" "addressType" Single (Value (Choice addrTypeTexts));
      Item "/begin ANNOTATION" "annotation" Several annotationForm;
      Item "CALIBRATION_ACCESS" "calibrationAccess" Single (Value (Choice calibrationAccessTexts));
      Item "DISPLAY_IDENTIFIER" "displayIdentifier" Single displayIdentifierForm;
      Item "ECU_ADDRESS_EXTENSION" "ecuAddressExtension" Single ecuAddressExtensionForm;
      Item "/begin IF_DATA" "IfData" Several ifDataForm;
      Item "MAX_REFRESH" "maxRefresh" Single maxRefreshForm;
      Item "MODEL_LINK" "modelLink" Single modelLinkForm;
      Item "SYMBOL_LINK" "symbolLink" Single symbolLinkForm]
    "/end BLOB" [].

(** calibration_handle_text.go *)
Definition calibrationHandleTextForm : form :=
  Fixed [P "text" "textSet" (Text)] [].

(** calibration_handle.go *)
Definition calibrationHandleForm : form :=
  Block []
    []
    (Free [Param Append "handle" None (Text)])
    [Item "CALIBRATION_HANDLE_TEXT" "calibrationHandleText" Single calibrationHandleTextForm]
    "/end CALIBRATION_HANDLE" [("handleSet", CTrue)].

(** calibration_method.go *)
Definition calibrationMethodForm : form :=
  Block []
    [P "method" "methodSet" (Text);
      P "version" "versionSet" (Number (NUint 32))]
    NoGroup
    [Item "/begin CALIBRATION_HANDLE" "calibrationHandle" Several calibrationHandleForm]
    "/end CALIBRATION_METHOD" [].

(** comparison_quantity.go *)
Definition comparisonQuantityForm : form :=
  Fixed [P "name" "nameSet" (Text)] [].

(** dependent_characteristic.go *)
Definition dependentCharacteristicForm : form :=
  Block []
    [P "formula" "formulaSet" (Text)]
    (Free [Param Append "characteristic" None (Text)])
    []
    "/end DEPENDENT_CHARACTERISTIC" [("characteristicSet", CTrue)].

(** discrete.go *)
Definition discreteForm : form :=
  Fixed [] [("value", CTrue); ("valueSet", CTrue)].

(** map_list.go *)
Definition mapListForm : form :=
  Block []
    []
    (Free [Param Append "name" None (Text)])
    []
    "/end MAP_LIST" [("nameSet", CTrue)].

(** matrix_dim.go *)
Definition matrixDimForm : form :=
  Fixed [P "DimX" "DimXSet" (Number (NUint 16));
      P "DimY" "DimYSet" (Number (NUint 16));
      P "DimZ" "DimZSet" (Number (NUint 16));
      P "Dim4" "Dim4Set" (Number (NUint 16));
      P "Dim5" "Dim5Set" (Number (NUint 16))] [].

(** number.go *)
Definition numberForm : form :=
  Fixed [P "number" "numberSet" (Number (NUint 16))] [].

(** virtual_characteristic.go *)
Definition virtualCharacteristicForm : form :=
  Block []
    [P "formula" "formulaSet" (Text)]
    (Free [Param Append "characteristic" None (Text)])
    []
    "/end VIRTUAL_CHARACTERISTIC" [("characteristicSet", CTrue)].

(** characteristic.go *)
Definition characteristicForm : form :=
  Block []
    [P "Name" "nameSet" (Text);
      P "LongIdentifier" "longIdentifierSet" (Text);
      P "Type" "TypeSet" (Choice typeTexts);
      P "Address" "addressSet" (Text);
      P "Deposit" "DepositSet" (Text);
      P "maxDiff" "maxDiffSet" (Number NFloat);
      P "conversion" "conversionSet" (Text);
      P "lowerLimit" "lowerLimitSet" (Number NFloat);
      P "upperLimit" "upperLimitSet" (Number NFloat)]
    NoGroup
    [Item "ENCODING" "encoding" Single (Value (Choice encodingTexts));
      Item "/begin ANNOTATION" "annotation" Several annotationForm;
      Item "/begin AXIS_DESCR" "axisDescr" Several axisDescrForm;
      Item "BIT_MASK" "bitMask" Single bitMaskForm;
      Item "BYTE_ORDER" "byteOrder" Single byteOrderForm;
      Item "CALIBRATION_ACCESS" "calibrationAccess" Single (Value (Choice calibrationAccessTexts));
      Item "COMPARISON_QUANTITY" "comparisonQuantity" Single comparisonQuantityForm;
      Item "/begin DEPENDENT_CHARACTERISTIC" "dependentCharacteristic" Several dependentCharacteristicForm;
      Item "DISCRETE" "discrete" Single discreteForm;
      Item "DISPLAY_IDENTIFIER" "displayIdentifier" Single displayIdentifierForm;
      Item "ECU_ADDRESS_EXTENSION" "ecuAddressExtension" Single ecuAddressExtensionForm;
      Item "EXTENDED_LIMITS" "extendedLimits" Single extendedLimitsForm;
      Item "FORMAT" "format" Single formatForm;
      Item "/begin FUNCTION_LIST" "functionList" Several functionListForm;
      Item "GUARD_RAILS" "guardRails" Single guardRailsForm;
      Item "/begin IF_DATA" "ifData" Several ifDataForm;
      Item "/begin MAP_LIST" "mapList" Several mapListForm;
      Item "MATRIX_DIM" "MatrixDim" Single matrixDimForm;
      Item "MAX_REFRESH" "maxRefresh" Single maxRefreshForm;
      Item "MODEL_LINK" "modelLink" Single modelLinkForm;
      Item "NUMBER" "number" Single numberForm;
      Item "PHYS_UNIT" "physUnit" Single physUnitForm;
      Item "READ_ONLY" "readOnly" Single readOnlyForm;
      Item "REF_MEMORY_SEGMENT" "refMemorySegment" Single refMemorySegmentForm;
      Item "STEP_SIZE" "stepSize" Single stepSizeForm;
      Item "SYMBOL_LINK" "symbolLink" Single symbolLinkForm;
      Item "/begin VIRTUAL_CHARACTERISTIC" "virtualCharacteristic" Several virtualCharacteristicForm]
    "/end CHARACTERISTIC" [].

(** coeffs.go *)
Definition coeffsForm : form :=
  Fixed [P "A" "ASet" (Number NFloat);
      P "B" "BSet" (Number NFloat);
      P "C" "CSet" (Number NFloat);
      P "D" "DSet" (Number NFloat);
      P "E" "ESet" (Number NFloat);
      P "F" "FSet" (Number NFloat)] [].

(** coeffs_linear.go *)
Definition coeffsLinearForm : form :=
  Fixed [P "A" "ASet" (Number NFloat);
      P "B" "BSet" (Number NFloat)] [].

(** compu_tab_ref.go *)
Definition compuTabRefForm : form :=
  Fixed [P "ConversionTable" "ConversionTableSet" (Text)] [].

(** formula_inv.go *)
Definition formulaInvForm : form :=
  Fixed [P "gx" "gxSet" (Text)] [].

(** formula.go *)
Definition formulaForm : form :=
  Block []
    []
    (Free [Param Append "fx" None (Text)])
    [Item "FORMULA_INV" "formulaInv" Single formulaInvForm]
    "/end FORMULA" [("fxSet", CTrue)].

(** ref_unit.go *)
Definition refUnitForm : form :=
  Fixed [P "unit" "unitSet" (Text)] [].

(** status_string_ref.go *)
Definition statusStringRefForm : form :=
  Fixed [P "ConversionTable" "ConversionTableSet" (Text)] [].

(** compu_method.go *)
Definition compuMethodForm : form :=
  Block []
    [P "Name" "NameSet" (Text);
      P "LongIdentifier" "LongIdentifierSet" (Text);
      P "ConversionType" "ConversionTypeSet" (Choice conversionTypeTexts);
      P "Format" "FormatSet" (Text);
      P "Unit" "UnitSet" (Text)]
    NoGroup
    [Item "COEFFS" "Coeffs" Single coeffsForm;
      Item "COEFFS_LINEAR" "CoeffsLinear" Single coeffsLinearForm;
      Item "COMPU_TAB_REF" "CompuTabRef" Single compuTabRefForm;
      Item "/begin FORMULA" "Formula" Several formulaForm;
      Item "REF_UNIT" "RefUnit" Single refUnitForm;
      Item "STATUS_STRING_REF" "StatusStringRef" Single statusStringRefForm]
    "/end COMPU_METHOD" [].

(** default_value.go *)
Definition defaultValueForm : form :=
  Fixed [P "DisplayString" "DisplayStringSet" (Text)] [].

(** default_value_numeric.go *)
Definition defaultValueNumericForm : form :=
  Fixed [P "DisplayValue" "DisplayValueSet" (Number NFloat)] [].

(** compu_tab.go *)
Definition compuTabForm : form :=
  Block []
    [P "Name" "NameSet" (Text);
      P "longIdentifier" "longIdentifierSet" (Text);
      P "ConversionType" "ConversionTypeSet" (Choice conversionTypeTexts);
      P "NumberValuePairs" "NumberValuePairsSet" (Number (NUint 16))]
    (Counted "NumberValuePairs" [Param Append "InVal" (Some "InValSet") (Number NFloat);
      Param Append "OutVal" (Some "OutValSet") (Number NFloat)])
    [Item "DEFAULT_VALUE" "DefaultValue" Single defaultValueForm;
      Item "DEFAULT_VALUE_NUMERIC" "DefaultValueNumeric" Single defaultValueNumericForm]
    "/end COMPU_TAB" [].

(** compu_vtab.go *)
Definition compuVtabForm : form :=
  Block []
    [P "Name" "NameSet" (Text);
      P "LongIdentifier" "LongIdentifierSet" (Text);
      P "ConversionType" "ConversionTypeSet" (Choice conversionTypeTexts);
      P "NumberValuePairs" "NumberValuePairsSet" (Number (NUint 16))]
    (Counted "NumberValuePairs" [Param Append "InVal" (Some "InValSet") (Number NFloat);
      Param Append "OutVal" (Some "OutValSet") (Text)])
    [Item "DEFAULT_VALUE" "DefaultValue" Single defaultValueForm]
    "/end COMPU_VTAB" [].

(** compu_vtab_range.go *)
Definition compuVtabRangeForm : form :=
  Block []
    [P "Name" "NameSet" (Text);
      P "LongIdentifier" "LongIdentifierSet" (Text);
      P "NumberValueTriples" "NumberValueTriplesSet" (Number (NUint 16))]
    (Counted "NumberValueTriples" [Param Append "InValMin" (Some "InValMinSet") (Number NFloat);
      Param Append "InValMax" (Some "InValMaxSet") (Number NFloat);
      Param Append "OutVal" (Some "OutValSet") (Text)])
    [Item "DEFAULT_VALUE" "DefaultValue" Single defaultValueForm]
    "/end COMPU_VTAB_RANGE" [].

(** consistent_exchange.go *)
Definition consistentExchangeForm : form :=
  Fixed [] [("value", CTrue); ("valueSet", CTrue)].

(** cpu_type.go *)
Definition cpuTypeForm : form :=
  Fixed [P "cpu" "cpuSet" (Text)] [].

(** customer.go *)
Definition customerForm : form :=
  Fixed [P "customer" "customerSet" (Text)] [].

(** customer_no.go *)
Definition customerNoForm : form :=
  Fixed [P "number" "numberSet" (Text)] [].

(** data_size.go *)
Definition dataSizeForm : form :=
  Fixed [P "size" "sizeSet" (Number (NUint 16))] [].

(** def_characteristic.go *)
Definition defCharacteristicForm : form :=
  Block []
    []
    (Free [Param Append "identifier" None (Text)])
    []
    "/end DEF_CHARACTERISTIC" [("identifierSet", CTrue)].

(** dist_op_4.go *)
Definition distOp4Form : form :=
  Fixed [P "Position" "PositionSet" (Number (NUint 16));
      P "Datatype" "DatatypeSet" (Choice dataTypeTexts)] [].

(** dist_op_5.go *)
Definition distOp5Form : form :=
  Fixed [P "Position" "PositionSet" (Number (NUint 16));
      P "Datatype" "DatatypeSet" (Choice dataTypeTexts)] [].

(** dist_op_x.go *)
Definition distOpXForm : form :=
  Fixed [P "Position" "PositionSet" (Number (NUint 16));
      P "Datatype" "DatatypeSet" (Choice dataTypeTexts)] [].

(** dist_op_y.go *)
Definition distOpYForm : form :=
  Fixed [P "Position" "PositionSet" (Number (NUint 16));
      P "Datatype" "DatatypeSet" (Choice dataTypeTexts)] [].

(** dist_op_z.go *)
Definition distOpZForm : form :=
  Fixed [P "Position" "PositionSet" (Number (NUint 16));
      P "Datatype" "DatatypeSet" (Choice dataTypeTexts)] [].

(** ecu.go *)
Definition ecuForm : form :=
  Fixed [P "controlUnit" "controlUnitSet" (Text)] [].

(** ecu_address.go *)
Definition ecuAddressForm : form :=
  Fixed [P "address" "addressSet" (Text)] [].

(** ecu_calibration_offset.go *)
Definition ecuCalibrationOffsetForm : form :=
  Fixed [P "offset" "offsetSet" (Text)] [].

(** epk.go *)
Definition epkForm : form :=
  Fixed [P "identifier" "identifierSet" (Text)] [].

(** error_mask.go *)
Definition errorMaskForm : form :=
  Fixed [P "mask" "maskSet" (Text)] [].

(** fix_no_axis_pts_4.go *)
Definition fixNoAxisPts4Form : form :=
  Fixed [P "NumberOfAxisPoints" "NumberOfAxisPointsSet" (Number (NUint 16))] [].

(** fix_no_axis_pts_5.go *)
Definition fixNoAxisPts5Form : form :=
  Fixed [P "NumberOfAxisPoints" "NumberOfAxisPointsSet" (Number (NUint 16))] [].

(** fix_no_axis_pts_x.go *)
Definition fixNoAxisPtsXForm : form :=
  Fixed [P "NumberOfAxisPoints" "NumberOfAxisPointsSet" (Number (NUint 16))] [].

(** fix_no_axis_pts_y.go *)
Definition fixNoAxisPtsYForm : form :=
  Fixed [P "NumberOfAxisPoints" "NumberOfAxisPointsSet" (Number (NUint 16))] [].

(** fix_no_axis_pts_z.go *)
Definition fixNoAxisPtsZForm : form :=
  Fixed [P "NumberOfAxisPoints" "NumberOfAxisPointsSet" (Number (NUint 16))] [].

(** fnc_values.go *)
Definition fncValuesForm : form :=
  Fixed [P "Position" "PositionSet" (Number (NUint 16));
      P "Datatype" "DatatypeSet" (Choice dataTypeTexts);
      P "IndexMode" "IndexModeSet" (Choice indexModeTexts);
      P "Addresstype" "AddresstypeSet" (Choice addrTypeTexts)] [].

(** frame_measurement.go *)
Definition frameMeasurementForm : form :=
  Ahead [] [Param Append "identifier" None Text] [("identifierSet", CTrue)] ["/end FRAME"; "/begin IF_DATA"].

(** frame.go *)
Definition frameForm : form :=
  Block []
    [P "name" "nameSet" (Text);
      P "longIdentifier" "longIdentifierSet" (Text);
      P "scalingUnit" "scalingUnitSet" (Number (NUint 16));
      P "rate" "rateSet" (Number (NUint 32))]
    NoGroup
    [Item "FRAME_MEASUREMENT" "frameMeasurement" Single frameMeasurementForm;
      Item "/begin IF_DATA" "ifData" Several ifDataForm]
    "/end FRAME" [].

(** function_version.go *)
Definition functionVersionForm : form :=
  Fixed [P "versionIdentifier" "versionIdentifierSet" (Text)] [].

(** in_measurement.go *)
Definition inMeasurementForm : form :=
  Block []
    []
    (Free [Param Append "identifier" None (Text)])
    []
    "/end IN_MEASUREMENT" [("identifierSet", CTrue)].

(** loc_measurement.go *)
Definition locMeasurementForm : form :=
  Block []
    []
    (Free [Param Append "identifier" None (Text)])
    []
    "/end LOC_MEASUREMENT" [("identifierSet", CTrue)].

(** out_measurement.go *)
Definition outMeasurementForm : form :=
  Block []
    []
    (Free [Param Append "identifier" None (Text)])
    []
    "/end OUT_MEASUREMENT" [("identifierSet", CTrue)].

(** ref_characteristic.go *)
Definition refCharacteristicForm : form :=
  Block []
    []
    (Free [Param Append "identifier" None (Text)])
    []
    "/end REF_CHARACTERISTIC" [("identifierSet", CTrue)].

(** sub_function.go *)
Definition subFunctionForm : form :=
  Block []
    []
    (Free [Param Append "identifier" None (Text)])
    []
    "/end SUB_FUNCTION" [("identifierSet", CTrue)].

(** function.go *)
Definition functionForm : form :=
  Block []
    [P "name" "nameSet" (Text);
      P "longIdentifier" "longIdentifierSet" (Text)]
    NoGroup
    [Item "/begin ANNOTATION" "annotation" Several annotationForm;
      Item "/begin AR_COMPONENT" "arComponent" Single arComponentForm;
      Item "/begin DEF_CHARACTERISTIC" "defCharacteristic" Single defCharacteristicForm;
      Item "FUNCTION_VERSION" "functionVersion" Single functionVersionForm;
      Item "/begin IF_DATA" "ifData" Several ifDataForm;
      Item "/begin IN_MEASUREMENT" "inMeasurement" Single inMeasurementForm;
      Item "/begin LOC_MEASUREMENT" "locMeasurement" Single locMeasurementForm;
      Item "/begin OUT_MEASUREMENT" "outMeasurement" Single outMeasurementForm;
      Item "/begin REF_CHARACTERISTIC" "refCharacteristic" Single refCharacteristicForm;
      Item "/begin SUB_FUNCTION" "subFunction" Single subFunctionForm]
    "/end FUNCTION" [].

(** ref_measurement.go *)
Definition refMeasurementForm : form :=
  Block []
    []
    (Free [Param Append "identifier" None (Text)])
    []
    "/end REF_MEASUREMENT" [("identifierSet", CTrue)].

(** root.go *)
Definition rootForm : form :=
  Fixed [] [("value", CTrue); ("valueSet", CTrue)].

(** sub_group.go *)
Definition subGroupForm : form :=
  Block []
    []
    (Free [Param Append "identifier" None (Text)])
    []
    "/end SUB_GROUP" [("identifierSet", CTrue)].

(** group.go *)
Definition groupForm : form :=
  Block []
    [P "groupName" "groupNameSet" (Text);
      P "groupLongIdentifier" "groupLongIdentifierSet" (Text)]
    NoGroup
    [Item "/begin ANNOTATION" "annotation" Several annotationForm;
      Item "/begin FUNCTION_LIST" "functionList" Single functionListForm;
      Item "/begin IF_DATA" "ifData" Several ifDataForm;
      Item "/begin REF_CHARACTERISTIC" "refCharacteristic" Single refCharacteristicForm;
      Item "/begin REF_MEASUREMENT" "refMeasurement" Single refMeasurementForm;
      Item "ROOT" "root" Single rootForm;
      Item "/begin SUB_GROUP" "subGroup" Single subGroupForm]
    "/end GROUP" [].

(** project_no.go *)
Definition projectNoForm : form :=
  Fixed [P "projectNumber" "projectNumberSet" (Text)] [].

(** version.go *)
Definition versionForm : form :=
  Fixed [P "versionIdentifier" "versionIdentifierSet" (Text)] [].

(** header.go *)
Definition headerForm : form :=
  Block []
    [P "comment" "commentSet" (Text)]
    NoGroup
    [Item "PROJECT_NO" "projectNo" Single projectNoForm;
      Item "VERSION" "version" Single versionForm]
    "/end HEADER" [].

(** identification.go *)
Definition identificationForm : form :=
  Fixed [P "Position" "PositionSet" (Number (NUint 16));
      P "Datatype" "DatatypeSet" (Choice dataTypeTexts)] [].

(** limits.go *)
Definition limitsForm : form :=
  Fixed [P "lowerLimit" "lowerLimitSet" (Number NFloat);
      P "upperLimit" "upperLimitSet" (Number NFloat)] [].

(** overwrite.go *)
Definition overwriteForm : form :=
  Block []
    [P "name" "nameSet" (Text);
      P "axisNumer" "axisNumberSet" (Number (NUint 16))]
    NoGroup
    [Item "CONVERSION" "conversion" Single (Value (Text));
      Item "EXTENDED_LIMITS" "extendedLimits" Single extendedLimitsForm;
      Item "INPUT_QUANTITY" "inputQuantity" Single (Value (Text));
      Item "FORMAT" "format" Single formatForm;
      Item "LIMITS" "limits" Single limitsForm;
      Item "MONOTONY" "monotony" Single monotonyForm;
      Item "PHYS_UNIT" "physUnit" Single physUnitForm]
    "/end OVERWRITE" [].

(** read_write.go *)
Definition readWriteForm : form :=
  Fixed [] [("value", CTrue); ("valueSet", CTrue)].

(** instance.go *)
Definition instanceForm : form :=
  Block []
    [P "name" "nameSet" (Text);
      P "LongIdentifier" "longIdentifierSet" (Text);
      P "typeDefName" "typeDefNameSet" (Text);
      P "address" "addressSet" (Text)]
    NoGroup
    [Item "ADDRESS_TYPE" "addressType" Single (Value (Choice addrTypeTexts));
      Item "/begin ANNOTATION" "annotation" Several annotationForm;
      Item "CALIBRATION_ACCESS" "calibrationAccess" Single (Value (Choice calibrationAccessTexts));
      Item "DISPLAY_IDENTIFIER" "displayIdentifier" Single displayIdentifierForm;
      Item "ECU_ADDRESS_EXTENSION" "ecuAddressExtension" Single ecuAddressExtensionForm;
      Item "/begin IF_DATA" "ifData" Several ifDataForm;
      Item "MATRIX_DIM" "matrixDim" Single matrixDimForm;
      Item "MAX_REFRESH" "maxRefresh" Single maxRefreshForm;
      Item "MODEL_LINK" "modelLink" Single modelLinkForm;
      Item "/begin OVERWRITE" "overwrite" Single overwriteForm;
      Item "READ_WRITE" "readWrite" Single readWriteForm;
      Item "SYMBOL_LINK" "symbolLink" Single symbolLinkForm]
    "/end INSTANCE" [].

(** layout.go *)
Definition layoutForm : form :=
  Fixed [P "indexMode" "indexModeSet" (Choice indexModeTexts)] [].

(** virtual.go *)
Definition virtualForm : form :=
  Block []
    []
    (Free [Param Append "measuringChannel" None (Text)])
    []
    "/end VIRTUAL" [("measuringChannelSet", CTrue)].

(** measurement.go *)
Definition measurementForm : form :=
  Block []
    [P "name" "nameSet" (Text);
      P "longIdentifier" "longIdentifierSet" (Text);
      P "datatype" "datatypeSet" (Choice dataTypeTexts);
      P "conversion" "conversionSet" (Text);
      P "resolution" "resolutionSet" (Number (NUint 16));
      P "accuracy" "accuracySet" (Number NFloat);
      P "lowerLimit" "lowerLimitSet" (Number NFloat);
      P "upperLimit" "upperLimitSet" (Number NFloat)]
    NoGroup
    [Item "/begin ANNOTATION" "annotation" Several annotationForm;
      Item "ARRAY_SIZE" "arraySize" Single arraySizeForm;
      Item "BIT_MASK" "bitMask" Single bitMaskForm;
      Item "/begin BIT_OPERATION" "bitOperation" Single bitOperationForm;
      Item "BYTE_ORDER" "byteOrder" Single byteOrderForm;
      Item "DISCRETE" "discrete" Single discreteForm;
      Item "DISPLAY_IDENTIFIER" "displayIdentifier" Single displayIdentifierForm;
      Item "ECU_ADDRESS" "ecuAddress" Single ecuAddressForm;
      Item "ECU_ADDRESS_EXTENSION" "ecuAddressExtension" Single ecuAddressExtensionForm;
      Item "ERROR_MASK" "errorMask" Single errorMaskForm;
      Item "FORMAT" "format" Single formatForm;
      Item "/begin FUNCTION_LIST" "functionList" Single functionListForm;
      Item "/begin IF_DATA" "ifData" Several ifDataForm;
      Item "LAYOUT" "layout" Single layoutForm;
      Item "MATRIX_DIM" "matrixDim" Single matrixDimForm;
      Item "MAX_REFRESH" "maxRefresh" Single maxRefreshForm;
      Item "MODEL_LINK" "modelLink" Single modelLinkForm;
      Item "PHYS_UNIT" "physUnit" Single physUnitForm;
      Item "READ_WRITE" "readWrite" Single readWriteForm;
      Item "REF_MEMORY_SEGMENT" "refMemorySegment" Single refMemorySegmentForm;
      Item "SYMBOL_LINK" "symbolLink" Single symbolLinkForm;
      Item "/begin VIRTUAL" "virtual" Single virtualForm]
    "/end MEASUREMENT" [].

(** memory_layout.go *)
Definition memoryLayoutForm : form :=
  Block []
    [P "prgType" "prgTypeSet" (Choice prgTypeTexts);
      P "address" "addressSet" (Text);
      P "size" "sizeSet" (Text);
      Param Append "offset" None (Number (NInt 32));
      Param Append "offset" None (Number (NInt 32));
      Param Append "offset" None (Number (NInt 32));
      Param Append "offset" None (Number (NInt 32));
      Param Append "offset" (Some "offsetSet") (Number (NInt 32))]
    NoGroup
    [Item "/begin IF_DATA" "ifData" Several ifDataForm]
    "/end MEMORY_LAYOUT" [].

(** memory_segment.go *)
Definition memorySegmentForm : form :=
  Block []
    [P "name" "nameSet" (Text);
      P "longIdentifier" "longIdentifierSet" (Text);
      P "prgType" "prgTypeSet" (Choice prgTypeTexts);
      P "memoryType" "memoryTypeSet" (Choice memoryTypeTexts);
      P "attribute" "attributeSet" (Choice attributeTexts);
      P "address" "addressSet" (Text);
      P "size" "sizeSet" (Text);
      Param Append "offset" None (Text);
      Param Append "offset" None (Text);
      Param Append "offset" None (Text);
      Param Append "offset" None (Text);
      Param Append "offset" (Some "offsetSet") (Text)]
    NoGroup
    [Item "/begin IF_DATA" "ifData" Several ifDataForm]
    "/end MEMORY_SEGMENT" [].

(** mod_common.go *)
Definition modCommonForm : form :=
  Block []
    [P "comment" "commentSet" (Text)]
    NoGroup
    [Item "ALIGNMENT_BYTE" "AlignmentByte" Single alignmentByteForm;
      Item "ALIGNMENT_FLOAT16_IEEE" "AlignmentFloat16Ieee" Single alignmentFloat16IeeeForm;
      Item "ALIGNMENT_FLOAT32_IEEE" "AlignmentFloat32Ieee" Single alignmentFloat32IeeeForm;
      Item "ALIGNMENT_FLOAT64_IEEE" "AlignmentFloat64Ieee" Single alignmentFloat64IeeeForm;
      Item "ALIGNMENT_INT64" "AlignmentInt64" Single alignmentInt64Form;
      Item "ALIGNMENT_LONG" "AlignmentLong" Single alignmentLongForm;
      Item "ALIGNMENT_WORD" "AlignmentWord" Single alignmentWordForm;
      Item "BYTE_ORDER" "ByteOrder" Single byteOrderForm;
      Item "DATA_SIZE" "dataSize" Single dataSizeForm;
      Item "DEPOSIT" "deposit" Single depositForm]
    "/end MOD_COMMON" [].

(** no_of_interfaces.go *)
Definition noOfInterfacesForm : form :=
  Fixed [P "num" "numSet" (Number (NUint 16))] [].

(** phone_no.go *)
Definition phoneNoForm : form :=
  Fixed [P "telnum" "telnumSet" (Text)] [].

(** supplier.go *)
Definition supplierForm : form :=
  Fixed [P "manufacturer" "manufacturerSet" (Text)] [].

(** system_constant.go *)
Definition systemConstantForm : form :=
  Fixed [P "Name" "NameSet" (Text);
      P "Value" "ValueSet" (Text)] [].

(** user.go *)
Definition userForm : form :=
  Fixed [P "userName" "userNameSet" (Text)] [].

(** mod_par.go *)
Definition modParForm : form :=
  Block ["SystemConstants"]
    [P "comment" "commentSet" (Text)]
    NoGroup
    [Item "ADDR_EPK" "addrEpk" Several addrEpkForm;
      Item "/begin CALIBRATION_METHOD" "calibrationMethod" Several calibrationMethodForm;
      Item "CPU_TYPE" "cpuType" Single cpuTypeForm;
      Item "CUSTOMER" "customer" Single customerForm;
      Item "CUSTOMER_NO" "customerNo" Single customerNoForm;
      Item "ECU" "ecu" Single ecuForm;
      Item "ECU_CALIBRATION_OFFSET" "ecuCalibrationOffset" Single ecuCalibrationOffsetForm;
      Item "EPK" "epk" Single epkForm;
      Item "/begin MEMORY_LAYOUT" "memoryLayout" Several memoryLayoutForm;
      Item "/begin MEMORY_SEGMENT" "memorySegment" Several memorySegmentForm;
      Item "NO_OF_INTERFACES" "noOfInterfaces" Single noOfInterfacesForm;
      Item "PHONE_NO" "phoneNo" Single phoneNoForm;
      Item "SUPPLIER" "supplier" Single supplierForm;
      Item "SYSTEM_CONSTANT" "SystemConstants" (Under "Name") systemConstantForm;
      Item "USER" "user" Single userForm;
      Item "VERSION" "version" Single versionForm]
    "/end MOD_PAR" [].

(** no_axis_pts_x.go *)
Definition noAxisPtsXForm : form :=
  Fixed [P "Position" "PositionSet" (Number (NUint 16));
      P "Datatype" "DatatypeSet" (Choice dataTypeTexts)] [].

(** no_axis_pts_y.go *)
Definition noAxisPtsYForm : form :=
  Fixed [P "Position" "PositionSet" (Number (NUint 16));
      P "Datatype" "DatatypeSet" (Choice dataTypeTexts)] [].

(** no_axis_pts_z.go *)
Definition noAxisPtsZForm : form :=
  Fixed [P "Position" "PositionSet" (Number (NUint 16));
      P "Datatype" "DatatypeSet" (Choice dataTypeTexts)] [].

(** no_axis_pts_4.go *)
Definition noAxisPts4Form : form :=
  Fixed [P "Position" "PositionSet" (Number (NUint 16));
      P "Datatype" "DatatypeSet" (Choice dataTypeTexts)] [].

(** no_axis_pts_5.go *)
Definition noAxisPts5Form : form :=
  Fixed [P "Position" "PositionSet" (Number (NUint 16));
      P "Datatype" "DatatypeSet" (Choice dataTypeTexts)] [].

(** no_rescale_x.go *)
Definition noRescaleXForm : form :=
  Fixed [P "Position" "PositionSet" (Number (NUint 16));
      P "Datatype" "DatatypeSet" (Choice dataTypeTexts)] [].

(** offset_x.go *)
Definition offsetXForm : form :=
  Fixed [P "Position" "PositionSet" (Number (NUint 16));
      P "Datatype" "DatatypeSet" (Choice dataTypeTexts)] [].

(** offset_y.go *)
Definition offsetYForm : form :=
  Fixed [P "Position" "PositionSet" (Number (NUint 16));
      P "Datatype" "DatatypeSet" (Choice dataTypeTexts)] [].

(** offset_z.go *)
Definition offsetZForm : form :=
  Fixed [P "Position" "PositionSet" (Number (NUint 16));
      P "Datatype" "DatatypeSet" (Choice dataTypeTexts)] [].

(** offset_4.go *)
Definition offset4Form : form :=
  Fixed [P "Position" "PositionSet" (Number (NUint 16));
      P "Datatype" "DatatypeSet" (Choice dataTypeTexts)] [].

(** offset_5.go *)
Definition offset5Form : form :=
  Fixed [P "Position" "PositionSet" (Number (NUint 16));
      P "Datatype" "DatatypeSet" (Choice dataTypeTexts)] [].

(** reserved.go *)
Definition reservedForm : form :=
  Fixed [P "Position" "PositionSet" (Number (NUint 16));
      P "DataSize" "DataSizeSet" (Choice dataSizeTexts)] [].

(** rip_addr_w.go *)
Definition ripAddrWForm : form :=
  Fixed [P "Position" "PositionSet" (Number (NUint 16));
      P "Datatype" "DatatypeSet" (Choice dataTypeTexts)] [].

(** rip_addr_x.go *)
Definition ripAddrXForm : form :=
  Fixed [P "position" "positionSet" (Number (NUint 16));
      P "datatype" "datatypeSet" (Choice dataTypeTexts)] [].

(** rip_addr_y.go *)
Definition ripAddrYForm : form :=
  Fixed [P "Position" "PositionSet" (Number (NUint 16));
      P "Datatype" "DatatypeSet" (Choice dataTypeTexts)] [].

(** rip_addr_z.go *)
Definition ripAddrZForm : form :=
  Fixed [P "Position" "PositionSet" (Number (NUint 16));
      P "Datatype" "DatatypeSet" (Choice dataTypeTexts)] [].

(** rip_addr_4.go *)
Definition ripAddr4Form : form :=
  Fixed [P "Position" "PositionSet" (Number (NUint 16));
      P "Datatype" "DatatypeSet" (Choice dataTypeTexts)] [].

(** rip_addr_5.go *)
Definition ripAddr5Form : form :=
  Fixed [P "Position" "PositionSet" (Number (NUint 16));
      P "Datatype" "DatatypeSet" (Choice dataTypeTexts)] [].

(** src_addr_x.go *)
Definition srcAddrXForm : form :=
  Fixed [P "position" "positionSet" (Number (NUint 16));
      P "datatype" "datatypeSet" (Choice dataTypeTexts)] [].

(** src_addr_y.go *)
Definition srcAddrYForm : form :=
  Fixed [P "position" "positionSet" (Number (NUint 16));
      P "datatype" "datatypeSet" (Choice dataTypeTexts)] [].

(** src_addr_z.go *)
Definition srcAddrZForm : form :=
  Fixed [P "position" "positionSet" (Number (NUint 16));
      P "datatype" "datatypeSet" (Choice dataTypeTexts)] [].

(** src_addr_4.go *)
Definition srcAddr4Form : form :=
  Fixed [P "position" "positionSet" (Number (NUint 16));
      P "datatype" "datatypeSet" (Choice dataTypeTexts)] [].

(** src_addr_5.go *)
Definition srcAddr5Form : form :=
  Fixed [P "position" "positionSet" (Number (NUint 16));
      P "datatype" "datatypeSet" (Choice dataTypeTexts)] [].

(** shift_op_x.go *)
Definition shiftOpXForm : form :=
  Fixed [P "Position" "PositionSet" (Number (NUint 16));
      P "Datatype" "DatatypeSet" (Choice dataTypeTexts)] [].

(** shift_op_y.go *)
Definition shiftOpYForm : form :=
  Fixed [P "Position" "PositionSet" (Number (NUint 16));
      P "Datatype" "DatatypeSet" (Choice dataTypeTexts)] [].

(** shift_op_z.go *)
Definition shiftOpZForm : form :=
  Fixed [P "Position" "PositionSet" (Number (NUint 16));
      P "Datatype" "DatatypeSet" (Choice dataTypeTexts)] [].

(** shift_op_4.go *)
Definition shiftOp4Form : form :=
  Fixed [P "Position" "PositionSet" (Number (NUint 16));
      P "Datatype" "DatatypeSet" (Choice dataTypeTexts)] [].

(** shift_op_5.go *)
Definition shiftOp5Form : form :=
  Fixed [P "Position" "PositionSet" (Number (NUint 16));
      P "Datatype" "DatatypeSet" (Choice dataTypeTexts)] [].

(** static_record_layout.go *)
Definition staticRecordLayoutForm : form :=
  Fixed [] [("value", CTrue); ("valueSet", CTrue)].

(** static_address_offsets.go *)
Definition staticAddressOffsetsForm : form :=
  Fixed [] [("value", CTrue); ("valueSet", CTrue)].

(** record_layout.go *)
Definition recordLayoutForm : form :=
  Block []
    [P "Name" "NameSet" (Text)]
    NoGroup
    [Item "ALIGNMENT_BYTE" "AlignmentByte" Single alignmentByteForm;
      Item "ALIGNMENT_FLOAT16_IEEE" "AlignmentFloat16Ieee" Single alignmentFloat16IeeeForm;
      Item "ALIGNMENT_FLOAT32_IEEE" "AlignmentFloat32Ieee" Single alignmentFloat32IeeeForm;
      Item "ALIGNMENT_FLOAT64_IEEE" "AlignmentFloat64Ieee" Single alignmentFloat64IeeeForm;
      Item "ALIGNMENT_INT64" "AlignmentInt64" Single alignmentInt64Form;
      Item "ALIGNMENT_LONG" "AlignmentLong" Single alignmentLongForm;
      Item "ALIGNMENT_WORD" "AlignmentWord" Single alignmentWordForm;
      Item "AXIS_PTS_X" "AxisPtsX" Single axisPtsXForm;
      Item "AXIS_PTS_Y" "AxisPtsY" Single axisPtsYForm;
      Item "AXIS_PTS_Z" "AxisPtsZ" Single axisPtsZForm;
      Item "AXIS_PTS_4" "AxisPts4" Single axisPts4Form;
      Item "AXIS_PTS_5" "AxisPts5" Single axisPts5Form;
      Item "AXIS_RESCALE_X" "AxisRescaleX" Single axisRescaleXForm;
      Item "DIST_OP_X" "DistOpX" Single distOpXForm;
      Item "DIST_OP_Y" "DistOpY" Single distOpYForm;
      Item "DIST_OP_Z" "DistOpZ" Single distOpZForm;
      Item "DIST_OP_4" "DistOp4" Single distOp4Form;
      Item "DIST_OP_5" "DistOp5" Single distOp5Form;
      Item "FIX_NO_AXIS_PTS_X" "FixNoAxisPtsX" Single fixNoAxisPtsXForm;
      Item "FIX_NO_AXIS_PTS_Y" "FixNoAxisPtsY" Single fixNoAxisPtsYForm;
      Item "FIX_NO_AXIS_PTS_Z" "FixNoAxisPtsZ" Single fixNoAxisPtsZForm;
      Item "FIX_NO_AXIS_PTS_4" "FixNoAxisPts4" Single fixNoAxisPts4Form;
      Item "FIX_NO_AXIS_PTS_5" "FixNoAxisPts5" Single fixNoAxisPts5Form;
      Item "FNC_VALUES" "FncValues" Single fncValuesForm;
      Item "IDENTIFICATION" "Identification" Single identificationForm;
      Item "NO_AXIS_PTS_X" "NoAxisPtsX" Single noAxisPtsXForm;
      Item "NO_AXIS_PTS_Y" "NoAxisPtsY" Single noAxisPtsYForm;
      Item "NO_AXIS_PTS_Z" "NoAxisPtsZ" Single noAxisPtsZForm;
      Item "NO_AXIS_PTS_4" "NoAxisPts4" Single noAxisPts4Form;
      Item "NO_AXIS_PTS_5" "NoAxisPts5" Single noAxisPts5Form;
      Item "NO_RESCALE_X" "NoRescaleX" Single noRescaleXForm;
      Item "OFFSET_X" "OffsetX" Single offsetXForm;
      Item "OFFSET_Y" "OffsetY" Single offsetYForm;
      Item "OFFSET_Z" "OffsetZ" Single offsetZForm;
      Item "OFFSET_4" "Offset4" Single offset4Form;
      Item "OFFSET_5" "Offset5" Single offset5Form;
      Item "RESERVED" "Reserved" Single reservedForm;
      Item "RIP_ADDR_W" "RipAddrW" Single ripAddrWForm;
      Item "RIP_ADDR_X" "RipAddrX" Single ripAddrXForm;
      Item "RIP_ADDR_Y" "RipAddrY" Single ripAddrYForm;
      Item "RIP_ADDR_Z" "RipAddrZ" Single ripAddrZForm;
      Item "RIP_ADDR_4" "RipAddr4" Single ripAddr4Form;
      Item "RIP_ADDR_5" "RipAddr5" Single ripAddr5Form;
      Item "SRC_ADDR_X" "SrcAddrX" Single srcAddrXForm;
      Item "SRC_ADDR_Y" "SrcAddrY" Single srcAddrYForm;
      Item "SRC_ADDR_Z" "SrcAddrZ" Single srcAddrZForm;
      Item "SRC_ADDR_4" "SrcAddr4" Single srcAddr4Form;
      Item "SRC_ADDR_5" "SrcAddr5" Single srcAddr5Form;
      Item "SHIFT_OP_X" "ShiftOpX" Single shiftOpXForm;
      Item "SHIFT_OP_Y" "ShiftOpY" Single shiftOpYForm;
      Item "SHIFT_OP_Z" "ShiftOpZ" Single shiftOpZForm;
      Item "SHIFT_OP_4" "ShiftOp4" Single shiftOp4Form;
      Item "SHIFT_OP_5" "ShiftOp5" Single shiftOp5Form;
      Item "STATIC_RECORD_LAYOUT" "StaticRecordLayout" Single staticRecordLayoutForm;
      Item "STATIC_ADDRESS_OFFSETS" "StaticAddressOffsets" Single staticAddressOffsetsForm]
    "/end RECORD_LAYOUT" [].

(** transformer_in_object.go *)
Definition transformerInObjectForm : form :=
  Block []
    []
    (Free [Param Append "identifier" None (Text)])
    []
    "/end TRANSFORMER_IN_OBJECTS" [("identifierSet", CTrue)].

(** transformer_out_object.go *)
Definition transformerOutObjectForm : form :=
  Block []
    []
    (Free [Param Append "identifier" None (Text)])
    []
    "/end TRANSFORMER_OUT_OBJECTS" [("identifierSet", CTrue)].

(** transformer.go *)
Definition transformerForm : form :=
  Block []
    [P "name" "nameSet" (Text);
      P "version" "versionSet" (Text);
      P "executable32" "executable32Set" (Text);
      P "executable64" "executable64Set" (Text);
      P "timeOut" "timeOutSet" (Number (NUint 32));
      P "trigger" "triggerSet" (Choice triggerTexts);
      P "inverseTransformer" "inverseTransformerSet" (Text)]
    NoGroup
    [Item "/begin TRANSFORMER_IN_OBJECTS" "transformerInObjects" Single transformerInObjectForm;
      Item "/begin TRANSFORMER_OUT_OBJECTS" "transformerOutObjects" Single transformerOutObjectForm]
    "/end TRANSFORMER" [].

(** type_def_axis.go *)
Definition typeDefAxisForm : form :=
  Block []
    [P "name" "nameSet" (Text);
      P "LongIdentifier" "longIdentifierSet" (Text);
      P "inputQuantity" "inputQuantitySet" (Text);
      P "recordLayout" "recordLayoutSet" (Text);
      P "maxDiff" "maxDiffSet" (Number NFloat);
      P "conversion" "conversionSet" (Text);
      P "maxAxisPoints" "maxAxisPointsSet" (Number (NUint 16));
      P "lowerLimit" "lowerLimitSet" (Number NFloat);
      P "upperLimit" "upperLimitSet" (Number NFloat)]
    NoGroup
    [Item "BYTE_ORDER" "byteOrder" Single byteOrderForm;
      Item "DEPOSIT" "deposit" Single depositForm;
      Item "EXTENDED_LIMITS" "extendedLimits" Single extendedLimitsForm;
      Item "FORMAT" "format" Single formatForm;
      Item "MONOTONY" "monotony" Single monotonyForm;
      Item "PHYS_UNIT" "physUnit" Single physUnitForm;
      Item "STEP_SIZE" "stepSize" Single stepSizeForm]
    "/end TYPEDEF_AXIS" [].

(** type_def_blob.go *)
Definition typeDefBlobForm : form :=
  Block []
    [P "name" "nameSet" (Text);
      P "longIdentifier" "longIdentifierSet" (Text);
      P "size" "sizeSet" (Number (NUint 32))]
    NoGroup
    [Item "ADDRESS_TYPE" "addressType" Single (Value (Choice addrTypeTexts))]
    "/end TYPEDEF_BLOB" [].

(** type_def_characteristic.go *)
Definition typeDefCharacteristicForm : form :=
  Block []
    [P "name" "nameSet" (Text);
      P "LongIdentifier" "longIdentifierSet" (Text);
      P "Type" "TypeSet" (Choice typeTexts);
      P "recordLayout" "recordLayoutSet" (Text);
      P "maxDiff" "maxDiffSet" (Number NFloat);
      P "conversion" "conversionSet" (Text);
      P "lowerLimit" "lowerLimitSet" (Number NFloat);
      P "upperLimit" "upperLimitSet" (Number NFloat)]
    NoGroup
    [Item "/begin AXIS_DESCR" "axisDescr" Several axisDescrForm;
      Item "BIT_MASK" "bitMask" Single bitMaskForm;
      Item "BYTE_ORDER" "byteOrder" Single byteOrderForm;
      Item "DISCRETE" "discrete" Single discreteForm;
      Item "ENCODING" "encoding" Single (Value (Choice encodingTexts));
      Item "EXTENDED_LIMITS" "extendedLimits" Single extendedLimitsForm;
      Item "FORMAT" "format" Single formatForm;
      Item "MATRIX_DIM" "matrixDim" Single matrixDimForm;
      Item "NUMBER" "number" Single numberForm;
      Item "PHYS_UNIT" "physUnit" Single physUnitForm;
      Item "STEP_SIZE" "stepSize" Single stepSizeForm]
    "/end TYPEDEF_CHARACTERISTIC" [].

(** type_def_measurement.go *)
Definition typeDefMeasurementForm : form :=
  Block []
    [P "name" "nameSet" (Text);
      P "longIdentifier" "longIdentifierSet" (Text);
      P "datatype" "datatypeSet" (Choice dataTypeTexts);
      P "conversion" "conversionSet" (Text);
      P "resolution" "resolutionSet" (Number (NUint 16));
      P "accuracy" "accuracySet" (Number NFloat);
      P "lowerLimit" "lowerLimitSet" (Number NFloat);
      P "upperLimit" "upperLimitSet" (Number NFloat)]
    NoGroup
    [Item "BIT_MASK" "bitMask" Single bitMaskForm;
      Item "/begin BIT_OPERATION" "bitOperation" Single bitOperationForm;
      Item "BYTE_ORDER" "byteOrder" Single byteOrderForm;
      Item "DISCRETE" "discrete" Single discreteForm;
      Item "ERROR_MASK" "errorMask" Single errorMaskForm;
      Item "FORMAT" "format" Single formatForm;
      Item "LAYOUT" "layout" Single layoutForm;
      Item "MATRIX_DIM" "matrixDim" Single matrixDimForm;
      Item "PHYS_UNIT" "physUnit" Single physUnitForm]
    "/end TYPEDEF_MEASUREMENT" [].

(** symbol_type_link.go *)
Definition symbolTypeLinkForm : form :=
  Fixed [Param One "symbolName" None (Text)] [].

(** structure_component.go *)
Definition structureComponentForm : form :=
  Block []
    [P "name" "nameSet" (Text);
      P "typeDefName" "typeDefNameSet" (Text);
      P "addressOffset" "addressOffsetSet" (Text)]
    NoGroup
    [Item "ADDRESS_TYPE" "addressType" Single (Value (Choice addrTypeTexts));
      Item "LAYOUT" "layout" Single layoutForm;
      Item "MATRIX_DIM" "matrixDim" Single matrixDimForm;
      Item "SYMBOL_TYPE_LINK" "symbolTypeLink" Single symbolTypeLinkForm]
    "/end STRUCTURE_COMPONENT" [].

(** type_def_structure.go *)
Definition typeDefStructureForm : form :=
  Block []
    [P "name" "nameSet" (Text);
      P "longIdentifier" "longIdentifierSet" (Text);
      P "size" "sizeSet" (Number (NUint 32))]
    NoGroup
    [Item "ADDRESS_TYPE" "addressType" Single (Value (Choice addrTypeTexts));
      Item "CONSISTENT_EXCHANGE" "consistentExchange" Single consistentExchangeForm;
      Item "/begin STRUCTURE_COMPONENT" "structureComponent" Several structureComponentForm;
      Item "SYMBOL_TYPE_LINK" "symbolTypeLink" Single symbolTypeLinkForm]
    "/end TYPEDEF_STRUCTURE" [].

(** si_exponents.go *)
Definition siExponentsForm : form :=
  Fixed [P "length" "lengthSet" (Number (NInt 16));
      P "mass" "massSet" (Number (NInt 16));
      P "time" "timeSet" (Number (NInt 16));
      P "electricCurrent" "electricCurrentSet" (Number (NInt 16));
      P "temperature" "temperatureSet" (Number (NInt 16));
      P "amountOfSubstance" "amountOfSubstanceSet" (Number (NInt 16));
      P "luminousIntensity" "luminousIntensitySet" (Number (NInt 16))] [].

(** unit_conversion.go *)
Definition unitConversionForm : form :=
  Fixed [P "gradient" "gradientSet" (Number NFloat);
      P "offset" "offsetSet" (Number NFloat)] [].

(** unit.go *)
Definition unitForm : form :=
  Block []
    [P "name" "nameSet" (Text);
      P "longIdentifier" "longIdentifierSet" (Text);
      P "display" "displaySet" (Text);
      P "Type" "TypeSet" (Choice typeTexts)]
    NoGroup
    [Item "REF_UNIT" "refUnit" Single refUnitForm;
      Item "SI_EXPONENTS" "siExponents" Single siExponentsForm;
      Item "UNIT_CONVERSION" "unitConversion" Single unitConversionForm]
    "/end UNIT" [].

(** ref_group.go *)
Definition refGroupForm : form :=
  Block []
    []
    (Free [Param Append "identifier" None (Text)])
    []
    "/end REF_GROUP" [("identifierSet", CTrue)].

(** user_rights.go *)
Definition userRightsForm : form :=
  Block []
    [P "userLevelId" "userLevelIdSet" (Text)]
    NoGroup
    [Item "READ_ONLY" "readOnly" Single readOnlyForm;
      Item "/begin REF_GROUP" "refGroup" Several refGroupForm]
    "/end USER_RIGHTS" [].

(** var_address.go *)
Definition varAddressForm : form :=
  Block []
    []
    (Free [Param Append "address" None (Text)])
    []
    "/end VAR_ADDRESS" [("addressSet", CTrue)].

(** var_characteristic.go *)
Definition varCharacteristicForm : form :=
  Block []
    [P "name" "nameSet" (Text)]
    (Free [Param Append "identCriterionName" None (Text)])
    [Item "/begin VAR_ADDRESS" "varAddress" Several varAddressForm]
    "/end VAR_CHARACTERISTIC" [("identCriterionNameSet", CTrue)].

(** var_measurement.go *)
Definition varMeasurementForm : form :=
  Fixed [P "name" "nameSet" (Text)] [].

(** var_selection_characteristic.go *)
Definition varSelectionCharacteristicForm : form :=
  Fixed [P "name" "nameSet" (Text)] [].

(** var_criterion.go *)
Definition varCriterionForm : form :=
  Block []
    [P "name" "nameSet" (Text);
      P "longIdentifier" "longIdentifierSet" (Text)]
    (Free [Param Append "value" None (Text)])
    [Item "VAR_MEASUREMENT" "varMeasurement" Single varMeasurementForm;
      Item "VAR_SELECTION_CHARACTERISTIC" "varSelectionCharacteristic" Single varSelectionCharacteristicForm]
    "/end VAR_CRITERION" [("valueSet", CTrue)].

(** var_forbidden_comb.go *)
Definition varForbiddenCombForm : form :=
  Block []
    []
    (Free [Param Append "criterionName" None (Text);
      Param Append "criterionValue" None (Text)])
    []
    "/end VAR_FORBIDDEN_COMB" [("criterionNameSet", CTrue); ("criterionValueSet", CTrue)].

(** var_naming.go *)
Definition varNamingForm : form :=
  Fixed [P "tag" "tagSet" (Choice tagTexts)] [].

(** var_separator.go *)
Definition varSeparatorForm : form :=
  Fixed [P "separator" "separatorSet" (Text)] [].

(** variant_coding.go *)
Definition variantCodingForm : form :=
  Block []
    []
    NoGroup
    [Item "/begin VAR_CHARACTERISTIC" "varCharacteristic" Several varCharacteristicForm;
      Item "/begin VAR_CRITERION" "varCriterion" Several varCriterionForm;
      Item "/begin VAR_FORBIDDEN_COMB" "varForbiddenComb" Several varForbiddenCombForm;
      Item "VAR_NAMING" "varNaming" Single varNamingForm;
      Item "VAR_SEPARATOR" "varSeparator" Single varSeparatorForm]
    "/end VARIANT_CODING" [].

(** module.go *)
Definition moduleForm : form :=
  Block ["AxisPts";
      "blobs";
      "Characteristics";
      "CompuMethods";
      "CompuTabs";
      "CompuVTabs";
      "CompuVTabRanges";
      "Functions";
      "Groups";
      "ifData";
      "instances";
      "Measurements";
      "RecordLayouts";
      "transformers";
      "typeDefAxis";
      "typeDefBlobs";
      "typeDefCharacteristics";
      "typeDefMeasurements";
      "typeDefStructures";
      "Units";
      "userRights"]
    [P "Name" "nameSet" (Text);
      P "longIdentifier" "longIdentifierSet" (Text)]
    NoGroup
    [Item "/begin A2ML" "a2ml" Single a2mlForm;
      Item "/begin AXIS_PTS" "AxisPts" (Under "name") axisPtsForm;
      Item "/begin BLOB" "blobs" (Under "name") blobForm;
      Item "/begin CHARACTERISTIC" "Characteristics" (Under "Name") characteristicForm;
      Item "/begin COMPU_METHOD" "CompuMethods" (Under "Name") compuMethodForm;
      Item "/begin COMPU_TAB" "CompuTabs" (Under "Name") compuTabForm;
      Item "/begin COMPU_VTAB" "CompuVTabs" (Under "Name") compuVtabForm;
      Item "/begin COMPU_VTAB_RANGE" "CompuVTabRanges" (Under "Name") compuVtabRangeForm;
      Item "/begin FRAME" "frame" Single frameForm;
      Item "/begin FUNCTION" "Functions" (Under "name") functionForm;
      Item "/begin GROUP" "Groups" (Under "groupName") groupForm;
      Item "/begin IF_DATA" "ifData" (Under "name") ifDataForm;
      Item "/begin INSTANCE" "instances" (Under "name") instanceForm;
      Item "/begin MEASUREMENT" "Measurements" (Under "name") measurementForm;
      Item "/begin MOD_COMMON" "ModCommon" Single modCommonForm;
      Item "/begin MOD_PAR" "ModPar" Single modParForm;
      Item "/begin RECORD_LAYOUT" "RecordLayouts" (Under "Name") recordLayoutForm;
      Item "/begin TRANSFORMER" "transformers" (Under "name") transformerForm;
      Item "/begin TYPEDEF_AXIS" "typeDefAxis" (Under "name") typeDefAxisForm;
      Item "/begin TYPEDEF_BLOB" "typeDefBlobs" (Under "name") typeDefBlobForm;
      Item "/begin TYPEDEF_CHARACTERISTIC" "typeDefCharacteristics" (Under "name") typeDefCharacteristicForm;
      Item "/begin TYPEDEF_MEASUREMENT" "typeDefMeasurements" (Under "name") typeDefMeasurementForm;
      Item "/begin TYPEDEF_STRUCTURE" "typeDefStructures" (Under "name") typeDefStructureForm;
      Item "/begin UNIT" "Units" (Under "name") unitForm;
      Item "/begin USER_RIGHTS" "userRights" (Under "userLevelId") userRightsForm;
      Item "/begin VARIANT_CODING" "variantCoding" Single variantCodingForm]
    "/end MODULE" [].

(** project.go *)
Definition projectForm : form :=
  Block []
    [P "Name" "nameSet" (Text);
      P "longIdentifier" "longIdentifierSet" (Text)]
    NoGroup
    [Item "/begin HEADER" "header" Single headerForm;
      Item "/begin MODULE" "Modules" Several moduleForm]
    "/end PROJECT" [].

(** axis_pts_4.go, as read *)
Definition axisPts4Read : form :=
  Fixed [P "Position" "PositionSet" (Number (NUint 16));
      P "Datatype" "DatatypeSet" (Choice dataTypeTexts);
      P "IndexIncr" "IndexIncrSet" (Choice indexOrderTexts);
      P "Addressing" "AddressingSet" (Choice addrTypeRead)] [].

(** axis_pts_5.go, as read *)
Definition axisPts5Read : form :=
  Fixed [P "Position" "PositionSet" (Number (NUint 16));
      P "Datatype" "DatatypeSet" (Choice dataTypeTexts);
      P "IndexIncr" "IndexIncrSet" (Choice indexOrderTexts);
      P "Addressing" "AddressingSet" (Choice addrTypeRead)] [].

(** axis_pts_x.go, as read *)
Definition axisPtsXRead : form :=
  Fixed [P "Position" "PositionSet" (Number (NUint 16));
      P "Datatype" "DatatypeSet" (Choice dataTypeTexts);
      P "IndexIncr" "IndexIncrSet" (Choice indexOrderTexts);
      P "Addressing" "AddressingSet" (Choice addrTypeRead)] [].

(** axis_pts_y.go, as read *)
Definition axisPtsYRead : form :=
  Fixed [P "Position" "PositionSet" (Number (NUint 16));
      P "Datatype" "DatatypeSet" (Choice dataTypeTexts);
      P "IndexIncr" "IndexIncrSet" (Choice indexOrderTexts);
      P "Addressing" "AddressingSet" (Choice addrTypeRead)] [].

(** axis_pts_z.go, as read *)
Definition axisPtsZRead : form :=
  Fixed [P "Position" "PositionSet" (Number (NUint 16));
      P "Datatype" "DatatypeSet" (Choice dataTypeTexts);
      P "IndexIncr" "IndexIncrSet" (Choice indexOrderTexts);
      P "Addressing" "AddressingSet" (Choice addrTypeRead)] [].

(** axis_rescale_x.go, as read *)
Definition axisRescaleXRead : form :=
  Fixed [P "Position" "PositionSet" (Number (NUint 16));
      P "Datatype" "DatatypeSet" (Choice dataTypeTexts);
      P "MaxNumberOfRescalePairs" "MaxNumberOfRescalePairsSet" (Number (NUint 16));
      P "IndexIncr" "IndexIncrSet" (Choice indexOrderTexts);
      P "Adressing" "AdressingSet" (Choice addrTypeRead)] [].

(** blob.go, as read: no ADDRESS_TYPE *)
Definition blobRead : form :=
  Block []
    [P "name" "nameSet" (Text);
      P "longIdentifier" "longIdentifierSet" (Text);
      P "address" "addressSet" (Text);
      P "size" "sizeSet" (Number (NUint 32))]
    NoGroup
    [Item "/begin ANNOTATION" "annotation" Several annotationForm;
      Item "CALIBRATION_ACCESS" "calibrationAccess" Single (Value (Choice calibrationAccessTexts));
      Item "DISPLAY_IDENTIFIER" "displayIdentifier" Single displayIdentifierForm;
      Item "ECU_ADDRESS_EXTENSION" "ecuAddressExtension" Single ecuAddressExtensionForm;
      Item "/begin IF_DATA" "IfData" Several ifDataForm;
      Item "MAX_REFRESH" "maxRefresh" Single maxRefreshForm;
      Item "MODEL_LINK" "modelLink" Single modelLinkForm;
      Item "SYMBOL_LINK" "symbolLink" Single symbolLinkForm]
    "/end BLOB" [("addressType", CText "DIRECT")].

(** matrix_dim.go, as read: the numbers after the first go to DimY without a flag; a keyword must follow *)
Definition matrixDimRead : form :=
  Ahead [P "DimX" "DimXSet" (Number (NUint 16))] [Param One "DimY" None (Number (NUint 16))] [] [].

(** characteristic.go, as read: no ENCODING *)
Definition characteristicRead : form :=
  Block []
    [P "Name" "nameSet" (Text);
      P "LongIdentifier" "longIdentifierSet" (Text);
      P "Type" "TypeSet" (Choice typeTexts);
      P "Address" "addressSet" (Text);
      P "Deposit" "DepositSet" (Text);
      P "maxDiff" "maxDiffSet" (Number NFloat);
      P "conversion" "conversionSet" (Text);
      P "lowerLimit" "lowerLimitSet" (Number NFloat);
      P "upperLimit" "upperLimitSet" (Number NFloat)]
    NoGroup
    [Item "/begin ANNOTATION" "annotation" Several annotationForm;
      Item "/begin AXIS_DESCR" "axisDescr" Several axisDescrForm;
      Item "BIT_MASK" "bitMask" Single bitMaskForm;
      Item "BYTE_ORDER" "byteOrder" Single byteOrderForm;
      Item "CALIBRATION_ACCESS" "calibrationAccess" Single (Value (Choice calibrationAccessTexts));
      Item "COMPARISON_QUANTITY" "comparisonQuantity" Single comparisonQuantityForm;
      Item "/begin DEPENDENT_CHARACTERISTIC" "dependentCharacteristic" Several dependentCharacteristicForm;
      Item "DISCRETE" "discrete" Single discreteForm;
      Item "DISPLAY_IDENTIFIER" "displayIdentifier" Single displayIdentifierForm;
      Item "ECU_ADDRESS_EXTENSION" "ecuAddressExtension" Single ecuAddressExtensionForm;
      Item "EXTENDED_LIMITS" "extendedLimits" Single extendedLimitsForm;
      Item "FORMAT" "format" Single formatForm;
      Item "/begin FUNCTION_LIST" "functionList" Several functionListForm;
      Item "GUARD_RAILS" "guardRails" Single guardRailsForm;
      Item "/begin IF_DATA" "ifData" Several ifDataForm;
      Item "/begin MAP_LIST" "mapList" Several mapListForm;
      Item "MATRIX_DIM" "MatrixDim" Single matrixDimRead;
      Item "MAX_REFRESH" "maxRefresh" Single maxRefreshForm;
      Item "MODEL_LINK" "modelLink" Single modelLinkForm;
      Item "NUMBER" "number" Single numberForm;
      Item "PHYS_UNIT" "physUnit" Single physUnitForm;
      Item "READ_ONLY" "readOnly" Single readOnlyForm;
      Item "REF_MEMORY_SEGMENT" "refMemorySegment" Single refMemorySegmentForm;
      Item "STEP_SIZE" "stepSize" Single stepSizeForm;
      Item "SYMBOL_LINK" "symbolLink" Single symbolLinkForm;
      Item "/begin VIRTUAL_CHARACTERISTIC" "virtualCharacteristic" Several virtualCharacteristicForm]
    "/end CHARACTERISTIC" [].

(** fnc_values.go, as read *)
Definition fncValuesRead : form :=
  Fixed [P "Position" "PositionSet" (Number (NUint 16));
      P "Datatype" "DatatypeSet" (Choice dataTypeTexts);
      P "IndexMode" "IndexModeSet" (Choice indexModeRead);
      P "Addresstype" "AddresstypeSet" (Choice addrTypeRead)] [].

(** frame.go, as read: every parameter goes to name *)
Definition frameRead : form :=
  Block []
    [Param One "name" None Text;
      Param One "name" None Text;
      Param One "name" None Text;
      Param One "name" None Text]
    NoGroup
    [Item "FRAME_MEASUREMENT" "frameMeasurement" Single frameMeasurementForm;
      Item "/begin IF_DATA" "ifData" Several ifDataForm]
    "/end FRAME" [].

(** overwrite.go, as read: no CONVERSION and INPUT_QUANTITY *)
Definition overwriteRead : form :=
  Block []
    [P "name" "nameSet" (Text);
      P "axisNumer" "axisNumberSet" (Number (NUint 16))]
    NoGroup
    [Item "EXTENDED_LIMITS" "extendedLimits" Single extendedLimitsForm;
      Item "FORMAT" "format" Single formatForm;
      Item "LIMITS" "limits" Single limitsForm;
      Item "MONOTONY" "monotony" Single monotonyForm;
      Item "PHYS_UNIT" "physUnit" Single physUnitForm]
    "/end OVERWRITE" [].

(** instance.go, as read: no ADDRESS_TYPE *)
Definition instanceRead : form :=
  Block []
    [P "name" "nameSet" (Text);
      P "LongIdentifier" "longIdentifierSet" (Text);
      P "typeDefName" "typeDefNameSet" (Text);
      P "address" "addressSet" (Text)]
    NoGroup
    [Item "/begin ANNOTATION" "annotation" Several annotationForm;
      Item "CALIBRATION_ACCESS" "calibrationAccess" Single (Value (Choice calibrationAccessTexts));
      Item "DISPLAY_IDENTIFIER" "displayIdentifier" Single displayIdentifierForm;
      Item "ECU_ADDRESS_EXTENSION" "ecuAddressExtension" Single ecuAddressExtensionForm;
      Item "/begin IF_DATA" "ifData" Several ifDataForm;
      Item "MATRIX_DIM" "matrixDim" Single matrixDimRead;
      Item "MAX_REFRESH" "maxRefresh" Single maxRefreshForm;
      Item "MODEL_LINK" "modelLink" Single modelLinkForm;
      Item "/begin OVERWRITE" "overwrite" Single overwriteRead;
      Item "READ_WRITE" "readWrite" Single readWriteForm;
      Item "SYMBOL_LINK" "symbolLink" Single symbolLinkForm]
    "/end INSTANCE" [].

(** layout.go, as read *)
Definition layoutRead : form :=
  Fixed [P "indexMode" "indexModeSet" (Choice indexModeRead)] [].

(** measurement.go, as read: the last five parameters go to conversion *)
Definition measurementRead : form :=
  Block []
    [P "name" "nameSet" (Text);
      P "longIdentifier" "longIdentifierSet" (Text);
      P "datatype" "datatypeSet" (Choice dataTypeTexts);
      Param One "conversion" None Text;
      Param One "conversion" None Text;
      Param One "conversion" None Text;
      Param One "conversion" None Text;
      Param One "conversion" None Text]
    NoGroup
    [Item "/begin ANNOTATION" "annotation" Several annotationForm;
      Item "ARRAY_SIZE" "arraySize" Single arraySizeForm;
      Item "BIT_MASK" "bitMask" Single bitMaskForm;
      Item "/begin BIT_OPERATION" "bitOperation" Single bitOperationForm;
      Item "BYTE_ORDER" "byteOrder" Single byteOrderForm;
      Item "DISCRETE" "discrete" Single discreteForm;
      Item "DISPLAY_IDENTIFIER" "displayIdentifier" Single displayIdentifierForm;
      Item "ECU_ADDRESS" "ecuAddress" Single ecuAddressForm;
      Item "ECU_ADDRESS_EXTENSION" "ecuAddressExtension" Single ecuAddressExtensionForm;
      Item "ERROR_MASK" "errorMask" Single errorMaskForm;
      Item "FORMAT" "format" Single formatForm;
      Item "/begin FUNCTION_LIST" "functionList" Single functionListForm;
      Item "/begin IF_DATA" "ifData" Several ifDataForm;
      Item "LAYOUT" "layout" Single layoutRead;
      Item "MATRIX_DIM" "matrixDim" Single matrixDimRead;
      Item "MAX_REFRESH" "maxRefresh" Single maxRefreshForm;
      Item "MODEL_LINK" "modelLink" Single modelLinkForm;
      Item "PHYS_UNIT" "physUnit" Single physUnitForm;
      Item "READ_WRITE" "readWrite" Single readWriteForm;
      Item "REF_MEMORY_SEGMENT" "refMemorySegment" Single refMemorySegmentForm;
      Item "SYMBOL_LINK" "symbolLink" Single symbolLinkForm;
      Item "/begin VIRTUAL" "virtual" Single virtualForm]
    "/end MEASUREMENT" [].

(** memory_segment.go, as read: the first offset is taken five times *)
Definition memorySegmentRead : form :=
  Block []
    [P "name" "nameSet" (Text);
      P "longIdentifier" "longIdentifierSet" (Text);
      P "prgType" "prgTypeSet" (Choice prgTypeTexts);
      P "memoryType" "memoryTypeSet" (Choice memoryTypeTexts);
      P "attribute" "attributeSet" (Choice attributeTexts);
      P "address" "addressSet" (Text);
      P "size" "sizeSet" (Text);
      Param (Copies 5) "offset" (Some "offsetSet") Text;
      Param Nowhere "offset" None Text;
      Param Nowhere "offset" None Text;
      Param Nowhere "offset" None Text;
      Param Nowhere "offset" None Text]
    NoGroup
    [Item "/begin IF_DATA" "ifData" Several ifDataForm]
    "/end MEMORY_SEGMENT" [].

(** mod_par.go, as read *)
Definition modParRead : form :=
  Block ["SystemConstants"]
    [P "comment" "commentSet" (Text)]
    NoGroup
    [Item "ADDR_EPK" "addrEpk" Several addrEpkForm;
      Item "/begin CALIBRATION_METHOD" "calibrationMethod" Several calibrationMethodForm;
      Item "CPU_TYPE" "cpuType" Single cpuTypeForm;
      Item "CUSTOMER" "customer" Single customerForm;
      Item "CUSTOMER_NO" "customerNo" Single customerNoForm;
      Item "ECU" "ecu" Single ecuForm;
      Item "ECU_CALIBRATION_OFFSET" "ecuCalibrationOffset" Single ecuCalibrationOffsetForm;
      Item "EPK" "epk" Single epkForm;
      Item "/begin MEMORY_LAYOUT" "memoryLayout" Several memoryLayoutForm;
      Item "/begin MEMORY_SEGMENT" "memorySegment" Several memorySegmentRead;
      Item "NO_OF_INTERFACES" "noOfInterfaces" Single noOfInterfacesForm;
      Item "PHONE_NO" "phoneNo" Single phoneNoForm;
      Item "SUPPLIER" "supplier" Single supplierForm;
      Item "SYSTEM_CONSTANT" "SystemConstants" (Under "Name") systemConstantForm;
      Item "USER" "user" Single userForm;
      Item "VERSION" "version" Single versionForm]
    "/end MOD_PAR" [].

(** no_rescale_x.go, as read: one parameter *)
Definition noRescaleXRead : form :=
  Fixed [P "Position" "PositionSet" (Number (NUint 16))] [].

(** record_layout.go, as read: no NO_RESCALE_X *)
Definition recordLayoutRead : form :=
  Block []
    [P "Name" "NameSet" (Text)]
    NoGroup
    [Item "ALIGNMENT_BYTE" "AlignmentByte" Single alignmentByteForm;
      Item "ALIGNMENT_FLOAT16_IEEE" "AlignmentFloat16Ieee" Single alignmentFloat16IeeeForm;
      Item "ALIGNMENT_FLOAT32_IEEE" "AlignmentFloat32Ieee" Single alignmentFloat32IeeeForm;
      Item "ALIGNMENT_FLOAT64_IEEE" "AlignmentFloat64Ieee" Single alignmentFloat64IeeeForm;
      Item "ALIGNMENT_INT64" "AlignmentInt64" Single alignmentInt64Form;
      Item "ALIGNMENT_LONG" "AlignmentLong" Single alignmentLongForm;
      Item "ALIGNMENT_WORD" "AlignmentWord" Single alignmentWordForm;
      Item "AXIS_PTS_X" "AxisPtsX" Single axisPtsXRead;
      Item "AXIS_PTS_Y" "AxisPtsY" Single axisPtsYRead;
      Item "AXIS_PTS_Z" "AxisPtsZ" Single axisPtsZRead;
      Item "AXIS_PTS_4" "AxisPts4" Single axisPts4Read;
      Item "AXIS_PTS_5" "AxisPts5" Single axisPts5Read;
      Item "AXIS_RESCALE_X" "AxisRescaleX" Single axisRescaleXRead;
      Item "DIST_OP_X" "DistOpX" Single distOpXForm;
      Item "DIST_OP_Y" "DistOpY" Single distOpYForm;
      Item "DIST_OP_Z" "DistOpZ" Single distOpZForm;
      Item "DIST_OP_4" "DistOp4" Single distOp4Form;
      Item "DIST_OP_5" "DistOp5" Single distOp5Form;
      Item "FIX_NO_AXIS_PTS_X" "FixNoAxisPtsX" Single fixNoAxisPtsXForm;
      Item "FIX_NO_AXIS_PTS_Y" "FixNoAxisPtsY" Single fixNoAxisPtsYForm;
      Item "FIX_NO_AXIS_PTS_Z" "FixNoAxisPtsZ" Single fixNoAxisPtsZForm;
      Item "FIX_NO_AXIS_PTS_4" "FixNoAxisPts4" Single fixNoAxisPts4Form;
      Item "FIX_NO_AXIS_PTS_5" "FixNoAxisPts5" Single fixNoAxisPts5Form;
      Item "FNC_VALUES" "FncValues" Single fncValuesRead;
      Item "IDENTIFICATION" "Identification" Single identificationForm;
      Item "NO_AXIS_PTS_X" "NoAxisPtsX" Single noAxisPtsXForm;
      Item "NO_AXIS_PTS_Y" "NoAxisPtsY" Single noAxisPtsYForm;
      Item "NO_AXIS_PTS_Z" "NoAxisPtsZ" Single noAxisPtsZForm;
      Item "NO_AXIS_PTS_4" "NoAxisPts4" Single noAxisPts4Form;
      Item "NO_AXIS_PTS_5" "NoAxisPts5" Single noAxisPts5Form;
      Item "OFFSET_X" "OffsetX" Single offsetXForm;
      Item "OFFSET_Y" "OffsetY" Single offsetYForm;
      Item "OFFSET_Z" "OffsetZ" Single offsetZForm;
      Item "OFFSET_4" "Offset4" Single offset4Form;
      Item "OFFSET_5" "Offset5" Single offset5Form;
      Item "RESERVED" "Reserved" Single reservedForm;
      Item "RIP_ADDR_W" "RipAddrW" Single ripAddrWForm;
      Item "RIP_ADDR_X" "RipAddrX" Single ripAddrXForm;
      Item "RIP_ADDR_Y" "RipAddrY" Single ripAddrYForm;
      Item "RIP_ADDR_Z" "RipAddrZ" Single ripAddrZForm;
      Item "RIP_ADDR_4" "RipAddr4" Single ripAddr4Form;
      Item "RIP_ADDR_5" "RipAddr5" Single ripAddr5Form;
      Item "SRC_ADDR_X" "SrcAddrX" Single srcAddrXForm;
      Item "SRC_ADDR_Y" "SrcAddrY" Single srcAddrYForm;
      Item "SRC_ADDR_Z" "SrcAddrZ" Single srcAddrZForm;
      Item "SRC_ADDR_4" "SrcAddr4" Single srcAddr4Form;
      Item "SRC_ADDR_5" "SrcAddr5" Single srcAddr5Form;
      Item "SHIFT_OP_X" "ShiftOpX" Single shiftOpXForm;
      Item "SHIFT_OP_Y" "ShiftOpY" Single shiftOpYForm;
      Item "SHIFT_OP_Z" "ShiftOpZ" Single shiftOpZForm;
      Item "SHIFT_OP_4" "ShiftOp4" Single shiftOp4Form;
      Item "SHIFT_OP_5" "ShiftOp5" Single shiftOp5Form;
      Item "STATIC_RECORD_LAYOUT" "StaticRecordLayout" Single staticRecordLayoutForm;
      Item "STATIC_ADDRESS_OFFSETS" "StaticAddressOffsets" Single staticAddressOffsetsForm]
    "/end RECORD_LAYOUT" [].

(** type_def_blob.go, as read: no ADDRESS_TYPE *)
Definition typeDefBlobRead : form :=
  Block []
    [P "name" "nameSet" (Text);
      P "longIdentifier" "longIdentifierSet" (Text);
      P "size" "sizeSet" (Number (NUint 32))]
    NoGroup
    []
    "/end TYPEDEF_BLOB" [].

(** type_def_characteristic.go, as read: no ENCODING *)
Definition typeDefCharacteristicRead : form :=
  Block []
    [P "name" "nameSet" (Text);
      P "LongIdentifier" "longIdentifierSet" (Text);
      P "Type" "TypeSet" (Choice typeTexts);
      P "recordLayout" "recordLayoutSet" (Text);
      P "maxDiff" "maxDiffSet" (Number NFloat);
      P "conversion" "conversionSet" (Text);
      P "lowerLimit" "lowerLimitSet" (Number NFloat);
      P "upperLimit" "upperLimitSet" (Number NFloat)]
    NoGroup
    [Item "/begin AXIS_DESCR" "axisDescr" Several axisDescrForm;
      Item "BIT_MASK" "bitMask" Single bitMaskForm;
      Item "BYTE_ORDER" "byteOrder" Single byteOrderForm;
      Item "DISCRETE" "discrete" Single discreteForm;
      Item "EXTENDED_LIMITS" "extendedLimits" Single extendedLimitsForm;
      Item "FORMAT" "format" Single formatForm;
      Item "MATRIX_DIM" "matrixDim" Single matrixDimRead;
      Item "NUMBER" "number" Single numberForm;
      Item "PHYS_UNIT" "physUnit" Single physUnitForm;
      Item "STEP_SIZE" "stepSize" Single stepSizeForm]
    "/end TYPEDEF_CHARACTERISTIC" [].

(** type_def_measurement.go, as read: the last five parameters go to conversion *)
Definition typeDefMeasurementRead : form :=
  Block []
    [P "name" "nameSet" (Text);
      P "longIdentifier" "longIdentifierSet" (Text);
      P "datatype" "datatypeSet" (Choice dataTypeTexts);
      Param One "conversion" None Text;
      Param One "conversion" None Text;
      Param One "conversion" None Text;
      Param One "conversion" None Text;
      Param One "conversion" None Text]
    NoGroup
    [Item "BIT_MASK" "bitMask" Single bitMaskForm;
      Item "/begin BIT_OPERATION" "bitOperation" Single bitOperationForm;
      Item "BYTE_ORDER" "byteOrder" Single byteOrderForm;
      Item "DISCRETE" "discrete" Single discreteForm;
      Item "ERROR_MASK" "errorMask" Single errorMaskForm;
      Item "FORMAT" "format" Single formatForm;
      Item "LAYOUT" "layout" Single layoutRead;
      Item "MATRIX_DIM" "matrixDim" Single matrixDimRead;
      Item "PHYS_UNIT" "physUnit" Single physUnitForm]
    "/end TYPEDEF_MEASUREMENT" [].

(** structure_component.go, as read: no ADDRESS_TYPE *)
Definition structureComponentRead : form :=
  Block []
    [P "name" "nameSet" (Text);
      P "typeDefName" "typeDefNameSet" (Text);
      P "addressOffset" "addressOffsetSet" (Text)]
    NoGroup
    [Item "LAYOUT" "layout" Single layoutRead;
      Item "MATRIX_DIM" "matrixDim" Single matrixDimRead;
      Item "SYMBOL_TYPE_LINK" "symbolTypeLink" Single symbolTypeLinkForm]
    "/end STRUCTURE_COMPONENT" [].

(** type_def_structure.go, as read: no ADDRESS_TYPE *)
Definition typeDefStructureRead : form :=
  Block []
    [P "name" "nameSet" (Text);
      P "longIdentifier" "longIdentifierSet" (Text);
      P "size" "sizeSet" (Number (NUint 32))]
    NoGroup
    [Item "CONSISTENT_EXCHANGE" "consistentExchange" Single consistentExchangeForm;
      Item "/begin STRUCTURE_COMPONENT" "structureComponent" Several structureComponentRead;
      Item "SYMBOL_TYPE_LINK" "symbolTypeLink" Single symbolTypeLinkForm]
    "/end TYPEDEF_STRUCTURE" [].

(** unit.go, as read: the last three parameters go to longIdentifier *)
Definition unitRead : form :=
  Block []
    [P "name" "nameSet" (Text);
      Param One "longIdentifier" (Some "nameSet") Text;
      Param One "longIdentifier" (Some "nameSet") Text;
      Param One "longIdentifier" (Some "nameSet") Text]
    NoGroup
    [Item "REF_UNIT" "refUnit" Single refUnitForm;
      Item "SI_EXPONENTS" "siExponents" Single siExponentsForm;
      Item "UNIT_CONVERSION" "unitConversion" Single unitConversionForm]
    "/end UNIT" [].

(** variant_coding.go, as read: no VAR_SEPARATOR *)
Definition variantCodingRead : form :=
  Block []
    []
    NoGroup
    [Item "/begin VAR_CHARACTERISTIC" "varCharacteristic" Several varCharacteristicForm;
      Item "/begin VAR_CRITERION" "varCriterion" Several varCriterionForm;
      Item "/begin VAR_FORBIDDEN_COMB" "varForbiddenComb" Several varForbiddenCombForm;
      Item "VAR_NAMING" "varNaming" Single varNamingForm]
    "/end VARIANT_CODING" [].

(** module.go, as read *)
Definition moduleRead : form :=
  Block ["AxisPts";
      "blobs";
      "Characteristics";
      "CompuMethods";
      "CompuTabs";
      "CompuVTabs";
      "CompuVTabRanges";
      "Functions";
      "Groups";
      "ifData";
      "instances";
      "Measurements";
      "RecordLayouts";
      "transformers";
      "typeDefAxis";
      "typeDefBlobs";
      "typeDefCharacteristics";
      "typeDefMeasurements";
      "typeDefStructures";
      "Units";
      "userRights"]
    [P "Name" "nameSet" (Text);
      P "longIdentifier" "longIdentifierSet" (Text)]
    NoGroup
    [Item "/begin A2ML" "a2ml" Single a2mlForm;
      Item "/begin AXIS_PTS" "AxisPts" (Under "name") axisPtsForm;
      Item "/begin BLOB" "blobs" (Under "name") blobRead;
      Item "/begin CHARACTERISTIC" "Characteristics" (Under "Name") characteristicRead;
      Item "/begin COMPU_METHOD" "CompuMethods" (Under "Name") compuMethodForm;
      Item "/begin COMPU_TAB" "CompuTabs" (Under "Name") compuTabForm;
      Item "/begin COMPU_VTAB" "CompuVTabs" (Under "Name") compuVtabForm;
      Item "/begin COMPU_VTAB_RANGE" "CompuVTabRanges" (Under "Name") compuVtabRangeForm;
      Item "/begin FRAME" "frame" Single frameRead;
      Item "/begin FUNCTION" "Functions" (Under "name") functionForm;
      Item "/begin GROUP" "Groups" (Under "groupName") groupForm;
      Item "/begin IF_DATA" "ifData" (Under "name") ifDataForm;
      Item "/begin INSTANCE" "instances" (Under "name") instanceRead;
      Item "/begin MEASUREMENT" "Measurements" (Under "name") measurementRead;
      Item "/begin MOD_COMMON" "ModCommon" Single modCommonForm;
      Item "/begin MOD_PAR" "ModPar" Single modParRead;
      Item "/begin RECORD_LAYOUT" "RecordLayouts" (Under "Name") recordLayoutRead;
      Item "/begin TRANSFORMER" "transformers" (Under "name") transformerForm;
      Item "/begin TYPEDEF_AXIS" "typeDefAxis" (Under "name") typeDefAxisForm;
      Item "/begin TYPEDEF_BLOB" "typeDefBlobs" (Under "name") typeDefBlobRead;
      Item "/begin TYPEDEF_CHARACTERISTIC" "typeDefCharacteristics" (Under "name") typeDefCharacteristicRead;
      Item "/begin TYPEDEF_MEASUREMENT" "typeDefMeasurements" (Under "name") typeDefMeasurementRead;
      Item "/begin TYPEDEF_STRUCTURE" "typeDefStructures" (Under "name") typeDefStructureRead;
      Item "/begin UNIT" "Units" (Under "name") unitRead;
      Item "/begin USER_RIGHTS" "userRights" (Under "userLevelId") userRightsForm;
      Item "/begin VARIANT_CODING" "variantCoding" Single variantCodingRead]
    "/end MODULE" [].

(** project.go, as read *)
Definition projectRead : form :=
  Block []
    [P "Name" "nameSet" (Text);
      P "longIdentifier" "longIdentifierSet" (Text)]
    NoGroup
    [Item "/begin HEADER" "header" Single headerForm;
      Item "/begin MODULE" "Modules" Several moduleRead]
    "/end PROJECT" [].

(** parsers and the forms of their objects *)
Definition standardForms : list (string * form) := [
  ("parseA2ML", a2mlForm);
  ("parseA2MLVersion", a2mlVersionForm);
  ("parseAddrEpk", addrEpkForm);
  ("parseAlignmentByte", alignmentByteForm);
  ("parseAlignmentFloat16Ieee", alignmentFloat16IeeeForm);
  ("parseAlignmentFloat32Ieee", alignmentFloat32IeeeForm);
  ("parseAlignmentFloat64Ieee", alignmentFloat64IeeeForm);
  ("parseAlignmentInt64", alignmentInt64Form);
  ("parseAlignmentLong", alignmentLongForm);
  ("parseAlignmentWord", alignmentWordForm);
  ("parseAnnotation", annotationForm);
  ("parseAnnotationLabel", annotationLabelForm);
  ("parseAnnotationOrigin", annotationOriginForm);
  ("parseAnnotationText", annotationTextForm);
  ("parseArComponent", arComponentForm);
  ("parseArPrototypeOf", arPrototypeOfForm);
  ("parseArraySize", arraySizeForm);
  ("parseASAP2Version", asap2VersionForm);
  ("parseAxisDescr", axisDescrForm);
  ("parseAxisPts", axisPtsForm);
  ("parseAxisPts4", axisPts4Form);
  ("parseAxisPts5", axisPts5Form);
  ("parseAxisPtsRef", axisPtsRefForm);
  ("parseAxisPtsX", axisPtsXForm);
  ("parseAxisPtsY", axisPtsYForm);
  ("parseAxisPtsZ", axisPtsZForm);
  ("parseAxisRescaleX", axisRescaleXForm);
  ("parseBitMask", bitMaskForm);
  ("parseBitOperation", bitOperationForm);
  ("parseBlob", blobForm);
  ("parseByteOrder", byteOrderForm);
  ("parseCalibrationHandle", calibrationHandleForm);
  ("parseCalibrationHandleText", calibrationHandleTextForm);
  ("parseCalibrationMethod", calibrationMethodForm);
  ("parseCharacteristic", characteristicForm);
  ("parseCoeffs", coeffsForm);
  ("parseCoeffsLinear", coeffsLinearForm);
  ("parseComparisonQuantity", comparisonQuantityForm);
  ("parseCompuMethod", compuMethodForm);
  ("parseCompuTab", compuTabForm);
  ("parseCompuTabRef", compuTabRefForm);
  ("parseCompuVtab", compuVtabForm);
  ("parseCompuVtabRange", compuVtabRangeForm);
  ("parseConsistentExchangeKeyword", consistentExchangeForm);
  ("parseCpuType", cpuTypeForm);
  ("parseCurveAxisRef", curveAxisRefForm);
  ("parseCustomer", customerForm);
  ("parseCustomerNo", customerNoForm);
  ("parseDataSize", dataSizeForm);
  ("parseDefCharacteristic", defCharacteristicForm);
  ("parseDefaultValue", defaultValueForm);
  ("parseDefaultValueNumeric", defaultValueNumericForm);
  ("parseDependentCharacteristic", dependentCharacteristicForm);
  ("parseDeposit", depositForm);
  ("parseDiscrete", discreteForm);
  ("parseDisplayIdentifier", displayIdentifierForm);
  ("parseDistOp4", distOp4Form);
  ("parseDistOp5", distOp5Form);
  ("parseDistOpX", distOpXForm);
  ("parseDistOpY", distOpYForm);
  ("parseDistOpZ", distOpZForm);
  ("parseEcu", ecuForm);
  ("parseEcuAddress", ecuAddressForm);
  ("parseECUAddressExtension", ecuAddressExtensionForm);
  ("parseEcuCalibrationOffset", ecuCalibrationOffsetForm);
  ("parseEpk", epkForm);
  ("parseErrorMask", errorMaskForm);
  ("parseExtendedLimits", extendedLimitsForm);
  ("parseFixAxisPar", fixAxisParForm);
  ("parseFixAxisParDist", fixAxisParDistForm);
  ("parseFixAxisParList", fixAxisParListForm);
  ("parseFixNoAxisPts4", fixNoAxisPts4Form);
  ("parseFixNoAxisPts5", fixNoAxisPts5Form);
  ("parseFixNoAxisPtsX", fixNoAxisPtsXForm);
  ("parseFixNoAxisPtsY", fixNoAxisPtsYForm);
  ("parseFixNoAxisPtsZ", fixNoAxisPtsZForm);
  ("parseFncValues", fncValuesForm);
  ("parseFormat", formatForm);
  ("parseFormula", formulaForm);
  ("parseFormulaInv", formulaInvForm);
  ("parseFrame", frameForm);
  ("parseFrameMeasurement", frameMeasurementForm);
  ("parseFunction", functionForm);
  ("parseFunctionList", functionListForm);
  ("parseFunctionVersion", functionVersionForm);
  ("parseGroup", groupForm);
  ("parseGuardRails", guardRailsForm);
  ("parseHeader", headerForm);
  ("parseIdentification", identificationForm);
  ("parseIfData", ifDataForm);
  ("parseInMeasurement", inMeasurementForm);
  ("parseInstance", instanceForm);
  ("parseLayout", layoutForm);
  ("parseLeftShift", leftShiftForm);
  ("parseLimits", limitsForm);
  ("parseLocMeasurement", locMeasurementForm);
  ("parseMapList", mapListForm);
  ("parseMatrixDim", matrixDimForm);
  ("parseMaxGrad", maxGradForm);
  ("parseMaxRefresh", maxRefreshForm);
  ("parseMeasurement", measurementForm);
  ("parseMemoryLayout", memoryLayoutForm);
  ("parseMemorySegment", memorySegmentForm);
  ("parseModCommon", modCommonForm);
  ("parseModPar", modParForm);
  ("parseModelLink", modelLinkForm);
  ("parseModule", moduleForm);
  ("parseMonotony", monotonyForm);
  ("parseNoAxisPts4", noAxisPts4Form);
  ("parseNoAxisPts5", noAxisPts5Form);
  ("parseNoAxisPtsX", noAxisPtsXForm);
  ("parseNoAxisPtsY", noAxisPtsYForm);
  ("parseNoAxisPtsZ", noAxisPtsZForm);
  ("parseNoOfInterfaces", noOfInterfacesForm);
  ("parseNoRescaleX", noRescaleXForm);
  ("parseNumber", numberForm);
  ("parseOffset4", offset4Form);
  ("parseOffset5", offset5Form);
  ("parseOffsetX", offsetXForm);
  ("parseOffsetY", offsetYForm);
  ("parseOffsetZ", offsetZForm);
  ("parseOutMeasurement", outMeasurementForm);
  ("parseOverwrite", overwriteForm);
  ("parsePhoneNo", phoneNoForm);
  ("parsePhysUnit", physUnitForm);
  ("parseProject", projectForm);
  ("parseProjectNo", projectNoForm);
  ("parseReadOnly", readOnlyForm);
  ("parseReadWrite", readWriteForm);
  ("parseRecordLayout", recordLayoutForm);
  ("parseRefCharacteristic", refCharacteristicForm);
  ("parseRefGroup", refGroupForm);
  ("parseRefMeasurement", refMeasurementForm);
  ("parseRefMemorySegment", refMemorySegmentForm);
  ("parseRefUnit", refUnitForm);
  ("parseReserved", reservedForm);
  ("parseRightShift", rightShiftForm);
  ("parseRipAddr4", ripAddr4Form);
  ("parseRipAddr5", ripAddr5Form);
  ("parseRipAddrW", ripAddrWForm);
  ("parseRipAddrX", ripAddrXForm);
  ("parseRipAddrY", ripAddrYForm);
  ("parseRipAddrZ", ripAddrZForm);
  ("parseRoot", rootForm);
  ("parseShiftOp4", shiftOp4Form);
  ("parseShiftOp5", shiftOp5Form);
  ("parseShiftOpX", shiftOpXForm);
  ("parseShiftOpY", shiftOpYForm);
  ("parseShiftOpZ", shiftOpZForm);
  ("parseSiExponents", siExponentsForm);
  ("parseSignExtend", signExtendForm);
  ("parseSrcAddr4", srcAddr4Form);
  ("parseSrcAddr5", srcAddr5Form);
  ("parseSrcAddrX", srcAddrXForm);
  ("parseSrcAddrY", srcAddrYForm);
  ("parseSrcAddrZ", srcAddrZForm);
  ("parseStaticAddressOffsets", staticAddressOffsetsForm);
  ("parseStaticRecordLayout", staticRecordLayoutForm);
  ("parseStatusStringRef", statusStringRefForm);
  ("parseStepSize", stepSizeForm);
  ("parseStructureComponent", structureComponentForm);
  ("parseSubFunction", subFunctionForm);
  ("parseSubGroup", subGroupForm);
  ("parseSupplier", supplierForm);
  ("parseSymbolLink", symbolLinkForm);
  ("parseSymbolTypeLink", symbolTypeLinkForm);
  ("parseSystemConstant", systemConstantForm);
  ("parseTransformer", transformerForm);
  ("parseTransformerInObject", transformerInObjectForm);
  ("parseTransformerOutObject", transformerOutObjectForm);
  ("parseTypeDefAxis", typeDefAxisForm);
  ("parseTypeDefBlob", typeDefBlobForm);
  ("parseTypeDefCharacteristic", typeDefCharacteristicForm);
  ("parseTypeDefMeasurement", typeDefMeasurementForm);
  ("parseTypeDefStructure", typeDefStructureForm);
  ("parseUnit", unitForm);
  ("parseUnitConversion", unitConversionForm);
  ("parseUser", userForm);
  ("parseUserRights", userRightsForm);
  ("parseVarAddress", varAddressForm);
  ("parseVarCharacteristic", varCharacteristicForm);
  ("parseVarCriterion", varCriterionForm);
  ("parseVarForbiddenComb", varForbiddenCombForm);
  ("parseVarMeasurement", varMeasurementForm);
  ("parseVarNaming", varNamingForm);
  ("parseVarSelectionCharacteristic", varSelectionCharacteristicForm);
  ("parseVarSeparator", varSeparatorForm);
  ("parseVariantCoding", variantCodingForm);
  ("parseVersion", versionForm);
  ("parseVirtual", virtualForm);
  ("parseVirtualCharacteristic", virtualCharacteristicForm)].

(** what they read *)
Definition readForms : list (string * form) := [
  ("parseA2ML", a2mlForm);
  ("parseA2MLVersion", a2mlVersionForm);
  ("parseAddrEpk", addrEpkForm);
  ("parseAlignmentByte", alignmentByteForm);
  ("parseAlignmentFloat16Ieee", alignmentFloat16IeeeForm);
  ("parseAlignmentFloat32Ieee", alignmentFloat32IeeeForm);
  ("parseAlignmentFloat64Ieee", alignmentFloat64IeeeForm);
  ("parseAlignmentInt64", alignmentInt64Form);
  ("parseAlignmentLong", alignmentLongForm);
  ("parseAlignmentWord", alignmentWordForm);
  ("parseAnnotation", annotationForm);
  ("parseAnnotationLabel", annotationLabelForm);
  ("parseAnnotationOrigin", annotationOriginForm);
  ("parseAnnotationText", annotationTextForm);
  ("parseArComponent", arComponentForm);
  ("parseArPrototypeOf", arPrototypeOfForm);
  ("parseArraySize", arraySizeForm);
  ("parseASAP2Version", asap2VersionForm);
  ("parseAxisDescr", axisDescrForm);
  ("parseAxisPts", axisPtsForm);
  ("parseAxisPts4", axisPts4Read);
  ("parseAxisPts5", axisPts5Read);
  ("parseAxisPtsRef", axisPtsRefForm);
  ("parseAxisPtsX", axisPtsXRead);
  ("parseAxisPtsY", axisPtsYRead);
  ("parseAxisPtsZ", axisPtsZRead);
  ("parseAxisRescaleX", axisRescaleXRead);
  ("parseBitMask", bitMaskForm);
  ("parseBitOperation", bitOperationForm);
  ("parseBlob", blobRead);
  ("parseByteOrder", byteOrderForm);
  ("parseCalibrationHandle", calibrationHandleForm);
  ("parseCalibrationHandleText", calibrationHandleTextForm);
  ("parseCalibrationMethod", calibrationMethodForm);
  ("parseCharacteristic", characteristicRead);
  ("parseCoeffs", coeffsForm);
  ("parseCoeffsLinear", coeffsLinearForm);
  ("parseComparisonQuantity", comparisonQuantityForm);
  ("parseCompuMethod", compuMethodForm);
  ("parseCompuTab", compuTabForm);
  ("parseCompuTabRef", compuTabRefForm);
  ("parseCompuVtab", compuVtabForm);
  ("parseCompuVtabRange", compuVtabRangeForm);
  ("parseConsistentExchangeKeyword", consistentExchangeForm);
  ("parseCpuType", cpuTypeForm);
  ("parseCurveAxisRef", curveAxisRefForm);
  ("parseCustomer", customerForm);
  ("parseCustomerNo", customerNoForm);
  ("parseDataSize", dataSizeForm);
  ("parseDefCharacteristic", defCharacteristicForm);
  ("parseDefaultValue", defaultValueForm);
  ("parseDefaultValueNumeric", defaultValueNumericForm);
  ("parseDependentCharacteristic", dependentCharacteristicForm);
  ("parseDeposit", depositForm);
  ("parseDiscrete", discreteForm);
  ("parseDisplayIdentifier", displayIdentifierForm);
  ("parseDistOp4", distOp4Form);
  ("parseDistOp5", distOp5Form);
  ("parseDistOpX", distOpXForm);
  ("parseDistOpY", distOpYForm);
  ("parseDistOpZ", distOpZForm);
  ("parseEcu", ecuForm);
  ("parseEcuAddress", ecuAddressForm);
  ("parseECUAddressExtension", ecuAddressExtensionForm);
  ("parseEcuCalibrationOffset", ecuCalibrationOffsetForm);
  ("parseEpk", epkForm);
  ("parseErrorMask", errorMaskForm);
  ("parseExtendedLimits", extendedLimitsForm);
  ("parseFixAxisPar", fixAxisParForm);
  ("parseFixAxisParDist", fixAxisParDistForm);
  ("parseFixAxisParList", fixAxisParListForm);
  ("parseFixNoAxisPts4", fixNoAxisPts4Form);
  ("parseFixNoAxisPts5", fixNoAxisPts5Form);
  ("parseFixNoAxisPtsX", fixNoAxisPtsXForm);
  ("parseFixNoAxisPtsY", fixNoAxisPtsYForm);
  ("parseFixNoAxisPtsZ", fixNoAxisPtsZForm);
  ("parseFncValues", fncValuesRead);
  ("parseFormat", formatForm);
  ("parseFormula", formulaForm);
  ("parseFormulaInv", formulaInvForm);
  ("parseFrame", frameRead);
  ("parseFrameMeasurement", frameMeasurementForm);
  ("parseFunction", functionForm);
  ("parseFunctionList", functionListForm);
  ("parseFunctionVersion", functionVersionForm);
  ("parseGroup", groupForm);
  ("parseGuardRails", guardRailsForm);
  ("parseHeader", headerForm);
  ("parseIdentification", identificationForm);
  ("parseIfData", ifDataForm);
  ("parseInMeasurement", inMeasurementForm);
  ("parseInstance", instanceRead);
  ("parseLayout", layoutRead);
  ("parseLeftShift", leftShiftForm);
  ("parseLimits", limitsForm);
  ("parseLocMeasurement", locMeasurementForm);
  ("parseMapList", mapListForm);
  ("parseMatrixDim", matrixDimRead);
  ("parseMaxGrad", maxGradForm);
  ("parseMaxRefresh", maxRefreshForm);
  ("parseMeasurement", measurementRead);
  ("parseMemoryLayout", memoryLayoutForm);
  ("parseMemorySegment", memorySegmentRead);
  ("parseModCommon", modCommonForm);
  ("parseModPar", modParRead);
  ("parseModelLink", modelLinkForm);
  ("parseModule", moduleRead);
  ("parseMonotony", monotonyForm);
  ("parseNoAxisPts4", noAxisPts4Form);
  ("parseNoAxisPts5", noAxisPts5Form);
  ("parseNoAxisPtsX", noAxisPtsXForm);
  ("parseNoAxisPtsY", noAxisPtsYForm);
  ("parseNoAxisPtsZ", noAxisPtsZForm);
  ("parseNoOfInterfaces", noOfInterfacesForm);
  ("parseNoRescaleX", noRescaleXRead);
  ("parseNumber", numberForm);
  ("parseOffset4", offset4Form);
  ("parseOffset5", offset5Form);
  ("parseOffsetX", offsetXForm);
  ("parseOffsetY", offsetYForm);
  ("parseOffsetZ", offsetZForm);
  ("parseOutMeasurement", outMeasurementForm);
  ("parseOverwrite", overwriteRead);
  ("parsePhoneNo", phoneNoForm);
  ("parsePhysUnit", physUnitForm);
  ("parseProject", projectRead);
  ("parseProjectNo", projectNoForm);
  ("parseReadOnly", readOnlyForm);
  ("parseReadWrite", readWriteForm);
  ("parseRecordLayout", recordLayoutRead);
  ("parseRefCharacteristic", refCharacteristicForm);
  ("parseRefGroup", refGroupForm);
  ("parseRefMeasurement", refMeasurementForm);
  ("parseRefMemorySegment", refMemorySegmentForm);
  ("parseRefUnit", refUnitForm);
  ("parseReserved", reservedForm);
  ("parseRightShift", rightShiftForm);
  ("parseRipAddr4", ripAddr4Form);
  ("parseRipAddr5", ripAddr5Form);
  ("parseRipAddrW", ripAddrWForm);
  ("parseRipAddrX", ripAddrXForm);
  ("parseRipAddrY", ripAddrYForm);
  ("parseRipAddrZ", ripAddrZForm);
  ("parseRoot", rootForm);
  ("parseShiftOp4", shiftOp4Form);
  ("parseShiftOp5", shiftOp5Form);
  ("parseShiftOpX", shiftOpXForm);
  ("parseShiftOpY", shiftOpYForm);
  ("parseShiftOpZ", shiftOpZForm);
  ("parseSiExponents", siExponentsForm);
  ("parseSignExtend", signExtendForm);
  ("parseSrcAddr4", srcAddr4Form);
  ("parseSrcAddr5", srcAddr5Form);
  ("parseSrcAddrX", srcAddrXForm);
  ("parseSrcAddrY", srcAddrYForm);
  ("parseSrcAddrZ", srcAddrZForm);
  ("parseStaticAddressOffsets", staticAddressOffsetsForm);
  ("parseStaticRecordLayout", staticRecordLayoutForm);
  ("parseStatusStringRef", statusStringRefForm);
  ("parseStepSize", stepSizeForm);
  ("parseStructureComponent", structureComponentRead);
  ("parseSubFunction", subFunctionForm);
  ("parseSubGroup", subGroupForm);
  ("parseSupplier", supplierForm);
  ("parseSymbolLink", symbolLinkForm);
  ("parseSymbolTypeLink", symbolTypeLinkForm);
  ("parseSystemConstant", systemConstantForm);
  ("parseTransformer", transformerForm);
  ("parseTransformerInObject", transformerInObjectForm);
  ("parseTransformerOutObject", transformerOutObjectForm);
  ("parseTypeDefAxis", typeDefAxisForm);
  ("parseTypeDefBlob", typeDefBlobRead);
  ("parseTypeDefCharacteristic", typeDefCharacteristicRead);
  ("parseTypeDefMeasurement", typeDefMeasurementRead);
  ("parseTypeDefStructure", typeDefStructureRead);
  ("parseUnit", unitRead);
  ("parseUnitConversion", unitConversionForm);
  ("parseUser", userForm);
  ("parseUserRights", userRightsForm);
  ("parseVarAddress", varAddressForm);
  ("parseVarCharacteristic", varCharacteristicForm);
  ("parseVarCriterion", varCriterionForm);
  ("parseVarForbiddenComb", varForbiddenCombForm);
  ("parseVarMeasurement", varMeasurementForm);
  ("parseVarNaming", varNamingForm);
  ("parseVarSelectionCharacteristic", varSelectionCharacteristicForm);
  ("parseVarSeparator", varSeparatorForm);
  ("parseVariantCoding", variantCodingRead);
  ("parseVersion", versionForm);
  ("parseVirtual", virtualForm);
  ("parseVirtualCharacteristic", virtualCharacteristicForm)].

(** where the two differ *)
Definition misread : list string := [
  "parseAxisPts4";
  "parseAxisPts5";
  "parseAxisPtsX";
  "parseAxisPtsY";
  "parseAxisPtsZ";
  "parseAxisRescaleX";
  "parseBlob";
  "parseCharacteristic";
  "parseFncValues";
  "parseFrame";
  "parseInstance";
  "parseLayout";
  "parseMatrixDim";
  "parseMeasurement";
  "parseMemorySegment";
  "parseModPar";
  "parseModule";
  "parseNoRescaleX";
  "parseOverwrite";
  "parseProject";
  "parseRecordLayout";
  "parseStructureComponent";
  "parseTypeDefBlob";
  "parseTypeDefCharacteristic";
  "parseTypeDefMeasurement";
  "parseTypeDefStructure";
  "parseUnit";
  "parseVariantCoding"].
