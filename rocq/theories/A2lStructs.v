(** The struct declarations of package a2l.  Written by tools/gen_structs.py. *)
From Coq Require Import String List NArith.
From Verif Require Import GoTypes.
Import ListNotations.
Local Open Scope string_scope.
Local Open Scope list_scope.

(** a2l/asap2_version.go 14-19 *)
Definition type_asap2Version : gty := GStruct [
  ("versionNo", GUint 16);
  ("versionNoSet", GBool);
  ("upgradeNo", GUint 16);
  ("upgradeNoSet", GBool)].
(** a2l/a2ml_version.go 23-30 *)
Definition type_a2mlVersion : gty := GStruct [
  ("VersionNo", GUint 16);
  ("versionNoSet", GBool);
  ("UpgradeNo", GUint 16);
  ("upgradeNoSet", GBool)].
(** a2l/project_no.go 9-12 *)
Definition type_projectNo : gty := GStruct [
  ("projectNumber", GStr);
  ("projectNumberSet", GBool)].
(** a2l/version.go 9-12 *)
Definition type_version : gty := GStruct [
  ("versionIdentifier", GStr);
  ("versionIdentifierSet", GBool)].
(** a2l/header.go 9-14 *)
Definition type_header : gty := GStruct [
  ("comment", GStr);
  ("commentSet", GBool);
  ("projectNo", type_projectNo);
  ("version", type_version)].
(** a2l/a2ml.go 9-13 *)
Definition type_a2ml : gty := GStruct [
  ("formatSpecification", GStr);
  ("formatSpecificationSet", GBool)].
(** a2l/annotation_label.go 10-13 *)
Definition type_annotationLabel : gty := GStruct [
  ("label", GStr);
  ("labelSet", GBool)].
(** a2l/annotation_origin.go 10-13 *)
Definition type_annotationOrigin : gty := GStruct [
  ("origin", GStr);
  ("originSet", GBool)].
(** a2l/annotation_text.go 11-14 *)
Definition type_annotationText : gty := GStruct [
  ("annotationText", GStr);
  ("annotationTextSet", GBool)].
(** a2l/annotation.go 11-15 *)
Definition type_annotation : gty := GStruct [
  ("annotationLabel", type_annotationLabel);
  ("annotationOrigin", type_annotationOrigin);
  ("annotationText", GSlice type_annotationText)].
(** a2l/byte_order.go 9-12 *)
Definition type_ByteOrder : gty := GStruct [
  ("ByteOrder", GStr);
  ("ByteOrderSet", GBool)].
(** a2l/deposit.go 9-12 *)
Definition type_deposit : gty := GStruct [
  ("mode", GStr);
  ("modeSet", GBool)].
(** a2l/display_identifier.go 9-12 *)
Definition type_DisplayIdentifier : gty := GStruct [
  ("displayName", GStr);
  ("displayNameSet", GBool)].
(** a2l/ecu_address_extension.go 20-23 *)
Definition type_ecuAddressExtension : gty := GStruct [
  ("extension", GSint 16);
  ("extensionSet", GBool)].
(** a2l/extended_limits.go 10-15 *)
Definition type_extendedLimits : gty := GStruct [
  ("lowerLimit", GFloat);
  ("lowerLimitSet", GBool);
  ("upperLimit", GFloat);
  ("upperLimitSet", GBool)].
(** a2l/format.go 9-12 *)
Definition type_format : gty := GStruct [
  ("formatString", GStr);
  ("formatStringSet", GBool)].
(** a2l/function_list.go 9-12 *)
Definition type_FunctionList : gty := GStruct [
  ("name", GSlice GStr);
  ("nameSet", GBool)].
(** a2l/guard_rails.go 9-12 *)
Definition type_guardRailsKeyword : gty := GStruct [
  ("value", GBool);
  ("valueSet", GBool)].
(** a2l/if_data.go 9-14 *)
Definition type_IfData : gty := GStruct [
  ("name", GStr);
  ("nameSet", GBool);
  ("data", GSlice GStr);
  ("dataSet", GBool)].
(** a2l/monotony.go 9-12 *)
Definition type_Monotony : gty := GStruct [
  ("monotony", GStr);
  ("monotonySet", GBool)].
(** a2l/model_link.go 22-26 *)
Definition type_modelLink : gty := GStruct [
  ("modelName", GStr);
  ("modelNameSet", GBool)].
(** a2l/phys_unit.go 9-12 *)
Definition type_physUnit : gty := GStruct [
  ("unit", GStr);
  ("unitSet", GBool)].
(** a2l/read_only.go 5-8 *)
Definition type_readOnlyKeyword : gty := GStruct [
  ("value", GBool);
  ("valueSet", GBool)].
(** a2l/ref_memory_segment.go 9-12 *)
Definition type_refMemorySegment : gty := GStruct [
  ("name", GStr);
  ("nameSet", GBool)].
(** a2l/step_size.go 10-13 *)
Definition type_StepSize : gty := GStruct [
  ("stepSize", GFloat);
  ("stepSizeSet", GBool)].
(** a2l/symbol_link.go 10-15 *)
Definition type_symbolLink : gty := GStruct [
  ("symbolName", GStr);
  ("symbolNameSet", GBool);
  ("offset", GSint 32);
  ("offsetSet", GBool)].
(** a2l/axis_pts.go 14-73 *)
Definition type_axisPts : gty := GStruct [
  ("name", GStr);
  ("nameSet", GBool);
  ("longIdentifier", GStr);
  ("longIdentifierSet", GBool);
  ("address", GStr);
  ("addressSet", GBool);
  ("inputQuantity", GStr);
  ("inputQuantitySet", GBool);
  ("depositIdent", GStr);
  ("depositIdentSet", GBool);
  ("maxDiff", GFloat);
  ("maxDiffSet", GBool);
  ("conversion", GStr);
  ("conversionSet", GBool);
  ("maxAxisPoints", GUint 16);
  ("maxAxisPointsSet", GBool);
  ("lowerLimit", GFloat);
  ("lowerLimitSet", GBool);
  ("upperLimit", GFloat);
  ("upperLimitSet", GBool);
  ("annotation", GSlice type_annotation);
  ("byteOrder", type_ByteOrder);
  ("calibrationAccess", GStr);
  ("deposit", type_deposit);
  ("displayIdentifier", type_DisplayIdentifier);
  ("ecuAddressExtension", type_ecuAddressExtension);
  ("extendedLimits", type_extendedLimits);
  ("format", type_format);
  ("functionList", GSlice type_FunctionList);
  ("guardRails", type_guardRailsKeyword);
  ("ifData", GSlice type_IfData);
  ("monotony", type_Monotony);
  ("modelLink", type_modelLink);
  ("physUnit", type_physUnit);
  ("readOnly", type_readOnlyKeyword);
  ("refMemorySegment", type_refMemorySegment);
  ("stepSize", type_StepSize);
  ("symbolLink", type_symbolLink)].
(** a2l/max_refresh.go 10-15 *)
Definition type_MaxRefresh : gty := GStruct [
  ("scalingUnit", GUint 16);
  ("scalingUnitSet", GBool);
  ("rate", GUint 32);
  ("rateSet", GBool)].
(** a2l/blob.go 12-31 *)
Definition type_blob : gty := GStruct [
  ("name", GStr);
  ("nameSet", GBool);
  ("longIdentifier", GStr);
  ("longIdentifierSet", GBool);
  ("address", GStr);
  ("addressSet", GBool);
  ("size", GUint 32);
  ("sizeSet", GBool);
  ("addressType", GStr);
  ("addressTypeSet", GBool);
  ("annotation", GSlice type_annotation);
  ("calibrationAccess", GStr);
  ("displayIdentifier", type_DisplayIdentifier);
  ("ecuAddressExtension", type_ecuAddressExtension);
  ("IfData", GSlice type_IfData);
  ("maxRefresh", type_MaxRefresh);
  ("modelLink", type_modelLink);
  ("symbolLink", type_symbolLink)].
(** a2l/axis_pts_ref.go 12-22 *)
Definition type_axisPtsRef : gty := GStruct [
  ("axisPoints", GStr);
  ("axisPointsSet", GBool)].
(** a2l/curve_axis_ref.go 9-12 *)
Definition type_curveAxisRef : gty := GStruct [
  ("curveAxis", GStr);
  ("curveAxisSet", GBool)].
(** a2l/fix_axis_par.go 10-17 *)
Definition type_fixAxisPar : gty := GStruct [
  ("offset", GSint 16);
  ("offsetSet", GBool);
  ("shift", GSint 16);
  ("shiftSet", GBool);
  ("numberapo", GUint 16);
  ("numberapoSet", GBool)].
(** a2l/fix_axis_par_dist.go 10-17 *)
Definition type_fixAxisParDist : gty := GStruct [
  ("offset", GSint 16);
  ("offsetSet", GBool);
  ("distance", GSint 16);
  ("distanceSet", GBool);
  ("numberapo", GUint 16);
  ("numberapoSet", GBool)].
(** a2l/fix_axis_par_list.go 10-13 *)
Definition type_fixAxisParList : gty := GStruct [
  ("axisPtsValue", GSlice GFloat);
  ("axisPtsValueSet", GBool)].
(** a2l/max_grad.go 10-13 *)
Definition type_MaxGrad : gty := GStruct [
  ("maxGradient", GFloat);
  ("maxGradientSet", GBool)].
(** a2l/axis_descr.go 45-84 *)
Definition type_axisDescr : gty := GStruct [
  ("attribute", GStr);
  ("attributeSet", GBool);
  ("inputQuantity", GStr);
  ("inputQuantitySet", GBool);
  ("conversion", GStr);
  ("conversionSet", GBool);
  ("maxAxisPoints", GUint 16);
  ("maxAxisPointsSet", GBool);
  ("lowerLimit", GFloat);
  ("lowerLimitSet", GBool);
  ("upperLimit", GFloat);
  ("upperLimitSet", GBool);
  ("annotation", GSlice type_annotation);
  ("axisPtsRef", type_axisPtsRef);
  ("byteOrder", type_ByteOrder);
  ("curveAxisRef", type_curveAxisRef);
  ("deposit", type_deposit);
  ("extendedLimits", type_extendedLimits);
  ("fixAxisPar", type_fixAxisPar);
  ("fixAxisParDist", type_fixAxisParDist);
  ("fixAxisParList", GSlice type_fixAxisParList);
  ("format", type_format);
  ("maxGrad", type_MaxGrad);
  ("monotony", type_Monotony);
  ("physUnit", type_physUnit);
  ("readOnly", type_readOnlyKeyword);
  ("stepSize", type_StepSize)].
(** a2l/bit_mask.go 29-32 *)
Definition type_bitMask : gty := GStruct [
  ("mask", GStr);
  ("maskSet", GBool)].
(** a2l/comparison_quantity.go 9-12 *)
Definition type_comparisonQuantity : gty := GStruct [
  ("name", GStr);
  ("nameSet", GBool)].
(** a2l/dependent_characteristic.go 9-14 *)
Definition type_DependentCharacteristic : gty := GStruct [
  ("formula", GStr);
  ("formulaSet", GBool);
  ("characteristic", GSlice GStr);
  ("characteristicSet", GBool)].
(** a2l/discrete.go 5-8 *)
Definition type_discreteKeyword : gty := GStruct [
  ("value", GBool);
  ("valueSet", GBool)].
(** a2l/map_list.go 9-12 *)
Definition type_MapList : gty := GStruct [
  ("name", GSlice GStr);
  ("nameSet", GBool)].
(** a2l/matrix_dim.go 10-21 *)
Definition type_MatrixDim : gty := GStruct [
  ("DimX", GUint 16);
  ("DimXSet", GBool);
  ("DimY", GUint 16);
  ("DimYSet", GBool);
  ("DimZ", GUint 16);
  ("DimZSet", GBool);
  ("Dim4", GUint 16);
  ("Dim4Set", GBool);
  ("Dim5", GUint 16);
  ("Dim5Set", GBool)].
(** a2l/number.go 10-13 *)
Definition type_Number : gty := GStruct [
  ("number", GUint 16);
  ("numberSet", GBool)].
(** a2l/virtual_characteristic.go 9-14 *)
Definition type_VirtualCharacteristic : gty := GStruct [
  ("formula", GStr);
  ("formulaSet", GBool);
  ("characteristic", GSlice GStr);
  ("characteristicSet", GBool)].
(** a2l/characteristic.go 10-59 *)
Definition type_Characteristic : gty := GStruct [
  ("Name", GStr);
  ("nameSet", GBool);
  ("LongIdentifier", GStr);
  ("longIdentifierSet", GBool);
  ("Type", GStr);
  ("TypeSet", GBool);
  ("Address", GStr);
  ("AddressUint32", GUint 32);
  ("addressSet", GBool);
  ("Deposit", GStr);
  ("DepositSet", GBool);
  ("encoding", GStr);
  ("maxDiff", GFloat);
  ("maxDiffSet", GBool);
  ("conversion", GStr);
  ("conversionSet", GBool);
  ("lowerLimit", GFloat);
  ("lowerLimitSet", GBool);
  ("upperLimit", GFloat);
  ("upperLimitSet", GBool);
  ("annotation", GSlice type_annotation);
  ("axisDescr", GSlice type_axisDescr);
  ("bitMask", type_bitMask);
  ("byteOrder", type_ByteOrder);
  ("calibrationAccess", GStr);
  ("comparisonQuantity", type_comparisonQuantity);
  ("dependentCharacteristic", GSlice type_DependentCharacteristic);
  ("discrete", type_discreteKeyword);
  ("displayIdentifier", type_DisplayIdentifier);
  ("ecuAddressExtension", type_ecuAddressExtension);
  ("extendedLimits", type_extendedLimits);
  ("format", type_format);
  ("functionList", GSlice type_FunctionList);
  ("guardRails", type_guardRailsKeyword);
  ("ifData", GSlice type_IfData);
  ("mapList", GSlice type_MapList);
  ("MatrixDim", type_MatrixDim);
  ("maxRefresh", type_MaxRefresh);
  ("modelLink", type_modelLink);
  ("number", type_Number);
  ("physUnit", type_physUnit);
  ("readOnly", type_readOnlyKeyword);
  ("refMemorySegment", type_refMemorySegment);
  ("stepSize", type_StepSize);
  ("symbolLink", type_symbolLink);
  ("virtualCharacteristic", GSlice type_VirtualCharacteristic)].
(** a2l/coeffs.go 10-23 *)
Definition type_Coeffs : gty := GStruct [
  ("A", GFloat);
  ("ASet", GBool);
  ("B", GFloat);
  ("BSet", GBool);
  ("C", GFloat);
  ("CSet", GBool);
  ("D", GFloat);
  ("DSet", GBool);
  ("E", GFloat);
  ("ESet", GBool);
  ("F", GFloat);
  ("FSet", GBool)].
(** a2l/coeffs_linear.go 10-15 *)
Definition type_CoeffsLinear : gty := GStruct [
  ("A", GFloat);
  ("ASet", GBool);
  ("B", GFloat);
  ("BSet", GBool)].
(** a2l/compu_tab_ref.go 9-12 *)
Definition type_CompuTabRef : gty := GStruct [
  ("ConversionTable", GStr);
  ("ConversionTableSet", GBool)].
(** a2l/formula_inv.go 9-12 *)
Definition type_formulaInv : gty := GStruct [
  ("gx", GStr);
  ("gxSet", GBool)].
(** a2l/formula.go 9-13 *)
Definition type_Formula : gty := GStruct [
  ("fx", GSlice GStr);
  ("fxSet", GBool);
  ("formulaInv", type_formulaInv)].
(** a2l/ref_unit.go 9-12 *)
Definition type_refUnit : gty := GStruct [
  ("unit", GStr);
  ("unitSet", GBool)].
(** a2l/status_string_ref.go 26-30 *)
Definition type_StatusStringRef : gty := GStruct [
  ("ConversionTable", GStr);
  ("ConversionTableSet", GBool)].
(** a2l/compu_method.go 9-26 *)
Definition type_CompuMethod : gty := GStruct [
  ("Name", GStr);
  ("NameSet", GBool);
  ("LongIdentifier", GStr);
  ("LongIdentifierSet", GBool);
  ("ConversionType", GStr);
  ("ConversionTypeSet", GBool);
  ("Format", GStr);
  ("FormatSet", GBool);
  ("Unit", GStr);
  ("UnitSet", GBool);
  ("Coeffs", type_Coeffs);
  ("CoeffsLinear", type_CoeffsLinear);
  ("CompuTabRef", type_CompuTabRef);
  ("Formula", GSlice type_Formula);
  ("RefUnit", type_refUnit);
  ("StatusStringRef", type_StatusStringRef)].
(** a2l/default_value.go 9-12 *)
Definition type_DefaultValue : gty := GStruct [
  ("DisplayString", GStr);
  ("DisplayStringSet", GBool)].
(** a2l/default_value_numeric.go 10-13 *)
Definition type_DefaultValueNumeric : gty := GStruct [
  ("DisplayValue", GFloat);
  ("DisplayValueSet", GBool)].
(** a2l/compu_tab.go 10-25 *)
Definition type_CompuTab : gty := GStruct [
  ("Name", GStr);
  ("NameSet", GBool);
  ("longIdentifier", GStr);
  ("longIdentifierSet", GBool);
  ("ConversionType", GStr);
  ("ConversionTypeSet", GBool);
  ("NumberValuePairs", GUint 16);
  ("NumberValuePairsSet", GBool);
  ("InVal", GSlice GFloat);
  ("InValSet", GBool);
  ("OutVal", GSlice GFloat);
  ("OutValSet", GBool);
  ("DefaultValue", type_DefaultValue);
  ("DefaultValueNumeric", type_DefaultValueNumeric)].
(** a2l/compu_vtab.go 10-24 *)
Definition type_CompuVTab : gty := GStruct [
  ("Name", GStr);
  ("NameSet", GBool);
  ("LongIdentifier", GStr);
  ("LongIdentifierSet", GBool);
  ("ConversionType", GStr);
  ("ConversionTypeSet", GBool);
  ("NumberValuePairs", GUint 16);
  ("NumberValuePairsSet", GBool);
  ("InVal", GSlice GFloat);
  ("InValSet", GBool);
  ("OutVal", GSlice GStr);
  ("OutValSet", GBool);
  ("DefaultValue", type_DefaultValue)].
(** a2l/compu_vtab_range.go 10-24 *)
Definition type_CompuVTabRange : gty := GStruct [
  ("Name", GStr);
  ("NameSet", GBool);
  ("LongIdentifier", GStr);
  ("LongIdentifierSet", GBool);
  ("NumberValueTriples", GUint 16);
  ("NumberValueTriplesSet", GBool);
  ("InValMin", GSlice GFloat);
  ("InValMinSet", GBool);
  ("InValMax", GSlice GFloat);
  ("InValMaxSet", GBool);
  ("OutVal", GSlice GStr);
  ("OutValSet", GBool);
  ("DefaultValue", type_DefaultValue)].
(** a2l/frame_measurement.go 9-12 *)
Definition type_frameMeasurement : gty := GStruct [
  ("identifier", GSlice GStr);
  ("identifierSet", GBool)].
(** a2l/frame.go 10-21 *)
Definition type_frame : gty := GStruct [
  ("name", GStr);
  ("nameSet", GBool);
  ("longIdentifier", GStr);
  ("longIdentifierSet", GBool);
  ("scalingUnit", GUint 16);
  ("scalingUnitSet", GBool);
  ("rate", GUint 32);
  ("rateSet", GBool);
  ("frameMeasurement", type_frameMeasurement);
  ("ifData", GSlice type_IfData)].
(** a2l/ar_prototype_of.go 11-15 *)
Definition type_arPrototypeOf : gty := GStruct [
  ("name", GStr);
  ("nameSet", GBool)].
(** a2l/ar_component.go 18-30 *)
Definition type_arComponent : gty := GStruct [
  ("componentType", GStr);
  ("componentTypeSet", GBool);
  ("arPrototypeOf", type_arPrototypeOf)].
(** a2l/def_characteristic.go 9-12 *)
Definition type_defCharacteristic : gty := GStruct [
  ("identifier", GSlice GStr);
  ("identifierSet", GBool)].
(** a2l/function_version.go 9-12 *)
Definition type_functionVersion : gty := GStruct [
  ("versionIdentifier", GStr);
  ("versionIdentifierSet", GBool)].
(** a2l/in_measurement.go 9-12 *)
Definition type_inMeasurement : gty := GStruct [
  ("identifier", GSlice GStr);
  ("identifierSet", GBool)].
(** a2l/loc_measurement.go 9-12 *)
Definition type_locMeasurement : gty := GStruct [
  ("identifier", GSlice GStr);
  ("identifierSet", GBool)].
(** a2l/out_measurement.go 9-12 *)
Definition type_outMeasurement : gty := GStruct [
  ("identifier", GSlice GStr);
  ("identifierSet", GBool)].
(** a2l/ref_characteristic.go 9-12 *)
Definition type_refCharacteristic : gty := GStruct [
  ("identifier", GSlice GStr);
  ("identifierSet", GBool)].
(** a2l/sub_function.go 9-12 *)
Definition type_subFunction : gty := GStruct [
  ("identifier", GSlice GStr);
  ("identifierSet", GBool)].
(** a2l/function.go 9-24 *)
Definition type_function : gty := GStruct [
  ("name", GStr);
  ("nameSet", GBool);
  ("longIdentifier", GStr);
  ("longIdentifierSet", GBool);
  ("annotation", GSlice type_annotation);
  ("arComponent", type_arComponent);
  ("defCharacteristic", type_defCharacteristic);
  ("functionVersion", type_functionVersion);
  ("ifData", GSlice type_IfData);
  ("inMeasurement", type_inMeasurement);
  ("locMeasurement", type_locMeasurement);
  ("outMeasurement", type_outMeasurement);
  ("refCharacteristic", type_refCharacteristic);
  ("subFunction", type_subFunction)].
(** a2l/ref_measurement.go 9-12 *)
Definition type_refMeasurement : gty := GStruct [
  ("identifier", GSlice GStr);
  ("identifierSet", GBool)].
(** a2l/root.go 5-8 *)
Definition type_rootKeyword : gty := GStruct [
  ("value", GBool);
  ("valueSet", GBool)].
(** a2l/sub_group.go 9-12 *)
Definition type_subGroup : gty := GStruct [
  ("identifier", GSlice GStr);
  ("identifierSet", GBool)].
(** a2l/group.go 9-21 *)
Definition type_group : gty := GStruct [
  ("groupName", GStr);
  ("groupNameSet", GBool);
  ("groupLongIdentifier", GStr);
  ("groupLongIdentifierSet", GBool);
  ("annotation", GSlice type_annotation);
  ("functionList", type_FunctionList);
  ("ifData", GSlice type_IfData);
  ("refCharacteristic", type_refCharacteristic);
  ("refMeasurement", type_refMeasurement);
  ("root", type_rootKeyword);
  ("subGroup", type_subGroup)].
(** a2l/limits.go 10-15 *)
Definition type_limits : gty := GStruct [
  ("lowerLimit", GFloat);
  ("lowerLimitSet", GBool);
  ("upperLimit", GFloat);
  ("upperLimitSet", GBool)].
(** a2l/overwrite.go 10-22 *)
Definition type_overwrite : gty := GStruct [
  ("name", GStr);
  ("nameSet", GBool);
  ("axisNumer", GUint 16);
  ("axisNumberSet", GBool);
  ("conversion", GStr);
  ("extendedLimits", type_extendedLimits);
  ("inputQuantity", GStr);
  ("format", type_format);
  ("limits", type_limits);
  ("monotony", type_Monotony);
  ("physUnit", type_physUnit)].
(** a2l/read_write.go 5-8 *)
Definition type_readWriteKeyword : gty := GStruct [
  ("value", GBool);
  ("valueSet", GBool)].
(** a2l/instance.go 9-30 *)
Definition type_instance : gty := GStruct [
  ("name", GStr);
  ("nameSet", GBool);
  ("LongIdentifier", GStr);
  ("longIdentifierSet", GBool);
  ("typeDefName", GStr);
  ("typeDefNameSet", GBool);
  ("address", GStr);
  ("addressSet", GBool);
  ("addressType", GStr);
  ("annotation", GSlice type_annotation);
  ("calibrationAccess", GStr);
  ("displayIdentifier", type_DisplayIdentifier);
  ("ecuAddressExtension", type_ecuAddressExtension);
  ("ifData", GSlice type_IfData);
  ("matrixDim", type_MatrixDim);
  ("maxRefresh", type_MaxRefresh);
  ("modelLink", type_modelLink);
  ("overwrite", type_overwrite);
  ("readWrite", type_readWriteKeyword);
  ("symbolLink", type_symbolLink)].
(** a2l/array_size.go 13-17 *)
Definition type_arraySize : gty := GStruct [
  ("number", GUint 16);
  ("numberSet", GBool)].
(** a2l/left_shift.go 10-13 *)
Definition type_LeftShift : gty := GStruct [
  ("bitcount", GUint 32);
  ("bitcountSet", GBool)].
(** a2l/right_shift.go 10-13 *)
Definition type_RightShift : gty := GStruct [
  ("bitcount", GUint 32);
  ("bitcountSet", GBool)].
(** a2l/sign_extend.go 5-8 *)
Definition type_SignExtendKeyword : gty := GStruct [
  ("value", GBool);
  ("valueSet", GBool)].
(** a2l/bit_operation.go 13-20 *)
Definition type_bitOperation : gty := GStruct [
  ("leftShift", type_LeftShift);
  ("rightShift", type_RightShift);
  ("signExtend", type_SignExtendKeyword)].
(** a2l/ecu_address.go 9-12 *)
Definition type_ecuAddress : gty := GStruct [
  ("address", GStr);
  ("addressSet", GBool)].
(** a2l/error_mask.go 9-12 *)
Definition type_errorMask : gty := GStruct [
  ("mask", GStr);
  ("maskSet", GBool)].
(** a2l/layout.go 9-12 *)
Definition type_layout : gty := GStruct [
  ("indexMode", GStr);
  ("indexModeSet", GBool)].
(** a2l/virtual.go 9-12 *)
Definition type_virtual : gty := GStruct [
  ("measuringChannel", GSlice GStr);
  ("measuringChannelSet", GBool)].
(** a2l/measurement.go 10-49 *)
Definition type_measurement : gty := GStruct [
  ("name", GStr);
  ("nameSet", GBool);
  ("longIdentifier", GStr);
  ("longIdentifierSet", GBool);
  ("datatype", GStr);
  ("datatypeSet", GBool);
  ("conversion", GStr);
  ("conversionSet", GBool);
  ("resolution", GUint 16);
  ("resolutionSet", GBool);
  ("accuracy", GFloat);
  ("accuracySet", GBool);
  ("lowerLimit", GFloat);
  ("lowerLimitSet", GBool);
  ("upperLimit", GFloat);
  ("upperLimitSet", GBool);
  ("annotation", GSlice type_annotation);
  ("arraySize", type_arraySize);
  ("bitMask", type_bitMask);
  ("bitOperation", type_bitOperation);
  ("byteOrder", type_ByteOrder);
  ("discrete", type_discreteKeyword);
  ("displayIdentifier", type_DisplayIdentifier);
  ("ecuAddress", type_ecuAddress);
  ("ecuAddressExtension", type_ecuAddressExtension);
  ("errorMask", type_errorMask);
  ("format", type_format);
  ("functionList", type_FunctionList);
  ("ifData", GSlice type_IfData);
  ("layout", type_layout);
  ("matrixDim", type_MatrixDim);
  ("maxRefresh", type_MaxRefresh);
  ("modelLink", type_modelLink);
  ("physUnit", type_physUnit);
  ("readWrite", type_readWriteKeyword);
  ("refMemorySegment", type_refMemorySegment);
  ("symbolLink", type_symbolLink);
  ("virtual", type_virtual)].
(** a2l/alignment_byte.go 12-17 *)
Definition type_alignmentByte : gty := GStruct [
  ("AlignmentBorder", GUint 16);
  ("AlignmentBorderSet", GBool)].
(** a2l/alignment_float16_ieee.go 12-17 *)
Definition type_alignmentFloat16Ieee : gty := GStruct [
  ("AlignmentBorder", GUint 16);
  ("AlignmentBorderSet", GBool)].
(** a2l/alignment_float32_ieee.go 12-17 *)
Definition type_alignmentFloat32Ieee : gty := GStruct [
  ("AlignmentBorder", GUint 16);
  ("AlignmentBorderSet", GBool)].
(** a2l/alignment_float64_ieee.go 12-17 *)
Definition type_alignmentFloat64Ieee : gty := GStruct [
  ("AlignmentBorder", GUint 16);
  ("AlignmentBorderSet", GBool)].
(** a2l/alignment_int64.go 12-17 *)
Definition type_alignmentInt64 : gty := GStruct [
  ("AlignmentBorder", GUint 16);
  ("AlignmentBorderSet", GBool)].
(** a2l/alignment_long.go 12-17 *)
Definition type_alignmentLong : gty := GStruct [
  ("AlignmentBorder", GUint 16);
  ("AlignmentBorderSet", GBool)].
(** a2l/alignment_word.go 12-17 *)
Definition type_alignmentWord : gty := GStruct [
  ("AlignmentBorder", GUint 16);
  ("AlignmentBorderSet", GBool)].
(** a2l/data_size.go 10-13 *)
Definition type_dataSize : gty := GStruct [
  ("size", GUint 16);
  ("sizeSet", GBool)].
(** a2l/mod_common.go 9-22 *)
Definition type_modCommon : gty := GStruct [
  ("comment", GStr);
  ("commentSet", GBool);
  ("AlignmentByte", type_alignmentByte);
  ("AlignmentFloat16Ieee", type_alignmentFloat16Ieee);
  ("AlignmentFloat32Ieee", type_alignmentFloat32Ieee);
  ("AlignmentFloat64Ieee", type_alignmentFloat64Ieee);
  ("AlignmentInt64", type_alignmentInt64);
  ("AlignmentLong", type_alignmentLong);
  ("AlignmentWord", type_alignmentWord);
  ("ByteOrder", type_ByteOrder);
  ("dataSize", type_dataSize);
  ("deposit", type_deposit)].
(** a2l/addr_epk.go 9-13 *)
Definition type_addrEpk : gty := GStruct [
  ("address", GStr);
  ("addressSet", GBool)].
(** a2l/calibration_handle_text.go 9-12 *)
Definition type_calibrationHandleText : gty := GStruct [
  ("text", GStr);
  ("textSet", GBool)].
(** a2l/calibration_handle.go 9-13 *)
Definition type_calibrationHandle : gty := GStruct [
  ("handle", GSlice GStr);
  ("handleSet", GBool);
  ("calibrationHandleText", type_calibrationHandleText)].
(** a2l/calibration_method.go 10-16 *)
Definition type_calibrationMethod : gty := GStruct [
  ("method", GStr);
  ("methodSet", GBool);
  ("version", GUint 32);
  ("versionSet", GBool);
  ("calibrationHandle", GSlice type_calibrationHandle)].
(** a2l/cpu_type.go 9-12 *)
Definition type_cpuType : gty := GStruct [
  ("cpu", GStr);
  ("cpuSet", GBool)].
(** a2l/customer.go 9-12 *)
Definition type_customer : gty := GStruct [
  ("customer", GStr);
  ("customerSet", GBool)].
(** a2l/customer_no.go 9-12 *)
Definition type_customerNo : gty := GStruct [
  ("number", GStr);
  ("numberSet", GBool)].
(** a2l/ecu.go 9-12 *)
Definition type_ecu : gty := GStruct [
  ("controlUnit", GStr);
  ("controlUnitSet", GBool)].
(** a2l/ecu_calibration_offset.go 19-22 *)
Definition type_ecuCalibrationOffset : gty := GStruct [
  ("offset", GStr);
  ("offsetSet", GBool)].
(** a2l/epk.go 9-12 *)
Definition type_epk : gty := GStruct [
  ("identifier", GStr);
  ("identifierSet", GBool)].
(** a2l/memory_layout.go 10-20 *)
Definition type_memoryLayout : gty := GStruct [
  ("prgType", GStr);
  ("prgTypeSet", GBool);
  ("address", GStr);
  ("addressSet", GBool);
  ("size", GStr);
  ("sizeSet", GBool);
  ("offset", GSlice (GSint 32));
  ("offsetSet", GBool);
  ("ifData", GSlice type_IfData)].
(** a2l/memory_segment.go 9-27 *)
Definition type_memorySegment : gty := GStruct [
  ("name", GStr);
  ("nameSet", GBool);
  ("longIdentifier", GStr);
  ("longIdentifierSet", GBool);
  ("prgType", GStr);
  ("prgTypeSet", GBool);
  ("memoryType", GStr);
  ("memoryTypeSet", GBool);
  ("attribute", GStr);
  ("attributeSet", GBool);
  ("address", GStr);
  ("addressSet", GBool);
  ("size", GStr);
  ("sizeSet", GBool);
  ("offset", GArray 5 GStr);
  ("offsetSet", GBool);
  ("ifData", GSlice type_IfData)].
(** a2l/no_of_interfaces.go 10-13 *)
Definition type_noOfInterfaces : gty := GStruct [
  ("num", GUint 16);
  ("numSet", GBool)].
(** a2l/phone_no.go 9-12 *)
Definition type_phoneNo : gty := GStruct [
  ("telnum", GStr);
  ("telnumSet", GBool)].
(** a2l/supplier.go 9-12 *)
Definition type_supplier : gty := GStruct [
  ("manufacturer", GStr);
  ("manufacturerSet", GBool)].
(** a2l/system_constant.go 9-14 *)
Definition type_SystemConstant : gty := GStruct [
  ("Name", GStr);
  ("NameSet", GBool);
  ("Value", GStr);
  ("ValueSet", GBool)].
(** a2l/user.go 9-12 *)
Definition type_user : gty := GStruct [
  ("userName", GStr);
  ("userNameSet", GBool)].
(** a2l/mod_par.go 9-28 *)
Definition type_modPar : gty := GStruct [
  ("comment", GStr);
  ("commentSet", GBool);
  ("addrEpk", GSlice type_addrEpk);
  ("calibrationMethod", GSlice type_calibrationMethod);
  ("cpuType", type_cpuType);
  ("customer", type_customer);
  ("customerNo", type_customerNo);
  ("ecu", type_ecu);
  ("ecuCalibrationOffset", type_ecuCalibrationOffset);
  ("epk", type_epk);
  ("memoryLayout", GSlice type_memoryLayout);
  ("memorySegment", GSlice type_memorySegment);
  ("noOfInterfaces", type_noOfInterfaces);
  ("phoneNo", type_phoneNo);
  ("supplier", type_supplier);
  ("SystemConstants", GMap type_SystemConstant);
  ("user", type_user);
  ("version", type_version)].
(** a2l/axis_pts_x.go 10-23 *)
Definition type_AxisPtsX : gty := GStruct [
  ("Position", GUint 16);
  ("PositionSet", GBool);
  ("Datatype", GStr);
  ("DatatypeSet", GBool);
  ("IndexIncr", GStr);
  ("IndexIncrSet", GBool);
  ("Addressing", GStr);
  ("AddressingSet", GBool);
  ("Values", GAny);
  ("ValuesSet", GBool)].
(** a2l/axis_pts_y.go 10-23 *)
Definition type_AxisPtsY : gty := GStruct [
  ("Position", GUint 16);
  ("PositionSet", GBool);
  ("Datatype", GStr);
  ("DatatypeSet", GBool);
  ("IndexIncr", GStr);
  ("IndexIncrSet", GBool);
  ("Addressing", GStr);
  ("AddressingSet", GBool);
  ("Values", GAny);
  ("ValuesSet", GBool)].
(** a2l/axis_pts_z.go 10-23 *)
Definition type_AxisPtsZ : gty := GStruct [
  ("Position", GUint 16);
  ("PositionSet", GBool);
  ("Datatype", GStr);
  ("DatatypeSet", GBool);
  ("IndexIncr", GStr);
  ("IndexIncrSet", GBool);
  ("Addressing", GStr);
  ("AddressingSet", GBool);
  ("Values", GAny);
  ("ValuesSet", GBool)].
(** a2l/axis_pts_4.go 10-23 *)
Definition type_AxisPts4 : gty := GStruct [
  ("Position", GUint 16);
  ("PositionSet", GBool);
  ("Datatype", GStr);
  ("DatatypeSet", GBool);
  ("IndexIncr", GStr);
  ("IndexIncrSet", GBool);
  ("Addressing", GStr);
  ("AddressingSet", GBool);
  ("Values", GAny);
  ("ValuesSet", GBool)].
(** a2l/axis_pts_5.go 10-23 *)
Definition type_AxisPts5 : gty := GStruct [
  ("Position", GUint 16);
  ("PositionSet", GBool);
  ("Datatype", GStr);
  ("DatatypeSet", GBool);
  ("IndexIncr", GStr);
  ("IndexIncrSet", GBool);
  ("Addressing", GStr);
  ("AddressingSet", GBool);
  ("Values", GAny);
  ("ValuesSet", GBool)].
(** a2l/axis_rescale_x.go 56-68 *)
Definition type_AxisRescaleX : gty := GStruct [
  ("Position", GUint 16);
  ("PositionSet", GBool);
  ("Datatype", GStr);
  ("DatatypeSet", GBool);
  ("MaxNumberOfRescalePairs", GUint 16);
  ("MaxNumberOfRescalePairsSet", GBool);
  ("IndexIncr", GStr);
  ("IndexIncrSet", GBool);
  ("Adressing", GStr);
  ("AdressingSet", GBool)].
(** a2l/dist_op_x.go 29-34 *)
Definition type_DistOpX : gty := GStruct [
  ("Position", GUint 16);
  ("PositionSet", GBool);
  ("Datatype", GStr);
  ("DatatypeSet", GBool)].
(** a2l/dist_op_y.go 29-34 *)
Definition type_DistOpY : gty := GStruct [
  ("Position", GUint 16);
  ("PositionSet", GBool);
  ("Datatype", GStr);
  ("DatatypeSet", GBool)].
(** a2l/dist_op_z.go 29-34 *)
Definition type_DistOpZ : gty := GStruct [
  ("Position", GUint 16);
  ("PositionSet", GBool);
  ("Datatype", GStr);
  ("DatatypeSet", GBool)].
(** a2l/dist_op_4.go 29-34 *)
Definition type_DistOp4 : gty := GStruct [
  ("Position", GUint 16);
  ("PositionSet", GBool);
  ("Datatype", GStr);
  ("DatatypeSet", GBool)].
(** a2l/dist_op_5.go 29-34 *)
Definition type_DistOp5 : gty := GStruct [
  ("Position", GUint 16);
  ("PositionSet", GBool);
  ("Datatype", GStr);
  ("DatatypeSet", GBool)].
(** a2l/fix_no_axis_pts_x.go 10-13 *)
Definition type_FixNoAxisPtsX : gty := GStruct [
  ("NumberOfAxisPoints", GUint 16);
  ("NumberOfAxisPointsSet", GBool)].
(** a2l/fix_no_axis_pts_y.go 10-13 *)
Definition type_FixNoAxisPtsY : gty := GStruct [
  ("NumberOfAxisPoints", GUint 16);
  ("NumberOfAxisPointsSet", GBool)].
(** a2l/fix_no_axis_pts_z.go 10-13 *)
Definition type_FixNoAxisPtsZ : gty := GStruct [
  ("NumberOfAxisPoints", GUint 16);
  ("NumberOfAxisPointsSet", GBool)].
(** a2l/fix_no_axis_pts_4.go 10-13 *)
Definition type_FixNoAxisPts4 : gty := GStruct [
  ("NumberOfAxisPoints", GUint 16);
  ("NumberOfAxisPointsSet", GBool)].
(** a2l/fix_no_axis_pts_5.go 10-13 *)
Definition type_FixNoAxisPts5 : gty := GStruct [
  ("NumberOfAxisPoints", GUint 16);
  ("NumberOfAxisPointsSet", GBool)].
(** a2l/fnc_values.go 11-38 *)
Definition type_FncValues : gty := GStruct [
  ("Position", GUint 16);
  ("PositionSet", GBool);
  ("Datatype", GStr);
  ("DatatypeSet", GBool);
  ("IndexMode", GStr);
  ("IndexModeSet", GBool);
  ("Addresstype", GStr);
  ("AddresstypeSet", GBool)].
(** a2l/identification.go 11-16 *)
Definition type_Identification : gty := GStruct [
  ("Position", GUint 16);
  ("PositionSet", GBool);
  ("Datatype", GStr);
  ("DatatypeSet", GBool)].
(** a2l/no_axis_pts_x.go 10-15 *)
Definition type_NoAxisPtsX : gty := GStruct [
  ("Position", GUint 16);
  ("PositionSet", GBool);
  ("Datatype", GStr);
  ("DatatypeSet", GBool)].
(** a2l/no_axis_pts_y.go 10-15 *)
Definition type_NoAxisPtsY : gty := GStruct [
  ("Position", GUint 16);
  ("PositionSet", GBool);
  ("Datatype", GStr);
  ("DatatypeSet", GBool)].
(** a2l/no_axis_pts_z.go 10-15 *)
Definition type_NoAxisPtsZ : gty := GStruct [
  ("Position", GUint 16);
  ("PositionSet", GBool);
  ("Datatype", GStr);
  ("DatatypeSet", GBool)].
(** a2l/no_axis_pts_4.go 10-15 *)
Definition type_NoAxisPts4 : gty := GStruct [
  ("Position", GUint 16);
  ("PositionSet", GBool);
  ("Datatype", GStr);
  ("DatatypeSet", GBool)].
(** a2l/no_axis_pts_5.go 10-15 *)
Definition type_NoAxisPts5 : gty := GStruct [
  ("Position", GUint 16);
  ("PositionSet", GBool);
  ("Datatype", GStr);
  ("DatatypeSet", GBool)].
(** a2l/no_rescale_x.go 11-16 *)
Definition type_NoRescaleX : gty := GStruct [
  ("Position", GUint 16);
  ("PositionSet", GBool);
  ("Datatype", GStr);
  ("DatatypeSet", GBool)].
(** a2l/offset_x.go 17-22 *)
Definition type_OffsetX : gty := GStruct [
  ("Position", GUint 16);
  ("PositionSet", GBool);
  ("Datatype", GStr);
  ("DatatypeSet", GBool)].
(** a2l/offset_y.go 17-22 *)
Definition type_offsetY : gty := GStruct [
  ("Position", GUint 16);
  ("PositionSet", GBool);
  ("Datatype", GStr);
  ("DatatypeSet", GBool)].
(** a2l/offset_z.go 17-22 *)
Definition type_OffsetZ : gty := GStruct [
  ("Position", GUint 16);
  ("PositionSet", GBool);
  ("Datatype", GStr);
  ("DatatypeSet", GBool)].
(** a2l/offset_4.go 17-22 *)
Definition type_Offset4 : gty := GStruct [
  ("Position", GUint 16);
  ("PositionSet", GBool);
  ("Datatype", GStr);
  ("DatatypeSet", GBool)].
(** a2l/offset_5.go 17-22 *)
Definition type_Offset5 : gty := GStruct [
  ("Position", GUint 16);
  ("PositionSet", GBool);
  ("Datatype", GStr);
  ("DatatypeSet", GBool)].
(** a2l/reserved.go 15-20 *)
Definition type_Reserved : gty := GStruct [
  ("Position", GUint 16);
  ("PositionSet", GBool);
  ("DataSize", GStr);
  ("DataSizeSet", GBool)].
(** a2l/rip_addr_w.go 42-47 *)
Definition type_RipAddrW : gty := GStruct [
  ("Position", GUint 16);
  ("PositionSet", GBool);
  ("Datatype", GStr);
  ("DatatypeSet", GBool)].
(** a2l/rip_addr_x.go 42-47 *)
Definition type_ripAddrX : gty := GStruct [
  ("position", GUint 16);
  ("positionSet", GBool);
  ("datatype", GStr);
  ("datatypeSet", GBool)].
(** a2l/rip_addr_y.go 42-47 *)
Definition type_RipAddrY : gty := GStruct [
  ("Position", GUint 16);
  ("PositionSet", GBool);
  ("Datatype", GStr);
  ("DatatypeSet", GBool)].
(** a2l/rip_addr_z.go 42-47 *)
Definition type_RipAddrZ : gty := GStruct [
  ("Position", GUint 16);
  ("PositionSet", GBool);
  ("Datatype", GStr);
  ("DatatypeSet", GBool)].
(** a2l/rip_addr_4.go 42-47 *)
Definition type_RipAddr4 : gty := GStruct [
  ("Position", GUint 16);
  ("PositionSet", GBool);
  ("Datatype", GStr);
  ("DatatypeSet", GBool)].
(** a2l/rip_addr_5.go 42-47 *)
Definition type_RipAddr5 : gty := GStruct [
  ("Position", GUint 16);
  ("PositionSet", GBool);
  ("Datatype", GStr);
  ("DatatypeSet", GBool)].
(** a2l/src_addr_x.go 10-15 *)
Definition type_srcAddrX : gty := GStruct [
  ("position", GUint 16);
  ("positionSet", GBool);
  ("datatype", GStr);
  ("datatypeSet", GBool)].
(** a2l/src_addr_y.go 11-16 *)
Definition type_srcAddrY : gty := GStruct [
  ("position", GUint 16);
  ("positionSet", GBool);
  ("datatype", GStr);
  ("datatypeSet", GBool)].
(** a2l/src_addr_z.go 11-16 *)
Definition type_srcAddrZ : gty := GStruct [
  ("position", GUint 16);
  ("positionSet", GBool);
  ("datatype", GStr);
  ("datatypeSet", GBool)].
(** a2l/src_addr_4.go 11-16 *)
Definition type_srcAddr4 : gty := GStruct [
  ("position", GUint 16);
  ("positionSet", GBool);
  ("datatype", GStr);
  ("datatypeSet", GBool)].
(** a2l/src_addr_5.go 11-16 *)
Definition type_srcAddr5 : gty := GStruct [
  ("position", GUint 16);
  ("positionSet", GBool);
  ("datatype", GStr);
  ("datatypeSet", GBool)].
(** a2l/shift_op_x.go 20-25 *)
Definition type_ShiftOpX : gty := GStruct [
  ("Position", GUint 16);
  ("PositionSet", GBool);
  ("Datatype", GStr);
  ("DatatypeSet", GBool)].
(** a2l/shift_op_y.go 20-25 *)
Definition type_ShiftOpY : gty := GStruct [
  ("Position", GUint 16);
  ("PositionSet", GBool);
  ("Datatype", GStr);
  ("DatatypeSet", GBool)].
(** a2l/shift_op_z.go 20-25 *)
Definition type_ShiftOpZ : gty := GStruct [
  ("Position", GUint 16);
  ("PositionSet", GBool);
  ("Datatype", GStr);
  ("DatatypeSet", GBool)].
(** a2l/shift_op_4.go 20-25 *)
Definition type_ShiftOp4 : gty := GStruct [
  ("Position", GUint 16);
  ("PositionSet", GBool);
  ("Datatype", GStr);
  ("DatatypeSet", GBool)].
(** a2l/shift_op_5.go 20-25 *)
Definition type_ShiftOp5 : gty := GStruct [
  ("Position", GUint 16);
  ("PositionSet", GBool);
  ("Datatype", GStr);
  ("DatatypeSet", GBool)].
(** a2l/static_record_layout.go 16-19 *)
Definition type_staticRecordLayoutKeyword : gty := GStruct [
  ("value", GBool);
  ("valueSet", GBool)].
(** a2l/static_address_offsets.go 5-8 *)
Definition type_staticAddressOffsetsKeyword : gty := GStruct [
  ("value", GBool);
  ("valueSet", GBool)].
(** a2l/record_layout.go 9-68 *)
Definition type_RecordLayout : gty := GStruct [
  ("Name", GStr);
  ("NameSet", GBool);
  ("AlignmentByte", type_alignmentByte);
  ("AlignmentFloat16Ieee", type_alignmentFloat16Ieee);
  ("AlignmentFloat32Ieee", type_alignmentFloat32Ieee);
  ("AlignmentFloat64Ieee", type_alignmentFloat64Ieee);
  ("AlignmentInt64", type_alignmentInt64);
  ("AlignmentLong", type_alignmentLong);
  ("AlignmentWord", type_alignmentWord);
  ("AxisPtsX", type_AxisPtsX);
  ("AxisPtsY", type_AxisPtsY);
  ("AxisPtsZ", type_AxisPtsZ);
  ("AxisPts4", type_AxisPts4);
  ("AxisPts5", type_AxisPts5);
  ("AxisRescaleX", type_AxisRescaleX);
  ("DistOpX", type_DistOpX);
  ("DistOpY", type_DistOpY);
  ("DistOpZ", type_DistOpZ);
  ("DistOp4", type_DistOp4);
  ("DistOp5", type_DistOp5);
  ("FixNoAxisPtsX", type_FixNoAxisPtsX);
  ("FixNoAxisPtsY", type_FixNoAxisPtsY);
  ("FixNoAxisPtsZ", type_FixNoAxisPtsZ);
  ("FixNoAxisPts4", type_FixNoAxisPts4);
  ("FixNoAxisPts5", type_FixNoAxisPts5);
  ("FncValues", type_FncValues);
  ("Identification", type_Identification);
  ("NoAxisPtsX", type_NoAxisPtsX);
  ("NoAxisPtsY", type_NoAxisPtsY);
  ("NoAxisPtsZ", type_NoAxisPtsZ);
  ("NoAxisPts4", type_NoAxisPts4);
  ("NoAxisPts5", type_NoAxisPts5);
  ("NoRescaleX", type_NoRescaleX);
  ("OffsetX", type_OffsetX);
  ("OffsetY", type_offsetY);
  ("OffsetZ", type_OffsetZ);
  ("Offset4", type_Offset4);
  ("Offset5", type_Offset5);
  ("Reserved", type_Reserved);
  ("RipAddrW", type_RipAddrW);
  ("RipAddrX", type_ripAddrX);
  ("RipAddrY", type_RipAddrY);
  ("RipAddrZ", type_RipAddrZ);
  ("RipAddr4", type_RipAddr4);
  ("RipAddr5", type_RipAddr5);
  ("SrcAddrX", type_srcAddrX);
  ("SrcAddrY", type_srcAddrY);
  ("SrcAddrZ", type_srcAddrZ);
  ("SrcAddr4", type_srcAddr4);
  ("SrcAddr5", type_srcAddr5);
  ("ShiftOpX", type_ShiftOpX);
  ("ShiftOpY", type_ShiftOpY);
  ("ShiftOpZ", type_ShiftOpZ);
  ("ShiftOp4", type_ShiftOp4);
  ("ShiftOp5", type_ShiftOp5);
  ("StaticRecordLayout", type_staticRecordLayoutKeyword);
  ("StaticAddressOffsets", type_staticAddressOffsetsKeyword);
  ("RelativePositions", GNumbered GStr)].
(** a2l/transformer_in_object.go 9-12 *)
Definition type_transformerInObject : gty := GStruct [
  ("identifier", GSlice GStr);
  ("identifierSet", GBool)].
(** a2l/transformer_out_object.go 9-12 *)
Definition type_transformerOutObject : gty := GStruct [
  ("identifier", GSlice GStr);
  ("identifierSet", GBool)].
(** a2l/transformer.go 12-29 *)
Definition type_transformer : gty := GStruct [
  ("name", GStr);
  ("nameSet", GBool);
  ("version", GStr);
  ("versionSet", GBool);
  ("executable32", GStr);
  ("executable32Set", GBool);
  ("executable64", GStr);
  ("executable64Set", GBool);
  ("timeOut", GUint 32);
  ("timeOutSet", GBool);
  ("trigger", GStr);
  ("triggerSet", GBool);
  ("inverseTransformer", GStr);
  ("inverseTransformerSet", GBool);
  ("transformerInObjects", type_transformerInObject);
  ("transformerOutObjects", type_transformerOutObject)].
(** a2l/type_def_axis.go 10-36 *)
Definition type_typeDefAxis : gty := GStruct [
  ("name", GStr);
  ("nameSet", GBool);
  ("LongIdentifier", GStr);
  ("longIdentifierSet", GBool);
  ("inputQuantity", GStr);
  ("inputQuantitySet", GBool);
  ("recordLayout", GStr);
  ("recordLayoutSet", GBool);
  ("maxDiff", GFloat);
  ("maxDiffSet", GBool);
  ("conversion", GStr);
  ("conversionSet", GBool);
  ("maxAxisPoints", GUint 16);
  ("maxAxisPointsSet", GBool);
  ("lowerLimit", GFloat);
  ("lowerLimitSet", GBool);
  ("upperLimit", GFloat);
  ("upperLimitSet", GBool);
  ("byteOrder", type_ByteOrder);
  ("deposit", type_deposit);
  ("extendedLimits", type_extendedLimits);
  ("format", type_format);
  ("monotony", type_Monotony);
  ("physUnit", type_physUnit);
  ("stepSize", type_StepSize)].
(** a2l/type_def_blob.go 10-18 *)
Definition type_typeDefBlob : gty := GStruct [
  ("name", GStr);
  ("nameSet", GBool);
  ("longIdentifier", GStr);
  ("longIdentifierSet", GBool);
  ("size", GUint 32);
  ("sizeSet", GBool);
  ("addressType", GStr)].
(** a2l/type_def_characteristic.go 10-38 *)
Definition type_typeDefCharacteristic : gty := GStruct [
  ("name", GStr);
  ("nameSet", GBool);
  ("LongIdentifier", GStr);
  ("longIdentifierSet", GBool);
  ("Type", GStr);
  ("TypeSet", GBool);
  ("recordLayout", GStr);
  ("recordLayoutSet", GBool);
  ("maxDiff", GFloat);
  ("maxDiffSet", GBool);
  ("conversion", GStr);
  ("conversionSet", GBool);
  ("lowerLimit", GFloat);
  ("lowerLimitSet", GBool);
  ("upperLimit", GFloat);
  ("upperLimitSet", GBool);
  ("axisDescr", GSlice type_axisDescr);
  ("bitMask", type_bitMask);
  ("byteOrder", type_ByteOrder);
  ("discrete", type_discreteKeyword);
  ("encoding", GStr);
  ("extendedLimits", type_extendedLimits);
  ("format", type_format);
  ("matrixDim", type_MatrixDim);
  ("number", type_Number);
  ("physUnit", type_physUnit);
  ("stepSize", type_StepSize)].
(** a2l/type_def_measurement.go 10-36 *)
Definition type_typeDefMeasurement : gty := GStruct [
  ("name", GStr);
  ("nameSet", GBool);
  ("longIdentifier", GStr);
  ("longIdentifierSet", GBool);
  ("datatype", GStr);
  ("datatypeSet", GBool);
  ("conversion", GStr);
  ("conversionSet", GBool);
  ("resolution", GUint 16);
  ("resolutionSet", GBool);
  ("accuracy", GFloat);
  ("accuracySet", GBool);
  ("lowerLimit", GFloat);
  ("lowerLimitSet", GBool);
  ("upperLimit", GFloat);
  ("upperLimitSet", GBool);
  ("bitMask", type_bitMask);
  ("bitOperation", type_bitOperation);
  ("byteOrder", type_ByteOrder);
  ("discrete", type_discreteKeyword);
  ("errorMask", type_errorMask);
  ("format", type_format);
  ("layout", type_layout);
  ("matrixDim", type_MatrixDim);
  ("physUnit", type_physUnit)].
(** a2l/consistent_exchange.go 5-8 *)
Definition type_consistentExchangeKeyword : gty := GStruct [
  ("value", GBool);
  ("valueSet", GBool)].
(** a2l/symbol_type_link.go 9-11 *)
Definition type_symbolTypeLink : gty := GStruct [
  ("symbolName", GStr)].
(** a2l/structure_component.go 9-20 *)
Definition type_structureComponent : gty := GStruct [
  ("name", GStr);
  ("nameSet", GBool);
  ("typeDefName", GStr);
  ("typeDefNameSet", GBool);
  ("addressOffset", GStr);
  ("addressOffsetSet", GBool);
  ("addressType", GStr);
  ("layout", type_layout);
  ("matrixDim", type_MatrixDim);
  ("symbolTypeLink", type_symbolTypeLink)].
(** a2l/type_def_structure.go 10-21 *)
Definition type_typeDefStructure : gty := GStruct [
  ("name", GStr);
  ("nameSet", GBool);
  ("longIdentifier", GStr);
  ("longIdentifierSet", GBool);
  ("size", GUint 32);
  ("sizeSet", GBool);
  ("addressType", GStr);
  ("consistentExchange", type_consistentExchangeKeyword);
  ("structureComponent", GSlice type_structureComponent);
  ("symbolTypeLink", type_symbolTypeLink)].
(** a2l/si_exponents.go 10-25 *)
Definition type_siExponents : gty := GStruct [
  ("length", GSint 16);
  ("lengthSet", GBool);
  ("mass", GSint 16);
  ("massSet", GBool);
  ("time", GSint 16);
  ("timeSet", GBool);
  ("electricCurrent", GSint 16);
  ("electricCurrentSet", GBool);
  ("temperature", GSint 16);
  ("temperatureSet", GBool);
  ("amountOfSubstance", GSint 16);
  ("amountOfSubstanceSet", GBool);
  ("luminousIntensity", GSint 16);
  ("luminousIntensitySet", GBool)].
(** a2l/unit_conversion.go 10-15 *)
Definition type_unitConversion : gty := GStruct [
  ("gradient", GFloat);
  ("gradientSet", GBool);
  ("offset", GFloat);
  ("offsetSet", GBool)].
(** a2l/unit.go 9-21 *)
Definition type_unit : gty := GStruct [
  ("name", GStr);
  ("nameSet", GBool);
  ("longIdentifier", GStr);
  ("longIdentifierSet", GBool);
  ("display", GStr);
  ("displaySet", GBool);
  ("Type", GStr);
  ("TypeSet", GBool);
  ("refUnit", type_refUnit);
  ("siExponents", type_siExponents);
  ("unitConversion", type_unitConversion)].
(** a2l/ref_group.go 9-12 *)
Definition type_refGroup : gty := GStruct [
  ("identifier", GSlice GStr);
  ("identifierSet", GBool)].
(** a2l/user_rights.go 9-14 *)
Definition type_userRights : gty := GStruct [
  ("userLevelId", GStr);
  ("userLevelIdSet", GBool);
  ("readOnly", type_readOnlyKeyword);
  ("refGroup", GSlice type_refGroup)].
(** a2l/var_address.go 9-12 *)
Definition type_varAddress : gty := GStruct [
  ("address", GSlice GStr);
  ("addressSet", GBool)].
(** a2l/var_characteristic.go 9-15 *)
Definition type_varCharacteristic : gty := GStruct [
  ("name", GStr);
  ("nameSet", GBool);
  ("identCriterionName", GSlice GStr);
  ("identCriterionNameSet", GBool);
  ("varAddress", GSlice type_varAddress)].
(** a2l/var_measurement.go 9-12 *)
Definition type_varMeasurement : gty := GStruct [
  ("name", GStr);
  ("nameSet", GBool)].
(** a2l/var_selection_characteristic.go 9-12 *)
Definition type_varSelectionCharacteristic : gty := GStruct [
  ("name", GStr);
  ("nameSet", GBool)].
(** a2l/var_criterion.go 9-18 *)
Definition type_varCriterion : gty := GStruct [
  ("name", GStr);
  ("nameSet", GBool);
  ("longIdentifier", GStr);
  ("longIdentifierSet", GBool);
  ("value", GSlice GStr);
  ("valueSet", GBool);
  ("varMeasurement", type_varMeasurement);
  ("varSelectionCharacteristic", type_varSelectionCharacteristic)].
(** a2l/var_forbidden_comb.go 9-14 *)
Definition type_varForbiddenComb : gty := GStruct [
  ("criterionName", GSlice GStr);
  ("criterionNameSet", GBool);
  ("criterionValue", GSlice GStr);
  ("criterionValueSet", GBool)].
(** a2l/var_naming.go 9-12 *)
Definition type_varNaming : gty := GStruct [
  ("tag", GStr);
  ("tagSet", GBool)].
(** a2l/var_separator.go 9-12 *)
Definition type_varSeparator : gty := GStruct [
  ("separator", GStr);
  ("separatorSet", GBool)].
(** a2l/variant_coding.go 9-16 *)
Definition type_variantCoding : gty := GStruct [
  ("varCharacteristic", GSlice type_varCharacteristic);
  ("varCriterion", GSlice type_varCriterion);
  ("varForbiddenComb", GSlice type_varForbiddenComb);
  ("varNaming", type_varNaming);
  ("varSeparator", type_varSeparator);
  ("varSeparatorSet", GBool)].
(** a2l/module.go 11-43 *)
Definition type_Module : gty := GStruct [
  ("Name", GStr);
  ("nameSet", GBool);
  ("longIdentifier", GStr);
  ("longIdentifierSet", GBool);
  ("a2ml", type_a2ml);
  ("errors", GSlice GError);
  ("AxisPts", GMap type_axisPts);
  ("blobs", GMap type_blob);
  ("Characteristics", GMap type_Characteristic);
  ("CompuMethods", GMap type_CompuMethod);
  ("CompuTabs", GMap type_CompuTab);
  ("CompuVTabs", GMap type_CompuVTab);
  ("CompuVTabRanges", GMap type_CompuVTabRange);
  ("frame", type_frame);
  ("Functions", GMap type_function);
  ("Groups", GMap type_group);
  ("ifData", GMap type_IfData);
  ("instances", GMap type_instance);
  ("Measurements", GMap type_measurement);
  ("ModCommon", type_modCommon);
  ("ModPar", type_modPar);
  ("RecordLayouts", GMap type_RecordLayout);
  ("transformers", GMap type_transformer);
  ("typeDefAxis", GMap type_typeDefAxis);
  ("typeDefBlobs", GMap type_typeDefBlob);
  ("typeDefCharacteristics", GMap type_typeDefCharacteristic);
  ("typeDefMeasurements", GMap type_typeDefMeasurement);
  ("typeDefStructures", GMap type_typeDefStructure);
  ("Units", GMap type_unit);
  ("userRights", GMap type_userRights);
  ("variantCoding", type_variantCoding)].
(** a2l/project.go 9-16 *)
Definition type_Project : gty := GStruct [
  ("Name", GStr);
  ("nameSet", GBool);
  ("longIdentifier", GStr);
  ("longIdentifierSet", GBool);
  ("header", type_header);
  ("Modules", GSlice type_Module)].
(** a2l/a2l.go 30-34 *)
Definition type_A2L : gty := GStruct [
  ("Asap2Version", type_asap2Version);
  ("A2mlVersion", type_a2mlVersion);
  ("Project", type_Project)].

(** What the parsers return. *)
Definition results : list (string * gty) := [
  ("parseA2l", type_A2L);
  ("parseA2ML", type_a2ml);
  ("parseA2MLVersion", type_a2mlVersion);
  ("parseAddrEpk", type_addrEpk);
  ("parseAlignmentByte", type_alignmentByte);
  ("parseAlignmentFloat16Ieee", type_alignmentFloat16Ieee);
  ("parseAlignmentFloat32Ieee", type_alignmentFloat32Ieee);
  ("parseAlignmentFloat64Ieee", type_alignmentFloat64Ieee);
  ("parseAlignmentInt64", type_alignmentInt64);
  ("parseAlignmentLong", type_alignmentLong);
  ("parseAlignmentWord", type_alignmentWord);
  ("parseAnnotation", type_annotation);
  ("parseAnnotationLabel", type_annotationLabel);
  ("parseAnnotationOrigin", type_annotationOrigin);
  ("parseAnnotationText", type_annotationText);
  ("parseArComponent", type_arComponent);
  ("parseArPrototypeOf", type_arPrototypeOf);
  ("parseArraySize", type_arraySize);
  ("parseASAP2Version", type_asap2Version);
  ("parseAxisDescr", type_axisDescr);
  ("parseAxisPts", type_axisPts);
  ("parseAxisPts4", type_AxisPts4);
  ("parseAxisPts5", type_AxisPts5);
  ("parseAxisPtsRef", type_axisPtsRef);
  ("parseAxisPtsX", type_AxisPtsX);
  ("parseAxisPtsY", type_AxisPtsY);
  ("parseAxisPtsZ", type_AxisPtsZ);
  ("parseAxisRescaleX", type_AxisRescaleX);
  ("parseBitMask", type_bitMask);
  ("parseBitOperation", type_bitOperation);
  ("parseBlob", type_blob);
  ("parseByteOrder", type_ByteOrder);
  ("parseCalibrationHandle", type_calibrationHandle);
  ("parseCalibrationHandleText", type_calibrationHandleText);
  ("parseCalibrationMethod", type_calibrationMethod);
  ("parseCharacteristic", type_Characteristic);
  ("parseCoeffs", type_Coeffs);
  ("parseCoeffsLinear", type_CoeffsLinear);
  ("parseComparisonQuantity", type_comparisonQuantity);
  ("parseCompuMethod", type_CompuMethod);
  ("parseCompuTab", type_CompuTab);
  ("parseCompuTabRef", type_CompuTabRef);
  ("parseCompuVtab", type_CompuVTab);
  ("parseCompuVtabRange", type_CompuVTabRange);
  ("parseConsistentExchangeKeyword", type_consistentExchangeKeyword);
  ("parseCpuType", type_cpuType);
  ("parseCurveAxisRef", type_curveAxisRef);
  ("parseCustomer", type_customer);
  ("parseCustomerNo", type_customerNo);
  ("parseDataSize", type_dataSize);
  ("parseDefCharacteristic", type_defCharacteristic);
  ("parseDefaultValue", type_DefaultValue);
  ("parseDefaultValueNumeric", type_DefaultValueNumeric);
  ("parseDependentCharacteristic", type_DependentCharacteristic);
  ("parseDeposit", type_deposit);
  ("parseDiscrete", type_discreteKeyword);
  ("parseDisplayIdentifier", type_DisplayIdentifier);
  ("parseDistOp4", type_DistOp4);
  ("parseDistOp5", type_DistOp5);
  ("parseDistOpX", type_DistOpX);
  ("parseDistOpY", type_DistOpY);
  ("parseDistOpZ", type_DistOpZ);
  ("parseEcu", type_ecu);
  ("parseEcuAddress", type_ecuAddress);
  ("parseECUAddressExtension", type_ecuAddressExtension);
  ("parseEcuCalibrationOffset", type_ecuCalibrationOffset);
  ("parseEncodingEnum", GStr);
  ("parseDataTypeEnum", GStr);
  ("parseDataSizeEnum", GStr);
  ("parseAddrTypeEnum", GStr);
  ("parseByteOrderEnum", GStr);
  ("parseIndexOrderEnum", GStr);
  ("parseAttributeEnum", GStr);
  ("parseCalibrationAccessEnum", GStr);
  ("parseTypeEnum", GStr);
  ("parseConversionTypeEnum", GStr);
  ("parseIndexModeEnum", GStr);
  ("parseModeEnum", GStr);
  ("parsePrgTypeEnum", GStr);
  ("parseMemoryTypeEnum", GStr);
  ("parseMonotonyTypeEnum", GStr);
  ("parseTagEnum", GStr);
  ("parseTriggerEnum", GStr);
  ("parseEpk", type_epk);
  ("parseErrorMask", type_errorMask);
  ("parseExtendedLimits", type_extendedLimits);
  ("parseFixAxisPar", type_fixAxisPar);
  ("parseFixAxisParDist", type_fixAxisParDist);
  ("parseFixAxisParList", type_fixAxisParList);
  ("parseFixNoAxisPts4", type_FixNoAxisPts4);
  ("parseFixNoAxisPts5", type_FixNoAxisPts5);
  ("parseFixNoAxisPtsX", type_FixNoAxisPtsX);
  ("parseFixNoAxisPtsY", type_FixNoAxisPtsY);
  ("parseFixNoAxisPtsZ", type_FixNoAxisPtsZ);
  ("parseFncValues", type_FncValues);
  ("parseFormat", type_format);
  ("parseFormula", type_Formula);
  ("parseFormulaInv", type_formulaInv);
  ("parseFrame", type_frame);
  ("parseFrameMeasurement", type_frameMeasurement);
  ("parseFunction", type_function);
  ("parseFunctionList", type_FunctionList);
  ("parseFunctionVersion", type_functionVersion);
  ("parseGroup", type_group);
  ("parseGuardRails", type_guardRailsKeyword);
  ("parseHeader", type_header);
  ("parseIdentification", type_Identification);
  ("parseIfData", type_IfData);
  ("parseInMeasurement", type_inMeasurement);
  ("parseInstance", type_instance);
  ("parseLayout", type_layout);
  ("parseLeftShift", type_LeftShift);
  ("parseLimits", type_limits);
  ("parseLocMeasurement", type_locMeasurement);
  ("parseMapList", type_MapList);
  ("parseMatrixDim", type_MatrixDim);
  ("parseMaxGrad", type_MaxGrad);
  ("parseMaxRefresh", type_MaxRefresh);
  ("parseMeasurement", type_measurement);
  ("parseMemoryLayout", type_memoryLayout);
  ("parseMemorySegment", type_memorySegment);
  ("parseModCommon", type_modCommon);
  ("parseModPar", type_modPar);
  ("parseModelLink", type_modelLink);
  ("parseModule", type_Module);
  ("parseMonotony", type_Monotony);
  ("parseNoAxisPts4", type_NoAxisPts4);
  ("parseNoAxisPts5", type_NoAxisPts5);
  ("parseNoAxisPtsX", type_NoAxisPtsX);
  ("parseNoAxisPtsY", type_NoAxisPtsY);
  ("parseNoAxisPtsZ", type_NoAxisPtsZ);
  ("parseNoOfInterfaces", type_noOfInterfaces);
  ("parseNoRescaleX", type_NoRescaleX);
  ("parseNumber", type_Number);
  ("parseOffset4", type_Offset4);
  ("parseOffset5", type_Offset5);
  ("parseOffsetX", type_OffsetX);
  ("parseOffsetY", type_offsetY);
  ("parseOffsetZ", type_OffsetZ);
  ("parseOutMeasurement", type_outMeasurement);
  ("parseOverwrite", type_overwrite);
  ("parsePhoneNo", type_phoneNo);
  ("parsePhysUnit", type_physUnit);
  ("parseProject", type_Project);
  ("parseProjectNo", type_projectNo);
  ("parseReadOnly", type_readOnlyKeyword);
  ("parseReadWrite", type_readWriteKeyword);
  ("parseRecordLayout", type_RecordLayout);
  ("parseRefCharacteristic", type_refCharacteristic);
  ("parseRefGroup", type_refGroup);
  ("parseRefMeasurement", type_refMeasurement);
  ("parseRefMemorySegment", type_refMemorySegment);
  ("parseRefUnit", type_refUnit);
  ("parseReserved", type_Reserved);
  ("parseRightShift", type_RightShift);
  ("parseRipAddr4", type_RipAddr4);
  ("parseRipAddr5", type_RipAddr5);
  ("parseRipAddrW", type_RipAddrW);
  ("parseRipAddrX", type_ripAddrX);
  ("parseRipAddrY", type_RipAddrY);
  ("parseRipAddrZ", type_RipAddrZ);
  ("parseRoot", type_rootKeyword);
  ("parseShiftOp4", type_ShiftOp4);
  ("parseShiftOp5", type_ShiftOp5);
  ("parseShiftOpX", type_ShiftOpX);
  ("parseShiftOpY", type_ShiftOpY);
  ("parseShiftOpZ", type_ShiftOpZ);
  ("parseSiExponents", type_siExponents);
  ("parseSignExtend", type_SignExtendKeyword);
  ("parseSrcAddr4", type_srcAddr4);
  ("parseSrcAddr5", type_srcAddr5);
  ("parseSrcAddrX", type_srcAddrX);
  ("parseSrcAddrY", type_srcAddrY);
  ("parseSrcAddrZ", type_srcAddrZ);
  ("parseStaticAddressOffsets", type_staticAddressOffsetsKeyword);
  ("parseStaticRecordLayout", type_staticRecordLayoutKeyword);
  ("parseStatusStringRef", type_StatusStringRef);
  ("parseStepSize", type_StepSize);
  ("parseStructureComponent", type_structureComponent);
  ("parseSubFunction", type_subFunction);
  ("parseSubGroup", type_subGroup);
  ("parseSupplier", type_supplier);
  ("parseSymbolLink", type_symbolLink);
  ("parseSymbolTypeLink", type_symbolTypeLink);
  ("parseSystemConstant", type_SystemConstant);
  ("parseTransformer", type_transformer);
  ("parseTransformerInObject", type_transformerInObject);
  ("parseTransformerOutObject", type_transformerOutObject);
  ("parseTypeDefAxis", type_typeDefAxis);
  ("parseTypeDefBlob", type_typeDefBlob);
  ("parseTypeDefCharacteristic", type_typeDefCharacteristic);
  ("parseTypeDefMeasurement", type_typeDefMeasurement);
  ("parseTypeDefStructure", type_typeDefStructure);
  ("parseUnit", type_unit);
  ("parseUnitConversion", type_unitConversion);
  ("parseUser", type_user);
  ("parseUserRights", type_userRights);
  ("parseVarAddress", type_varAddress);
  ("parseVarCharacteristic", type_varCharacteristic);
  ("parseVarCriterion", type_varCriterion);
  ("parseVarForbiddenComb", type_varForbiddenComb);
  ("parseVarMeasurement", type_varMeasurement);
  ("parseVarNaming", type_varNaming);
  ("parseVarSelectionCharacteristic", type_varSelectionCharacteristic);
  ("parseVarSeparator", type_varSeparator);
  ("parseVariantCoding", type_variantCoding);
  ("parseVersion", type_version);
  ("parseVirtual", type_virtual);
  ("parseVirtualCharacteristic", type_VirtualCharacteristic)].
