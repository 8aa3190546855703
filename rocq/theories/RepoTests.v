(** The unit tests of the parsers in the test files of /repo/a2l, run on the model.  Printed by
    tools/gen_tests.py.  These are tests of the model, not theorems: each one says that the
    model gives an error exactly if the test asks for one. *)
From Coq Require Import String List.
From Verif Require Import GoBase A2lIR A2lTokens A2lParsers StrconvModel.
Import ListNotations.
Local Open Scope string_scope.

(** parseX(&tok) with tok.index = 0; whether there is an error *)
Definition fails (g : fn) (toks : list string) : option bool :=
  match call isKeyword (map b toks) ParseFloat 50 g 0 with Ret _ e _ => Some e | _ => None end.

(** a2ml_test.go *)
Example TestParseA2ML_Valid : fails parseA2ML ["/begin A2ML"; "1.0"; "stuff"; "stuff"; "stuff"; "/end A2ML"] = Some false. Proof. vm_compute. reflexivity. Qed. (* line 11 *)
Example TestParseA2ML_Empty : fails parseA2ML [""; ""] = Some true. Proof. vm_compute. reflexivity. Qed. (* line 23 *)
(** a2ml_version_test.go *)
Example TestParseA2MLVersion_Valid : fails parseA2MLVersion ["1"; "0"] = Some false. Proof. vm_compute. reflexivity. Qed. (* line 15 *)
Example TestParseA2MLVersion_Empty : fails parseA2MLVersion [""] = Some true. Proof. vm_compute. reflexivity. Qed. (* line 27 *)
Example TestParseA2MLVersion_InvalidVersionNumber_1 : fails parseA2MLVersion [""; "1"; "A"] = Some true. Proof. vm_compute. reflexivity. Qed. (* line 39 *)
Example TestParseA2MLVersion_InvalidVersionNumber_2 : fails parseA2MLVersion [""; "Oh Boy"; "0"] = Some true. Proof. vm_compute. reflexivity. Qed. (* line 51 *)
Example TestParseA2MLVersion_UnexpectedToken : fails parseA2MLVersion [""; "1"; "/begin ANNOTATION_TEXT"] = Some true. Proof. vm_compute. reflexivity. Qed. (* line 63 *)
(** addr_epk_test.go *)
Example TestParseAddrEpk_Valid : fails parseAddrEpk [""; "0x2000"] = Some false. Proof. vm_compute. reflexivity. Qed. (* line 15 *)
Example TestParseAddrEpk_Empty : fails parseAddrEpk [""; ""] = Some true. Proof. vm_compute. reflexivity. Qed. (* line 27 *)
Example TestParseAddrEpk_UnexpectedKeyword : fails parseAddrEpk [""; "/begin A2ML"] = Some true. Proof. vm_compute. reflexivity. Qed. (* line 39 *)
(** alignment_byte_test.go *)
Example TestParseAlignmentByte_Valid : fails parseAlignmentByte [""; "4"] = Some false. Proof. vm_compute. reflexivity. Qed. (* line 15 *)
Example TestParseAlignmentByte_Empty : fails parseAlignmentByte [""; ""] = Some true. Proof. vm_compute. reflexivity. Qed. (* line 27 *)
Example TestParseAlignmentByte_UnexpectedKeyword : fails parseAlignmentByte [""; "/begin A2ML"] = Some true. Proof. vm_compute. reflexivity. Qed. (* line 39 *)
Example TestParseAlignmentByte_Invalid : fails parseAlignmentByte [""; "9999999999999"] = Some true. Proof. vm_compute. reflexivity. Qed. (* line 51 *)
(** alignment_float16_ieee_test.go *)
Example TestParseAlignmentFloat16Ieee_Valid : fails parseAlignmentFloat16Ieee [""; "4"] = Some false. Proof. vm_compute. reflexivity. Qed. (* line 15 *)
Example TestParseAlignmentFloat16Ieee_Empty : fails parseAlignmentFloat16Ieee [""; ""] = Some true. Proof. vm_compute. reflexivity. Qed. (* line 27 *)
Example TestParseAlignmentFloat16Ieee_UnexpectedKeyword : fails parseAlignmentFloat16Ieee [""; "/begin A2ML"] = Some true. Proof. vm_compute. reflexivity. Qed. (* line 39 *)
Example TestParseAlignmentFloat16Ieee_Invalid : fails parseAlignmentFloat16Ieee [""; "9999999999999"] = Some true. Proof. vm_compute. reflexivity. Qed. (* line 51 *)
(** alignment_float32_ieee_test.go *)
Example TestParseAlignmentFloat32Ieee_Valid : fails parseAlignmentFloat32Ieee [""; "4"] = Some false. Proof. vm_compute. reflexivity. Qed. (* line 15 *)
Example TestParseAlignmentFloat32Ieee_Empty : fails parseAlignmentFloat32Ieee [""; ""] = Some true. Proof. vm_compute. reflexivity. Qed. (* line 27 *)
Example TestParseAlignmentFloat32Ieee_UnexpectedKeyword : fails parseAlignmentFloat32Ieee [""; "/begin A2ML"] = Some true. Proof. vm_compute. reflexivity. Qed. (* line 39 *)
Example TestParseAlignmentFloat32Ieee_Invalid : fails parseAlignmentFloat32Ieee [""; "9999999999999"] = Some true. Proof. vm_compute. reflexivity. Qed. (* line 51 *)
(** alignment_float64_ieee_test.go *)
Example TestParseAlignmentFloat64Ieee_Valid : fails parseAlignmentFloat64Ieee [""; "8"] = Some false. Proof. vm_compute. reflexivity. Qed. (* line 15 *)
Example TestParseAlignmentFloat64Ieee_Empty : fails parseAlignmentFloat64Ieee [""; ""] = Some true. Proof. vm_compute. reflexivity. Qed. (* line 27 *)
Example TestParseAlignmentFloat64Ieee_UnexpectedKeyword : fails parseAlignmentFloat64Ieee [""; "/begin A2ML"] = Some true. Proof. vm_compute. reflexivity. Qed. (* line 39 *)
Example TestParseAlignmentFlaot64Ieee_Invalid : fails parseAlignmentFloat64Ieee [""; "-50"] = Some true. Proof. vm_compute. reflexivity. Qed. (* line 51 *)
(** alignment_int64_test.go *)
Example TestParseAlignmentInt64_Valid : fails parseAlignmentInt64 [""; "4"] = Some false. Proof. vm_compute. reflexivity. Qed. (* line 15 *)
Example TestParseAlignmentInt64_Empty : fails parseAlignmentInt64 [""; ""] = Some true. Proof. vm_compute. reflexivity. Qed. (* line 27 *)
Example TestParseAlignmentInt64_UnexpectedKeyword : fails parseAlignmentInt64 [""; "/begin A2ML"] = Some true. Proof. vm_compute. reflexivity. Qed. (* line 39 *)
Example TestParseAlignmentInt64_Invalid : fails parseAlignmentInt64 [""; "2.5"] = Some true. Proof. vm_compute. reflexivity. Qed. (* line 51 *)
(** alignment_long_test.go *)
Example TestParseAlignmentLong_Valid : fails parseAlignmentLong [""; "8"] = Some false. Proof. vm_compute. reflexivity. Qed. (* line 15 *)
Example TestParseAlignmentLong_Empty : fails parseAlignmentLong [""; ""] = Some true. Proof. vm_compute. reflexivity. Qed. (* line 27 *)
Example TestParseAlignmentLong_UnexpectedKeyword : fails parseAlignmentLong [""; "/begin AXIS_DESCR"] = Some true. Proof. vm_compute. reflexivity. Qed. (* line 39 *)
Example TestParseAlignmentLong_Invalid : fails parseAlignmentLong [""; "3.9"] = Some true. Proof. vm_compute. reflexivity. Qed. (* line 51 *)
(** alignment_word_test.go *)
Example TestParseAlignmentWord_Valid : fails parseAlignmentWord [""; "0"] = Some false. Proof. vm_compute. reflexivity. Qed. (* line 15 *)
Example TestParseAlignmentWord_Empty : fails parseAlignmentWord [""; ""] = Some true. Proof. vm_compute. reflexivity. Qed. (* line 27 *)
Example TestParseAlignmentWord_UnexpectedKeyword : fails parseAlignmentWord [""; "/begin ANNOTATION"] = Some true. Proof. vm_compute. reflexivity. Qed. (* line 39 *)
Example TestParseAlignmentWord_Invalid : fails parseAlignmentWord [""; "3.876"] = Some true. Proof. vm_compute. reflexivity. Qed. (* line 51 *)
(** annotation_label_test.go *)
Example TestParseAnnotationLabel_Valid : fails parseAnnotationLabel [""; "TEST"] = Some false. Proof. vm_compute. reflexivity. Qed. (* line 14 *)
Example TestParseAnnotationLabel_Empty : fails parseAnnotationLabel [""; ""] = Some true. Proof. vm_compute. reflexivity. Qed. (* line 26 *)
Example TestParseAnnotationLabel_UnexpectedKeyword : fails parseAnnotationLabel [""; "/begin A2ML"] = Some true. Proof. vm_compute. reflexivity. Qed. (* line 38 *)
(** annotation_origin_test.go *)
Example TestParseAnnotationOrigin_Valid : fails parseAnnotationOrigin [""; "TEST"] = Some false. Proof. vm_compute. reflexivity. Qed. (* line 14 *)
Example TestParseAnnotationOrigin_Empty : fails parseAnnotationOrigin [""; ""] = Some true. Proof. vm_compute. reflexivity. Qed. (* line 26 *)
Example TestParseAnnotationOrigin_UnexpectedKeyword : fails parseAnnotationOrigin [""; "/begin AXIS_DESCR"] = Some true. Proof. vm_compute. reflexivity. Qed. (* line 38 *)
(** annotation_test.go *)
Example TestParseAnnotation_Valid : fails parseAnnotation ["/begin ANNOTATION"; "ANNOTATION_LABEL"; "Test Label"; "ANNOTATION_ORIGIN"; "Test Origin"; "/begin ANNOTATION_TEXT"; "Test"; "Text"; "/end ANNOTATION_TEXT"; "/end ANNOTATION"] = Some false. Proof. vm_compute. reflexivity. Qed. (* line 14 *)
Example TestParseAnnotation_Empty : fails parseAnnotation [""; ""] = Some true. Proof. vm_compute. reflexivity. Qed. (* line 26 *)
Example TestParseAnnotation_UnexpectedKeyword : fails parseAnnotation [""; "/begin AXIS_DESCR"] = Some true. Proof. vm_compute. reflexivity. Qed. (* line 38 *)
(** annotation_text_test.go *)
Example TestParseAnnotationText_Valid : fails parseAnnotationText [""; "TEST"; "/end ANNOTATION_TEXT"] = Some false. Proof. vm_compute. reflexivity. Qed. (* line 14 *)
Example TestParseAnnotationText_Empty : fails parseAnnotationText [""; ""; "/end ANNOTATION_TEXT"] = Some true. Proof. vm_compute. reflexivity. Qed. (* line 26 *)
Example TestParseAnnotationText_UnexpectedKeyword : fails parseAnnotationText [""; "/begin AXIS_DESCR"; "/end ANNOTATION_TEXT"] = Some true. Proof. vm_compute. reflexivity. Qed. (* line 38 *)
(** ar_component_test.go *)
Example TestParseArComponent_Valid : fails parseArComponent ["/begin AR_COMPONENT"; "AR_PROTOTYPE_OF"; "Test Prototype of"; "ApplicationSwComponentType"; "/end AR_COMPONENT"] = Some false. Proof. vm_compute. reflexivity. Qed. (* line 14 *)
Example TestParseArComponent_Empty : fails parseArComponent ["/begin AR_COMPONENT"; ""; "/end AR_COMPONENT"] = Some true. Proof. vm_compute. reflexivity. Qed. (* line 26 *)
Example TestParseArComponent_UnexpectedKeyword : fails parseArComponent ["/begin AR_COMPONENT"; "/begin A2ML"; "/end AR_COMPONENT"] = Some true. Proof. vm_compute. reflexivity. Qed. (* line 38 *)
(** ar_prototype_of_test.go *)
Example TestParseArPrototypeOf_Valid : fails parseArPrototypeOf ["AR_PROTOTYPE_OF"; "Test Prototype of"; "ApplicationSwComponentType"; "/end AR_COMPONENT"] = Some false. Proof. vm_compute. reflexivity. Qed. (* line 14 *)
Example TestParseArPrototypeOf_Empty : fails parseArPrototypeOf ["AR_PROTOTYPE_OF"; ""; "/end AR_COMPONENT"] = Some true. Proof. vm_compute. reflexivity. Qed. (* line 26 *)
Example TestParseArPrototypeOf_UnexpectedKeyword : fails parseArPrototypeOf ["AR_PROTOTYPE_OF"; "/begin A2ML"; "/end AR_COMPONENT"] = Some true. Proof. vm_compute. reflexivity. Qed. (* line 38 *)
(** array_size_test.go *)
Example TestParseArraySize_Valid : fails parseArraySize [""; "1"] = Some false. Proof. vm_compute. reflexivity. Qed. (* line 15 *)
Example TestParseArraySize_Empty : fails parseArraySize [""; ""] = Some true. Proof. vm_compute. reflexivity. Qed. (* line 27 *)
Example TestParseArraySize_UnexpectedKeyword : fails parseArraySize [""; "/begin A2ML"] = Some true. Proof. vm_compute. reflexivity. Qed. (* line 39 *)
Example TestParseArraySize_InvalidArraySize_1 : fails parseArraySize [""; "a"] = Some true. Proof. vm_compute. reflexivity. Qed. (* line 51 *)
Example TestParseArraySize_InvalidArraySize_2 : fails parseArraySize [""; "-25.3"] = Some true. Proof. vm_compute. reflexivity. Qed. (* line 63 *)
(** asap2_version_test.go *)
Example TestParseAsap2Version_Valid : fails parseASAP2Version ["ASAP2_VERSION"; "1"; "0"] = Some false. Proof. vm_compute. reflexivity. Qed. (* line 15 *)
Example TestParseAsap2Version_Empty : fails parseASAP2Version ["ASAP2_VERSION"; ""; ""] = Some true. Proof. vm_compute. reflexivity. Qed. (* line 27 *)
Example TestParseAsap2Version_UnexpectedKeyword : fails parseASAP2Version ["ASAP2_VERSION"; "/begin A2ML"; "/end A2ML"] = Some true. Proof. vm_compute. reflexivity. Qed. (* line 39 *)
Example TestParseAsap2Version_InvalidAsap2Version_1 : fails parseASAP2Version ["ASAP2_VERSION"; "a"; "0"] = Some true. Proof. vm_compute. reflexivity. Qed. (* line 51 *)
Example TestParseAsap2Version_InvalidAsap2Version_2 : fails parseASAP2Version ["ASAP2_VERSION"; "1"; "a"] = Some true. Proof. vm_compute. reflexivity. Qed. (* line 63 *)
(** axis_descr_test.go *)
Example TestParseAxisDescr_Valid : fails parseAxisDescr ["/begin AXIS_DESCR"; "CURVE_AXIS"; "NO_INPUT_QUANTITY"; "NO_COMPU_METHOD"; "2"; "0"; "1"; "/end AXIS_DESCR"] = Some false. Proof. vm_compute. reflexivity. Qed. (* line 15 *)
Example TestParseAxisDescr_Empty : fails parseAxisDescr ["/begin AXIS_DESCR"; ""] = Some true. Proof. vm_compute. reflexivity. Qed. (* line 27 *)
Example TestParseAxisDescr_UnexpectedKeyword : fails parseAxisDescr ["/begin AXIS_DESCR"; "/begin A2ML"; "/end AXIS_DESCR"] = Some true. Proof. vm_compute. reflexivity. Qed. (* line 39 *)
Example TestParseAxisDescr_InvalidAxisDescr_1 : fails parseAxisDescr ["/begin AXIS_DESCR"; "CURVE_AXIS"; "NO_INPUT_QUANTITY"; "NO_COMPU_METHOD"; "-2"; "/end AXIS_DESCR"] = Some true. Proof. vm_compute. reflexivity. Qed. (* line 51 *)
Example TestParseAxisDescr_InvalidAxisDescr_2 : fails parseAxisDescr ["/begin AXIS_DESCR"; "CURVE_AXIS"; "NO_INPUT_QUANTITY"; "NO_COMPU_METHOD"; "2"; "0"; "Not a Float"; "/end AXIS_DESCR"] = Some true. Proof. vm_compute. reflexivity. Qed. (* line 63 *)
Example TestParseAxisDescr_InvalidAxisDescr_3 : fails parseAxisDescr ["/begin AXIS_DESCR"; "CURVE_AXIS"; "NO_INPUT_QUANTITY"; "NO_COMPU_METHOD"; "2"; "Not a Float"; "1"; "/end AXIS_DESCR"] = Some true. Proof. vm_compute. reflexivity. Qed. (* line 75 *)
