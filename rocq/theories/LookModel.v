(** Model of the lookups of record_manager.go 17-101.

    The objects of a module are kept in one Go map per kind (a2l/module.go
    11-43); the maps are taken as name/object lists with at most one entry per
    name, the contents of the objects (type [obj]) being irrelevant here. *)
From Coq Require Import String Ascii List Arith NArith ZArith Bool.
From Verif Require Import GoBase CompuModel.
Import ListNotations.

(** a2l/system_constant.go 10-16 *)
Record systemConstant := SysConst { sc_name : bytes; sc_value : bytes; sc_valueSet : bool }.

(** The kinds searched, as constructors of Go's dynamic type. *)
Inductive object (obj : Type) : Type :=
  | AxisPts (o : obj) | Characteristic (o : obj) | CompuMethodO (o : obj) | CompuTabO (o : obj)
  | CompuVTabO (o : obj) | CompuVTabRangeO (o : obj) | Function_ (o : obj) | Group_ (o : obj)
  | Measurement (o : obj) | RecordLayout (o : obj) | SystemConstantO (s : systemConstant) | Unit_ (o : obj).
Arguments AxisPts {obj}. Arguments Characteristic {obj}. Arguments CompuMethodO {obj}. Arguments CompuTabO {obj}.
Arguments CompuVTabO {obj}. Arguments CompuVTabRangeO {obj}. Arguments Function_ {obj}. Arguments Group_ {obj}.
Arguments Measurement {obj}. Arguments RecordLayout {obj}. Arguments SystemConstantO {obj}. Arguments Unit_ {obj}.

(** a2l/module.go 11-43: the fields used; ModPar.SystemConstants is given directly *)
Record moduleMaps (obj : Type) := ModuleMaps {
  m_axisPts : smap obj; m_characteristics : smap obj; m_compuMethods : smap obj; m_compuTabs : smap obj;
  m_compuVTabs : smap obj; m_compuVTabRanges : smap obj; m_functions : smap obj; m_groups : smap obj;
  m_measurements : smap obj; m_recordLayouts : smap obj; m_systemConstants : smap systemConstant; m_units : smap obj }.
Arguments ModuleMaps {obj}. Arguments m_axisPts {obj}. Arguments m_characteristics {obj}. Arguments m_compuMethods {obj}.
Arguments m_compuTabs {obj}. Arguments m_compuVTabs {obj}. Arguments m_compuVTabRanges {obj}. Arguments m_functions {obj}.
Arguments m_groups {obj}. Arguments m_measurements {obj}. Arguments m_recordLayouts {obj}.
Arguments m_systemConstants {obj}. Arguments m_units {obj}.

(** one [buf, exists = ...; if exists { append }] step *)
Definition addFound {A obj} (mk : A -> object obj) (ident : bytes) (m : smap A) (acc : list (object obj)) : list (object obj) :=
  match sfind ident m with Some o => acc ++ [mk o] | None => acc end.

Section Look.
Variable obj : Type.

(** record_manager.go 45-101.  [cd.A2l.Project.Modules] is a slice: an index out
    of range panics (line 50). *)
Definition GetObjectByIdent (modules : list (moduleMaps obj)) (index : nat) (ident : bytes) : outcome unit (list (object obj)) :=
  match nth_error modules index with
  | None => Panic
  | Some m =>
      let acc := addFound AxisPts ident (m_axisPts m) [] in
      let acc := addFound Characteristic ident (m_characteristics m) acc in
      let acc := addFound CompuMethodO ident (m_compuMethods m) acc in
      let acc := addFound CompuTabO ident (m_compuTabs m) acc in
      let acc := addFound CompuVTabO ident (m_compuVTabs m) acc in
      let acc := addFound CompuVTabRangeO ident (m_compuVTabRanges m) acc in
      let acc := addFound Function_ ident (m_functions m) acc in
      let acc := addFound Group_ ident (m_groups m) acc in
      let acc := addFound Measurement ident (m_measurements m) acc in
      let acc := addFound RecordLayout ident (m_recordLayouts m) acc in
      let acc := addFound SystemConstantO ident (m_systemConstants m) acc in
      let acc := addFound Unit_ ident (m_units m) acc in
      Ok acc
  end.

Inductive scerr := SCMissing | SCNoValue.

(** record_manager.go 17-26 *)
Definition getSystemConstant (modules : list (moduleMaps obj)) (index : nat) (ident : bytes) : outcome scerr systemConstant :=
  match nth_error modules index with
  | None => Panic
  | Some m => match sfind ident (m_systemConstants m) with Some s => Ok s | None => Err SCMissing end
  end.

(** record_manager.go 28-41: [val] is declared and never assigned *)
Definition getSystemConstantValue (modules : list (moduleMaps obj)) (index : nat) (ident : bytes) : outcome scerr bytes :=
  match getSystemConstant modules index ident with
  | Panic => Panic
  | Err e => Err e
  | Ok sc =>
      let val : bytes := [] in
      if negb (sc_valueSet sc) then Err SCNoValue else Ok val
  end.
End Look.
Arguments GetObjectByIdent {obj}.
Arguments getSystemConstant {obj}.
Arguments getSystemConstantValue {obj}.
