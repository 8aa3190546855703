(** The lookups of record_manager.go and the conversions of compu_methods.go on
    the tree that the parsers build.

    LookModel.v and CompuModel.v are about records with the fields that are used;
    here the records are taken from the tree, and the module from
    [cd.A2l.Project.Modules[cd.ModuleIndex]].  A field that no parser has assigned
    has the zero value of its type. *)
From Coq Require Import String Ascii List Arith NArith ZArith Bool Floats.SpecFloat.
From Verif Require Import GoBase FloatModel CompuModel LookModel A2lIR A2lLayoutModel ValuesModel.
Import ListNotations.

Definition objOf (v : val) : fields := match v with VObj o => o | _ => [] end.

(** ** record_manager.go *)

(** a2l/system_constant.go 9-14 *)
Definition constOf (v : val) : systemConstant :=
  SysConst (fstr "Name" (objOf v)) (fstr "Value" (objOf v)) (fbool "ValueSet" (objOf v)).
Definition onValues {A} (f : val -> A) (m : list (bytes * val)) : smap A := map (fun kv => (fst kv, f (snd kv))) m.

(** a2l/module.go 11-43, a2l/mod_par.go 9-28 *)
Definition mapsOf (m : fields) : moduleMaps val :=
  ModuleMaps (fmap "AxisPts" m) (fmap "Characteristics" m) (fmap "CompuMethods" m) (fmap "CompuTabs" m)
    (fmap "CompuVTabs" m) (fmap "CompuVTabRanges" m) (fmap "Functions" m) (fmap "Groups" m) (fmap "Measurements" m)
    (fmap "RecordLayouts" m) (onValues constOf (fmap "SystemConstants" (part "ModPar" m))) (fmap "Units" m).
Definition modulesOf (cd : calib) : list (moduleMaps val) := map (fun v => mapsOf (objOf v)) (cd_modules cd).

(** record_manager.go 45-101, 17-26, 28-41 *)
Definition objectsByIdent (cd : calib) (ident : bytes) : outcome unit (list (object val)) :=
  GetObjectByIdent (modulesOf cd) (cd_index cd) ident.
Definition systemConstantOf (cd : calib) (ident : bytes) : outcome scerr systemConstant :=
  getSystemConstant (modulesOf cd) (cd_index cd) ident.
Definition constantValueOf (cd : calib) (ident : bytes) : outcome scerr bytes :=
  getSystemConstantValue (modulesOf cd) (cd_index cd) ident.

(** calib_data.go 32-43: [A2l] is the tree of the file; [ModuleIndex], a uint8, is any number here *)
Definition calibOf (a : fields) (index : nat) (hex : gomap) : calib := Calib (flist "Modules" (part "Project" a)) index hex.

(** ** compu_methods.go *)

Definition floatOf (v : val) : f64 := match v with VFloat x => x | _ => S754_zero false end.
Definition textOf (v : val) : bytes := match v with VStr s => s | _ => [] end.
Definition ffloat (f : string) (o : fields) : f64 := match fget f o with Some v => floatOf v | None => S754_zero false end.

(** a2l/enums.go 485-517 with the texts of a2l/tokens.go *)
Definition conversionOf (s : bytes) : conversionType :=
  named s [("IDENTICAL", Identical); ("FORM", Form); ("LINEAR", Linear); ("RAT_FUNC", RatFunc); ("TAB_INTP", TabIntp);
           ("TAB_NOINTP", TabNointp); ("TAB_VERB", TabVerb)]%string ConvUndef.
(** a2l/coeffs.go 10-23, a2l/coeffs_linear.go 10-15 *)
Definition coeffOf (f g : string) (o : fields) : coeff := Co (ffloat f o) (fbool g o).
Definition coeffsOf (o : fields) : coeffs :=
  Coeffs (coeffOf "A" "ASet" o) (coeffOf "B" "BSet" o) (coeffOf "C" "CSet" o)
         (coeffOf "D" "DSet" o) (coeffOf "E" "ESet" o) (coeffOf "F" "FSet" o).
Definition linearOf (o : fields) : coeffsLinear := CoeffsLinear (coeffOf "A" "ASet" o) (coeffOf "B" "BSet" o).
(** a2l/compu_method.go 9-26 *)
Definition methodOf (v : val) : compuMethod :=
  let o := objOf v in
  CompuMethod (conversionOf (fstr "ConversionType" o)) (coeffsOf (part "Coeffs" o)) (linearOf (part "CoeffsLinear" o))
    (fstr "ConversionTable" (part "CompuTabRef" o)).
(** a2l/compu_tab.go 10-25 *)
Definition tabOf (v : val) : compuTab :=
  let o := objOf v in
  CompuTab (map floatOf (flist "InVal" o)) (fbool "InValSet" o) (map floatOf (flist "OutVal" o)) (fbool "OutValSet" o)
    (ffloat "DisplayValue" (part "DefaultValueNumeric" o)) (fbool "DisplayValueSet" (part "DefaultValueNumeric" o)).
(** a2l/compu_vtab.go 10-24 *)
Definition vtabOf (v : val) : compuVTab :=
  let o := objOf v in
  CompuVTab (map floatOf (flist "InVal" o)) (fbool "InValSet" o) (map textOf (flist "OutVal" o)) (fbool "OutValSet" o)
    (fstr "DisplayString" (part "DefaultValue" o)) (fbool "DisplayStringSet" (part "DefaultValue" o)).
(** a2l/compu_vtab_range.go 10-24 *)
Definition rangeOf (v : val) : compuVTabRange :=
  let o := objOf v in
  CompuVTabRange (Z.to_N (fint "NumberValueTriples" o)) (fbool "NumberValueTriplesSet" o)
    (map floatOf (flist "InValMin" o)) (map floatOf (flist "InValMax" o)) (map textOf (flist "OutVal" o))
    (fstr "DisplayString" (part "DefaultValue" o)) (fbool "DisplayStringSet" (part "DefaultValue" o)).
Definition tablesOf (m : fields) : compuCtx :=
  CompuCtx (onValues tabOf (fmap "CompuTabs" m)) (onValues vtabOf (fmap "CompuVTabs" m)) (onValues rangeOf (fmap "CompuVTabRanges" m)).

(** compu_methods.go 11-58.  The module is looked up only for TAB_NOINTP (166). *)
Definition decToPhy (dec : f64) (cm : val) (cd : calib) : cres f64 :=
  match theModule cd with
  | Some m => convDecToPhy dec (methodOf cm) (tablesOf m)
  | None => match cm_type (methodOf cm) with
            | TabNointp => CPanic
            | _ => convDecToPhy dec (methodOf cm) (CompuCtx [] [] [])
            end
  end.
(** compu_methods.go 89-114, 60-87: only the name of the table is used *)
Definition verbalOf (dec : f64) (cv : val) (cd : calib) : cres bytes :=
  match theModule cd with Some m => calcTabVerb dec (fstr "Name" (objOf cv)) (tablesOf m) | None => CPanic end.
Definition rangeTextOf (dec : f64) (cvr : val) (cd : calib) : cres bytes :=
  match theModule cd with Some m => calcTabVerbRange dec (fstr "Name" (objOf cvr)) (tablesOf m) | None => CPanic end.
