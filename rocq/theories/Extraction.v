(** Model of ocelot/io/extract_ecospold2.py lines 20-249.  The tree lxml.objectify
    builds is given; parsing of XML, the pool of processes and the progress bar are
    not modelled.  Simplifications: all elements are in the ecospold namespace (the
    function [_] takes it off) and there are neither comments nor processing
    instructions. *)
From Verif Require Import Base Strings Formulas Schema.

Inductive xml := Elem (tag : string) (attrs : list (string * string)) (content : option string) (kids : list xml).
Definition x_tag (x : xml) : string := match x with Elem t _ _ _ => t end.
Definition x_attrs (x : xml) : list (string * string) := match x with Elem _ a _ _ => a end.
Definition x_text (x : xml) : option string := match x with Elem _ _ c _ => c end.
Definition x_kids (x : xml) : list xml := match x with Elem _ _ _ k => k end.

(** [x.get(k)]; [hasattr(x, n)] and [x.n], the first child with that tag. *)
Fixpoint assoc {A} (k : string) (l : list (string * A)) : option A :=
  match l with
  | [] => None
  | (k', v) :: l => if (k =? k')%string then Some v else assoc k l
  end.
Definition attr (k : string) (x : xml) : option string := assoc k (x_attrs x).
Definition kid (n : string) (x : xml) : option xml := List.find (fun c => (x_tag c =? n)%string) (x_kids x).
Definition child (n : string) (x : xml) : result xml := from_option Ok (Err AttributeError) (kid n x).
(** [x.n1.n2.text] *)
Fixpoint down (path : list string) (x : xml) : result xml :=
  match path with
  | [] => Ok x
  | n :: path => let? y := child n x in down path y
  end.
Definition text_of (path : list string) (x : xml) : result (option string) :=
  let? y := down path x in Ok (x_text y).
Definition of_text (o : option string) : pyval := from_option VStr VNone o.
(** [if x: ... x.strip()] for attributes *)
Definition nonempty (o : option string) : option string :=
  match o with Some s => if (s =? "")%string then None else Some s | None => None end.
Definition stripped (s : string) : string := str (strip (chars s)).
Definition trimmed (o : option string) : option string := option_map stripped (nonempty o).
(** [table[key]] *)
Definition lookup_table (table : list (string * string)) (o : option string) : result string :=
  match o with
  | Some k => from_option Ok (Err (KeyError k)) (assoc k table)
  | None => Err (KeyError "None")
  end.

(** io/ecospold2_meta.py lines 29-43, 53-75 (the other tables are in Schema.v). *)
Definition INPUT_GROUPS : list (string * string) :=
  [("1", "materials/fuels"); ("2", "electricity/heat"); ("3", "services"); ("4", "from environment");
   ("5", "from technosphere")]%string.
Definition OUTPUT_GROUPS : list (string * string) :=
  [("0", "reference product"); ("2", "byproduct"); ("3", "material for treatment"); ("4", "to environment");
   ("5", "stock addition")]%string.
Definition UNCERTAINTY_MAPPING : list (string * string) :=
  [("maxValue", "maximum"); ("meanValue", "mean"); ("minValue", "minimum"); ("mostLikelyValue", "mode");
   ("mostFrequentValue", "mode");
   ("varianceWithPedigreeUncertainty", "variance with pedigree uncertainty");
   ("standardDeviation95", "standard deviation 95%")]%string.
Definition ACCESS_RESTRICTED : list (string * string) :=
  [("0", "public"); ("1", "licensees"); ("2", "results only"); ("3", "restricted")]%string.
Definition BYPRODUCT_CLASSIFICATION : list (string * string) :=
  [("allocatable product", "allocatable product"); ("Waste", "waste"); ("Recyclable", "recyclable")]%string.
Definition technology_level (o : option string) : result string :=
  from_option (fun p => Ok p.2) (Err (KeyError (default "None"%string o)))
    (List.find (fun p => bool_decide (p.1 = o)) TECHNOLOGY_LEVEL).

Section extraction.
(** Python's [float] and [int] of a text. *)
Context (pyfloat : string -> result Qc) (pyint : string -> result Z).
Definition float_of (o : option string) : result Qc :=
  match o with Some s => pyfloat s | None => Err TypeError end.
Definition int_of (o : option string) : result Z :=
  match o with Some s => pyint s | None => Err TypeError end.

(** Lines 46-51, [extract_pedigree_matrix]. *)
Definition extract_pedigree_matrix (elem : xml) : result dict :=
  match kid "pedigreeMatrix" elem with
  | None => Ok []
  | Some m => mapR (fun l => let? z := int_of (attr l.1 m) in Ok (l.2, VInt z)) PEDIGREE_LABELS
  end.

(** Lines 54-81, [extract_uncertainty]. *)
Definition distribution_labels : list string :=
  ["lognormal"; "normal"; "triangular"; "beta"; "uniform"; "undefined"; "binomial"; "gamma"]%string.
Definition meaning (k : string) : string := default k (assoc k UNCERTAINTY_MAPPING).
Definition extract_uncertainty (unc : xml) : result pyval :=
  let? dist := from_option Ok (Err StopIteration) (head (omap (fun l => kid l unc) distribution_labels)) in
  let? data := foldR (fun d a => let? q := pyfloat a.2 in Ok (put (meaning a.1) (VFloat q) d)) [] (x_attrs dist) in
  let? ped := extract_pedigree_matrix unc in
  let data := put "pedigree matrix" (VDict ped) (put "type" (VStr (x_tag dist)) data) in
  if (match ped with [] => true | _ => false end) &&
     ((x_tag dist =? "lognormal") || (x_tag dist =? "normal"))%string
  then Ok (VDict (put "pedigree matrix" (VDict (map (fun l => (l.2, VInt 5)) PEDIGREE_LABELS)) data))
  else Ok (VDict data).
(** [if hasattr(x, n): ... extract_uncertainty(x.n)] *)
Definition extract_optional_uncertainty (n : string) (x : xml) : result (option pyval) :=
  match kid n x with
  | Some y => let? u := extract_uncertainty y in Ok (Some u)
  | None => Ok None
  end.
(** [x.unitName.text if hasattr(x, 'unitName') else "dimensionless"] *)
Definition unit_text (x : xml) : pyval :=
  match kid "unitName" x with Some y => of_text (x_text y) | None => VStr "dimensionless" end.

(** Lines 24-36, [extract_parameter]. *)
Definition extract_parameter (obj : xml) : result pyval :=
  let? name := text_of ["name"%string] obj in
  let? amount := float_of (attr "amount" obj) in
  let? unc := extract_optional_uncertainty "uncertainty" obj in
  Ok (VDict ([("name", of_text name); ("id", of_text (attr "parameterId" obj)); ("amount", VFloat amount);
              ("unit", unit_text obj)] ++ opt "uncertainty" unc ++
             opt "variable" (option_map VStr (trimmed (attr "variableName" obj))) ++
             opt "formula" (option_map VStr (trimmed (attr "mathematicalRelation" obj)))))%string.

(** Lines 39-43, [extract_isic_classification]; [None] if the loop ends. *)
Fixpoint isic_from (l : list xml) : result (option string) :=
  match l with
  | [] => Ok None
  | c :: l =>
      if str_contains "classification" (x_tag c) then
        let? system := text_of ["classificationSystem"%string] c in
        let? system := from_option Ok (Err TypeError) system in
        if str_contains "ISIC" system then text_of ["classificationValue"%string] c else isic_from l
      else isic_from l
  end.
Definition extract_isic_classification (elem : xml) : result (option string) :=
  let? description := child "activityDescription" elem in isic_from (x_kids description).

(** Lines 84-94, [extract_production_volume]. *)
Definition extract_production_volume (exc : xml) : result pyval :=
  let? amount := match nonempty (attr "productionVolumeAmount" exc) with Some s => pyfloat s | None => Ok 0%Qc end in
  let? unc := extract_optional_uncertainty "productionVolumeUncertainty" exc in
  Ok (VDict ([("amount", VFloat amount)] ++ opt "uncertainty" unc ++
             opt "formula" (option_map VStr (trimmed (attr "productionVolumeMathematicalRelation" exc))) ++
             opt "variable" (option_map VStr (trimmed (attr "productionVolumeVariableName" exc)))))%string.

(** Lines 97-110, [extract_property]. *)
Definition extract_property (prop : xml) : result pyval :=
  let? amount := float_of (attr "amount" prop) in
  let? name := text_of ["name"%string] prop in
  let? unc := extract_optional_uncertainty "uncertainty" prop in
  Ok (VDict ([("id", of_text (attr "propertyId" prop)); ("amount", VFloat amount); ("name", of_text name);
              ("unit", unit_text prop)] ++ opt "uncertainty" unc ++
             opt "variable" (option_map VStr (nonempty (attr "variableName" prop))) ++
             opt "formula" (option_map VStr (trimmed (attr "mathematicalRelation" prop)))))%string.

(** Lines 121-123. *)
Definition exchange_type (exc : xml) : result string :=
  match kid "inputGroup" exc with
  | Some g => lookup_table INPUT_GROUPS (x_text g)
  | None => let? g := child "outputGroup" exc in lookup_table OUTPUT_GROUPS (x_text g)
  end.
(** Lines 131-138; what the set has at most one of. *)
Definition byproduct_values (exc : xml) : result (list (option string)) :=
  concat_mapR (fun obj =>
    if (x_tag obj =? "classification")%string then
      let? system := text_of ["classificationSystem"%string] obj in
      if bool_decide (system = Some "By-product classification"%string) then
        let? v := text_of ["classificationValue"%string] obj in Ok [v]
      else Ok []
    else Ok []) (x_kids exc).
Definition byproduct_classification (exc : xml) : result (option string) :=
  let? l := byproduct_values exc in
  match l with
  | [] => Ok None
  | v :: l =>
      let? _ := assertR (forallb (fun v' => bool_decide (v' = v)) l) AssertionError in
      let? c := lookup_table BYPRODUCT_CLASSIFICATION v in Ok (Some c)
  end.

(** Lines 113-172, [extract_exchange]; the dataset is needed for its type only. *)
Definition extract_exchange (dataset_type : string) (exc : xml) : result pyval :=
  let? name := text_of ["name"%string] exc in
  let? unit := text_of ["unitName"%string] exc in
  let? amount := float_of (attr "amount" exc) in
  let? type := exchange_type exc in
  let link := nonempty (attr "activityLinkId" exc) in
  let? class := byproduct_classification exc in
  let? props := mapR extract_property (filterb (fun obj => (x_tag obj =? "property")%string) (x_kids exc)) in
  let environment := str_contains "environment" type in
  let? compartments :=
    if environment then
      let? c := text_of ["compartment"; "compartment"]%string exc in
      let? s := text_of ["compartment"; "subcompartment"]%string exc in
      Ok [("compartment", of_text c); ("subcompartment", of_text s)]%string
    else Ok [] in
  let? pv :=
    if ((type =? "reference product") || (type =? "byproduct"))%string
    then let? v := extract_production_volume exc in Ok (Some v) else Ok None in
  let? unc := extract_optional_uncertainty "uncertainty" exc in
  let conditional :=
    if environment then None
    else Some (VBool (bool_decide (link <> None) && (dataset_type =? "market activity")%string
                      && (type =? "byproduct")%string && Qcltb amount 0)) in
  Ok (VDict ([("id", of_text (attr "id" exc)); ("tag", VStr (x_tag exc)); ("name", of_text name);
              ("unit", of_text unit); ("amount", VFloat amount); ("type", VStr type)] ++
             opt "activity link" (option_map VStr link) ++
             opt "byproduct classification" (option_map VStr class) ++
             opt "variable" (option_map VStr (trimmed (attr "variableName" exc))) ++
             opt "formula" (option_map VStr (trimmed (attr "mathematicalRelation" exc))) ++
             [("properties", VList props)] ++ compartments ++ opt "production volume" pv ++
             opt "uncertainty" unc ++ opt "conditional exchange" conditional))%string.

(** Lines 175-200, [extract_ecospold2_dataset]. *)
Definition extract_ecospold2_dataset (elem : xml) (filepath : string) : result pyval :=
  let? activity := down ["activityDescription"; "activity"]%string elem in
  let? name := text_of ["activityName"%string] activity in
  let? location := text_of ["activityDescription"; "geography"; "shortname"]%string elem in
  let? type := lookup_table SPECIAL_ACTIVITY_TYPE (attr "specialActivityType" activity) in
  let? technology := down ["activityDescription"; "technology"]%string elem in
  let? level := technology_level (attr "technologyLevel" technology) in
  let? period := down ["activityDescription"; "timePeriod"]%string elem in
  let? scenario := text_of ["activityDescription"; "macroEconomicScenario"; "name"]%string elem in
  let? publication := down ["administrativeInformation"; "dataGeneratorAndPublication"]%string elem in
  let? access := lookup_table ACCESS_RESTRICTED (attr "accessRestrictedTo" publication) in
  let? flows := child "flowData" elem in
  let? params := mapR extract_parameter
                   (filterb (fun exc => str_contains "parameter" (x_tag exc)) (x_kids flows)) in
  let? entry := down ["administrativeInformation"; "dataEntryBy"]%string elem in
  let? isic := extract_isic_classification elem in
  let? exchanges := mapR (extract_exchange type)
                      (filterb (fun exc => str_contains "Exchange" (x_tag exc)) (x_kids flows)) in
  Ok (VDict [("filepath", VStr filepath); ("id", of_text (attr "id" activity));
             ("parent", of_text (attr "parentActivityId" activity)); ("name", of_text name);
             ("location", of_text location); ("type", VStr type); ("technology level", VStr level);
             ("start date", of_text (attr "startDate" period)); ("end date", of_text (attr "endDate" period));
             ("economic scenario", of_text scenario); ("access restricted", VStr access);
             ("parameters", VList params); ("dataset author", of_text (attr "personName" publication));
             ("data entry", of_text (attr "personName" entry)); ("ISIC classification", of_text isic);
             ("exchanges", VList exchanges)])%string.

(** Lines 203-212, [generic_extractor], and line 249: all files, each a path and a tree. *)
Definition generic_extractor (file : string * xml) : result (list pyval) :=
  mapR (fun c => extract_ecospold2_dataset c file.1) (x_kids file.2).
Definition extract_ecospold2_directory (files : list (string * xml)) : result (list pyval) :=
  concat_mapR generic_extractor files.
End extraction.

Global Arguments extract_uncertainty : simpl never.
Global Arguments extract_optional_uncertainty : simpl never.
Global Arguments extract_exchange : simpl never.
Global Arguments extract_property : simpl never.
Global Arguments extract_parameter : simpl never.
Global Arguments extract_production_volume : simpl never.
