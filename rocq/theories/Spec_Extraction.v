(** Specifications for C67-C69: what a file says, read off the tree by paths, and how a
    dictionary of the internal format is read as a record. *)
From Verif Require Import Base Types Formulas Schema Extraction Spec_Pipeline Spec_Waste.

(** ** Records from dictionaries *)
Definition as_str (v : pyval) : option string := match v with VStr s => Some s | _ => None end.
Definition as_float (v : pyval) : option Qc := match v with VFloat q => Some q | _ => None end.
Definition as_bool (v : pyval) : option bool := match v with VBool b => Some b | _ => None end.
Definition as_int (v : pyval) : option Z := match v with VInt z => Some z | VBool b => Some (if b then 1 else 0)%Z | _ => None end.
Definition as_list {A} (f : pyval -> option A) (v : pyval) : option (list A) :=
  match v with VList l => mapM f l | _ => None end.
Definition need {A} (k : string) (f : pyval -> option A) (d : dict) : option A := dget k d ≫= f.
Definition may {A} (k : string) (f : pyval -> option A) (d : dict) : option (option A) :=
  match dget k d with None => Some None | Some v => Some <$> f v end.

Definition read_utype (s : string) : utype :=
  if (s =? "lognormal")%string then ULognormal else if (s =? "normal")%string then UNormal
  else if (s =? "triangular")%string then UTriangular else if (s =? "undefined")%string then UUndefined
  else if (s =? "uniform")%string then UUniform else UOther s.
Definition read_etype (s : string) : etype :=
  if (s =? "reference product")%string then RefProduct else if (s =? "byproduct")%string then Byproduct
  else if (s =? "from technosphere")%string then FromTechnosphere
  else if (s =? "from environment")%string then FromEnvironment
  else if (s =? "to environment")%string then ToEnvironment
  else if (s =? "dropped product")%string then DroppedProduct else EOther s.
Definition read_dtype (s : string) : dtype :=
  if (s =? "transforming activity")%string then Transforming
  else if (s =? "market activity")%string then MarketActivity
  else if (s =? "market group")%string then MarketGroup else DOther s.
Definition read_class (s : string) : option bclass :=
  if (s =? "allocatable product")%string then Some Allocatable else if (s =? "waste")%string then Some Waste
  else if (s =? "recyclable")%string then Some Recyclable else None.

Definition read_pedigree (v : pyval) : option pedigree :=
  match v with VDict d => mapM (fun kv => z ← as_int kv.2; Some (kv.1, z)) d | _ => None end.
Definition read_uncertainty (v : pyval) : option uncert :=
  match v with
  | VDict d =>
      t ← need "type" as_str d; mn ← may "minimum" as_float d; mx ← may "maximum" as_float d;
      mo ← may "mode" as_float d; me ← may "mean" as_float d; mu ← may "mu" as_float d;
      va ← may "variance" as_float d; vp ← may "variance with pedigree uncertainty" as_float d;
      sd ← may "standard deviation 95%" as_float d; pe ← need "pedigree matrix" read_pedigree d;
      Some (mkUncert (Some (read_utype t)) mn mx mo me mu va vp sd None (Some pe))
  | _ => None
  end.
Definition read_volume (v : pyval) : option pvol :=
  match v with
  | VDict d =>
      a ← need "amount" as_float d; x ← may "variable" as_str d; f ← may "formula" as_str d;
      u ← may "uncertainty" read_uncertainty d; s ← may "subtracted activity link volume" as_float d;
      Some (mkPvol a x f u s None None None)
  | _ => None
  end.
Definition read_property (v : pyval) : option prop :=
  match v with
  | VDict d =>
      i ← need "id" as_str d; n ← need "name" as_str d; a ← need "amount" as_float d; t ← need "unit" as_str d;
      x ← may "variable" as_str d; f ← may "formula" as_str d; u ← may "uncertainty" read_uncertainty d;
      Some (mkProp i n a t x f u)
  | _ => None
  end.
Definition read_parameter (v : pyval) : option param :=
  match v with
  | VDict d =>
      i ← may "id" as_str d; n ← may "name" as_str d; a ← need "amount" as_float d; t ← may "unit" as_str d;
      x ← may "variable" as_str d; f ← may "formula" as_str d; u ← may "uncertainty" read_uncertainty d;
      Some (mkParam i n a t x f u)
  | _ => None
  end.
Definition read_exchange (v : pyval) : option exchange :=
  match v with
  | VDict d =>
      i ← need "id" as_str d; n ← need "name" as_str d; t ← need "unit" as_str d; y ← need "type" as_str d;
      a ← need "amount" as_float d; c ← may "byproduct classification" (fun v => as_str v ≫= read_class) d;
      l ← may "activity link" as_str d; x ← may "variable" as_str d; f ← may "formula" as_str d;
      v ← may "production volume" read_volume d; p ← may "properties" (as_list read_property) d;
      u ← may "uncertainty" read_uncertainty d; b ← may "conditional exchange" as_bool d;
      co ← may "compartment" as_str d; su ← may "subcompartment" as_str d; g ← need "tag" as_str d;
      Some (mkExchange (Some i) n t (read_etype y) a c l x f v (default [] p) u None b None None None None None
              co su (Some g))
  | _ => None
  end.
Definition as_parent (v : pyval) : option (option string) :=
  match v with VNone => Some None | VStr s => Some (Some s) | _ => None end.
Definition read_dataset (v : pyval) : option dataset :=
  match v with
  | VDict d =>
      i ← need "id" as_str d; n ← need "name" as_str d; l ← need "location" as_str d; y ← need "type" as_str d;
      t ← need "technology level" as_str d; s ← need "start date" as_str d; e ← need "end date" as_str d;
      p ← need "parent" as_parent d; fp ← need "filepath" as_str d;
      es ← need "exchanges" (as_list read_exchange) d; ps ← need "parameters" (as_list read_parameter) d;
      r ← may "reference product" as_str d; c ← may "code" as_str d;
      su ← may "suppliers" (as_list read_exchange) d; a ← may "allocation method" as_str d;
      ac ← need "access restricted" as_str d; sc ← need "economic scenario" as_str d;
      au ← need "dataset author" as_str d; en ← need "data entry" as_str d; is ← need "ISIC classification" as_str d;
      Some (mkDataset i n l (read_dtype y) t s e p fp es ps r c su a None ac sc au en (Some is))
  | _ => None
  end.

(** ** What the tree says *)
Fixpoint at_path (path : list string) (x : xml) : option xml :=
  match path with [] => Some x | n :: path => kid n x ≫= at_path path end.
Definition text_at (path : list string) (x : xml) : option string := at_path path x ≫= x_text.
Definition attr_at (path : list string) (k : string) (x : xml) : option string := at_path path x ≫= attr k.

(** Optional texts: an empty one is none; white space around is taken off. *)
Definition filled (o r : option string) : Prop :=
  match o with None | Some EmptyString => r = None | Some s => r = Some s end.
Definition white (c : Ascii.ascii) : Prop := Ascii.nat_of_ascii c ∈ [9; 10; 11; 12; 13; 28; 29; 30; 31; 32].
Definition trim (s t : string) : Prop :=
  exists a b, chars s = a ++ chars t ++ b /\ Forall white a /\ Forall white b /\
    (forall c l, chars t = c :: l -> ~ white c) /\ (forall c l, chars t = l ++ [c] -> ~ white c).
Definition cleaned (o r : option string) : Prop :=
  match o with
  | None | Some EmptyString => r = None
  | Some s => exists t, r = Some t /\ trim s t
  end.

Section said.
Context (pyfloat : string -> result Qc) (pyint : string -> result Z).
Definition number (o : option string) (q : Qc) : Prop := exists s, o = Some s /\ pyfloat s = Ok q.

(** The attributes of a distribution: the dictionary keys they stand for. *)
Definition renamed : list (string * string) :=
  [("maxValue", "maximum"); ("minValue", "minimum"); ("meanValue", "mean"); ("mostLikelyValue", "mode");
   ("mostFrequentValue", "mode"); ("standardDeviation95", "standard deviation 95%");
   ("varianceWithPedigreeUncertainty", "variance with pedigree uncertainty")]%string.
Definition stands_for (k : string) (a : string * string) : Prop :=
  (a.1, k) ∈ renamed \/ (a.1 = k /\ forall k', (a.1, k') ∉ renamed).
Definition means (k : string) (dist : xml) (o : option Qc) : Prop :=
  match o with
  | Some q => exists pre a post, x_attrs dist = pre ++ a :: post /\ stands_for k a /\ pyfloat a.2 = Ok q /\
                Forall (fun b => ~ stands_for k b) post
  | None => Forall (fun b => ~ stands_for k b) (x_attrs dist)
  end.
(** What each distribution needs and may have. *)
Definition shape (l : string) : list string * list string :=
  (if (l =? "lognormal") then (["mean"; "variance with pedigree uncertainty"], ["mu"; "variance"])
   else if (l =? "normal") then (["mean"; "variance with pedigree uncertainty"], ["variance"])
   else if (l =? "uniform") then (["maximum"; "minimum"], [])
   else if (l =? "triangular") then (["maximum"; "minimum"; "mode"], [])
   else if (l =? "beta") then (["maximum"; "minimum"; "mode"], [])
   else if (l =? "undefined") then (["maximum"; "minimum"; "standard deviation 95%"], [])
   else if (l =? "binomial") then (["n"; "p"], [])
   else (["scale"; "shape"], []))%string.
Definition pedigree_said (x : xml) (l : string) (ped : pedigree) : Prop :=
  match kid "pedigreeMatrix" x with
  | Some m => exists r c t g f, ped = [("reliability", r); ("completeness", c); ("temporal correlation", t);
                   ("geographical correlation", g); ("further technology correlation", f)]%string /\
      Forall2 (fun k z => exists s, attr k m = Some s /\ pyint s = Ok z)
        ["reliability"; "completeness"; "temporalCorrelation"; "geographicalCorrelation";
         "furtherTechnologyCorrelation"]%string [r; c; t; g; f]
  | None => ped = if ((l =? "lognormal") || (l =? "normal"))%string
                  then [("reliability", 5); ("completeness", 5); ("temporal correlation", 5);
                        ("geographical correlation", 5); ("further technology correlation", 5)]%string%Z
                  else []
  end.
(** The distribution is the first in a fixed order; XML cannot have the keys 'type' and
    'pedigree matrix' of its own. *)
Definition uncertainty_said (x : xml) (u : uncert) : Prop :=
  exists l dist pre post,
    ["lognormal"; "normal"; "triangular"; "beta"; "uniform"; "undefined"; "binomial"; "gamma"]%string = pre ++ l :: post /\
    Forall (fun l' => kid l' x = None) pre /\ kid l x = Some dist /\
    Forall (fun a => exists q, pyfloat a.2 = Ok q) (x_attrs dist) /\
    Forall (fun a => exists k, stands_for k a /\
              k ∈ ["type"; "pedigree matrix"]%string ++ (shape l).1 ++ (shape l).2) (x_attrs dist) /\
    Forall (fun k => exists a, a ∈ x_attrs dist /\ stands_for k a) (shape l).1 /\
    u_type u = Some (read_utype l) /\ means "minimum" dist (u_min u) /\ means "maximum" dist (u_max u) /\
    means "mode" dist (u_mode u) /\ means "mean" dist (u_mean u) /\ means "mu" dist (u_mu u) /\
    means "variance" dist (u_variance u) /\ means "variance with pedigree uncertainty" dist (u_vwpu u) /\
    means "standard deviation 95%" dist (u_sd95 u) /\ u_negative u = None /\
    exists ped, u_pedigree u = Some ped /\ pedigree_said x l ped.
Definition uncertainty_in (n : string) (x : xml) (o : option uncert) : Prop :=
  match kid n x, o with
  | Some y, Some u => uncertainty_said y u
  | None, None => True
  | _, _ => False
  end.
Definition unit_said (x : xml) (u : string) : Prop :=
  match kid "unitName" x with Some y => x_text y = Some u | None => u = "dimensionless"%string end.

Definition property_said (x : xml) (p : prop) : Prop :=
  attr "propertyId" x = Some (p_id p) /\ text_at ["name"%string] x = Some (p_name p) /\
  number (attr "amount" x) (p_amount p) /\ unit_said x (p_unit p) /\
  filled (attr "variableName" x) (p_variable p) /\ cleaned (attr "mathematicalRelation" x) (p_formula p) /\
  uncertainty_in "uncertainty" x (p_unc p).
Definition parameter_said (x : xml) (q : param) : Prop :=
  q_id q <> None /\ attr "parameterId" x = q_id q /\ q_name q <> None /\ text_at ["name"%string] x = q_name q /\
  number (attr "amount" x) (q_amount q) /\ (exists u, q_unit q = Some u /\ unit_said x u) /\
  cleaned (attr "variableName" x) (q_variable q) /\ cleaned (attr "mathematicalRelation" x) (q_formula q) /\
  uncertainty_in "uncertainty" x (q_unc q).
Definition volume_said (x : xml) (v : pvol) : Prop :=
  match attr "productionVolumeAmount" x with
  | None | Some EmptyString => v_amount v = 0%Qc
  | Some s => pyfloat s = Ok (v_amount v)
  end /\
  cleaned (attr "productionVolumeVariableName" x) (v_variable v) /\
  cleaned (attr "productionVolumeMathematicalRelation" x) (v_formula v) /\
  uncertainty_in "productionVolumeUncertainty" x (v_unc v) /\
  v_subtracted v = None /\ v_original v = None /\ v_global v = None /\ v_original_total v = None.

(** Direction and kind of an exchange by its group. *)
Definition kind_said (x : xml) (t : etype) : Prop :=
  match kid "inputGroup" x with
  | Some g => (x_text g = Some "4"%string /\ t = FromEnvironment) \/
              (x_text g = Some "5"%string /\ t = FromTechnosphere)
  | None => (text_at ["outputGroup"%string] x = Some "0"%string /\ t = RefProduct) \/
            (text_at ["outputGroup"%string] x = Some "2"%string /\ t = Byproduct) \/
            (text_at ["outputGroup"%string] x = Some "4"%string /\ t = ToEnvironment)
  end.
Definition class_name (c : bclass) : string :=
  match c with Allocatable => "allocatable product" | Waste => "Waste" | Recyclable => "Recyclable" end.
(** All classifications as by-product name the same class; every classification names its
    system. *)
Definition class_said (x : xml) (o : option bclass) : Prop :=
  Forall (fun y => x_tag y = "classification"%string ->
     at_path ["classificationSystem"%string] y <> None /\
     (text_at ["classificationSystem"%string] y = Some "By-product classification"%string ->
        exists c, o = Some c /\ text_at ["classificationValue"%string] y = Some (class_name c))) (x_kids x) /\
  (o <> None -> exists y, y ∈ x_kids x /\ x_tag y = "classification"%string /\
     text_at ["classificationSystem"%string] y = Some "By-product classification"%string).
Definition environmental (t : etype) : Prop := t = FromEnvironment \/ t = ToEnvironment.
Definition exchange_said (ty : dtype) (x : xml) (e : exchange) : Prop :=
  e_id e <> None /\ attr "id" x = e_id e /\ text_at ["name"%string] x = Some (e_name e) /\
  text_at ["unitName"%string] x = Some (e_unit e) /\ number (attr "amount" x) (e_amount e) /\
  kind_said x (e_type e) /\ filled (attr "activityLinkId" x) (e_link e) /\ class_said x (e_class e) /\
  cleaned (attr "variableName" x) (e_variable e) /\ cleaned (attr "mathematicalRelation" x) (e_formula e) /\
  Forall2 property_said (filter (fun y => x_tag y = "property"%string) (x_kids x)) (e_props e) /\
  uncertainty_in "uncertainty" x (e_unc e) /\
  match e_type e with
  | RefProduct | Byproduct => exists v, e_pv e = Some v /\ volume_said x v
  | _ => e_pv e = None
  end /\
  (environmental (e_type e) ->
     x_tag x = "elementaryExchange"%string /\ e_link e = None /\ e_class e = None /\ e_cond e = None /\
     e_compartment e <> None /\ text_at ["compartment"; "compartment"]%string x = e_compartment e /\
     e_subcompartment e <> None /\ text_at ["compartment"; "subcompartment"]%string x = e_subcompartment e) /\
  (~ environmental (e_type e) ->
     x_tag x = "intermediateExchange"%string /\ e_compartment e = None /\ e_subcompartment e = None /\
     exists b, e_cond e = Some b /\
       (b = true <-> e_link e <> None /\ ty = MarketActivity /\ e_type e = Byproduct /\ (e_amount e < 0)%Qc)) /\
  e_tag e = Some (x_tag x) /\ e_ped e = None /\ e_code e = None /\ e_location e = None /\ e_tech e = None /\
  e_activity e = None /\ e_orig_id e = None.

Definition type_said (code : string) (t : dtype) : Prop :=
  (code = "0" /\ t = Transforming \/ code = "1" /\ t = MarketActivity \/ code = "10" /\ t = MarketGroup \/
   code = "2" /\ t = DOther "IO activity" \/ code = "3" /\ t = DOther "residual activity" \/
   code = "4" /\ t = DOther "production mix" \/ code = "5" /\ t = DOther "import activity" \/
   code = "6" /\ t = DOther "supply mix" \/ code = "7" /\ t = DOther "export activity" \/
   code = "8" /\ t = DOther "re-export activity" \/ code = "9" /\ t = DOther "correction activity")%string.
Definition level_said (code : option string) (t : string) : Prop :=
  ((code = None \/ code = Some "None" \/ code = Some "0") /\ t = "undefined" \/ code = Some "1" /\ t = "new" \/
   code = Some "2" /\ t = "modern" \/ code = Some "3" /\ t = "current" \/ code = Some "4" /\ t = "old" \/
   code = Some "5" /\ t = "outdated")%string.
Definition access_said (code : string) (t : string) : Prop :=
  (code = "0" /\ t = "public" \/ code = "1" /\ t = "licensees" \/ code = "2" /\ t = "results only" \/
   code = "3" /\ t = "restricted")%string.
(** The first classification of the activity by ISIC; those before it name other systems. *)
Definition isic_said (x : xml) (s : string) : Prop :=
  exists desc pre y post, kid "activityDescription" x = Some desc /\ x_kids desc = pre ++ y :: post /\
    Forall (fun z => Strings.str_contains "classification" (x_tag z) = true ->
       exists t, text_at ["classificationSystem"%string] z = Some t /\ Strings.str_contains "ISIC" t = false) pre /\
    Strings.str_contains "classification" (x_tag y) = true /\
    (exists t, text_at ["classificationSystem"%string] y = Some t /\ Strings.str_contains "ISIC" t = true) /\
    text_at ["classificationValue"%string] y = Some s.
Definition dataset_said (filepath : string) (x : xml) (d : dataset) : Prop :=
  d_filepath d = filepath /\
  attr_at ["activityDescription"; "activity"]%string "id" x = Some (d_id d) /\
  attr_at ["activityDescription"; "activity"]%string "parentActivityId" x = d_parent d /\
  text_at ["activityDescription"; "activity"; "activityName"]%string x = Some (d_name d) /\
  text_at ["activityDescription"; "geography"; "shortname"]%string x = Some (d_location d) /\
  (exists c, attr_at ["activityDescription"; "activity"]%string "specialActivityType" x = Some c /\ type_said c (d_type d)) /\
  at_path ["activityDescription"; "technology"]%string x <> None /\
  level_said (attr_at ["activityDescription"; "technology"]%string "technologyLevel" x) (d_tech d) /\
  attr_at ["activityDescription"; "timePeriod"]%string "startDate" x = Some (d_start d) /\
  attr_at ["activityDescription"; "timePeriod"]%string "endDate" x = Some (d_end d) /\
  text_at ["activityDescription"; "macroEconomicScenario"; "name"]%string x = Some (d_scenario d) /\
  (exists c, attr_at ["administrativeInformation"; "dataGeneratorAndPublication"]%string "accessRestrictedTo" x = Some c /\
     access_said c (d_access d)) /\
  attr_at ["administrativeInformation"; "dataGeneratorAndPublication"]%string "personName" x = Some (d_author d) /\
  attr_at ["administrativeInformation"; "dataEntryBy"]%string "personName" x = Some (d_entry d) /\
  (exists s, d_isic d = Some s /\ isic_said x s) /\
  (exists flows, kid "flowData" x = Some flows /\
     Forall2 parameter_said (filter (fun y => Strings.str_contains "parameter" (x_tag y) = true) (x_kids flows)) (d_params d) /\
     Forall2 (exchange_said (d_type d))
       (filter (fun y => Strings.str_contains "Exchange" (x_tag y) = true) (x_kids flows)) (d_exchanges d)) /\
  d_refprod d = None /\ d_code d = None /\ d_suppliers d = None /\ d_alloc d = None /\ d_unit d = None.

(** All datasets of all files, in order. *)
Definition directory_said (files : list (string * xml)) (data : list dataset) : Prop :=
  exists dss, data = concat dss /\
    Forall2 (fun file ds => Forall2 (dataset_said file.1) (x_kids file.2) ds) files dss.
End said.

(** Every parameter has an amount. *)
Definition with_amounts (d : dict) : Prop :=
  forall ps, dget "parameters" d = Some (VList ps) -> Forall (fun v => forall p, v = VDict p -> is_Some (dget "amount" p)) ps.

(** Where in the files a dataset of a result stands: the activity has its id, and each of
    its exchanges but inputs from technosphere is there by id and unit, those with the
    environment by direction, compartment and name too. *)
Definition found_in (files : list (string * xml)) (ds : dataset) : Prop :=
  exists file x flows, file ∈ files /\ x ∈ x_kids file.2 /\ d_filepath ds = file.1 /\
    attr_at ["activityDescription"; "activity"]%string "id" x = Some (d_id ds) /\ kid "flowData" x = Some flows /\
    forall e, e ∈ d_exchanges ds -> e_type e <> FromTechnosphere ->
      exists y, y ∈ x_kids flows /\ attr "id" y = e_id e /\ text_at ["unitName"%string] y = Some (e_unit e) /\
        (elementary e -> kind_said y (e_type e) /\ x_tag y = "elementaryExchange"%string /\
           text_at ["compartment"; "compartment"]%string y = e_compartment e /\
           text_at ["compartment"; "subcompartment"]%string y = e_subcompartment e /\
           forall n, text_at ["name"%string] y = Some n -> (forall a, n <> (a ++ marker)%string) -> e_name e = n).
