(** Properties of extraction (C67-C69): what is read from files, what the schema of the
    internal format guarantees, and how directories become results. *)
From stdpp Require Import gmap.
From Verif Require Import Base Types Schema Extraction Spec_Extraction Extraction_proofs Extraction2_proofs Extraction3_proofs
  Spec_Codes Pipeline Spec_Pipeline Pipeline_proofs Props_Pipeline.
From Verif Require Cutoff Allocation_proofs.

(** A file: making steel takes some steel and releases carbon dioxide. *)
Definition ex_float (s : string) : result Qc :=
  match s with
  | "0" => Ok 0%Qc | "1" | "1.0" => Ok (Qcint 1) | "2" => Ok (Qcint 2) | "-3" => Ok (Qcint (-3)) | "0.5" => Ok (frac 1 2) | "100" => Ok (Qcint 100)
  | _ => Err ValueError
  end%string.
Definition ex_int (s : string) : result Z :=
  match s with "1" => Ok 1%Z | "2" => Ok 2%Z | "5" => Ok 5%Z | _ => Err ValueError end%string.
Definition ex_elem (t : string) (a : list (string * string)) (k : list xml) : xml := Elem t a None k.
Definition ex_leaf (t c : string) : xml := Elem t [] (Some c) [].
Definition ex_tree (activity : list (string * string)) (name : string) (technology publication : list (string * string))
  (classification flows : list xml) : xml :=
  ex_elem "childActivityDataset" []
    [ex_elem "activityDescription" []
       ([ex_elem "activity" activity [ex_leaf "activityName" name]] ++ classification ++
        [ex_elem "geography" [("geographyId", "g")] [ex_leaf "shortname" "FR"];
         ex_elem "technology" technology [];
         ex_elem "timePeriod" [("startDate", "2010-01-01"); ("endDate", "2015-12-31")] [];
         ex_elem "macroEconomicScenario" [] [ex_leaf "name" "Business-as-Usual"]]);
     ex_elem "flowData" [] flows;
     ex_elem "administrativeInformation" []
       [ex_elem "dataEntryBy" [("personName", "A")] [];
        ex_elem "dataGeneratorAndPublication" (("personName", "B") :: publication) []]]%string.
Definition ex_isic : list xml :=
  [ex_elem "classification" [] [ex_leaf "classificationSystem" "CPC"; ex_leaf "classificationValue" "41"];
   ex_elem "classification" [] [ex_leaf "classificationSystem" "ISIC rev.4 ecoinvent"; ex_leaf "classificationValue" "2410:Iron"]]%string.
Definition ex_allocatable : xml :=
  ex_elem "classification" []
    [ex_leaf "classificationSystem" "By-product classification"; ex_leaf "classificationValue" "allocatable product"]%string.
Definition ex_flows : list xml :=
  [Elem "intermediateExchange" [("id", "s1"); ("amount", "2"); ("productionVolumeAmount", "100"); ("variableName", " steel_out ")] None
     [ex_leaf "name" "steel"; ex_leaf "unitName" "kg"; ex_allocatable;
      ex_elem "property" [("propertyId", "p1"); ("amount", "0.5"); ("variableName", "carbon")] [ex_leaf "name" "carbon content"];
      ex_leaf "outputGroup" "0"];
   Elem "intermediateExchange" [("id", "s2"); ("amount", "1.0"); ("activityLinkId", ""); ("mathematicalRelation", "steel_out / 2 ")] None
     [ex_leaf "name" "steel"; ex_leaf "unitName" "kg"; ex_leaf "inputGroup" "5";
      ex_elem "uncertainty" []
        [ex_elem "lognormal" [("meanValue", "1.0"); ("mu", "0"); ("variance", "0.5"); ("varianceWithPedigreeUncertainty", "0.5")] []]];
   Elem "elementaryExchange" [("id", "s3"); ("amount", "2")] None
     [ex_leaf "name" "carbon dioxide"; ex_leaf "unitName" "kg";
      ex_elem "compartment" [] [ex_leaf "compartment" "air"; ex_leaf "subcompartment" "low"]; ex_leaf "outputGroup" "4"];
   ex_elem "parameter" [("parameterId", "q1"); ("amount", "0.5"); ("variableName", "loss")] [ex_leaf "name" "share lost"]]%string.
Definition ex_steelworks : xml :=
  ex_tree [("id", "1"); ("specialActivityType", "0")] "steelmaking" [("technologyLevel", "3")] [("accessRestrictedTo", "1")] ex_isic ex_flows.
Definition ex_market : xml :=
  ex_tree [("id", "2"); ("specialActivityType", "1")] "market for steel" [] [("accessRestrictedTo", "0")] ex_isic
    [Elem "intermediateExchange" [("id", "m1"); ("amount", "1.0")] None
       [ex_leaf "name" "steel"; ex_leaf "unitName" "kg"; ex_allocatable; ex_leaf "outputGroup" "0"]]%string.
Definition ex_read (x : xml) : option dataset :=
  match extract_ecospold2_dataset ex_float ex_int x "1.spold" with
  | Ok v => if conforms dataset_schema v then read_dataset v else None
  | Err _ => None
  end.
Lemma ex_read_said x d : ex_read x = Some d -> dataset_said ex_float ex_int "1.spold" x d.
Proof.
  unfold ex_read. intros H. apply dataset_iff. destruct (extract_ecospold2_dataset _ _ _ _) as [v|]; [|done].
  destruct (conforms dataset_schema v) eqn:E; [|done]. by exists v.
Qed.

(** ** C67 What a file says *)

Theorem C67_extraction_exact : forall pyfloat pyint filepath x d,
  dataset_said pyfloat pyint filepath x d <->
  exists v, extract_ecospold2_dataset pyfloat pyint x filepath = Ok v /\ conforms dataset_schema v = true /\ read_dataset v = Some d.
Proof. intros. apply dataset_iff. Qed.
Print Assumptions C67_extraction_exact.

(** Whatever is extracted and accepted says something, and one thing only. *)
Theorem C67_extraction_accepts : forall pyfloat pyint filepath x,
  (exists v, extract_ecospold2_dataset pyfloat pyint x filepath = Ok v /\ conforms dataset_schema v = true) <->
  exists d, dataset_said pyfloat pyint filepath x d /\ forall d', dataset_said pyfloat pyint filepath x d' -> d' = d.
Proof.
  intros. rewrite <- dataset_accepted. split.
  - intros [d Hd]. exists d. split; [done|]. intros d' Hd'. by eapply dataset_unique.
  - intros (d & Hd & _). by exists d.
Qed.
Print Assumptions C67_extraction_accepts.

Definition ex_said (d : dataset) :=
  (d_id d, d_name d, d_location d, d_type d, d_tech d, d_access d, d_isic d, d_parent d,
   map (fun e => (e_id e, e_name e, e_type e, e_amount e, e_variable e, e_formula e)) (d_exchanges d),
   map (fun e => (e_link e, e_cond e, e_compartment e, e_subcompartment e, option_map v_amount (e_pv e),
                  map p_variable (e_props e), option_map u_vwpu (e_unc e))) (d_exchanges d),
   map (fun q => (q_variable q, q_amount q, q_unit q)) (d_params d)).
Example C67_nonvacuous : option_map ex_said (ex_read ex_steelworks) = Some
  ("1", "steelmaking", "FR", Transforming, "current", "licensees", Some "2410:Iron", None,
   [(Some "s1", "steel", RefProduct, Qcint 2, Some "steel_out", None);
    (Some "s2", "steel", FromTechnosphere, Qcint 1, None, Some "steel_out / 2");
    (Some "s3", "carbon dioxide", ToEnvironment, Qcint 2, None, None)],
   [(None, Some false, None, None, Some (Qcint 100), [Some "carbon"], None);
    (None, Some false, None, None, None, [], Some (Some (frac 1 2)));
    (None, None, Some "air", Some "low", None, [], None)],
   [(Some "loss", frac 1 2, Some "dimensionless")])%string.
Proof. by_compute. Qed.

(** The format gives two attributes of a dataset defaults (EcoSpold02MetaInformation.xsd
    lines 234 and 474): technology level 3, current, and access 0, public.  The first is
    not applied, without the second nothing is extracted. *)
Theorem C67_technology_default_refuted : exists pyfloat pyint x d,
  dataset_said pyfloat pyint "1.spold" x d /\
  attr_at ["activityDescription"; "technology"]%string "technologyLevel" x = None /\ d_tech d <> "current"%string.
Proof.
  exists ex_float, ex_int, ex_market, (default dataset0 (ex_read ex_market)).
  split; [apply ex_read_said; assert (is_Some (ex_read ex_market)) as [d ->]; [by apply (bool_decide_unpack _); vm_compute|done]|].
  split; by_compute.
Qed.
Print Assumptions C67_technology_default_refuted.

Definition ex_open : xml :=
  ex_tree [("id", "1"); ("specialActivityType", "0")]%string "steelmaking" [("technologyLevel", "3")]%string [] ex_isic ex_flows.
Theorem C67_access_default_refuted : exists pyfloat pyint x,
  attr_at ["administrativeInformation"; "dataGeneratorAndPublication"]%string "accessRestrictedTo" x = None /\
  (exists d y, dataset_said pyfloat pyint "1.spold" y d /\ d_access d = "licensees"%string /\
     kid "activityDescription" x = kid "activityDescription" y /\ kid "flowData" x = kid "flowData" y) /\
  extract_ecospold2_dataset pyfloat pyint x "1.spold" = Err (KeyError "None").
Proof.
  exists ex_float, ex_int, ex_open. split; [by_compute|]. split.
  - exists (default dataset0 (ex_read ex_steelworks)), ex_steelworks.
    split; [apply ex_read_said; assert (is_Some (ex_read ex_steelworks)) as [d ->]; [by apply (bool_decide_unpack _); vm_compute|done]|].
    split; [by_compute|]. split; reflexivity.
  - apply fails_with. by vm_compute.
Qed.
Print Assumptions C67_access_default_refuted.

(** Classifications are optional (EcoSpold02Activity.xsd line 44), but without one by ISIC
    a dataset is extracted and not accepted. *)
Theorem C67_isic_optional_refuted : exists pyfloat pyint x v,
  extract_ecospold2_dataset pyfloat pyint x "1.spold" = Ok v /\ conforms dataset_schema v = false /\
  exists y d, dataset_said pyfloat pyint "1.spold" y d /\ kid "flowData" x = kid "flowData" y /\
    kid "administrativeInformation" x = kid "administrativeInformation" y.
Proof.
  set (x := ex_tree [("id", "1"); ("specialActivityType", "0")]%string "steelmaking" [("technologyLevel", "3")]%string
    [("accessRestrictedTo", "1")]%string [] ex_flows).
  exists ex_float, ex_int, x, (match extract_ecospold2_dataset ex_float ex_int x "1.spold" with Ok v => v | Err _ => VNone end).
  split; [by vm_compute|]. split; [by vm_compute|].
  exists ex_steelworks, (default dataset0 (ex_read ex_steelworks)).
  split; [apply ex_read_said; assert (is_Some (ex_read ex_steelworks)) as [d ->]; [by apply (bool_decide_unpack _); vm_compute|done]|].
  split; reflexivity.
Qed.
Print Assumptions C67_isic_optional_refuted.

(** A gamma distribution needs a minimum in the format (EcoSpold02DataTypes.xsd, attribute
    minValue); with one it is extracted and not accepted. *)
Theorem C67_gamma_refuted : exists pyfloat pyint x v,
  (exists dist, kid "gamma" x = Some dist /\ attr "minValue" dist <> None) /\
  extract_uncertainty pyfloat pyint x = Ok v /\ conforms valid_uncertainty v = false.
Proof.
  set (x := ex_elem "uncertainty" [] [ex_elem "gamma" [("shape", "1"); ("scale", "2"); ("minValue", "0")] []]%string).
  exists ex_float, ex_int, x, (match extract_uncertainty ex_float ex_int x with Ok v => v | Err _ => VNone end).
  split; [eexists; split; [reflexivity|by_compute]|]. split; by vm_compute.
Qed.
Print Assumptions C67_gamma_refuted.

(** White space around the variable of a property is kept; around those of exchanges,
    production volumes and parameters it is taken off. *)
Theorem C67_property_variable_refuted : exists pyfloat pyint x p q,
  property_said pyfloat pyint x p /\ p_variable p = attr "variableName" x /\
  parameter_said pyfloat pyint (Elem (x_tag x) (("parameterId"%string, "q1"%string) :: x_attrs x) (x_text x) (x_kids x)) q /\
  q_variable q <> p_variable p.
Proof.
  set (x := ex_elem "property" [("propertyId", "p1"); ("amount", "0.5"); ("variableName", " carbon ")] [ex_leaf "name" "carbon content"]%string).
  exists ex_float, ex_int, x, (mkProp "p1" "carbon content" (frac 1 2) "dimensionless" (Some " carbon ") None None)%string,
    (mkParam (Some "q1") (Some "carbon content") (frac 1 2) (Some "dimensionless") (Some "carbon") None None)%string.
  split; [|split; [reflexivity|split; [|done]]].
  - apply property_iff. eexists. split; [vm_compute; reflexivity|]. split; by vm_compute.
  - apply parameter_iff. eexists. split; [vm_compute; reflexivity|]. split; by vm_compute.
Qed.
Print Assumptions C67_property_variable_refuted.

(** ** C68 What the schema guarantees *)

Theorem C68_schema_readable : forall d, conforms dataset_schema (VDict d) = true ->
  dget "suppliers" d = None -> with_amounts d -> is_Some (read_dataset (VDict d)).
Proof. exact dataset_read. Qed.
Print Assumptions C68_schema_readable.

(** Datasets that are just extracted need no further assumption. *)
Theorem C68_extracted_readable : forall pyfloat pyint x filepath v,
  extract_ecospold2_dataset pyfloat pyint x filepath = Ok v -> conforms dataset_schema v = true ->
  exists d, read_dataset v = Some d.
Proof. exact extracted_read. Qed.
Print Assumptions C68_extracted_readable.

Definition ex_dict : dict :=
  match extract_ecospold2_dataset ex_float ex_int ex_steelworks "1.spold" with Ok (VDict d) => d | _ => [] end.
Example C68_nonvacuous : conforms dataset_schema (VDict ex_dict) = true /\ dget "suppliers" ex_dict = None /\ with_amounts ex_dict.
Proof.
  split; [by vm_compute|]. split; [by vm_compute|]. intros ps E. vm_compute in E. injection E as <-.
  constructor; [|constructor]. intros p [= <-]. vm_compute. by eexists.
Qed.

(** The schema accepts parameters without an amount. *)
Theorem C68_parameter_amount_refuted : exists d, conforms dataset_schema (VDict d) = true /\ dget "suppliers" d = None /\
  exists ps p, dget "parameters" d = Some (VList ps) /\ VDict p ∈ ps /\ dget "amount" p = None.
Proof.
  exists (put "parameters" (VList [VDict []]) ex_dict). split; [by vm_compute|]. split; [by vm_compute|].
  exists [VDict []], []. split; [by vm_compute|]. split; [left|done].
Qed.
Print Assumptions C68_parameter_amount_refuted.

(** Validation finds no errors exactly if every dataset is accepted. *)
Theorem C68_validation : forall invalid data, (forall v, invalid v = None <-> conforms dataset_schema v = true) ->
  validate_directory invalid data = [] <-> Forall (fun v => conforms dataset_schema v = true) data.
Proof. intros invalid data H. rewrite validate_none. apply Forall_iff. intros v. apply H. Qed.
Print Assumptions C68_validation.

(** Every error it reports is one, under its message. *)
Theorem C68_validation_sound : forall invalid data msg v,
  dget msg (validate_directory invalid data) = Some v -> v ∈ data /\ invalid v = Some msg.
Proof. exact validate_sound. Qed.
Print Assumptions C68_validation_sound.

(** Every message is reported. *)
Theorem C68_validation_messages : forall invalid data msg,
  (exists v, v ∈ data /\ invalid v = Some msg) -> is_Some (dget msg (validate_directory invalid data)).
Proof. exact validate_complete. Qed.
Print Assumptions C68_validation_messages.

(** But of datasets with the same fault only one is reported. *)
Theorem C68_validation_all_refuted : exists invalid data v,
  (forall v, invalid v = None <-> conforms dataset_schema v = true) /\ v ∈ data /\ conforms dataset_schema v = false /\
  forall msg, dget msg (validate_directory invalid data) <> Some v.
Proof.
  exists (fun v => if conforms dataset_schema v then None else Some "required key not provided"%string),
    [VDict [("id"%string, VStr "1")]; VDict [("id"%string, VStr "2")]], (VDict [("id"%string, VStr "1")]).
  split; [intros v; by destruct (conforms dataset_schema v)|]. split; [left|]. split; [by vm_compute|].
  intros msg. unfold validate_directory. cbn [fold_left].
  replace (conforms dataset_schema (VDict [("id"%string, VStr "1")])) with false by (by vm_compute).
  replace (conforms dataset_schema (VDict [("id"%string, VStr "2")])) with false by (by vm_compute).
  cbn. by destruct (msg =? _)%string.
Qed.
Print Assumptions C68_validation_all_refuted.

(** The lists of the schema: what is accepted, and nothing else. *)
Theorem C68_lists : forall v,
  (conforms valid_access_restriction v = true <-> exists s, v = VStr s /\ s ∈ ["public"; "licensees"; "results only"; "restricted"]%string) /\
  (conforms valid_activity_types v = true <-> exists s, v = VStr s /\ s ∈
    ["transforming activity"; "market activity"; "IO activity"; "residual activity"; "production mix"; "import activity";
     "supply mix"; "export activity"; "re-export activity"; "correction activity"; "market group"]%string) /\
  (conforms valid_allocation_method v = true <-> exists s, v = VStr s /\ s ∈
    ["combined production with byproduct"; "combined production without byproduct"; "constrained market"; "economic allocation";
     "no allocation"; "recycling activity"; "true value allocation"; "waste treatment"]%string) /\
  (conforms valid_byproducts v = true <-> exists s, v = VStr s /\ s ∈ ["allocatable product"; "waste"; "recyclable"]%string) /\
  (conforms valid_technology_levels v = true <-> exists s, v = VStr s /\ s ∈
    ["undefined"; "new"; "modern"; "current"; "old"; "outdated"]%string).
Proof.
  intros v. unfold valid_access_restriction, valid_activity_types, valid_allocation_method, valid_byproducts, valid_technology_levels.
  rewrite !any_of_iff. split_and!; (split; intros (s & -> & H); exists s; (split; [done|]); cbn in *; set_solver).
Qed.
Print Assumptions C68_lists.

(** Of the labels that [choose_allocation_method] gives only two are in the list. *)
Theorem C68_labels : forall ds l, Cutoff.choose_allocation_method ds = Ok l ->
  conforms valid_allocation_method (VStr l) = true <-> l = "constrained market"%string \/ l = "waste treatment"%string.
Proof.
  intros ds l H. apply Allocation_proofs.choose_method in H. destruct H; vm_compute; (split; [intros|intros []]; try done; auto).
Qed.
Print Assumptions C68_labels.

(** So a dataset that conforms no longer does once it has its label. *)
Theorem C68_labelled_refuted : exists d ds l, conforms dataset_schema (VDict d) = true /\ read_dataset (VDict d) = Some ds /\
  Cutoff.choose_allocation_method ds = Ok l /\ conforms dataset_schema (VDict (put "allocation method" (VStr l) d)) = false.
Proof.
  exists ex_dict, (default dataset0 (read_dataset (VDict ex_dict))), "single product"%string. split_and!; by vm_compute.
Qed.
Print Assumptions C68_labelled_refuted.

(** ** C69 From files to results *)

Theorem C69_directory_exact : forall pyfloat pyint files data,
  directory_said pyfloat pyint files data <->
  exists vs, extract_ecospold2_directory pyfloat pyint files = Ok vs /\ forallb (conforms dataset_schema) vs = true /\
    mapM read_dataset vs = Some data.
Proof. exact directory_iff. Qed.
Print Assumptions C69_directory_exact.

(** What is extracted is not linked yet, so that codes of results are as in C64. *)
Theorem C69_directory_raw : forall pyfloat pyint files data, directory_said pyfloat pyint files data -> raw data.
Proof. exact directory_raw. Qed.
Print Assumptions C69_directory_raw.

Theorem C69_codes : forall pyfloat pyint w files data out, directory_said pyfloat pyint files data ->
  cutoff_model w data = Ok out \/ consequential_model w data = Ok out -> NoDup (map d_code out).
Proof.
  intros pf pi w files data out H%directory_raw [Hm|Hm]; [by destruct (cutoff_codes _ _ _ H Hm)|by destruct (consequential_codes _ _ _ H Hm)].
Qed.
Print Assumptions C69_codes.

(** Every dataset of a result is in one of the files, with its exchanges. *)
Theorem C69_traceable : forall pyfloat pyint w files data out, (forall s, w_md5 w s <> ""%string) ->
  directory_said pyfloat pyint files data ->
  cutoff_model w data = Ok out \/ consequential_model w data = Ok out -> Forall (found_in files) out.
Proof.
  intros pf pi w files data out Hw Hd Hm.
  assert (Forall (comes_from data) out) as H.
  { destruct Hm; [by eapply cutoff_provenance|by eapply consequential_provenance]. }
  eapply Forall_impl; [exact H|]. intros ds. by apply (directory_traced pf pi).
Qed.
Print Assumptions C69_traceable.

Definition ex_files : list (string * xml) :=
  [("1.spold", ex_elem "ecoSpold" [] [ex_steelworks]); ("2.spold", ex_elem "ecoSpold" [] [ex_market])]%string.
Definition ex_data : list dataset :=
  match extract_ecospold2_directory ex_float ex_int ex_files with Ok vs => default [] (mapM read_dataset vs) | Err _ => [] end.
Example C69_nonvacuous : directory_said ex_float ex_int ex_files ex_data /\ map d_filepath ex_data = ["1.spold"; "2.spold"]%string /\
  is_ok (cutoff_model ex_w ex_data) = true /\ is_ok (consequential_model ex_w ex_data) = true.
Proof.
  split; [|split; [by_compute|split; by vm_compute]]. apply directory_iff.
  exists (match extract_ecospold2_directory ex_float ex_int ex_files with Ok vs => vs | Err _ => [] end).
  split; [by vm_compute|]. split; [by vm_compute|]. by vm_compute.
Qed.
