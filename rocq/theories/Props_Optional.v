(** Functions which the configurations leave out or comment out (C90-C93). *)
From Verif Require Import Base Types Uncertainty Utils Strings Grouping GroupUpdate Recalculation Cutoff Locations Spec_Utils Spec_Cutoff
  Spec_Uncertainty Spec_Recalculation Consequential Tables Optional Spec_Optional Optional_proofs.

(** * C90: the table of missing mandatory properties *)
Theorem C90_data : forall data, (ensure_mandatory_properties data).1 = data.
Proof. done. Qed.
Print Assumptions C90_data.
(** One row for each exchange which has properties but not all the mandatory ones, in the
    order of the data; its last cell lists the missing ones. *)
Theorem C90_rows :
  forall data,
    Forall2 (fun p r => exists names,
        r = [Txt (d_name p.1); Txt (e_name p.2); Txt (String.concat "; " names)] /\
        StronglySorted (fun a b => str_leb a b = true) names /\ NoDup names /\
        forall n, n ∈ names <-> n ∈ mandatory /\ lacks n p.2)
      (filter (fun p => incomplete p.2) (flows data)) (ensure_mandatory_properties data).2.
Proof. exact mandatory_spec. Qed.
Print Assumptions C90_rows.
Definition ex_property (n : string) : prop := mkProp n n 1%Qc "" None None None.
Definition ex_bare : dataset :=
  set_d_name "a" (set_d_exchanges
    [set_e_name "complete" (set_e_props (map ex_property mandatory) exchange0);
     set_e_name "none" exchange0;
     set_e_name "wet" (set_e_props [ex_property "wet mass"; ex_property "dry mass"; ex_property "price"] exchange0)] dataset0).
Example C90_nonvacuous :
  ensure_mandatory_properties [ex_bare] =
  ([ex_bare], [[Txt "a"; Txt "wet"; Txt "carbon content fossil; carbon content non-fossil; water content; water in wet mass"]]).
Proof. by_compute. Qed.

(** * C91: recalculation of all datasets *)
(** Each dataset is recalculated, or, when an expected error occurs, keeps some of its old
    values; the table lists exactly the latter. *)
Theorem C91_datasets :
  forall ln euler order eval data data' rows,
    recalculate_all_parameterized_datasets ln euler order eval data = Ok (data', rows) ->
    Forall2 (fun ds ds' => recalculate ln euler order eval ds = Ok ds' \/
        exists err, recalculate ln euler order eval ds = Err err /\
          err ∈ [ParameterizationError; ZeroDivisionError; TypeError] /\
          (ds' = ds \/ exists m, environment order eval ds = Ok m /\ half_recalculated eval m ds ds')) data data' /\
    rows = map (fun ds => [Txt (d_name ds); Txt (default ""%string (d_refprod ds)); Txt (d_location ds)])
             (filter (fun ds => is_ok (recalculate ln euler order eval ds) = false) data).
Proof. exact recalculate_all_spec'. Qed.
Print Assumptions C91_datasets.
(** The first unexpected error ends the function. *)
Theorem C91_errors :
  forall ln euler order eval data err,
    Forall (fun ds => d_refprod ds <> None) data ->
    (recalculate_all_parameterized_datasets ln euler order eval data = Err err <->
     exists pre ds post, data = pre ++ ds :: post /\ recalculate ln euler order eval ds = Err err /\
       err ∉ [ParameterizationError; ZeroDivisionError; TypeError] /\
       Forall (fun ds => forall err', recalculate ln euler order eval ds = Err err' ->
                 err' ∈ [ParameterizationError; ZeroDivisionError; TypeError]) pre).
Proof. exact recalculate_all_fails'. Qed.
Print Assumptions C91_errors.
Definition ex_levels : gmap string Qc -> string -> result Qc :=
  fun _ f => if (f =? "x[")%string then Err ParameterizationError
             else if (f =? "f(")%string then Err NotANumber else Ok (Qcint 7).
Definition ex_flow91 (n : string) (f : option string) : exchange := set_e_name n (set_e_amount (Qcint 1) (set_e_formula f exchange0)).
Definition ex_ds91 (n : string) (es : list exchange) : dataset :=
  set_d_name n (set_d_refprod (Some "p"%string) (set_d_location "CH" (set_d_exchanges es dataset0))).
Definition ex_data91 : list dataset :=
  [ex_ds91 "good" [ex_flow91 "x" (Some "3+4"%string); ex_flow91 "y" None];
   ex_ds91 "bad" [ex_flow91 "x" (Some "3+4"%string); ex_flow91 "y" (Some "x["%string); ex_flow91 "z" (Some "3+4"%string)]].
Example C91_nonvacuous :
  fmapR (fun r => (map (fun ds => map e_amount (d_exchanges ds)) r.1, r.2))
    (recalculate_all_parameterized_datasets id 1 (fun _ => Ok []) ex_levels ex_data91)
  = Ok ([[Qcint 7; Qcint 1]; [Qcint 7; Qcint 1; Qcint 1]], [[Txt "bad"; Txt "p"; Txt "CH"]]).
Proof. by_compute. Qed.
Example C91_errors_nonvacuous :
  recalculate_all_parameterized_datasets id 1 (fun _ => Ok []) ex_levels
    (ex_data91 ++ [ex_ds91 "ugly" [ex_flow91 "x" (Some "f("%string)]; ex_ds91 "last" []]) = Err NotANumber.
Proof. by_compute. Qed.
(** A dataset in the table is not what it was before. *)
Theorem C91_listed_unchanged_refuted :
  exists ln euler order eval ds ds' row,
    recalculate_all_parameterized_datasets ln euler order eval [ds] = Ok ([ds'], [row]) /\ ds' <> ds.
Proof.
  exists id, 1%Qc, (fun _ => Ok []), ex_levels, (ex_ds91 "bad" [ex_flow91 "x" (Some "3+4"%string); ex_flow91 "y" (Some "x["%string)]).
  do 2 eexists. split; [vm_compute; reflexivity|]. intros H. apply (f_equal (fun ds => map e_amount (d_exchanges ds))) in H. by vm_compute in H.
Qed.
Print Assumptions C91_listed_unchanged_refuted.

(** * C92: conflicting technology levels *)
Theorem C92_rows :
  forall data rows, conflict_rows data = Ok rows ->
    NoDup rows /\
    forall r, r ∈ rows <-> exists n, r = [Txt n; count_cell (length (filter (supplies n) data))] /\
       Exists (fun ds => supplies n ds /\ d_tech ds = "undefined"%string) data /\
       Exists (fun ds => supplies n ds /\ d_tech ds = "current"%string) data.
Proof. exact conflict_spec. Qed.
Print Assumptions C92_rows.
Definition ex_level (n level : string) (t : dtype) : dataset := set_d_type t (set_d_refprod (Some n) (set_d_tech level dataset0)).
Example C92_nonvacuous :
  conflict_rows
    [ex_level "a" "undefined" Transforming; ex_level "b" "current" Transforming; ex_level "a" "modern" Transforming;
     ex_level "a" "current" Transforming; ex_level "b" "undefined" MarketActivity]
  = Ok [[Txt "a"; count_cell 3]].
Proof. by_compute. Qed.
(** The collection [cleanup_technology_levels] takes the function for its name and never
    calls it. *)
Theorem C92_called_refuted :
  exists name functions, cleanup_technology_levels = Ok (name, functions) /\
    "log_conflicting_technology_levels"%string ∉ functions /\
    functions = ["switch_undefined_to_current"%string].
Proof. do 2 eexists. split; [reflexivity|]. split; [|done]. by apply (bool_decide_unpack _). Qed.
Print Assumptions C92_called_refuted.

(** * C93: recycling which yields recyclables *)
(** The reference product becomes an input; the recyclable by-products are sold like the
    allocatable ones. *)
Theorem C93_recycling :
  forall ln ds outs,
    recycling_2_allocation ln ds = Ok outs ->
    exists rp es,
      filter is_refproduct (d_exchanges ds) = [rp] /\
      Forall2 squared (d_exchanges ds) es /\
      filter alloc_output es = map sold (filter saleable (d_exchanges ds)) /\
      exists fs, Qcsum fs = 1%Qc /\
        Forall3 (fun p f out => economic_share (map sold (filter saleable (d_exchanges ds))) p f /\
                                single_output_of (set_d_exchanges es ds) p f out)
          (map sold (filter saleable (d_exchanges ds))) fs outs.
Proof. exact recycling_2_spec. Qed.
Print Assumptions C93_recycling.
(** Without recyclable by-products it does what [recycling_allocation] does. *)
Theorem C93_as_recycling :
  forall ln ds, Forall (fun e => ~ recyclable_byproduct e) (d_exchanges ds) ->
    forall outs, recycling_allocation ln ds = Ok outs -> recycling_2_allocation ln ds = Ok outs.
Proof. exact recycling_2_same. Qed.
Print Assumptions C93_as_recycling.
Theorem C93_formulas :
  forall ds, missing_formulas ds = true <->
    exists e, e ∈ d_exchanges ds /\ e_type e ∈ [FromEnvironment; ToEnvironment; FromTechnosphere] /\
      (e_formula e = None \/ e_formula e = Some ""%string).
Proof. exact missing_formulas_spec. Qed.
Print Assumptions C93_formulas.
Definition ex_sale (n : string) (t : etype) (c : bclass) (a price : Z) : exchange :=
  set_e_name n (set_e_id (Some n) (set_e_type t (set_e_class (Some c) (set_e_amount (Qcint a)
    (set_e_props [mkProp "price" "price" (Qcint price) "" None None None] exchange0))))).
Definition ex_recycle (a : Z) : dataset :=
  set_d_exchanges [ex_sale "scrap" RefProduct Recyclable a 0; ex_sale "steel" Byproduct Allocatable 3 2;
                   ex_sale "slag" Byproduct Recyclable 2 1; ex_sale "heat" FromTechnosphere Allocatable 8 0] dataset0.
Example C93_nonvacuous :
  fmapR (map (fun ds => map (fun e => (e_name e, e_type e, e_amount e)) (d_exchanges ds))) (recycling_2_allocation id (ex_recycle (-4)))
  = Ok [[("steel", RefProduct, Qcint 1); ("slag", DroppedProduct, Qcint 0); ("scrap", FromTechnosphere, Qcint 1); ("heat", FromTechnosphere, Qcint 2)];
        [("slag", RefProduct, Qcint 1); ("steel", DroppedProduct, Qcint 0); ("scrap", FromTechnosphere, frac 1 2); ("heat", FromTechnosphere, Qcint 1)]]%string.
Proof. by_compute. Qed.
(** Nothing checks that the material is consumed: if it is produced, the outputs have a
    negative input of it. *)
Theorem C93_positive_input_refuted :
  exists ln ds out outs e, recycling_2_allocation ln ds = Ok (out :: outs) /\
    e ∈ d_exchanges out /\ e_type e = FromTechnosphere /\ (e_amount e < 0)%Qc.
Proof.
  exists id, (ex_recycle 4). do 3 eexists. split; [vm_compute; reflexivity|]. split; [right; right; left|]. by vm_compute.
Qed.
Print Assumptions C93_positive_input_refuted.
