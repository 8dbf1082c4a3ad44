(** The rows that transformation functions write to their tables in the report
    ([logger.info] with type 'table element'); what becomes of a row is in Runner.v.

    A row is a function of the data given to the transformation, for a transformation that
    does not raise.  Types and classifications stand for their texts.  In
    consequential/constrained_markets.py (lines 61, 99) and
    consequential/technology_levels.py (lines 17, 34) messages go to the root logger, which
    has no handler for the report: these functions write no rows.  The counterpart of
    [logger.info] is a list of rows in order. *)
From Verif Require Import Base Types Utils Strings Grouping GroupUpdate Recalculation Validation ActivityLinks Cutoff Topology
  Locations Consequential Parameters.

Inductive cell := Txt (s : string) | Num (q : Qc) | Kind (t : etype) | Class (c : bclass).
Global Instance cell_eq_dec : EqDecision cell.
Proof. solve_decision. Defined.
Definition row := list cell.

Definition each {A B} (f : A -> list B) (l : list A) : list B := concat (map f l).

(** cutoff/cleanup.py lines 9-18, [drop_zero_amount_activity_links]. *)
Definition zero_link_rows (data : list dataset) : list row :=
  each (fun ds => map (fun e => [Txt (d_name ds); Txt (e_name e)])
    (filterb (fun e => negb (Qctruthy (e_amount e)) && link_truthy e) (d_exchanges ds))) data.

(** cutoff/cleanup.py lines 35-44, [drop_rp_activity_links]. *)
Definition product_link_rows (data : list dataset) : list row :=
  each (fun ds => map (fun e => [Txt (d_name ds); Txt (e_name e)])
    (filterb (fun e => (bool_decide (e_type e = RefProduct) || bool_decide (e_type e = DroppedProduct))
                       && link_truthy e) (d_exchanges ds))) data.

(** cutoff/cleanup.py lines 66-72, [remove_consequential_exchanges]. *)
Definition consequential_rows (data : list dataset) : list row :=
  each (fun ds => map (fun e => [Txt (d_name ds); Txt (e_name e); Num (e_amount e)])
    (filterb has_consequential_property (d_exchanges ds))) data.

(** cutoff/markets.py lines 17-25, [constrained_market_allocation]. *)
Definition conditional_rows (ds : dataset) : list row :=
  map (fun e => [Txt (d_name ds); Txt (e_name e)])
    (filterb (fun e => bool_decide (e_type e = Byproduct) && cond_truthy e) (d_exchanges ds)).

(** cutoff/wastes.py lines 106-119, [rename_recycled_content_products_after_linking]: the
    new names. *)
Definition renamed_rows (data : list dataset) : list row :=
  each (fun ds =>
    map (fun e => [Txt (d_name ds); Txt (strip_marker (e_name e)); Kind (e_type e); Txt (d_location ds)])
      (filterb (fun e => str_endswith RC_STRING (e_name e)) (d_exchanges ds))
    ++ match d_refprod ds with
       | Some rp => if str_endswith RC_STRING rp
                    then [[Txt (d_name ds); Txt (strip_marker rp); Txt "RP label"; Txt (d_location ds)]]
                    else []
       | None => []
       end) data.

(** cutoff/wastes.py lines 166-170, [create_recycled_content_datasets]: the keys of the
    dictionary. *)
Definition recycled_rows (data : list dataset) : result (list row) :=
  let? new := foldR (fun new ds => foldR (add_recycled_content ds) new (d_exchanges ds)) [] data in
  Ok (map (fun p => [Txt p.1]) new).

(** cutoff/wastes.py lines 190-196, [flip_non_allocatable_byproducts]. *)
Definition flip_row (ds : dataset) (e : exchange) : list row :=
  match e_class e with
  | Some c => if bool_decide (e_type e = Byproduct) && negb (bool_decide (c = Allocatable))
              then [[Txt (d_name ds); Txt (e_name e); Class c]] else []
  | None => []
  end.
Definition flip_rows (data : list dataset) : list row :=
  each (fun ds => each (flip_row ds) (d_exchanges ds)) data.

(** activity_links.py lines 205-215, [update_activity_link_parent_child]. *)
Definition child_rows (data : list dataset) : list row :=
  each (fun ds =>
    match d_parent ds with
    | None => []
    | Some parent =>
        if (parent =? "")%string then []
        else map (fun e => [Txt (d_name ds); Txt (d_location ds); Num (e_amount e)])
               (filterb (fun e => match production_exchange e with Ok false => true | _ => false end
                                  && bool_decide (e_link e = Some parent)) (d_exchanges ds))
    end) data.

(** production_volumes.py lines 16-28, [add_pv_to_allocatable_byproducts]. *)
Definition volume_row (ds : dataset) (scale : Qc) (e : exchange) : list row :=
  match is_allocatable_byproduct e, e_pv e with
  | Ok true, Some v => if Qctruthy (v_amount v) then []
                       else [[Txt (d_name ds); Txt (e_name e); Num (Qcabs (e_amount e * scale))]]
  | _, _ => []
  end.
Definition volume_rows (data : list dataset) : list row :=
  each (fun ds => match get_biggest_pv_to_exchange_ratio ds with
                  | Ok scale => each (volume_row ds scale) (d_exchanges ds)
                  | Err _ => []
                  end) data.

(** parameterization/production_volumes.py lines 20-35, [create_pv_parameters]. *)
Definition parameter_rows (ds : dataset) : list row :=
  each (fun e => match e_pv e with
                 | Some v => match v_variable v with
                             | Some name => [[Txt (d_name ds); Txt ("Shifted PV parameter: " ++ name)%string;
                                              Num (v_amount v)]]
                             | None => []
                             end
                 | None => []
                 end) (d_exchanges ds).

(** parameterization/known_ecoinvent_issues.py lines 56-67, [fix_specific_ecoinvent_issues]. *)
Definition count_cell (n : nat) : cell := Num (Qcint (Z.of_nat n)).
Definition refinery_rows (data : list dataset) : list row :=
  each (fun ds =>
    if (d_name ds =? "petroleum refinery operation")%string then
      let before := length (d_exchanges ds) in
      let after := length (filterb (fun e => negb (e_name e =? "refinery gas")%string || Qctruthy (e_amount e))
                             (d_exchanges ds)) in
      if (before =? after)%nat then []
      else [[Txt (d_name ds); Txt (d_location ds); count_cell before; count_cell after]]
    else []) data.

(** locations/rest_of_world.py lines 87-93, [drop_zero_pv_row_datasets]. *)
Definition dropped_rows (data : list dataset) : list row :=
  each (fun ds => if bool_decide (production_volume ds = Some 0%Qc)
                  then [[Txt (d_name ds); Txt (reference_products_as_string ds)]] else [])
    (filterb (fun ds => is_type MarketActivity ds && (d_location ds =? "RoW")%string) data).

(** locations/markets.py lines 347-354, [delete_whitelisted_zero_pv_market_datsets]; a
    missing reference product would raise. *)
Definition whitelisted_rows (data : list dataset) : list row :=
  map (fun ds => [Txt (d_name ds); Txt (default ""%string (d_refprod ds))])
    (filterb (fun ds => is_type MarketActivity ds && bool_decide (d_name ds ∈ deletable_markets)
                        && (d_location ds =? "GLO")%string) data).

(** locations/markets.py lines 389-394, [assign_fake_pv_to_confidential_datasets]. *)
Definition fake_rows (data : list dataset) : list row :=
  each (fun ds => if is_type Transforming ds && bool_decide (d_name ds ∈ confidential_names)
                  then match get_single_reference_product ds with
                       | Ok rp => [[Txt (d_name ds); Txt (e_name rp); Num 1%Qc]]
                       | Err _ => []
                       end
                  else []) data.

(** locations/markets.py lines 409-419, [delete_global_with_zero_pv_when_regional_present]. *)
Definition idle_rows (kind : dtype) (data : list dataset) : result (list row) :=
  let? ks := keyed (typed_refprod [kind]) data in
  Ok (each (fun g => map (fun ds => [Txt (d_name ds); Txt g.1; Txt (d_location ds)])
                       (idle_row (map snd g.2))) (groupby ks)).

(** locations/linking.py lines 24-34, [actualize_activity_links]: links that were not
    resolved. *)
Definition unresolved_row (data : list dataset) (e : exchange) : list row :=
  match e_link e with
  | Some i =>
      if (i =? "")%string then []
      else match filterb (fun ds => (d_id ds =? i)%string && bool_decide (d_refprod ds = Some (e_name e))) data with
           | [_] => []
           | _ => [[Txt i; Txt (e_name e); Num (e_amount e)]]
           end
  | None => []
  end.
Definition unresolved_rows (data : list dataset) : list row :=
  each (fun ds => each (unresolved_row data) (d_exchanges ds)) data.

(** locations/linking.py lines 67-81, [link_consumers_to_recycled_content_activities]. *)
Definition recycled_link_rows (data : list dataset) : result (list row) :=
  let? producers := rc_producers data in
  Ok (each (fun ds => each (fun e =>
        if unlinked e then
          match filterb (fun p => (p.1 =? e_name e)%string) producers with
          | [p] => [[Txt (d_name ds); Txt (e_name e); Txt (d_location ds); Txt (d_name p.2)]]
          | _ => []
          end
        else []) (d_exchanges ds)) data).

(** locations/linking.py lines 239-244, [log_and_delete_unlinked_exchanges]. *)
Definition unlinked_rows (data : list dataset) : list row :=
  each (fun ds => map (fun e => [Txt (d_name ds); Txt (e_name e); Num (e_amount e)])
    (filterb unlinked (d_exchanges ds))) data.

(** transformations/utils.py lines 230-240, [normalize_reference_production_amount] with
    [log=True]. *)
Definition factor_rows (data : list dataset) : list row :=
  each (fun ds => match get_single_reference_product ds with
                  | Ok product =>
                      let factor := (1 / Qcabs (e_amount product))%Qc in
                      if Qctruthy (e_amount product) && Qcltb epsilon (Qcabs (factor - 1))
                      then [[Txt (d_name ds); Txt (e_name product); Num factor]] else []
                  | Err _ => []
                  end) data.

(** cutoff/markets.py lines 43-62, [adjust_market_signs_for_allocatable_products]. *)
Definition sign_rows (data : list dataset) : list row :=
  each (fun ds =>
    if bool_decide (d_type ds = MarketActivity) then
      match get_single_reference_product ds with
      | Ok rp => if negb (bool_decide (e_class rp = Some Waste))
                    && (forallb (fun e => Qcleb (e_amount e) 0) (d_exchanges ds) || Qcltb (e_amount rp) 0)
                 then [[Txt (d_name ds); Txt (d_location ds)]] else []
      | Err _ => []
      end
    else []) data.

(** cutoff/allocation.py lines 148-160 and 172-179, [label_allocation_method]: the labels of
    [ALLOCATION_METHODS] and how many datasets have each. *)
Definition method_labels : list string :=
  ["single product"; "market group"; "unconstrained market"; "economic"; "constrained market"; "recycling";
   "waste treatment"; "combined production without products"; "combined production";
   "combined production with byproducts"]%string.
Definition method_rows (data : list dataset) : result (list row) :=
  let? labelled := label_allocation_method data in
  Ok (map (fun l => [Txt l; count_cell (length (filterb (fun ds => bool_decide (d_alloc ds = Some l)) labelled))])
        method_labels).

(** locations/rest_of_world.py lines 34-58, [relabel_global_to_row]. *)
Definition relabelled_rows (data : list dataset) : result (list row) :=
  let? ks := keyed row_key data in
  let? rows := mapR (fun g : (string * list string) * list (nat * dataset) =>
    let? ups := relabel_group g.1 g.2 in
    Ok (map (fun _ => [Txt g.1.1; Txt (String.concat "; " (isort str_leb g.1.2))]) ups)) (groupby ks) in
  Ok (concat rows).

(** locations/markets.py lines 284-311, [update_market_production_volumes] for market
    activities. *)
Definition market_row (ds : dataset) : result row :=
  let? rp := get_single_reference_product ds in
  let? suppliers := getkey "suppliers" (d_suppliers ds) in
  let? originals := mapR original_volume suppliers in
  let? v := getkey "production volume" (e_pv rp) in
  let? vs := mapR (fun s => getkey "production volume" (e_pv s)) suppliers in
  let missing := default 0%Qc (v_subtracted v) in
  Ok [Txt (d_name ds); Txt (e_name rp); Txt (d_location ds); Num (Qcsum originals);
      Num (Qcsum (map (fun v => default 0%Qc (v_subtracted v)) vs)); Num missing;
      Num (Qcmax (Qcsum (map v_amount vs) - missing) 0)].
Definition market_rows (data : list dataset) : result (list row) :=
  mapR market_row (filterb (is_type MarketActivity) data).

(** consequential/technology_levels.py lines 31-37, [switch_undefined_to_current]: rows sent to
    the root logger. *)
Definition switch_rows (data : list dataset) : list row :=
  map (fun ds => [Txt (d_name ds); Txt (default ""%string (d_refprod ds)); Txt (d_location ds)])
    (filterb (fun ds => is_type Transforming ds && (d_tech ds =? "undefined")%string) data).

(** The columns in the [__table__] of each function: cutoff/cleanup.py lines 22-25, 48-51 and
    78-81; cutoff/markets.py lines 29-32 and 70-73; cutoff/wastes.py lines 122-125, 173-176 and
    205-208; activity_links.py lines 218-221; production_volumes.py lines 31-34;
    parameterization/production_volumes.py lines 45-48;
    parameterization/known_ecoinvent_issues.py lines 70-73; locations/rest_of_world.py lines
    77-80 and 99-102; locations/markets.py lines 314-317, 357-360, 398-401 and 424-427;
    locations/linking.py lines 47-50, 84-87 and 248-251; utils.py lines 245-248;
    cutoff/allocation.py lines 182-185; consequential/technology_levels.py lines 40-43. *)
Definition columns : list (string * list string) :=
  [("drop_zero_amount_activity_links", ["Activity"; "Reference product"]);
   ("drop_rp_activity_links", ["Activity"; "Reference product"]);
   ("remove_consequential_exchanges", ["Activity name"; "Flow"; "Amount"]);
   ("constrained_market_allocation", ["Activity name"; "Flow"]);
   ("adjust_market_signs_for_allocatable_products", ["Activity name"; "Location"]);
   ("rename_recycled_content_products_after_linking", ["Activity name"; "Flow"; "Type"; "Location"]);
   ("create_recycled_content_datasets", ["Activity name"]);
   ("flip_non_allocatable_byproducts", ["Activity name"; "Flow"; "Classification"]);
   ("update_activity_link_parent_child", ["Name"; "Location"; "Amount"]);
   ("add_pv_to_allocatable_byproducts", ["Name"; "Flow"; "Production volume"]);
   ("create_pv_parameters", ["Activity name"; "Variable name"; "Amount"]);
   ("fix_specific_ecoinvent_issues", ["Activity name"; "Locations"; "Num. exchanges before"; "Num. exchanges after"]);
   ("relabel_global_to_row", ["Name"; "Product(s)"]);
   ("drop_zero_pv_row_datasets", ["Name"; "Product(s)"]);
   ("update_market_production_volumes",
     ["Name"; "Product"; "Location"; "Original"; "Input subtractions"; "Market subtractions"; "Net"]);
   ("delete_whitelisted_zero_pv_market_datsets", ["Name"; "Product"]);
   ("assign_fake_pv_to_confidential_datasets", ["Name"; "Product"; "Production volume"]);
   ("delete_global_with_zero_pv_when_regional_present", ["Name"; "Product"; "Location"]);
   ("actualize_activity_links", ["Activity link"; "Name"; "Amount"]);
   ("link_consumers_to_recycled_content_activities", ["Consumer name"; "Product"; "Location"; "Producer name"]);
   ("log_and_delete_unlinked_exchanges", ["Name"; "Flow"; "Amount"]);
   ("normalize_reference_production_amount", ["Activity name"; "Reference product"; "Scale factor"]);
   ("label_allocation_method", ["Allocation"; "Count"]);
   ("switch_undefined_to_current", ["Reference product"; "Number of datasets"])]%string.
