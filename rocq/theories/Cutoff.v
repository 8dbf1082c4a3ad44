(** Model of ocelot/transformations/cutoff/. *)
From Verif Require Import Base Strings Grouping Types Uncertainty Utils Validation.

(** ** economic.py, utils.py *)

(** utils.py lines 196-223, [allocatable_production_as_dataframe], per row. *)
Definition price (e : exchange) : Qc := default 0%Qc (get_numerical_property e "price").
Definition has_true_value (e : exchange) : bool :=
  bool_decide (get_property_by_name e "true value relation" <> None).
Definition true_value (e : exchange) : Qc :=
  default 0%Qc (get_numerical_property e "true value relation").
Definition revenue (e : exchange) : Qc := (price e * e_amount e)%Qc.

(** cutoff/validation.py lines 33-52, [valid_economic_activity]. *)
Definition valid_economic_exchange (e : exchange) : result unit :=
  match get_numerical_property e "price" with
  | None => Err InvalidExchange
  | Some p => if Qcltb p 0 then Err InvalidExchange
              else if Qcltb (e_amount e) 0 then Err InvalidExchange else Ok tt
  end.
Definition valid_economic_activity (ds : dataset) : result unit :=
  iterR (fun e => let? b := production_exchange e in
                  if b then valid_economic_exchange e else Ok tt) (d_exchanges ds).

(** economic.py lines 41-51, the allocation factors.  The data frame of no
    products has no column 'price'; a zero denominator gives NaN factors. *)
Definition economic_factors (prods : list exchange) : result (list Qc) :=
  match prods with
  | [] => Err (KeyError "price")
  | _ =>
      let total := Qcsum (map revenue prods) in
      let mask := filterb has_true_value prods in
      let tv_total := Qcsum (map (fun e => true_value e * e_amount e)%Qc prods) in
      let fraction := (Qcsum (map revenue mask) / total)%Qc in
      if Qceqb total 0 then Err NotANumber
      else if negb (bool_decide (mask = [])) && Qceqb tv_total 0 then Err NotANumber
      else Ok (map (fun e => if has_true_value e
                             then (true_value e * e_amount e / tv_total * fraction)%Qc
                             else (revenue e / total)%Qc) prods)
  end.

(** cutoff/utils.py lines 8-17, [apply_allocation_factors]. *)
Definition apply_allocation_factors (ln : Qc -> Qc) (ds : dataset)
    (factors : list (Qc * exchange)) : result (list dataset) :=
  mapR (fun fe => choose_reference_product_exchange ln ds fe.2 fe.1) factors.

(** economic.py lines 10-55, [economic_allocation]. *)
Definition economic_allocation (ln : Qc -> Qc) (ds : dataset) : result (list dataset) :=
  let? _ := valid_economic_activity ds in
  let? prods := allocatable_production ds in
  let? factors := economic_factors prods in
  apply_allocation_factors ln ds (zip factors prods).

(** cutoff/utils.py lines 39-44, [delete_allocation_method]. *)
Definition delete_allocation_method (ds : dataset) : dataset := set_d_alloc None ds.

(** ** wastes.py *)

(** cutoff/__init__.py line 10. *)
Definition RC_STRING : string := ", Recycled Content cut-off".

(** cutoff/validation.py lines 55-79, [valid_recycling_activity]. *)
Definition valid_recycling_activity (ds : dataset) : result unit :=
  let? rp := get_single_reference_product ds in
  let? _ := assertR (Qcltb (e_amount rp) 0) InvalidExchange in
  let? b := anyR is_allocatable_byproduct (d_exchanges ds) in
  assertR b InvalidExchange.

(** wastes.py lines 34-36: the reference product becomes an input with the
    opposite sign; there is exactly one. *)
Definition flip_reference_product (ln : Qc -> Qc) (ds : dataset) : result dataset :=
  let? es := mapR (fun e => if bool_decide (e_type e = RefProduct)
                            then scale_exchange ln (set_e_type FromTechnosphere e) (- (1))%Qc
                            else Ok e) (d_exchanges ds) in
  Ok (set_d_exchanges es ds).

(** wastes.py lines 19-37, [recycling_allocation]. *)
Definition recycling_allocation (ln : Qc -> Qc) (ds : dataset) : result (list dataset) :=
  let? _ := valid_recycling_activity ds in
  let? _ := get_single_reference_product ds in
  let? ds := flip_reference_product ln ds in
  economic_allocation ln ds.

(** cutoff/validation.py lines 82-99, [valid_waste_treatment_activity]. *)
Definition valid_waste_treatment_activity (ds : dataset) : result unit :=
  let? rp := get_single_reference_product ds in
  let? _ := assertR (bool_decide (e_class rp = Some Waste)) InvalidExchange in
  assertR (Qcltb (e_amount rp) 0) InvalidExchange.

(** wastes.py lines 58-81, [waste_treatment_allocation].  [exchange is not rp]
    is identity; there is only one reference product, so this excludes exactly
    the exchanges of type 'reference product'. *)
Definition free_byproduct (ln : Qc -> Qc) (ds : dataset) (e : exchange) : result dataset :=
  choose_reference_product_exchange ln (set_d_exchanges [e] ds) e 1.
Definition waste_treatment_allocation (ln : Qc -> Qc) (ds : dataset)
  : result (list dataset) :=
  let? _ := valid_waste_treatment_activity ds in
  let? rp := get_single_reference_product ds in
  let? treatment := choose_reference_product_exchange ln ds rp 1 in
  let? prods := allocatable_production ds in
  let? free := mapR (free_byproduct ln ds)
                 (filterb (fun e => negb (bool_decide (e_type e = RefProduct))) prods) in
  Ok (treatment :: free).

(** The test of wastes.py lines 94-95 and 161-162. *)
Definition is_recyclable_byproduct (e : exchange) : result bool :=
  if bool_decide (e_type e = Byproduct) then
    let? c := getkey "byproduct classification" (e_class e) in
    Ok (bool_decide (c = Recyclable))
  else Ok false.

(** wastes.py lines 84-99, [rename_recyclable_content_exchanges]. *)
Definition rename_recyclable (e : exchange) : result exchange :=
  let? b := is_recyclable_byproduct e in
  Ok (if b then set_e_name (e_name e ++ RC_STRING)%string e else e).
Definition rename_recyclable_content_exchanges (data : list dataset)
  : result (list dataset) :=
  mapR (fun ds => let? es := mapR rename_recyclable (d_exchanges ds) in
                  Ok (set_d_exchanges es ds)) data.

(** wastes.py lines 102-120, [rename_recycled_content_products_after_linking]. *)
Definition strip_marker (s : string) : string :=
  if str_endswith RC_STRING s then str_replace RC_STRING "" s else s.
Definition rename_recycled_content_products_after_linking (data : list dataset)
  : list dataset :=
  map (fun ds =>
    set_d_refprod (option_map strip_marker (d_refprod ds))
      (set_d_exchanges (map (fun e => set_e_name (strip_marker (e_name e)) e)
                            (d_exchanges ds)) ds)) data.

(** wastes.py lines 128-150, [create_new_recycled_content_dataset]. *)
Definition create_new_recycled_content_dataset (ds : dataset) (e : exchange)
  : result dataset :=
  let? i := getkey "id" (e_id e) in
  let rp := set_e_tag (Some "intermediateExchange"%string)
             (set_e_pv (Some (set_v_amount (Qcint 4) pvol0))
               (set_e_unit (e_unit e) (set_e_type RefProduct (set_e_amount 1%Qc
                 (set_e_name (e_name e) (set_e_id (Some i) exchange0)))))) in
  Ok (mkDataset (d_id ds) (e_name e) "GLO" Transforming (d_tech ds) (d_start ds)
        (d_end ds) None (d_filepath ds) [rp] [] (Some (e_name e)) None None None None
        (d_access ds) (d_scenario ds) (d_author ds) (d_entry ds) None).

(** wastes.py lines 153-171, [create_recycled_content_datasets]: a dictionary
    by name, later datasets replace earlier ones. *)
Definition add_recycled_content (ds : dataset) (new : list (string * dataset))
    (e : exchange) : result (list (string * dataset)) :=
  let? b := is_recyclable_byproduct e in
  if b then
    let? rc := create_new_recycled_content_dataset ds e in
    Ok (assoc_set (d_name rc) rc new)
  else Ok new.
Definition create_recycled_content_datasets (data : list dataset)
  : result (list dataset) :=
  let? new := foldR (fun new ds => foldR (add_recycled_content ds) new (d_exchanges ds))
                [] data in
  Ok (data ++ map snd new).

(** wastes.py lines 211-216, the collection [handle_waste_outputs]. *)
Definition handle_waste_outputs (data : list dataset) : result (list dataset) :=
  let? data := rename_recyclable_content_exchanges data in
  create_recycled_content_datasets data.

(** wastes.py lines 179-203, [flip_non_allocatable_byproducts] (the function of
    the same name in cutoff/utils.py lines 20-36 is not used). *)
Definition flip_exchange (e : exchange) : result exchange :=
  if bool_decide (e_type e = Byproduct) then
    let? c := getkey "byproduct classification" (e_class e) in
    if bool_decide (c = Allocatable) then Ok e
    else Ok (set_e_formula (option_map (fun f => "-1 * (" ++ f ++ ")")%string (e_formula e))
               (set_e_amount (- (1) * e_amount e)%Qc
                 (set_e_type FromTechnosphere (set_e_class None e))))
  else Ok e.
Definition flip_non_allocatable_byproducts (ds : dataset) : result dataset :=
  let? es := mapR flip_exchange (d_exchanges ds) in Ok (set_d_exchanges es ds).

(** ** combined.py.  [recalc] stands for [recalculate], see Recalculation.v. *)

(** combined.py lines 28-32, [nonzero_reference_product_exchanges]. *)
Definition nonzero_reference_product_exchanges (ds : dataset) : list exchange :=
  filterb (fun e => Qctruthy (e_amount e)) (reference_products ds).

(** combined.py lines 35-44, [selected_product]. *)
Definition selected_product (e : exchange) : exchange :=
  remove_exchange_uncertainty (set_e_formula None e).

(** combined.py lines 69-76, the copy for one product, before recalculation;
    [obj != exc] compares by value. *)
Definition subdivide (ds : dataset) (exc : exchange) : dataset :=
  set_d_exchanges
    (selected_product exc
     :: map nonreference_product
          (filterb (fun o => bool_decide (o <> exc)) (reference_products ds))
     ++ filterb (fun o => negb (bool_decide (e_type o = RefProduct))) (d_exchanges ds)) ds.

(** combined.py lines 47-83, [combined_production]. *)
Definition combined_production (recalc : dataset -> result dataset) (ds : dataset)
  : result (list dataset) :=
  mapR (fun exc => recalc (subdivide ds exc)) (nonzero_reference_product_exchanges ds).

(** combined.py lines 91-100, [handle_split_dataset]. *)
Definition handle_split_dataset (ln : Qc -> Qc) (ds : dataset) : result (list dataset) :=
  let? rp := get_single_reference_product ds in
  let? c := getkey "byproduct classification" (e_class rp) in
  if bool_decide (c = Waste) then waste_treatment_allocation ln ds
  else if bool_decide (c = Recyclable) then
    recycling_allocation ln (set_d_name (d_name ds ++ ", from " ++ e_name rp)%string ds)
  else Err InvalidExchange.

(** combined.py lines 103-137, [combined_production_without_products]. *)
Definition combined_production_without_products (ln : Qc -> Qc)
    (recalc : dataset -> result dataset) (ds : dataset) : result (list dataset) :=
  let? parts := combined_production recalc ds in
  concat_mapR (handle_split_dataset ln) parts.

(** combined.py lines 140-154, [add_exchanges]; the last exchange with an id
    wins in [lookup]. *)
Fixpoint amount_by_id (es : list exchange) (i : string) : option Qc :=
  match es with
  | [] => None
  | e :: es => match amount_by_id es i with
               | Some x => Some x
               | None => if bool_decide (e_id e = Some i) then Some (e_amount e) else None
               end
  end.
Definition add_exchange (others : list exchange) (e : exchange) : result exchange :=
  let? i := getkey "id" (e_id e) in
  let e := set_e_amount (e_amount e + default 0 (amount_by_id others i))%Qc e in
  Ok (if bool_decide (e_type e = RefProduct) then remove_exchange_uncertainty e else e).
Definition add_exchanges (to_dataset from_dataset : dataset) : result dataset :=
  let? _ := iterR (fun e => let? _ := getkey "id" (e_id e) in Ok tt)
              (d_exchanges from_dataset) in
  let? es := mapR (add_exchange (d_exchanges from_dataset)) (d_exchanges to_dataset) in
  Ok (set_d_exchanges es to_dataset).

(** cutoff/validation.py lines 21-30, [valid_merge_datasets]. *)
Definition valid_merge_datasets (data : list dataset) : result unit :=
  iterR (fun ds => let? b := anyR is_allocatable_byproduct (d_exchanges ds) in
                   if b then Err InvalidExchange else Ok tt) data.

(** combined.py lines 157-177, [merge_byproducts]. *)
Definition merge_group (group : list dataset) : result dataset :=
  match group with
  | [] => Err IndexError
  | parent :: children => foldR add_exchanges parent children
  end.
Definition merge_byproducts (data : list dataset) : result (list dataset) :=
  let? _ := valid_merge_datasets data in
  let? keyed := mapR (fun ds => let? k := activity_grouper ds in Ok (k, ds)) data in
  mapR (fun g => merge_group g.2) (groupby keyed).

(** combined.py lines 180-189, [combined_production_with_byproducts]. *)
Definition combined_production_with_byproducts (ln : Qc -> Qc)
    (recalc : dataset -> result dataset) (ds : dataset) : result (list dataset) :=
  let? parts := combined_production recalc ds in
  let? new := concat_mapR (economic_allocation ln) parts in
  merge_byproducts new.

(** ** markets.py *)

(** Truth value of [exc.get('conditional exchange')]. *)
Definition cond_truthy (e : exchange) : bool :=
  match e_cond e with Some b => b | None => false end.

(** markets.py lines 9-27, [constrained_market_allocation].  It returns the
    dataset itself, not a list. *)
Definition constrained_market_allocation (ds : dataset) : dataset :=
  set_d_exchanges (map (fun e =>
      if bool_decide (e_type e = Byproduct) && cond_truthy e
      then nonreference_product e else e) (d_exchanges ds)) ds.

(** markets.py lines 35-68, [adjust_market_signs_for_allocatable_products]. *)
Definition negate_exchange (ln : Qc -> Qc) (e : exchange) : result exchange :=
  scale_exchange ln e (- (1))%Qc.
Definition adjust_market_sign (ln : Qc -> Qc) (ds : dataset) : result dataset :=
  if bool_decide (d_type ds = MarketActivity) then
    let? rp := get_single_reference_product ds in
    let? c := getkey "byproduct classification" (e_class rp) in
    if bool_decide (c = Waste) then Ok ds
    else if forallb (fun e => Qcleb (e_amount e) 0) (d_exchanges ds) then
      let? es := mapR (negate_exchange ln) (d_exchanges ds) in Ok (set_d_exchanges es ds)
    else if Qcltb (e_amount rp) 0 then
      let? es := mapR (fun e => if (e_name e =? e_name rp)%string
                                then negate_exchange ln e else Ok e) (d_exchanges ds) in
      Ok (set_d_exchanges es ds)
    else Ok ds
  else Ok ds.
Definition adjust_market_signs_for_allocatable_products (ln : Qc -> Qc)
    (data : list dataset) : result (list dataset) := mapR (adjust_market_sign ln) data.

(** ** allocation.py *)

(** allocation.py lines 25-30, [no_allocation] with its validity check. *)
Definition no_allocation (ds : dataset) : result (list dataset) :=
  let? ds := check_single_output_activity ds in Ok [ds].

(** allocation.py lines 43-145, [choose_allocation_method].  Each [any] stops
    at the first hit; [recyclable_...] of lines 106-110 are not used. *)
Definition special_name : string :=
  "rare earth oxides production from bastnäsite concentrate".
Definition byproduct_test (e : exchange) : result bool :=
  let? b := production_exchange e in
  Ok (b && bool_decide (e_type e = Byproduct) && Qctruthy (e_amount e)).
Definition product_test (e : exchange) : result bool :=
  let? b := production_exchange e in
  Ok (b && bool_decide (e_type e = RefProduct) && bool_decide (e_class e = Some Allocatable)).
Definition choose_allocation_method (ds : dataset) : result string :=
  let classifications := map e_class (nonzero_reference_product_exchanges ds) in
  let number := length classifications in
  let negative := existsb (fun e => Qcltb (e_amount e) 0) (reference_products ds) in
  let? byproducts := anyR byproduct_test (d_exchanges ds) in
  let? products := anyR product_test (d_exchanges ds) in
  let conditional := existsb cond_truthy (d_exchanges ds) in
  if (number =? 1)%nat && negb byproducts then Ok "single product"%string
  else if bool_decide (d_type ds = MarketGroup) then Ok "market group"%string
  else if bool_decide (d_type ds = MarketActivity) then
    Ok (if conditional then "constrained market" else "unconstrained market")%string
  else if (1 <? number)%nat then
    if negb products then Ok "combined production without products"%string
    else if byproducts then Ok "combined production with byproducts"%string
    else if (d_name ds =? special_name)%string then Ok "economic"%string
    else Ok "combined production"%string
  else if negative then
    let? _ := assertR (bool_decide (length (remove_dups classifications) = 1)) AssertionError in
    let? c := match classifications with [] => Err IndexError | c :: _ => Ok c end in
    Ok (if bool_decide (c = Some Waste) then "waste treatment" else "recycling")%string
  else Ok "economic"%string.

(** allocation.py lines 148-160, [ALLOCATION_METHODS] without the first entry.
    Iterating over the dataset returned by [constrained_market_allocation]
    yields its keys, which are strings, and the next wrapper fails on
    [ds['allocation method']] with TypeError.  Simplification: the model raises
    the TypeError at once. *)
Definition allocation_functions (ln : Qc -> Qc) (recalc : dataset -> result dataset)
  : list (string * (dataset -> result (list dataset))) :=
  [ ("market group"%string, no_allocation);
    ("unconstrained market"%string, no_allocation);
    ("economic"%string, economic_allocation ln);
    ("constrained market"%string, fun _ => Err TypeError);
    ("recycling"%string, recycling_allocation ln);
    ("waste treatment"%string, waste_treatment_allocation ln);
    ("combined production without products"%string,
      combined_production_without_products ln recalc);
    ("combined production"%string, combined_production recalc);
    ("combined production with byproducts"%string,
      combined_production_with_byproducts ln recalc) ].

(** allocation.py lines 163-180, [label_allocation_method]. *)
Definition label_allocation_method (data : list dataset) : result (list dataset) :=
  mapR (fun ds => let? l := choose_allocation_method ds in
                  Ok (set_d_alloc (Some l) ds)) data.

(** wrapper.py lines 27-32, [TransformationWrapper.__call__]. *)
Definition wrapped (func : dataset -> result (list dataset))
    (filter_function : dataset -> result bool) (data : list dataset)
  : result (list dataset) :=
  concat_mapR (fun ds => let? b := filter_function ds in
                         if b then func ds else Ok [ds]) data.

(** allocation.py lines 188-194, [create_allocation_filter]. *)
Definition allocation_filter (label : string) (ds : dataset) : result bool :=
  let? l := getkey "allocation method" (d_alloc ds) in Ok (l =? label)%string.

(** allocation.py lines 197-204, the collection [cutoff_allocation]. *)
Definition cutoff_allocation (ln : Qc -> Qc) (recalc : dataset -> result dataset)
    (data : list dataset) : result (list dataset) :=
  let? data := label_allocation_method data in
  let? data := foldR (fun data lf => wrapped lf.2 (allocation_filter lf.1) data) data
                 (allocation_functions ln recalc) in
  Ok (map delete_allocation_method data).

(** ** cleanup.py *)

(** cleanup.py lines 7-20, [drop_zero_amount_activity_links]. *)
Definition drop_zero_amount_activity_links (data : list dataset) : list dataset :=
  map (fun ds => set_d_exchanges (map (fun e =>
      if negb (Qctruthy (e_amount e)) && link_truthy e then set_e_link None e else e)
    (d_exchanges ds)) ds) data.

(** cleanup.py lines 28-46, [drop_rp_activity_links]. *)
Definition drop_rp_activity_links (data : list dataset) : list dataset :=
  map (fun ds => set_d_exchanges (map (fun e =>
      if (bool_decide (e_type e = RefProduct) || bool_decide (e_type e = DroppedProduct))
         && link_truthy e then set_e_link None e else e)
    (d_exchanges ds)) ds) data.

(** cleanup.py lines 54-59, [has_consequential_property], as truth value. *)
Definition has_consequential_property (e : exchange) : bool :=
  existsb (fun p => (p_name p =? "consequential")%string && Qceqb (p_amount p) 1) (e_props e).

(** cleanup.py lines 62-76, [remove_consequential_exchanges]. *)
Definition remove_consequential_exchanges (data : list dataset) : list dataset :=
  map (fun ds => set_d_exchanges
         (filterb (fun e => negb (has_consequential_property e)) (d_exchanges ds)) ds) data.

Global Arguments economic_factors : simpl never.
Global Arguments economic_allocation : simpl never.
Global Arguments recycling_allocation : simpl never.
Global Arguments waste_treatment_allocation : simpl never.
Global Arguments combined_production : simpl never.
Global Arguments merge_byproducts : simpl never.
Global Arguments handle_split_dataset : simpl never.
Global Arguments choose_allocation_method : simpl never.
Global Arguments allocation_functions : simpl never.
Global Arguments strip_marker : simpl never.
Global Arguments RC_STRING : simpl never.
