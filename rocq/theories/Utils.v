(** Model of ocelot/transformations/utils.py, ocelot/data_helpers.py,
    transformations/identifying.py, transformations/production_volumes.py and
    transformations/cleanup.py. *)
From Verif Require Import Base Types Uncertainty.

(** ** Strings *)

(** Python's [str.lower] on one character, for ASCII.  Simplification: other
    characters are left alone. *)
Definition lower_ascii (c : Ascii.ascii) : Ascii.ascii :=
  let n := Ascii.N_of_ascii c in
  if ((65 <=? n) && (n <=? 90))%N then Ascii.ascii_of_N (n + 32)%N else c.
Fixpoint lower (s : string) : string :=
  match s with
  | EmptyString => EmptyString
  | String c s => String (lower_ascii c) (lower s)
  end.

(** utils.py lines 15-21, [copy_original_exchange_id]. *)
Definition copy_original_exchange_id (data : list dataset) : result (list dataset) :=
  mapR (fun ds =>
    let? es := mapR (fun e => let? i := getkey "id" (e_id e) in
                              Ok (set_e_orig_id (Some i) e)) (d_exchanges ds) in
    Ok (set_d_exchanges es ds)) data.

(** utils.py lines 25-48, [activity_hash]; [md5] is an oracle for
    [hashlib.md5(...).hexdigest()]. *)
Definition activity_hash (md5 : string -> string) (ds : dataset) : string :=
  md5 (lower (d_name ds) ++ lower (default "" (d_refprod ds))
       ++ lower (default "" (d_unit ds)) ++ lower (d_location ds)
       ++ lower (d_start ds) ++ lower (d_end ds))%string.

(** The test of lines 65-69 and 82-86; a by-product without classification
    raises KeyError. *)
Definition production_exchange (e : exchange) : result bool :=
  if bool_decide (e_type e = RefProduct) then Ok true
  else if bool_decide (e_type e = Byproduct) then
    let? c := getkey "byproduct classification" (e_class e) in
    Ok (bool_decide (c = Allocatable))
  else Ok false.

(** utils.py lines 53-69, [allocatable_production], as a list. *)
Definition allocatable_production (ds : dataset) : result (list exchange) :=
  filterR production_exchange (d_exchanges ds).

(** utils.py lines 72-87, [nonproduction_exchanges]. *)
Definition nonproduction_exchanges (ds : dataset) : result (list exchange) :=
  filterR (fun e => fmapR negb (production_exchange e)) (d_exchanges ds).

(** [[exc for exc in dataset['exchanges'] if exc['type'] == 'reference product']]. *)
Definition reference_products (ds : dataset) : list exchange :=
  filterb (fun e => bool_decide (e_type e = RefProduct)) (d_exchanges ds).

(** utils.py lines 90-102, [get_single_reference_product]. *)
Definition get_single_reference_product (ds : dataset) : result exchange :=
  match reference_products ds with
  | [] => Err ValueError
  | [e] => Ok e
  | _ => Err InvalidMultioutputDataset
  end.

(** utils.py lines 137-156, [get_biggest_pv_to_exchange_ratio].
    [sorted(..., reverse=True, key=abs)[0]] is the first element of largest
    absolute value because the sort is stable also with [reverse]. *)
Definition first_largest (best x : Qc) : Qc :=
  if Qcltb (Qcabs best) (Qcabs x) then x else best.
Definition get_biggest_pv_to_exchange_ratio (ds : dataset) : result Qc :=
  let? ratios := mapR (fun e =>
      let? v := getkey "production volume" (e_pv e) in divR (v_amount v) (e_amount e))
    (filterb (fun e => Qctruthy (e_amount e)) (reference_products ds)) in
  match ratios with
  | [] => Err ZeroProduction
  | r :: rs => Ok (foldl first_largest r rs)
  end.

(** utils.py lines 161-165, [extract_products_as_tuple]. *)
Definition extract_products_as_tuple (ds : dataset) : result (list string) :=
  let? es := allocatable_production ds in Ok (isort str_leb (map e_name es)).

(** utils.py lines 168-172, [activity_grouper]. *)
Definition activity_grouper (ds : dataset) : result (string * list string) :=
  let? ps := extract_products_as_tuple ds in Ok (d_name ds, ps).

(** utils.py lines 177-184, [get_property_by_name]; [None] is the empty
    dictionary. *)
Definition get_property_by_name (e : exchange) (name : string) : option prop :=
  List.find (fun p => (p_name p =? name)%string) (e_props e).

(** utils.py lines 187-191, [get_numerical_property]. *)
Definition get_numerical_property (e : exchange) (name : string) : option Qc :=
  option_map p_amount (get_property_by_name e name).

(** utils.py line 228: [epsilon=1e-14]. *)
Definition epsilon : Qc := frac 1 100000000000000.

(** [for exchange in dataset['exchanges']: scale_exchange(exchange, factor)]. *)
Definition scale_all (ln : Qc -> Qc) (f : Qc) (es : list exchange)
  : result (list exchange) := mapR (fun e => scale_exchange ln e f) es.

(** utils.py lines 228-243, [normalize_reference_production_amount].  It
    returns a one-element list; the model returns the dataset. *)
Definition normalize_reference_production_amount (ln : Qc -> Qc) (ds : dataset)
  : result dataset :=
  let? product := get_single_reference_product ds in
  if negb (Qctruthy (e_amount product)) then Err ZeroProduction
  else
    let? factor := divR 1 (Qcabs (e_amount product)) in
    if Qcltb epsilon (Qcabs (factor - 1)) then
      let? es := scale_all ln factor (d_exchanges ds) in
      Ok (set_d_exchanges es ds)
    else Ok ds.

(** utils.py lines 251-259, [label_reference_product]. *)
Definition label_reference_product (data : list dataset) : result (list dataset) :=
  mapR (fun ds => let? rp := get_single_reference_product ds in
                  Ok (set_d_refprod (Some (e_name rp)) ds)) data.

(** utils.py lines 262-277, [nonreference_product]. *)
Definition nonreference_product (e : exchange) : exchange :=
  remove_exchange_uncertainty
    (set_e_pv None (set_e_formula None (set_e_amount 0%Qc (set_e_type DroppedProduct e)))).

(** utils.py lines 280-317, [choose_reference_product_exchange]; [exc != exchange]
    compares dictionaries by value. *)
Definition choose_reference_product_exchange (ln : Qc -> Qc) (ds : dataset)
    (exc : exchange) (allocation_factor : Qc) : result dataset :=
  if negb (Qctruthy (e_amount exc)) then Err ZeroProduction
  else
    let rp := set_e_class None (set_e_type RefProduct (remove_exchange_uncertainty exc)) in
    let? prods := allocatable_production ds in
    let? nonprods := nonproduction_exchanges ds in
    let? scaled := scale_all ln allocation_factor nonprods in
    let dropped := map nonreference_product
                     (filterb (fun e => bool_decide (e <> exc)) prods) in
    normalize_reference_production_amount ln
      (set_d_exchanges (rp :: dropped ++ scaled) ds).

Global Arguments scale_exchange : simpl never.
Global Arguments scale_all : simpl never.
Global Arguments production_exchange : simpl never.
Global Arguments normalize_reference_production_amount : simpl never.
Global Arguments choose_reference_product_exchange : simpl never.
Global Arguments get_biggest_pv_to_exchange_ratio : simpl never.
Global Arguments epsilon : simpl never.

(** ** data_helpers.py *)

(** data_helpers.py lines 4-18, [production_volume] (with [default=None]). *)
Definition production_volume (ds : dataset) : option Qc :=
  match reference_products ds with
  | [e] => option_map v_amount (e_pv e)
  | _ => None
  end.

(** data_helpers.py lines 21-40, [original_production_volume]. *)
Definition original_production_volume (ds : dataset) : option Qc :=
  match reference_products ds with
  | [e] => match e_pv e with
           | None => None
           | Some v => Some (default (v_amount v) (v_original v))
           end
  | _ => None
  end.

(** data_helpers.py lines 43-53, [reference_products_as_string]. *)
Definition reference_products_as_string (ds : dataset) : string :=
  match isort str_leb (map e_name (reference_products ds)) with
  | [] => "None found"
  | l => String.concat "|" l
  end.

(** ** identifying.py lines 16-34, [add_unique_codes]. *)
Fixpoint add_unique_codes_from (md5 : string -> string) (seen : list string)
    (data : list dataset) : result (list dataset) :=
  match data with
  | [] => Ok []
  | ds :: data =>
      let code := activity_hash md5 ds in
      if bool_decide (code ∈ seen) then Err IdenticalDatasets
      else let? rest := add_unique_codes_from md5 (code :: seen) data in
           Ok (set_d_code (Some code) ds :: rest)
  end.
Definition add_unique_codes (md5 : string -> string) (data : list dataset)
  : result (list dataset) := add_unique_codes_from md5 [] data.

(** ** production_volumes.py lines 8-29, [add_pv_to_allocatable_byproducts].
    The filter reads 'byproduct classification' only of by-products; [any]
    stops at the first one found. *)
Definition is_allocatable_byproduct (e : exchange) : result bool :=
  if bool_decide (e_type e = Byproduct) then
    let? c := getkey "byproduct classification" (e_class e) in
    Ok (bool_decide (c = Allocatable))
  else Ok false.
Definition add_pv_to_byproduct (scale : Qc) (e : exchange) : result exchange :=
  let? b := is_allocatable_byproduct e in
  if b then
    let? v := getkey "production volume" (e_pv e) in
    if Qctruthy (v_amount v) then Ok e
    else Ok (set_e_pv (Some (set_v_amount (Qcabs (e_amount e * scale)) v)) e)
  else Ok e.
Definition add_pv_to_allocatable_byproducts_ds (ds : dataset) : result dataset :=
  let? b := anyR is_allocatable_byproduct (d_exchanges ds) in
  if b then
    let? scale := get_biggest_pv_to_exchange_ratio ds in
    let? es := mapR (add_pv_to_byproduct scale) (d_exchanges ds) in
    Ok (set_d_exchanges es ds)
  else Ok ds.
Definition add_pv_to_allocatable_byproducts (data : list dataset)
  : result (list dataset) := mapR add_pv_to_allocatable_byproducts_ds data.

(** ** cleanup.py *)

(** cleanup.py lines 6-10, [ensure_all_datasets_have_production_volume]. *)
Definition ensure_all_datasets_have_production_volume (data : list dataset)
  : result (list dataset) :=
  let? _ := iterR (fun ds => assertR (match production_volume ds with
                                      | Some v => Qctruthy v
                                      | None => false
                                      end) AssertionError) data in
  Ok data.

(** cleanup.py lines 13-26, [deparameterize]. *)
Definition deparameterize_exchange (e : exchange) : exchange :=
  set_e_props []
    (set_e_pv (option_map (fun v => set_v_variable None (set_v_formula None v)) (e_pv e))
       (set_e_variable None (set_e_formula None e))).
Definition deparameterize (ds : dataset) : dataset :=
  set_d_exchanges (map deparameterize_exchange (d_exchanges ds)) (set_d_params [] ds).
