(** Model of ocelot/transformations/consequential/. *)
From Verif Require Import Base Types Uncertainty Utils Grouping GroupUpdate Topology Cutoff Locations.

(** byproducts.py lines 5-17, [ensure_byproducts_have_alternative_production].
    The message of the exception is not modelled. *)
Definition names_of_type (ty : etype) (data : list dataset) : gset string :=
  list_to_set (concat (map (fun ds =>
    map e_name (filterb (fun e => bool_decide (e_type e = ty)) (d_exchanges ds))) data)).
Definition ensure_byproducts_have_alternative_production (data : list dataset)
  : result (list dataset) :=
  let products := names_of_type RefProduct data in
  let byproducts := names_of_type Byproduct data in
  let missing := byproducts ∖ products in
  if bool_decide (missing <> ∅) then Err MissingAlternativeProducer else Ok data.

(** combined.py lines 6-9, the wrapper [split_combined_production]. *)
Definition multi_rp (ds : dataset) : bool :=
  (1 <? length (filterb (fun e => bool_decide (e_type e = RefProduct)) (d_exchanges ds)))%nat.
Definition split_combined_production (recalc : dataset -> result dataset) (data : list dataset)
  : result (list dataset) :=
  concat_mapR (fun ds => if multi_rp ds then combined_production recalc ds else Ok [ds]) data.

(** ** constrained_markets.py *)

(** Lines 7-12, [flip_exchange]. *)
Definition flip_constrained (e : exchange) : exchange :=
  set_e_formula (match e_formula e with
                 | Some f => Some ("-1 * (" ++ f ++ ")")%string
                 | None => None
                 end) (set_e_amount (- (1) * e_amount e)%Qc e).

(** Exchanges are changed in place: [f] is applied to the exchange at position
    [j] of the dataset at position [i]. *)
Definition on_exchange (i j : nat) (f : exchange -> exchange) (data : list dataset) : list dataset :=
  alter (fun ds => set_d_exchanges (alter f j (d_exchanges ds)) ds) i data.
Definition positions (p : exchange -> bool) (es : list exchange) : list nat :=
  map fst (filterb (fun q => p q.2) (indexed es)).
Definition exchange_at (i j : nat) (data : list dataset) : option exchange :=
  match data !! i with Some ds => d_exchanges ds !! j | None => None end.
Definition exchanges_at (i : nat) (data : list dataset) : list exchange :=
  match data !! i with Some ds => d_exchanges ds | None => [] end.

(** Line 37, [id_mapping]: the last dataset with an id.  No id is changed. *)
Definition position_of_id (data : list dataset) (i : string) : option nat :=
  match last (filterb (fun q => (d_id q.2 =? i)%string) (indexed data)) with
  | Some q => Some q.1
  | None => None
  end.

(** Lines 40-64, the body of the loops for the exchange at position [p].
    [get_single_reference_product] returns the exchange itself, which is then
    changed, so its position is looked up. *)
Definition handle_constrained_exchange (data : list dataset) (p : nat * nat)
  : result (list dataset) :=
  let? exc := getkey "exchange" (exchange_at p.1 p.2 data) in
  let? link := getkey "activity link" (e_link exc) in
  let? k := getkey link (position_of_id data link) in
  let data := on_exchange p.1 p.2
                (fun e => flip_constrained (set_e_type FromTechnosphere e)) data in
  let? data :=
    match positions (fun e => bool_decide (e_type e = RefProduct)) (exchanges_at k data) with
    | [] => Err ValueError
    | [r] => Ok (on_exchange k r (fun e => flip_constrained (set_e_type FromTechnosphere e)) data)
    | _ => Err InvalidMultioutputDataset
    end in
  match positions (fun e => (e_name e =? e_name exc)%string) (exchanges_at k data) with
  | [q] =>
      let? target_exc := getkey "exchange" (exchange_at k q data) in
      let? _ := assertR (bool_decide (e_type target_exc = FromTechnosphere)) AssertionError in
      Ok (on_exchange k q (fun e => flip_constrained
            (set_e_class (Some Allocatable) (set_e_type RefProduct e))) data)
  | _ => Err AssertionError
  end.

(** Lines 15-66, [handle_constrained_markets].  The key 'conditional exchange' is
    not changed in the loops, so the positions are known in advance. *)
Definition conditional_positions (data : list dataset) : list (nat * nat) :=
  concat (map (fun q => map (pair q.1) (positions cond_truthy (d_exchanges q.2))) (indexed data)).
Definition handle_constrained_markets (data : list dataset) : result (list dataset) :=
  foldR handle_constrained_exchange data (conditional_positions data).

(** Lines 74-104, [delete_activity_links_to_constrained_markets].  The set
    [constrained_activities] is made, which can raise KeyError, but not used. *)
Definition delete_link (e : exchange) : exchange :=
  if negb (cond_truthy e) && match e_link e with
                             | Some l => negb (l =? "")%string
                             | None => false
                             end
  then set_e_link None e else e.
Definition delete_activity_links_to_constrained_markets (data : list dataset)
  : result (list dataset) :=
  let? _ := mapR (fun ds => mapR (fun e => if cond_truthy e
                                           then getkey "activity link" (e_link e) else Ok ""%string)
                              (d_exchanges ds)) data in
  Ok (map (fun ds => set_d_exchanges (map delete_link (d_exchanges ds)) ds) data).

(** ** market_linking.py *)
Definition TECHNOLOGY_LEVEL_HIERARCHY : list string :=
  ["new"; "modern"; "current"; "old"; "outdated"]%string.

(** Lines 14-32, [prune_suppliers_by_technology_level]: the loop over levels
    leaves the last list of suppliers looked at. *)
Fixpoint best_level (suppliers : list exchange) (levels : list string) : result (list exchange) :=
  match levels with
  | [] => Ok []
  | level :: levels =>
      let? s := filterR (fun o => let? l := getkey "technology level" (e_tech o) in
                                  Ok (l =? level)%string) suppliers in
      match s with [] => best_level suppliers levels | _ => Ok s end
  end.
Definition prune_dataset (ds : dataset) : result dataset :=
  if is_type MarketActivity ds || is_type MarketGroup ds then
    match d_suppliers ds with
    | None | Some [] => Ok ds
    | Some suppliers =>
        let? s := best_level suppliers TECHNOLOGY_LEVEL_HIERARCHY in
        match s with
        | [] => Err AssertionError
        | _ => Ok (set_d_suppliers (Some s) ds)
        end
    end
  else Ok ds.
Definition prune_suppliers_by_technology_level (data : list dataset) : result (list dataset) :=
  mapR prune_dataset data.

(** technology_levels.py lines 29-38, [switch_undefined_to_current]. *)
Definition switch_undefined_to_current (data : list dataset) : list dataset :=
  map (fun ds => if is_type Transforming ds && (d_tech ds =? "undefined")%string
                 then set_d_tech "current" ds else ds) data.

(** __init__.py lines 27-46, [link_markets_by_technology_level]. *)
Definition link_markets_by_technology_level (md5 : string -> string) (ln : Qc -> Qc)
    (ord : gset string -> list string) (t : topo) (data : list dataset)
  : result (list dataset) :=
  let? data := label_reference_product data in
  let data := delete_whitelisted_zero_pv_market_datsets data in
  let? data := assign_fake_pv_to_confidential_datasets data in
  let? data := relabel_global_to_row data in
  let? data := add_unique_codes md5 data in
  let? data := actualize_activity_links data in
  let? data := add_suppliers_to_markets ord t Transforming MarketActivity data in
  let? data := prune_suppliers_by_technology_level data in
  let? data := update_market_production_volumes t MarketActivity data in
  let? data := add_suppliers_to_markets ord t MarketActivity MarketGroup data in
  let? data := update_market_production_volumes t MarketGroup data in
  let? data := allocate_all_market_suppliers MarketActivity data in
  let data := delete_suppliers_list data in
  let? data := link_consumers_to_markets ln t data in
  Ok (log_and_delete_unlinked_exchanges data).

Global Arguments handle_constrained_exchange : simpl never.
Global Arguments on_exchange : simpl never.
Global Arguments best_level : simpl never.
