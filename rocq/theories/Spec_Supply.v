(** Specification for C79: what markets are supplied with. *)
From stdpp Require Import gmap.
From Verif Require Import Base Types Uncertainty Utils Topology Cutoff Locations Consequential Spec_Utils Spec_Waste Spec_Codes Spec_Mix
  Spec_Consequential Spec_Untouched Spec_Pipeline Spec_Balance.

(** [link_markets_by_pv] and [link_markets_by_technology_level] up to the point where inputs
    are added to markets, and the former up to where they are added to market groups. *)
Definition markets_ready (md5 : string -> string) (ord : gset string -> list string) (t : topo) (data : list dataset)
  : result (list dataset) :=
  let? data := numbered md5 data in
  let? data := actualize_activity_links data in
  let? data := add_recycled_content_suppliers_to_markets ord t data in
  let? data := add_suppliers_to_markets ord t Transforming MarketActivity data in
  let? data := update_market_production_volumes t MarketActivity data in
  let? data := delete_global_with_zero_pv_when_regional_present MarketActivity data in
  delete_global_with_zero_pv_when_regional_present Transforming data.
Definition groups_ready (md5 : string -> string) (ord : gset string -> list string) (t : topo) (data : list dataset)
  : result (list dataset) :=
  let? data := markets_ready md5 ord t data in
  let? data := allocate_all_market_suppliers MarketActivity data in
  let? data := link_market_group_suppliers t data in
  update_market_production_volumes t MarketGroup data.
Definition levels_ready (md5 : string -> string) (ord : gset string -> list string) (t : topo) (data : list dataset)
  : result (list dataset) :=
  let? data := label_reference_product data in
  let data := delete_whitelisted_zero_pv_market_datsets data in
  let? data := assign_fake_pv_to_confidential_datasets data in
  let? data := relabel_global_to_row data in
  let? data := add_unique_codes md5 data in
  let? data := actualize_activity_links data in
  let? data := add_suppliers_to_markets ord t Transforming MarketActivity data in
  let? data := prune_suppliers_by_technology_level data in
  let? data := update_market_production_volumes t MarketActivity data in
  let? data := add_suppliers_to_markets ord t MarketActivity MarketGroup data in
  update_market_production_volumes t MarketGroup data.

(** The suppliers of a market with their shares: by volume; a single supplier provides
    everything; several suppliers without any volume provide nothing. *)
Definition shares (l : list exchange) : list (exchange * Qc) :=
  if decide (total_volume l <> 0%Qc) then map (fun s => (s, (volume_of s / total_volume l)%Qc)) (sharing l)
  else match l with [s] => [(s, 1%Qc)] | _ => [] end.
(** The part of the output that is provided: all or nothing. *)
Definition provided (l : list exchange) : Qc := match shares l with [] => 0%Qc | _ => 1%Qc end.

(** No reference product of a market is marked as recycled. *)
Definition plain_market (ds : dataset) : Prop :=
  is_market ds -> Forall (fun e => is_refproduct e -> ~ occurs_in marker (e_name e)) (d_exchanges ds).

(** The market [d] has become [d'], given the suppliers [l]: there is one factor for its own
    product, and one for everything else.  They are the same for market groups, and can
    differ in sign in markets.  Every supplier provides its share. *)
Definition supplied_market (name : string -> dataset -> Qc) (l : list exchange) (d d' : dataset) : Prop :=
  exists rp k f g mix, filter is_refproduct (d_exchanges d) = [rp] /\ normalising_factor (e_amount rp) k /\
    (f = k \/ f = - k)%Qc /\ (g = k \/ g = - k)%Qc /\ (d_type d = MarketGroup -> f = k /\ g = k) /\
    sublist mix (d_exchanges d') /\
    Forall2 (fun p e => e_type e = FromTechnosphere /\ e_name e = e_name rp /\ is_Some (e_code e) /\ e_code e = e_code p.1 /\
                        e_amount e = (p.2 * e_amount rp * f)%Qc) (shares l) mix /\
    (e_name rp <> "refinery gas"%string ->
     net (e_name rp) d' = ((name (e_name rp) d - provided l * e_amount rp) * f)%Qc) /\
    forall n, ~ occurs_in marker n -> n <> "refinery gas"%string -> n <> e_name rp -> net n d' = (name n d * g)%Qc.
(** What [a] was before linking, [m] before inputs were added and [ds] is in the end. *)
Definition was_supplied (name : string -> dataset -> Qc) (kind : dtype) (a m ds : dataset) : Prop :=
  d_type ds = kind -> frame ds = frame a /\ d_code ds = d_code m /\
    exists l, d_suppliers m = Some l /\ supplied_market name l a ds.
