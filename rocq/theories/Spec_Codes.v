(** Specifications for C39. *)
From Verif Require Import Base Types Uncertainty Utils Topology Cutoff Locations.

(** Data as they come to the linking: no input has a code, no market suppliers. *)
Definition unlinked_data (data : list dataset) : Prop :=
  Forall (fun ds => d_suppliers ds = None /\
            Forall (fun e => e_type e = FromTechnosphere -> e_code e = None) (d_exchanges ds)) data.

(** [p] makes the product [name] and has the code [c]; links of refinery gas can
    lead to anything. *)
Definition producer (c name : string) (p : dataset) : Prop :=
  d_code p = Some c /\ (d_refprod p = Some name \/ (name = "refinery gas"%string /\ is_Some (d_refprod p))).

(** The datasets when they are given their codes, [link_markets_by_pv] up to
    [add_unique_codes]. *)
Definition numbered (md5 : string -> string) (data : list dataset) : result (list dataset) :=
  let? data := label_reference_product data in
  let data := delete_whitelisted_zero_pv_market_datsets data in
  let? data := assign_fake_pv_to_confidential_datasets data in
  let data := correct_natural_gas_pipeline_location data in
  let? data := relabel_global_to_row data in
  let? data := check_no_row_market_groups data in
  add_unique_codes md5 data.
