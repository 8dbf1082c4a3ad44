(** Model of the configurations in ocelot/configuration.py as functions on
    databases.  That running a configuration as a system model is running its
    functions in sequence is shown in Runner_proofs.v. *)
From stdpp Require Export gmap.
From Verif Require Import Base Types Uncertainty Utils Strings Recalculation Formulas Parameters Validation
  ActivityLinks Cutoff Topology Locations Consequential.

(** Everything the transformations get from outside. *)
Record world := mkWorld {
  w_ln : Qc -> Qc;
  w_euler : Qc;
  w_pyfloat : text -> result text;
  w_words : list string;
  w_parses : string -> bool;
  w_fresh : nat -> nat -> string;
  w_order : gmap string pobj -> result (list string);
  w_eval : env -> string -> result Qc;
  w_md5 : string -> string;
  w_ord : gset string -> list string;
  w_topo : topo
}.
Definition w_recalc (w : world) : dataset -> result dataset :=
  recalculate (w_ln w) (w_euler w) (w_order w) (w_eval w).

(** transformations/__init__.py lines 28-33, [pv_cleanup]; [create_pv_parameters] is
    decorated with [single_input] (utils.py lines 322-326) and is applied to one
    dataset after the other. *)
Definition pv_cleanup (w : world) (data : list dataset) : result (list dataset) :=
  let? data := ensure_production_exchanges_have_production_volume data in
  let? data := add_pv_to_allocatable_byproducts data in
  Ok (imap (fun i ds => create_pv_parameters (w_fresh w i) ds) data).

(** configuration.py lines 47-55 and 105-110: what both configurations start with. *)
Definition common_part (w : world) (data : list dataset) : result (list dataset) :=
  let? data := ensure_ids_are_unique data in
  let? data := copy_original_exchange_id data in
  let? data := variable_names_are_unique data in
  let? data := validate_markets data in
  let? data := fix_ecoinvent_parameters (w_ln w) (w_euler w) (w_pyfloat w) (w_words w) (w_parses w) data in
  pv_cleanup w data.

(** cutoff/__init__.py lines 30-34, [cleanup_activity_links]. *)
Definition cleanup_activity_links (data : list dataset) : list dataset :=
  drop_zero_amount_activity_links (drop_rp_activity_links data).

(** configuration.py lines 45-72, [cutoff_config] (lines 74-101 differ in the linking
    function only, which is the same model, see Locations.v), in four parts. *)
Definition cutoff_prepared (w : world) (data : list dataset) : result (list dataset) :=
  let? data := common_part w data in
  let? data := update_activity_link_parent_child
                 (cleanup_activity_links (remove_consequential_exchanges data)) in
  let? data := manage_activity_links data in
  handle_waste_outputs data.
Definition cutoff_allocated (w : world) (data : list dataset) : result (list dataset) :=
  let? data := cutoff_allocation (w_ln w) (w_recalc w) data in
  Ok (drop_rp_activity_links data).
Definition cutoff_linked (w : world) (data : list dataset) : result (list dataset) :=
  let? data := cutoff_prepared w data in
  let? data := cutoff_allocated w data in
  link_markets_by_pv (w_md5 w) (w_ln w) (w_ord w) (w_topo w) data.
Definition cutoff_finished (w : world) (data : list dataset) : result (list dataset) :=
  let? data := mapR flip_non_allocatable_byproducts
                 (rename_recycled_content_products_after_linking data) in
  let? data := mapR (normalize_reference_production_amount (w_ln w)) data in
  adjust_market_signs_for_allocatable_products (w_ln w) data.
Definition cutoff_model (w : world) (data : list dataset) : result (list dataset) :=
  let? data := cutoff_linked w data in
  cutoff_finished w data.

(** configuration.py lines 103-121, [consequential_config]. *)
Definition consequential_prepared (w : world) (data : list dataset) : result (list dataset) :=
  let? data := common_part w data in
  let? data := split_combined_production (w_recalc w) (drop_zero_amount_activity_links data) in
  let? data := delete_activity_links_to_constrained_markets data in
  let? data := handle_constrained_markets data in
  ensure_byproducts_have_alternative_production data.
Definition consequential_linked (w : world) (data : list dataset) : result (list dataset) :=
  let? data := consequential_prepared w data in
  link_markets_by_technology_level (w_md5 w) (w_ln w) (w_ord w) (w_topo w) data.
Definition consequential_model (w : world) (data : list dataset) : result (list dataset) :=
  let? data := consequential_linked w data in
  mapR (normalize_reference_production_amount (w_ln w)) data.

Global Arguments common_part : simpl never.
Global Arguments cutoff_prepared : simpl never.
Global Arguments cutoff_allocated : simpl never.
Global Arguments consequential_prepared : simpl never.
