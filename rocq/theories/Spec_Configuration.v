(** Specifications for C76. *)
From Verif Require Import Base Types Runner Configuration.

(** The state of the data after doing [ts]. *)
Inductive reaches : list task -> list dataset -> list dataset -> Prop :=
  | reaches_nil data : reaches [] data data
  | reaches_cons t ts data data1 data2 :
      t_run t data = Ok data1 -> reaches ts data1 data2 -> reaches (t :: ts) data data2.

(** The functions that were started, with number, in the order of the log. *)
Definition started (log : list (event * Qc)) : list (nat * string) :=
  omap (fun l => match l.1 with FunctionStart m i _ => Some (i, m_name m) | _ => None end) log.
(** What was passed on from step to step, as counted in the log. *)
Definition counted (log : list (event * Qc)) : list nat :=
  omap (fun l => match l.1 with FunctionStart _ _ n | FunctionEnd _ _ n => Some n | _ => None end) log.

(** The functions of the configurations, by name, and whether they log rows of a table. *)
Definition cutoff_names : list (string * bool) :=
  [("ensure_ids_are_unique", false);
   ("copy_original_exchange_id", false);
   ("variable_names_are_unique", false);
   ("ensure_markets_only_have_one_reference_product", false);
   ("ensure_markets_dont_consume_their_ref_product", false);
   ("fix_specific_ecoinvent_issues", true);
   ("replace_implicit_references", true);
   ("repair_all_uncertainty_distributions", false);
   ("fix_known_bad_formula_strings", false);
   ("lowercase_all_parameters", false);
   ("fix_math_formulas", true);
   ("replace_reserved_words", true);
   ("delete_unparsable_formulas", true);
   ("ensure_production_exchanges_have_production_volume", false);
   ("add_pv_to_allocatable_byproducts", true);
   ("create_pv_parameters", true);
   ("remove_consequential_exchanges", true);
   ("drop_rp_activity_links", true);
   ("drop_zero_amount_activity_links", true);
   ("update_activity_link_parent_child", true);
   ("fix_35_activity_links", false);
   ("check_activity_link_validity", false);
   ("add_hard_linked_production_volumes", false);
   ("update_transforming_activity_production_volumes", false);
   ("rename_recyclable_content_exchanges", false);
   ("create_recycled_content_datasets", true);
   ("label_allocation_method", true);
   ("no_allocation", false);
   ("no_allocation", false);
   ("economic_allocation", false);
   ("constrained_market_allocation", true);
   ("recycling_allocation", false);
   ("waste_treatment_allocation", false);
   ("combined_production_without_products", false);
   ("combined_production", true);
   ("combined_production_with_byproducts", false);
   ("delete_allocation_method", false);
   ("drop_rp_activity_links", true);
   ("label_reference_product", false);
   ("delete_whitelisted_zero_pv_market_datsets", true);
   ("assign_fake_pv_to_confidential_datasets", true);
   ("correct_natural_gas_pipeline_location", false);
   ("relabel_global_to_row", true);
   ("check_no_row_market_groups", false);
   ("add_unique_codes", false);
   ("actualize_activity_links", true);
   ("add_recycled_content_suppliers_to_markets", true);
   ("add_suppliers_to_markets", true);
   ("update_market_production_volumes", true);
   ("delete_global_with_zero_pv_when_regional_present", true);
   ("delete_global_with_zero_pv_when_regional_present", true);
   ("allocate_all_market_suppliers", false);
   ("link_market_group_suppliers", true);
   ("update_market_production_volumes", true);
   ("allocate_all_market_suppliers", false);
   ("link_consumers_to_recycled_content_activities", true);
   ("link_consumers_to_markets", true);
   ("add_reference_product_codes", false);
   ("log_and_delete_unlinked_exchanges", true);
   ("rename_recycled_content_products_after_linking", true);
   ("flip_non_allocatable_byproducts", true);
   ("normalize_reference_production_amount", true);
   ("adjust_market_signs_for_allocatable_products", true)]%string.
Definition consequential_names : list (string * bool) :=
  [("ensure_ids_are_unique", false);
   ("copy_original_exchange_id", false);
   ("variable_names_are_unique", false);
   ("ensure_markets_only_have_one_reference_product", false);
   ("ensure_markets_dont_consume_their_ref_product", false);
   ("fix_specific_ecoinvent_issues", true);
   ("replace_implicit_references", true);
   ("repair_all_uncertainty_distributions", false);
   ("fix_known_bad_formula_strings", false);
   ("lowercase_all_parameters", false);
   ("fix_math_formulas", true);
   ("replace_reserved_words", true);
   ("delete_unparsable_formulas", true);
   ("ensure_production_exchanges_have_production_volume", false);
   ("add_pv_to_allocatable_byproducts", true);
   ("create_pv_parameters", true);
   ("drop_zero_amount_activity_links", true);
   ("combined_production", true);
   ("delete_activity_links_to_constrained_markets", true);
   ("handle_constrained_markets", true);
   ("ensure_byproducts_have_alternative_production", false);
   ("label_reference_product", false);
   ("delete_whitelisted_zero_pv_market_datsets", true);
   ("assign_fake_pv_to_confidential_datasets", true);
   ("relabel_global_to_row", true);
   ("add_unique_codes", false);
   ("actualize_activity_links", true);
   ("add_suppliers_to_markets", true);
   ("prune_suppliers_by_technology_level", false);
   ("update_market_production_volumes", true);
   ("add_suppliers_to_markets", true);
   ("update_market_production_volumes", true);
   ("allocate_all_market_suppliers", false);
   ("delete_suppliers_list", false);
   ("link_consumers_to_markets", true);
   ("log_and_delete_unlinked_exchanges", true);
   ("normalize_reference_production_amount", true)]%string.
