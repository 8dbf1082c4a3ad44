{
 "claims": [
  {
   "property": "C01",
   "status": "proved",
   "theorems": [
    "C01_scale_amount_and_frame",
    "C01_scale_by_one_is_identity",
    "C01_scale_amount_composes",
    "C01_scale_composes",
    "C01_uniform_compose_refuted"
   ],
   "note": "Amount, frame, identity and composition laws proved for every exchange; beyond the statement, composition of the whole description is proved except for uniform distributions, where it is refuted for uniform distributions (absolute tolerance), see C01_uniform_compose_refuted."
  },
  {
   "property": "C02",
   "status": "partial",
   "theorems": [
    "C02_scaled_distribution",
    "C02_normal_mean_refuted",
    "C02_normal_zero_refuted",
    "C02_normal_no_variance_refuted",
    "C02_undefined_bounds_refuted"
   ],
   "note": "Scaling a well-formed distribution by a non-zero factor succeeds and yields the distribution of the scaled variable. Refuted parts: normal distributions keep a stale mean and total variance, amount 0 or a missing variance raise, undefined distributions get minimum > maximum."
  },
  {
   "property": "C03",
   "status": "partial",
   "theorems": [
    "C03_repair_twice",
    "C03_repair_all",
    "C03_repair_idempotent_partial",
    "C03_repair_idempotent_refuted",
    "C03_positive_variance_refuted"
   ],
   "note": "Repair post-condition and frame proved for all databases; idempotence is refuted, and when repairing twice is repairing once is characterised exactly (for a logarithm without fixed point); positive variance refuted."
  },
  {
   "property": "C04",
   "status": "proved",
   "theorems": [
    "C04_adjust_time",
    "C04_adjust_time_monotone",
    "C04_variance_never_lowered",
    "C04_adjust_time_bands",
    "C04_recalculated",
    "C04_total_never_lowered"
   ],
   "note": "Years instead of date strings."
  },
  {
   "property": "C05",
   "status": "proved",
   "theorems": [
    "C05_normalise",
    "C05_normalise_idempotent",
    "C05_normalise_errors"
   ],
   "note": "Rational arithmetic; the tolerance 1e-14 is part of the statement."
  },
  {
   "property": "C06",
   "status": "proved",
   "theorems": [
    "C06_choose_reference_product",
    "C06_choose_total",
    "C06_choose_errors"
   ],
   "note": "Exact result, totality for well-formed distributions, error cases."
  },
  {
   "property": "C07",
   "status": "partial",
   "theorems": [
    "C07_exact",
    "C07_one_field",
    "C07_identity",
    "C07_codes_identify_refuted",
    "C07_codes_ignore_unit_refuted",
    "C07_codes_identify_partial",
    "C07_same_identity_same_code"
   ],
   "note": "The full statement is refuted (no separators, unit never set); for an injective hash and fixed-width dates, which datasets share a code is characterised exactly, and datasets of which all texts but one have the same length share a code only if all texts agree."
  },
  {
   "property": "C08",
   "status": "proved",
   "theorems": [
    "C08_unique_codes",
    "C08_label_reference_product"
   ],
   "note": ""
  },
  {
   "property": "C09",
   "status": "proved",
   "theorems": [
    "C09_factors",
    "C09_factors_sum_to_one",
    "C09_factors_range",
    "C09_allocation_uses_factors",
    "C09_range_needs_true_values_refuted"
   ],
   "note": "Exact characterisation of success and of every factor. The range needs non-negative true values, which no validity check requires: C09_range_needs_true_values_refuted."
  },
  {
   "property": "C10",
   "status": "proved",
   "theorems": [
    "C10_burdens_conserved"
   ],
   "note": "Conservation for each flow key (id, name, type); factors are applied uniformly, so splitting by key loses nothing."
  },
  {
   "property": "C11",
   "status": "proved",
   "theorems": [
    "C11_one_dataset_per_product",
    "C11_total",
    "C11_zero_product_refuted"
   ],
   "note": "A zero-amount product makes the allocation fail: C11_zero_product_refuted, outside the statement."
  },
  {
   "property": "C12",
   "status": "proved",
   "theorems": [
    "C12_waste_treatment",
    "C12_waste_treatment_total",
    "C12_burdens_stay_with_treatment"
   ],
   "note": ""
  },
  {
   "property": "C13",
   "status": "proved",
   "theorems": [
    "C13_recycling",
    "C13_material_is_an_input"
   ],
   "note": "recycling_2 is not called anywhere and not modelled."
  },
  {
   "property": "C14",
   "status": "proved",
   "theorems": [
    "C14_method",
    "C14_one_method",
    "C14_total",
    "C14_only_error",
    "C14_implemented",
    "C14_features"
   ],
   "note": "The decision tree is stated independently as method_of."
  },
  {
   "property": "C15",
   "status": "proved",
   "theorems": [
    "C15_allocated_once",
    "C15_constrained_market",
    "C15_constrained_market_refuted"
   ],
   "note": "For datasets without the key allocation method and with classified by-products. The constrained market function returns a dict, so such markets always raise TypeError: C15_constrained_market_refuted."
  },
  {
   "property": "C16",
   "status": "proved",
   "theorems": [
    "C16_single_output",
    "C16_zero_market_refuted",
    "C16_zero_byproduct_refuted"
   ],
   "note": "Side conditions are needed: C16_zero_market_refuted, C16_zero_byproduct_refuted."
  },
  {
   "property": "C17",
   "status": "proved",
   "theorems": [
    "C17_combined_production",
    "C17_formulas_hold"
   ],
   "note": "For every evaluator and evaluation order; unique variable names."
  },
  {
   "property": "C18",
   "status": "proved",
   "theorems": [
    "C18_merged_flows",
    "C18_production_weighting_refuted",
    "C18_foreign_ids_lost_refuted"
   ],
   "note": "Beyond the statement: addition after normalisation is not production-weighted (C18_production_weighting_refuted), and merging datasets with different ids loses flows (C18_foreign_ids_lost_refuted)."
  },
  {
   "property": "C19",
   "status": "proved",
   "theorems": [
    "C19_flip",
    "C19_balance",
    "C19_none_left",
    "C19_idempotent",
    "C19_total",
    "C19_uncertainty_refuted"
   ],
   "note": "The flipped exchange keeps its uncertainty, which then no longer fits the amount (C19_uncertainty_refuted)."
  },
  {
   "property": "C20",
   "status": "proved",
   "theorems": [
    "C20_signs",
    "C20_reference_positive",
    "C20_total",
    "C20_relative_amounts_refuted"
   ],
   "note": "The relative amounts of a market whose reference product alone is negative change (C20_relative_amounts_refuted)."
  },
  {
   "property": "C21",
   "status": "proved",
   "theorems": [
    "C21_renamed",
    "C21_one_producer",
    "C21_last_wins",
    "C21_total"
   ],
   "note": "handle_waste_outputs as it is configured: renaming, then creation of datasets."
  },
  {
   "property": "C22",
   "status": "proved",
   "theorems": [
    "C22_name",
    "C22_other_names",
    "C22_database",
    "C22_only_names",
    "C22_marked_name_refuted"
   ],
   "note": "A name which already contains the marker does not survive the round trip (C22_marked_name_refuted)."
  },
  {
   "property": "C23",
   "status": "proved",
   "theorems": [
    "C23_zero_links",
    "C23_product_links",
    "C23_consequential",
    "C23_idempotent"
   ],
   "note": ""
  },
  {
   "property": "C24",
   "status": "proved",
   "theorems": [
    "C24_check_iff",
    "C24_check_error",
    "C24_followable"
   ],
   "note": "For databases with unique ids (checked earlier in the run)."
  },
  {
   "property": "C25",
   "status": "proved",
   "theorems": [
    "C25_volume_total",
    "C25_dataset_order",
    "C25_exchange_order_refuted"
   ],
   "note": "For databases with unique ids. Beyond the statement: the order of exchanges within a consumer can matter (C25_exchange_order_refuted)."
  },
  {
   "property": "C26",
   "status": "proved",
   "theorems": [
    "C26_update",
    "C26_bounds",
    "C26_collection",
    "C26_negative_demand_refuted"
   ],
   "note": "Includes the whole collection manage_activity_links; growth under negative link demand is exhibited by C26_negative_demand_refuted, outside the statement."
  },
  {
   "property": "C27",
   "status": "proved",
   "theorems": [
    "C27_relink",
    "C27_no_parent_links",
    "C27_idempotent",
    "C27_total"
   ],
   "note": ""
  },
  {
   "property": "C28",
   "status": "proved",
   "theorems": [
    "C28_byproduct_volumes",
    "C28_byproduct_volumes_idempotent",
    "C28_no_reference_amount"
   ],
   "note": ""
  },
  {
   "property": "C29",
   "status": "proved",
   "theorems": [
    "C29_contains",
    "C29_contains_resolved",
    "C29_contains_row",
    "C29_unresolved_row",
    "C29_reflexive",
    "C29_transitive",
    "C29_glo",
    "C29_contained",
    "C29_contained_row",
    "C29_contained_names",
    "C29_contained_exclude_self",
    "C29_overlaps",
    "C29_rest_of_world",
    "C29_rest_of_world_total",
    "C29_aliases"
   ],
   "note": "For any topology data. The unresolved RoW contains nothing and is contained only in GLO, as documented in the code."
  },
  {
   "property": "C30",
   "status": "proved",
   "theorems": [
    "C30_order",
    "C30_larger_first",
    "C30_input_order_irrelevant"
   ],
   "note": ""
  },
  {
   "property": "C31",
   "status": "proved",
   "theorems": [
    "C31_relabelled",
    "C31_errors"
   ],
   "note": ""
  },
  {
   "property": "C32",
   "status": "proved",
   "theorems": [
    "C32_suppliers",
    "C32_exclusive",
    "C32_recycled",
    "C32_everyone_supplies_refuted",
    "C32_empty_place_refuted"
   ],
   "note": "For a topology without an entry RoW. A place without faces lies everywhere (C32_empty_place_refuted); duplicate RoW suppliers are dropped (C32_everyone_supplies_refuted)."
  },
  {
   "property": "C33",
   "status": "proved",
   "theorems": [
    "C33_mix",
    "C33_total",
    "C33_all",
    "C33_no_volume_refuted"
   ],
   "note": "Also: what happens without volume (one supplier: all of it; none or several: no input, C33_no_volume_refuted)."
  },
  {
   "property": "C34",
   "status": "proved",
   "theorems": [
    "C34_markets",
    "C34_groups",
    "C34_mutual_refuted"
   ],
   "note": "Groups that supply each other end up with inconsistent volumes (C34_mutual_refuted)."
  },
  {
   "property": "C35",
   "status": "proved",
   "theorems": [
    "C35_linked",
    "C35_demand",
    "C35_parts",
    "C35_everything_linked_refuted",
    "C35_refinery_gas_refuted"
   ],
   "note": "The hypothesis on refinery gas is needed: C35_refinery_gas_refuted. Inputs can stay unlinked although markets exist: C35_everything_linked_refuted."
  },
  {
   "property": "C36",
   "status": "proved",
   "theorems": [
    "C36_choice",
    "C36_disjoint",
    "C36_fallback",
    "C36_row_and_group_refuted",
    "C36_empty_row_refuted"
   ],
   "note": "A RoW market and a market group overlapping it can be chosen together (C36_row_and_group_refuted); consumers in an empty RoW get no market (C36_empty_row_refuted)."
  },
  {
   "property": "C37",
   "status": "proved",
   "theorems": [
    "C37_groups",
    "C37_inside",
    "C37_disjoint",
    "C37_one_route",
    "C37_names",
    "C37_rest_of_world_lost_refuted",
    "C37_same_faces_refuted"
   ],
   "note": "Not every market reaches the world group: C37_rest_of_world_lost_refuted, C37_same_faces_refuted."
  },
  {
   "property": "C38",
   "status": "proved",
   "theorems": [
    "C38_resolved",
    "C38_errors",
    "C38_recycled",
    "C38_products",
    "C38_products_iff"
   ],
   "note": ""
  },
  {
   "property": "C39",
   "status": "proved",
   "theorems": [
    "C39_codes",
    "C39_no_dangling",
    "C39_consequential",
    "C39_dangling_refuted"
   ],
   "note": "Links to a Rest-of-World dataset deleted for lack of production are left dangling (C39_dangling_refuted)."
  },
  {
   "property": "C40",
   "status": "proved",
   "theorems": [
    "C40_removed",
    "C40_producer_remains",
    "C40_total",
    "C40_zero_markets",
    "C40_duplicates_refuted"
   ],
   "note": "Without the hypothesis that no two datasets are equal the last producer can be removed (C40_duplicates_refuted)."
  },
  {
   "property": "C41",
   "status": "partial",
   "theorems": [
    "C41_deleted",
    "C41_unlinked_kept_refuted",
    "C41_linked_deleted_refuted"
   ],
   "note": "Refuted: the code filters on the code of the dataset, not of the exchange, so unlinked inputs of coded datasets stay and linked exchanges of datasets without code go. Proved: the exact effect; on datasets with a code nothing is deleted."
  },
  {
   "property": "C42",
   "status": "proved",
   "theorems": [
    "C42_best",
    "C42_fails",
    "C42_idempotent",
    "C42_undefined_refuted",
    "C42_groups_without_inputs_refuted"
   ],
   "note": "The level 'undefined' is outside the hierarchy and no pass of the model replaces it (C42_undefined_refuted); market groups are left without inputs (C42_groups_without_inputs_refuted)."
  },
  {
   "property": "C43",
   "status": "proved",
   "theorems": [
    "C43_balance",
    "C43_exact",
    "C43_succeeds",
    "C43_links",
    "C43_unrelated_links_refuted",
    "C43_uncertainty_refuted"
   ],
   "note": "Links that have nothing to do with constrained markets are deleted too (C43_unrelated_links_refuted); uncertainties are not flipped (C43_uncertainty_refuted)."
  },
  {
   "property": "C44",
   "status": "proved",
   "theorems": [
    "C44_missing",
    "C44_otherwise"
   ],
   "note": ""
  },
  {
   "property": "C45",
   "status": "proved",
   "theorems": [
    "C45_rewriting",
    "C45_value",
    "C45_reading",
    "C45_terminates",
    "C45_no_if_left",
    "C45_errors",
    "C45_calls_refuted",
    "C45_names_refuted",
    "C45_newline_refuted"
   ],
   "note": "The restrictions on formulas are needed: C45_calls_refuted, C45_names_refuted, C45_newline_refuted. Texts are ASCII; backslashes in replacement templates are excluded."
  },
  {
   "property": "C46",
   "status": "proved",
   "theorems": [
    "C46_lowered",
    "C46_idempotent",
    "C46_names",
    "C46_mentions",
    "C46_collision_refuted"
   ],
   "note": "Case conversion of ASCII letters. Two variables that differ in case pass the uniqueness check and then collide (C46_collision_refuted)."
  },
  {
   "property": "C47",
   "status": "proved",
   "theorems": [
    "C47_variables",
    "C47_distinct",
    "C47_formulas",
    "C47_unchanged",
    "C47_names",
    "C47_consistent",
    "C47_longer_names_refuted",
    "C47_digits_refuted",
    "C47_parsed_refuted",
    "C47_conditional_refuted"
   ],
   "note": "The provisos are needed: C47_longer_names_refuted, C47_digits_refuted, C47_parsed_refuted, C47_conditional_refuted. The Python parser is an argument of the theorems."
  },
  {
   "property": "C48",
   "status": "proved",
   "theorems": [
    "C48_unique",
    "C48_duplicate"
   ],
   "note": ""
  },
  {
   "property": "C49",
   "status": "proved",
   "theorems": [
    "C49_volumes",
    "C49_parameters",
    "C49_definitions",
    "C49_environment",
    "C49_idempotent",
    "C49_uncertainty_refuted"
   ],
   "note": "The uncertainty stays behind (C49_uncertainty_refuted)."
  },
  {
   "property": "C50",
   "status": "proved",
   "theorems": [
    "C50_values",
    "C50_formulas_hold",
    "C50_duplicate_variable_refuted"
   ],
   "note": "Evaluator and ordering package are arguments; the result solves its own formulas if the order is topological and variables are unique."
  },
  {
   "property": "C51",
   "status": "proved",
   "theorems": [
    "C51_unwrap",
    "C51_call",
    "C51_call_error",
    "C51_system_model",
    "C51_validate",
    "C51_nested_refuted",
    "C51_insert_refuted"
   ],
   "note": "Running nested collections as a system model fails although they are validated (C51_nested_refuted); insert does not unwrap (C51_insert_refuted)."
  },
  {
   "property": "C52",
   "status": "proved",
   "theorems": [
    "C52_wrapped",
    "C52_unfiltered",
    "C52_allocation",
    "C52_single_refuted"
   ],
   "note": "A function that returns a single dataset contributes the keys of its dictionary (C52_single_refuted)."
  },
  {
   "property": "C53",
   "status": "proved",
   "theorems": [
    "C53_number",
    "C53_text",
    "C53_range",
    "C53_step",
    "C53_step_zero",
    "C53_default_refuted",
    "C53_negative",
    "C53_negative_refuted",
    "C53_integers",
    "C53_pieces",
    "C53_every_text",
    "C53_backwards_refuted"
   ],
   "note": "Strategies are ASCII texts; C53_every_text covers all of them, blanks and underscores included. The documented default is wrong (C53_default_refuted), a negative step leaves out the end (C53_negative_refuted), and a range that ends before it starts is accepted and saves nothing (C53_backwards_refuted)."
  },
  {
   "property": "C54",
   "status": "proved",
   "theorems": [
    "C54_cache",
    "C54_data",
    "C54_used",
    "C54_hidden_refuted",
    "C54_crash_refuted",
    "C54_change_refuted",
    "C54_old_time_refuted",
    "C54_empty_refuted"
   ],
   "note": "The provisos are needed: C54_hidden_refuted, C54_change_refuted, C54_old_time_refuted. A crash or the removal of all files makes later extractions fail (C54_crash_refuted, C54_empty_refuted). Time is continuous and writing a file is instantaneous."
  },
  {
   "property": "C55",
   "status": "proved",
   "theorems": [
    "C55_cleanup",
    "C55_only",
    "C55_again",
    "C55_foreign_refuted",
    "C55_link_refuted"
   ],
   "note": "Any directory is deleted, not only those of model runs (C55_foreign_refuted); an old link stops the deletion half-way (C55_link_refuted)."
  },
  {
   "property": "C56",
   "status": "proved",
   "theorems": [
    "C56_report",
    "C56_entries",
    "C56_times",
    "C56_lengths_refuted",
    "C56_table_refuted",
    "C56_sorted_refuted",
    "C56_second_run",
    "C56_second_run_refuted"
   ],
   "note": "Messages that do not fit the table make the report fail after a successful run (C56_table_refuted); rows are not sorted although the code means to (C56_sorted_refuted); a second run spoils the log of the first (C56_second_run_refuted)."
  },
  {
   "property": "C57",
   "status": "proved",
   "theorems": [
    "C57_matrix",
    "C57_flows",
    "C57_nonzero",
    "C57_production",
    "C57_fields",
    "C57_succeeds",
    "C57_database",
    "C57_refinery_gas_refuted",
    "C57_refinery_flow_refuted"
   ],
   "note": "Unlinked inputs and elementary flows called refinery gas are lost silently (C57_refinery_gas_refuted, C57_refinery_flow_refuted)."
  },
  {
   "property": "C58",
   "status": "proved",
   "theorems": [
    "C58_safe",
    "C58_distinct",
    "C58_intermediate",
    "C58_follow",
    "C58_follow_refuted",
    "C58_slug"
   ],
   "note": "ASCII strings, on which NFKD does nothing; the hash is an argument. The text to follow is not made safe (C58_follow_refuted)."
  },
  {
   "property": "C59",
   "status": "proved",
   "theorems": [
    "C59_unique_ids",
    "C59_single_output",
    "C59_markets",
    "C59_production_volumes"
   ],
   "note": ""
  },
  {
   "property": "C60",
   "status": "proved",
   "theorems": [
    "C60_fix_exact",
    "C60_fix_idempotent"
   ],
   "note": ""
  },
  {
   "property": "C61",
   "status": "proved",
   "theorems": [
    "C61_cleared",
    "C61_kept",
    "C61_idempotent",
    "C61_volumes"
   ],
   "note": ""
  },
  {
   "property": "C62",
   "status": "proved",
   "theorems": [
    "C62_pv",
    "C62_technology"
   ],
   "note": "The hash never returns the empty text: with an empty code the last pass deletes all exchanges of a dataset."
  },
  {
   "property": "C63",
   "status": "proved",
   "theorems": [
    "C63_cutoff",
    "C63_consequential"
   ],
   "note": ""
  },
  {
   "property": "C64",
   "status": "proved",
   "theorems": [
    "C64_cutoff",
    "C64_cutoff_complete",
    "C64_consequential",
    "C64_waste_unlinked_refuted",
    "C64_consequential_export_refuted"
   ],
   "note": "Not every input has a code: waste turned into an input after linking has none although there is a market for it, so that the result can not be exported (C64_waste_unlinked_refuted); products of consequential results have no codes (C64_consequential_export_refuted)."
  },
  {
   "property": "C65",
   "status": "proved",
   "theorems": [
    "C65_cutoff",
    "C65_consequential"
   ],
   "note": "The hash never returns the empty text."
  },
  {
   "property": "C66",
   "status": "proved",
   "theorems": [
    "C66_single_output"
   ],
   "note": "The hypotheses are about the datasets handed to allocation."
  },
  {
   "property": "C67",
   "status": "proved",
   "theorems": [
    "C67_extraction_exact",
    "C67_extraction_accepts",
    "C67_technology_default_refuted",
    "C67_access_default_refuted",
    "C67_isic_optional_refuted",
    "C67_gamma_refuted",
    "C67_property_variable_refuted"
   ],
   "note": "Parsing of XML is not modelled: trees are given. Defaults of the format are not applied, the ISIC classification is needed although optional in the format, gamma distributions with their required minimum are refused, and variables of properties keep white space (C67_technology_default_refuted, C67_access_default_refuted, C67_isic_optional_refuted, C67_gamma_refuted, C67_property_variable_refuted)."
  },
  {
   "property": "C68",
   "status": "proved",
   "theorems": [
    "C68_schema_readable",
    "C68_extracted_readable",
    "C68_parameter_amount_refuted",
    "C68_validation",
    "C68_validation_sound",
    "C68_validation_messages",
    "C68_validation_all_refuted",
    "C68_lists",
    "C68_labels",
    "C68_labelled_refuted"
   ],
   "note": "The schema does not ask for the amount of a parameter (C68_parameter_amount_refuted); of datasets with the same fault only one is reported (C68_validation_all_refuted). Most labels of the allocation step are not in the list of the schema (C68_labelled_refuted)."
  },
  {
   "property": "C69",
   "status": "proved",
   "theorems": [
    "C69_directory_exact",
    "C69_directory_raw",
    "C69_codes",
    "C69_traceable"
   ],
   "note": "The second part assumes that the hash never returns the empty text."
  },
  {
   "property": "C70",
   "status": "proved",
   "theorems": [
    "C70_withdrawn",
    "C70_equal_volumes",
    "C70_pipeline",
    "C70_no_group_in_row",
    "C70_undefined_levels",
    "C70_zero_volume_refuted",
    "C70_known_volume_refuted"
   ],
   "note": "Volumes are not looked at, although names and reports say so, and known volumes are overwritten (C70_zero_volume_refuted, C70_known_volume_refuted)."
  },
  {
   "property": "C71",
   "status": "proved",
   "theorems": [
    "C71_split",
    "C71_one_product",
    "C71_only_several",
    "C71_lost_refuted"
   ],
   "note": "A dataset with several reference products all of amount zero is lost (C71_lost_refuted)."
  },
  {
   "property": "C72",
   "status": "proved",
   "theorems": [
    "C72_replaced",
    "C72_none_left",
    "C72_fails",
    "C72_idempotent",
    "C72_property_refuted",
    "C72_unique_refuted",
    "C72_empty_refuted"
   ],
   "note": "References to properties stay, made-up variables may collide with others, empty variables make references vanish (C72_property_refuted, C72_unique_refuted, C72_empty_refuted)."
  },
  {
   "property": "C73",
   "status": "proved",
   "theorems": [
    "C73_formula",
    "C73_plain",
    "C73_none_left",
    "C73_ends",
    "C73_fails",
    "C73_data",
    "C73_variable_refuted",
    "C73_parentheses_refuted",
    "C73_repeated_refuted",
    "C73_percent_refuted",
    "C73_conditional_refuted"
   ],
   "note": "Powers of variables, powers in parentheses and repeated powers fail, a percent sign after a name makes another name, and a conditional can be left over (the five _refuted theorems)."
  },
  {
   "property": "C74",
   "status": "proved",
   "theorems": [
    "C74_corrected",
    "C74_none_left",
    "C74_idempotent",
    "C74_refinery",
    "C74_parsed",
    "C74_values",
    "C74_benzene_refuted"
   ],
   "note": "The number put in for benzene chlorination is not the value of the text it replaces (C74_benzene_refuted)."
  },
  {
   "property": "C75",
   "status": "proved",
   "theorems": [
    "C75_untouched",
    "C75_parsed",
    "C75_variables",
    "C75_uncertainties",
    "C75_kept",
    "C75_collision_refuted"
   ],
   "note": "Variables that differ in case become equal (C75_collision_refuted)."
  },
  {
   "property": "C76",
   "status": "proved",
   "theorems": [
    "C76_cutoff",
    "C76_consequential",
    "C76_steps",
    "C76_report",
    "C76_named",
    "C76_duplicates",
    "C76_names"
   ],
   "note": "Docstrings, contents of tables and messages are arbitrary."
  },
  {
   "property": "C77",
   "status": "proved",
   "theorems": [
    "C77_cutoff",
    "C77_consequential",
    "C77_order_refuted",
    "C77_words_refuted"
   ],
   "note": "Assumes that no hash is the empty text. Equality of results and independence of the order of reserved words are refuted (C77_order_refuted, C77_words_refuted)."
  },
  {
   "property": "C78",
   "status": "proved",
   "theorems": [
    "C78_cutoff",
    "C78_consequential",
    "C78_refinery_gas_refuted"
   ],
   "note": "Assumes that no hash is the empty text and that the marker of recycled content occurs in names at most once, at the end (C83: it does if it is not in the input). The balance of refinery gas is refuted (C78_refinery_gas_refuted)."
  },
  {
   "property": "C79",
   "status": "proved",
   "theorems": [
    "C79_cutoff_markets",
    "C79_cutoff_groups",
    "C79_consequential_markets",
    "C79_consequential_groups",
    "C79_balanced",
    "C79_unbalanced_refuted",
    "C79_consequential_groups_refuted"
   ],
   "note": "Assumes that no hash is the empty text, that the marker of recycled content occurs in names at most once, at the end, and that products of markets are not marked (C83: so it is if the marker is not in the input). That every market is balanced is refuted for suppliers without volume and for market groups of the consequential model."
  },
  {
   "property": "C80",
   "status": "proved",
   "theorems": [
    "C80_centred",
    "C80_possible",
    "C80_scaled",
    "C80_rescaled_often",
    "C80_normal",
    "C80_normal_refuted",
    "C80_possible_refuted"
   ],
   "note": "The sampling itself (stats_arrays) is not modelled. That normal distributions are rescaled, and that repaired distributions can always be sampled, is refuted."
  },
  {
   "property": "C81",
   "status": "proved",
   "theorems": [
    "C81_get",
    "C81_set",
    "C81_delete",
    "C81_outside",
    "C81_insert",
    "C81_inherited",
    "C81_pop",
    "C81_index",
    "C81_remove",
    "C81_call"
   ],
   "note": "Indices are integers, not slices; items are compared by equality."
  },
  {
   "property": "C82",
   "status": "proved",
   "theorems": [
    "C82_intersects",
    "C82_intersected",
    "C82_symmetric",
    "C82_contains",
    "C82_overlaps",
    "C82_global",
    "C82_weights",
    "C82_larger_first",
    "C82_default",
    "C82_symmetric_refuted",
    "C82_larger_first_refuted"
   ],
   "note": "Caches are not modelled. Symmetry with GLO, and the order for size proxies that can be zero, are refuted."
  },
  {
   "property": "C83",
   "status": "proved",
   "theorems": [
    "C83_cutoff",
    "C83_consequential",
    "C83_prepared",
    "C83_allocated",
    "C83_amounts",
    "C83_supplies",
    "C83_marked_refuted",
    "C83_activity_refuted"
   ],
   "note": "Assumes that no hash is the empty text and that nothing is linked in the input. That marked names of the input are kept, and that no name of an activity is marked, are refuted."
  },
  {
   "property": "C84",
   "status": "proved",
   "theorems": [
    "C84_cutoff",
    "C84_shared",
    "C84_combined_refuted",
    "C84_rest_of_world_refuted"
   ],
   "note": "Assumes that no hash is the empty text, and that the marker of recycled content and an allocation method are not in the input. That datasets with several reference products, or for the rest of the world, are conserved as well is refuted."
  },
  {
   "property": "C85",
   "status": "proved",
   "theorems": [
    "C85_consequential",
    "C85_once",
    "C85_conditional_refuted",
    "C85_conditional_flow_refuted",
    "C85_combined_refuted"
   ],
   "note": "Assumes that no hash is the empty text and that conditional exchanges are by-products; without that it is refuted, and so it is for datasets with several reference products."
  },
  {
   "property": "C86",
   "status": "proved",
   "theorems": [
    "C86_zero_links",
    "C86_product_links",
    "C86_conditional",
    "C86_flipped",
    "C86_renamed",
    "C86_children",
    "C86_recycled_links",
    "C86_volumes",
    "C86_confidential",
    "C86_factors",
    "C86_signs",
    "C86_relabelled",
    "C86_producers",
    "C86_relabelled_products",
    "C86_children_refuted",
    "C86_volumes_refuted",
    "C86_signs_refuted",
    "C86_confidential_refuted",
    "C86_technology_refuted"
   ],
   "note": "The exceptions named in the statement are refuted theorems. Tables of transformations that rewrite formulas are in C94; those of linking in C95. Messages about constrained markets go to the root logger and reach no table."
  },
  {
   "property": "C87",
   "status": "proved",
   "theorems": [
    "C87_consequential",
    "C87_refinery",
    "C87_dropped",
    "C87_whitelisted",
    "C87_idle",
    "C87_recycled",
    "C87_parameters",
    "C87_unresolved",
    "C87_unlinked",
    "C87_unlinked_refuted",
    "C87_unlisted_refuted",
    "C87_whitelisted_refuted",
    "C87_idle_refuted"
   ],
   "note": "The faults of log_and_delete_unlinked_exchanges, the missing test of volumes and the single row for equal datasets are refuted theorems."
  },
  {
   "property": "C88",
   "status": "proved",
   "theorems": [
    "C88_methods",
    "C88_markets",
    "C88_markets_add_up",
    "C88_markets_refuted"
   ],
   "note": "That the row adds up assumes that no supplier lost more than it makes; without that it is refuted."
  },
  {
   "property": "C89",
   "status": "proved",
   "theorems": [
    "C89_fit",
    "C89_fit_refuted"
   ],
   "note": "switch_undefined_to_current is the refuted theorem."
  },
  {
   "property": "C90",
   "status": "proved",
   "theorems": [
    "C90_data",
    "C90_rows"
   ],
   "note": "A missing 'amount' cannot occur in the model."
  },
  {
   "property": "C91",
   "status": "proved",
   "theorems": [
    "C91_datasets",
    "C91_errors",
    "C91_listed_unchanged_refuted"
   ],
   "note": "That a listed dataset is unchanged is the refuted theorem."
  },
  {
   "property": "C92",
   "status": "proved",
   "theorems": [
    "C92_rows",
    "C92_called_refuted"
   ],
   "note": "That the collection calls the function is the refuted theorem."
  },
  {
   "property": "C93",
   "status": "proved",
   "theorems": [
    "C93_recycling",
    "C93_as_recycling",
    "C93_formulas",
    "C93_positive_input_refuted"
   ],
   "note": "That the former product becomes a positive input is the refuted theorem."
  },
  {
   "property": "C94",
   "status": "proved",
   "theorems": [
    "C94_math",
    "C94_formula_refuted",
    "C94_reserved",
    "C94_replaced_refuted",
    "C94_unparsable",
    "C94_references"
   ],
   "note": "The two exceptions named in the statement are refuted theorems."
  },
  {
   "property": "C95",
   "status": "proved",
   "theorems": [
    "C95_combined",
    "C95_groups",
    "C95_consumers",
    "C95_parts",
    "C95_rows",
    "C95_linked_refuted",
    "C95_listed_refuted",
    "C95_columns"
   ],
   "note": "The two exceptions named in the statement are refuted theorems."
  },
  {
   "property": "C96",
   "status": "proved",
   "theorems": [
    "C96_repair_exact",
    "C96_pedigree_variance",
    "C96_pedigree_default",
    "C96_score_range_refuted"
   ],
   "note": "The exception named in the statement is a refuted theorem."
  },
  {
   "property": "C97",
   "status": "proved",
   "theorems": [
    "C97_matrix_not_on_exchange",
    "C97_repair_ignores_matrix",
    "C97_repair_same_for_every_matrix",
    "C97_repaired_never_ages",
    "C97_ageing_exact",
    "C97_matrix_without_variance",
    "C97_matrix_error",
    "C97_ageing_lowers_variance_refuted"
   ],
   "note": "Uses the reading of files of C67."
  },
  {
   "property": "C98",
   "status": "proved",
   "theorems": [
    "C98_completed",
    "C98_raised",
    "C98_files",
    "C98_log",
    "C98_log_after_files",
    "C98_report",
    "C98_others",
    "C98_interrupt",
    "C98_history",
    "C98_interrupt_keeps_results_refuted",
    "C98_final_results_whole_refuted",
    "C98_interrupt_early_refuted",
    "C98_where",
    "C98_environment",
    "C98_fallback",
    "C98_fallback_read_only_refuted"
   ],
   "note": "One process per run; the detailed log is left out; writing a file is opening and filling it."
  },
  {
   "property": "C99",
   "status": "proved",
   "theorems": [
    "C99_exists",
    "C99_error",
    "C99_order",
    "C99_stored",
    "C99_sums",
    "C99_normalize_is",
    "C99_choose_is",
    "C99_factors_are",
    "C99_suppliers_are",
    "C99_normalised",
    "C99_twice",
    "C99_amounts",
    "C99_factors",
    "C99_factors_fail",
    "C99_burdens",
    "C99_shares",
    "C99_lone_supplier",
    "C99_skipped",
    "C99_exactly_one_refuted",
    "C99_left_alone_refuted",
    "C99_whole_refuted",
    "C99_cancelled_refuted"
   ],
   "note": "Exponents are unbounded: nothing overflows or underflows. Only amounts are followed; distributions are as in C01-C03. sum() of CPython 3.12 and later compensates and is not one of the orders of addition."
  },
  {
   "property": "C100",
   "status": "proved",
   "theorems": [
    "C100_scaling",
    "C100_repair",
    "C100_sampling",
    "C100_ageing",
    "C100_recalculated",
    "C100_outputs",
    "C100_flipped",
    "C100_renamed",
    "C100_ids",
    "C100_merged",
    "C100_recycled",
    "C100_subtracted",
    "C100_ratio",
    "C100_byproduct_volume",
    "C100_search",
    "C100_brightway",
    "C100_market",
    "C100_totals",
    "C100_propagated",
    "C100_levels",
    "C100_labels",
    "C100_classified",
    "C100_links",
    "C100_constrained",
    "C100_codes"
   ],
   "note": "The order of reads is that of the source. Functions that can also fail otherwise are stated with [complains] (only KeyError is characterised), the others with [only_complains] (no other error). Repair and recalculation assume that the scores of the pedigree matrix are known."
  },
  {
   "property": "C101",
   "status": "proved",
   "theorems": [
    "C101_does",
    "C101_one_meaning",
    "C101_ends",
    "C101_list_refuted",
    "C101_help",
    "C101_wrong",
    "C101_models",
    "C101_hyphens_refuted"
   ],
   "note": "docopt 0.6.2 is modelled as far as the usage text needs it. Findings: -l and --list always end with ValueError; after \"--\" the text \"--\" itself is taken as a word."
  },
  {
   "property": "C102",
   "status": "proved",
   "theorems": [
    "C102_existing",
    "C102_others",
    "C102_written",
    "C102_unwritten",
    "C102_failed",
    "C102_again_refuted"
   ],
   "note": "Brightway importer given by its strategies, its matching and its count of unlinked exchanges. Finding: a list used up by an import can never be imported again."
  },
  {
   "property": "C103",
   "status": "proved",
   "theorems": [
    "C103_report",
    "C103_broken",
    "C103_missing",
    "C103_same_files",
    "C103_garbled_refuted"
   ],
   "note": "XML parsing and what a schema accepts are arguments. Finding: one garbled file hides all invalid ones found before it."
  },
  {
   "property": "C104",
   "status": "proved",
   "theorems": [
    "C104_file",
    "C104_subtracted",
    "C104_hard_links",
    "C104_net",
    "C104_methods",
    "C104_created",
    "C104_inputs",
    "C104_market",
    "C104_links",
    "C104_consumers",
    "C104_functions",
    "C104_which_refuted",
    "C104_supplier_refuted",
    "C104_linked_refuted"
   ],
   "note": "Lines hold values, not the formatted text. Findings: the lines about hard links do not name the product, lines about inputs name the product twice and never the supplying activity, and consumers with markets without volume are told to be linked although nothing changes."
  },
  {
   "property": "C105",
   "status": "proved",
   "theorems": [
    "C105_allocation",
    "C105_recalculate",
    "C105_extraction",
    "C105_run",
    "C105_passes",
    "C105_copies",
    "C105_untouched",
    "C105_changes",
    "C105_argument_refuted",
    "C105_sharing"
   ],
   "note": "Objects are datasets and exchanges; what is inside an exchange belongs to it. Recalculation reads all before it writes. Finding: recycling_allocation changes the dataset it is given."
  },
  {
   "property": "C106",
   "status": "proved",
   "theorems": [
    "C106_linking",
    "C106_run",
    "C106_sharing"
   ],
   "note": "Objects are datasets and exchanges. The exchanges in the list of suppliers belong to the dataset."
  },
  {
   "property": "C107",
   "status": "proved",
   "theorems": [
    "C107_hard_links",
    "C107_codes",
    "C107_recycled",
    "C107_run",
    "C107_sharing"
   ],
   "note": "Objects are datasets and exchanges; a production volume belongs to its exchange."
  },
  {
   "property": "C108",
   "status": "proved",
   "theorems": [
    "C108_transparent",
    "C108_local",
    "C108_bounded",
    "C108_same_object",
    "C108_code",
    "C108_choice",
    "C108_change",
    "C108_stale",
    "C108_set"
   ],
   "note": "The wrapper of the standard library is modelled from its documentation and source; threads are not modelled. Elements of tuples compare by value, instances of Topology by identity."
  },
  {
   "property": "C109",
   "status": "proved",
   "theorems": [
    "C109_suppliers",
    "C109_recycled",
    "C109_volumes",
    "C109_inputs",
    "C109_run",
    "C109_sharing"
   ],
   "note": "Objects are datasets and exchanges; the list of suppliers belongs to its dataset. The volumes of market groups are in C110."
  },
  {
   "property": "C110",
   "status": "proved",
   "theorems": [
    "C110_groups",
    "C110_run",
    "C110_exceptions"
   ],
   "note": "Objects are datasets and exchanges; the list of suppliers belongs to its dataset. C110_exceptions shows that the exception may be another one than that of the function on values, on which C34 is stated; C34 is about successful runs."
  },
  {
   "property": "C111",
   "status": "proved",
   "theorems": [
    "C111_groups",
    "C111_run"
   ],
   "note": "Objects are datasets and exchanges; the list of suppliers belongs to its dataset. Of several groups at one location the last one is treated at its own place, in Python at that of the first; only the exception raised first can depend on it."
  },
  {
   "property": "C112",
   "status": "proved",
   "theorems": [
    "C112_delete",
    "C112_run"
   ],
   "note": "From newly made objects; C113 adds the steps before and after in the collection."
  },
  {
   "property": "C113",
   "status": "proved",
   "theorems": [
    "C113_relabel",
    "C113_codes",
    "C113_before",
    "C113_run"
   ],
   "note": "From newly made objects; for the collection as a whole it is not shown that both sides have the same exception."
  },
  {
   "property": "C114",
   "status": "proved",
   "theorems": [
    "C114_suppliers",
    "C114_run"
   ],
   "note": "From newly made objects; for the collection as a whole it is not shown that both sides have the same exception. The list of suppliers is a value in its dataset."
  },
  {
   "property": "C115",
   "status": "proved",
   "theorems": [
    "C115_steps",
    "C115_run",
    "C115_model"
   ],
   "note": "From newly made objects of the prepared datasets; the steps before allocation are only modelled on values. For the steps together it is not shown that both sides have the same exception. Not tested against wrong programs."
  }
 ]
}
