(** Model of ocelot/configuration.py and of model.py lines 27-31, 104-108: the
    configurations as lists of functions for the runner.

    Collections are unwrapped when a collection is made (collection.py lines 14-23), so
    a configuration is a flat list.  Of each function the model has the name, whether it
    has a [__table__], and what it does with the data; docstring, contents of the table
    and messages are left open. *)
From stdpp Require Export gmap.
From Verif Require Import Base Types Uncertainty Utils Strings Recalculation Formulas Parameters Validation
  ActivityLinks Cutoff Topology Locations Consequential Pipeline Runner.

Record task := Task { t_name : string; t_table : bool; t_run : list dataset -> result (list dataset) }.
Definition pure (f : list dataset -> list dataset) (data : list dataset) : result (list dataset) := Ok (f data).

Section configuration.
Context (w : world).

(** validation.py lines 69-73, [validate_markets]. *)
Definition validate_markets_tasks : list task :=
  [Task "ensure_markets_only_have_one_reference_product" false ensure_markets_only_have_one_reference_product;
   Task "ensure_markets_dont_consume_their_ref_product" false ensure_markets_dont_consume_their_ref_product].
(** parameterization/__init__.py lines 19-29, [fix_ecoinvent_parameters]. *)
Definition fix_ecoinvent_parameters_tasks : list task :=
  [Task "fix_specific_ecoinvent_issues" true (pure fix_specific_ecoinvent_issues);
   Task "replace_implicit_references" true replace_implicit_references;
   Task "repair_all_uncertainty_distributions" false (repair_all_uncertainty_distributions (w_ln w) (w_euler w));
   Task "fix_known_bad_formula_strings" false fix_known_bad_formula_strings;
   Task "lowercase_all_parameters" false lowercase_all_parameters;
   Task "fix_math_formulas" true (fix_math_formulas (w_pyfloat w));
   Task "replace_reserved_words" true (replace_reserved_words (w_words w) (w_parses w));
   Task "delete_unparsable_formulas" true (delete_unparsable_formulas (w_parses w))].
(** transformations/__init__.py lines 28-33, [pv_cleanup]. *)
Definition pv_cleanup_tasks : list task :=
  [Task "ensure_production_exchanges_have_production_volume" false ensure_production_exchanges_have_production_volume;
   Task "add_pv_to_allocatable_byproducts" true add_pv_to_allocatable_byproducts;
   Task "create_pv_parameters" true (pure (imap (fun i ds => create_pv_parameters (w_fresh w i) ds)))].
(** configuration.py lines 47-55 and 105-110. *)
Definition common_tasks : list task :=
  [Task "ensure_ids_are_unique" false ensure_ids_are_unique;
   Task "copy_original_exchange_id" false copy_original_exchange_id;
   Task "variable_names_are_unique" false variable_names_are_unique] ++
  validate_markets_tasks ++ fix_ecoinvent_parameters_tasks ++ pv_cleanup_tasks.
(** cutoff/__init__.py lines 30-34, [cleanup_activity_links]. *)
Definition cleanup_activity_links_tasks : list task :=
  [Task "drop_rp_activity_links" true (pure drop_rp_activity_links);
   Task "drop_zero_amount_activity_links" true (pure drop_zero_amount_activity_links)].
(** activity_links.py lines 242-248, [manage_activity_links]. *)
Definition manage_activity_links_tasks : list task :=
  [Task "fix_35_activity_links" false (pure fix_35_activity_links);
   Task "check_activity_link_validity" false check_activity_link_validity;
   Task "add_hard_linked_production_volumes" false add_hard_linked_production_volumes;
   Task "update_transforming_activity_production_volumes" false update_transforming_activity_production_volumes].
(** cutoff/wastes.py lines 211-216, [handle_waste_outputs]. *)
Definition handle_waste_outputs_tasks : list task :=
  [Task "rename_recyclable_content_exchanges" false rename_recyclable_content_exchanges;
   Task "create_recycled_content_datasets" true create_recycled_content_datasets].
(** cutoff/allocation.py lines 148-160, 197-204, [cutoff_allocation]; a wrapper has
    the name and table of the function it wraps (wrapper.py lines 20-25). *)
Definition method_names : list (string * bool) :=
  [("no_allocation", false); ("no_allocation", false); ("economic_allocation", false);
   ("constrained_market_allocation", true); ("recycling_allocation", false);
   ("waste_treatment_allocation", false); ("combined_production_without_products", false);
   ("combined_production", true); ("combined_production_with_byproducts", false)]%string.
Definition cutoff_allocation_tasks : list task :=
  Task "label_allocation_method" true label_allocation_method ::
  zip_with (fun n lf => Task n.1 n.2 (wrapped lf.2 (allocation_filter lf.1)))
    method_names (allocation_functions (w_ln w) (w_recalc w)) ++
  [Task "delete_allocation_method" false (pure (map delete_allocation_method))].
(** locations/__init__.py lines 35-61, [link_markets_by_pv]; a partial function has
    the name and table of its function (utils.py lines 9-14). *)
Definition link_markets_by_pv_tasks : list task :=
  [Task "label_reference_product" false label_reference_product;
   Task "delete_whitelisted_zero_pv_market_datsets" true (pure delete_whitelisted_zero_pv_market_datsets);
   Task "assign_fake_pv_to_confidential_datasets" true assign_fake_pv_to_confidential_datasets;
   Task "correct_natural_gas_pipeline_location" false (pure correct_natural_gas_pipeline_location);
   Task "relabel_global_to_row" true relabel_global_to_row;
   Task "check_no_row_market_groups" false check_no_row_market_groups;
   Task "add_unique_codes" false (add_unique_codes (w_md5 w));
   Task "actualize_activity_links" true actualize_activity_links;
   Task "add_recycled_content_suppliers_to_markets" true
     (add_recycled_content_suppliers_to_markets (w_ord w) (w_topo w));
   Task "add_suppliers_to_markets" true (add_suppliers_to_markets (w_ord w) (w_topo w) Transforming MarketActivity);
   Task "update_market_production_volumes" true (update_market_production_volumes (w_topo w) MarketActivity);
   Task "delete_global_with_zero_pv_when_regional_present" true
     (delete_global_with_zero_pv_when_regional_present MarketActivity);
   Task "delete_global_with_zero_pv_when_regional_present" true
     (delete_global_with_zero_pv_when_regional_present Transforming);
   Task "allocate_all_market_suppliers" false (allocate_all_market_suppliers MarketActivity);
   Task "link_market_group_suppliers" true (link_market_group_suppliers (w_topo w));
   Task "update_market_production_volumes" true (update_market_production_volumes (w_topo w) MarketGroup);
   Task "allocate_all_market_suppliers" false (allocate_all_market_suppliers MarketGroup);
   Task "link_consumers_to_recycled_content_activities" true link_consumers_to_recycled_content_activities;
   Task "link_consumers_to_markets" true (link_consumers_to_markets (w_ln w) (w_topo w));
   Task "add_reference_product_codes" false add_reference_product_codes;
   Task "log_and_delete_unlinked_exchanges" true (pure log_and_delete_unlinked_exchanges)].
(** configuration.py lines 45-72, [cutoff_config]; lines 74-101,
    [cutoff_config_ecoinvent_row], have a linking collection with the same members. *)
Definition cutoff_tasks : list task :=
  common_tasks ++
  [Task "remove_consequential_exchanges" true (pure remove_consequential_exchanges)] ++
  cleanup_activity_links_tasks ++
  [Task "update_activity_link_parent_child" true update_activity_link_parent_child] ++
  manage_activity_links_tasks ++ handle_waste_outputs_tasks ++ cutoff_allocation_tasks ++
  [Task "drop_rp_activity_links" true (pure drop_rp_activity_links)] ++
  link_markets_by_pv_tasks ++
  [Task "rename_recycled_content_products_after_linking" true (pure rename_recycled_content_products_after_linking);
   Task "flip_non_allocatable_byproducts" true (mapR flip_non_allocatable_byproducts);
   Task "normalize_reference_production_amount" true (mapR (normalize_reference_production_amount (w_ln w)));
   Task "adjust_market_signs_for_allocatable_products" true (adjust_market_signs_for_allocatable_products (w_ln w))].

(** consequential/__init__.py lines 27-46, [link_markets_by_technology_level]. *)
Definition link_markets_by_technology_level_tasks : list task :=
  [Task "label_reference_product" false label_reference_product;
   Task "delete_whitelisted_zero_pv_market_datsets" true (pure delete_whitelisted_zero_pv_market_datsets);
   Task "assign_fake_pv_to_confidential_datasets" true assign_fake_pv_to_confidential_datasets;
   Task "relabel_global_to_row" true relabel_global_to_row;
   Task "add_unique_codes" false (add_unique_codes (w_md5 w));
   Task "actualize_activity_links" true actualize_activity_links;
   Task "add_suppliers_to_markets" true (add_suppliers_to_markets (w_ord w) (w_topo w) Transforming MarketActivity);
   Task "prune_suppliers_by_technology_level" false prune_suppliers_by_technology_level;
   Task "update_market_production_volumes" true (update_market_production_volumes (w_topo w) MarketActivity);
   Task "add_suppliers_to_markets" true (add_suppliers_to_markets (w_ord w) (w_topo w) MarketActivity MarketGroup);
   Task "update_market_production_volumes" true (update_market_production_volumes (w_topo w) MarketGroup);
   Task "allocate_all_market_suppliers" false (allocate_all_market_suppliers MarketActivity);
   Task "delete_suppliers_list" false (pure delete_suppliers_list);
   Task "link_consumers_to_markets" true (link_consumers_to_markets (w_ln w) (w_topo w));
   Task "log_and_delete_unlinked_exchanges" true (pure log_and_delete_unlinked_exchanges)].
(** configuration.py lines 103-121, [consequential_config]. *)
Definition consequential_tasks : list task :=
  common_tasks ++
  [Task "drop_zero_amount_activity_links" true (pure drop_zero_amount_activity_links);
   Task "combined_production" true (split_combined_production (w_recalc w));
   Task "delete_activity_links_to_constrained_markets" true delete_activity_links_to_constrained_markets;
   Task "handle_constrained_markets" true handle_constrained_markets;
   Task "ensure_byproducts_have_alternative_production" false ensure_byproducts_have_alternative_production] ++
  link_markets_by_technology_level_tasks ++
  [Task "normalize_reference_production_amount" true (mapR (normalize_reference_production_amount (w_ln w)))].
End configuration.

(** A function of a configuration with its docstring, table and messages. *)
Definition implements (f : func dataset) (t : task) : Prop :=
  f_name f = Some (t_name t) /\ bool_decide (is_Some (f_table f)) = t_table t /\
  forall data, fmapR fst (f_run f data) = t_run t data.

(** What is given as [config]. *)
Inductive choice := NoChoice | Named (name : string) | Given (config : item dataset).
(** model.py lines 27-31, 104-108; the configurations are those of configuration.py.
    [None] for any other text: unwrapping it (utils.py line 26) goes from each character
    to itself, until Python raises RecursionError. *)
Definition configuration (cutoff row consequential : item dataset) (c : choice) : option (item dataset) :=
  match c with
  | NoChoice => Some cutoff
  | Named n =>
      if bool_decide (n = ""%string) then Some cutoff
      else snd <$> List.find (fun x => (fst x =? n)%string)
        [("cutoff", cutoff); ("cutoff_ecoinvent_row", row); ("consequential", consequential)]%string
  | Given (Iterable _ []) => Some cutoff
  | Given config => Some config
  end.
