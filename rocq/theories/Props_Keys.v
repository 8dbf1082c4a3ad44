(** C100: a missing key is reported by its name, and it is the first one missing. *)
From Verif Require Import Base Types Utils Uncertainty Sampling ActivityLinks Consequential Cutoff Locations Parameters Brightway
  Tables Spec_Keys Keys_proofs.

(** ** Distributions *)
Theorem C100_scaling : forall ln e f, complains (scale_exchange ln e f) (if Qceqb f 1 then [] else scaling_reads f (e_view e)).
Proof.
  intros ln e f k. unfold scale_exchange, scale_obj. destruct (Qceqb f 1); [done|]. rewrite <- (rescale_keys ln (e_view e) f k).
  destruct (rescale ln (e_view e) f); cbn; split; congruence.
Qed.
Print Assumptions C100_scaling.
Theorem C100_repair : forall ln euler o, (exists v, get_pedigree_variance (default [] (o_ped o)) = Ok v) ->
  complains (repair ln euler o) (repair_reads o).
Proof. exact repair_keys. Qed.
Print Assumptions C100_repair.
Theorem C100_sampling : forall sqrt o, complains (to_stats_arrays sqrt o) (sampling_reads o).
Proof. exact sampled_keys. Qed.
Print Assumptions C100_sampling.
Theorem C100_ageing : forall end_year o year, only_complains (adjust_pedigree_matrix_time end_year o year)
  match o_ped o with None => [] | Some pm => [("temporal correlation"%string, has (assoc_get "temporal correlation" pm))] end.
Proof. exact age_keys. Qed.
Print Assumptions C100_ageing.
Theorem C100_recalculated : forall o, (exists v, get_pedigree_variance (default [] (o_ped o)) = Ok v) ->
  only_complains (lognormal_recalculate o) (uncertainty_reads o (fun u => [variance u])).
Proof. exact recalculate_keys. Qed.
Print Assumptions C100_recalculated.

Definition ex_triangular : uncert := set_u_type (Some UTriangular) (set_u_mode (Some 1%Qc) uncert0).
Definition ex_triangle : exchange := set_e_unc (Some ex_triangular) (set_e_amount 1%Qc exchange0).
(** Two keys are missing: scaling and sampling agree on the one they name. *)
Example ex_scaling : scale_exchange (fun x => x) ex_triangle (Qcint 2) = Err (KeyError "minimum") /\
  to_stats_arrays (fun x => x) (e_view ex_triangle) = Err (KeyError "minimum") /\
  first_missing (scaling_reads (Qcint 2) (e_view ex_triangle)) = Some "minimum"%string /\
  scale_exchange (fun x => x) ex_triangle 1%Qc = Ok ex_triangle.
Proof. split_and!; (by_compute || by vm_compute). Qed.

(** ** Exchanges *)
(** Every by-product is read, in order. *)
Theorem C100_outputs : forall ds, only_complains (allocatable_production ds) (concat (map class_reads (d_exchanges ds))).
Proof. exact outputs_keys. Qed.
Print Assumptions C100_outputs.
Theorem C100_flipped : forall ds, only_complains (flip_non_allocatable_byproducts ds) (concat (map class_reads (d_exchanges ds))).
Proof. exact flip_all_keys. Qed.
Print Assumptions C100_flipped.
Theorem C100_renamed : forall data, only_complains (rename_recyclable_content_exchanges data) (everywhere class_reads data).
Proof. exact rename_keys. Qed.
Print Assumptions C100_renamed.
Theorem C100_ids : forall data, only_complains (copy_original_exchange_id data) (everywhere id_reads data).
Proof. exact copy_ids_keys. Qed.
Print Assumptions C100_ids.
(** Merging reads the ids of the dataset that is added, then those of the other. *)
Theorem C100_merged : forall to from, only_complains (add_exchanges to from)
  (concat (map id_reads (d_exchanges from)) ++ concat (map id_reads (d_exchanges to))).
Proof. exact add_exchanges_keys. Qed.
Print Assumptions C100_merged.
Theorem C100_recycled : forall ds e, only_complains (create_new_recycled_content_dataset ds e) (id_reads e).
Proof. exact recycled_keys. Qed.
Print Assumptions C100_recycled.
(** Volumes of all outputs of transforming activities. *)
Theorem C100_subtracted : forall data, only_complains (update_transforming_activity_production_volumes data)
  (everywhere (fun e => class_reads e ++ if produces_output e then volume_reads e else [])
     (filterb (fun ds => bool_decide (d_type ds = Transforming)) data)).
Proof. exact subtract_all_keys. Qed.
Print Assumptions C100_subtracted.
Theorem C100_ratio : forall ds, complains (get_biggest_pv_to_exchange_ratio ds)
  (concat (map volume_reads (filterb (fun e => Qctruthy (e_amount e)) (reference_products ds)))).
Proof. exact ratio_keys. Qed.
Print Assumptions C100_ratio.
Theorem C100_byproduct_volume : forall scale e, only_complains (add_pv_to_byproduct scale e)
  (class_reads e ++ if bool_decide (e_type e = Byproduct) && bool_decide (e_class e = Some Allocatable) then volume_reads e else []).
Proof. exact byproduct_volume_keys. Qed.
Print Assumptions C100_byproduct_volume.
(** Looking for an id reads those before it and its own. *)
Theorem C100_search : forall A (id : A -> option string) uuid l i, only_complains (find_id id uuid i l)
  (map (fun x => ("id"%string, has (id x))) (take (S (default (length l) (fst <$> list_find (fun x => id x = Some uuid) l))) l)).
Proof. intros. apply find_keys. Qed.
Print Assumptions C100_search.
Theorem C100_brightway : forall database e, only_complains (translate_exchange database e)
  match e_type e with
  | RefProduct | Byproduct | FromTechnosphere => code_reads e
  | FromEnvironment | ToEnvironment => [("compartment"%string, has (e_compartment e)); ("subcompartment"%string, has (e_subcompartment e))]
  | DroppedProduct => [("dropped product"%string, false)]
  | EOther name => [(name, false)]
  end.
Proof. exact bw_exchange_keys. Qed.
Print Assumptions C100_brightway.

Definition ex_gas : exchange := set_e_type Byproduct (set_e_name "gas" exchange0).
Definition ex_slag : exchange := set_e_class (Some Waste) (set_e_type Byproduct (set_e_name "slag" exchange0)).
Definition ex_works : dataset := set_d_exchanges [ex_slag; ex_gas; ex_slag] dataset0.
Example ex_outputs : allocatable_production ex_works = Err (KeyError "byproduct classification") /\
  copy_original_exchange_id [ex_works] = Err (KeyError "id") /\
  flip_non_allocatable_byproducts (set_d_exchanges [ex_slag] dataset0) <> Err (KeyError "byproduct classification").
Proof. split_and!; (by_compute || by vm_compute). Qed.

(** ** Markets *)
Theorem C100_market : forall ds rp, get_single_reference_product ds = Ok rp -> only_complains (allocate_suppliers ds) (market_reads ds).
Proof. exact allocate_keys. Qed.
Print Assumptions C100_market.
Theorem C100_totals : forall ds rp, get_single_reference_product ds = Ok rp ->
  only_complains (update_volume ds) (total_reads ds rp) /\ only_complains (market_row ds) (total_reads ds rp).
Proof. intros ds rp H. split; [by apply update_keys|by apply market_row_keys]. Qed.
Print Assumptions C100_totals.
Theorem C100_propagated : forall ds pv other, other <> ds -> only_complains (propagate ds pv other)
  (("suppliers"%string, has (d_suppliers other)) ::
   match d_suppliers other with
   | None | Some [] => []
   | Some l => concat (map code_reads l) ++ [("code"%string, has (d_code ds))]
   end).
Proof.
  intros ds pv other Hne. destruct (d_suppliers other) as [[|s l]|] eqn:E.
  - unfold propagate. rewrite bool_decide_eq_false_2 by done. rewrite E. cbn. by eexists.
  - exact (propagate_keys ds pv other (s :: l) Hne E ltac:(done)).
  - exact (propagate_missing ds pv other Hne E).
Qed.
Print Assumptions C100_propagated.
Theorem C100_levels : forall suppliers levels, levels <> [] -> only_complains (best_level suppliers levels)
  (map (fun s => ("technology level"%string, has (e_tech s))) suppliers).
Proof. exact best_level_keys. Qed.
Print Assumptions C100_levels.
Theorem C100_labels : forall label ds, only_complains (allocation_filter label ds) [("allocation method"%string, has (d_alloc ds))].
Proof. exact label_keys. Qed.
Print Assumptions C100_labels.
Theorem C100_classified : forall ln ds rp, get_single_reference_product ds = Ok rp -> e_class rp = None ->
  handle_split_dataset ln ds = Err (KeyError "byproduct classification") /\
  (d_type ds = MarketActivity -> adjust_market_sign ln ds = Err (KeyError "byproduct classification")).
Proof. intros ln ds rp H E. split; [by eapply split_missing|]. intros Ht. by eapply sign_missing. Qed.
Print Assumptions C100_classified.
(** Links of constrained markets: none, or to a dataset that is not there. *)
Theorem C100_links : forall data, only_complains (delete_activity_links_to_constrained_markets data)
  (everywhere (fun e => if cond_truthy e then [("activity link"%string, has (e_link e))] else []) data).
Proof. exact delete_links_keys. Qed.
Print Assumptions C100_links.
Theorem C100_constrained : forall data p exc, exchange_at p.1 p.2 data = Some exc ->
  (e_link exc = None -> handle_constrained_exchange data p = Err (KeyError "activity link")) /\
  (forall link, e_link exc = Some link -> position_of_id data link = None -> handle_constrained_exchange data p = Err (KeyError link)).
Proof. exact link_missing. Qed.
Print Assumptions C100_constrained.
(** Suppliers without a code cannot be linked to. *)
Theorem C100_codes : forall ln exc ds,
  only_complains (decide_input ln exc [ds]) [("code"%string, has (d_code ds))] /\
  (forall producers rp, unlinked exc = true -> filterb (fun p => (p.1 =? e_name exc)%string) producers = [(rp, ds)] ->
     only_complains (link_rc producers exc) [("code"%string, has (d_code ds))]) /\
  (forall data i, e_link exc = Some i -> i <> ""%string -> filterb (fun ds => (d_id ds =? i)%string) data = [ds] ->
     d_refprod ds = Some (e_name exc) -> d_code ds = None -> actualize_link data exc = Err (KeyError "code")).
Proof.
  intros ln exc ds. split; [apply decide_one_keys|]. split.
  - intros producers rp Hu Hf. by apply (recycled_code_missing producers exc (rp, ds)).
  - intros data i H1 H2 H3 H4 H5. by eapply actualize_missing.
Qed.
Print Assumptions C100_codes.

Definition ex_supplier (v : option Qc) (code : option string) : exchange :=
  set_e_code code (set_e_pv (option_map (fun v => set_v_amount v pvol0) v) exchange0).
Definition ex_market (l : list exchange) : dataset :=
  set_d_suppliers (Some l) (set_d_exchanges [set_e_type RefProduct (set_e_amount 1%Qc exchange0)] dataset0).
(** A supplier without volume may be without a code. *)
Example ex_market_keys :
  allocate_suppliers (ex_market [ex_supplier (Some 1%Qc) None; ex_supplier None None]) = Err (KeyError "production volume") /\
  allocate_suppliers (ex_market [ex_supplier (Some 1%Qc) (Some "a"%string); ex_supplier (Some 2%Qc) None]) = Err (KeyError "code") /\
  first_missing (market_reads (ex_market [ex_supplier (Some 1%Qc) (Some "a"%string); ex_supplier (Some 0%Qc) None])) = None /\
  allocate_suppliers (set_d_suppliers None (ex_market [])) = Err (KeyError "suppliers").
Proof. split_and!; (by_compute || by vm_compute). Qed.
