(** C86-C89: the tables of the report. *)
From Verif Require Import Base Types Utils Spec_Utils Uncertainty Strings Cutoff Locations ActivityLinks Consequential Parameters
  Topology Tables Spec_Tables Tables_proofs.

(** ** C86: what was changed *)
Theorem C86_zero_links : forall data,
  zero_link_rows data = altered (fun ds e _ => [Txt (d_name ds); Txt (e_name e)]) data (drop_zero_amount_activity_links data).
Proof. exact zero_links. Qed.
Print Assumptions C86_zero_links.

Theorem C86_product_links : forall data,
  product_link_rows data = altered (fun ds e _ => [Txt (d_name ds); Txt (e_name e)]) data (drop_rp_activity_links data).
Proof. exact product_links. Qed.
Print Assumptions C86_product_links.

Theorem C86_conditional : forall ds,
  conditional_rows ds = altered_in (fun ds e _ => [Txt (d_name ds); Txt (e_name e)]) ds (constrained_market_allocation ds).
Proof. exact conditional_altered. Qed.
Print Assumptions C86_conditional.

Theorem C86_flipped : forall data data', mapR flip_non_allocatable_byproducts data = Ok data' ->
  flip_rows data = altered (fun ds e _ => [Txt (d_name ds); Txt (e_name e); Class (default Allocatable (e_class e))]) data data'.
Proof. exact flip_altered. Qed.
Print Assumptions C86_flipped.

(** The new names of exchanges and of reference products. *)
Theorem C86_renamed : forall data, renamed_rows data =
  concat (zip_with (fun ds ds' =>
    altered_in (fun ds _ e' => [Txt (d_name ds); Txt (e_name e'); Kind (e_type e'); Txt (d_location ds)]) ds ds' ++
    (if decide (d_refprod ds = d_refprod ds') then []
     else [[Txt (d_name ds); Txt (default "" (d_refprod ds')); Txt "RP label"; Txt (d_location ds)]])%string)
    data (rename_recycled_content_products_after_linking data)).
Proof. exact renamed_altered. Qed.
Print Assumptions C86_renamed.

(** No dataset is its own parent. *)
Theorem C86_children : forall data data', update_activity_link_parent_child data = Ok data' ->
  Forall (fun ds => d_parent ds <> Some (d_id ds)) data ->
  child_rows data = altered (fun ds e _ => [Txt (d_name ds); Txt (d_location ds); Num (e_amount e)]) data data'.
Proof. exact child_altered. Qed.
Print Assumptions C86_children.

Theorem C86_recycled_links : forall data data' rows, link_consumers_to_recycled_content_activities data = Ok data' ->
  recycled_link_rows data = Ok rows -> Forall (fun ds => d_code ds <> Some ""%string) data ->
  map (fun r => take 3 r) rows = altered (fun ds e _ => [Txt (d_name ds); Txt (e_name e); Txt (d_location ds)]) data data'.
Proof. exact recycled_link_altered. Qed.
Print Assumptions C86_recycled_links.

(** The rows are the allocatable by-products that had no volume, with the volume they have
    now; nothing else is changed. *)
Theorem C86_volumes : forall data data', add_pv_to_allocatable_byproducts data = Ok data' ->
  volume_rows data = concat (zip_with (fun ds ds' =>
    map (fun p => [Txt (d_name ds); Txt (e_name p.1); Num (default 0%Qc (option_map v_amount (e_pv p.2)))])
      (filter (fun p => e_type p.1 = Byproduct /\ e_class p.1 = Some Allocatable /\ option_map v_amount (e_pv p.1) = Some 0%Qc)
         (zip (d_exchanges ds) (d_exchanges ds')))) data data') /\
  altered (fun ds e e' => [Txt (d_name ds); Txt (e_name e); Num (default 0%Qc (option_map v_amount (e_pv e')))]) data data'
    `sublist_of` volume_rows data.
Proof. exact volume_altered. Qed.
Print Assumptions C86_volumes.

Theorem C86_confidential : forall data data', assign_fake_pv_to_confidential_datasets data = Ok data' ->
  Forall (fun ds => d_name ds ∈ confidential_names -> production_volume ds <> Some 1%Qc) data ->
  fake_rows data = altered_datasets (fun _ d' =>
    [Txt (d_name d'); Txt (reference_products_as_string d'); Num (default 0%Qc (production_volume d'))]) data data'.
Proof. exact fake_altered. Qed.
Print Assumptions C86_confidential.

(** The factor is the product after over the product before. *)
Theorem C86_factors : forall ln data data', mapR (normalize_reference_production_amount ln) data = Ok data' ->
  factor_rows data = altered_datasets (fun d d' =>
    [Txt (d_name d); Txt (reference_products_as_string d); Num (product_amount d' / product_amount d)%Qc]) data data'.
Proof. exact factor_altered. Qed.
Print Assumptions C86_factors.

Theorem C86_signs : forall ln data data', adjust_market_signs_for_allocatable_products ln data = Ok data' ->
  Forall (fun ds => d_type ds = MarketActivity -> product_amount ds <> 0%Qc) data ->
  sign_rows data = altered_datasets (fun d _ => [Txt (d_name d); Txt (d_location d)]) data data'.
Proof. exact sign_altered. Qed.
Print Assumptions C86_signs.

Theorem C86_relabelled : forall data data' rows, relabel_global_to_row data = Ok data' -> relabelled_rows data = Ok rows ->
  Permutation (map (fun r => take 1 r) rows)
    (map (fun p => [Txt (d_name p.1)]) (filter (fun p => d_location p.1 <> d_location p.2) (zip data data'))).
Proof. exact relabelled_altered. Qed.
Print Assumptions C86_relabelled.

(** The producer in the fourth cell, and the products in the second. *)
Theorem C86_producers : forall data rows, recycled_link_rows data = Ok rows ->
  forall r, r ∈ rows -> exists ds e p, ds ∈ data /\ e ∈ d_exchanges ds /\ p ∈ data /\
    d_type p = Transforming /\ d_refprod p = Some (e_name e) /\
    r = [Txt (d_name ds); Txt (e_name e); Txt (d_location ds); Txt (d_name p)].
Proof. exact recycled_producers. Qed.
Print Assumptions C86_producers.

Theorem C86_relabelled_products : forall data rows, relabelled_rows data = Ok rows ->
  forall r, r ∈ rows -> exists ds prods names, ds ∈ data /\ d_location ds = "GLO"%string /\
    allocatable_production ds = Ok prods /\ StronglySorted (fun a b => str_leb a b = true) names /\
    Permutation names (map e_name (filter (fun e => e_amount e <> 0%Qc) prods)) /\
    r = [Txt (d_name ds); Txt (String.concat "; " names)].
Proof. exact relabelled_products. Qed.
Print Assumptions C86_relabelled_products.

(** ** C87: what is gone and what is new *)
Theorem C87_consequential : forall data, let mk := fun ds e => [Txt (d_name ds); Txt (e_name e); Num (e_amount e)] in
  Permutation (listing mk data) (consequential_rows data ++ listing mk (remove_consequential_exchanges data)).
Proof. exact consequential_gone. Qed.
Print Assumptions C87_consequential.

Theorem C87_refinery : forall data, refinery_rows data = altered_datasets (fun d d' =>
    [Txt (d_name d); Txt (d_location d); count_cell (List.length (d_exchanges d)); count_cell (List.length (d_exchanges d'))])
  data (fix_specific_ecoinvent_issues data).
Proof. exact refinery_altered. Qed.
Print Assumptions C87_refinery.

Theorem C87_dropped : forall data, let mk := fun ds => [Txt (d_name ds); Txt (reference_products_as_string ds)] in
  Permutation (map mk data) (dropped_rows data ++ map mk (drop_zero_pv_row_datasets data)).
Proof. exact dropped_gone. Qed.
Print Assumptions C87_dropped.

Theorem C87_whitelisted : forall data, let mk := fun ds => [Txt (d_name ds); Txt (default ""%string (d_refprod ds))] in
  Permutation (map mk data) (whitelisted_rows data ++ map mk (delete_whitelisted_zero_pv_market_datsets data)).
Proof. exact whitelisted_gone. Qed.
Print Assumptions C87_whitelisted.

Theorem C87_idle : forall kind data data' rows, delete_global_with_zero_pv_when_regional_present kind data = Ok data' ->
  idle_rows kind data = Ok rows ->
  forall r, r ∈ rows <-> exists ds, ds ∈ data /\ ds ∉ data' /\ r = [Txt (d_name ds); Txt (default ""%string (d_refprod ds)); Txt (d_location ds)].
Proof. exact idle_gone. Qed.
Print Assumptions C87_idle.

Theorem C87_recycled : forall data data' rows, create_recycled_content_datasets data = Ok data' -> recycled_rows data = Ok rows ->
  map (fun ds => [Txt (d_name ds)]) data' = map (fun ds => [Txt (d_name ds)]) data ++ rows.
Proof. exact recycled_new. Qed.
Print Assumptions C87_recycled.

Theorem C87_parameters : forall fresh ds, exists new, d_params (create_pv_parameters fresh ds) = d_params ds ++ new /\
  parameter_rows ds = map (fun q => [Txt (d_name ds); Txt (default ""%string (q_name q)); Num (q_amount q)]) new.
Proof. exact parameter_new. Qed.
Print Assumptions C87_parameters.

(** Links without a code afterwards. *)
Theorem C87_unresolved : forall data data', actualize_activity_links data = Ok data' ->
  Forall (fun ds => Forall (fun e => e_code e = None) (d_exchanges ds)) data ->
  unresolved_rows data = concat (zip_with (fun ds ds' =>
    map (fun p => [Txt (default ""%string (e_link p.1)); Txt (e_name p.1); Num (e_amount p.1)])
      (filter (fun p => e_link p.1 <> None /\ e_link p.1 <> Some ""%string /\ e_code p.2 = None)
         (zip (d_exchanges ds) (d_exchanges ds')))) data data').
Proof. exact unresolved_altered. Qed.
Print Assumptions C87_unresolved.

(** ** C88: what the numbers say *)
Theorem C88_methods : forall data rows, method_rows data = Ok rows ->
  exists counts, rows = zip_with (fun l n => [Txt l; count_cell n]) method_labels counts /\ sum_list counts = List.length data.
Proof. exact method_counts. Qed.
Print Assumptions C88_methods.

Theorem C88_markets : forall t data data' rows, update_market_production_volumes t MarketActivity data = Ok data' ->
  market_rows data = Ok rows ->
  Forall2 (fun ds r => exists rp v suppliers, filter is_refproduct (d_exchanges ds) = [rp] /\ e_pv rp = Some v /\
      d_suppliers ds = Some suppliers /\
      r = [Txt (d_name ds); Txt (e_name rp); Txt (d_location ds); Num (default 0%Qc (v_original_total v));
           Num (Qcsum (map (fun v => default 0%Qc (v_subtracted v)) (omap e_pv suppliers)));
           Num (default 0%Qc (v_subtracted v)); Num (v_amount v)])
    (filter (fun ds => d_type ds = MarketActivity) data') rows.
Proof. exact market_altered. Qed.
Print Assumptions C88_markets.

(** No supplier has lost more than it makes. *)
Theorem C88_markets_add_up : forall t data data' rows r, update_market_production_volumes t MarketActivity data = Ok data' ->
  market_rows data = Ok rows -> r ∈ rows ->
  Forall (fun ds => Forall (fun s => forall v, e_pv s = Some v ->
      default (v_amount v) (v_original v) = v_amount v + default 0 (v_subtracted v))%Qc (default [] (d_suppliers ds))) data ->
  exists name product location (original inputs market net : Qc),
    r = [name; product; location; Num original; Num inputs; Num market; Num net] /\
    (net = original - inputs - market \/ (original - inputs - market < 0 /\ net = 0))%Qc.
Proof. exact market_adds_up. Qed.
Print Assumptions C88_markets_add_up.

(** ** C89: rows and columns *)
Theorem C89_fit : forall data,
  fits "drop_zero_amount_activity_links" (zero_link_rows data) /\
  fits "drop_rp_activity_links" (product_link_rows data) /\
  fits "remove_consequential_exchanges" (consequential_rows data) /\
  Forall (fun ds => fits "constrained_market_allocation" (conditional_rows ds)) data /\
  fits "adjust_market_signs_for_allocatable_products" (sign_rows data) /\
  fits "rename_recycled_content_products_after_linking" (renamed_rows data) /\
  (forall rows, recycled_rows data = Ok rows -> fits "create_recycled_content_datasets" rows) /\
  fits "flip_non_allocatable_byproducts" (flip_rows data) /\
  fits "update_activity_link_parent_child" (child_rows data) /\
  fits "add_pv_to_allocatable_byproducts" (volume_rows data) /\
  Forall (fun ds => fits "create_pv_parameters" (parameter_rows ds)) data /\
  fits "fix_specific_ecoinvent_issues" (refinery_rows data) /\
  (forall rows, relabelled_rows data = Ok rows -> fits "relabel_global_to_row" rows) /\
  fits "drop_zero_pv_row_datasets" (dropped_rows data) /\
  (forall rows, market_rows data = Ok rows -> fits "update_market_production_volumes" rows) /\
  fits "delete_whitelisted_zero_pv_market_datsets" (whitelisted_rows data) /\
  fits "assign_fake_pv_to_confidential_datasets" (fake_rows data) /\
  (forall kind rows, idle_rows kind data = Ok rows -> fits "delete_global_with_zero_pv_when_regional_present" rows) /\
  fits "actualize_activity_links" (unresolved_rows data) /\
  (forall rows, recycled_link_rows data = Ok rows -> fits "link_consumers_to_recycled_content_activities" rows) /\
  fits "log_and_delete_unlinked_exchanges" (unlinked_rows data) /\
  fits "normalize_reference_production_amount" (factor_rows data) /\
  (forall rows, method_rows data = Ok rows -> fits "label_allocation_method" rows).
Proof. exact rows_fit. Qed.
Print Assumptions C89_fit.

(** ** Examples and refutations *)
Definition ex_link (id : string) (e : exchange) : exchange := set_e_link (Some id) e.
Definition ex_exc (name : string) (t : etype) (a : Qc) : exchange := set_e_name name (set_e_type t (set_e_amount a exchange0)).
Definition ex_ds (name : string) (es : list exchange) : dataset :=
  set_d_id name (set_d_name name (set_d_location "GLO" (set_d_type Transforming (set_d_exchanges es dataset0)))).
Definition ex_vol (q : Qc) (e : exchange) : exchange := set_e_pv (Some (set_v_amount q pvol0)) e.

(** A smelter: copper, gold, slag, waste heat with a link of amount zero. *)
Definition ex_smelter : dataset := set_d_parent (Some "old smelter"%string) (ex_ds "smelter"
  [ex_link "market" (ex_vol (Qcint 100) (ex_exc "copper" RefProduct (Qcint 2)));
   ex_vol 0%Qc (set_e_class (Some Allocatable) (ex_exc "gold" Byproduct 1%Qc));
   set_e_class (Some Recyclable) (set_e_id (Some "s"%string) (ex_exc "slag, Recycled Content cut-off" Byproduct (Qcint 3)));
   ex_link "heat" (ex_exc "heat" FromTechnosphere 0%Qc);
   ex_link "old smelter" (ex_exc "ore" FromTechnosphere (Qcint 7))]).
Example ex_zero_links : zero_link_rows [ex_smelter] = [[Txt "smelter"; Txt "heat"]].
Proof. by_compute. Qed.
Example ex_product_links : product_link_rows [ex_smelter] = [[Txt "smelter"; Txt "copper"]].
Proof. by_compute. Qed.
Example ex_flipped : flip_rows [ex_smelter] = [[Txt "smelter"; Txt "slag, Recycled Content cut-off"; Class Recyclable]] /\
  fmapR (map (fun d => List.length (d_exchanges d))) (mapR flip_non_allocatable_byproducts [ex_smelter]) = Ok [5%nat].
Proof. split; by_compute. Qed.
Example ex_renamed : renamed_rows [set_d_refprod (Some "copper"%string) ex_smelter] =
  [[Txt "smelter"; Txt "slag"; Kind Byproduct; Txt "GLO"]].
Proof. by_compute. Qed.
Example ex_children : child_rows [ex_smelter] = [[Txt "smelter"; Txt "GLO"; Num (Qcint 7)]] /\
  fmapR (map (fun d => map e_link (d_exchanges d))) (update_activity_link_parent_child [ex_smelter]) =
    Ok [[Some "market"; None; None; Some "heat"; Some "smelter"]]%string /\
  Forall (fun ds => d_parent ds <> Some (d_id ds)) [ex_smelter].
Proof. split; [by_compute|]. split; [by_compute|]. by repeat constructor. Qed.
Example ex_volumes : volume_rows [ex_smelter] = [[Txt "smelter"; Txt "gold"; Num (Qcint 50)]] /\
  fmapR (map (fun d => map (fun e => option_map v_amount (e_pv e)) (d_exchanges d))) (add_pv_to_allocatable_byproducts [ex_smelter]) =
    Ok [[Some (Qcint 100); Some (Qcint 50); None; None; None]].
Proof. split; by_compute. Qed.
Example ex_factors : factor_rows [ex_smelter] = [[Txt "smelter"; Txt "copper"; Num (frac 1 2)]] /\
  fmapR (map (fun d => map e_amount (d_exchanges d))) (mapR (normalize_reference_production_amount (fun q => q)) [ex_smelter]) =
    Ok [[1; frac 1 2; frac 3 2; 0; frac 7 2]]%Qc.
Proof. split; by_compute. Qed.
Definition ex_conditional : dataset := ex_ds "market for straw"
  [ex_exc "straw" RefProduct 1%Qc; set_e_cond (Some true) (ex_exc "bales" Byproduct 1%Qc)].
Example ex_conditional_rows : conditional_rows ex_conditional = [[Txt "market for straw"; Txt "bales"]].
Proof. by_compute. Qed.

(** Links to recycled content. *)
Definition ex_rc : dataset := set_d_code (Some "c1"%string) (set_d_refprod (Some "slag, Recycled Content cut-off"%string)
  (ex_ds "slag, Recycled Content cut-off" [ex_exc "slag, Recycled Content cut-off" RefProduct 1%Qc])).
Definition ex_user : dataset := set_d_code (Some "c2"%string) (set_d_refprod (Some "cement"%string)
  (ex_ds "cement production" [ex_exc "cement" RefProduct 1%Qc; ex_exc "slag, Recycled Content cut-off" FromTechnosphere 1%Qc])).
Example ex_recycled_links :
  recycled_link_rows [ex_rc; ex_user] = Ok [[Txt "cement production"; Txt "slag, Recycled Content cut-off"; Txt "GLO"; Txt "slag, Recycled Content cut-off"]] /\
  fmapR (map (fun d => map e_code (d_exchanges d))) (link_consumers_to_recycled_content_activities [ex_rc; ex_user]) =
    Ok [[None]; [None; Some "c1"]]%string /\ Forall (fun ds => d_code ds <> Some ""%string) [ex_rc; ex_user].
Proof. split; [by_compute|]. split; [by_compute|]. by repeat constructor. Qed.

(** Confidential data, signs and the rest of the world. *)
Definition ex_latex : dataset := ex_ds "latex production" [ex_vol 0%Qc (ex_exc "latex" RefProduct 1%Qc)].
Example ex_confidential : fake_rows [ex_latex; ex_smelter] = [[Txt "latex production"; Txt "latex"; Num 1%Qc]] /\
  fmapR (map production_volume) (assign_fake_pv_to_confidential_datasets [ex_latex; ex_smelter]) = Ok [Some 1%Qc; Some (Qcint 100)] /\
  Forall (fun ds => d_name ds ∈ confidential_names -> production_volume ds <> Some 1%Qc) [ex_latex; ex_smelter].
Proof.
  split; [by_compute|]. split; [by_compute|]. constructor; [|constructor; [|constructor]]; intros _; by_compute.
Qed.
Definition ex_negative : dataset := set_d_type MarketActivity (ex_ds "market for ash"
  [set_e_class (Some Recyclable) (ex_exc "ash" RefProduct (- (1))%Qc); ex_exc "ash" FromTechnosphere (- (1))%Qc]).
Example ex_signs : sign_rows [ex_negative] = [[Txt "market for ash"; Txt "GLO"]] /\
  fmapR (map (fun d => map e_amount (d_exchanges d))) (adjust_market_signs_for_allocatable_products (fun q => q) [ex_negative]) = Ok [[1; 1]]%Qc /\
  product_amount ex_negative <> 0%Qc.
Proof. split; [by_compute|]. split; [by_compute|]. by_compute. Qed.
Definition ex_brick (location : string) : dataset := set_d_location location (ex_ds "brick production" [ex_vol (Qcint 5) (ex_exc "brick" RefProduct 1%Qc)]).
Example ex_relabelled : relabelled_rows [ex_brick "CH"; ex_brick "GLO"; ex_latex] = Ok [[Txt "brick production"; Txt "brick"]] /\
  fmapR (map d_location) (relabel_global_to_row [ex_brick "CH"; ex_brick "GLO"; ex_latex]) = Ok ["CH"; "RoW"; "GLO"]%string.
Proof. split; by_compute. Qed.

(** A row is written though nothing changes: the dataset is its own parent. *)
Theorem C86_children_refuted : exists data, update_activity_link_parent_child data = Ok data /\ child_rows data <> [].
Proof.
  exists [set_d_parent (Some "loop"%string) (ex_ds "loop" [ex_link "loop" (ex_exc "x" FromTechnosphere 1%Qc)])].
  split; by_compute.
Qed.
Print Assumptions C86_children_refuted.
(** Likewise if the by-product has amount zero, ... *)
Theorem C86_volumes_refuted : exists data, add_pv_to_allocatable_byproducts data = Ok data /\ volume_rows data <> [].
Proof.
  exists [ex_ds "mill" [ex_vol 1%Qc (ex_exc "flour" RefProduct 1%Qc); ex_vol 0%Qc (set_e_class (Some Allocatable) (ex_exc "bran" Byproduct 0%Qc))]].
  split; by_compute.
Qed.
Print Assumptions C86_volumes_refuted.
(** ... if the market has no amounts, ... *)
Theorem C86_signs_refuted : exists data, adjust_market_signs_for_allocatable_products (fun q => q) data = Ok data /\ sign_rows data <> [].
Proof.
  exists [set_d_type MarketActivity (ex_ds "market for ash" [set_e_class (Some Recyclable) (ex_exc "ash" RefProduct 0%Qc)])].
  split; by_compute.
Qed.
Print Assumptions C86_signs_refuted.
(** ... or the confidential volume is one already. *)
Theorem C86_confidential_refuted : exists data, assign_fake_pv_to_confidential_datasets data = Ok data /\ fake_rows data <> [].
Proof.
  exists [ex_ds "latex production" [ex_vol 1%Qc (ex_exc "latex" RefProduct 1%Qc)]].
  split; by_compute.
Qed.
Print Assumptions C86_confidential_refuted.
(** In the consequential system model data are changed without any row in the report. *)
Theorem C86_technology_refuted : exists data, switch_undefined_to_current data <> data /\ fits "switch_undefined_to_current" [] /\ switch_rows data <> [].
Proof.
  exists [set_d_tech "undefined" ex_latex]. split; [by_compute|]. split; [|by_compute]. eexists. split; [|constructor].
  apply elem_of_list_In. vm_compute. do 23 right. left. reflexivity.
Qed.
Print Assumptions C86_technology_refuted.

Definition ex_marked_exc : exchange := set_e_props [mkProp "p" "consequential" 1%Qc "" None None None]%string (ex_exc "straw" FromTechnosphere (Qcint 4)).
Example ex_consequential : consequential_rows [ex_ds "farm" [ex_exc "wheat" RefProduct 1%Qc; ex_marked_exc]] = [[Txt "farm"; Txt "straw"; Num (Qcint 4)]].
Proof. by_compute. Qed.
Definition ex_refinery : dataset := ex_ds "petroleum refinery operation" [ex_exc "petrol" RefProduct 1%Qc; ex_exc "refinery gas" Byproduct 0%Qc].
Example ex_refinery_rows : refinery_rows [ex_refinery; ex_latex] =
  [[Txt "petroleum refinery operation"; Txt "GLO"; Num (Qcint 2); Num 1%Qc]].
Proof. by_compute. Qed.
Definition ex_idle : dataset := set_d_refprod (Some "brick"%string) (set_d_type MarketActivity (set_d_location "RoW" (ex_ds "market for brick" [ex_vol 0%Qc (ex_exc "brick" RefProduct 1%Qc)]))).
Definition ex_busy : dataset := set_d_location "CH" (set_d_exchanges [ex_vol 1%Qc (ex_exc "brick" RefProduct 1%Qc)] ex_idle).
Example ex_dropped : dropped_rows [ex_idle; ex_busy] = [[Txt "market for brick"; Txt "brick"]] /\ drop_zero_pv_row_datasets [ex_idle; ex_busy] = [ex_busy].
Proof. split; by_compute. Qed.
Example ex_idle_rows : idle_rows MarketActivity [ex_idle; ex_busy] = Ok [[Txt "market for brick"; Txt "brick"; Txt "RoW"]] /\
  delete_global_with_zero_pv_when_regional_present MarketActivity [ex_idle; ex_busy] = Ok [ex_busy].
Proof. split; by_compute. Qed.
Definition ex_pump : dataset := set_d_name "market for heat, diffusion absorption heat pump" (set_d_location "GLO" ex_busy).
Example ex_whitelisted : whitelisted_rows [ex_pump; ex_busy] = [[Txt "market for heat, diffusion absorption heat pump"; Txt "brick"]] /\
  delete_whitelisted_zero_pv_market_datsets [ex_pump; ex_busy] = [ex_busy].
Proof. split; by_compute. Qed.
Example ex_recycled : recycled_rows [ex_smelter] = Ok [[Txt "slag, Recycled Content cut-off"]] /\
  fmapR (map d_name) (create_recycled_content_datasets [ex_smelter]) = Ok ["smelter"; "slag, Recycled Content cut-off"]%string.
Proof. split; by_compute. Qed.
Example ex_parameters : parameter_rows (ex_ds "farm" [set_e_pv (Some (set_v_variable (Some "pv"%string) (set_v_amount (Qcint 9) pvol0))) (ex_exc "wheat" RefProduct 1%Qc)]) =
  [[Txt "farm"; Txt "Shifted PV parameter: pv"; Num (Qcint 9)]].
Proof. by_compute. Qed.
Definition ex_linked : list dataset := [set_d_code (Some "c3"%string) (set_d_refprod (Some "heat"%string) (ex_ds "heat" []));
  set_d_refprod (Some "y"%string) (ex_ds "y" [ex_link "heat" (ex_exc "heat" FromTechnosphere 1%Qc); ex_link "heat" (ex_exc "steam" FromTechnosphere (Qcint 2))])].
Example ex_unresolved : unresolved_rows ex_linked = [[Txt "heat"; Txt "steam"; Num (Qcint 2)]] /\
  fmapR (map (fun d => map e_code (d_exchanges d))) (actualize_activity_links ex_linked) = Ok [[]; [Some "c3"; None]]%string /\
  Forall (fun ds => Forall (fun e => e_code e = None) (d_exchanges ds)) ex_linked.
Proof. split; [by_compute|]. split; [by_compute|]. by repeat constructor. Qed.

(** The rows are the inputs without code. *)
Theorem C87_unlinked : forall data, unlinked_rows data =
  listing (fun ds e => [Txt (d_name ds); Txt (e_name e); Num (e_amount e)])
    (map (fun ds => set_d_exchanges (filter (fun e => e_type e = FromTechnosphere /\ (e_code e = None \/ e_code e = Some ""%string)) (d_exchanges ds)) ds) data).
Proof. exact unlinked_listing. Qed.
Print Assumptions C87_unlinked.
Example ex_unlinked : unlinked_rows [ex_user] = [[Txt "cement production"; Txt "slag, Recycled Content cut-off"; Num 1%Qc]].
Proof. by_compute. Qed.
(** Exchanges that can't be linked are listed but kept, ... *)
Theorem C87_unlinked_refuted : exists data, log_and_delete_unlinked_exchanges data = data /\ unlinked_rows data <> [].
Proof. exists [ex_user]. split; by_compute. Qed.
Print Assumptions C87_unlinked_refuted.
(** ... and exchanges are deleted that are not listed. *)
Theorem C87_unlisted_refuted : exists data,
  unlinked_rows data = [] /\ List.concat (map d_exchanges (log_and_delete_unlinked_exchanges data)) <> List.concat (map d_exchanges data).
Proof. exists [ex_latex]. split; by_compute. Qed.
Print Assumptions C87_unlisted_refuted.
(** The table "with zero production volume" has a market with a production volume. *)
Theorem C87_whitelisted_refuted : exists ds v, whitelisted_rows [ds] <> [] /\ production_volume ds = Some v /\ v <> 0%Qc.
Proof. exists ex_pump, 1%Qc. split; [by_compute|]. split; by_compute. Qed.
Print Assumptions C87_whitelisted_refuted.
(** Equal datasets go together, with a single row. *)
Theorem C87_idle_refuted : exists data data' rows, delete_global_with_zero_pv_when_regional_present MarketActivity data = Ok data' /\
  idle_rows MarketActivity data = Ok rows /\ (List.length data <> List.length data' + List.length rows)%nat.
Proof.
  exists [ex_idle; ex_idle], [], [[Txt "market for brick"; Txt "brick"; Txt "RoW"]]. split; [by_compute|]. split; [by_compute|]. done.
Qed.
Print Assumptions C87_idle_refuted.

(** Numbers. *)
Example ex_methods : fmapR (filter (fun r => r.2 <> Some (count_cell 0))) (fmapR (map (fun r => (r, r !! 1%nat))) (method_rows [ex_latex; ex_pump; ex_smelter])) =
  Ok [([Txt "single product"; Num (Qcint 2)], Some (Num (Qcint 2))); ([Txt "economic"; Num 1%Qc], Some (Num 1%Qc))].
Proof. by_compute. Qed.
Definition ex_supplier (amount original subtracted : Qc) : exchange :=
  set_e_pv (Some (set_v_amount amount (set_v_original (Some original) (set_v_subtracted (Some subtracted) pvol0)))) exchange0.
Definition ex_market (s : exchange) : dataset := set_d_suppliers (Some [s])
  (set_d_exchanges [set_e_pv (Some (set_v_subtracted (Some 1%Qc) pvol0)) (ex_exc "brick" RefProduct 1%Qc)] ex_busy).
Example ex_markets : market_rows [ex_market (ex_supplier (Qcint 3) (Qcint 5) (Qcint 2))] =
  Ok [[Txt "market for brick"; Txt "brick"; Txt "CH"; Num (Qcint 5); Num (Qcint 2); Num 1%Qc; Num (Qcint 2)]] /\
  fmapR (map production_volume) (update_market_production_volumes ∅ MarketActivity [ex_market (ex_supplier (Qcint 3) (Qcint 5) (Qcint 2))]) =
    Ok [Some (Qcint 2)] /\
  (Qcint 5 = Qcint 3 + Qcint 2)%Qc.
Proof. split; [by_compute|]. split; by_compute. Qed.

(** A supplier with less than was taken: five, less seven, makes nothing, less one. *)
Theorem C88_markets_refuted : exists ds row (original inputs market net : Qc),
  market_rows [ds] = Ok [row] /\ drop 3 row = [Num original; Num inputs; Num market; Num net] /\
  (net <> original - inputs - market)%Qc.
Proof.
  exists (ex_market (ex_supplier 0%Qc (Qcint 5) (Qcint 7))).
  exists [Txt "market for brick"; Txt "brick"; Txt "CH"; Num (Qcint 5); Num (Qcint 7); Num 1%Qc; Num 0%Qc], (Qcint 5), (Qcint 7), 1%Qc, 0%Qc.
  split; [by_compute|]. split; by_compute.
Qed.
Print Assumptions C88_markets_refuted.

Theorem C89_fit_refuted : exists data, ~ fits "switch_undefined_to_current" (switch_rows data).
Proof.
  exists [set_d_tech "undefined" ex_latex]. intros (cols & Hc & HF). apply Forall_cons in HF as [HF _].
  assert (cols = ["Reference product"; "Number of datasets"]%string) as -> by (repeat (apply elem_of_cons in Hc as [Hc|Hc]; [by injection Hc|]); by apply elem_of_nil in Hc).
  discriminate HF.
Qed.
Print Assumptions C89_fit_refuted.
