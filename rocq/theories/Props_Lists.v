(** Properties of passes before linking (C70, C71). *)
From Verif Require Import Base Types Utils Spec_Utils Cutoff Locations Consequential Recalculation Spec_Recalculation
  Spec_Allocation Spec_Combined Spec_Lists Lists_proofs Props_Uncertainty Props_Cutoff Props_Allocation.

(** ** C70 Passes that go by lists of names *)

Theorem C70_withdrawn : forall data,
  delete_whitelisted_zero_pv_market_datsets data = filter (fun ds => ~ withdrawn ds) data.
Proof. exact withdrawn_spec. Qed.
Print Assumptions C70_withdrawn.

Theorem C70_equal_volumes : forall data data', assign_fake_pv_to_confidential_datasets data = Ok data' <->
  Forall2 (fun ds ds' => if decide (secret ds) then equalled ds ds' else ds' = ds) data data'.
Proof. exact secret_spec. Qed.
Print Assumptions C70_equal_volumes.

Theorem C70_pipeline : forall data, correct_natural_gas_pipeline_location data =
  map (fun ds => if decide (misplaced ds) then set_d_location "RER w/o DE+NL+NO+RU" ds else ds) data.
Proof. exact misplaced_spec. Qed.
Print Assumptions C70_pipeline.

Theorem C70_no_group_in_row : forall data,
  (forall data', check_no_row_market_groups data = Ok data' <->
     data' = data /\ Forall (fun ds => d_type ds = MarketGroup -> d_location ds <> "RoW"%string) data) /\
  (check_no_row_market_groups data = Err MarketGroupError <->
     Exists (fun ds => d_type ds = MarketGroup /\ d_location ds = "RoW"%string) data).
Proof. intros data. split; [intros data'; apply no_row_spec|apply no_row_fails]. Qed.
Print Assumptions C70_no_group_in_row.

Theorem C70_undefined_levels : forall data, switch_undefined_to_current data =
  map (fun ds => if decide (d_type ds = Transforming /\ d_tech ds = "undefined"%string) then set_d_tech "current" ds else ds) data.
Proof. exact switch_spec. Qed.
Print Assumptions C70_undefined_levels.

Definition ex_listed (n loc : string) (ty : dtype) (v : Z) : dataset :=
  set_d_name n (set_d_location loc (set_d_type ty (set_d_tech "undefined" (set_d_exchanges
    [ex_flow "i" "coal" FromTechnosphere 3; set_e_pv (Some (set_v_amount (Qcint v) pvol0)) (ex_flow "r" "x" RefProduct 1)] dataset0)))).
Definition ex_listing : list dataset :=
  [ex_listed "market for refinery gas" "GLO" MarketActivity 0; ex_listed "market for refinery gas" "FR" MarketActivity 4;
   ex_listed "latex production" "FR" Transforming 0; ex_listed "latex production" "FR" MarketGroup 7;
   ex_listed "transport, pipeline, long distance, natural gas" "RER w/o DE+NL+NO" Transforming 5]%string.
Definition ex_volumes (data : list dataset) : list (list (option Qc)) :=
  map (fun d => map (fun e => option_map v_amount (e_pv e)) (d_exchanges d)) data.
Example C70_nonvacuous :
  map (fun d => (d_name d, d_location d)) (delete_whitelisted_zero_pv_market_datsets ex_listing) =
    [("market for refinery gas", "FR"); ("latex production", "FR"); ("latex production", "FR");
     ("transport, pipeline, long distance, natural gas", "RER w/o DE+NL+NO")]%string /\
  fmapR ex_volumes (assign_fake_pv_to_confidential_datasets ex_listing) =
    Ok [[None; Some (Qcint 0)]; [None; Some (Qcint 4)]; [None; Some (Qcint 1)]; [None; Some (Qcint 7)]; [None; Some (Qcint 5)]] /\
  map d_location (correct_natural_gas_pipeline_location ex_listing) = ["GLO"; "FR"; "FR"; "FR"; "RER w/o DE+NL+NO+RU"]%string /\
  fmapR (fun _ => tt) (check_no_row_market_groups ex_listing) = Ok tt /\
  map d_tech (switch_undefined_to_current ex_listing) = ["undefined"; "undefined"; "current"; "undefined"; "current"]%string.
Proof. split; [by_compute|]. split; [by_compute|]. split; [by_compute|]. split; by_compute. Qed.

(** The name and the report say 'zero production volume', but volumes are not looked at. *)
Theorem C70_zero_volume_refuted : exists data ds e v, ds ∈ data /\ e ∈ d_exchanges ds /\ is_refproduct e /\ e_pv e = Some v /\
  (0 < v_amount v)%Qc /\ delete_whitelisted_zero_pv_market_datsets data = [].
Proof.
  set (ds := ex_listed "market for refinery gas" "GLO" MarketActivity 12).
  exists [ds], ds, (set_e_pv (Some (set_v_amount (Qcint 12) pvol0)) (ex_flow "r" "x" RefProduct 1)), (set_v_amount (Qcint 12) pvol0).
  split; [left|]. split; [right; left|]. split; [done|]. split; [done|]. split; [done|]. by_compute.
Qed.
Print Assumptions C70_zero_volume_refuted.

(** A known volume is overwritten, and its formula and uncertainty, which say otherwise, stay. *)
Theorem C70_known_volume_refuted : exists data data' ds e e' v v', assign_fake_pv_to_confidential_datasets data = Ok data' /\
  data = [ds] /\ e ∈ d_exchanges ds /\ e_pv e = Some v /\ v_amount v = Qcint 12 /\ v_formula v = Some "12"%string /\
  (exists ds', data' = [ds'] /\ e' ∈ d_exchanges ds') /\ e_id e' = e_id e /\ e_pv e' = Some v' /\ v_amount v' = 1%Qc /\
  v_formula v' = Some "12"%string.
Proof.
  set (v := set_v_formula (Some "12"%string) (set_v_amount (Qcint 12) pvol0)). set (e := set_e_pv (Some v) (ex_flow "r" "x" RefProduct 1)).
  set (ds := set_d_exchanges [e] (ex_listed "latex production" "FR" Transforming 0)).
  exists [ds], [set_d_exchanges [set_e_pv (Some (set_v_amount 1%Qc v)) e] ds], ds, e, (set_e_pv (Some (set_v_amount 1%Qc v)) e), v, (set_v_amount 1%Qc v).
  split; [|split; [done|]; split; [left|]; split; [done|]; split; [done|]; split; [done|]; split; [eexists; split; [done|left]|];
    split; [done|]; split; [done|]; split; done].
  apply secret_spec. constructor; [|constructor]. destruct (decide (secret ds)) as [_|n]; [|by destruct n; apply (bool_decide_unpack _); vm_compute].
  exists [], e, v, []. split; [done|]. split; [done|]. split; [constructor|]. split; done.
Qed.
Print Assumptions C70_known_volume_refuted.

(** ** C71 Splitting by number of reference products *)

Theorem C71_split : forall ln euler order eval data out, Forall unique_variables data ->
  split_combined_production (recalculate ln euler order eval) data = Ok out ->
  exists parts, out = concat parts /\
    Forall2 (fun ds outs =>
      ((n_refproducts ds <= 1)%nat -> outs = [ds]) /\
      ((1 < n_refproducts ds)%nat ->
         Forall2 (fun p o => exists rp, filter is_refproduct (d_exchanges o) = [rp] /\ e_id rp = e_id p /\ e_name rp = e_name p /\
                               e_amount rp = e_amount p)
           (filter produces (d_exchanges ds)) outs)) data parts.
Proof. exact split_parts. Qed.
Print Assumptions C71_split.

Theorem C71_one_product : forall ln euler order eval data out, Forall unique_variables data ->
  split_combined_production (recalculate ln euler order eval) data = Ok out ->
  Forall (fun ds => (n_refproducts ds <= 1)%nat) out.
Proof. exact split_single_products. Qed.
Print Assumptions C71_one_product.

(** The step is the same as the function on each dataset with several reference products. *)
Theorem C71_only_several : forall recalc data out, split_combined_production recalc data = Ok out <->
  exists parts, out = concat parts /\
    Forall2 (fun ds outs => if decide (1 < n_refproducts ds)%nat then combined_production recalc ds = Ok outs else outs = [ds]) data parts.
Proof. exact split_spec. Qed.
Print Assumptions C71_only_several.

Example C71_nonvacuous : Forall unique_variables [ex_comb; ex_listed "latex production" "FR" Transforming 0] /\
  fmapR (map n_refproducts) (split_combined_production ex_recalc [ex_comb; ex_listed "latex production" "FR" Transforming 0]) = Ok [1; 1; 1]%nat.
Proof. split; [unfold unique_variables; by_compute|by_compute]. Qed.

(** A dataset with several reference products all of amount zero vanishes without a word. *)
Theorem C71_lost_refuted : exists ds, (1 < n_refproducts ds)%nat /\ unique_variables ds /\ split_combined_production ex_recalc [ds] = Ok [].
Proof.
  exists (set_d_exchanges [ex_flow "1" "diesel" RefProduct 0; ex_flow "2" "petrol" RefProduct 0; ex_flow "3" "crude" FromTechnosphere 3] dataset0).
  split; [by_compute|]. split; [unfold unique_variables; by_compute|]. by_compute.
Qed.
Print Assumptions C71_lost_refuted.
