(** Property theorems C05-C08, C28 and C59. *)
From Verif Require Import Base Types Uncertainty Spec_Uncertainty Uncertainty_proofs
  Utils Spec_Utils Utils_proofs Validation Validation_proofs.

(** ** C05 Normalising a dataset keeps every ratio *)
Theorem C05_normalise :
  forall ln ds ds',
    normalize_reference_production_amount ln ds = Ok ds' ->
    exists rp k es',
      filter is_refproduct (d_exchanges ds) = [rp] /\ e_amount rp <> 0%Qc /\
      normalising_factor (e_amount rp) k /\
      ds' = set_d_exchanges es' ds /\
      Forall2 (scaled_by k) (d_exchanges ds) es' /\
      scale_all ln k (d_exchanges ds) = Ok es'.
Proof. exact normalize_spec. Qed.
Print Assumptions C05_normalise.

Theorem C05_normalise_idempotent :
  forall ln ds ds',
    normalize_reference_production_amount ln ds = Ok ds' ->
    normalize_reference_production_amount ln ds' = Ok ds'.
Proof. exact normalize_idem. Qed.
Print Assumptions C05_normalise_idempotent.

(** All outcomes: errors, and success whenever distributions are well formed. *)
Theorem C05_normalise_errors :
  forall ln ds,
    (filter is_refproduct (d_exchanges ds) = [] ->
       normalize_reference_production_amount ln ds = Err ValueError) /\
    (2 <= length (filter is_refproduct (d_exchanges ds)) ->
       normalize_reference_production_amount ln ds = Err InvalidMultioutputDataset) /\
    (forall rp, filter is_refproduct (d_exchanges ds) = [rp] -> e_amount rp = 0%Qc ->
       normalize_reference_production_amount ln ds = Err ZeroProduction) /\
    (forall rp, filter is_refproduct (d_exchanges ds) = [rp] -> e_amount rp <> 0%Qc ->
       Forall (fun e => wf_dist ln (e_amount e) (e_unc e)) (d_exchanges ds) ->
       exists ds', normalize_reference_production_amount ln ds = Ok ds' /\
         Forall (fun e => wf_dist ln (e_amount e) (e_unc e)) (d_exchanges ds')).
Proof. exact normalize_errors. Qed.
Print Assumptions C05_normalise_errors.

Definition ex_e (n : string) (t : etype) (a : Z) : exchange :=
  set_e_name n (set_e_type t (set_e_amount (Qcint a) exchange0)).
Definition ex_alloc (n : string) (a : Z) : exchange :=
  set_e_pv (Some pvol0) (set_e_class (Some Allocatable) (ex_e n Byproduct a)).
Definition ex_multi : dataset :=
  set_d_exchanges
    [set_e_pv (Some (set_v_amount (Qcint 8) pvol0)) (ex_e "steel" RefProduct (-4));
     ex_alloc "heat" 2; ex_e "coal" FromTechnosphere 3; ex_e "CO2" ToEnvironment 10] dataset0.

Example C05_nonvacuous :
  exists ds', normalize_reference_production_amount id ex_multi = Ok ds' /\
    map e_amount (d_exchanges ds') = [Qcint (-1); frac 1 2; frac 3 4; frac 5 2].
Proof. eexists. split; [vm_compute; reflexivity|]. by_compute. Qed.

(** ** C06 Choosing a reference product *)
Theorem C06_choose_reference_product :
  forall ln ds exc f ds',
    choose_reference_product_exchange ln ds exc f = Ok ds' ->
    e_amount exc <> 0%Qc /\ classified ds /\
    exists k rp' dropped others,
      normalising_factor (e_amount exc) k /\
      ds' = set_d_exchanges (rp' :: dropped ++ others) ds /\
      made_reference k exc rp' /\
      Forall2 dropped_from
        (filter (fun e => e <> exc) (filter alloc_output (d_exchanges ds))) dropped /\
      Forall2 (scaled_by (f * k))
        (filter (fun e => ~ alloc_output e) (d_exchanges ds)) others /\
      filter alloc_output (d_exchanges ds') = [rp'].
Proof. exact choose_spec. Qed.
Print Assumptions C06_choose_reference_product.

Theorem C06_choose_total :
  forall ln ds exc f,
    e_amount exc <> 0%Qc -> classified ds -> f <> 0%Qc ->
    Forall (fun e => wf_dist ln (e_amount e) (e_unc e)) (d_exchanges ds) ->
    exists ds', choose_reference_product_exchange ln ds exc f = Ok ds'.
Proof. exact choose_total. Qed.
Print Assumptions C06_choose_total.

Theorem C06_choose_errors :
  forall ln ds exc f,
    (e_amount exc = 0%Qc -> choose_reference_product_exchange ln ds exc f = Err ZeroProduction) /\
    (e_amount exc <> 0%Qc -> ~ classified ds ->
       choose_reference_product_exchange ln ds exc f = Err (KeyError "byproduct classification")).
Proof. exact choose_errors. Qed.
Print Assumptions C06_choose_errors.

Example C06_nonvacuous :
  exists ds', choose_reference_product_exchange id ex_multi (ex_alloc "heat" 2) (frac 1 3) = Ok ds' /\
    map (fun e => (e_name e, e_type e, e_amount e)) (d_exchanges ds') =
    [("heat", RefProduct, Qcint 1); ("steel", DroppedProduct, 0%Qc);
     ("coal", FromTechnosphere, frac 1 2); ("CO2", ToEnvironment, frac 5 3)].
Proof. eexists. split; [vm_compute; reflexivity|]. by_compute. Qed.

(** ** C07 Activity codes identify activities *)
(** The full statement is false for every hash function: the fields are
    concatenated without separator, and the unit of the product is not used. *)
Theorem C07_codes_identify_refuted :
  forall md5, exists d1 d2,
    activity_hash md5 d1 = activity_hash md5 d2 /\ ~ same_identity lower d1 d2.
Proof. exact activity_hash_collision. Qed.
Print Assumptions C07_codes_identify_refuted.

Theorem C07_codes_ignore_unit_refuted :
  forall md5, exists d1 d2 p1 p2,
    filter is_refproduct (d_exchanges d1) = [p1] /\
    filter is_refproduct (d_exchanges d2) = [p2] /\
    d_refprod d1 = Some (e_name p1) /\ d_refprod d2 = Some (e_name p2) /\
    e_unit p1 <> e_unit p2 /\ activity_hash md5 d1 = activity_hash md5 d2.
Proof. exact activity_hash_unit. Qed.
Print Assumptions C07_codes_ignore_unit_refuted.

(** What holds: for datasets of the same name and product (any case) and
    ten-character dates, equal codes are exactly equal identities. *)
Theorem C07_codes_identify_partial :
  forall md5 d1 d2,
    (forall s t, md5 s = md5 t -> s = t) ->
    lower (d_name d1) = lower (d_name d2) ->
    lower (default "" (d_refprod d1)) = lower (default "" (d_refprod d2)) ->
    d_unit d1 = None -> d_unit d2 = None ->
    String.length (d_start d1) = 10 -> String.length (d_end d1) = 10 ->
    String.length (d_start d2) = 10 -> String.length (d_end d2) = 10 ->
    (activity_hash md5 d1 = activity_hash md5 d2 <-> same_identity lower d1 d2).
Proof. exact activity_hash_group. Qed.
Print Assumptions C07_codes_identify_partial.

(** Datasets that agree in all fields up to case get the same code. *)
Theorem C07_same_identity_same_code :
  forall md5 d1 d2,
    same_identity lower d1 d2 -> activity_hash md5 d1 = activity_hash md5 d2.
Proof. exact same_identity_same_hash. Qed.
Print Assumptions C07_same_identity_same_code.

Definition ex_id (n p l : string) : dataset :=
  set_d_name n (set_d_refprod (Some p) (set_d_location l
    (set_d_start "2010-01-01" (set_d_end "2020-12-31" dataset0)))).
Example C07_nonvacuous :
  activity_hash id (ex_id "A" "b" "CH") <> activity_hash id (ex_id "a" "B" "DE") /\
  activity_hash id (ex_id "A" "b" "CH") = activity_hash id (ex_id "a" "B" "ch").
Proof. split; by_compute. Qed.

(** ** C08 Unique codes *)
Theorem C08_unique_codes :
  forall md5 data,
    (forall data', add_unique_codes md5 data = Ok data' ->
       data' = map (fun d => set_d_code (Some (activity_hash md5 d)) d) data /\
       NoDup (map d_code data')) /\
    (add_unique_codes md5 data = Err IdenticalDatasets <->
       ~ NoDup (map (activity_hash md5) data)) /\
    (is_ok (add_unique_codes md5 data) = true <-> NoDup (map (activity_hash md5) data)).
Proof. exact add_unique_codes_spec. Qed.
Print Assumptions C08_unique_codes.

Theorem C08_label_reference_product :
  forall data,
    (forall data', label_reference_product data = Ok data' ->
       Forall2 (fun ds ds' => exists rp, filter is_refproduct (d_exchanges ds) = [rp] /\
                                         ds' = set_d_refprod (Some (e_name rp)) ds) data data') /\
    (is_ok (label_reference_product data) = true <->
     Forall (fun ds => length (filter is_refproduct (d_exchanges ds)) = 1) data).
Proof. exact label_spec. Qed.
Print Assumptions C08_label_reference_product.

Example C08_nonvacuous :
  is_ok (add_unique_codes id [ex_id "a" "b" "CH"; ex_id "a" "b" "DE"]) = true /\
  add_unique_codes id [ex_id "a" "b" "CH"; ex_id "x" "b" "DE"; ex_id "A" "b" "ch"]
    = Err IdenticalDatasets /\
  is_ok (label_reference_product [ex_multi]) = true.
Proof. split; [vm_compute; reflexivity|]. split; vm_compute; reflexivity. Qed.

(** ** C28 Production volumes of by-products *)
Theorem C28_byproduct_volumes :
  forall data data',
    add_pv_to_allocatable_byproducts data = Ok data' ->
    Forall2 (fun ds ds' =>
      (ds' = ds /\ Forall (fun e => ~ alloc_byproduct e) (d_exchanges ds)) \/
      (Exists alloc_byproduct (d_exchanges ds) /\
       exists r es', biggest_ratio ds r /\ Forall2 (pv_filled r) (d_exchanges ds) es' /\
                     ds' = set_d_exchanges es' ds)) data data'.
Proof. exact add_pv_spec. Qed.
Print Assumptions C28_byproduct_volumes.

Theorem C28_byproduct_volumes_idempotent :
  forall data data',
    add_pv_to_allocatable_byproducts data = Ok data' ->
    add_pv_to_allocatable_byproducts data' = Ok data'.
Proof. exact add_pv_idem. Qed.
Print Assumptions C28_byproduct_volumes_idempotent.

Theorem C28_no_reference_amount :
  forall ds,
    Exists alloc_byproduct (d_exchanges ds) -> classified ds ->
    (forall e, e ∈ d_exchanges ds -> is_refproduct e -> e_amount e = 0%Qc) ->
    add_pv_to_allocatable_byproducts_ds ds = Err ZeroProduction.
Proof. exact add_pv_no_reference. Qed.
Print Assumptions C28_no_reference_amount.

Example C28_nonvacuous :
  exists data', add_pv_to_allocatable_byproducts [ex_multi] = Ok data' /\
    map (fun d => map (fun e => option_map v_amount (e_pv e)) (d_exchanges d)) data' =
    [[Some (Qcint 8); Some (Qcint 4); None; None]].
Proof. eexists. split; [vm_compute; reflexivity|]. by_compute. Qed.

(** ** C59 Validation *)
Theorem C59_unique_ids :
  forall data,
    (NoDup (map d_id data) -> ensure_ids_are_unique data = Ok data) /\
    (~ NoDup (map d_id data) -> ensure_ids_are_unique data = Err IdenticalDatasets).
Proof. exact ensure_ids_spec. Qed.
Print Assumptions C59_unique_ids.

Theorem C59_single_output :
  forall ds, classified ds ->
    ((length (filter is_refproduct (d_exchanges ds)) = 1 /\
      Forall (fun e => ~ alloc_byproduct e) (d_exchanges ds)) ->
     check_single_output_activity ds = Ok ds) /\
    (~ (length (filter is_refproduct (d_exchanges ds)) = 1 /\
      Forall (fun e => ~ alloc_byproduct e) (d_exchanges ds)) ->
     check_single_output_activity ds = Err InvalidMultioutputDataset).
Proof. exact check_single_output_spec. Qed.
Print Assumptions C59_single_output.

Theorem C59_markets :
  forall data,
    (forall data', validate_markets data = Ok data' -> data' = data) /\
    (is_ok (validate_markets data) = true <->
     forall ds, ds ∈ data -> d_type ds = MarketActivity -> market_valid ds).
Proof. exact validate_markets_spec. Qed.
Print Assumptions C59_markets.

Theorem C59_production_volumes :
  forall data,
    (forall data', ensure_production_exchanges_have_production_volume data = Ok data' ->
       data' = data) /\
    (is_ok (ensure_production_exchanges_have_production_volume data) = true <->
     forall ds, ds ∈ data -> classified ds /\
       forall e, e ∈ d_exchanges ds -> alloc_output e -> e_pv e <> None).
Proof. exact production_volume_check_spec. Qed.
Print Assumptions C59_production_volumes.

Definition ex_market : dataset :=
  set_d_type MarketActivity (set_d_exchanges
    [ex_e "steel" RefProduct 1; set_e_link (Some "x") (ex_e "steel" FromTechnosphere 1)] dataset0).
Example C59_nonvacuous :
  validate_markets [ex_market; ex_multi] = Ok [ex_market; ex_multi] /\
  validate_markets [set_d_exchanges
    [ex_e "steel" RefProduct 1; ex_e "steel" FromTechnosphere 1] ex_market]
    = Err InvalidMarketExchange /\
  is_ok (ensure_production_exchanges_have_production_volume [ex_multi]) = true /\
  check_single_output_activity ex_multi = Err InvalidMultioutputDataset.
Proof. repeat split; vm_compute; reflexivity. Qed.
