(** Property theorems C31, C38, C40 and C41: rest-of-world datasets, codes of
    linked exchanges, idle datasets and unlinked exchanges. *)
From Verif Require Import Base Types Uncertainty Utils Spec_Utils StringFacts Cutoff GroupUpdate
  Locations Spec_RestOfWorld RestOfWorld_proofs Spec_Links Links_proofs.

(** ** C31 Global datasets become rest-of-world exactly when others exist *)
Theorem C31_relabelled :
  forall data data', relabel_global_to_row data = Ok data' ->
    length data' = length data /\
    forall i ds, data !! i = Some ds ->
      exists ds', data' !! i = Some ds' /\
        (needs_row data i ds ->
           as_rest_of_world (Qcsum (map (fun p => recorded_volume p.2) (others data i ds))) ds ds') /\
        (~ needs_row data i ds -> ds' = ds).
Proof. exact relabel_spec. Qed.
Print Assumptions C31_relabelled.

Theorem C31_errors :
  forall data, Forall classified data ->
    (forall ds, ds ∈ data -> d_location ds = "GLO"%string -> has_volume ds) ->
    (two_global data /\ relabel_global_to_row data = Err MultipleGlobalDatasets) \/
    (~ two_global data /\ exists data', relabel_global_to_row data = Ok data').
Proof. exact relabel_errors. Qed.
Print Assumptions C31_errors.

Definition ex_place (i n loc product : string) (ty : dtype) (volume : Z) : dataset :=
  set_d_id i (set_d_name n (set_d_location loc (set_d_type ty
    (set_d_refprod (Some product) (set_d_code (Some i)
      (set_d_exchanges
        [set_e_class (Some Allocatable) (set_e_pv (Some (set_v_amount (Qcint volume) pvol0))
           (set_e_name product (set_e_type RefProduct (set_e_amount 1%Qc exchange0))));
         set_e_name "ore" (set_e_type FromTechnosphere (set_e_amount (frac 3 2) exchange0))]
        dataset0)))))).
Definition ex_regions : list dataset :=
  [ex_place "1" "steelmaking" "GLO" "steel" Transforming 100;
   ex_place "2" "steelmaking" "FR" "steel" Transforming 30;
   ex_place "3" "mining" "GLO" "ore" Transforming 50;
   ex_place "4" "steelmaking" "DE" "steel" Transforming 60].
Example C31_nonvacuous :
  exists data', relabel_global_to_row ex_regions = Ok data' /\
    map d_location data' = ["RoW"; "FR"; "GLO"; "DE"]%string /\
    map production_volume data' = [Some (Qcint 10); Some (Qcint 30); Some (Qcint 50); Some (Qcint 60)] /\
    needs_row ex_regions 0 (ex_place "1" "steelmaking" "GLO" "steel" Transforming 100) /\
    relabel_global_to_row (ex_regions ++ [ex_place "5" "mining" "GLO" "ore" Transforming 1])
    = Err MultipleGlobalDatasets.
Proof.
  destruct (relabel_global_to_row ex_regions) as [data'|] eqn:E; [|vm_compute in E; discriminate].
  exists data'. split; [done|]. vm_compute in E. apply Ok_inj in E as <-.
  split; [by_compute|]. split; [by_compute|]. split; [by_compute|]. vm_compute. reflexivity.
Qed.

(** ** C38 Activity links are resolved to the code of their target *)
Theorem C38_resolved :
  forall data data', actualize_activity_links data = Ok data' ->
    Forall2 (exchanges_by (fun e e' => coded_by (targets data e) e e')) data data' /\
    forall i, ~ dangling data i.
Proof. exact actualize_spec. Qed.
Print Assumptions C38_resolved.

Theorem C38_errors :
  forall data, Forall (fun ds => is_Some (d_refprod ds) /\ is_Some (d_code ds)) data ->
    (exists data', actualize_activity_links data = Ok data') \/
    (exists i, actualize_activity_links data = Err (KeyError i) /\ dangling data i).
Proof. exact actualize_total. Qed.
Print Assumptions C38_errors.

Theorem C38_recycled :
  forall data data', link_consumers_to_recycled_content_activities data = Ok data' ->
    Forall2 (exchanges_by (fun e e' => coded_by (recycled_producers RC_STRING data e) e e')) data data'.
Proof. exact link_rc_all_spec. Qed.
Print Assumptions C38_recycled.

Theorem C38_products :
  forall data data', add_reference_product_codes data = Ok data' -> Forall2 product_coded data data'.
Proof. exact product_codes_spec. Qed.
Print Assumptions C38_products.

Theorem C38_products_iff :
  forall data, (exists data', add_reference_product_codes data = Ok data') <->
    Forall (fun ds => is_Some (d_code ds) /\
                      exists rp, filter is_refproduct (d_exchanges ds) = [rp]) data.
Proof. exact product_codes_iff. Qed.
Print Assumptions C38_products_iff.

Definition ex_consumer (link : string) (e : exchange) : dataset :=
  set_d_exchanges [set_e_link (Some link) e] (ex_place "9" "plant" "FR" "car" Transforming 5).
Definition ex_steel : exchange :=
  set_e_name "steel" (set_e_type FromTechnosphere (set_e_amount (Qcint 7) exchange0)).
Example C38_nonvacuous :
  (exists data', actualize_activity_links (ex_regions ++ [ex_consumer "2" ex_steel]) = Ok data' /\
     map e_code (concat (map d_exchanges (drop 4 data'))) = [Some "2"%string]) /\
  actualize_activity_links (ex_regions ++ [ex_consumer "3" ex_steel])
    = Ok (ex_regions ++ [ex_consumer "3" ex_steel]) /\
  actualize_activity_links (ex_regions ++ [ex_consumer "7" ex_steel]) = Err (KeyError "7") /\
  (exists data', add_reference_product_codes ex_regions = Ok data' /\
     map (fun ds => map e_code (d_exchanges ds)) data'
     = [[Some "1"; None]; [Some "2"; None]; [Some "3"; None]; [Some "4"; None]]%string).
Proof.
  split; [|split; [by_compute|split; [by_compute|]]].
  - destruct (actualize_activity_links (ex_regions ++ [ex_consumer "2" ex_steel])) as [d|] eqn:E;
      [|vm_compute in E; discriminate]. exists d. split; [done|]. vm_compute in E. apply Ok_inj in E as <-. by_compute.
  - destruct (add_reference_product_codes ex_regions) as [d|] eqn:E;
      [|vm_compute in E; discriminate]. exists d. split; [done|]. vm_compute in E. apply Ok_inj in E as <-. by_compute.
Qed.
Definition ex_scrap : exchange :=
  set_e_name ("scrap" ++ RC_STRING) (set_e_type FromTechnosphere (set_e_amount (Qcint 2) exchange0)).
Example C38_recycled_nonvacuous :
  exists data', link_consumers_to_recycled_content_activities
      [ex_place "1" "scrap, Recycled Content" "GLO" ("scrap" ++ RC_STRING) Transforming 1;
       set_d_exchanges [ex_scrap; ex_steel] (ex_place "2" "mill" "FR" "steel" Transforming 5)] = Ok data' /\
    map (fun ds => map e_code (d_exchanges ds)) data' = [[None; None]; [Some "1"%string; None]].
Proof.
  destruct (link_consumers_to_recycled_content_activities _) as [d|] eqn:E;
    [|vm_compute in E; discriminate]. exists d. split; [done|]. vm_compute in E. apply Ok_inj in E as <-. by_compute.
Qed.

(** ** C40 Deleting idle global datasets never removes the last producer *)
Theorem C40_removed :
  forall kind data data', delete_global_with_zero_pv_when_regional_present kind data = Ok data' ->
    exists keep : dataset -> bool, data' = List.filter keep data /\
      forall ds, ds ∈ data -> keep ds = false <-> idle_first kind data ds.
Proof. exact delete_global_spec. Qed.
Print Assumptions C40_removed.

Theorem C40_producer_remains :
  forall kind data data' ds, NoDup data ->
    delete_global_with_zero_pv_when_regional_present kind data = Ok data' ->
    ds ∈ data -> ds ∉ data' ->
    d_type ds = kind /\ d_location ds = "RoW"%string /\ recorded_volume ds = 0%Qc /\
    exists other, other ∈ data' /\ competes kind (d_refprod ds) other.
Proof. exact delete_global_last. Qed.
Print Assumptions C40_producer_remains.

Theorem C40_total :
  forall kind data, (forall ds, ds ∈ data -> d_type ds = kind -> is_Some (d_refprod ds)) ->
    exists data', delete_global_with_zero_pv_when_regional_present kind data = Ok data'.
Proof. exact delete_global_total. Qed.
Print Assumptions C40_total.

Theorem C40_zero_markets :
  forall data, drop_zero_pv_row_datasets data
    = filter (fun ds => ~ (d_location ds = "RoW"%string /\ d_type ds = MarketActivity /\
                           production_volume ds = Some 0%Qc)) data.
Proof. exact drop_zero_pv_spec. Qed.
Print Assumptions C40_zero_markets.

(** Two equal datasets are removed together: no producer remains. *)
Theorem C40_duplicates_refuted :
  exists data ds, ds ∈ data /\ delete_global_with_zero_pv_when_regional_present Transforming data = Ok [] /\
    d_refprod ds = Some "steel"%string.
Proof.
  set (ds := ex_place "1" "steelmaking" "RoW" "steel" Transforming 0).
  exists [ds; ds], ds. split; [by left|]. split; [by_compute|]. reflexivity.
Qed.
Print Assumptions C40_duplicates_refuted.

Definition ex_idle : list dataset :=
  [ex_place "1" "steelmaking" "RoW" "steel" Transforming 0;
   ex_place "2" "steelmaking" "FR" "steel" Transforming 30;
   ex_place "3" "mining" "RoW" "ore" Transforming 0;
   ex_place "4" "trade" "RoW" "steel" MarketActivity 0].
Example C40_nonvacuous :
  delete_global_with_zero_pv_when_regional_present Transforming ex_idle = Ok (drop 1 ex_idle) /\
  NoDup ex_idle /\ drop_zero_pv_row_datasets ex_idle = take 3 ex_idle.
Proof. split; [by_compute|]. split; by_compute. Qed.

(** ** C41 Deleting unlinked exchanges *)
Theorem C41_deleted :
  forall data, log_and_delete_unlinked_exchanges data
    = map (fun ds => match d_code ds with
                     | None | Some ""%string => set_d_exchanges [] ds
                     | Some (String _ _) => ds
                     end) data.
Proof. exact delete_unlinked_spec. Qed.
Print Assumptions C41_deleted.

(** An unlinked input of a dataset with a code is kept; a linked exchange of a
    dataset without code is deleted. *)
Theorem C41_unlinked_kept_refuted :
  exists data ds e, ds ∈ log_and_delete_unlinked_exchanges data /\ e ∈ d_exchanges ds /\ open_input e.
Proof.
  set (ds := ex_consumer "2" ex_steel). exists [ds], ds, (set_e_link (Some "2"%string) ex_steel).
  split; [by_compute|]. split; by_compute.
Qed.
Print Assumptions C41_unlinked_kept_refuted.
Theorem C41_linked_deleted_refuted :
  exists data e, e ∈ concat (map d_exchanges data) /\ e_code e = Some "c"%string /\
    e ∉ concat (map d_exchanges (log_and_delete_unlinked_exchanges data)).
Proof.
  set (e := set_e_code (Some "c"%string) ex_steel).
  exists [set_d_exchanges [e] dataset0], e. split; [by_compute|]. split; by_compute.
Qed.
Print Assumptions C41_linked_deleted_refuted.
