(** Property theorems C09-C13: allocation by revenue, waste treatment and
    recycling. *)
From Verif Require Import Base Types Uncertainty Spec_Uncertainty Uncertainty_proofs
  Utils Spec_Utils Utils_proofs Strings Grouping Cutoff Spec_Cutoff Cutoff_proofs.

Definition ex_prop (n : string) (a : Z) : prop := set_p_name n (set_p_amount (Qcint a) prop0).
Definition ex_flow (i n : string) (t : etype) (a : Z) : exchange :=
  set_e_id (Some i) (set_e_name n (set_e_type t (set_e_amount (Qcint a) exchange0))).
Definition ex_product (i n : string) (t : etype) (a price : Z) : exchange :=
  set_e_class (Some Allocatable) (set_e_props [ex_prop "price" price] (ex_flow i n t a)).
Definition ex_eco : dataset :=
  set_d_name "farm" (set_d_exchanges
    [ex_product "1" "wool" RefProduct 2 10;
     ex_product "2" "meat" Byproduct 5 12;
     ex_flow "3" "feed" FromTechnosphere 40;
     ex_flow "4" "methane" ToEnvironment 8] dataset0).
(** Two products with a 'true value relation', one without. *)
Definition ex_true : dataset :=
  set_d_exchanges
    [ex_product "1" "heat" RefProduct 2 10;
     set_e_props [ex_prop "price" 5; ex_prop "true value relation" 1]
       (ex_product "2" "power" Byproduct 4 5);
     set_e_props [ex_prop "price" 20; ex_prop "true value relation" 3]
       (ex_product "3" "steam" Byproduct 2 20);
     ex_flow "4" "coal" FromTechnosphere 80] dataset0.

(** ** C09 Economic allocation factors *)
Theorem C09_factors :
  forall prods fs,
    economic_factors prods = Ok fs <->
    prods <> [] /\ Qcsum (map worth prods) <> 0%Qc /\
    (filter valued prods <> [] -> Qcsum (map true_worth (filter valued prods)) <> 0%Qc) /\
    Forall2 (economic_share prods) prods fs.
Proof. exact economic_factors_ok. Qed.
Print Assumptions C09_factors.

Theorem C09_factors_sum_to_one :
  forall prods fs, economic_factors prods = Ok fs -> Qcsum fs = 1%Qc.
Proof. exact economic_factors_sum. Qed.
Print Assumptions C09_factors_sum_to_one.

Theorem C09_factors_range :
  forall prods fs,
    economic_factors prods = Ok fs ->
    Forall (fun p => 0 <= default 0 (lookup_prop "price" p) /\ 0 <= e_amount p /\
                     0 <= default 0 (lookup_prop "true value relation" p))%Qc prods ->
    Forall (fun f => 0 <= f /\ f <= 1)%Qc fs.
Proof. exact economic_factors_range. Qed.
Print Assumptions C09_factors_range.

(** The factors economic allocation uses are these, for the products of the
    dataset. *)
Theorem C09_allocation_uses_factors :
  forall ln ds outs,
    economic_allocation ln ds = Ok outs ->
    exists fs,
      economic_factors (filter alloc_output (d_exchanges ds)) = Ok fs /\
      Qcsum fs = 1%Qc /\
      Forall3 (single_output_of ds) (filter alloc_output (d_exchanges ds)) fs outs.
Proof. exact economic_allocation_factors. Qed.
Print Assumptions C09_allocation_uses_factors.

(** Non-negative prices and amounts do not suffice when a true value relation
    is negative: the validity check only looks at prices and amounts. *)
Theorem C09_range_needs_true_values_refuted :
  exists ds fs,
    valid_economic_activity ds = Ok tt /\
    economic_factors (filter alloc_output (d_exchanges ds)) = Ok fs /\
    Forall (fun p => 0 <= default 0 (lookup_prop "price" p) /\ 0 <= e_amount p)%Qc
      (filter alloc_output (d_exchanges ds)) /\
    Exists (fun f => 1 < f)%Qc fs.
Proof.
  exists (set_d_exchanges
    [set_e_props [ex_prop "price" 1; ex_prop "true value relation" (-1)]
       (ex_product "1" "a" RefProduct 1 1);
     set_e_props [ex_prop "price" 1; ex_prop "true value relation" 2]
       (ex_product "2" "b" Byproduct 1 1)] dataset0), [Qcint (-1); Qcint 2].
  split; [vm_compute; reflexivity|]. split; [by_compute|]. split; by_compute.
Qed.
Print Assumptions C09_range_needs_true_values_refuted.

Example C09_nonvacuous :
  economic_factors (filter alloc_output (d_exchanges ex_eco)) = Ok [frac 1 4; frac 3 4].
Proof. by_compute. Qed.
Example C09_nonvacuous_true_value :
  economic_factors (filter alloc_output (d_exchanges ex_true))
  = Ok [frac 1 4; frac 3 10; frac 9 20].
Proof. by_compute. Qed.

(** ** C10 Economic allocation conserves burdens *)
Theorem C10_burdens_conserved :
  forall ln ds outs i n t,
    economic_allocation ln ds = Ok outs -> t <> DroppedProduct ->
    Qcsum (zip_with (fun p out => burden i n t out / production out * e_amount p)%Qc
             (filter alloc_output (d_exchanges ds)) outs) = burden i n t ds.
Proof. exact economic_allocation_conserves. Qed.
Print Assumptions C10_burdens_conserved.

Example C10_nonvacuous :
  exists outs, economic_allocation id ex_eco = Ok outs /\ length outs = 2 /\
    map (burden (Some "3"%string) "feed" FromTechnosphere) outs = [Qcint 5; Qcint 6] /\
    burden (Some "3"%string) "feed" FromTechnosphere ex_eco = Qcint 40.
Proof. eexists. split; [vm_compute; reflexivity|]. split; [reflexivity|]. split; by_compute. Qed.

(** ** C11 One single-output dataset per product *)
Theorem C11_one_dataset_per_product :
  forall ln ds outs,
    economic_allocation ln ds = Ok outs ->
    Forall2 (fun p out =>
        exists rp', filter alloc_output (d_exchanges out) = [rp'] /\
          filter is_refproduct (d_exchanges out) = [rp'] /\
          e_id rp' = e_id p /\ e_name rp' = e_name p /\ (0 < e_amount rp')%Qc /\
          out = set_d_exchanges (d_exchanges out) ds)
      (filter alloc_output (d_exchanges ds)) outs.
Proof. exact economic_one_per_product. Qed.
Print Assumptions C11_one_dataset_per_product.

Theorem C11_total :
  forall ln ds,
    classified ds -> filter alloc_output (d_exchanges ds) <> [] ->
    Forall (fun p => (exists x, lookup_prop "price" p = Some x /\ 0 < x)%Qc /\
                     (forall y, lookup_prop "true value relation" p = Some y -> 0 < y)%Qc /\
                     (0 < e_amount p)%Qc) (filter alloc_output (d_exchanges ds)) ->
    Forall (fun e => wf_dist ln (e_amount e) (e_unc e)) (d_exchanges ds) ->
    exists outs, economic_allocation ln ds = Ok outs.
Proof. exact economic_allocation_total. Qed.
Print Assumptions C11_total.

(** A product of amount zero makes the whole allocation fail, although it
    could only get the factor zero. *)
Theorem C11_zero_product_refuted :
  exists ds, classified ds /\ valid_economic_activity ds = Ok tt /\
    (exists fs, economic_factors (filter alloc_output (d_exchanges ds)) = Ok fs) /\
    forall ln, economic_allocation ln ds = Err ZeroProduction.
Proof.
  exists (set_d_exchanges [ex_product "1" "a" RefProduct 1 1;
                           ex_product "2" "b" Byproduct 0 1] dataset0).
  split; [by_compute|]. split; [vm_compute; reflexivity|].
  split; [eexists; vm_compute; reflexivity|]. intros ln. vm_compute. reflexivity.
Qed.
Print Assumptions C11_zero_product_refuted.

Example C11_nonvacuous :
  exists outs, economic_allocation id ex_true = Ok outs /\
    map (fun o => map e_name (filter is_refproduct (d_exchanges o))) outs
    = [["heat"]; ["power"]; ["steam"]]%string.
Proof. eexists. split; [vm_compute; reflexivity|]. by_compute. Qed.

(** ** C12 Waste treatment *)
Theorem C12_waste_treatment :
  forall ln ds outs,
    waste_treatment_allocation ln ds = Ok outs ->
    exists rp treatment free,
      outs = treatment :: free /\
      filter is_refproduct (d_exchanges ds) = [rp] /\ e_class rp = Some Waste /\
      (e_amount rp < 0)%Qc /\ classified ds /\
      single_output_of ds rp 1 treatment /\
      Forall2 (free_supply ds) (filter alloc_byproduct (d_exchanges ds)) free.
Proof. exact waste_treatment_spec. Qed.
Print Assumptions C12_waste_treatment.

Theorem C12_waste_treatment_total :
  forall ln ds rp,
    filter is_refproduct (d_exchanges ds) = [rp] -> e_class rp = Some Waste ->
    (e_amount rp < 0)%Qc -> classified ds ->
    Forall (fun e => wf_dist ln (e_amount e) (e_unc e)) (d_exchanges ds) ->
    Forall (fun e => alloc_byproduct e -> e_amount e <> 0%Qc) (d_exchanges ds) ->
    exists outs, waste_treatment_allocation ln ds = Ok outs.
Proof. exact waste_treatment_total. Qed.
Print Assumptions C12_waste_treatment_total.

(** In the treatment dataset every flow is, per unit of waste treated, what it
    was in the original. *)
Theorem C12_burdens_stay_with_treatment :
  forall ln ds treatment free rp i n t,
    waste_treatment_allocation ln ds = Ok (treatment :: free) ->
    filter is_refproduct (d_exchanges ds) = [rp] -> t <> DroppedProduct ->
    (burden i n t treatment / production treatment * e_amount rp = burden i n t ds)%Qc /\
    Forall (fun out => burden i n t out = 0%Qc) free.
Proof. exact waste_treatment_burden. Qed.
Print Assumptions C12_burdens_stay_with_treatment.

Definition ex_waste : dataset :=
  set_d_exchanges
    [set_e_class (Some Waste) (ex_flow "1" "municipal waste" RefProduct (-2));
     set_e_class (Some Allocatable) (ex_flow "2" "electricity" Byproduct 3);
     ex_flow "3" "limestone" FromTechnosphere 4;
     set_e_class (Some Waste) (ex_flow "4" "ash" Byproduct 1)] dataset0.
Example C12_nonvacuous :
  exists t f, waste_treatment_allocation id ex_waste = Ok [t; f] /\
    map (fun e => (e_name e, e_amount e)) (d_exchanges t)
    = [("municipal waste", Qcint (-1)); ("electricity", Qcint 0); ("limestone", Qcint 2);
       ("ash", frac 1 2)]%string /\
    map (fun e => (e_name e, e_amount e)) (d_exchanges f) = [("electricity", Qcint 1)]%string.
Proof. do 2 eexists. split; [vm_compute; reflexivity|]. split; by_compute. Qed.

(** ** C13 Recycling *)
Theorem C13_recycling :
  forall ln ds outs,
    recycling_allocation ln ds = Ok outs ->
    exists rp es,
      filter is_refproduct (d_exchanges ds) = [rp] /\ (e_amount rp < 0)%Qc /\
      Forall2 turned_into_input (d_exchanges ds) es /\
      filter alloc_output es = filter alloc_byproduct (d_exchanges ds) /\
      exists fs, Qcsum fs = 1%Qc /\
        Forall3 (fun p f out => economic_share (filter alloc_byproduct (d_exchanges ds)) p f /\
                                single_output_of (set_d_exchanges es ds) p f out)
          (filter alloc_byproduct (d_exchanges ds)) fs outs.
Proof. exact recycling_outputs. Qed.
Print Assumptions C13_recycling.

(** Every output takes in its share of the recycled material, as a positive
    input from the technosphere. *)
Theorem C13_material_is_an_input :
  forall ln ds outs,
    recycling_allocation ln ds = Ok outs ->
    exists rp, filter is_refproduct (d_exchanges ds) = [rp] /\
      exists fs, Qcsum fs = 1%Qc /\ length fs = length outs /\
      Forall2 (fun f out => exists e k, e ∈ d_exchanges out /\
          e_type e = FromTechnosphere /\ e_name e = e_name rp /\ e_id e = e_id rp /\
          (0 < k)%Qc /\ e_amount e = (- e_amount rp * (f * k))%Qc) fs outs.
Proof. exact recycling_input. Qed.
Print Assumptions C13_material_is_an_input.

Definition ex_recycling : dataset :=
  set_d_exchanges
    [set_e_class (Some Recyclable) (ex_flow "1" "scrap" RefProduct (-4));
     ex_product "2" "steel" Byproduct 3 2;
     ex_product "3" "slag sand" Byproduct 2 1;
     ex_flow "4" "electricity" FromTechnosphere 8] dataset0.
Example C13_nonvacuous :
  exists a b, recycling_allocation id ex_recycling = Ok [a; b] /\
    map (fun e => (e_name e, e_amount e)) (d_exchanges a)
    = [("steel", Qcint 1); ("slag sand", Qcint 0); ("scrap", Qcint 1);
       ("electricity", Qcint 2)]%string /\
    map (fun e => (e_name e, e_amount e)) (d_exchanges b)
    = [("slag sand", Qcint 1); ("steel", Qcint 0); ("scrap", frac 1 2);
       ("electricity", Qcint 1)]%string.
Proof. do 2 eexists. split; [vm_compute; reflexivity|]. split; by_compute. Qed.
