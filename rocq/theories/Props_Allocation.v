(** Property theorems C14-C18 and C50: choice of the allocation method, the
    allocation step as a whole, combined production, recalculation. *)
From Verif Require Import Base Types Uncertainty Spec_Uncertainty Uncertainty_proofs
  Utils Spec_Utils Utils_proofs Validation Strings Grouping
  Recalculation Spec_Recalculation Recalculation_proofs
  Cutoff Spec_Cutoff Cutoff_proofs Props_Cutoff Spec_Allocation Allocation_proofs
  Allocation2_proofs Spec_Combined Combined_proofs Combined2_proofs Spec_Dispatch
  SingleOutput_proofs.

(** ** C14 The allocation method *)
Theorem C14_method :
  forall ds l, classified ds -> choose_allocation_method ds = Ok l <-> method_of ds l.
Proof. exact choose_method_iff. Qed.
Print Assumptions C14_method.

Theorem C14_one_method :
  forall ds l1 l2, method_of ds l1 -> method_of ds l2 -> l1 = l2.
Proof. exact method_unique. Qed.
Print Assumptions C14_one_method.

Theorem C14_total :
  forall ds, classified ds -> exists l, choose_allocation_method ds = Ok l.
Proof. exact choose_total_classified. Qed.
Print Assumptions C14_total.

(** In particular the consistency assertion never fails. *)
Theorem C14_only_error :
  forall ds x, choose_allocation_method ds = Err x ->
    x = KeyError "byproduct classification" /\ ~ classified ds.
Proof. exact choose_errors_only_key. Qed.
Print Assumptions C14_only_error.

Theorem C14_implemented :
  forall ds l, method_of ds l -> l <> "single product"%string ->
    forall ln recalc, l ∈ map fst (allocation_functions ln recalc).
Proof. exact method_labels. Qed.
Print Assumptions C14_implemented.

Theorem C14_features :
  forall ds ds' l,
    d_type ds' = d_type ds -> d_name ds' = d_name ds ->
    Forall2 same_features (d_exchanges ds) (d_exchanges ds') ->
    method_of ds l -> method_of ds' l.
Proof. exact method_of_features. Qed.
Print Assumptions C14_features.

Definition ex_chp (t : dtype) : dataset :=
  set_d_name "heat and power co-generation" (set_d_type t (set_d_exchanges
    [ex_product "1" "heat" RefProduct 2 5;
     ex_product "2" "power" RefProduct 1 10;
     ex_flow "3" "coal" FromTechnosphere 24] dataset0)).
Definition ex_with (e : exchange) (ds : dataset) : dataset :=
  set_d_exchanges (d_exchanges ds ++ [e]) ds.
Example C14_nonvacuous :
  map choose_allocation_method
    [ex_chp Transforming; ex_chp MarketGroup; ex_chp MarketActivity;
     ex_with (set_e_cond (Some true) (ex_flow "4" "x" FromTechnosphere 1)) (ex_chp MarketActivity);
     ex_with (ex_product "4" "steam" Byproduct 1 1) (ex_chp Transforming);
     ex_with (ex_product "4" "steam" Byproduct 0 1) (ex_chp Transforming);
     ex_eco; ex_waste; ex_recycling;
     set_d_exchanges [ex_flow "1" "a" RefProduct (-1); ex_flow "2" "b" RefProduct (-1)] dataset0;
     set_d_exchanges [ex_flow "1" "a" RefProduct 1] dataset0]
  = map Ok ["combined production"; "market group"; "unconstrained market"; "constrained market";
            "combined production with byproducts"; "combined production"; "economic";
            "waste treatment"; "recycling"; "combined production without products";
            "single product"]%string.
Proof. vm_compute. reflexivity. Qed.

(** ** C15 Each dataset is allocated once *)
Theorem C15_allocated_once :
  forall ln euler order eval data outs,
    Forall classified data -> Forall (fun d => d_alloc d = None) data ->
    cutoff_allocation ln (recalculate ln euler order eval) data = Ok outs <->
    exists outss, outs = concat outss /\
      Forall2 (fun ds os => exists l, method_of ds l /\
                 handled ln (recalculate ln euler order eval) ds l os) data outss.
Proof. exact cutoff_allocation_handled. Qed.
Print Assumptions C15_allocated_once.

(** A constrained market with several outputs can never be allocated: its
    function returns the dataset instead of a list. *)
Theorem C15_constrained_market :
  forall ln euler order eval data ds,
    Forall classified data -> Forall (fun d => d_alloc d = None) data ->
    ds ∈ data -> method_of ds "constrained market" ->
    forall outs, cutoff_allocation ln (recalculate ln euler order eval) data <> Ok outs.
Proof. exact cutoff_allocation_constrained. Qed.
Print Assumptions C15_constrained_market.

Definition ex_constrained : dataset :=
  ex_with (set_e_cond (Some true) (ex_product "4" "residue" Byproduct 1 1))
    (set_d_exchanges [ex_product "1" "heat" RefProduct 2 5] (set_d_type MarketActivity dataset0)).
Theorem C15_constrained_market_refuted :
  exists data, Forall classified data /\
    forall ln recalc, cutoff_allocation ln recalc data = Err TypeError.
Proof.
  exists [ex_constrained]. split; [by_compute|]. intros ln recalc. vm_compute. reflexivity.
Qed.
Print Assumptions C15_constrained_market_refuted.

(** A toy evaluator that knows two formulas. *)
Definition ex_uses (f : string) : list string := ["a"; "b"]%string.
Definition ex_eval (m : env) (f : string) : result Qc :=
  let? a := getkey "a" (m !! "a"%string) in
  let? b := getkey "b" (m !! "b"%string) in
  if (f =? "30*a+2*b")%string then Ok (Qcint 30 * a + Qcint 2 * b)%Qc
  else if (f =? "3*a+b")%string then Ok (Qcint 3 * a + b)%Qc
  else if (f =? "a/b")%string then divR a b
  else Err ValueError.
(** Orders parameters that do not depend on each other. *)
Definition ex_order (params : gmap string pobj) : result (list string) :=
  if bool_decide (Forall (fun kv => o_formula kv.2 = None) (map_to_list params))
  then Ok (map fst (map_to_list params)) else Err ParameterizationError.
Lemma ex_local : forall m1 m2 f,
  (forall x, x ∈ ex_uses f -> m1 !! x = m2 !! x) -> ex_eval m1 f = ex_eval m2 f.
Proof.
  intros m1 m2 f H. unfold ex_eval. rewrite !H; [done| |]; unfold ex_uses; set_solver.
Qed.
Lemma ex_orders : orders_by ex_uses ex_order.
Proof.
  intros params keys H. unfold ex_order in H. case_bool_decide as HF; [|done].
  injection H as <-. split_and!.
  - apply NoDup_fst_map_to_list.
  - intros k. rewrite elem_of_list_fmap. split.
    + intros ([k' o] & -> & Hk). apply elem_of_map_to_list in Hk. by exists o.
    + intros [o Ho]. exists (k, o). split; [done|]. by apply elem_of_map_to_list.
  - intros pre k post o f _ Ho Hf. exfalso. rewrite Forall_forall in HF.
    apply elem_of_map_to_list in Ho. specialize (HF _ Ho). cbn in HF. congruence.
Qed.
Definition ex_recalc : dataset -> result dataset := recalculate id 1 ex_order ex_eval.

Definition ex_comb : dataset :=
  set_d_name "refinery" (set_d_exchanges
    [set_e_variable (Some "a"%string) (ex_product "1" "diesel" RefProduct 1 1);
     set_e_variable (Some "b"%string) (ex_product "2" "petrol" RefProduct 1 1);
     set_e_formula (Some "30*a+2*b"%string) (ex_flow "3" "crude" FromTechnosphere 32)] dataset0).
Definition ex_comb_by : dataset :=
  ex_with (set_e_formula (Some "3*a+b"%string) (ex_product "4" "steam" Byproduct 4 1)) ex_comb.

Definition summary (ds : dataset) : list (string * etype * Qc) :=
  map (fun e => (e_name e, e_type e, e_amount e)) (d_exchanges ds).
Example C15_nonvacuous :
  exists outs, cutoff_allocation id ex_recalc [ex_eco; ex_waste; ex_comb] = Ok outs /\
    length outs = 6 /\ Forall (fun d => d_alloc d = None) outs.
Proof. eexists. split; [vm_compute; reflexivity|]. split; [reflexivity|]. by_compute. Qed.

(** ** C16 One product per dataset *)
Theorem C16_single_output :
  forall ln euler order eval data outs,
    Forall (fun ds => d_alloc ds = None /\ classified ds /\ unique_ids ds /\ unique_variables ds /\
              Forall (fun e => alloc_output e -> e_amount e <> 0%Qc) (d_exchanges ds)) data ->
    cutoff_allocation ln (recalculate ln euler order eval) data = Ok outs ->
    Forall single_output outs.
Proof. exact cutoff_allocation_single. Qed.
Print Assumptions C16_single_output.

Example C16_nonvacuous :
  Forall (fun ds => d_alloc ds = None /\ classified ds /\ unique_ids ds /\ unique_variables ds /\
            Forall (fun e => alloc_output e -> e_amount e <> 0%Qc) (d_exchanges ds))
    [ex_eco; ex_waste; ex_recycling; ex_comb; ex_comb_by] /\
  exists outs, cutoff_allocation id ex_recalc [ex_eco; ex_waste; ex_recycling; ex_comb; ex_comb_by]
               = Ok outs /\ length outs = 11.
Proof.
  split; [unfold unique_ids, unique_variables; by_compute|].
  eexists. split; [vm_compute; reflexivity|]. reflexivity.
Qed.

(** A market whose reference product has amount zero goes through. *)
Theorem C16_zero_market_refuted :
  exists ds, classified ds /\ unique_ids ds /\ unique_variables ds /\ d_alloc ds = None /\
    forall ln recalc, exists out,
      cutoff_allocation ln recalc [ds] = Ok [out] /\ ~ single_output out.
Proof.
  exists (set_d_type MarketActivity (set_d_exchanges [ex_product "1" "heat" RefProduct 0 1] dataset0)).
  split; [by_compute|]. split; [unfold unique_ids; by_compute|].
  split; [unfold unique_variables; by_compute|]. split; [done|]. intros ln recalc. eexists.
  split; [vm_compute; reflexivity|]. intros (rp & Hf & _). vm_compute in Hf. done.
Qed.
Print Assumptions C16_zero_market_refuted.

(** A by-product of amount zero is overlooked when the method is chosen, but
    its formula may make it non-zero in the parts. *)
Theorem C16_zero_byproduct_refuted :
  exists ds outs, classified ds /\ unique_ids ds /\ unique_variables ds /\ d_alloc ds = None /\
    cutoff_allocation id ex_recalc [ds] = Ok outs /\ Exists (fun out => ~ single_output out) outs.
Proof.
  exists (ex_with (set_e_formula (Some "3*a+b"%string) (ex_product "4" "steam" Byproduct 0 1)) ex_comb).
  eexists. split; [by_compute|]. split; [unfold unique_ids; by_compute|].
  split; [unfold unique_variables; by_compute|]. split; [done|].
  split; [vm_compute; reflexivity|]. left. intros (rp & Hf & _). vm_compute in Hf. done.
Qed.
Print Assumptions C16_zero_byproduct_refuted.

(** ** C17 Combined production *)
Theorem C17_combined_production :
  forall ln euler order eval ds outs,
    unique_variables ds ->
    combined_production (recalculate ln euler order eval) ds = Ok outs ->
    Forall2 (fun p out =>
        exists part m, split_for ds p part /\ environment order eval part = Ok m /\
          dataset_revalued eval m part out /\
          (exists rp, filter is_refproduct (d_exchanges out) = [rp] /\
             e_id rp = e_id p /\ e_name rp = e_name p /\ e_formula rp = None /\
             e_amount rp = e_amount p) /\
          (forall q n, q ∈ d_exchanges ds -> is_refproduct q -> q <> p ->
             e_variable q = Some n -> forall x, m !! n = Some x -> x = 0%Qc) /\
          (forall n x, e_variable p = Some n -> m !! n = Some x -> x = e_amount p))
      (filter produces (d_exchanges ds)) outs.
Proof. exact combined_production_spec. Qed.
Print Assumptions C17_combined_production.

Theorem C17_formulas_hold :
  forall uses ln euler order eval ds outs,
    (forall m1 m2 f, (forall x, x ∈ uses f -> m1 !! x = m2 !! x) -> eval m1 f = eval m2 f) ->
    orders_by uses order ->
    unique_variables ds -> Forall (fun q => q_form q <> Some ""%string) (quantities ds) ->
    combined_production (recalculate ln euler order eval) ds = Ok outs ->
    Forall (fun out => exists m,
      (forall n x, m !! n = Some x <-> exists f, (Some n, f, x) ∈ quantities out) /\
      Forall (fun q => forall f, q_form q = Some f -> formula_value eval m f (q_val q))
        (quantities out)) outs.
Proof. exact combined_solves. Qed.
Print Assumptions C17_formulas_hold.

Example C17_nonvacuous :
  unique_variables ex_comb /\ Forall (fun q => q_form q <> Some ""%string) (quantities ex_comb) /\
  exists outs, combined_production ex_recalc ex_comb = Ok outs /\
    map summary outs =
    [[("diesel", RefProduct, Qcint 1); ("petrol", DroppedProduct, Qcint 0);
      ("crude", FromTechnosphere, Qcint 30)];
     [("petrol", RefProduct, Qcint 1); ("diesel", DroppedProduct, Qcint 0);
      ("crude", FromTechnosphere, Qcint 2)]]%string.
Proof.
  split; [unfold unique_variables; by_compute|]. split; [by_compute|].
  eexists. split; [vm_compute; reflexivity|]. by_compute.
Qed.

(** ** C18 Merging by-products *)
Theorem C18_merged_flows :
  forall ln euler order eval ds outs,
    unique_ids ds ->
    combined_production_with_byproducts ln (recalculate ln euler order eval) ds = Ok outs ->
    exists parts pieces groups,
      combined_production (recalculate ln euler order eval) ds = Ok parts /\
      Forall2 (fun part ps => economic_allocation ln part = Ok ps) parts pieces /\
      NoDup (map fst groups) /\ concat (map snd groups) ≡ₚ concat pieces /\
      Forall2 (fun ng out => ng.2 <> [] /\ Forall (product_of ng.1) ng.2 /\ product_of ng.1 out /\
                             merges ng.2 out /\ exchange_ids out ≡ₚ exchange_ids ds) groups outs /\
      Forall (fun c => exchange_ids c ≡ₚ exchange_ids ds) (concat pieces).
Proof. exact with_byproducts_spec. Qed.
Print Assumptions C18_merged_flows.

Example C18_nonvacuous :
  unique_ids ex_comb_by /\
  exists outs, combined_production_with_byproducts id ex_recalc ex_comb_by = Ok outs /\
    map (fun o => filter (fun x => x.2 <> 0%Qc) (summary o)) outs =
    [[("diesel", RefProduct, Qcint 1); ("crude", FromTechnosphere, frac 15 2)];
     [("steam", RefProduct, Qcint 2); ("crude", FromTechnosphere, frac 17 2)];
     [("petrol", RefProduct, Qcint 1); ("crude", FromTechnosphere, Qcint 1)]]%string.
Proof.
  split; [unfold unique_ids; by_compute|]. eexists. split; [vm_compute; reflexivity|]. by_compute.
Qed.

(** The pieces are added after normalisation, so they are not weighted by how
    much of the by-product each part makes: the burden of all products
    together is not the burden of the original dataset. *)
Theorem C18_production_weighting_refuted :
  exists ds outs,
    unique_ids ds /\
    combined_production_with_byproducts id ex_recalc ds = Ok outs /\
    Qcsum (map (fun out => flow "3" out / production out *
             Qcsum (map e_amount (filter (fun e => Exists (fun p => is_refproduct p /\ e_id p = e_id e)
                                                     (d_exchanges out)) (d_exchanges ds))))%Qc outs)
    <> flow "3" ds.
Proof.
  exists ex_comb_by. eexists. split; [unfold unique_ids; by_compute|].
  split; [vm_compute; reflexivity|]. by_compute.
Qed.
Print Assumptions C18_production_weighting_refuted.

(** Ids that the first dataset of a group does not have are lost. *)
Theorem C18_foreign_ids_lost_refuted :
  exists d1 d2 out i, unique_ids d1 /\ unique_ids d2 /\
    merge_byproducts [d1; d2] = Ok [out] /\ flow i d2 <> 0%Qc /\ flow i out = 0%Qc.
Proof.
  exists (set_d_exchanges [ex_flow "1" "steam" RefProduct 1] dataset0),
    (set_d_exchanges [ex_flow "1" "steam" RefProduct 1; ex_flow "2" "coal" FromTechnosphere 5] dataset0).
  eexists _, "2"%string. split; [unfold unique_ids; by_compute|]. split; [unfold unique_ids; by_compute|].
  split; [vm_compute; reflexivity|]. split; by_compute.
Qed.
Print Assumptions C18_foreign_ids_lost_refuted.

(** ** C50 Recalculation *)
Theorem C50_values :
  forall ln euler order eval ds ds',
    recalculate ln euler order eval ds = Ok ds' ->
    exists m, environment order eval ds = Ok m /\ dataset_revalued eval m ds ds'.
Proof. exact recalculate_spec. Qed.
Print Assumptions C50_values.

Theorem C50_formulas_hold :
  forall uses ln euler order eval ds ds' keys,
    (forall m1 m2 f, (forall x, x ∈ uses f -> m1 !! x = m2 !! x) -> eval m1 f = eval m2 f) ->
    order (extract_named_parameters ds) = Ok keys ->
    topological uses (extract_named_parameters ds) keys ->
    unique_variables ds -> Forall (fun q => q_form q <> Some ""%string) (quantities ds) ->
    recalculate ln euler order eval ds = Ok ds' ->
    exists m,
      (forall n x, m !! n = Some x <-> exists f, (Some n, f, x) ∈ quantities ds') /\
      Forall (fun q => forall f, q_form q = Some f -> formula_value eval m f (q_val q))
        (quantities ds') /\
      Forall2 (fun q q' => q_form q = None -> q' = q) (quantities ds) (quantities ds').
Proof. exact recalculate_solves. Qed.
Print Assumptions C50_formulas_hold.

(** A variable used twice: the first holder silently gets the value of the
    last one. *)
Theorem C50_duplicate_variable_refuted :
  exists ds ds', ex_recalc ds = Ok ds' /\
    ~ Forall2 (fun q q' => q_form q = None -> q' = q) (quantities ds) (quantities ds').
Proof.
  exists (set_d_exchanges [set_e_variable (Some "a"%string) (ex_flow "1" "x" FromTechnosphere 1);
                           set_e_variable (Some "a"%string) (ex_flow "2" "y" FromTechnosphere 2)] dataset0).
  eexists. split; [vm_compute; reflexivity|]. intros H. vm_compute in H.
  apply Forall2_cons in H as [H _]. specialize (H eq_refl). done.
Qed.
Print Assumptions C50_duplicate_variable_refuted.

(** b depends on a; a third formula on both, with a division by zero. *)
Definition ex_chain_eval (m : env) (f : string) : result Qc :=
  if (f =? "2*a")%string then let? a := getkey "a" (m !! "a"%string) in Ok (Qcint 2 * a)%Qc
  else ex_eval m f.
Definition ex_chain : dataset :=
  set_d_exchanges
    [set_e_formula (Some "2*a"%string) (set_e_variable (Some "b"%string) (ex_flow "1" "x" FromTechnosphere 7));
     set_e_variable (Some "a"%string) (ex_flow "2" "y" FromTechnosphere 5);
     set_e_formula (Some "30*a+2*b"%string) (ex_flow "3" "z" FromTechnosphere 0)] dataset0.
Definition ex_chain_uses (f : string) : list string :=
  if (f =? "2*a")%string then ["a"%string] else ["a"; "b"]%string.
Example C50_nonvacuous :
  (forall m1 m2 f, (forall x, x ∈ ex_chain_uses f -> m1 !! x = m2 !! x) ->
     ex_chain_eval m1 f = ex_chain_eval m2 f) /\
  topological ex_chain_uses (extract_named_parameters ex_chain) ["a"; "b"]%string /\
  unique_variables ex_chain /\
  exists ds', recalculate id 1 (fun _ => Ok ["a"; "b"]%string) ex_chain_eval ex_chain = Ok ds' /\
    map e_amount (d_exchanges ds') = [Qcint 10; Qcint 5; Qcint 170].
Proof.
  split_and!.
  - intros m1 m2 f H. unfold ex_chain_eval, ex_chain_uses in *. destruct (f =? "2*a")%string.
    + rewrite H; [done|set_solver].
    + apply ex_local. exact H.
  - split_and!; [by_compute| |].
    + intros k. assert (E : extract_named_parameters ex_chain =
        list_to_map [("a"%string, mkPobj (Some "a"%string) None (Qcint 5));
                     ("b"%string, mkPobj (Some "b"%string) (Some "2*a"%string) (Qcint 7))]) by reflexivity.
      rewrite E. cbn [list_to_map foldr fst snd]. rewrite !lookup_insert_is_Some', lookup_empty. unfold is_Some. split.
      * set_unfold. intros [H|[H|[]]]; subst; tauto.
      * intros [H|[H|[? [=]]]]; subst; set_solver.
    + intros pre k post o f E Ho Hf x Hx Hk.
      destruct pre as [|k1 [|k2 [|? pre]]]; try discriminate.
      * injection E as <- _. vm_compute in Ho. injection Ho as <-. discriminate.
      * injection E as <- <- _. vm_compute in Ho. injection Ho as <-. cbn in Hf. injection Hf as <-.
        exact Hx.
  - unfold unique_variables. by_compute.
  - eexists. split; [vm_compute; reflexivity|]. by_compute.
Qed.
