(** Property theorems C19-C23: waste outputs, market signs, recycled content,
    cleanup. *)
From Verif Require Import Base Types Uncertainty Spec_Uncertainty Uncertainty_proofs
  Utils Spec_Utils Utils_proofs Validation Strings Grouping
  Cutoff Spec_Cutoff Cutoff_proofs Props_Cutoff Spec_Waste Waste_proofs.

(** ** C19 Waste outputs become negative inputs *)
Theorem C19_flip :
  forall ds ds', flip_non_allocatable_byproducts ds = Ok ds' ->
    exists es', ds' = set_d_exchanges es' ds /\ Forall2 flipped (d_exchanges ds) es'.
Proof. exact flip_spec. Qed.
Print Assumptions C19_flip.

Theorem C19_balance :
  forall ds ds' n, flip_non_allocatable_byproducts ds = Ok ds' -> net n ds' = net n ds.
Proof. exact flip_net. Qed.
Print Assumptions C19_balance.

Theorem C19_none_left :
  forall ds ds', flip_non_allocatable_byproducts ds = Ok ds' ->
    Forall (fun e => ~ nonalloc_byproduct e) (d_exchanges ds').
Proof. exact flip_none_left. Qed.
Print Assumptions C19_none_left.

Theorem C19_idempotent :
  forall ds ds', flip_non_allocatable_byproducts ds = Ok ds' ->
    flip_non_allocatable_byproducts ds' = Ok ds'.
Proof. exact flip_idem. Qed.
Print Assumptions C19_idempotent.

Theorem C19_total :
  forall ds, classified ds -> exists ds', flip_non_allocatable_byproducts ds = Ok ds'.
Proof. exact flip_total. Qed.
Print Assumptions C19_total.

Definition ex_smelter : dataset :=
  set_d_name "smelter" (set_d_exchanges
    [ex_product "1" "copper" RefProduct 2 10;
     ex_product "2" "silver" Byproduct 1 90;
     set_e_formula (Some "a+b"%string) (set_e_class (Some Waste) (ex_flow "3" "slag" Byproduct 7));
     set_e_class (Some Recyclable) (ex_flow "4" "scrap" Byproduct 3);
     ex_flow "5" "slag" FromTechnosphere 1;
     ex_flow "6" "ore" FromTechnosphere 40] dataset0).
Example C19_ex :
  classified ex_smelter /\ net "slag" ex_smelter = Qcint 6 /\
  exists ds', flip_non_allocatable_byproducts ex_smelter = Ok ds' /\
    map (fun e => (e_name e, e_type e, e_amount e, e_formula e)) (d_exchanges ds') =
      [("copper", RefProduct, Qcint 2, None); ("silver", Byproduct, Qcint 1, None);
       ("slag", FromTechnosphere, Qcint (-7), Some "-1 * (a+b)"); ("scrap", FromTechnosphere, Qcint (-3), None);
       ("slag", FromTechnosphere, Qcint 1, None); ("ore", FromTechnosphere, Qcint 40, None)]%string /\
    net "slag" ds' = Qcint 6.
Proof.
  split; [unfold classified; by_compute|]. split; [by_compute|].
  eexists. split; [vm_compute; reflexivity|]. split; by_compute.
Qed.

(** The uncertainty is not turned round with the amount. *)
Theorem C19_uncertainty_refuted :
  exists ds ds',
    (forall ln, Forall (fun e => wf_dist ln (e_amount e) (e_unc e)) (d_exchanges ds)) /\
    flip_non_allocatable_byproducts ds = Ok ds' /\
    (forall ln, ~ Forall (fun e => wf_dist ln (e_amount e) (e_unc e)) (d_exchanges ds')).
Proof.
  set (u := set_u_type (Some UUniform) (set_u_min (Some (Qcint 1)) (set_u_max (Some (Qcint 3)) uncert0))).
  set (e := set_e_unc (Some u) (set_e_class (Some Waste) (ex_flow "3" "slag" Byproduct 2))).
  exists (set_d_exchanges [e] dataset0).
  eexists. split; [|split; [vm_compute; reflexivity|]].
  - intros ln. apply Forall_singleton. exists (Qcint 1), (Qcint 3). split_and!; try reflexivity; by_compute.
  - intros ln H. apply Forall_cons in H as [H _].
    change (wf_uniform (Qcint (-2)) u) in H. destruct H as (lo & hi & H1 & H2 & _ & H & _).
    apply Some_inj in H1 as <-. revert H. by_compute.
Qed.
Print Assumptions C19_uncertainty_refuted.

(** ** C20 Market signs *)
Theorem C20_signs :
  forall ln data data', adjust_market_signs_for_allocatable_products ln data = Ok data' ->
    Forall2 signs_adjusted data data'.
Proof. exact adjust_data. Qed.
Print Assumptions C20_signs.

Theorem C20_reference_positive :
  forall ln data data', adjust_market_signs_for_allocatable_products ln data = Ok data' ->
    Forall2 (fun ds ds' => forall rp, nonwaste_market ds rp ->
      exists rp', filter is_refproduct (d_exchanges ds') = [rp'] /\
        same_besides_amount_uncertainty rp rp' /\ e_amount rp' = Qcabs (e_amount rp)) data data'.
Proof. exact adjust_data_positive. Qed.
Print Assumptions C20_reference_positive.

Theorem C20_total :
  forall ln data,
    Forall (fun ds => (d_type ds = MarketActivity -> exists rp,
                         filter is_refproduct (d_exchanges ds) = [rp] /\ e_class rp <> None) /\
              Forall (fun e => wf_dist ln (e_amount e) (e_unc e)) (d_exchanges ds)) data ->
    exists data', adjust_market_signs_for_allocatable_products ln data = Ok data'.
Proof. exact adjust_data_total. Qed.
Print Assumptions C20_total.

Definition ex_negative_market : dataset :=
  set_d_type MarketActivity (set_d_exchanges
    [ex_product "1" "copper" RefProduct (-1) 10; ex_flow "2" "copper" FromTechnosphere (-1);
     ex_flow "3" "transport" FromTechnosphere (-5)] dataset0).
(** Only the market product is negative. *)
Definition ex_mixed_market : dataset :=
  set_d_type MarketActivity (set_d_exchanges
    [ex_product "1" "copper" RefProduct (-1) 10; ex_flow "2" "copper" FromTechnosphere (-1);
     ex_flow "3" "transport" FromTechnosphere 5] dataset0).
Definition ex_waste_market : dataset :=
  set_d_type MarketActivity (set_d_exchanges
    [set_e_class (Some Waste) (ex_flow "1" "slag" RefProduct (-1)); ex_flow "2" "slag" FromTechnosphere (-1)]
    dataset0).
Definition amounts (ds : dataset) : list Qc := map e_amount (d_exchanges ds).
Example C20_ex : forall ln,
  nonwaste_market ex_negative_market (ex_product "1" "copper" RefProduct (-1) 10) /\
  nonwaste_market ex_mixed_market (ex_product "1" "copper" RefProduct (-1) 10) /\
  fmapR (map amounts) (adjust_market_signs_for_allocatable_products ln
     [ex_negative_market; ex_mixed_market; ex_waste_market; ex_smelter]) =
  Ok [[Qcint 1; Qcint 1; Qcint 5]; [Qcint 1; Qcint 1; Qcint 5]; [Qcint (-1); Qcint (-1)]; amounts ex_smelter].
Proof.
  intros ln. split; [unfold nonwaste_market; by_compute|]. split; [unfold nonwaste_market; by_compute|].
  vm_compute. reflexivity.
Qed.

(** In the mixed case the input of transport per unit changes its sign. *)
Theorem C20_relative_amounts_refuted :
  exists ds ds' rp rp' e,
    (forall ln, adjust_market_sign ln ds = Ok ds') /\ nonwaste_market ds rp /\
    filter is_refproduct (d_exchanges ds') = [rp'] /\
    e ∈ d_exchanges ds /\ e ∈ d_exchanges ds' /\
    (e_amount e / e_amount rp' <> e_amount e / e_amount rp)%Qc.
Proof.
  exists ex_mixed_market. eexists. exists (ex_product "1" "copper" RefProduct (-1) 10). eexists.
  exists (ex_flow "3" "transport" FromTechnosphere 5).
  split; [intros ln; vm_compute; reflexivity|].
  split; [unfold nonwaste_market; by_compute|]. split; [vm_compute; reflexivity|].
  split; [right; right; left|]. split; [right; right; left|]. by_compute.
Qed.
Print Assumptions C20_relative_amounts_refuted.

(** ** C21 Recycled content *)
Theorem C21_renamed :
  forall data data', rename_recyclable_content_exchanges data = Ok data' ->
    Forall2 (on_exchanges (Forall2 marked)) data data'.
Proof. exact rename_spec. Qed.
Print Assumptions C21_renamed.

Theorem C21_one_producer :
  forall data data', handle_waste_outputs data = Ok data' ->
    exists renamed new,
      data' = renamed ++ new /\
      Forall2 (on_exchanges (Forall2 marked)) data renamed /\
      NoDup (map d_name new) /\
      (forall ds e, ds ∈ data -> e ∈ d_exchanges ds -> recyclable_byproduct e ->
         (e_name e ++ marker)%string ∈ map d_name new) /\
      (forall rc, rc ∈ new -> exists ds e, ds ∈ data /\ e ∈ d_exchanges ds /\
         recyclable_byproduct e /\ supplies_recycled (e_name e ++ marker) ds e rc).
Proof. exact handle_spec. Qed.
Print Assumptions C21_one_producer.

(** The producer is made from the last by-product of the name. *)
Theorem C21_last_wins :
  forall data data', create_recycled_content_datasets data = Ok data' ->
    exists new, data' = data ++ new /\ NoDup (map d_name new) /\
      forall rc, rc ∈ new ->
        exists l1 ds e l2, sites data = l1 ++ (ds, e) :: l2 /\ recyclable_byproduct e /\
          supplies_recycled (e_name e) ds e rc /\
          Forall (fun p => recyclable_byproduct (snd p) -> e_name (snd p) <> e_name e) l2.
Proof. exact create_last. Qed.
Print Assumptions C21_last_wins.

Theorem C21_total :
  forall data,
    Forall classified data ->
    Forall (fun ds => Forall (fun e => recyclable_byproduct e -> e_id e <> None) (d_exchanges ds)) data ->
    exists data', handle_waste_outputs data = Ok data'.
Proof. exact handle_total. Qed.
Print Assumptions C21_total.

Definition ex_foundry : dataset :=
  set_d_name "foundry" (set_d_tech "new"%string (set_d_exchanges
    [ex_product "a" "steel" RefProduct 2 10;
     set_e_class (Some Recyclable) (ex_flow "b" "scrap" Byproduct 3);
     set_e_class (Some Recyclable) (ex_flow "c" "dust" Byproduct 3);
     ex_flow "d" "scrap" FromTechnosphere 1] dataset0)).
Example C21_ex :
  Forall classified [ex_smelter; ex_foundry] /\
  fmapR (map (fun ds => (d_name ds, d_location ds, map (fun e => (e_id e, e_name e, e_amount e)) (d_exchanges ds))))
    (create_recycled_content_datasets [ex_smelter; ex_foundry]) =
  Ok [("smelter", d_location ex_smelter, map (fun e => (e_id e, e_name e, e_amount e)) (d_exchanges ex_smelter));
      ("foundry", d_location ex_foundry, map (fun e => (e_id e, e_name e, e_amount e)) (d_exchanges ex_foundry));
      ("scrap", "GLO", [(Some "b", "scrap", Qcint 1)]);
      ("dust", "GLO", [(Some "c", "dust", Qcint 1)])]%string /\
  fmapR (map (fun ds => (d_name ds, map e_name (d_exchanges ds)))) (handle_waste_outputs [ex_foundry]) =
  Ok [("foundry", ["steel"; "scrap, Recycled Content cut-off"; "dust, Recycled Content cut-off"; "scrap"]);
      ("scrap, Recycled Content cut-off", ["scrap, Recycled Content cut-off"]);
      ("dust, Recycled Content cut-off", ["dust, Recycled Content cut-off"])]%string.
Proof. split; [unfold classified; by_compute|]. split; vm_compute; reflexivity. Qed.

(** ** C22 Renaming back *)
Theorem C22_name :
  forall n, ~ occurs_in marker n -> strip_marker (n ++ marker) = n.
Proof. exact strip_marked. Qed.
Print Assumptions C22_name.

Theorem C22_other_names :
  forall n, (forall a, n <> (a ++ marker)%string) -> strip_marker n = n.
Proof. exact strip_unmarked. Qed.
Print Assumptions C22_other_names.

Theorem C22_database :
  forall data data',
    Forall (fun ds => (forall r, d_refprod ds = Some r -> ~ occurs_in marker r) /\
              Forall (fun e => ~ occurs_in marker (e_name e)) (d_exchanges ds)) data ->
    rename_recyclable_content_exchanges data = Ok data' ->
    rename_recycled_content_products_after_linking data' = data.
Proof. exact round_trip. Qed.
Print Assumptions C22_database.

(** Nothing but names and labels changes. *)
Theorem C22_only_names :
  forall data,
    Forall2 (fun ds ds' => exists es' r', ds' = set_d_refprod r' (set_d_exchanges es' ds) /\
        r' = option_map strip_marker (d_refprod ds) /\
        Forall2 (fun e e' => exists n, e' = set_e_name n e /\ n = strip_marker (e_name e)) (d_exchanges ds) es')
      data (rename_recycled_content_products_after_linking data).
Proof. exact strip_only_names. Qed.
Print Assumptions C22_only_names.

Example C22_ex :
  ~ occurs_in marker "scrap, Recycled Content" /\
  fmapR rename_recycled_content_products_after_linking
    (rename_recyclable_content_exchanges [ex_smelter; ex_foundry]) = Ok [ex_smelter; ex_foundry] /\
  rename_recyclable_content_exchanges [ex_smelter; ex_foundry] <> Ok [ex_smelter; ex_foundry].
Proof.
  split; [|split; vm_compute; [reflexivity|discriminate]].
  intros (a & b & H). apply (f_equal String.length) in H. rewrite !str_app_length in H. cbn in H. lia.
Qed.

(** A name which has the marker already loses both. *)
Theorem C22_marked_name_refuted :
  exists n, strip_marker (n ++ marker) <> n.
Proof. exists ("scrap" ++ marker)%string. vm_compute. discriminate. Qed.
Print Assumptions C22_marked_name_refuted.

(** ** C23 Cleanup *)
Theorem C23_zero_links :
  forall data,
    Forall2 (on_exchanges (Forall2 (unlinked_where (fun e => e_amount e = 0%Qc /\ linked e))))
      data (drop_zero_amount_activity_links data).
Proof. exact drop_zero_spec. Qed.
Print Assumptions C23_zero_links.

Theorem C23_product_links :
  forall data,
    Forall2 (on_exchanges (Forall2 (unlinked_where
        (fun e => (e_type e = RefProduct \/ e_type e = DroppedProduct) /\ linked e))))
      data (drop_rp_activity_links data).
Proof. exact drop_rp_spec. Qed.
Print Assumptions C23_product_links.

Theorem C23_consequential :
  forall data,
    Forall2 (on_exchanges (fun es es' => es' = filter (fun e => ~ consequential e) es))
      data (remove_consequential_exchanges data).
Proof. exact remove_consequential_spec. Qed.
Print Assumptions C23_consequential.

Theorem C23_idempotent :
  forall data,
    drop_zero_amount_activity_links (drop_zero_amount_activity_links data) =
      drop_zero_amount_activity_links data /\
    drop_rp_activity_links (drop_rp_activity_links data) = drop_rp_activity_links data /\
    remove_consequential_exchanges (remove_consequential_exchanges data) =
      remove_consequential_exchanges data.
Proof. intros data. split; [apply drop_zero_idem|split; [apply drop_rp_idem|apply remove_consequential_idem]]. Qed.
Print Assumptions C23_idempotent.

Definition ex_links : dataset :=
  set_d_exchanges
    [set_e_link (Some "x"%string) (ex_flow "1" "a" RefProduct 1);
     set_e_link (Some "x"%string) (ex_flow "2" "b" FromTechnosphere 0);
     set_e_link (Some "x"%string) (ex_flow "3" "c" FromTechnosphere 1);
     set_e_props [ex_prop "consequential" 1] (ex_flow "4" "d" FromTechnosphere 1);
     set_e_props [ex_prop "consequential" 0; ex_prop "price" 1] (ex_flow "5" "e" FromTechnosphere 1)] dataset0.
Example C23_ex :
  map (fun ds => map e_link (d_exchanges ds)) (drop_zero_amount_activity_links [ex_links]) =
    [[Some "x"; None; Some "x"; None; None]]%string /\
  map (fun ds => map e_link (d_exchanges ds)) (drop_rp_activity_links [ex_links]) =
    [[None; Some "x"; Some "x"; None; None]]%string /\
  map (fun ds => map e_name (d_exchanges ds)) (remove_consequential_exchanges [ex_links]) =
    [["a"; "b"; "c"; "e"]]%string.
Proof. split; [|split]; vm_compute; reflexivity. Qed.
