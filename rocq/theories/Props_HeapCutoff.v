(** Property theorems C115: the cutoff model from allocation to its end on objects. *)
From stdpp Require Import gmap.
From Verif Require Import Base Types Utils Cutoff Topology Locations Pipeline Heap Spec_Heap Spec_HeapGroups HeapRow HeapCutoff
  Heap_proofs HeapCutoff_proofs Props_Pipeline Props_Order.

(** ** C115 The cutoff model on objects *)
(** The steps around linking on objects that share nothing give what the values give, and the
    datasets keep their objects. *)
Theorem C115_steps : forall ln h Fs xs dss, wf h -> separate h Fs xs dss ->
  does (next h) (concat Fs) (drop_rp_links_h xs) (Ok (drop_rp_activity_links dss)) (fun h' _ dss' => separate h' Fs xs dss') h /\
  does (next h) (concat Fs) (rename_h xs) (Ok (rename_recycled_content_products_after_linking dss)) (fun h' _ dss' => separate h' Fs xs dss') h /\
  does (next h) (concat Fs) (flip_h xs) (mapR flip_non_allocatable_byproducts dss) (fun h' _ dss' => separate h' Fs xs dss') h /\
  does (next h) (concat Fs) (iterM (normalize_h ln) xs) (mapR (normalize_reference_production_amount ln) dss) (fun h' _ dss' => separate h' Fs xs dss') h /\
  does (next h) (concat Fs) (iterM (adjust_h ln) xs) (adjust_market_signs_for_allocatable_products ln dss) (fun h' _ dss' => separate h' Fs xs dss') h.
Proof.
  exact (fun ln h Fs xs dss Hw Hs => conj (drop_rp_links_proof h Fs xs dss Hw Hs) (conj (rename_proof h Fs xs dss Hw Hs) (conj (flip_proof h Fs xs dss Hw Hs)
    (conj (iter_spec _ _ (normalize_spec ln) h Fs xs dss Hw Hs) (iter_spec _ _ (adjust_spec ln) h Fs xs dss Hw Hs))))).
Qed.
Print Assumptions C115_steps.
(** From newly made objects, whatever the datasets: allocation, linking and what comes after. *)
Theorem C115_run : forall w dss,
  same_outcome ((let! xs := mapM store dss in let! ys := cutoff_h w xs in mapM readD ys) nothing).1
    (let? data := cutoff_allocated w dss in
     let? data := link_markets_by_pv (w_md5 w) (w_ln w) (w_ord w) (w_topo w) data in
     cutoff_finished w data).
Proof. exact cutoff_run_proof. Qed.
Print Assumptions C115_run.
(** So with objects for the datasets that are ready for allocation, the result is that of the
    cutoff model. *)
Theorem C115_model : forall w data prepared, cutoff_prepared w data = Ok prepared ->
  same_outcome ((let! xs := mapM store prepared in let! ys := cutoff_h w xs in mapM readD ys) nothing).1 (cutoff_model w data).
Proof. exact cutoff_model_proof. Qed.
Print Assumptions C115_model.

Definition ex_end : result (list dataset) :=
  let? prepared := cutoff_prepared ex_w ex_places in
  ((let! xs := mapM store prepared in let! ys := cutoff_h ex_w xs in mapM readD ys) nothing).1.
Example C115_run_nonvacuous :
  fmapR (map (fun ds => (d_location ds, map (fun e => (e_name e, e_amount e)) (d_exchanges ds)))) ex_end
  = Ok [("FR", [("steel", 1%Qc); ("carbon dioxide", Qcint 3)]); ("DE", [("steel", 1%Qc)]);
        ("RER", [("steel", 1%Qc); ("steel", frac 1 4); ("steel", frac 3 4)]); ("FR", [("car", 1%Qc); ("steel", Qcint 3)])]%string.
Proof. by_compute. Qed.
Example C115_model_nonvacuous : ex_end = cutoff_model ex_w ex_places.
Proof. by_compute. Qed.
(** Normalizing halves the first dataset. *)
Example C115_steps_nonvacuous :
  fmapR (map (fun ds => map e_amount (d_exchanges ds)))
    ((let! xs := mapM store (take 2 ex_places) in let! _ := drop_rp_links_h xs in let! _ := rename_h xs in let! _ := flip_h xs in
      let! _ := iterM (normalize_h (w_ln ex_w)) xs in let! _ := iterM (adjust_h (w_ln ex_w)) xs in mapM readD xs) nothing).1
  = Ok [[1%Qc; Qcint 3]; [1%Qc]].
Proof. by_compute. Qed.
