(** Property theorems C112: the steps of linking one after the other on objects. *)
From stdpp Require Import gmap.
From Verif Require Import Base Types Utils ActivityLinks Cutoff Topology Locations Heap Spec_Heap HeapMarkets Spec_HeapGroups HeapLinking
  Heap_proofs HeapLinking_proofs Props_Topology Props_ActivityLinks Props_Locations Props_Markets Props_HeapHard Props_HeapMarkets.

(** ** C112 Linking on one set of objects *)
(** Deleting changes no object; what is left is some of the objects. *)
Theorem C112_delete : forall kind h Fs xs dss, wf h -> separate h Fs xs dss ->
  does (next h) [] (delete_global_h kind xs) (delete_global_with_zero_pv_when_regional_present kind dss)
    (fun h' ys dss' => results (next h) (concat Fs) h' ys dss') h.
Proof. exact delete_global_proof. Qed.
Print Assumptions C112_delete.
(** From newly made objects: the steps from the codes of activity links to the markets of
    consumers, as the collection has them. *)
Theorem C112_run : forall ln ord t dss,
  same_outcome ((let! xs := mapM store dss in let! ys := linking_h ln ord t xs in mapM readD ys) nothing).1
    (let? data := actualize_activity_links dss in
     let? data := add_recycled_content_suppliers_to_markets ord t data in
     let? data := add_suppliers_to_markets ord t Transforming MarketActivity data in
     let? data := update_market_production_volumes t MarketActivity data in
     let? data := delete_global_with_zero_pv_when_regional_present MarketActivity data in
     let? data := delete_global_with_zero_pv_when_regional_present Transforming data in
     let? data := allocate_all_market_suppliers MarketActivity data in
     let? data := link_market_group_suppliers t data in
     let? data := update_market_production_volumes t MarketGroup data in
     let? data := allocate_all_market_suppliers MarketGroup data in
     let? data := link_consumers_to_recycled_content_activities data in
     link_consumers_to_markets ln t data).
Proof. exact linking_run_proof. Qed.
Print Assumptions C112_run.

Definition ex_whole : list dataset :=
  ex_two_products ++
  [ex_place "13" "market group for steel" "GLO" "steel" MarketGroup 0;
   ex_place "14" "market for ore" "RoW" "coal" MarketActivity 0; ex_place "15" "market for coal" "FR" "coal" MarketActivity 0;
   ex_place "16" "coal mining" "FR" "coal" Transforming 8].
Definition ex_linked : result (list dataset) :=
  ((let! xs := mapM store ex_whole in let! ys := linking_h id ex_sorted ex_world xs in mapM readD ys) nothing).1.
Example C112_delete_nonvacuous :
  ((let! xs := mapM store ex_whole in let! ys := delete_global_h MarketActivity xs in retM (length xs, length ys)) nothing).1 = Ok (14, 12)%nat.
Proof. by_compute. Qed.
(** Two markets of the rest of the world are deleted; the others get inputs from what is left. *)
Example C112_run_nonvacuous :
  fmapR (map (fun ds => (d_code ds, map e_code (d_exchanges ds)))) ex_linked
  = Ok [(Some "2", [None; Some "10"]); (Some "3", [None; Some "10"]); (Some "4", [None; Some "10"]); (Some "5", [None; Some "10"]);
        (Some "6", [None; Some "10"; Some "4"; Some "2"; Some "3"]); (Some "8", [None; Some "10"; Some "9"]); (Some "9", [None; Some "10"]);
        (Some "10", [None; Some "10"; Some "11"]); (Some "11", [None; Some "10"]); (Some "13", [None; None; Some "6"; Some "8"]);
        (Some "15", [None; Some "10"; Some "16"]); (Some "16", [None; Some "10"])]%string.
Proof. by_compute. Qed.
