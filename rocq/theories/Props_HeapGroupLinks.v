(** Property theorems C111: suppliers of market groups on objects. *)
From stdpp Require Import gmap.
From Verif Require Import Base Types Utils Topology Locations Heap Spec_Heap HeapMarkets HeapGroups Spec_HeapGroups HeapGroupLinks
  Heap_proofs HeapMarkets_proofs HeapGroups_proofs HeapGroupLinks_proofs Props_Topology Props_ActivityLinks Props_Locations Props_Markets Props_Groups Props_HeapHard.

(** ** C111 Market groups that are linked one after the other *)
(** A group may be read as a supplier after it got its own suppliers. *)
Theorem C111_groups : forall t h Fs xs dss, wf h -> separate h Fs xs dss ->
  does (next h) (concat Fs) (link_market_groups_h t xs) (link_market_group_suppliers t dss)
    (fun h' _ dss' => separate h' Fs xs dss') h.
Proof. exact group_links_proof. Qed.
Print Assumptions C111_groups.
(** The three steps of market groups one after the other, from newly made objects
    (locations/__init__.py lines 51-53). *)
Theorem C111_run : forall t dss,
  same_outcome
    ((let! xs := mapM store dss in let! _ := link_market_groups_h t xs in let! _ := update_group_volumes_h t xs in
      let! _ := allocate_all_h MarketGroup xs in mapM readD xs) nothing).1
    (let? d1 := link_market_group_suppliers t dss in let? d2 := update_market_production_volumes t MarketGroup d1 in
     allocate_all_market_suppliers MarketGroup d2).
Proof. exact groups_run_proof. Qed.
Print Assumptions C111_run.

(** Of two groups at one location only the last one gets suppliers. *)
Example C111_groups_nonvacuous :
  ex_supplier_codes (on_objects (link_market_groups_h ex_world) (ex_place "g0" "market group for steel" "GLO" "steel" MarketGroup 1 :: ex_nested)) =
    [None; Some [Some "g2"; Some "m3"]; None; None; None; Some [Some "g3"]; None; Some [Some "m1"; Some "m2"]; None]%string /\
  on_objects (link_market_groups_h ex_world) ex_nested = link_market_group_suppliers ex_world ex_nested /\
  on_objects (link_market_groups_h ex_world) (ex_place "g" "another group" "DE" "steel" MarketGroup 1 :: ex_nested) = Err MarketGroupError.
Proof. split_and!; by_compute. Qed.
Example C111_run_nonvacuous :
  fmapR (map (fun ds => map (fun e => (e_code e, e_amount e)) (drop 2 (d_exchanges ds))))
    ((let! xs := mapM store ex_nested in let! _ := link_market_groups_h ex_world xs in let! _ := update_group_volumes_h ex_world xs in
      let! _ := allocate_all_h MarketGroup xs in mapM readD xs) nothing).1
  = Ok [[(Some "g2", frac 1 2); (Some "m3", frac 1 2)]; []; []; []; [(Some "g3", 1%Qc)]; []; [(Some "m1", frac 1 3); (Some "m2", frac 2 3)]; []]%string.
Proof. by_compute. Qed.
