(** Property theorems C110: production volumes of market groups on objects. *)
From stdpp Require Import gmap.
From Verif Require Import Base Types Utils Topology Locations Heap Spec_Heap HeapMarkets HeapGroups Spec_HeapGroups Spec_Mix
  Heap_proofs HeapMarkets_proofs HeapGroups_proofs Props_Topology Props_ActivityLinks Props_Locations Props_Markets Props_HeapHard.

(** ** C110 Market groups that supply each other *)
(** Every group writes its volume into the other groups, in the order of size; the function on
    values goes through the whole database instead.  They end with the same datasets, or both
    with an exception. *)
Theorem C110_groups : forall t h Fs xs dss, wf h -> separate h Fs xs dss ->
  exists v, same_outcome v (update_market_production_volumes t MarketGroup dss) /\
    does (next h) (concat Fs) (update_group_volumes_h t xs) v (fun h' _ dss' => separate h' Fs xs dss') h.
Proof. exact group_volumes_proof. Qed.
Print Assumptions C110_groups.
(** From newly made objects. *)
Theorem C110_run : forall t dss,
  same_outcome (on_objects (update_group_volumes_h t) dss) (update_market_production_volumes t MarketGroup dss).
Proof. exact group_run_proof. Qed.
Print Assumptions C110_run.
(** Which exception is raised does depend on the order: of two datasets with different
    defects the smaller group comes first for the code, the first in the database for the
    function on values. *)
Theorem C110_exceptions : exists t dss e e',
  on_objects (update_group_volumes_h t) dss = Err e /\ update_market_production_volumes t MarketGroup dss = Err e' /\ e <> e'.
Proof.
  exists ex_world,
    [set_d_suppliers (Some [ex_supply "b" 2]) (ex_place "g3" "market group for steel" "FR" "steel" MarketGroup 1);
     set_d_suppliers None (ex_place "g1" "market group for steel" "GLO" "steel" MarketGroup 1);
     set_d_suppliers (Some [set_e_code None (ex_supply "a" 30)]) (ex_place "g2" "market group for steel" "RER" "steel" MarketGroup 1)],
    (KeyError "code"), (KeyError "suppliers").
  split_and!; [by_compute|by_compute|done].
Qed.
Print Assumptions C110_exceptions.

Example C110_nonvacuous :
  fmapR (map output_volume) (on_objects (update_group_volumes_h ex_world) ex_groups) = Ok [Some (Qcint 37); Some (Qcint 32); Some (Qcint 100); Some (Qcint 2)] /\
  on_objects (update_group_volumes_h ex_world) ex_groups = update_market_production_volumes ex_world MarketGroup ex_groups /\
  fmapR (map (fun ds => map (fun s => option_map v_amount (e_pv s)) (default [] (d_suppliers ds)))) (on_objects (update_group_volumes_h ex_world) ex_groups)
  = Ok [[Some (Qcint 32); Some (Qcint 5)]; [Some (Qcint 30); Some (Qcint 2)]; []; [Some (Qcint 2)]].
Proof. split_and!; by_compute. Qed.
