(** Property theorems C109: suppliers, volumes and inputs of markets on objects. *)
From stdpp Require Import gmap.
From Verif Require Import Base Types Utils Validation ActivityLinks Cutoff Topology Locations Heap Spec_Heap HeapLinks HeapMarkets
  Heap_proofs HeapLinks_proofs HeapMarkets_proofs Props_Topology Props_ActivityLinks Props_Locations Props_Markets Props_HeapHard.

(** ** C109 Groups of datasets that are changed one after the other *)
(** A market that already got suppliers may be read as the supplier of another one, or of
    itself. *)
Theorem C109_suppliers : forall ord t from_type to_type h Fs xs dss, wf h -> separate h Fs xs dss ->
  does (next h) (concat Fs) (add_suppliers_h ord t from_type to_type xs) (add_suppliers_to_markets ord t from_type to_type dss)
    (fun h' _ dss' => separate h' Fs xs dss') h.
Proof. exact suppliers_proof. Qed.
Print Assumptions C109_suppliers.
Theorem C109_recycled : forall ord t h Fs xs dss, wf h -> separate h Fs xs dss ->
  does (next h) (concat Fs) (add_recycled_h ord t xs) (add_recycled_content_suppliers_to_markets ord t dss)
    (fun h' _ dss' => separate h' Fs xs dss') h.
Proof. exact recycled_suppliers_proof. Qed.
Print Assumptions C109_recycled.
Theorem C109_volumes : forall t h Fs xs dss, wf h -> separate h Fs xs dss ->
  does (next h) (concat Fs) (update_volumes_h xs) (update_market_production_volumes t MarketActivity dss)
    (fun h' _ dss' => separate h' Fs xs dss') h.
Proof. exact volumes_proof. Qed.
Print Assumptions C109_volumes.
(** Only here objects are made: the inputs. *)
Theorem C109_inputs : forall kind h Fs xs dss, wf h -> separate h Fs xs dss ->
  does (next h) (concat Fs) (allocate_all_h kind xs) (allocate_all_market_suppliers kind dss)
    (fun h' _ dss' => results (next h) (concat Fs) h' xs dss') h.
Proof. exact allocate_all_proof. Qed.
Print Assumptions C109_inputs.
(** One after the other, from newly made objects. *)
Theorem C109_run : forall ord ln t from_type dss,
  ((let! xs := mapM store dss in let! _ := add_recycled_h ord t xs in let! _ := add_suppliers_h ord t from_type MarketActivity xs in
    let! _ := update_volumes_h xs in let! _ := allocate_all_h MarketActivity xs in let! _ := link_consumers_h ln t xs in mapM readD xs) nothing).1
  = (let? d1 := add_recycled_content_suppliers_to_markets ord t dss in let? d2 := add_suppliers_to_markets ord t from_type MarketActivity d1 in
     let? d3 := update_market_production_volumes t MarketActivity d2 in let? d4 := allocate_all_market_suppliers MarketActivity d3 in
     link_consumers_to_markets ln t d4).
Proof. exact markets_run_proof. Qed.
Print Assumptions C109_run.

Definition ex_two_products : list dataset :=
  drop 1 ex_steel_markets ++
  [ex_place "10" "market for ore" "GLO" "ore" MarketActivity 0;
   ex_place "11" "ore, Recycled Content cut-off" "US" "ore, Recycled Content cut-off" Transforming 4].
Definition ex_from (data : result (list dataset)) : result (list (list (option string))) :=
  fmapR (map (fun ds => map e_code (default [] (d_suppliers ds)))) data.
Definition ex_sorted (s : gset string) : list string := isort str_leb (elements s).
Example C109_suppliers_nonvacuous :
  ex_from (on_objects (add_suppliers_h ex_sorted ex_world Transforming MarketActivity) ex_two_products)
  = Ok [[]; []; []; []; [Some "4"; Some "2"; Some "3"]; []; [Some "9"]; []; [Some "5"]; []]%string /\
  on_objects (add_suppliers_h ex_sorted ex_world Transforming MarketActivity) ex_two_products
  = add_suppliers_to_markets ex_sorted ex_world Transforming MarketActivity ex_two_products /\
  ex_from (on_objects (add_suppliers_h ex_sorted ex_world MarketActivity MarketActivity) ex_two_products)
  = Ok [[]; []; []; []; [Some "6"]; [Some "7"]; [Some "8"]; []; [Some "10"]; []]%string /\
  on_objects (add_suppliers_h ex_sorted ex_world Transforming MarketActivity)
    (ex_two_products ++ [ex_place "12" "market for steel" "FR" "steel" MarketActivity 0]) = Err OverlappingActivities.
Proof. split_and!; by_compute. Qed.
Example C109_recycled_nonvacuous :
  ex_from (on_objects (add_recycled_h ex_sorted ex_world) ex_two_products) = Ok [[]; []; []; []; []; []; []; []; [Some "11"]; []]%string /\
  on_objects (add_recycled_h ex_sorted ex_world) ex_two_products = add_recycled_content_suppliers_to_markets ex_sorted ex_world ex_two_products.
Proof. split_and!; by_compute. Qed.
Definition ex_ready : list dataset :=
  match add_suppliers_to_markets ex_sorted ex_world Transforming MarketActivity ex_two_products with Ok d => d | Err _ => [] end.
Example C109_volumes_nonvacuous :
  fmapR (map (fun ds => map (fun e => option_map v_amount (e_pv e)) (d_exchanges ds))) (on_objects update_volumes_h (drop 4 ex_ready))
  = Ok [[Some (Qcint 140); None]; [Some 0%Qc; None]; [Some (Qcint 10); None]; [Some (Qcint 10); None]; [Some (Qcint 60); None]; [Some (Qcint 4); None]] /\
  on_objects update_volumes_h ex_ready = update_market_production_volumes ex_world MarketActivity ex_ready.
Proof. split_and!; by_compute. Qed.
Example C109_inputs_nonvacuous :
  fmapR (map (fun ds => map (fun e => (e_code e, e_amount e)) (drop 2 (d_exchanges ds)))) (on_objects (allocate_all_h MarketActivity) (drop 4 ex_ready))
  = Ok [[(Some "4", frac 3 7); (Some "2", frac 3 14); (Some "3", frac 5 14)]; []; [(Some "9", 1%Qc)]; []; [(Some "5", 1%Qc)]; []]%string /\
  on_objects (allocate_all_h MarketActivity) ex_ready = allocate_all_market_suppliers MarketActivity ex_ready.
Proof. split_and!; by_compute. Qed.
Example C109_run_nonvacuous :
  fmapR (map (fun ds => map (fun e => e_code e) (d_exchanges ds)))
    (((let! xs := mapM store ex_two_products in let! _ := add_recycled_h ex_sorted ex_world xs in let! _ := add_suppliers_h ex_sorted ex_world Transforming MarketActivity xs in
       let! _ := update_volumes_h xs in let! _ := allocate_all_h MarketActivity xs in let! _ := link_consumers_h id ex_world xs in mapM readD xs) nothing).1)
  = Ok [[None; Some "10"]; [None; Some "10"]; [None; Some "10"]; [None; Some "10"]; [None; Some "10"; Some "4"; Some "2"; Some "3"]; [None; Some "10"];
        [None; Some "10"; Some "9"]; [None; Some "10"]; [None; Some "10"; Some "11"]; [None; Some "10"]]%string.
Proof. by_compute. Qed.

(** Why nothing may be shared: of two markets with one product the second decides on both. *)
Theorem C109_sharing :
  ~ (forall t h xs dss h', wf h -> mapM readD xs h = (Ok dss, h) -> update_volumes_h xs h = (Ok tt, h') ->
      exists dss', update_market_production_volumes t MarketActivity dss = Ok dss' /\ mapM readD xs h' = (Ok dss', h')).
Proof.
  intros H. set (p := ex_out "steel" 1 100).
  set (d := fun n => set_d_type MarketActivity (set_d_suppliers (Some [set_e_pv (Some (set_v_amount (Qcint n) pvol0)) exchange0]) dataset0)).
  set (prog := let! x := new (Exc p) in let! a := new (Dat (d 3%Z) [x]) in let! b := new (Dat (d 4%Z) [x]) in retM [a; b]).
  set (h := (prog nothing).2).
  assert ((prog nothing).1 = Ok [1; 2]%nat) as Hp by by_compute.
  assert (wf h) as Hw.
  { unfold wf. assert (next h = 3%nat) as -> by by_compute. intros x [c Hc].
    destruct (decide (x < 3)%nat) as [|Hx]; [done|]. exfalso. apply elem_of_dom_2 in Hc.
    assert (dom (cells h) = list_to_set [0; 1; 2]%nat) as E by by_compute. rewrite E in Hc. set_solver by lia. }
  destruct (H ex_world h [1; 2]%nat [set_d_exchanges [p] (d 3%Z); set_d_exchanges [p] (d 4%Z)] (update_volumes_h [1; 2]%nat h).2 Hw) as (dss' & H1 & H2).
  - vm_compute. reflexivity.
  - vm_compute. reflexivity.
  - assert (fmapR (map (fun d => map (fun e => option_map v_amount (e_pv e)) (d_exchanges d))) (mapM readD [1; 2]%nat (update_volumes_h [1; 2]%nat h).2).1
      = Ok [[Some (Qcint 4)]; [Some (Qcint 4)]]) as H3 by by_compute.
    rewrite H2 in H3. cbn [fst] in H3. rewrite <- H1 in H3. apply (bool_decide_eq_true_2 _) in H3. vm_compute in H3. discriminate.
Qed.
Print Assumptions C109_sharing.
