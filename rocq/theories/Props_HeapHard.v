(** Property theorems C107: hard links and recycled content on objects. *)
From stdpp Require Import gmap.
From Verif Require Import Base Types Utils Validation ActivityLinks Cutoff Topology Locations Heap Spec_Heap HeapLinks HeapHard
  Heap_proofs HeapLinks_proofs HeapHard_proofs Props_Topology Props_ActivityLinks.

(** ** C107 Passes that read the datasets they are changing *)
(** A hard link changes an exchange of another dataset, which may itself be read before or
    after. *)
Theorem C107_hard_links : forall h Fs xs dss, wf h -> separate h Fs xs dss ->
  does (next h) (concat Fs) (add_hard_h xs) (add_hard_linked_production_volumes dss) (fun h' _ dss' => separate h' Fs xs dss') h.
Proof. exact hard_proof. Qed.
Print Assumptions C107_hard_links.
Theorem C107_codes : forall h Fs xs dss, wf h -> separate h Fs xs dss ->
  does (next h) (concat Fs) (actualize_h xs) (actualize_activity_links dss) (fun h' _ dss' => separate h' Fs xs dss') h.
Proof. exact actualize_proof. Qed.
Print Assumptions C107_codes.
Theorem C107_recycled : forall h Fs xs dss, wf h -> separate h Fs xs dss ->
  does (next h) (concat Fs) (link_recycled_h xs) (link_consumers_to_recycled_content_activities dss)
    (fun h' _ dss' => separate h' Fs xs dss') h.
Proof. exact recycled_proof. Qed.
Print Assumptions C107_recycled.
(** One after the other, from newly made objects. *)
Theorem C107_run : forall ln t recalc dss, same_length recalc ->
  ((let! xs := mapM store dss in let! _ := add_hard_h xs in let! ys := cutoff_allocation_h ln recalc xs in let! _ := actualize_h ys in
    let! _ := link_recycled_h ys in let! _ := link_consumers_h ln t ys in mapM readD ys) nothing).1
  = (let? d1 := add_hard_linked_production_volumes dss in let? d2 := cutoff_allocation ln recalc d1 in let? d3 := actualize_activity_links d2 in
     let? d4 := link_consumers_to_recycled_content_activities d3 in link_consumers_to_markets ln t d4).
Proof. exact hard_run_proof. Qed.
Print Assumptions C107_run.

(** Links in a circle, one to itself, and two datasets with one id. *)
Definition ex_circle : list dataset :=
  map (fun ds => if (d_id ds =? "A")%string then set_d_exchanges (d_exchanges ds ++ [ex_in "car" "B" 2; ex_in "steel" "A" 5]) ds else ds)
    (set_d_id "B" (set_d_exchanges [ex_out "car" 1 7] dataset0) :: ex_links).
Definition on_objects (m : list nat -> M unit) (data : list dataset) : result (list dataset) :=
  ((let! xs := mapM store data in let! _ := m xs in mapM readD xs) nothing).1.
Example C107_hard_links_nonvacuous :
  fmapR (map (fun ds => map (fun e => e_pv e ≫= v_subtracted) (d_exchanges ds))) (on_objects add_hard_h ex_circle)
  = Ok [[None]; [Some (Qcint 70); None; None]; [Some (Qcint 200); None; None]; [None; None]] /\
  on_objects add_hard_h ex_circle = add_hard_linked_production_volumes ex_circle /\
  on_objects add_hard_h (drop 2 ex_circle) = Err (KeyError "A").
Proof. split_and!; by_compute. Qed.
Definition ex_coded : list dataset :=
  map (fun ds => set_d_code (Some ("code " ++ d_id ds)%string) (set_d_refprod (option_map e_name (hd_error (d_exchanges ds))) ds))
    (ex_circle ++ [set_d_id "R" (set_d_type Transforming (set_d_exchanges [ex_out "iron, Recycled Content cut-off" 1 1] dataset0));
                   set_d_id "U" (set_d_type Transforming (set_d_exchanges
                     [ex_out "nail" 1 1; set_e_link None (ex_in "iron, Recycled Content cut-off" "" 3); set_e_link None (ex_in "iron" "" 3)] dataset0))]).
Example C107_codes_nonvacuous :
  fmapR (map (fun ds => map e_code (d_exchanges ds))) (on_objects actualize_h ex_coded)
  = Ok [[None]; [None; None; Some "code A"]; [None; Some "code A"; Some "code A"]; [None; Some "code A"]; [None]; [None; None; None]]%string /\
  on_objects actualize_h ex_coded = actualize_activity_links ex_coded.
Proof. split_and!; by_compute. Qed.
Example C107_recycled_nonvacuous :
  fmapR (map (fun ds => map e_code (d_exchanges ds))) (on_objects link_recycled_h (drop 4 ex_coded)) = Ok [[None]; [None; Some "code R"; None]]%string /\
  on_objects link_recycled_h ex_coded = link_consumers_to_recycled_content_activities ex_coded.
Proof. split_and!; by_compute. Qed.
Example C107_run_nonvacuous :
  fmapR (map (fun ds => map (fun e => (e_code e, e_pv e ≫= v_subtracted)) (d_exchanges ds)))
    (((let! xs := mapM store (drop 4 ex_coded) in let! _ := add_hard_h xs in let! ys := cutoff_allocation_h id Ok xs in let! _ := actualize_h ys in
       let! _ := link_recycled_h ys in mapM readD ys) nothing).1)
  = fmapR (map (fun ds => map (fun e => (e_code e, e_pv e ≫= v_subtracted)) (d_exchanges ds)))
    (let? d1 := add_hard_linked_production_volumes (drop 4 ex_coded) in let? d2 := cutoff_allocation id Ok d1 in let? d3 := actualize_activity_links d2 in
     link_consumers_to_recycled_content_activities d3).
Proof. by_compute. Qed.

(** Why nothing may be shared: with one product in two datasets, what is taken from the one
    is taken from the other as well. *)
Theorem C107_sharing :
  ~ (forall h xs dss h', wf h -> mapM readD xs h = (Ok dss, h) -> add_hard_h xs h = (Ok tt, h') ->
      exists dss', add_hard_linked_production_volumes dss = Ok dss' /\ mapM readD xs h' = (Ok dss', h')).
Proof.
  intros H. set (p := ex_out "steel" 1 100). set (d := fun i : string => set_d_id i dataset0). set (u := nth 2 ex_links dataset0).
  set (prog := let! x := new (Exc p) in let! a := new (Dat (d "A") [x]) in let! b := new (Dat (d "B") [x]) in
               let! c := store u in retM [a; b; c]).
  set (h := (prog nothing).2).
  assert ((prog nothing).1 = Ok [1; 2; 5]%nat) as Hp by by_compute.
  assert (wf h) as Hw.
  { unfold wf. assert (next h = 6%nat) as -> by by_compute. intros x [c Hc].
    destruct (decide (x < 6)%nat) as [|Hx]; [done|]. exfalso. apply elem_of_dom_2 in Hc.
    assert (dom (cells h) = list_to_set [0; 1; 2; 3; 4; 5]%nat) as E by by_compute. rewrite E in Hc. set_solver by lia. }
  destruct (H h [1; 2; 5]%nat [set_d_exchanges [p] (d "A"); set_d_exchanges [p] (d "B"); u] (add_hard_h [1; 2; 5]%nat h).2 Hw) as (dss' & H1 & H2).
  - vm_compute. reflexivity.
  - vm_compute. reflexivity.
  - assert (fmapR (map (fun d => map (fun e => e_pv e ≫= v_subtracted) (d_exchanges d))) (mapM readD [1; 2; 5]%nat (add_hard_h [1; 2; 5]%nat h).2).1
      = Ok [[Some (Qcint 50)]; [Some (Qcint 50)]; [None; None]]) as H3 by by_compute.
    rewrite H2 in H3. cbn [fst] in H3. rewrite <- H1 in H3. apply (bool_decide_eq_true_2 _) in H3. vm_compute in H3. discriminate.
Qed.
Print Assumptions C107_sharing.
