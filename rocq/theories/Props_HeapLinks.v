(** Property theorems C106: linking consumers to markets on objects. *)
From stdpp Require Import gmap.
From Verif Require Import Base Types Utils Cutoff Topology Locations Heap Spec_Heap HeapLinks Heap_proofs HeapLinks_proofs
  Props_Topology Props_Markets Props_Consumers.

(** ** C106 Linking in place gives what linking with the data as given gives *)
(** The loop reads the markets as they are when it gets to them, and changes inputs as
    objects; it ends as the function on values says, with an exception too. *)
Theorem C106_linking : forall ln t h Fs xs dss, wf h -> separate h Fs xs dss ->
  does (next h) (concat Fs) (link_consumers_h ln t xs) (link_consumers_to_markets ln t dss)
    (fun h' _ dss' => results (next h) (concat Fs) h' xs dss') h.
Proof. exact links_proof. Qed.
Print Assumptions C106_linking.
(** After allocation from newly made objects. *)
Theorem C106_run : forall ln t recalc dss, same_length recalc ->
  ((let! xs := mapM store dss in let! ys := cutoff_allocation_h ln recalc xs in let! _ := link_consumers_h ln t ys in mapM readD ys) nothing).1
  = (let? outs := cutoff_allocation ln recalc dss in link_consumers_to_markets ln t outs).
Proof. exact link_run_proof. Qed.
Print Assumptions C106_run.

(** Two equal inputs: both are gone after the first is split, yet both are linked. *)
Definition ex_twice : list dataset :=
  set_d_exchanges (ex_gas "steel" :: ex_gas "steel" :: d_exchanges (ex_user "RER")) (ex_user "RER") :: ex_sellers 10 30.
Definition ex_linked_objects (data : list dataset) : result (list dataset) :=
  ((let! xs := mapM store data in let! _ := link_consumers_h id ex_world xs in mapM readD xs) nothing).1.
Example C106_linking_nonvacuous :
  ex_linked_objects ex_twice = link_consumers_to_markets id ex_world ex_twice /\
  ex_inputs (ex_linked_objects ex_twice) =
    [[(1%Qc, None); (Qcint 2, None); (Qcint 2, Some "m1"%string); (Qcint 6, Some "m2"%string);
      (Qcint 2, Some "m1"%string); (Qcint 6, Some "m2"%string); (Qcint 2, Some "m1"%string); (Qcint 6, Some "m2"%string)]] /\
  ex_linked_objects ex_refinery = link_consumers_to_markets id ex_world ex_refinery /\
  fmapR (@length dataset) (ex_linked_objects ex_refinery) = Ok 6%nat.
Proof. split_and!; by_compute. Qed.
Example C106_run_nonvacuous :
  fmapR (map (fun d => map e_code (d_exchanges d)))
    (((let! xs := mapM store (ex_linked "DE" (ex_sellers 10 30)) in let! ys := cutoff_allocation_h id Ok xs in
       let! _ := link_consumers_h id ex_world ys in mapM readD ys) nothing).1)
  = fmapR (map (fun d => map e_code (d_exchanges d)))
      (let? outs := cutoff_allocation id Ok (ex_linked "DE" (ex_sellers 10 30)) in link_consumers_to_markets id ex_world outs).
Proof. by_compute. Qed.

(** Why nothing may be shared: an input that belongs to two consumers is linked for the
    first one only, and the second one gets that market too. *)
Theorem C106_sharing :
  ~ (forall ln t h xs dss h', wf h -> mapM readD xs h = (Ok dss, h) -> link_consumers_h ln t xs h = (Ok tt, h') ->
      exists dss', link_consumers_to_markets ln t dss = Ok dss' /\ mapM readD xs h' = (Ok dss', h')).
Proof.
  intros H. set (c1 := set_d_exchanges [] (ex_user "FR")). set (c2 := set_d_exchanges [] (ex_user "DE")).
  set (e := ex_gas "steel"). set (m1 := nth 0 (ex_sellers 10 30) dataset0). set (m2 := nth 1 (ex_sellers 10 30) dataset0).
  set (prog := let! x := new (Exc e) in let! a := new (Dat c1 [x]) in let! b := new (Dat c2 [x]) in
               let! ms := mapM store [m1; m2] in retM (a :: b :: ms)).
  set (h := (prog nothing).2).
  assert ((prog nothing).1 = Ok [1; 2; 4; 6]%nat) as Hp by by_compute.
  assert (wf h) as Hw.
  { unfold wf. assert (next h = 7%nat) as -> by by_compute. intros x [c Hc].
    destruct (decide (x < 7)%nat) as [|Hx]; [done|]. exfalso.
    assert (forall y c', cells h !! y = Some c' -> (y ∈ dom (cells h))) as Hd by (intros y c' Hy; by apply elem_of_dom_2 in Hy).
    apply Hd in Hc. assert (dom (cells h) = list_to_set [0; 1; 2; 3; 4; 5; 6]%nat) as E by by_compute. rewrite E in Hc. set_solver by lia. }
  set (dss := [set_d_exchanges [e] c1; set_d_exchanges [e] c2; m1; m2]).
  destruct (H id ex_world h [1; 2; 4; 6]%nat dss (link_consumers_h id ex_world [1; 2; 4; 6]%nat h).2 Hw) as (dss' & H1 & H2).
  - vm_compute. reflexivity.
  - vm_compute. reflexivity.
  - assert (fmapR (fun l => map (fun d => map e_code (d_exchanges d)) (take 2 l)) (mapM readD [1; 2; 4; 6]%nat (link_consumers_h id ex_world [1; 2; 4; 6]%nat h).2).1
      = Ok [[Some "m1"]; [Some "m1"]]%string) as H3 by by_compute.
    rewrite H2 in H3. cbn [fst] in H3. rewrite <- H1 in H3. apply (bool_decide_eq_true_2 _) in H3. vm_compute in H3. discriminate.
Qed.
Print Assumptions C106_sharing.
