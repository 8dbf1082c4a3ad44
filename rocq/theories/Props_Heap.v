(** Property theorems C105: datasets and exchanges as objects. *)
From stdpp Require Import gmap.
From Verif Require Import Base Types Uncertainty Utils Validation Cutoff Recalculation Spec_Recalculation Recalculation_proofs Heap Spec_Heap Heap_proofs Props_Cutoff Props_Allocation.

(** The whole allocation with deep copies and changes in place does what the functions on
    values say, with the same exceptions, for all lists of datasets that share nothing; the
    results share nothing either, and of the objects there were before only those of the
    given datasets are different. *)
Theorem C105_allocation : forall ln recalc, same_length recalc -> forall h Fs xs dss, wf h -> separate h Fs xs dss ->
  does (next h) (concat Fs) (cutoff_allocation_h ln recalc xs) (cutoff_allocation ln recalc dss) (results (next h) (concat Fs)) h.
Proof. exact allocation_proof. Qed.
Print Assumptions C105_allocation.
(** [recalculate] is such a function. *)
Theorem C105_recalculate : forall ln euler order eval, same_length (recalculate ln euler order eval).
Proof.
  intros ln euler order eval ds ds' H. apply recalculate_spec in H as (m & _ & es & ps & -> & HF & _). symmetry. by eapply Forall2_length.
Qed.
Print Assumptions C105_recalculate.

(** Extraction makes datasets that share nothing. *)
Theorem C105_extraction : forall h dss, wf h -> does (next h) [] (mapM store dss) (Ok dss) (results (next h) []) h.
Proof. exact stores_proof. Qed.
Print Assumptions C105_extraction.
(** From extraction through allocation and a later pass over all exchanges: what is read at
    the end is what the functions on values give. *)
Theorem C105_run : forall ln recalc f dss, same_length recalc ->
  ((let! xs := mapM store dss in let! ys := cutoff_allocation_h ln recalc xs in let! _ := pass_h f ys in mapM readD ys) nothing).1
  = (let? outs := cutoff_allocation ln recalc dss in mapR (on_exchanges f) outs).
Proof. exact run_proof. Qed.
Print Assumptions C105_run.
(** Changing exchanges one after the other is a map over values, if nothing is shared. *)
Theorem C105_passes : forall f h Fs xs dss, wf h -> separate h Fs xs dss ->
  does (next h) (concat Fs) (pass_h f xs) (mapR (on_exchanges f) dss) (fun h' _ dss' => separate h' Fs xs dss') h.
Proof. exact pass_proof. Qed.
Print Assumptions C105_passes.

(** These functions change no object that was there, and all they give is new. *)
Theorem C105_copies : forall ln recalc, same_length recalc ->
  copies (economic_h ln) (economic_allocation ln) /\
  copies (waste_h ln) (waste_treatment_allocation ln) /\
  copies (combined_h recalc) (combined_production recalc) /\
  copies (without_products_h ln recalc) (combined_production_without_products ln recalc) /\
  copies (with_byproducts_h ln recalc) (combined_production_with_byproducts ln recalc).
Proof.
  exact (fun ln recalc H => conj (economic_copies ln) (conj (waste_copies ln) (conj (combined_copies recalc H)
    (conj (without_products_copies ln recalc H) (with_byproducts_copies ln recalc H))))).
Qed.
Print Assumptions C105_copies.
(** In particular every dataset that could be read before reads the same afterwards, also
    when there was an exception. *)
Theorem C105_untouched : forall G g, copies G g -> forall h F a ds r h', wf h -> stands h F a ds -> NoDup F -> G a h = (r, h') ->
  forall F2 b ds2, stands h F2 b ds2 -> stands h' F2 b ds2.
Proof. exact untouched_proof. Qed.
Print Assumptions C105_untouched.
(** These use up the dataset that is given to them. *)
Theorem C105_changes : forall ln,
  refines (recycling_h ln) (recycling_allocation ln) /\ refines (split_h ln) (handle_split_dataset ln) /\
  forall h Fs xs dss, wf h -> separate h Fs xs dss ->
    does (next h) (concat Fs) (merge_h xs) (merge_byproducts dss) (results (next h) (concat Fs)) h.
Proof. exact (fun ln => conj (recycling_refines ln) (conj (split_refines ln) merge_spec)). Qed.
Print Assumptions C105_changes.

Definition ex_objects : list dataset := [ex_eco; ex_waste; ex_recycling; ex_comb; ex_comb_by].
Example C105_allocation_nonvacuous :
  ((let! xs := mapM store ex_objects in let! ys := cutoff_allocation_h id ex_recalc xs in mapM readD ys) nothing).1
  = cutoff_allocation id ex_recalc ex_objects /\
  fmapR (@length dataset) (cutoff_allocation id ex_recalc ex_objects) = Ok 11%nat.
Proof. split; by_compute. Qed.
Definition ex_double (d : dataset) (e : exchange) : result exchange := Ok (set_e_amount (Qcint 2 * e_amount e)%Qc e).
Example C105_run_nonvacuous :
  fmapR (map (fun d => map e_amount (d_exchanges d)))
    (let? outs := cutoff_allocation id ex_recalc [ex_eco] in mapR (on_exchanges ex_double) outs) =
  fmapR (map (fun d => map e_amount (d_exchanges d)))
    (((let! xs := mapM store [ex_eco] in let! ys := cutoff_allocation_h id ex_recalc xs in let! _ := pass_h ex_double ys in mapM readD ys) nothing).1).
Proof. by_compute. Qed.
Example C105_copies_nonvacuous :
  ((let! a := store ex_eco in let! ys := economic_h id a in let! _ := pass_h ex_double ys in readD a) nothing).1 = Ok ex_eco /\
  (((let! a := store ex_eco in economic_h id a) nothing).1 = Ok [9; 18]%nat).
Proof. split; by_compute. Qed.

(** Finding: recycling allocation changes the dataset it is given (its reference product
    becomes an input), so that it cannot be called again with the same dataset. *)
Theorem C105_argument_refuted :
  ~ (forall ln h F a ds r h', wf h -> stands h F a ds -> NoDup F -> recycling_h ln a h = (r, h') -> stands h' F a ds) /\
  ((let! a := store ex_recycling in let! _ := recycling_h id a in recycling_h id a) nothing).1 = Err ValueError.
Proof.
  split; [|by_compute]. intros H. destruct (store_spec nothing ex_recycling wf_nothing) as (r & h & Hr & O & a & -> & F & Hst & Hnd & _).
  destruct (recycling_h id a h) as [r h'] eqn:E. specialize (H id h F a ex_recycling r h' ltac:(by eapply only_wf) Hst Hnd E).
  apply readD_eq in H.
  assert (((let! a := store ex_recycling in fun h => readD a ((recycling_h id a h).2)) nothing).1 = Ok ex_recycling) as Hbad.
  { unfold bindM. rewrite Hr, E. cbn [snd]. by rewrite H. }
  apply (bool_decide_eq_true_2 _) in Hbad. vm_compute in Hbad. discriminate.
Qed.
Print Assumptions C105_argument_refuted.

(** Why the copies matter: with an exchange that belongs to two datasets, a pass changes it
    twice. *)
Theorem C105_sharing :
  ~ (forall f h xs dss h', wf h -> mapM readD xs h = (Ok dss, h) -> pass_h f xs h = (Ok tt, h') ->
      exists dss', mapR (on_exchanges f) dss = Ok dss' /\ mapM readD xs h' = (Ok dss', h')).
Proof.
  intros H. set (h := Heap {[0%nat := Exc (ex_flow "1" "scrap" RefProduct 4); 1%nat := Dat dataset0 [0%nat]; 2%nat := Dat dataset0 [0%nat]]} 3).
  set (d := set_d_exchanges [ex_flow "1" "scrap" RefProduct 4] dataset0).
  destruct (H ex_double h [1; 2]%nat [d; d] (pass_h ex_double [1; 2]%nat h).2) as (dss' & H1 & H2).
  - intros x [c Hc]. unfold h in Hc. cbn [cells next h] in *. 
    destruct (decide (x < 3)%nat) as [|Hx]; [done|]. exfalso. rewrite !lookup_insert_ne, lookup_singleton_ne in Hc by lia. done.
  - vm_compute. reflexivity.
  - vm_compute. reflexivity.
  - assert (fmapR (map (fun d => map e_amount (d_exchanges d))) (mapM readD [1; 2]%nat (pass_h ex_double [1; 2]%nat h).2).1 = Ok [[Qcint 16]; [Qcint 16]]) as H3 by by_compute.
    rewrite H2 in H3. cbn [fst] in H3. rewrite <- H1 in H3. apply (bool_decide_eq_true_2 _) in H3. vm_compute in H3. discriminate.
Qed.
Print Assumptions C105_sharing.
