(** Properties of what becomes of the flows of the input (C84). *)
From stdpp Require Import gmap.
From Verif Require Import Base Strings Types Uncertainty Spec_Uncertainty Utils Spec_Utils Topology Cutoff Locations Consequential
  Spec_Allocation Spec_Waste Spec_Consumers Spec_Consequential Spec_Untouched Waste_proofs Pipeline Spec_Pipeline Spec_Balance Spec_Marks Spec_Whole
  Shares_proofs Whole_proofs
  Props_Uncertainty Props_Topology Props_Locations Props_Cutoff Props_Untouched Props_Pipeline Props_Balance Props_Marks.

(** ** C84 Everything is shared out *)

(** A dataset that is no market and has at most one reference product is there for some of
    its outputs, each once.  For the amounts that it makes, flows from and to the environment,
    and outputs minus inputs of every product, are together what they are in the input,
    without what is there for the consequential model only. *)
Theorem C84_cutoff : forall w data out, (forall s, w_md5 w s <> ""%string) -> Forall (fun d => d_alloc d = None) data -> unmarked_data data ->
  cutoff_model w data = Ok out ->
  forall d, d ∈ data -> ~ is_market d -> local d -> ~ occurs_in marker (d_name d) -> n_products (counted d) <= 1 ->
  exists products, products ⊆+ filter is_output (d_exchanges d) /\ Forall2 (makes d) products (made_from d out) /\
    (forall i f, together (emitted i f) products (made_from d out) = emitted i f (counted d)) /\
    (forall n, ~ occurs_in marker n -> n <> "refinery gas"%string -> together (net n) products (made_from d out) = net n (counted d)).
Proof. exact cutoff_whole. Qed.
Print Assumptions C84_cutoff.

(** There is one factor for all flows from and to the environment, in every dataset of the
    result that is no market. *)
Theorem C84_shared : forall w data out, (forall s, w_md5 w s <> ""%string) -> Forall (fun d => d_alloc d = None) data -> unmarked_data data ->
  cutoff_model w data = Ok out ->
  forall ds, ds ∈ out -> ~ is_market ds -> exists d, d ∈ data /\ d_id ds = d_id d /\
    (n_products (counted d) <= 1 -> exists k, forall i f, emitted i f ds = (k * emitted i f (counted d))%Qc).
Proof. exact cutoff_shared. Qed.
Print Assumptions C84_shared.

(** Steel and heat share slag, scrap and an emission; some more of it does not count. *)
Definition ex_whole : list dataset :=
  [ex_raw "1" "steelmaking" "FR" Transforming
     [ex_made 30 (ex_product "s1" "steel" RefProduct 2 10); ex_made 5 (ex_product "s2" "heat" Byproduct 4 5);
      set_e_class (Some Waste) (ex_made 5 (ex_flow "s3" "slag" Byproduct 1)); ex_air "s4" "carbon dioxide" ToEnvironment 6;
      set_e_class (Some Recyclable) (ex_flow "s5" "scrap" Byproduct 8);
      set_e_props [ex_prop "consequential" 1] (ex_air "s4" "carbon dioxide" ToEnvironment 100)];
   ex_raw "2" "market for steel" "FR" MarketActivity [ex_made 0 (ex_product "m1" "steel" RefProduct 1 10)];
   ex_raw "3" "carmaking" "FR" Transforming
     [ex_made 1 (ex_product "c1" "car" RefProduct 1 10); ex_flow "c2" "steel" FromTechnosphere 3];
   ex_raw "4" "slag treatment" "FR" Transforming
     [ex_made 4 (set_e_class (Some Waste) (ex_flow "t1" "slag" RefProduct (-1)))];
   ex_raw "5" "market for slag" "FR" MarketActivity
     [ex_made 0 (set_e_class (Some Waste) (ex_flow "w1" "slag" RefProduct (-1)))];
   ex_raw "6" "market for scrap" "FR" MarketActivity [ex_made 0 (ex_product "k1" "scrap" RefProduct 1 10)]]%string.
Definition ex_whole_out : list dataset := match cutoff_model ex_w ex_whole with Ok o => o | Err _ => [] end.
Definition ex_co2 : string * etype * option string * option string := ("carbon dioxide", ToEnvironment, Some "air", Some "low")%string.
Example C84_nonvacuous : (forall s, w_md5 ex_w s <> ""%string) /\ Forall (fun d => d_alloc d = None) ex_whole /\ unmarked_data ex_whole /\
  is_ok (cutoff_model ex_w ex_whole) = true /\
  exists d products, d ∈ ex_whole /\ ~ is_market d /\ local d /\ ~ occurs_in marker (d_name d) /\ n_products (counted d) = 1 /\
    products = firstn 2 (d_exchanges d) /\
    map (fun ds => (made ds, emitted (Some "s4"%string) ex_co2 ds, net "slag" ds, net "scrap" ds)) (made_from d ex_whole_out) =
      [(1, frac 3 2, frac 1 4, Qcint 2); (1, frac 3 4, frac 1 8, 1)]%Qc /\
    together (emitted (Some "s4"%string) ex_co2) products (made_from d ex_whole_out) = Qcint 6 /\
    emitted (Some "s4"%string) ex_co2 (counted d) = Qcint 6 /\ emitted (Some "s4"%string) ex_co2 d = Qcint 106 /\
    together (net "scrap") products (made_from d ex_whole_out) = Qcint 8 /\ net "scrap" (counted d) = Qcint 8 /\
    together (net "steel") products (made_from d ex_whole_out) = Qcint 2.
Proof.
  split; [by intros s|]. split; [repeat constructor|]. split; [apply short_unmarked; by vm_compute|]. split; [by vm_compute|].
  exists (nth 0 ex_whole dataset0), (firstn 2 (d_exchanges (nth 0 ex_whole dataset0))). split; [by left|]. split; [by intros [?|?]|]. split; [done|].
  split. { intros (a & b & E).
    assert (String.length (a ++ marker ++ b) < String.length marker) as L by (rewrite <- E; apply Nat.ltb_lt; by vm_compute).
    rewrite !Utils_proofs.str_app_length in L. lia. }
  split; [by_compute|]. split; [done|]. split; [by_compute|]. split; [by_compute|]. split; [by_compute|]. split; [by_compute|]. split; [by_compute|].
  split; by_compute.
Qed.

(** With several reference products, each has all of a flow that no formula shares out. *)
Definition ex_two : list dataset :=
  [ex_raw "1" "refining" "FR" Transforming
     [ex_made 3 (ex_product "p1" "petrol" RefProduct 2 10); ex_made 4 (ex_product "p2" "diesel" RefProduct 4 5);
      ex_air "p3" "carbon dioxide" ToEnvironment 6]]%string.
Definition ex_two_out : list dataset := match cutoff_model ex_w ex_two with Ok o => o | Err _ => [] end.
Theorem C84_combined_refuted : exists w data out d i f, (forall s, w_md5 w s <> ""%string) /\ Forall (fun d => d_alloc d = None) data /\
  unmarked_data data /\ cutoff_model w data = Ok out /\
  d ∈ data /\ ~ is_market d /\ local d /\ n_products (counted d) = 2 /\ emitted i f (counted d) = Qcint 6 /\
  map (fun ds => map e_name (filter is_refproduct (d_exchanges ds))) (made_from d out) = map (fun e => [e_name e]) (filter is_output (d_exchanges d)) /\
  together (emitted i f) (filter is_output (d_exchanges d)) (made_from d out) = Qcint 12.
Proof.
  exists ex_w, ex_two, ex_two_out, (nth 0 ex_two dataset0), (Some "p3"%string), ex_co2.
  split; [by intros s|]. split; [repeat constructor|]. split; [apply short_unmarked; by vm_compute|].
  split; [by apply ok_of; vm_compute|]. split; [by left|]. split; [by intros [?|?]|]. split; [done|]. split; [by_compute|]. split; [by_compute|].
  split; by_compute.
Qed.
Print Assumptions C84_combined_refuted.

(** What the rest of the world makes is nothing, and its flows are gone. *)
Definition ex_world_steel : list dataset :=
  [ex_raw "1" "steelmaking" "GLO" Transforming
     [ex_made 5 (ex_product "s1" "steel" RefProduct 2 10); ex_air "s4" "carbon dioxide" ToEnvironment 6];
   ex_raw "2" "steelmaking" "FR" Transforming
     [ex_made 5 (ex_product "s1" "steel" RefProduct 2 10); ex_air "s4" "carbon dioxide" ToEnvironment 8];
   ex_raw "3" "market for steel" "GLO" MarketActivity [ex_made 0 (ex_product "m1" "steel" RefProduct 1 10)]]%string.
Definition ex_world_out : list dataset := match cutoff_model ex_w ex_world_steel with Ok o => o | Err _ => [] end.
Theorem C84_rest_of_world_refuted : exists w data out d i f, (forall s, w_md5 w s <> ""%string) /\ Forall (fun d => d_alloc d = None) data /\
  unmarked_data data /\ cutoff_model w data = Ok out /\
  d ∈ data /\ ~ is_market d /\ n_products (counted d) = 1 /\ emitted i f (counted d) = Qcint 6 /\ made_from d out = [].
Proof.
  exists ex_w, ex_world_steel, ex_world_out, (nth 0 ex_world_steel dataset0), (Some "s4"%string), ex_co2.
  split; [by intros s|]. split; [repeat constructor|]. split; [apply short_unmarked; by vm_compute|].
  split; [by apply ok_of; vm_compute|]. split; [by left|]. split; [by intros [?|?]|]. split; [by_compute|]. split; by_compute.
Qed.
Print Assumptions C84_rest_of_world_refuted.
