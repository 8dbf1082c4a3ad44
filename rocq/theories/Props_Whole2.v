(** Properties of what becomes of the flows of the input of the consequential model (C85). *)
From stdpp Require Import gmap.
From Verif Require Import Base Strings Types Uncertainty Spec_Uncertainty Utils Spec_Utils Topology Cutoff Locations Consequential
  Spec_Allocation Spec_Waste Spec_Consumers Spec_Consequential Spec_Untouched Waste_proofs Pipeline Spec_Pipeline Spec_Balance Spec_Marks Spec_Whole
  Shares_proofs Whole_proofs Whole2_proofs
  Props_Uncertainty Props_Topology Props_Locations Props_Cutoff Props_Untouched Props_Pipeline Props_Balance Props_Marks Props_Whole.

(** ** C85 In the consequential model nothing is shared out *)

(** Every dataset of a result that is no market is a dataset of the input.  If that has at
    most one reference product, there is one factor for everything: for all flows from and to
    the environment, and outputs minus inputs of every product. *)
Theorem C85_consequential : forall w data out, (forall s, w_md5 w s <> ""%string) ->
  (forall ds e, ds ∈ data -> e ∈ d_exchanges ds -> conditional e -> e_type e = Byproduct) ->
  consequential_model w data = Ok out ->
  forall ds, ds ∈ out -> ~ is_market ds ->
  exists d, d ∈ data /\ d_id ds = d_id d /\ d_name ds = d_name d /\ d_type ds = d_type d /\
    (length (filter is_refproduct (d_exchanges d)) <= 1 ->
     exists k, (0 < k)%Qc /\ (k = 1 \/ made ds = 1 \/ made ds = - (1))%Qc /\
       (forall i f, emitted i f ds = (emitted i f d * k)%Qc) /\
       (forall n, n <> "refinery gas"%string -> net n ds = (net n d * k)%Qc)).
Proof. exact consequential_whole. Qed.
Print Assumptions C85_consequential.

(** With at most one reference product, there is one dataset in the result. *)
Theorem C85_once : forall w data out, (forall s, w_md5 w s <> ""%string) ->
  (forall ds e, ds ∈ data -> e ∈ d_exchanges ds -> conditional e -> e_type e = Byproduct) ->
  consequential_model w data = Ok out ->
  forall d, d ∈ data -> local d -> length (filter is_refproduct (d_exchanges d)) <= 1 ->
  exists ds, filter (fun ds => d_id ds = d_id d) out = [ds].
Proof. exact consequential_once. Qed.
Print Assumptions C85_once.

(** Crude oil is a conditional product of pressing, and what refining then makes. *)
Definition ex_oil (t : etype) : list dataset :=
  [ex_raw "1" "refining" "FR" Transforming
     [ex_made 3 (ex_product "r1" "refined oil" RefProduct 1 10); ex_made 2 (ex_product "r2" "crude oil" FromTechnosphere (-2) 10);
      ex_air "r3" "carbon dioxide" ToEnvironment 6];
   ex_raw "2" "market for refined oil" "FR" MarketActivity
     [ex_made 0 (ex_product "m1" "refined oil" RefProduct 1 10)];
   ex_raw "3" "pressing" "FR" Transforming
     [ex_made 3 (ex_product "o1" "refined oil" RefProduct 1 10);
      set_e_cond (Some true) (set_e_link (Some "1"%string) (ex_made 2 (ex_product "o2" "crude oil" t 1 10)))];
   ex_raw "4" "market for crude oil" "FR" MarketActivity [ex_made 0 (ex_product "c1" "crude oil" RefProduct 1 10)]]%string.
Definition ex_oil_out (t : etype) : list dataset := match consequential_model ex_w (ex_oil t) with Ok o => o | Err _ => [] end.
Definition ex_flows (d : dataset) : nat * Qc * Qc * Qc :=
  (length (filter is_refproduct (d_exchanges d)), emitted (Some "r3"%string) ex_co2 d, net "refined oil" d, net "crude oil" d).
Example C85_nonvacuous : (forall s, w_md5 ex_w s <> ""%string) /\
  (forall ds e, ds ∈ ex_oil Byproduct -> e ∈ d_exchanges ds -> conditional e -> e_type e = Byproduct) /\
  is_ok (consequential_model ex_w (ex_oil Byproduct)) = true /\
  Forall local (ex_oil Byproduct) /\
  map ex_flows (ex_oil Byproduct) =
    [(1%nat, Qcint 6, 1, Qcint 2); (1%nat, 0, 1, 0); (1%nat, 0, 1, 1); (1%nat, 0, 0, 1)]%Qc /\
  map (fun ds => (d_id ds, made ds, ex_flows ds)) (filter (fun ds => ~ is_market ds) (ex_oil_out Byproduct)) =
    [("1"%string, 1, (1%nat, Qcint 3, frac 1 2, 1)); ("3"%string, 1, (1%nat, 0, 1, 1))]%Qc /\
  exists e e', (nth 0 (ex_oil Byproduct) dataset0) ∈ ex_oil Byproduct /\
    filter is_refproduct (d_exchanges (nth 0 (ex_oil Byproduct) dataset0)) = [e] /\
    filter is_refproduct (d_exchanges (nth 0 (ex_oil_out Byproduct) dataset0)) = [e'] /\
    e_name e = "refined oil"%string /\ e_name e' = "crude oil"%string.
Proof.
  split; [by intros s|]. split.
  { assert (Forall (fun ds => Forall (fun e => conditional e -> e_type e = Byproduct) (d_exchanges ds)) (ex_oil Byproduct)) as H by by_compute.
    rewrite Forall_forall in H. intros ds e Hds He. specialize (H ds Hds). rewrite Forall_forall in H. by apply H. }
  split; [by vm_compute|]. split; [repeat constructor; done|]. split; [by_compute|]. split; [by_compute|].
  eexists _, _. split; [by left|]. split; [by vm_compute|]. split; [by vm_compute|]. split; by vm_compute.
Qed.

(** An input that is conditional becomes something that is sold. *)
Theorem C85_conditional_refuted : exists w data out d ds, (forall s, w_md5 w s <> ""%string) /\ consequential_model w data = Ok out /\
  d ∈ data /\ ~ is_market d /\ local d /\ made_from d out = [ds] /\
  map e_amount (filter is_refproduct (d_exchanges d)) = [1%Qc] /\ map e_amount (filter is_refproduct (d_exchanges ds)) = [1%Qc] /\
  net "crude oil" d = (- (1))%Qc /\ net "crude oil" ds = 1%Qc.
Proof.
  exists ex_w, (ex_oil FromTechnosphere), (ex_oil_out FromTechnosphere), (nth 2 (ex_oil FromTechnosphere) dataset0),
    (nth 2 (ex_oil_out FromTechnosphere) dataset0).
  split; [by intros s|]. split; [by apply ok_of; vm_compute|]. split; [by do 2 right; left|]. split; [by intros [?|?]|]. split; [done|].
  split; [by vm_compute|]. split; [by_compute|]. split; [by_compute|]. split; by_compute.
Qed.
Print Assumptions C85_conditional_refuted.

(** A conditional flow to the environment becomes an input. *)
Theorem C85_conditional_flow_refuted : exists w data out d ds i f, (forall s, w_md5 w s <> ""%string) /\ consequential_model w data = Ok out /\
  d ∈ data /\ ~ is_market d /\ local d /\ made_from d out = [ds] /\
  map e_amount (filter is_refproduct (d_exchanges d)) = [1%Qc] /\ map e_amount (filter is_refproduct (d_exchanges ds)) = [1%Qc] /\
  emitted i f d = 1%Qc /\ emitted i f ds = 0%Qc.
Proof.
  exists ex_w, (ex_oil ToEnvironment), (ex_oil_out ToEnvironment), (nth 2 (ex_oil ToEnvironment) dataset0),
    (nth 2 (ex_oil_out ToEnvironment) dataset0), (Some "o2"%string), ("crude oil", ToEnvironment, None, None)%string.
  split; [by intros s|]. split; [by apply ok_of; vm_compute|]. split; [by do 2 right; left|]. split; [by intros [?|?]|]. split; [done|].
  split; [by vm_compute|]. split; [by_compute|]. split; [by_compute|]. split; by_compute.
Qed.
Print Assumptions C85_conditional_flow_refuted.

(** With several reference products, each has all of a flow that no formula shares out. *)
Definition ex_two_result : list dataset := match consequential_model ex_w ex_two with Ok o => o | Err _ => [] end.
Theorem C85_combined_refuted : exists w data out d i f, (forall s, w_md5 w s <> ""%string) /\
  (forall ds e, ds ∈ data -> e ∈ d_exchanges ds -> ~ conditional e) /\ consequential_model w data = Ok out /\
  d ∈ data /\ ~ is_market d /\ local d /\ emitted i f d = Qcint 6 /\
  map (fun ds => map e_name (filter is_refproduct (d_exchanges ds))) (made_from d out) = map (fun e => [e_name e]) (filter is_refproduct (d_exchanges d)) /\
  together (emitted i f) (filter is_refproduct (d_exchanges d)) (made_from d out) = Qcint 12.
Proof.
  exists ex_w, ex_two, ex_two_result, (nth 0 ex_two dataset0), (Some "p3"%string), ex_co2.
  split; [by intros s|]. split.
  { assert (Forall (fun ds => Forall (fun e => ~ conditional e) (d_exchanges ds)) ex_two) as H by by_compute.
    rewrite Forall_forall in H. intros ds e Hds He. specialize (H ds Hds). rewrite Forall_forall in H. by apply H. }
  split; [by apply ok_of; vm_compute|]. split; [by left|]. split; [by intros [?|?]|]. split; [done|]. split; [by_compute|]. split; by_compute.
Qed.
Print Assumptions C85_combined_refuted.
