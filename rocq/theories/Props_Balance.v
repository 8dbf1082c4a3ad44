(** Properties of what a run takes and gives (C78). *)
From stdpp Require Import gmap.
From Verif Require Import Base Strings Types Uncertainty Spec_Uncertainty Utils Spec_Utils Topology Cutoff Locations Consequential
  Spec_Waste Spec_Consumers Spec_Consequential Spec_Untouched Waste_proofs Pipeline Spec_Pipeline Spec_Balance Balance_proofs
  Props_Uncertainty Props_Topology Props_Locations Props_Cutoff Props_Untouched Props_Pipeline.

(** ** C78 From allocation to the result, amounts are only normalised *)

(** Every dataset of a result is one of those after allocation, in their order.  For what
    is not a market there is one factor for everything: the flows from and to the
    environment one by one, and outputs minus inputs of every product. *)
Theorem C78_cutoff : forall w data out prepared allocated, (forall s, w_md5 w s <> ""%string) ->
  cutoff_prepared w data = Ok prepared -> cutoff_allocated w prepared = Ok allocated -> Forall marked_once allocated ->
  cutoff_model w data = Ok out ->
  exists base, sublist base allocated /\ filter local base = filter local allocated /\
    Forall2 (fun a ds => frame ds = frame a /\ (~ is_market ds -> per_unit net_called a ds)) base out.
Proof. exact cutoff_balance. Qed.
Print Assumptions C78_cutoff.

Theorem C78_consequential : forall w data out prepared, (forall s, w_md5 w s <> ""%string) ->
  consequential_prepared w data = Ok prepared -> consequential_model w data = Ok out ->
  exists base, sublist base prepared /\ filter local base = filter local prepared /\
    Forall2 (fun a ds => frame ds = frame a /\ (~ is_market ds -> per_unit net a ds)) base out.
Proof. exact consequential_balance. Qed.
Print Assumptions C78_consequential.

Definition unmarked (data : list dataset) : bool :=
  forallb (fun d => forallb (fun e => negb (str_endswith marker (e_name e))) (d_exchanges d)) data.
Lemma unmarked_once data : unmarked data = true -> Forall marked_once data.
Proof.
  unfold unmarked. rewrite forallb_forall, Forall_forall. intros H d Hd%elem_of_list_In. specialize (H d Hd).
  rewrite forallb_forall in H. apply Forall_forall. intros e He%elem_of_list_In a E. specialize (H e He).
  assert (str_endswith marker (e_name e) = true) as Hm by (apply endswith_spec; eauto). by rewrite Hm in H.
Qed.
(** Two cars from three kilograms of steel. *)
Definition ex_cars : list dataset :=
  map (fun d => set_d_exchanges (map (fun e => if bool_decide (e_id e = Some "c1"%string) then set_e_amount (Qcint 2) e else e) (d_exchanges d)) d)
    ex_treated.
Definition ex_allocated : list dataset :=
  match (let? p := cutoff_prepared ex_w ex_cars in cutoff_allocated ex_w p) with Ok a => a | Err _ => [] end.
Definition ex_nets (f : string -> dataset -> Qc) (data : list dataset) : list (list Qc) :=
  map (fun d => map (fun n => f n d) ["steel"; "heat"; "slag"; "car"]%string) data.
Example C78_nonvacuous : (forall s, w_md5 ex_w s <> ""%string) /\ unmarked ex_allocated = true /\
  fmapR (ex_nets net_called) (Ok (firstn 4 ex_allocated)) =
    Ok [[1; 0; frac 1 4; 0]; [0; 1; frac 1 8; 0]; [1; 0; 0; 0]; [Qcint (-3); 0; 0; Qcint 2]]%Qc /\
  fmapR (fun o => ex_nets net (firstn 4 o)) (cutoff_model ex_w ex_cars) =
    Ok [[1; 0; frac 1 4; 0]; [0; 1; frac 1 8; 0]; [0; 0; 0; 0]; [frac (-3) 2; 0; 0; 1]]%Qc /\
  fmapR (ex_nets net) (consequential_prepared ex_w ex_boiler) =
    Ok [[Qcint 2; Qcint 4; 0; 0]; [1; 0; 0; 0]; [Qcint (-3); 0; 0; 1]; [Qcint (-1); Qcint 2; 0; 0]]%Qc /\
  fmapR (ex_nets net) (consequential_model ex_w ex_boiler) =
    Ok [[1; Qcint 2; 0; 0]; [0; 0; 0; 0]; [Qcint (-3); 0; 0; 1]; [frac (-1) 2; 1; 0; 0]]%Qc.
Proof. split; [by intros s|]. split; [by vm_compute|]. split; [by_compute|]. split; [by_compute|]. split; by_compute. Qed.

(** Refinery gas has no market: its inputs are linked with whatever the input before was.
    Two equal inputs are both removed when the first is shared out among markets; if the
    second is then linked to one market, there is nothing left to link. *)
Definition ex_gas : list dataset :=
  [ex_raw "1" "coal mine" "FR" Transforming [ex_made 1 (ex_product "a1" "coal" RefProduct 1 1)];
   ex_raw "2" "coal mine" "DE" Transforming [ex_made 3 (ex_product "a2" "coal" RefProduct 1 1)];
   ex_raw "3" "market for coal" "FR" MarketActivity [ex_made 0 (ex_product "b1" "coal" RefProduct 1 1)];
   ex_raw "4" "market for coal" "DE" MarketActivity [ex_made 0 (ex_product "b2" "coal" RefProduct 1 1)];
   ex_raw "5" "forestry" "GLO" Transforming [ex_made 1 (ex_product "c1" "wood" RefProduct 1 1)];
   ex_raw "6" "market for wood" "GLO" MarketActivity [ex_made 0 (ex_product "d1" "wood" RefProduct 1 1)];
   ex_raw "7" "heating" "FR-DE" Transforming
     [ex_made 1 (ex_product "e1" "heat" RefProduct 1 1); ex_flow "e2" "coal" FromTechnosphere 1;
      ex_flow "e3" "refinery gas" FromTechnosphere 2; ex_flow "e4" "wood" FromTechnosphere 1;
      ex_flow "e3" "refinery gas" FromTechnosphere 2]]%string.
Definition ex_gas_allocated : list dataset :=
  match (let? p := cutoff_prepared ex_w ex_gas in cutoff_allocated ex_w p) with Ok a => a | Err _ => [] end.
Definition ex_gas_prepared : list dataset := match cutoff_prepared ex_w ex_gas with Ok a => a | Err _ => [] end.
Definition ex_gas_out : list dataset := match cutoff_model ex_w ex_gas with Ok a => a | Err _ => [] end.
Theorem C78_refinery_gas_refuted : exists w data out prepared allocated a ds,
  (forall s, w_md5 w s <> ""%string) /\ cutoff_prepared w data = Ok prepared /\ cutoff_allocated w prepared = Ok allocated /\
  Forall marked_once allocated /\ cutoff_model w data = Ok out /\
  a ∈ allocated /\ ds ∈ out /\ d_id ds = d_id a /\ NoDup (map d_id out) /\ NoDup (map d_id allocated) /\
  d_type a = Transforming /\ map e_amount (filter is_refproduct (d_exchanges a)) = [1%Qc] /\
  net_called "refinery gas" a = Qcint (-4) /\ net "refinery gas" ds = Qcint (-2).
Proof.
  exists ex_w, ex_gas, ex_gas_out, ex_gas_prepared, ex_gas_allocated, (nth 6 ex_gas_allocated dataset0), (nth 6 ex_gas_out dataset0).
  split; [by intros s|]. split; [by apply ok_of; vm_compute|]. split.
  { assert (cutoff_prepared ex_w ex_gas = Ok ex_gas_prepared) as E by (by apply ok_of; vm_compute).
    unfold ex_gas_allocated. rewrite E. cbn [bind]. apply ok_of. by vm_compute. }
  split; [apply unmarked_once; by vm_compute|]. split; [by apply ok_of; vm_compute|].
  split; [apply elem_of_list_In, nth_In; apply Nat.ltb_lt; by vm_compute|].
  split; [apply elem_of_list_In, nth_In; apply Nat.ltb_lt; by vm_compute|].
  split; [by_compute|]. split; [by_compute|]. split; [by_compute|]. split; [by_compute|]. split; [by_compute|].
  split; by_compute.
Qed.
Print Assumptions C78_refinery_gas_refuted.
