(** Properties of the names of products in a result (C83). *)
From stdpp Require Import gmap.
From Verif Require Import Base Strings Types Uncertainty Spec_Uncertainty Utils Spec_Utils Topology Cutoff Locations Consequential
  Spec_Waste Spec_Mix Spec_Consumers Spec_Consequential Spec_Untouched Waste_proofs Pipeline Spec_Pipeline Spec_Balance Spec_Supply
  Spec_Marks Balance_proofs Supply4_proofs Marks_proofs
  Props_Uncertainty Props_Topology Props_Locations Props_Cutoff Props_Untouched Props_Pipeline Props_Balance Props_Supply.

(** ** C83 A result has no new products *)

(** Whatever is in a dataset of the result has the name of something in one and the same
    dataset of the input, which has the same id.  The marker of recycled content must not be
    in the input. *)
Theorem C83_cutoff : forall w data out, (forall s, w_md5 w s <> ""%string) -> raw data -> unmarked_data data ->
  cutoff_model w data = Ok out ->
  Forall (fun ds => exists d, d ∈ data /\ d_id ds = d_id d /\ names_from d ds) out.
Proof. exact cutoff_names. Qed.
Print Assumptions C83_cutoff.

Theorem C83_consequential : forall w data out, (forall s, w_md5 w s <> ""%string) -> raw data ->
  consequential_model w data = Ok out ->
  Forall (fun ds => exists d, d ∈ data /\ d_id ds = d_id d /\ names_from d ds) out.
Proof. exact consequential_names. Qed.
Print Assumptions C83_consequential.

(** Where the marker is before allocation, in terms of the input. *)
Theorem C83_prepared : forall w data prepared, cutoff_prepared w data = Ok prepared ->
  Forall (fun ds => exists d, d ∈ data /\ d_id ds = d_id d /\ marked_from d ds) prepared.
Proof. exact prepared_marked. Qed.
Print Assumptions C83_prepared.

(** What C78 and C79 ask for is so if the marker is not in the input. *)
Theorem C83_allocated : forall w data prepared allocated, unmarked_data data ->
  cutoff_prepared w data = Ok prepared -> cutoff_allocated w prepared = Ok allocated ->
  Forall marked_once allocated /\ Forall plain_market allocated.
Proof. intros w data prepared allocated HU Hp Ha. split; [by eapply Marks_proofs.unmarked_once|by eapply unmarked_plain]. Qed.
Print Assumptions C83_allocated.

Theorem C83_amounts : forall w data out prepared allocated, (forall s, w_md5 w s <> ""%string) -> unmarked_data data ->
  cutoff_prepared w data = Ok prepared -> cutoff_allocated w prepared = Ok allocated -> cutoff_model w data = Ok out ->
  exists base, sublist base allocated /\ filter local base = filter local allocated /\
    Forall2 (fun a ds => frame ds = frame a /\ (~ is_market ds -> per_unit net_called a ds)) base out.
Proof.
  intros w data out prepared allocated Hmd HU Hp Ha H. eapply cutoff_balance; [done|exact Hp|exact Ha| |exact H].
  by eapply Marks_proofs.unmarked_once.
Qed.
Print Assumptions C83_amounts.

Theorem C83_supplies : forall w, (forall s, w_md5 w s <> ""%string) -> forall data out prepared allocated, raw data -> unmarked_data data ->
  cutoff_prepared w data = Ok prepared -> cutoff_allocated w prepared = Ok allocated -> cutoff_model w data = Ok out ->
  (exists base ready, sublist base allocated /\ filter local base = filter local allocated /\
    markets_ready (w_md5 w) (w_ord w) (w_topo w) allocated = Ok ready /\
    Forall3 (was_supplied net_called MarketActivity) base ready out) /\
  (exists base ready, sublist base allocated /\ filter local base = filter local allocated /\
    groups_ready (w_md5 w) (w_ord w) (w_topo w) allocated = Ok ready /\
    Forall3 (was_supplied net_called MarketGroup) base ready out).
Proof.
  intros w Hmd data out prepared allocated Hr HU Hp Ha H.
  pose proof (Marks_proofs.unmarked_once _ _ _ _ HU Hp Ha) as HM. pose proof (unmarked_plain _ _ _ _ HU Hp Ha) as HP.
  split; [by eapply cutoff_markets|by eapply cutoff_groups].
Qed.
Print Assumptions C83_supplies.

(** Scrap of a foundry is recycled, and used by a smelter, from a market. *)
Definition ex_scrap (name : string) : list dataset :=
  [ex_raw "1" "foundry" "FR" Transforming
     [ex_made 4 (ex_product "a1" "steel" RefProduct 1 1); set_e_class (Some Recyclable) (ex_flow "a2" name Byproduct 2)];
   ex_raw "2" "market for scrap" "GLO" MarketActivity [ex_made 0 (ex_product "b1" name RefProduct 1 1)];
   ex_raw "3" "smelter" "FR" Transforming
     [ex_made 5 (ex_product "c1" "iron" RefProduct 2 1); ex_flow "c2" name FromTechnosphere 3]]%string.
Definition ex_all_names (data : list dataset) : list (string * string * list string) :=
  map (fun d => (d_id d, d_name d, map e_name (d_exchanges d))) data.
Lemma short_unmarked data :
  forallb (fun d => forallb (fun e => (String.length (e_name e) <? String.length marker)%nat) (d_exchanges d)) data = true ->
  unmarked_data data.
Proof.
  unfold unmarked_data. rewrite forallb_forall, Forall_forall. intros H d Hd%elem_of_list_In. specialize (H d Hd).
  rewrite forallb_forall in H. apply Forall_forall. intros e He%elem_of_list_In (a & b & E). specialize (H e He).
  apply Nat.ltb_lt in H. rewrite E, !Utils_proofs.str_app_length in H. lia.
Qed.
Example C83_nonvacuous : (forall s, w_md5 ex_w s <> ""%string) /\ raw (ex_scrap "scrap") /\ unmarked_data (ex_scrap "scrap") /\
  fmapR ex_all_names (cutoff_prepared ex_w (ex_scrap "scrap")) =
    Ok [("1", "foundry", ["steel"; "scrap, Recycled Content cut-off"]); ("2", "market for scrap", ["scrap"]);
        ("3", "smelter", ["iron"; "scrap"]); ("1", "scrap, Recycled Content cut-off", ["scrap, Recycled Content cut-off"])]%string /\
  fmapR ex_all_names (cutoff_model ex_w (ex_scrap "scrap")) =
    Ok [("1", "foundry", ["steel"; "scrap"]); ("2", "market for scrap", ["scrap"; "scrap"]);
        ("3", "smelter", ["iron"; "scrap"]); ("1", "scrap, Recycled Content cut-off", ["scrap"])]%string /\
  fmapR ex_all_names (consequential_model ex_w (ex_scrap "scrap")) =
    Ok [("1", "foundry", ["steel"; "scrap"]); ("2", "market for scrap", ["scrap"]); ("3", "smelter", ["iron"; "scrap"])]%string.
Proof.
  split; [by intros s|]. split; [repeat constructor|]. split; [apply short_unmarked; by vm_compute|].
  split; [by vm_compute|]. split; by vm_compute.
Qed.

(** A product whose name is marked in the input has another name in the result. *)
Theorem C83_marked_refuted : exists w data out ds e, (forall s, w_md5 w s <> ""%string) /\ raw data /\
  cutoff_model w data = Ok out /\ ds ∈ out /\ e ∈ d_exchanges ds /\
  Forall (fun d => Forall (fun e0 => e_name e <> e_name e0) (d_exchanges d)) data.
Proof.
  pose (out := match cutoff_model ex_w (ex_scrap "scrap, Recycled Content cut-off") with Ok o => o | Err _ => [] end).
  exists ex_w, (ex_scrap "scrap, Recycled Content cut-off"), out, (nth 0 out dataset0), (nth 1 (d_exchanges (nth 0 out dataset0)) exchange0).
  split; [by intros s|]. split; [repeat constructor|]. split; [by apply ok_of; vm_compute|].
  split; [apply elem_of_list_In, nth_In; apply Nat.ltb_lt; by vm_compute|].
  split; [apply elem_of_list_In, nth_In; apply Nat.ltb_lt; by vm_compute|].
  assert (e_name (nth 1 (d_exchanges (nth 0 out dataset0)) exchange0) = "scrap"%string) as -> by (by vm_compute).
  repeat (apply Forall_cons; split; [repeat constructor; by vm_compute|]). constructor.
Qed.
Print Assumptions C83_marked_refuted.

(** The marker stays in the name of the activity that supplies recycled content. *)
Theorem C83_activity_refuted : exists w data out ds, (forall s, w_md5 w s <> ""%string) /\ raw data /\ unmarked_data data /\
  Forall (fun d => ~ occurs_in marker (d_name d)) data /\
  cutoff_model w data = Ok out /\ ds ∈ out /\ occurs_in marker (d_name ds).
Proof.
  pose (out := match cutoff_model ex_w (ex_scrap "scrap") with Ok o => o | Err _ => [] end).
  exists ex_w, (ex_scrap "scrap"), out, (nth 3 out dataset0).
  split; [by intros s|]. split; [repeat constructor|]. split; [apply short_unmarked; by vm_compute|]. split.
  { assert (forall s, (String.length s <? String.length marker)%nat = true -> ~ occurs_in marker s) as H.
    { intros s Hs%Nat.ltb_lt (a & b & ->). rewrite !Utils_proofs.str_app_length in Hs. lia. }
    repeat (apply Forall_cons; split; [apply H; by vm_compute|]). constructor. }
  split; [by apply ok_of; vm_compute|].
  split; [apply elem_of_list_In, nth_In; apply Nat.ltb_lt; by vm_compute|].
  exists "scrap"%string, ""%string. by vm_compute.
Qed.
Print Assumptions C83_activity_refuted.
