(** Properties of what markets are supplied with (C79). *)
From stdpp Require Import gmap.
From Verif Require Import Base Strings Types Uncertainty Spec_Uncertainty Utils Spec_Utils Topology Cutoff Locations Consequential
  Spec_Waste Spec_Mix Spec_Consumers Spec_Untouched Waste_proofs Pipeline Spec_Pipeline Spec_Balance Spec_Supply Supply4_proofs
  Props_Uncertainty Props_Topology Props_Locations Props_Cutoff Props_Untouched Props_Pipeline Props_Balance.

(** ** C79 Markets of the result take their output from their suppliers *)

(** Every market of a result takes from each supplier its share of the output of the
    market, and is normalised. *)
Theorem C79_cutoff_markets : forall w, (forall s, w_md5 w s <> ""%string) -> forall data out prepared allocated, raw data ->
  cutoff_prepared w data = Ok prepared -> cutoff_allocated w prepared = Ok allocated ->
  Forall marked_once allocated -> Forall plain_market allocated -> cutoff_model w data = Ok out ->
  exists base ready, sublist base allocated /\ filter local base = filter local allocated /\
    markets_ready (w_md5 w) (w_ord w) (w_topo w) allocated = Ok ready /\
    Forall3 (was_supplied net_called MarketActivity) base ready out.
Proof. exact cutoff_markets. Qed.
Print Assumptions C79_cutoff_markets.

Theorem C79_cutoff_groups : forall w, (forall s, w_md5 w s <> ""%string) -> forall data out prepared allocated, raw data ->
  cutoff_prepared w data = Ok prepared -> cutoff_allocated w prepared = Ok allocated ->
  Forall marked_once allocated -> Forall plain_market allocated -> cutoff_model w data = Ok out ->
  exists base ready, sublist base allocated /\ filter local base = filter local allocated /\
    groups_ready (w_md5 w) (w_ord w) (w_topo w) allocated = Ok ready /\
    Forall3 (was_supplied net_called MarketGroup) base ready out.
Proof. exact cutoff_groups. Qed.
Print Assumptions C79_cutoff_groups.

Theorem C79_consequential_markets : forall w, (forall s, w_md5 w s <> ""%string) -> forall data out prepared, raw data ->
  consequential_prepared w data = Ok prepared -> consequential_model w data = Ok out ->
  exists base ready, sublist base prepared /\ filter local base = filter local prepared /\
    levels_ready (w_md5 w) (w_ord w) (w_topo w) prepared = Ok ready /\
    Forall3 (was_supplied net MarketActivity) base ready out.
Proof. exact consequential_markets. Qed.
Print Assumptions C79_consequential_markets.

(** Market groups of the consequential model are only normalised: nothing is added to them. *)
Theorem C79_consequential_groups : forall w, (forall s, w_md5 w s <> ""%string) -> forall data out prepared, raw data ->
  consequential_prepared w data = Ok prepared -> consequential_model w data = Ok out ->
  exists base, sublist base prepared /\ filter local base = filter local prepared /\
    Forall2 (fun a ds => d_type ds = MarketGroup -> frame ds = frame a /\
      exists rp k, filter is_refproduct (d_exchanges a) = [rp] /\ normalising_factor (e_amount rp) k /\
        forall n, n <> "refinery gas"%string -> net n ds = (net n a * k)%Qc) base out.
Proof. exact consequential_groups. Qed.
Print Assumptions C79_consequential_groups.

(** A market with no exchange of its product besides the output takes as much of it as it
    gives, if its suppliers have a production volume. *)
Theorem C79_balanced : forall name l a ds rp, supplied_market name l a ds ->
  filter is_refproduct (d_exchanges a) = [rp] -> e_name rp <> "refinery gas"%string ->
  name (e_name rp) a = e_amount rp -> total_volume l <> 0%Qc -> net (e_name rp) ds = 0%Qc.
Proof.
  intros name l a ds rp (rp' & k & f & g & mix & Hrp' & _ & _ & _ & _ & _ & _ & H & _) Hrp Hg Hn Hv.
  rewrite Hrp in Hrp'. apply Balance_proofs.both_parts in Hrp' as [<- _]. rewrite H, Hn by done.
  assert (provided l = 1%Qc) as ->; [|ring]. unfold provided, shares. rewrite decide_True by done.
  pose proof (Supply3_proofs.sharing_nonempty l Hv) as Hne. destruct (sharing l); [done|]. done.
Qed.
Print Assumptions C79_balanced.

(** Coal of two mines is traded together with wood; nobody knows how much wood there is. *)
Definition ex_coal : list dataset :=
  [ex_raw "1" "coal mine" "FR" Transforming [ex_made 1 (ex_product "a1" "coal" RefProduct 1 1)];
   ex_raw "2" "coal mine" "DE" Transforming [ex_made 3 (ex_product "a2" "coal" RefProduct 1 1)];
   ex_raw "3" "market for coal" "FR-DE" MarketActivity
     [ex_made 0 (ex_product "b1" "coal" RefProduct 2 1); ex_flow "b2" "wood" FromTechnosphere 3];
   ex_raw "4" "market group for coal" "GLO" MarketGroup [ex_made 0 (ex_product "b3" "coal" RefProduct 4 1)];
   ex_raw "5" "forestry" "GLO" Transforming [ex_made 0 (ex_product "c1" "wood" RefProduct 1 1)];
   ex_raw "6" "gathering" "GLO" Transforming [ex_made 0 (ex_product "c2" "wood" RefProduct 1 1)];
   ex_raw "7" "market for wood" "GLO" MarketActivity
     [ex_made 0 (ex_product "d1" "wood" RefProduct (-2) 1); ex_flow "d2" "coal" FromTechnosphere 1]]%string.
Definition ex_coal_prepared : list dataset := match cutoff_prepared ex_w ex_coal with Ok a => a | Err _ => [] end.
Definition ex_coal_allocated : list dataset := match cutoff_allocated ex_w ex_coal_prepared with Ok a => a | Err _ => [] end.
Definition ex_coal_ready : list dataset :=
  match markets_ready (w_md5 ex_w) (w_ord ex_w) (w_topo ex_w) ex_coal_allocated with Ok a => a | Err _ => [] end.
Definition ex_coal_out : list dataset := match cutoff_model ex_w ex_coal with Ok a => a | Err _ => [] end.
Definition ex_inputs (ds : dataset) : list (string * Qc * option string) :=
  map (fun e => (e_name e, e_amount e, e_code e)) (d_exchanges ds).
Lemma short_plain data :
  forallb (fun d => forallb (fun e => (String.length (e_name e) <? String.length marker)%nat) (d_exchanges d)) data = true ->
  Forall plain_market data.
Proof.
  rewrite forallb_forall, Forall_forall. intros H d Hd%elem_of_list_In _. specialize (H d Hd).
  rewrite forallb_forall in H. apply Forall_forall. intros e He%elem_of_list_In _ (a & b & E). specialize (H e He).
  apply Nat.ltb_lt in H. rewrite E, !Utils_proofs.str_app_length in H. lia.
Qed.
Example C79_nonvacuous : (forall s, w_md5 ex_w s <> ""%string) /\ raw ex_coal /\
  cutoff_prepared ex_w ex_coal = Ok ex_coal_prepared /\ cutoff_allocated ex_w ex_coal_prepared = Ok ex_coal_allocated /\
  Forall marked_once ex_coal_allocated /\ Forall plain_market ex_coal_allocated /\ cutoff_model ex_w ex_coal = Ok ex_coal_out /\
  map ex_inputs (filter (fun d => d_type d <> Transforming) ex_coal_out) =
    [[("coal", 1%Qc, Some "xmarket for coalcoalfr-de"); ("wood", frac 3 2, Some "xmarket for woodwoodglo");
      ("coal", frac 3 4, Some "xcoal minecoalde"); ("coal", frac 1 4, Some "xcoal minecoalfr")];
     [("coal", 1%Qc, Some "xmarket group for coalcoalglo"); ("coal", 1%Qc, Some "xmarket for coalcoalfr-de")];
     [("wood", 1%Qc, Some "xmarket for woodwoodglo"); ("coal", frac 1 2, Some "xmarket group for coalcoalglo")]]%string /\
  map (fun d => option_map (map (fun s => (e_code s, volume_of s))) (d_suppliers d)) (filter (fun d => d_type d = MarketActivity) ex_coal_ready) =
    [Some [(Some "xcoal minecoalde", Qcint 3); (Some "xcoal minecoalfr", 1%Qc)];
     Some [(Some "xforestrywoodglo", 0%Qc); (Some "xgatheringwoodglo", 0%Qc)]]%string /\
  fmapR (fun o => map ex_inputs (filter (fun d => d_type d = MarketGroup) o)) (consequential_model ex_w ex_coal) =
    Ok [[("coal", 1%Qc, None)]]%string.
Proof.
  split; [by intros s|]. split; [repeat constructor|]. split; [by apply ok_of; vm_compute|]. split; [by apply ok_of; vm_compute|].
  split; [apply unmarked_once; by vm_compute|]. split; [apply short_plain; by vm_compute|]. split; [by apply ok_of; vm_compute|].
  split; [by_compute|]. split; [by_compute|]. by_compute.
Qed.

(** A market gives something for nothing if its suppliers have no production volume, unless
    there is only one. *)
Theorem C79_unbalanced_refuted : exists w data out ds rp, (forall s, w_md5 w s <> ""%string) /\ raw data /\
  cutoff_model w data = Ok out /\ ds ∈ out /\ d_type ds = MarketActivity /\ (exists s1 s2, d_suppliers ds = Some [s1; s2]) /\
  filter is_refproduct (d_exchanges ds) = [rp] /\ e_amount rp = 1%Qc /\ net (e_name rp) ds = 1%Qc.
Proof.
  exists ex_w, ex_coal, ex_coal_out, (nth 6 ex_coal_out dataset0), (nth 0 (d_exchanges (nth 6 ex_coal_out dataset0)) exchange0).
  split; [by intros s|]. split; [repeat constructor|]. split; [by apply ok_of; vm_compute|].
  split; [apply elem_of_list_In, nth_In; apply Nat.ltb_lt; by vm_compute|].
  split; [by_compute|]. split.
  { exists (nth 0 (default [] (d_suppliers (nth 6 ex_coal_out dataset0))) exchange0), (nth 1 (default [] (d_suppliers (nth 6 ex_coal_out dataset0))) exchange0).
    by_compute. }
  split; [by_compute|]. split; by_compute.
Qed.
Print Assumptions C79_unbalanced_refuted.

(** So do the market groups of the consequential model, whoever their suppliers are. *)
Definition ex_coal_consequential : list dataset := match consequential_model ex_w ex_coal with Ok a => a | Err _ => [] end.
Theorem C79_consequential_groups_refuted : exists w data out ds rp m, (forall s, w_md5 w s <> ""%string) /\ raw data /\
  consequential_model w data = Ok out /\ ds ∈ out /\ d_type ds = MarketGroup /\ m ∈ out /\ d_type m = MarketActivity /\
  d_refprod m = d_refprod ds /\ d_exchanges ds = [rp] /\ is_refproduct rp /\ e_amount rp = 1%Qc.
Proof.
  exists ex_w, ex_coal, ex_coal_consequential, (nth 3 ex_coal_consequential dataset0),
    (nth 0 (d_exchanges (nth 3 ex_coal_consequential dataset0)) exchange0), (nth 2 ex_coal_consequential dataset0).
  split; [by intros s|]. split; [repeat constructor|]. split; [by apply ok_of; vm_compute|].
  split; [apply elem_of_list_In, nth_In; apply Nat.ltb_lt; by vm_compute|]. split; [by_compute|].
  split; [apply elem_of_list_In, nth_In; apply Nat.ltb_lt; by vm_compute|]. split; [by_compute|]. split; [by_compute|].
  split; [by_compute|]. split; by_compute.
Qed.
Print Assumptions C79_consequential_groups_refuted.
