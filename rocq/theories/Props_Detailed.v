(** C104: what the detailed log tells. *)
From Verif Require Import Base Types Uncertainty Utils Spec_Utils GroupUpdate ActivityLinks Cutoff Topology Spec_Topology
  Locations Spec_Consumers Detailed Spec_Detailed Detailed_proofs
  Props_ActivityLinks Props_Topology Props_Locations Props_Markets Props_Consumers.

Theorem C104_file : forall ds function m,
  describes ds (about ds function m) /\ forall name, file_of (d_filepath ds) name -> name = l_file (about ds function m).
Proof. intros ds f m. split; [apply about_describes|]. intros name H. eapply file_of_unique; [exact H|apply basename_spec]. Qed.
Print Assumptions C104_file.
Example C104_file_nonvacuous :
  l_file (about (set_d_filepath "/data/spolds/steel.spold" dataset0) "f" (Method "m")) = "steel.spold"%string /\
  l_file (about (set_d_filepath "steel.spold" dataset0) "f" (Method "m")) = "steel.spold"%string /\
  l_file (about (set_d_filepath "/data/spolds/" dataset0) "f" (Method "m")) = ""%string.
Proof. by_compute. Qed.

(** What was subtracted for hard links can be read off the log, dataset by dataset. *)
Theorem C104_subtracted : forall data data',
  NoDup (map d_id data) -> add_hard_linked_production_volumes data = Ok data' ->
  exists ls, hard_link_lines data = Ok ls /\
    Forall2 (fun d d' => d_id d' = d_id d /\ taken_from d' = (taken_from d + said_taken (d_id d) ls)%Qc) data data' /\
    Forall (fun li => exists d, d ∈ data /\ describes d li) ls.
Proof. exact subtracted_proof. Qed.
Print Assumptions C104_subtracted.
Example C104_subtracted_nonvacuous :
  NoDup (map d_id ex_links) /\ is_ok (add_hard_linked_production_volumes ex_links) = true /\
  fmapR (map (fun l => (l_id l, l_message l))) (hard_link_lines ex_links) =
    Ok [("A", Subtracting (Qcint 15) (Qcint 100) "" ""); ("A", Subtracting (Qcint 5) (Qcint 100) "" "");
        ("A", Subtracting (Qcint 50) (Qcint 100) "" "")]%string /\
  fmapR (said_taken "A") (hard_link_lines ex_links) = Ok (Qcint 70).
Proof. by_compute. Qed.

(** Exactly these lines, exchange by exchange. *)
Theorem C104_hard_links : forall data ls, hard_link_lines data = Ok ls -> exists lss,
  ls = concat (map (@concat line) lss) /\ Forall2 (fun ds ls => Forall2 (told_hard_link data ds) (d_exchanges ds) ls) data lss.
Proof. exact hard_links_told. Qed.
Print Assumptions C104_hard_links.
Example C104_hard_links_nonvacuous :
  fmapR (map (fun l => (l_id l, l_message l)))
    (hard_link_lines [set_d_id "A" (set_d_exchanges [ex_out "steel" 1 100; ex_in "steel" "A" 2] dataset0);
                      set_d_name "carmaking" (set_d_location "FR" (set_d_id "B" (set_d_exchanges [ex_out "car" 1 10; ex_in "steel" "A" 3; ex_in "glass" "" 1] dataset0)))])
  = Ok [("A", Ignoring (Qcint 2) (Qcint 100)); ("A", Subtracting (Qcint 30) (Qcint 100) "carmaking" "FR")]%string.
Proof. by_compute. Qed.

Theorem C104_net : forall data data', update_transforming_activity_production_volumes data = Ok data' ->
  exists lss, hard_linked_lines data = concat lss /\
    Forall3 (fun ds ds' ls => Forall (describes ds) ls /\
      (d_type ds <> Transforming -> ds' = ds /\ ls = []) /\
      (d_type ds = Transforming -> exists es' mss, ds' = set_d_exchanges es' ds /\ map l_message ls = concat mss /\
         Forall3 told_net (d_exchanges ds) es' mss)) data data' lss.
Proof. exact net_proof. Qed.
Print Assumptions C104_net.
Definition ex_net (ty : dtype) : dataset := set_d_id "N" (set_d_filepath "in/n.spold" (set_d_type ty (set_d_exchanges
  [set_e_class (Some Allocatable) (set_e_type RefProduct (set_e_pv (Some (set_v_subtracted (Some (Qcint 30)) (set_v_amount (Qcint 100) pvol0))) exchange0))] dataset0))).
Example C104_net_nonvacuous :
  hard_linked_lines [ex_net MarketActivity; ex_net Transforming] =
    [Line "N" "n.spold" None "update_transforming_activity_production_volumes" (HardLinked (Qcint 30) (Qcint 100))] /\
  fmapR (map production_volume) (update_transforming_activity_production_volumes [ex_net MarketActivity; ex_net Transforming]) =
    Ok [Some (Qcint 100); Some (Qcint 70)].
Proof. by_compute. Qed.

Theorem C104_methods : forall data data', label_allocation_method data = Ok data' ->
  exists ls, method_lines data = Ok ls /\
    Forall2 (fun ds' l => describes ds' l /\ exists m, d_alloc ds' = Some m /\ l_message l = Method m) data' ls.
Proof. exact method_proof. Qed.
Print Assumptions C104_methods.
Example C104_methods_nonvacuous :
  fmapR (map l_message) (method_lines [ex_place "2" "steelmaking" "FR" "steel" Transforming 30; set_d_type MarketActivity (set_d_exchanges [] ex_market)]) = Ok [Method "single product"; Method "unconstrained market"].
Proof. by_compute. Qed.

(** One line for each dataset that is relabelled, not always in the order of the data. *)
Theorem C104_created : forall data data', relabel_global_to_row data = Ok data' ->
  exists ls ls', created_lines data = Ok ls /\ Permutation ls ls' /\
    Forall2 (fun p l => told_created p.1 p.2 l) (filter (fun p => d_location p.1 <> d_location p.2) (zip data data')) ls'.
Proof. exact created_proof. Qed.
Print Assumptions C104_created.
Example C104_created_nonvacuous :
  created_lines ex_regions =
    Ok [Line "1" "" (Some "1") "relabel_global_to_row" (Created "steelmaking" (Qcint 10) "" (Qcint 100) (Qcint 90))]%string.
Proof. by_compute. Qed.

Theorem C104_inputs : forall ds ds', allocate_suppliers ds = Ok ds' ->
  exists rp ls new, filter is_refproduct (d_exchanges ds) = [rp] /\ market_lines ds = Ok ls /\ Forall (describes ds) ls /\
    d_exchanges ds' = d_exchanges ds ++ new /\ Forall2 (told_input (e_name rp)) new (inputs ls) /\
    (ls = [] /\ new = [] \/ Qcsum (map input_amount (inputs ls)) = e_amount rp).
Proof. exact market_proof. Qed.
Print Assumptions C104_inputs.
(** The other line about a market. *)
Theorem C104_market : forall ds ls, market_lines ds = Ok ls -> exists rp suppliers before,
  filter is_refproduct (d_exchanges ds) = [rp] /\ d_suppliers ds = Some suppliers /\
  ls = before ++ inputs ls /\ told_market ds rp suppliers (map l_message before).
Proof. exact market_told. Qed.
Print Assumptions C104_market.
Example C104_inputs_nonvacuous :
  fmapR (map l_message) (market_lines ex_market) =
    Ok [Divided (Qcint 40) "steel" 3; Input (frac 3 4) "kg" "steel" "steel" ""; Input (frac 1 4) "kg" "steel" "steel" ""]%string /\
  fmapR (map l_message) (market_lines (set_d_suppliers (Some [ex_supply "a" 0]) ex_market)) =
    Ok [DefaultVolume "market for steel" "steel" "RER" "steel" ""; Input 1%Qc "kg" "steel" "steel" ""]%string.
Proof. by_compute. Qed.

Theorem C104_links : forall data data', actualize_activity_links data = Ok data' ->
  exists lss, actual_lines data = Ok (concat lss) /\
    Forall3 (fun ds ds' ls => Forall (describes ds) ls /\ exists es' mss, ds' = set_d_exchanges es' ds /\
      map l_message ls = concat mss /\ Forall3 (told_link data) (d_exchanges ds) es' mss) data data' lss.
Proof. exact links_proof. Qed.
Print Assumptions C104_links.
Example C104_links_nonvacuous :
  actual_lines (ex_regions ++ [ex_consumer "2" ex_steel]) =
    Ok [Line "9" "" (Some "9") "actualize_activity_links" (LinkedTo "steel" "steelmaking" "FR")]%string /\
  is_ok (actualize_activity_links (ex_regions ++ [ex_consumer "2" ex_steel])) = true.
Proof. by_compute. Qed.

Theorem C104_consumers : forall ln t data data',
  Forall (fun d => known t (d_location d)) data ->
  (forall d, d ∈ data -> d_type d = MarketGroup -> d_location d <> "RoW"%string) ->
  (forall d, d ∈ data -> exists c, d_code d = Some c /\ c <> ""%string) ->
  (forall ds e, ds ∈ data -> e ∈ d_exchanges ds -> open_exchange e ->
     e_name e = "refinery gas"%string -> sold data "refinery gas") ->
  link_consumers_to_markets ln t data = Ok data' ->
  exists lss, consumer_lines t data = Ok (concat lss) /\
    Forall3 (fun ds ds' ls => (d_type ds = MarketGroup -> ds' = ds /\ ls = []) /\
      (d_type ds <> MarketGroup -> told_consumer t data ds ds' ls)) data data' lss.
Proof. exact consumers_proof. Qed.
Print Assumptions C104_consumers.
(** The hypotheses hold by [C35_hypotheses]. *)
Example C104_consumers_nonvacuous :
  fmapR (map l_message) (consumer_lines ex_world (ex_linked "RER" (ex_sellers 10 30))) =
    Ok [Consumption "steel" "steel" "FR"; Consumption "steel" "steel" "DE"; Divided (Qcint 40) "steel" 2;
        Input (Qcint 2) "" "steel" "steel" "FR"; Input (Qcint 6) "" "steel" "steel" "DE"]%string /\
  fmapR (map l_message) (consumer_lines ex_world (ex_linked "DE" (ex_sellers 10 30))) =
    Ok [Complete "steel" (Qcint 8) "market for steel" "DE"]%string.
Proof. by_compute. Qed.

(** Every line names the function that wrote it. *)
Theorem C104_functions : forall t kind data ls,
  hard_link_lines data = Ok ls \/ hard_linked_lines data = ls \/ method_lines data = Ok ls \/ created_lines data = Ok ls \/
  all_market_lines kind data = Ok ls \/ actual_lines data = Ok ls \/ consumer_lines t data = Ok ls -> Forall signed ls.
Proof. exact all_signed. Qed.
Print Assumptions C104_functions.

(** Which product a hard link took from is not said: two inputs with the same log and
    different results. *)
Definition ex_twoproducts (n : string) : list dataset :=
  [set_d_id "A" (set_d_exchanges [ex_out "steel" 1 100; ex_out "slag" 1 100] dataset0);
   set_d_id "B" (set_d_exchanges [ex_out "car" 1 10; ex_in n "A" 3] dataset0)].
Theorem C104_which_refuted : exists data1 data2 data1' data2' ls,
  add_hard_linked_production_volumes data1 = Ok data1' /\ add_hard_linked_production_volumes data2 = Ok data2' /\
  hard_link_lines data1 = Ok ls /\ hard_link_lines data2 = Ok ls /\ ls <> [] /\
  map d_exchanges (take 1 data1) = map d_exchanges (take 1 data2) /\
  map d_exchanges (take 1 data1') <> map d_exchanges (take 1 data2').
Proof.
  exists (ex_twoproducts "steel"), (ex_twoproducts "slag"). do 3 eexists. split; [vm_compute; reflexivity|].
  split; [vm_compute; reflexivity|]. split; [vm_compute; reflexivity|]. split; [by vm_compute|]. split; [done|]. split; by_compute.
Qed.
Print Assumptions C104_which_refuted.

(** Nor is the supplying activity: two lists of suppliers with the same log and inputs
    from different activities. *)
Theorem C104_supplier_refuted : exists ds1 ds2 ds1' ds2' ls,
  allocate_suppliers ds1 = Ok ds1' /\ allocate_suppliers ds2 = Ok ds2' /\
  market_lines ds1 = Ok ls /\ market_lines ds2 = Ok ls /\ ls <> [] /\
  map e_code (d_exchanges ds1') <> map e_code (d_exchanges ds2').
Proof.
  exists (set_d_suppliers (Some [ex_supply "a" 30; ex_supply "b" 10]) ex_market),
    (set_d_suppliers (Some [ex_supply "c" 30; ex_supply "d" 10]) ex_market). do 3 eexists. split; [vm_compute; reflexivity|].
  split; [vm_compute; reflexivity|]. split; [vm_compute; reflexivity|]. split; [by vm_compute|]. split; [done|]. by_compute.
Qed.
Print Assumptions C104_supplier_refuted.

(** When several suppliers have no volume nothing is divided, and a consumer's lines say
    that it is linked although nothing changed. *)
Theorem C104_linked_refuted : exists ln t data data' ls, link_consumers_to_markets ln t data = Ok data' /\
  consumer_lines t data = Ok ls /\ ls <> [] /\ map d_exchanges data' = map d_exchanges data.
Proof.
  exists (fun x => x), ex_world, (ex_linked "RER" (ex_sellers 0 0)). do 2 eexists. split; [vm_compute; reflexivity|].
  split; [vm_compute; reflexivity|]. split; [done|]. by_compute.
Qed.
Print Assumptions C104_linked_refuted.
