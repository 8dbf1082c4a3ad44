(** C95: the tables of linking and of combined production. *)
From Verif Require Import Base Types Uncertainty Utils Spec_Utils GroupUpdate Topology Spec_Topology Recalculation Spec_Recalculation Cutoff
  Locations Spec_Markets Spec_Mix Spec_Consumers Tables LinkTables Spec_LinkTables LinkTables_proofs
  Props_Topology Props_Locations Props_Markets Props_Groups Props_Consumers Props_Allocation.

Theorem C95_combined : forall ln euler order eval ds outs,
  unique_variables ds -> combined_production (recalculate ln euler order eval) ds = Ok outs ->
  Forall2 (fun r out => exists rp, filter is_refproduct (d_exchanges out) = [rp] /\
    r = [Txt (d_name out); Txt (e_name rp); Txt (d_location out)]) (combined_rows ds) outs.
Proof. exact combined_shown. Qed.
Print Assumptions C95_combined.
Example C95_combined_nonvacuous : unique_variables ex_comb /\ is_ok (combined_production ex_recalc ex_comb) = true /\
  combined_rows (set_d_name "refinery" (set_d_location "FR" ex_comb)) =
    [[Txt "refinery"; Txt "diesel"; Txt "FR"]; [Txt "refinery"; Txt "petrol"; Txt "FR"]]%string.
Proof. split; [unfold unique_variables; by_compute|]. by_compute. Qed.

Theorem C95_groups : forall t data data',
  (forall d, d ∈ data -> d_type d = MarketGroup -> d_suppliers d = None) ->
  link_market_group_suppliers t data = Ok data' ->
  exists rows, group_link_rows t data = Ok rows /\ Permutation rows (listed_suppliers data').
Proof. exact groups_shown. Qed.
Print Assumptions C95_groups.
Example C95_groups_nonvacuous : Forall (fun d => d_suppliers d = None) ex_nested /\ is_ok (link_market_group_suppliers ex_world ex_nested) = true /\
  group_link_rows ex_world ex_nested = Ok (map (fun p => [Txt "market group for steel"; Txt p.1; Txt p.2])
    [("GLO", "RER"); ("GLO", "US"); ("RER", "FR-DE"); ("FR-DE", "FR"); ("FR-DE", "DE")])%string.
Proof. by_compute. Qed.

Theorem C95_consumers : forall ln t data data',
  Forall (fun d => known t (d_location d)) data ->
  (forall d, d ∈ data -> d_type d = MarketGroup -> d_location d <> "RoW"%string) ->
  (forall d, d ∈ data -> exists c, d_code d = Some c /\ c <> ""%string) ->
  (forall ds e, ds ∈ data -> e ∈ d_exchanges ds -> open_exchange e ->
     e_name e = "refinery gas"%string -> sold data "refinery gas") ->
  link_consumers_to_markets ln t data = Ok data' ->
  exists rss, consumer_link_rows t data = Ok (concat rss) /\
    Forall3 (fun ds ds' rs => (d_type ds = MarketGroup -> ds' = ds /\ rs = []) /\
      (d_type ds <> MarketGroup -> shown_consumer t data ds (ds', rs))) data data' rss.
Proof. exact consumers_shown. Qed.
Print Assumptions C95_consumers.

Theorem C95_parts : forall t data ds ds' rs x,
  shown_consumer t data ds (ds', rs) -> x ∈ d_exchanges ds' -> x ∉ d_exchanges ds ->
  (exists e m, e ∈ d_exchanges ds /\ open_exchange e /\ m ∈ data /\ sells (e_name e) m /\ x = set_e_code (d_code m) e) \/
  (exists e m, e ∈ d_exchanges ds /\ open_exchange e /\ m ∈ data /\ sells (e_name e) m /\ e_code x = d_code m /\
     [Txt (d_name ds); Txt (d_location ds); Txt (d_location m)] ∈ rs).
Proof. exact parts_shown. Qed.
Print Assumptions C95_parts.

Theorem C95_rows : forall t data ds ds' rs r,
  shown_consumer t data ds (ds', rs) -> r ∈ rs ->
  exists e m, e ∈ d_exchanges ds /\ open_exchange e /\ m ∈ data /\ sells (e_name e) m /\
    r = [Txt (d_name ds); Txt (d_location ds); Txt (d_location m)].
Proof. exact rows_named. Qed.
Print Assumptions C95_rows.
(** The hypotheses of [C95_consumers] hold by [C35_hypotheses]. *)
Example C95_consumers_nonvacuous :
  is_ok (link_consumers_to_markets (fun x => x) ex_world (ex_linked "RER" (ex_sellers 10 30))) = true /\
  consumer_link_rows ex_world (ex_linked "RER" (ex_sellers 10 30)) =
    Ok [[Txt "carmaking"; Txt "RER"; Txt "FR"]; [Txt "carmaking"; Txt "RER"; Txt "DE"]]%string.
Proof. by_compute. Qed.

(** A row does not mean a link: with no volumes to share by, the input stays as it was. *)
Theorem C95_linked_refuted : exists ln t data data' rows, link_consumers_to_markets ln t data = Ok data' /\
  consumer_link_rows t data = Ok rows /\ rows <> [] /\ map d_exchanges data' = map d_exchanges data.
Proof.
  exists (fun x => x), ex_world, (ex_linked "RER" (ex_sellers 0 0)). do 2 eexists. split; [vm_compute; reflexivity|].
  split; [vm_compute; reflexivity|]. split; [done|]. by_compute.
Qed.
Print Assumptions C95_linked_refuted.
(** Nor does a link mean a row: an input linked to one market is not in the table. *)
Theorem C95_listed_refuted : exists ln t data data' ds' e m, link_consumers_to_markets ln t data = Ok data' /\
  consumer_link_rows t data = Ok [] /\ data' !! 0%nat = Some ds' /\ e ∈ d_exchanges ds' /\ m ∈ data /\ e_type e = FromTechnosphere /\
  sells (e_name e) m /\ e_code e = d_code m.
Proof.
  exists (fun x => x), ex_world, (ex_linked "DE" (ex_sellers 10 30)). eexists _, _,
    (set_e_code (Some "m2"%string) (set_e_name "steel" (set_e_type FromTechnosphere (set_e_amount (Qcint 8) exchange0)))), (nth 1 (ex_sellers 10 30) dataset0).
  split; [vm_compute; reflexivity|]. split; [vm_compute; reflexivity|]. split; [reflexivity|]. split; [by_compute|]. split; [by_compute|]. by_compute.
Qed.
Print Assumptions C95_listed_refuted.

Theorem C95_columns : forall t data ds rows rows',
  group_link_rows t data = Ok rows -> consumer_link_rows t data = Ok rows' ->
  fits_in link_columns "combined_production" (combined_rows ds) /\
  fits_in link_columns "link_market_group_suppliers" rows /\
  fits_in link_columns "link_consumers_to_markets" rows'.
Proof. intros t data ds rows rows' H H'. split; [apply combined_fits|]. split; [by eapply groups_fit|by eapply consumers_fit]. Qed.
Print Assumptions C95_columns.
