(** Property theorems C35 and C36: the markets consumers are linked to. *)
From Verif Require Import Base Types Uncertainty Utils Spec_Utils GroupUpdate Topology Spec_Topology
  Locations Spec_Markets Spec_Mix Spec_Consumers Consumers_proofs ConsumerInputs_proofs
  Props_Topology Props_Locations Props_Markets.

(** ** C35 Splitting a consumer over several markets conserves its demand *)
Theorem C35_linked :
  forall ln t data data',
    Forall (fun d => known t (d_location d)) data ->
    (forall d, d ∈ data -> d_type d = MarketGroup -> d_location d <> "RoW"%string) ->
    (forall d, d ∈ data -> exists c, d_code d = Some c /\ c <> ""%string) ->
    (forall ds e, ds ∈ data -> e ∈ d_exchanges ds -> open_exchange e ->
       e_name e = "refinery gas"%string -> sold data "refinery gas") ->
    link_consumers_to_markets ln t data = Ok data' ->
    Forall2 (fun ds ds' => (d_type ds = MarketGroup -> ds' = ds) /\
      (d_type ds <> MarketGroup -> consumer_linked t data ds ds')) data data'.
Proof. exact link_consumers_spec. Qed.
Print Assumptions C35_linked.

Theorem C35_demand :
  forall t data ds ds' product, consumer_linked t data ds ds' ->
    demand product (d_exchanges ds') = demand product (d_exchanges ds).
Proof. exact linked_conserved. Qed.
Print Assumptions C35_demand.

Theorem C35_parts :
  forall ms e stays new, open_exchange e -> linked_input ms e stays new ->
    Qcsum (map e_amount (stays ++ new)) = e_amount e /\
    Forall (fun x => e_name x = e_name e /\ e_type x = FromTechnosphere /\
              (e_code x = e_code e \/ exists m, m ∈ ms /\ e_code x = d_code m)) (stays ++ new).
Proof. exact linked_parts. Qed.
Print Assumptions C35_parts.

Definition ex_user (loc : string) : dataset :=
  set_d_exchanges
    [set_e_class (Some Allocatable) (set_e_name "car" (set_e_type RefProduct (set_e_amount 1%Qc exchange0)));
     set_e_name "steel" (set_e_type FromTechnosphere (set_e_amount (Qcint 8) exchange0));
     set_e_name "CO2" (set_e_type ToEnvironment (set_e_amount (Qcint 2) exchange0))]
    (ex_place "u" "carmaking" loc "car" Transforming 1).
Definition ex_linked (loc : string) (markets : list dataset) : list dataset :=
  ex_user loc :: markets.
Definition ex_sellers (v1 v2 : Z) : list dataset :=
  map (fun m => set_d_exchanges (take 1 (d_exchanges m)) m)
  [ex_place "m1" "market for steel" "FR" "steel" MarketActivity v1;
   ex_place "m2" "market for steel" "DE" "steel" MarketActivity v2;
   ex_place "m3" "market for steel" "RoW" "steel" MarketActivity 50].
Definition ex_inputs (r : result (list dataset)) : list (list (Qc * option string)) :=
  match r with
  | Ok data => map (fun ds => map (fun e => (e_amount e, e_code e)) (d_exchanges ds)) (take 1 data)
  | Err _ => []
  end.
Definition ex_link (loc : string) (v1 v2 : Z) : list (list (Qc * option string)) :=
  ex_inputs (link_consumers_to_markets (fun x => x) ex_world (ex_linked loc (ex_sellers v1 v2))).
Example C35_nonvacuous :
  ex_link "RER"%string 10%Z 30%Z =
    [[(1%Qc, None); (Qcint 2, None); (Qcint 2, Some "m1"%string); (Qcint 6, Some "m2"%string)]] /\
  ex_link "DE"%string 10%Z 30%Z = [[(1%Qc, None); (Qcint 8, Some "m2"%string); (Qcint 2, None)]] /\
  ex_link "US"%string 10%Z 30%Z = [[(1%Qc, None); (Qcint 8, Some "m3"%string); (Qcint 2, None)]] /\
  (* a market without volume gets nothing *)
  ex_link "RER"%string 0%Z 30%Z = [[(1%Qc, None); (Qcint 2, None); (Qcint 8, Some "m2"%string)]].
Proof. by_compute. Qed.
Example C35_hypotheses :
  let data := ex_linked "RER" (ex_sellers 10 30) in
  Forall (fun d => known ex_world (d_location d)) data /\
  (forall d, d ∈ data -> d_type d = MarketGroup -> d_location d <> "RoW"%string) /\
  (forall d, d ∈ data -> exists c, d_code d = Some c /\ c <> ""%string) /\
  (forall ds e, ds ∈ data -> e ∈ d_exchanges ds -> open_exchange e ->
     e_name e = "refinery gas"%string -> sold data "refinery gas").
Proof.
  cbn zeta. set (data := ex_linked _ _).
  assert (Forall (fun d => d_location d = "RoW"%string \/ is_Some (ex_world !! d_location d)) data) as H1 by by_compute.
  assert (Forall (fun d => d_type d <> MarketGroup) data) as H2 by by_compute.
  assert (Forall (fun d => is_Some (d_code d) /\ d_code d <> Some ""%string) data) as H3 by by_compute.
  assert (Forall (fun d => Forall (fun e => e_name e <> "refinery gas"%string) (d_exchanges d)) data) as H4 by by_compute.
  rewrite !Forall_forall in H2, H3, H4. split; [exact H1|]. split; [intros d Hd E; by apply H2 in E|]. split.
  - intros d Hd. destruct (H3 d Hd) as [[c Hc] Hn]. exists c. split; [done|]. intros ->. done.
  - intros ds e Hds He _ Hn. specialize (H4 ds Hds). rewrite Forall_forall in H4. by apply H4 in Hn.
Qed.

(** Inputs stay unlinked, silently, if the markets chosen have no volume. *)
Theorem C35_everything_linked_refuted :
  exists ln t data data' ds' e, link_consumers_to_markets ln t data = Ok data' /\
    sold data (e_name e) /\ data' !! 0%nat = Some ds' /\ e ∈ d_exchanges ds' /\ open_exchange e.
Proof.
  exists (fun x => x), ex_world, (ex_linked "RER" (ex_sellers 0 0)). eexists _, _,
    (set_e_name "steel" (set_e_type FromTechnosphere (set_e_amount (Qcint 8) exchange0))).
  split; [vm_compute; reflexivity|]. split; [by_compute|]. split; [reflexivity|]. split; [by_compute|]. by_compute.
Qed.
Print Assumptions C35_everything_linked_refuted.

(** Without a market for refinery gas, its inputs are linked to the markets of
    whatever input came before, and an input can disappear: here the second
    of two equal inputs is decided on by other markets than the first. *)
Definition ex_gas (n : string) : exchange :=
  set_e_name n (set_e_type FromTechnosphere (set_e_amount (Qcint 8) exchange0)).
Definition ex_refinery : list dataset :=
  set_d_exchanges
    [set_e_class (Some Allocatable) (set_e_name "car" (set_e_type RefProduct (set_e_amount 1%Qc exchange0)));
     ex_gas "steel"; ex_gas "refinery gas"; ex_gas "ore"; ex_gas "refinery gas"]
    (ex_place "u" "carmaking" "RER" "car" Transforming 1)
  :: ex_sellers 10 30
  ++ map (fun m => set_d_exchanges (take 1 (d_exchanges m)) m)
       [ex_place "m4" "market for ore" "DE" "ore" MarketActivity 0;
        ex_place "m5" "market for ore" "FR" "ore" MarketActivity 0].
Theorem C35_refinery_gas_refuted :
  exists ln t data data' ds ds', link_consumers_to_markets ln t data = Ok data' /\
    data !! 0%nat = Some ds /\ data' !! 0%nat = Some ds' /\
    demand "refinery gas" (d_exchanges ds') <> demand "refinery gas" (d_exchanges ds) /\
    exists e m, e ∈ d_exchanges ds' /\ m ∈ data /\ e_name e = "refinery gas"%string /\
      e_code e = d_code m /\ d_refprod m = Some "steel"%string.
Proof.
  exists (fun x => x), ex_world, ex_refinery. eexists _, _, _. split; [vm_compute; reflexivity|].
  split; [reflexivity|]. split; [reflexivity|]. split; [by_compute|].
  exists (set_e_code (Some "m1"%string) (set_e_tag (Some "intermediateExchange"%string)
            (set_e_type FromTechnosphere (set_e_name "refinery gas" (set_e_amount (Qcint 2) exchange0))))).
  exists (nth 1 ex_refinery dataset0). split; [by_compute|]. split; [by_compute|]. by_compute.
Qed.
Print Assumptions C35_refinery_gas_refuted.

(** ** C36 A consumer is never linked to overlapping markets *)
Theorem C36_choice :
  forall t loc row mlocs glocs f found,
    Forall (known t) (mlocs ++ glocs) -> "RoW"%string ∉ glocs -> consumer_row_fits t loc row f ->
    choose_locations t loc row mlocs glocs = Ok found ->
    chosen_places t mlocs glocs loc f found.
Proof. exact choose_locations_spec. Qed.
Print Assumptions C36_choice.

Theorem C36_disjoint :
  forall t mlocs glocs loc f found a b g h,
    chosen_places t mlocs glocs loc f found ->
    a ∈ found -> b ∈ found -> a <> b ->
    area t mlocs a g -> area t mlocs b h ->
    (a = "RoW"%string -> b ∈ mlocs) -> (b = "RoW"%string -> a ∈ mlocs) -> g ## h.
Proof. exact chosen_disjoint. Qed.
Print Assumptions C36_disjoint.

Theorem C36_fallback :
  forall t mlocs glocs loc f found,
    chosen_places t mlocs glocs loc f found ->
    (forall c, c ∈ found -> exists g, area t mlocs c g /\ (g ⊆ f \/ f ⊆ g)) /\
    ((forall c g, c ∈ mlocs \/ c ∈ glocs -> area t mlocs c g -> proper c g -> ~ g ⊆ f) ->
     (length found <= 1)%nat /\
     forall c g, found = [c] -> area t mlocs c g -> f ⊆ g /\
       forall d h, d ∈ mlocs \/ d ∈ glocs -> area t mlocs d h -> proper d h -> f ⊆ h -> (size g <= size h)%nat).
Proof. exact chosen_fallback. Qed.
Print Assumptions C36_fallback.

Example C36_nonvacuous :
  choose_locations ex_world "RER" None ["FR"; "UCTE"; "RoW"; "US"] ["RER"; "GLO"] = Ok ["RER"]%string /\
  choose_locations ex_world "RER" None ["FR"; "UCTE"; "RoW"; "US"] ["GLO"] = Ok ["UCTE"]%string /\
  choose_locations ex_world "RER" None ["FR"; "DE"; "RoW"; "US"] ["GLO"] = Ok ["FR"; "DE"]%string /\
  choose_locations ex_world "DE" None ["FR"; "RoW"; "US"] ["RER"; "GLO"] = Ok ["RoW"]%string /\
  choose_locations ex_world "DE" None ["FR"; "US"] ["RER"; "GLO"] = Ok ["RER"]%string /\
  choose_locations ex_world "RoW" (Some {[7%positive]}) ["FR"; "US"] ["RER"; "GLO"] = Ok ["GLO"]%string /\
  consumer_row_fits ex_world "RoW" (Some {[7%positive]}) {[7%positive]}.
Proof. do 6 (split; [vm_compute; reflexivity|]). by right. Qed.

(** The rest of the world is not taken off what is left, so a market group
    which shares faces with it is chosen as well. *)
Theorem C36_row_and_group_refuted :
  exists t mlocs glocs found a b fa fb, choose_locations t "GLO" None mlocs glocs = Ok found /\
    a ∈ found /\ b ∈ found /\ a <> b /\ area t mlocs a fa /\ area t mlocs b fb /\ ~ fa ## fb.
Proof.
  exists ex_world, ["FR"; "RoW"]%string, ["RER"]%string. eexists _, "RoW"%string, "RER"%string, _, _.
  split; [vm_compute; reflexivity|]. split; [by_compute|]. split; [by_compute|]. split; [done|].
  split; [right; split; [done|]; apply Markets_proofs.resolve_rest; reflexivity|].
  split; [left; split; [done|reflexivity]|]. by_compute.
Qed.
Print Assumptions C36_row_and_group_refuted.

(** A consumer in an empty rest of the world gets no market at all. *)
Theorem C36_empty_row_refuted :
  exists t mlocs glocs, "GLO"%string ∈ glocs /\ mlocs <> [] /\
    choose_locations t "RoW" (Some ∅) mlocs glocs = Ok [].
Proof.
  exists ex_world, ["FR"; "RoW"]%string, ["GLO"]%string. split; [set_solver|]. split; [done|]. vm_compute. reflexivity.
Qed.
Print Assumptions C36_empty_row_refuted.
