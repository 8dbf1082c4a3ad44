(** Property theorems C37: the suppliers of market groups. *)
From Verif Require Import Base Types Uncertainty Utils Spec_Utils GroupUpdate Topology Spec_Topology
  Locations Spec_Markets Spec_Mix Spec_Consumers Spec_Groups Groups_proofs
  Props_Topology Props_Locations Props_Markets.

(** ** C37 Market groups supply from nested groups without double counting *)
Theorem C37_groups :
  forall t data data',
    Forall (fun d => known t (d_location d)) data ->
    (forall d, d ∈ data -> d_type d = MarketGroup -> d_location d <> "RoW"%string) ->
    link_market_group_suppliers t data = Ok data' ->
    length data' = length data /\
    forall i ds, data !! i = Some ds -> exists ds', data' !! i = Some ds' /\
      (d_type ds <> MarketGroup -> ds' = ds) /\
      forall p, d_type ds = MarketGroup -> d_refprod ds = Some p ->
        (~ last_there p data i ds -> ds' = ds) /\
        (last_there p data i ds -> exists l, group_supplied t p data (d_location ds) l /\
           ds' = set_d_suppliers (match l with [] => None | _ => Some l end) ds).
Proof. exact link_groups_spec. Qed.
Print Assumptions C37_groups.

Theorem C37_inside :
  forall t product data loc l, group_supplied t product data loc l ->
    forall s, s ∈ l -> exists m, m ∈ data /\ sells product m /\ supply_of m s /\
      (d_type m = MarketActivity \/ d_location m <> loc) /\
      ((exists f g, t !! loc = Some f /\ t !! d_location m = Some g /\ g ⊆ f) \/
       (d_location m = "RoW"%string /\ loc = "GLO"%string)).
Proof. exact group_supplied_inside. Qed.
Print Assumptions C37_inside.

Theorem C37_disjoint :
  forall t product data loc l i j s s' m m',
    group_supplied t product data loc l -> i <> j -> l !! i = Some s -> l !! j = Some s' ->
    supply_of m s -> supply_of m' s' -> d_location m <> "RoW"%string -> d_location m' <> "RoW"%string ->
    forall g h, t !! d_location m = Some g -> t !! d_location m' = Some h -> g ## h.
Proof. exact group_supplied_disjoint. Qed.
Print Assumptions C37_disjoint.

(** Whatever the nesting, a market reaches a group by at most one way. *)
Theorem C37_one_route :
  forall t mlocs glocs sup m g a l1 l2,
    "RoW"%string ∉ glocs ->
    (forall a, a ∈ glocs -> inner_places t mlocs glocs a (sup a)) ->
    a ∈ glocs -> m ∈ mlocs -> m <> "RoW"%string -> t !! m = Some g -> g <> ∅ ->
    route sup mlocs m a l1 -> route sup mlocs m a l2 -> l1 = l2.
Proof. exact route_unique. Qed.
Print Assumptions C37_one_route.

Theorem C37_names :
  forall t data data' a b, link_market_group_suppliers t data = Ok data' ->
    a ∈ data -> b ∈ data -> d_type a = MarketGroup -> d_type b = MarketGroup ->
    d_refprod a = d_refprod b -> d_name a = d_name b.
Proof. exact group_names. Qed.
Print Assumptions C37_names.

Definition ex_nested : list dataset :=
  [ex_place "g1" "market group for steel" "GLO" "steel" MarketGroup 1;
   ex_place "m1" "market for steel" "FR" "steel" MarketActivity 10;
   ex_place "m2" "market for steel" "DE" "steel" MarketActivity 20;
   ex_place "m3" "market for steel" "US" "steel" MarketActivity 30;
   ex_place "g2" "market group for steel" "RER" "steel" MarketGroup 1;
   ex_place "m4" "market for ore" "FR" "ore" MarketActivity 10;
   ex_place "g3" "market group for steel" "FR-DE" "steel" MarketGroup 1;
   ex_place "t" "steelmaking" "RER" "steel" Transforming 100].
Definition ex_supplier_codes (r : result (list dataset)) : list (option (list (option string))) :=
  match r with
  | Ok data => map (fun d => match d_suppliers d with Some l => Some (map e_code l) | None => None end) data
  | Err _ => []
  end.
Example C37_nonvacuous :
  ex_supplier_codes (link_market_group_suppliers ex_world ex_nested) =
    [Some [Some "g2"; Some "m3"]; None; None; None; Some [Some "g3"]; None; Some [Some "m1"; Some "m2"]; None]%string /\
  link_market_group_suppliers ex_world
    (ex_place "g" "another group" "DE" "steel" MarketGroup 1 :: ex_nested) = Err MarketGroupError.
Proof. split; vm_compute; reflexivity. Qed.
Example C37_hypotheses :
  Forall (fun d => known ex_world (d_location d)) ex_nested /\
  (forall d, d ∈ ex_nested -> d_type d = MarketGroup -> d_location d <> "RoW"%string).
Proof.
  assert (Forall (fun d => d_location d = "RoW"%string \/ is_Some (ex_world !! d_location d)) ex_nested) as H1 by by_compute.
  assert (Forall (fun d => d_location d <> "RoW"%string) ex_nested) as H2 by by_compute.
  split; [exact H1|]. rewrite Forall_forall in H2. intros d Hd _. by apply H2.
Qed.

(** Once anything larger was found for the world, the rest of the world is
    left out: no group is supplied from it. *)
Theorem C37_rest_of_world_lost_refuted :
  exists t data data' m, link_market_group_suppliers t data = Ok data' /\
    m ∈ data /\ d_location m = "RoW"%string /\ sells "steel" m /\
    (exists w, w ∈ data /\ d_location w = "GLO"%string /\ d_type w = MarketGroup /\ sells "steel" w) /\
    Forall (fun d => Forall (fun s => e_code s <> d_code m) (default [] (d_suppliers d))) data'.
Proof.
  exists ex_world, (ex_place "m5" "market for steel" "RoW" "steel" MarketActivity 40 :: ex_nested). eexists.
  exists (ex_place "m5" "market for steel" "RoW" "steel" MarketActivity 40).
  split; [vm_compute; reflexivity|]. split; [by_compute|]. split; [done|]. split; [by_compute|]. split.
  - exists (ex_place "g1" "market group for steel" "GLO" "steel" MarketGroup 1).
    split; [by_compute|]. split; [done|]. split; [done|]. by_compute.
  - by_compute.
Qed.
Print Assumptions C37_rest_of_world_lost_refuted.

(** Two groups in places with the same faces supply each other and nothing
    else reaches them. *)
Theorem C37_same_faces_refuted :
  exists t data data' a b m, link_market_group_suppliers t data = Ok data' /\
    data' !! 0%nat = Some a /\ data' !! 1%nat = Some b /\ data !! 2%nat = Some m /\
    (exists s, d_suppliers a = Some [s] /\ e_code s = d_code b) /\
    (exists s, d_suppliers b = Some [s] /\ e_code s = d_code a) /\
    d_type m = MarketActivity /\ sells "steel" m /\
    exists f g, t !! d_location a = Some f /\ t !! d_location m = Some g /\ g ⊆ f.
Proof.
  exists (<["Europe"%string := list_to_set [1;2;3;4]%positive]> ex_world),
    [ex_place "g1" "market group for steel" "Europe" "steel" MarketGroup 1;
     ex_place "g2" "market group for steel" "RER" "steel" MarketGroup 1;
     ex_place "m1" "market for steel" "FR" "steel" MarketActivity 10].
  eexists _, _, _, _. split; [vm_compute; reflexivity|]. split; [reflexivity|]. split; [reflexivity|].
  split; [reflexivity|]. split; [eexists; by split|]. split; [eexists; by split|]. split; [done|]. split; [by_compute|].
  eexists _, _. split; [reflexivity|]. split; [reflexivity|]. by_compute.
Qed.
Print Assumptions C37_same_faces_refuted.
