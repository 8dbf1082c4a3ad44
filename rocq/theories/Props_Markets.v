(** Property theorems C32, C33 and C34: suppliers of markets, market mixes and
    production volumes. *)
From Verif Require Import Base Types Uncertainty Utils Spec_Utils StringFacts Cutoff GroupUpdate
  Topology Spec_Topology
  Locations Spec_Markets Markets_proofs Spec_Mix Mix_proofs GroupVolumes_proofs
  Props_Topology Props_Locations.

(** ** C32 No supplier feeds two markets, none is in the wrong place *)
Theorem C32_suppliers :
  forall (ord : gset string -> list string) t from to data data',
    (forall s, ord s ≡ₚ elements s) -> t !! "RoW"%string = None ->
    add_suppliers_to_markets ord t from to data = Ok data' ->
    length data' = length data /\
    forall i ds, data !! i = Some ds -> exists ds', data' !! i = Some ds' /\
      ((forall p, ~ waiting to p ds) -> ds' = ds) /\
      forall p, waiting to p ds -> exists l,
        ds' = set_d_suppliers (Some l) ds /\
        supplied t (waiting_locations to p data) (makers from p data) (d_location ds) l /\
        NoDup (waiting_locations to p data) /\
        (to = MarketActivity -> partition t (waiting_locations to p data)) /\
        (forall d, d ∈ makers from p data -> partition t (namesakes (makers from p data) (d_name d))).
Proof. exact add_suppliers_spec. Qed.
Print Assumptions C32_suppliers.

Theorem C32_exclusive :
  forall (ord : gset string -> list string) t from data data' p i j di dj li lj s s',
    (forall s, ord s ≡ₚ elements s) -> t !! "RoW"%string = None ->
    add_suppliers_to_markets ord t from MarketActivity data = Ok data' ->
    i <> j -> data !! i = Some di -> data !! j = Some dj ->
    waiting MarketActivity p di -> waiting MarketActivity p dj ->
    data' !! i = Some (set_d_suppliers (Some li) di) -> data' !! j = Some (set_d_suppliers (Some lj) dj) ->
    s ∈ li -> s' ∈ lj -> origin s = origin s' ->
    exists n, e_location s = Some n /\ t !! n = Some ∅.
Proof. exact add_suppliers_exclusive. Qed.
Print Assumptions C32_exclusive.

Theorem C32_recycled :
  forall (ord : gset string -> list string) t data data',
    (forall s, ord s ≡ₚ elements s) -> t !! "RoW"%string = None ->
    add_recycled_content_suppliers_to_markets ord t data = Ok data' ->
    length data' = length data /\
    forall i ds, data !! i = Some ds -> exists ds', data' !! i = Some ds' /\
      (d_type ds <> MarketActivity -> ds' = ds) /\
      forall p, d_type ds = MarketActivity -> d_refprod ds = Some p ->
        (makers Transforming (p ++ RC_STRING)%string data = [] -> ds' = ds) /\
        (makers Transforming (p ++ RC_STRING)%string data <> [] -> exists l,
          ds' = set_d_suppliers (Some (default [] (d_suppliers ds) ++ l)) ds /\
          supplied t (market_locations p data) (makers Transforming (p ++ RC_STRING)%string data)
            (d_location ds) l /\
          NoDup (market_locations p data) /\ partition t (market_locations p data)).
Proof. exact add_recycled_spec. Qed.
Print Assumptions C32_recycled.

Definition ex_supplied (ds : dataset) : list (option string * option string) :=
  map origin (default [] (d_suppliers ds)).
Definition ex_steel_markets : list dataset :=
  [ex_place "1" "steelmaking" "RoW" "steel" Transforming 100;
   ex_place "2" "steelmaking" "FR" "steel" Transforming 30;
   ex_place "3" "recasting" "UCTE" "steel" Transforming 50;
   ex_place "4" "steelmaking" "DE" "steel" Transforming 60;
   ex_place "5" "recasting" "FR" "ore" Transforming 60;
   ex_place "6" "market for steel" "RER" "steel" MarketActivity 0;
   ex_place "7" "market for steel" "RoW" "steel" MarketActivity 0;
   ex_place "8" "market for steel" "US" "steel" MarketActivity 0;
   ex_place "9" "hardening" "US" "steel" Transforming 10].
(** The rest of the world of steelmaking is {4, 5, 6, 7}, which is not inside
    the rest of the world {7} of the markets, so nobody takes it. *)
Example C32_nonvacuous :
  exists data', add_suppliers_to_markets elements ex_world Transforming MarketActivity ex_steel_markets
                = Ok data' /\
    (map ex_supplied data' =
     [[]; []; []; []; [];
      [(Some "steelmaking", Some "FR"); (Some "steelmaking", Some "DE"); (Some "recasting", Some "UCTE")];
      []; [(Some "hardening", Some "US")]; []] \/
     map ex_supplied data' =
     [[]; []; []; []; [];
      [(Some "steelmaking", Some "DE"); (Some "steelmaking", Some "FR"); (Some "recasting", Some "UCTE")];
      []; [(Some "hardening", Some "US")]; []])%string /\
    waiting MarketActivity "steel" (ex_place "6" "market for steel" "RER" "steel" MarketActivity 0) /\
    add_suppliers_to_markets elements ex_world Transforming MarketActivity
      (ex_steel_markets ++ [ex_place "10" "market for steel" "FR" "steel" MarketActivity 0])
    = Err OverlappingActivities.
Proof.
  eexists. split; [vm_compute; reflexivity|]. split; [vm_compute; tauto|].
  split; [by_compute|vm_compute; reflexivity].
Qed.

(** Two producers with the same name in the rest of the world: only the last
    one supplies the market. *)
Theorem C32_everyone_supplies_refuted :
  exists t data data' sup, add_suppliers_to_markets elements t Transforming MarketActivity data = Ok data' /\
    sup ∈ data /\ d_type sup = Transforming /\
    (exists m, m ∈ data /\ d_type m = MarketActivity /\ d_location m = "GLO"%string /\ d_refprod m = d_refprod sup) /\
    (forall m s, m ∈ data' -> s ∈ default [] (d_suppliers m) -> e_code s <> d_code sup).
Proof.
  exists ex_world,
    [ex_place "1" "steelmaking" "RoW" "steel" Transforming 100;
     ex_place "2" "steelmaking" "RoW" "steel" Transforming 30;
     ex_place "3" "market for steel" "GLO" "steel" MarketActivity 0].
  eexists. exists (ex_place "1" "steelmaking" "RoW" "steel" Transforming 100).
  split; [vm_compute; reflexivity|]. split; [set_solver|]. split; [done|]. split.
  { eexists. split; [apply elem_of_list_further, elem_of_list_further, elem_of_list_here|]. done. }
  set (code := d_code _). match goal with |- forall m s, m ∈ ?l -> _ => set (data' := l) end.
  assert (Forall (fun m => Forall (fun s => e_code s <> code) (default [] (d_suppliers m))) data') as H by by_compute.
  intros m s Hm. rewrite Forall_forall in H. specialize (H m Hm). rewrite Forall_forall in H. apply H.
Qed.
Print Assumptions C32_everyone_supplies_refuted.

(** A place without faces lies in every place, so its producers supply every
    market. *)
Theorem C32_empty_place_refuted :
  exists t data data' i j di dj si sj, i <> j /\
    add_suppliers_to_markets elements t Transforming MarketActivity data = Ok data' /\
    data' !! i = Some di /\ data' !! j = Some dj /\
    d_suppliers di = Some [si] /\ d_suppliers dj = Some [sj] /\ e_code si = Some "1"%string /\ e_code sj = Some "1"%string.
Proof.
  exists ex_world,
    [ex_place "1" "steelmaking" "nowhere" "steel" Transforming 100;
     ex_place "2" "market for steel" "FR" "steel" MarketActivity 0;
     ex_place "3" "market for steel" "DE" "steel" MarketActivity 0].
  eexists. exists 1%nat, 2%nat. do 4 eexists. split; [done|]. split; [vm_compute; reflexivity|].
  cbn. do 5 (split; [reflexivity|]). reflexivity.
Qed.
Print Assumptions C32_empty_place_refuted.

(** ** C33 Market mixes add up to the market output *)
Theorem C33_mix :
  forall ds ds', allocate_suppliers ds = Ok ds' -> mixed ds ds'.
Proof. exact allocate_suppliers_spec. Qed.
Print Assumptions C33_mix.

Theorem C33_total :
  forall ds rp l,
    filter is_refproduct (d_exchanges ds) = [rp] -> d_suppliers ds = Some l ->
    Forall (fun s => is_Some (e_pv s) /\ is_Some (e_code s)) l ->
    exists ds', allocate_suppliers ds = Ok ds'.
Proof. exact allocate_suppliers_total. Qed.
Print Assumptions C33_total.

Theorem C33_all :
  forall kind data data', allocate_all_market_suppliers kind data = Ok data' ->
    Forall2 (fun ds ds' => (d_type ds = kind -> mixed ds ds') /\ (d_type ds <> kind -> ds' = ds)) data data'.
Proof. exact allocate_all_spec. Qed.
Print Assumptions C33_all.

Definition ex_supply (code : string) (volume : Z) : exchange :=
  set_e_code (Some code) (set_e_pv (Some (set_v_amount (Qcint volume) pvol0))
    (set_e_name "steel" (set_e_type RefProduct (set_e_unit "kg" (set_e_amount 1%Qc exchange0))))).
Definition ex_market : dataset :=
  set_d_suppliers (Some [ex_supply "a" 30; ex_supply "b" 0; ex_supply "c" 10])
    (ex_place "7" "market for steel" "RER" "steel" MarketActivity 0).
Example C33_nonvacuous :
  exists ds', allocate_suppliers ex_market = Ok ds' /\
    map (fun e => (e_type e, e_amount e, e_code e)) (d_exchanges ds')
    = [(RefProduct, 1%Qc, None); (FromTechnosphere, frac 3 2, None);
       (FromTechnosphere, frac 3 4, Some "a"%string); (FromTechnosphere, frac 1 4, Some "c"%string)] /\
    total_volume [ex_supply "a" 30; ex_supply "b" 0; ex_supply "c" 10] <> 0%Qc.
Proof.
  eexists. split; [vm_compute; reflexivity|]. split; [by_compute|]. by_compute.
Qed.

(** Several suppliers without volume: the market keeps its output and gets no
    input. *)
Theorem C33_no_volume_refuted :
  exists ds, allocate_suppliers ds = Ok ds /\ d_suppliers ds = Some [ex_supply "a" 0; ex_supply "b" 0] /\
    exists rp, d_exchanges ds = [rp] /\ is_refproduct rp /\ e_amount rp = 1%Qc.
Proof.
  exists (set_d_suppliers (Some [ex_supply "a" 0; ex_supply "b" 0])
    (set_d_exchanges [set_e_type RefProduct (set_e_amount 1%Qc exchange0)] dataset0)).
  split; [vm_compute; reflexivity|]. split; [done|]. eexists. split; [reflexivity|]. done.
Qed.
Print Assumptions C33_no_volume_refuted.

(** ** C34 Market production volume is the sum of its suppliers' volumes *)
Theorem C34_markets :
  forall t kind data data', kind <> MarketGroup ->
    update_market_production_volumes t kind data = Ok data' ->
    Forall2 (fun ds ds' => (d_type ds = kind -> exists l, d_suppliers ds = Some l /\
        revalued (Qcmax (total_volume l - taken ds) 0) (Qcsum (map first_volume_of l)) ds ds') /\
      (d_type ds <> kind -> ds' = ds)) data data'.
Proof. exact update_markets_spec. Qed.
Print Assumptions C34_markets.

Theorem C34_groups :
  forall t data data',
    (forall i d, is_group data i d -> is_Some (d_code d)) ->
    (forall i j di dj, is_group data i di -> is_group data j dj -> d_code di = d_code dj -> i = j) ->
    (forall i d, is_group data i d -> exists f, d_location d <> "RoW"%string /\ t !! d_location d = Some f) ->
    (forall i di j dj l s, is_group data i di -> is_group data j dj ->
       d_suppliers di = Some l -> s ∈ l -> e_code s = d_code dj ->
       exists fi fj, t !! d_location di = Some fi /\ t !! d_location dj = Some fj /\ fj ⊂ fi) ->
    update_market_production_volumes t MarketGroup data = Ok data' ->
    length data' = length data /\
    (forall i d, data !! i = Some d -> d_type d <> MarketGroup -> data' !! i = Some d) /\
    forall i d, is_group data i d -> exists l l' d',
      d_suppliers d = Some l /\ Forall2 (supplier_revalued data data') l l' /\
      data' !! i = Some d' /\
      revalued (Qcmax (total_volume l' - taken d) 0) (Qcsum (map first_volume_of l'))
        (set_d_suppliers (Some l') d) d'.
Proof. intros t data data' H1 H2 H3 H4. exact (update_groups_volumes t data H1 H2 H3 H4 data'). Qed.
Print Assumptions C34_groups.

(** The world group comes first in the database but is treated last. *)
Definition ex_groups : list dataset :=
  [set_d_suppliers (Some [ex_supply "g2" 7; ex_supply "m" 5])
     (ex_place "g1" "market group for steel" "GLO" "steel" MarketGroup 1);
   set_d_suppliers (Some [ex_supply "a" 30; ex_supply "g3" 1])
     (ex_place "g2" "market group for steel" "RER" "steel" MarketGroup 1);
   ex_place "t" "steelmaking" "RER" "steel" Transforming 100;
   set_d_suppliers (Some [ex_supply "b" 2])
     (ex_place "g3" "market group for steel" "FR" "steel" MarketGroup 1)].
Example C34_nonvacuous :
  exists data', update_market_production_volumes ex_world MarketGroup ex_groups = Ok data' /\
    map output_volume data' = [Some (Qcint 37); Some (Qcint 32); Some (Qcint 100); Some (Qcint 2)].
Proof. eexists. split; [vm_compute; reflexivity|]. by_compute. Qed.
Example C34_hypotheses :
  (forall i d, is_group ex_groups i d -> is_Some (d_code d)) /\
  (forall i j di dj, is_group ex_groups i di -> is_group ex_groups j dj -> d_code di = d_code dj -> i = j) /\
  (forall i d, is_group ex_groups i d -> exists f, d_location d <> "RoW"%string /\ ex_world !! d_location d = Some f) /\
  (forall i di j dj l s, is_group ex_groups i di -> is_group ex_groups j dj ->
     d_suppliers di = Some l -> s ∈ l -> e_code s = d_code dj ->
     exists fi fj, ex_world !! d_location di = Some fi /\ ex_world !! d_location dj = Some fj /\ fj ⊂ fi).
Proof.
  assert (forall i d, is_group ex_groups i d -> (i = 0 \/ i = 1 \/ i = 3)%nat /\ nth i ex_groups dataset0 = d) as Hg.
  { intros i d [Hi Ht]. destruct i as [|[|[|[|i]]]]; cbn in Hi; try discriminate Hi;
      apply Some_inj in Hi as <-; try discriminate Ht; split; try reflexivity; lia. }
  split; [|split; [|split]].
  - intros i d Hd. apply Hg in Hd as [[->|[->| ->]] <-]; eexists; reflexivity.
  - intros i j di dj Hi Hj E. apply Hg in Hi as [Hi <-]. apply Hg in Hj as [Hj <-].
    destruct Hi as [->|[->| ->]], Hj as [->|[->| ->]]; try reflexivity; discriminate E.
  - intros i d Hd. apply Hg in Hd as [[->|[->| ->]] <-]; eexists; (split; [discriminate|reflexivity]).
  - intros i di j dj l s Hi Hj Hl Hs E. apply Hg in Hi as [Hi <-]. apply Hg in Hj as [Hj <-].
    destruct Hi as [->|[->| ->]]; cbn in Hl; apply Some_inj in Hl as <-;
      repeat (apply elem_of_cons in Hs as [->|Hs]); try (by apply elem_of_nil in Hs);
      destruct Hj as [->|[->| ->]]; try discriminate E;
      (eexists _, _; split; [reflexivity|split; [reflexivity|by_compute]]).
Qed.

(** Two groups in one place which supply each other: the volumes depend on
    each other and do not fit together in the end. *)
Theorem C34_mutual_refuted :
  exists t data data' d s s' pv d2 pv2, update_market_production_volumes t MarketGroup data = Ok data' /\
    data' !! 0%nat = Some d /\ data' !! 1%nat = Some d2 /\ output_volume d = Some pv /\ output_volume d2 = Some pv2 /\
    d_suppliers d = Some [s; s'] /\ e_code s = d_code d2 /\ pv <> total_volume [s; s'] /\ volume_of s = pv2.
Proof.
  exists (<["Europe"%string := list_to_set [1;2;3;4]%positive]> ex_world),
    [set_d_suppliers (Some [ex_supply "g2" 0; ex_supply "m" 5])
       (ex_place "g1" "market group for steel" "Europe" "steel" MarketGroup 1);
     set_d_suppliers (Some [ex_supply "g1" 0; ex_supply "n" 3])
       (ex_place "g2" "market group for steel" "RER" "steel" MarketGroup 1)].
  eexists. do 6 eexists. split; [vm_compute; reflexivity|].
  split; [reflexivity|]. split; [reflexivity|]. split; [vm_compute; reflexivity|]. split; [vm_compute; reflexivity|].
  split; [reflexivity|]. split; [reflexivity|]. split; by_compute.
Qed.
Print Assumptions C34_mutual_refuted.
