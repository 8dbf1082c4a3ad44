(** Property theorems C24-C27 and C60. *)
From Verif Require Import Base Types Uncertainty Utils Spec_Utils Utils_proofs
  Validation Validation_proofs ActivityLinks Spec_ActivityLinks ActivityLinks_proofs.

(** ** C24 Validated activity links can be followed *)
Theorem C24_check_iff :
  forall data, NoDup (map d_id data) ->
    (forall data', check_activity_link_validity data = Ok data' -> data' = data) /\
    (is_ok (check_activity_link_validity data) = true <->
     forall ds e, ds ∈ data -> e ∈ d_exchanges ds -> link_resolves data e).
Proof. exact check_validity_spec. Qed.
Print Assumptions C24_check_iff.

Theorem C24_check_error :
  forall data ds e,
    NoDup (map d_id data) -> Forall classified data ->
    ds ∈ data -> e ∈ d_exchanges ds -> ~ link_resolves data e ->
    check_activity_link_validity data = Err UnresolvableActivityLink.
Proof. exact check_validity_error. Qed.
Print Assumptions C24_check_error.

(** After a successful check, computing hard-linked volumes succeeds provided
    outputs have production volumes and every dataset produces something (two
    conditions that do not concern links). *)
Theorem C24_followable :
  forall data, NoDup (map d_id data) ->
    is_ok (check_activity_link_validity data) = true ->
    (forall ds e, ds ∈ data -> e ∈ d_exchanges ds -> alloc_output e -> e_pv e <> None) ->
    (forall ds, ds ∈ data -> exists e, e ∈ d_exchanges ds /\ is_refproduct e /\ e_amount e <> 0%Qc) ->
    exists data', add_hard_linked_production_volumes data = Ok data'.
Proof. exact hard_links_total. Qed.
Print Assumptions C24_followable.

Definition ex_out (n : string) (a v : Z) : exchange :=
  set_e_name n (set_e_type RefProduct (set_e_amount (Qcint a)
    (set_e_pv (Some (set_v_amount (Qcint v) pvol0)) exchange0))).
Definition ex_in (n link : string) (a : Z) : exchange :=
  set_e_name n (set_e_type FromTechnosphere (set_e_amount (Qcint a)
    (set_e_link (Some link) exchange0))).
Definition ex_links : list dataset :=
  [set_d_id "A" (set_d_type Transforming (set_d_exchanges [ex_out "steel" 1 100] dataset0));
   set_d_id "B" (set_d_type Transforming
     (set_d_exchanges [ex_out "car" 2 10; ex_in "steel" "A" 3; ex_in "steel" "A" 1] dataset0));
   set_d_id "C" (set_d_type Transforming
     (set_d_exchanges [ex_out "truck" 1 5; ex_in "steel" "A" 10] dataset0))].

Example C24_nonvacuous :
  NoDup (map d_id ex_links) /\ Forall classified ex_links /\
  is_ok (check_activity_link_validity ex_links) = true /\
  check_activity_link_validity (take 0 ex_links ++ drop 1 ex_links) = Err UnresolvableActivityLink.
Proof. repeat split; by_compute. Qed.

(** ** C25 Hard-linked volume equals total linked demand *)
Theorem C25_volume_total :
  forall data data', NoDup (map d_id data) ->
    add_hard_linked_production_volumes data = Ok data' ->
    exists r : dataset -> Qc,
      (forall ds X n e, ds ∈ data -> e ∈ d_exchanges ds -> counted_link X n ds e ->
         biggest_ratio ds (r ds)) /\
      Forall2 (fun ds ds' => exists es', ds' = set_d_exchanges es' ds /\
         Forall2 (fun e e' =>
           (alloc_output e -> volume_recorded (link_demands r data (d_id ds) (e_name e)) e e') /\
           (~ alloc_output e -> e' = e)) (d_exchanges ds) es') data data'.
Proof. exact hard_linked_volumes_spec. Qed.
Print Assumptions C25_volume_total.

Theorem C25_dataset_order :
  forall data1 data2 d1 d2,
    NoDup (map d_id data1) -> data1 ≡ₚ data2 ->
    add_hard_linked_production_volumes data1 = Ok d1 ->
    add_hard_linked_production_volumes data2 = Ok d2 ->
    d1 ≡ₚ d2.
Proof. exact hard_links_order. Qed.
Print Assumptions C25_dataset_order.

(** The order of the exchanges inside the consumer matters when two of its
    products have ratios of equal absolute value and opposite sign. *)
Definition ex_order (es : list exchange) : list dataset :=
  [set_d_id "A" (set_d_exchanges [ex_out "steel" 1 100] dataset0);
   set_d_id "B" (set_d_exchanges (es ++ [ex_in "steel" "A" 3]) dataset0)].
Theorem C25_exchange_order_refuted : exists es1 es2 d1 d2,
  es1 ≡ₚ es2 /\
  add_hard_linked_production_volumes (ex_order es1) = Ok d1 /\
  add_hard_linked_production_volumes (ex_order es2) = Ok d2 /\
  map (fun ds => map e_pv (d_exchanges ds)) (take 1 d1)
  <> map (fun ds => map e_pv (d_exchanges ds)) (take 1 d2).
Proof.
  exists [ex_out "x" 1 2; ex_out "y" (-1) 2], [ex_out "y" (-1) 2; ex_out "x" 1 2].
  eexists _, _. split; [apply Permutation_swap|].
  split; [vm_compute; reflexivity|]. split; [vm_compute; reflexivity|]. by_compute.
Qed.
Print Assumptions C25_exchange_order_refuted.

Example C25_nonvacuous :
  exists data', add_hard_linked_production_volumes ex_links = Ok data' /\
    NoDup (map d_id ex_links) /\
    map (fun ds => map (fun e => e_pv e ≫= v_subtracted) (d_exchanges ds)) data'
    = [[Some (Qcint 70)]; [None; None; None]; [None; None]].
Proof. eexists. split; [vm_compute; reflexivity|]. split; by_compute. Qed.

(** ** C26 Available volume is never negative and never grows *)
Theorem C26_update :
  forall data data',
    update_transforming_activity_production_volumes data = Ok data' ->
    Forall2 (fun ds ds' =>
      (d_type ds <> Transforming -> ds' = ds) /\
      (d_type ds = Transforming ->
       exists es', ds' = set_d_exchanges es' ds /\
         Forall2 volume_updated (d_exchanges ds) es')) data data'.
Proof. exact update_transforming_spec. Qed.
Print Assumptions C26_update.

Theorem C26_bounds :
  forall e e' v s,
    volume_updated e e' -> alloc_output e -> e_pv e = Some v -> v_subtracted v = Some s ->
    exists v', e_pv e' = Some v' /\ (0 <= v_amount v')%Qc /\ v_original v' = Some (v_amount v) /\
      (0 <= s -> 0 <= v_amount v -> v_amount v' <= v_amount v)%Qc /\
      (s <= v_amount v -> v_amount v' + s = v_amount v)%Qc /\
      (v_amount v <= s -> v_amount v' = 0)%Qc.
Proof. exact volume_updated_bounds. Qed.
Print Assumptions C26_bounds.

(** The whole collection: every product of a transforming activity ends with
    max(volume - sum of the demands over the followed links, 0). *)
Theorem C26_collection :
  forall data data',
    NoDup (map d_id data) ->
    Forall (fun ds => Forall (fun e => forall v, e_pv e = Some v -> v_subtracted v = None)
                        (d_exchanges ds)) data ->
    manage_activity_links data = Ok data' ->
    exists (r : dataset -> Qc) kept,
      kept = map (fun ds => set_d_exchanges (map (fun e =>
               if decide (links_to withdrawn_link e) then set_e_link None e else e)
               (d_exchanges ds)) ds) data /\
      (forall ds X n e, ds ∈ kept -> e ∈ d_exchanges ds -> counted_link X n ds e ->
         biggest_ratio ds (r ds)) /\
      (forall ds e, ds ∈ kept -> e ∈ d_exchanges ds -> link_resolves kept e) /\
      Forall2 (fun ds ds' =>
        d_id ds' = d_id ds /\ d_type ds' = d_type ds /\
        Forall2 (fun e e' =>
          e_amount e' = e_amount e /\ e_type e' = e_type e /\ e_name e' = e_name e /\
          (alloc_output e -> d_type ds = Transforming ->
           forall v, e_pv e = Some v ->
           let l := link_demands r kept (d_id ds) (e_name e) in
           (l = [] -> e_pv e' = Some v) /\
           (l <> [] -> exists v', e_pv e' = Some v' /\
              v_amount v' = Qcmax (v_amount v - Qcsum l) 0 /\
              v_original v' = Some (v_amount v))) /\
          (~ alloc_output e -> e_pv e' = e_pv e))
        (d_exchanges ds) (d_exchanges ds')) data data'.
Proof. exact manage_spec. Qed.
Print Assumptions C26_collection.

(** Negative link demand (a link on an input with negative amount) makes the
    available volume grow. *)
Theorem C26_negative_demand_refuted : exists data data' e e' v v',
  manage_activity_links data = Ok data' /\
  data ≫= d_exchanges = e :: tail (data ≫= d_exchanges) /\
  data' ≫= d_exchanges = e' :: tail (data' ≫= d_exchanges) /\
  e_pv e = Some v /\ e_pv e' = Some v' /\ (v_amount v < v_amount v')%Qc.
Proof.
  exists [set_d_id "A" (set_d_type Transforming (set_d_exchanges [ex_out "steel" 1 100] dataset0));
     set_d_id "B" (set_d_exchanges [ex_out "scrap" 2 10; ex_in "steel" "A" (-3)] dataset0)].
  eexists _, _, _, _, _.
  split; [vm_compute; reflexivity|]. split; [vm_compute; reflexivity|].
  split; [vm_compute; reflexivity|]. split; [vm_compute; reflexivity|].
  split; [vm_compute; reflexivity|]. by_compute.
Qed.
Print Assumptions C26_negative_demand_refuted.

Example C26_nonvacuous :
  exists data', manage_activity_links ex_links = Ok data' /\
    map (fun ds => map (fun e => option_map v_amount (e_pv e)) (d_exchanges ds)) data'
    = [[Some (Qcint 30)]; [Some (Qcint 10); None; None]; [Some (Qcint 5); None]].
Proof. eexists. split; [vm_compute; reflexivity|]. by_compute. Qed.

(** ** C27 Links of child datasets follow the child *)
Theorem C27_relink :
  forall data data',
    update_activity_link_parent_child data = Ok data' ->
    Forall2 (fun ds ds' => exists es', ds' = set_d_exchanges es' ds /\
                            Forall2 (relinked ds) (d_exchanges ds) es') data data'.
Proof. exact parent_child_spec. Qed.
Print Assumptions C27_relink.

Theorem C27_no_parent_links :
  forall data data',
    update_activity_link_parent_child data = Ok data' ->
    forall ds e parent, ds ∈ data' -> e ∈ d_exchanges ds ->
      d_parent ds = Some parent -> parent <> d_id ds -> links_to parent e -> alloc_output e.
Proof. exact parent_child_none. Qed.
Print Assumptions C27_no_parent_links.

Theorem C27_idempotent :
  forall data data',
    update_activity_link_parent_child data = Ok data' ->
    update_activity_link_parent_child data' = Ok data'.
Proof. exact parent_child_idem. Qed.
Print Assumptions C27_idempotent.

Theorem C27_total :
  forall data, Forall classified data ->
    exists data', update_activity_link_parent_child data = Ok data'.
Proof. exact parent_child_total. Qed.
Print Assumptions C27_total.

Example C27_nonvacuous :
  exists data', update_activity_link_parent_child
      [set_d_id "B" (set_d_parent (Some "P")
        (set_d_exchanges [ex_out "car" 2 10; ex_in "car" "P" 1; ex_in "steel" "A" 3] dataset0))]
    = Ok data' /\
    map (fun ds => map e_link (d_exchanges ds)) data' = [[None; Some "B"; Some "A"]].
Proof. eexists. split; [vm_compute; reflexivity|]. by_compute. Qed.

(** ** C60 The ecoinvent 3.5 fix removes exactly the withdrawn links *)
Theorem C60_fix_exact :
  forall data,
    Forall2 (fun ds ds' => exists es', ds' = set_d_exchanges es' ds /\
       Forall2 (fun e e' =>
         (links_to "25edb027-d7c0-4756-a051-cab82e4f6248" e -> e' = set_e_link None e) /\
         (~ links_to "25edb027-d7c0-4756-a051-cab82e4f6248" e -> e' = e))
         (d_exchanges ds) es') data (fix_35_activity_links data).
Proof. exact fix_35_exact. Qed.
Print Assumptions C60_fix_exact.

Theorem C60_fix_idempotent :
  forall data, fix_35_activity_links (fix_35_activity_links data) = fix_35_activity_links data.
Proof. exact fix_35_idem. Qed.
Print Assumptions C60_fix_idempotent.

Example C60_nonvacuous :
  map (fun ds => map e_link (d_exchanges ds)) (fix_35_activity_links
    [set_d_exchanges [ex_in "a" "25edb027-d7c0-4756-a051-cab82e4f6248" 1; ex_in "b" "A" 1] dataset0])
  = [[None; Some "A"]].
Proof. by_compute. Qed.
