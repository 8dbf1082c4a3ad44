(** Objects with identity, continued: the production volumes of market groups, which are
    suppliers of each other (ocelot/transformations/locations/markets.py lines 253-312 with
    [kind='market group']).  Every change is seen by the steps after it.

    Simplification: the list [ds['suppliers']] belongs to its dataset (as in [HeapMarkets]). *)
From Verif Require Import Base Types Topology GroupUpdate Locations Heap HeapMarkets.

(** Lines 270-279: the groups in order of increasing size. *)
Definition group_order_h (t : topo) (groups : list addr) : M (list addr) :=
  let! locs := locations_h groups in
  let! ordered := lift (ordered_dependencies t locs None) in
  let! ks := mapM (fun a => let! ds := readD a in let! k := lift (position ordered (d_location ds)) in retM (k, a)) groups in
  retM (map snd (isort (fun a b : nat * addr => (b.1 <=? a.1)%nat) ks)).
(** Lines 281-296, with the local variable [pv]. *)
Definition group_volume_h (a : addr) : M Qc :=
  let! ds := readD a in let! pv := lift (updated_volume ds) in let! _ := volume_h a in retM pv.
(** Lines 300-305 for one other group [b]; [other == ds] compares what is in the two
    datasets now. *)
Definition propagate_h (a : addr) (pv : Qc) (b : addr) : M unit :=
  let! ds := readD a in modD (propagate ds pv) b.
(** Lines 281-305; the other groups in the same order. *)
Definition group_step_h (sorted : list addr) (a : addr) : M unit :=
  let! pv := group_volume_h a in iterM (propagate_h a pv) sorted.
(** Lines 253-312. *)
Definition update_group_volumes_h (t : topo) (data : list addr) : M unit :=
  let! groups := those_h (is_type MarketGroup) data in
  let! sorted := group_order_h t groups in
  iterM (group_step_h sorted) sorted.
