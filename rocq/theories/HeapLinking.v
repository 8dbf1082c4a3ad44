(** Objects with identity, continued: deleting datasets of the rest of the world
    (ocelot/transformations/locations/markets.py lines 404-422), and the steps of linking one
    after the other on the same objects (ocelot/transformations/locations/__init__.py lines
    43-58). *)
From stdpp Require Import gmap.
From Verif Require Import Base Types Grouping Topology Locations Heap HeapLinks HeapHard HeapMarkets HeapGroups HeapGroupLinks.

(** Lines 406-422; the list that is returned has the same objects. *)
Definition delete_global_h (kind : dtype) (data : list addr) : M (list addr) :=
  let! ks := refprods_h [kind] data in
  let! purge := mapM (fun g : string * list addr => let! ds := mapM readD g.2 in retM (idle_row ds)) (groupby ks) in
  those_h (fun ds => bool_decide (ds ∉ concat purge)) data.

(** __init__.py lines 43-58. *)
Definition linking_h (ln : Qc -> Qc) (ord : gset string -> list string) (t : topo) (data : list addr) : M (list addr) :=
  let! _ := actualize_h data in
  let! _ := add_recycled_h ord t data in
  let! _ := add_suppliers_h ord t Transforming MarketActivity data in
  let! _ := update_volumes_h data in
  let! data := delete_global_h MarketActivity data in
  let! data := delete_global_h Transforming data in
  let! _ := allocate_all_h MarketActivity data in
  let! _ := link_market_groups_h t data in
  let! _ := update_group_volumes_h t data in
  let! _ := allocate_all_h MarketGroup data in
  let! _ := link_recycled_h data in
  let! _ := link_consumers_h ln t data in
  retM data.
