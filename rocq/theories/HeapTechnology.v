(** Objects with identity, continued: the collection [link_markets_by_technology_level] as a
    whole (ocelot/transformations/consequential/__init__.py lines 27-46). *)
From stdpp Require Import gmap.
From Verif Require Import Base Types Utils Topology Locations Consequential Heap HeapLinks HeapHard HeapMarkets HeapGroups HeapLinking HeapRow.

(** consequential/market_linking.py lines 17-31.  The list of suppliers of a dataset is a
    field of it that nothing else refers to. *)
Definition prune_h (data : list addr) : M unit := iterM (modD prune_dataset) data.
(** locations/markets.py lines 324-326. *)
Definition delete_suppliers_h (data : list addr) : M unit := iterM (modD (fun ds => Ok (set_d_suppliers None ds))) data.

(** __init__.py lines 27-46. *)
Definition technology_h (md5 : string -> string) (ln : Qc -> Qc) (ord : gset string -> list string) (t : topo) (data : list addr)
  : M (list addr) :=
  let! _ := label_h data in
  let! data := delete_whitelisted_h data in
  let! _ := fake_pv_h data in
  let! _ := relabel_h data in
  let! _ := codes_h md5 [] data in
  let! _ := actualize_h data in
  let! _ := add_suppliers_h ord t Transforming MarketActivity data in
  let! _ := prune_h data in
  let! _ := update_volumes_h data in
  let! _ := add_suppliers_h ord t MarketActivity MarketGroup data in
  let! _ := update_group_volumes_h t data in
  let! _ := allocate_all_h MarketActivity data in
  let! _ := delete_suppliers_h data in
  let! _ := link_consumers_h ln t data in
  concat_mapM unlinked_h data.
