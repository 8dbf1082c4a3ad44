(** Objects with identity, continued: the suppliers of market groups,
    [link_market_group_suppliers] (ocelot/transformations/locations/market_groups.py lines
    22-92).  A group is read as a supplier of others before or after it got its own suppliers.

    Simplifications: the list [ds['suppliers']] belongs to its dataset (as in [HeapMarkets]);
    of several groups at one location, of which only the last one is changed, the place in the
    order of [mg_by_location] is that of the last one, in Python that of the first one. *)
From Verif Require Import Base Types Grouping GroupUpdate Topology Locations Heap HeapLinks HeapMarkets.

(** Lines 38-40. *)
Definition names_h (group : list addr) : M unit :=
  let! names := mapM (fun a => let! ds := readD a in retM (d_name ds)) group in
  lift (assertR (match names with [] => true | n :: _ => forallb (fun m => (m =? n)%string) names end) MarketGroupError).
(** Lines 43-45: the markets with the reference product. *)
Definition markets_of_h (rp : string) (data : list addr) : M (list addr) :=
  concat_mapM (fun a =>
    let! ds := readD a in
    let! b := lift (if is_type MarketActivity ds then let? r := refprod ds in Ok (r =? rp)%string else Ok false) in
    retM (if b then [a] else [])) data.
(** Line 46, the values of the dictionary: later datasets replace earlier ones at the same
    location. *)
Fixpoint lasts {A} (l : list (string * A)) : list A :=
  match l with
  | [] => []
  | p :: r => if existsb (fun q => (q.1 =? p.1)%string) r then lasts r else p.2 :: lasts r
  end.
Definition by_place_h (group : list addr) : M (list (string * addr)) :=
  mapM (fun a => let! ds := readD a in retM (d_location ds, a)) group.
(** Lines 60-84, one market group: its suppliers are found among the markets and groups as
    they are now. *)
Definition link_one_h (t : topo) (markets groups : list addr) (row : faces) (ordered : list string) (a : addr) : M unit :=
  let! d := readD a in
  let! ms := mapM readD markets in
  let! gs := mapM readD groups in
  let! sup := lift (group_suppliers t ms gs row ordered (d_location d)) in
  modD (fun d => Ok (set_d_suppliers (match sup with [] => None | _ => Some sup end) d)) a.
(** Lines 42-84, the groups of one reference product. *)
Definition link_group_h (t : topo) (data : list addr) (g : string * list addr) : M unit :=
  let! markets := markets_of_h g.1 data in
  let! mlocs := locations_h markets in
  let! places := by_place_h g.2 in
  let! row := lift (markets_row t mlocs) in
  let! ordered := lift (ordered_dependencies t (mlocs ++ map fst places) (Some row)) in
  iterM (link_one_h t markets g.2 row ordered) (lasts places).
(** Lines 22-92. *)
Definition link_market_groups_h (t : topo) (data : list addr) : M unit :=
  let! ks := refprods_h [MarketGroup] data in
  let! _ := iterM (fun g : string * list addr => names_h g.2) (groupby ks) in
  iterM (link_group_h t data) (groupby ks).
