(** Objects with identity, continued: giving markets their suppliers,
    [add_recycled_content_suppliers_to_markets] and [add_suppliers_to_markets]
    (ocelot/transformations/locations/markets.py lines 29-150), which change the datasets of
    one group after another, and may read a dataset as a supplier after it was changed.

    Simplification: the list [ds['suppliers']] belongs to its dataset; its elements are deep
    copies (line 23). *)
From Verif Require Import Base Strings Types Utils Grouping GroupUpdate Topology Cutoff Locations Heap HeapLinks.

(** Line 50: [toolz.groupby('name', suppliers)]. *)
Definition by_name_h (suppliers : list addr) : M (list (string * addr)) :=
  mapM (fun a => let! ds := readD a in retM (d_name ds, a)) suppliers.
Definition locations_h (data : list addr) : M (list string) :=
  mapM (fun a => let! ds := readD a in retM (d_location ds)) data.
(** Lines 51-84: the datasets of one technology, for the consumer [a]. *)
Definition extend_h (ord : gset string -> list string) (t : topo) (location : place) (a : addr) (group : list addr)
  : M unit :=
  let! ds := mapM readD group in
  let! new := lift (group_supply ord t location ds) in
  modD (fun d => let? s := getkey "suppliers" (d_suppliers d) in Ok (set_d_suppliers (Some (s ++ new)) d)) a.
(** Lines 42-84: one consumer. *)
Definition consumer_h (ord : gset string -> list string) (t : topo) (consumers_row : faces) (suppliers : list addr)
    (a : addr) : M unit :=
  let! _ := modD (fun d => Ok (set_d_suppliers (Some (default [] (d_suppliers d))) d)) a in
  let! d := readD a in
  let location := if (d_location d =? "RoW")%string then PFaces consumers_row else PName (d_location d) in
  let! names := by_name_h suppliers in
  iterM (fun g => extend_h ord t location a g.2) (groupby names).
(** Lines 29-84, with the check of line 29 (validation.py lines 23-29). *)
Definition apportion_h (ord : gset string -> list string) (t : topo) (consumers suppliers : list addr) : M unit :=
  let! locs := locations_h consumers in
  let! _ := lift (no_geo_duplicates locs) in
  let! consumers_row := lift (resolve_row t locs) in
  iterM (consumer_h ord t consumers_row suppliers) consumers.

(** Lines 104-108. *)
Definition rc_h (data : list addr) : M (list addr) :=
  concat_mapM (fun a =>
    let! ds := readD a in
    let! b := lift (if is_type Transforming ds
                    then let? rp := refprod ds in Ok (str_endswith RC_STRING rp) else Ok false) in
    retM (if b then [a] else [])) data.
(** The datasets which, as they are now, have the property. *)
Definition those_h (p : dataset -> bool) (data : list addr) : M (list addr) :=
  concat_mapM (fun a => let! ds := readD a in retM (if p ds then [a] else [])) data.
(** Lines 92-118. *)
Definition add_recycled_h (ord : gset string -> list string) (t : topo) (data : list addr) : M unit :=
  let! ks := refprods_h [MarketActivity] data in
  let! rcs := rc_h data in
  iterM (fun g : string * list addr =>
    let! suppliers := those_h (fun ds => bool_decide (d_refprod ds = Some (g.1 ++ RC_STRING)%string)) rcs in
    let! locs := locations_h g.2 in
    let! _ := lift (no_overlaps t locs) in
    match suppliers with [] => retM tt | _ => apportion_h ord t g.2 suppliers end) (groupby ks).
(** Lines 126-150. *)
Definition add_suppliers_h (ord : gset string -> list string) (t : topo) (from_type to_type : dtype) (data : list addr)
  : M unit :=
  let! ks := refprods_h [from_type; to_type] data in
  iterM (fun g : string * list addr =>
    let! suppliers := those_h (is_type from_type) g.2 in
    let! consumers := those_h (fun d => is_type to_type d
        && match d_suppliers d with None | Some [] => true | _ => false end) g.2 in
    match consumers with
    | [] => retM tt
    | _ =>
        let! _ := if bool_decide (to_type = MarketActivity)
                  then let! locs := locations_h consumers in lift (no_overlaps t locs) else retM tt in
        apportion_h ord t consumers suppliers
    end) (groupby ks).

(** Lines 281-296, one market: the two changes of the production volume, lines 286 and 296,
    are one here; nothing can fail between them. *)
Definition volume_h (a : addr) : M unit :=
  let! x := single_h a in
  let! d := getD a in
  let! suppliers := lift (getkey "suppliers" (d_suppliers d.1)) in
  let! originals := lift (mapR original_volume suppliers) in
  let! e := getE x in
  let! v := lift (getkey "production volume" (e_pv e)) in
  let! pvs := lift (mapR supplier_volume suppliers) in
  let pv := Qcmax (Qcsum pvs - default 0%Qc (v_subtracted v)) 0 in
  modE (fun e => Ok (set_e_pv (option_map (fun v => set_v_amount pv (set_v_original_total (Some (Qcsum originals)) v)) (e_pv e)) e)) x.
Definition when_h (ty : dtype) (m : addr -> M unit) (a : addr) : M unit :=
  let! d := getD a in if is_type ty d.1 then m a else retM tt.
(** Lines 253-312 for [kind='market activity']; market groups, lines 270-279 and 298-305,
    are left out. *)
Definition update_volumes_h (data : list addr) : M unit := iterM (when_h MarketActivity volume_h) data.

(** [dataset['exchanges'].append(...)]. *)
Definition append_h (a : addr) (e : exchange) : M unit :=
  let! y := new (Exc e) in let! d := getD a in set_exs a (d.2 ++ [y]).
(** Lines 169-250 with [is_market=True]; the reference product is read anew for every
    supplier (line 218). *)
Definition allocate_h (a : addr) : M unit :=
  let! x := single_h a in
  let! d := getD a in
  let! suppliers := lift (getkey "suppliers" (d_suppliers d.1)) in
  let! vs := lift (volumes suppliers) in
  match vs with
  | None => retM tt
  | Some (suppliers, total) =>
      let! _ := modD (fun d => Ok (set_d_suppliers (Some suppliers) d)) a in
      iterM (fun s =>
        let! e := getE x in
        let! new := lift (input_of (fun f s => market_input (f * e_amount e)%Qc s) total s) in
        iterM (append_h a) new) suppliers
  end.
(** Lines 158-166. *)
Definition allocate_all_h (kind : dtype) (data : list addr) : M unit := iterM (when_h kind allocate_h) data.
