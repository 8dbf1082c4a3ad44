(** Model of ocelot/transformations/locations/: rest_of_world.py, markets.py,
    market_groups.py, linking.py, validation.py and cleanup.py.

    What is only logged is not modelled, nor are errors raised while a log
    message is put together.  Iteration over a Python set of locations is an
    argument [ord] which lists the elements of a set in some order. *)
From Verif Require Import Base Types Uncertainty Utils Validation Strings Grouping GroupUpdate
  Cutoff Topology.

(** [ds['reference product']], set by [label_reference_product]. *)
Definition refprod (ds : dataset) : result string := getkey "reference product" (d_refprod ds).
Definition is_type (ty : dtype) (ds : dataset) : bool := bool_decide (d_type ds = ty).

(** ** rest_of_world.py *)

(** rest_of_world.py lines 24-32, [grouper]. *)
Definition row_key (ds : dataset) : result (option (string * list string)) :=
  let? prods := allocatable_production ds in
  Ok (Some (d_name ds, isort str_leb (map e_name (filterb (fun e => Qctruthy (e_amount e)) prods)))).

(** Changes the production volume of the single reference product. *)
Definition set_rp_pv (f : pvol -> pvol) (ds : dataset) : dataset :=
  set_d_exchanges (map (fun e => if bool_decide (e_type e = RefProduct)
                                 then set_e_pv (option_map f (e_pv e)) e else e)
                     (d_exchanges ds)) ds.

(** rest_of_world.py lines 35-52, the body of the loop. *)
Definition is_glo (p : nat * dataset) : bool := (d_location p.2 =? "GLO")%string.
Definition relabel_group (k : string * list string) (group : list (nat * dataset))
  : result (list (nat * dataset)) :=
  if match group with p :: _ => is_type MarketGroup p.2 | [] => false end then Ok []
  else match group with
  | _ :: _ :: _ =>
      match filterb is_glo group with
      | [] => Ok []
      | _ :: _ :: _ => Err MultipleGlobalDatasets
      | [(i, glo)] =>
          let region_specific := Qcsum (map (fun p => default 0%Qc (original_production_volume p.2))
              (filterb (fun p : nat * dataset => bool_decide (p.2 <> glo)) group)) in
          let? rp := get_single_reference_product glo in
          let? v := getkey "production volume" (e_pv rp) in
          let glo' := set_rp_pv (fun v => set_v_amount (Qcmax (v_amount v - region_specific) 0)
                                            (set_v_global (Some (v_amount v)) v)) glo in
          Ok [(i, set_d_location "RoW" glo')]
      end
  | _ => Ok []
  end.

(** rest_of_world.py lines 16-75, [relabel_global_to_row]. *)
Definition relabel_global_to_row (data : list dataset) : result (list dataset) :=
  update_groups row_key relabel_group data.

(** rest_of_world.py lines 83-97, [drop_zero_pv_row_datasets]. *)
Definition drop_zero_pv_row_datasets (data : list dataset) : list dataset :=
  filterb (fun ds => negb (d_location ds =? "RoW")%string
                     || negb (bool_decide (production_volume ds = Some 0%Qc))
                     || negb (is_type MarketActivity ds)) data.

(** ** cleanup.py *)

(** cleanup.py lines 1-8, [correct_natural_gas_pipeline_location]. *)
Definition correct_natural_gas_pipeline_location (data : list dataset) : list dataset :=
  map (fun ds =>
    if is_type Transforming ds
       && (d_name ds =? "transport, pipeline, long distance, natural gas")%string
       && (d_location ds =? "RER w/o DE+NL+NO")%string
    then set_d_location "RER w/o DE+NL+NO+RU" ds else ds) data.

(** ** validation.py *)

(** validation.py lines 13-20, [no_overlaps]. *)
Definition no_overlaps (t : topo) (locations : list string) : result unit :=
  let? o := overlaps t locations in
  if match o with Some true => true | _ => false end then Err OverlappingActivities
  else if bool_decide ("GLO"%string ∈ locations) && (1 <? length locations)%nat
  then Err OverlappingActivities
  else Ok tt.

(** validation.py lines 23-29, [no_geo_duplicates]. *)
Definition no_geo_duplicates (locations : list string) : result unit :=
  assertR (bool_decide (length locations = length (remove_dups locations))) ValueError.

(** ** markets.py *)

(** markets.py lines 19-27, [annotate_exchange]. *)
Definition annotate_exchange (e : exchange) (ds : dataset) : exchange :=
  set_e_activity (Some (d_name ds)) (set_e_tech (Some (d_tech ds))
    (set_e_code (match d_code ds with Some c => Some c | None => e_code e end)
      (set_e_location (Some (d_location ds)) e))).

(** [{o['location']: o for o in group}]: the last dataset of a location wins. *)
Definition by_location (l : string) (group : list dataset) : option dataset :=
  last (filterb (fun d => (d_location d =? l)%string) group).

(** markets.py lines 48-85: what one consumer is supplied with; [location] is
    its location, with RoW resolved. *)
Definition group_supply (ord : gset string -> list string) (t : topo) (location : place)
    (group : list dataset) : result (list exchange) :=
  let locs := map d_location group in
  let? _ := no_overlaps t locs in
  let? suppliers_row := resolve_row t locs in
  let? c := contained t location false [] (Some suppliers_row) in
  mapR (fun l => let? obj := getkey l (by_location l group) in
                 let? rp := get_single_reference_product obj in
                 Ok (annotate_exchange rp obj))
    (ord (c ∩ list_to_set locs)).
Definition supply (ord : gset string -> list string) (t : topo) (location : place)
    (suppliers : list dataset) : result (list exchange) :=
  concat_mapR (fun g => group_supply ord t location g.2)
    (groupby (map (fun d => (d_name d, d)) suppliers)).

(** markets.py lines 29-85, [apportion_market_suppliers_to_consumers]; returns
    the consumers with their suppliers. *)
Definition apportion (ord : gset string -> list string) (t : topo)
    (consumers : list (nat * dataset)) (suppliers : list dataset)
  : result (list (nat * dataset)) :=
  let locs := map (fun p => d_location p.2) consumers in
  let? _ := no_geo_duplicates locs in
  let? consumers_row := resolve_row t locs in
  mapR (fun p =>
    let location := if (d_location p.2 =? "RoW")%string then PFaces consumers_row
                    else PName (d_location p.2) in
    let? new := supply ord t location suppliers in
    Ok (p.1, set_d_suppliers (Some (default [] (d_suppliers p.2) ++ new)) p.2)) consumers.

(** markets.py lines 92-118, [add_recycled_content_suppliers_to_markets]. *)
Definition rc_suppliers (data : list dataset) : result (list dataset) :=
  filterR (fun ds => if is_type Transforming ds
                     then let? rp := refprod ds in Ok (str_endswith RC_STRING rp)
                     else Ok false) data.
Definition typed_refprod (tys : list dtype) (ds : dataset) : result (option string) :=
  if bool_decide (d_type ds ∈ tys) then let? rp := refprod ds in Ok (Some rp) else Ok None.
Definition add_recycled_content_suppliers_to_markets (ord : gset string -> list string)
    (t : topo) (data : list dataset) : result (list dataset) :=
  let? _ := mapR (typed_refprod [MarketActivity]) data in
  let? rcs := rc_suppliers data in
  update_groups (typed_refprod [MarketActivity]) (fun rp markets =>
    let suppliers := filterb (fun ds => bool_decide (d_refprod ds = Some (rp ++ RC_STRING)%string)) rcs in
    let? _ := no_overlaps t (map (fun p => d_location p.2) markets) in
    match suppliers with
    | [] => Ok []
    | _ => apportion ord t markets suppliers
    end) data.

(** markets.py lines 126-150, [add_suppliers_to_markets]. *)
Definition add_suppliers_to_markets (ord : gset string -> list string) (t : topo)
    (from_type to_type : dtype) (data : list dataset) : result (list dataset) :=
  update_groups (typed_refprod [from_type; to_type]) (fun rp datasets =>
    let suppliers := filterb (is_type from_type) (map snd datasets) in
    let consumers := filterb (fun p => is_type to_type p.2
        && match d_suppliers p.2 with None | Some [] => true | _ => false end) datasets in
    match consumers with
    | [] => Ok []
    | _ =>
        let? _ := if bool_decide (to_type = MarketActivity)
                  then no_overlaps t (map (fun p => d_location p.2) consumers) else Ok tt in
        apportion ord t consumers suppliers
    end) data.

(** markets.py lines 169-250, [allocate_suppliers], in two parts: the volumes
    the shares are computed from (line 199 gives a single supplier without
    volume the volume 4321), and the exchanges. *)
Definition supplier_volume (e : exchange) : result Qc :=
  let? v := getkey "production volume" (e_pv e) in Ok (v_amount v).
Definition fake_volume (e : exchange) : exchange :=
  set_e_pv (option_map (set_v_amount (Qcint 4321)) (e_pv e)) e.
Definition volumes (suppliers : list exchange) : result (option (list exchange * Qc)) :=
  let? pvs := mapR supplier_volume suppliers in
  let total := Qcsum pvs in
  if Qctruthy total then Ok (Some (suppliers, total))
  else match suppliers with
       | [s] => Ok (Some ([fake_volume s], Qcint 4321))
       | _ => Ok None
       end.
Definition market_input (amount : Qc) (s : exchange) : result exchange :=
  let? code := getkey "code" (e_code s) in
  Ok (remove_exchange_uncertainty
    (set_e_code (Some code) (set_e_tag (Some "intermediateExchange"%string)
      (set_e_type FromTechnosphere (set_e_unit (e_unit s) (set_e_name (e_name s)
        (set_e_amount amount exchange0))))))).
Definition consumer_input (ln : Qc -> Qc) (exc : exchange) (factor : Qc) (s : exchange)
  : result exchange :=
  let? new := scale_exchange ln exc factor in
  let? code := getkey "code" (e_code s) in
  Ok (set_e_code (Some code) (set_e_tag (Some "intermediateExchange"%string)
       (set_e_type FromTechnosphere new))).
Definition input_of (make : Qc -> exchange -> result exchange) (total : Qc) (s : exchange)
  : result (list exchange) :=
  let? pv := supplier_volume s in
  let? factor := divR pv total in
  if Qctruthy factor then let? e := make factor s in Ok [e] else Ok [].

(** Lines 169-250 with [is_market=True]. *)
Definition allocate_suppliers (ds : dataset) : result dataset :=
  let? exc := get_single_reference_product ds in
  let? suppliers := getkey "suppliers" (d_suppliers ds) in
  let? vs := volumes suppliers in
  match vs with
  | None => Ok ds
  | Some (suppliers, total) =>
      let? new := concat_mapR (input_of (fun f s => market_input (f * e_amount exc)%Qc s) total)
                    suppliers in
      Ok (set_d_suppliers (Some suppliers) (set_d_exchanges (d_exchanges ds ++ new) ds))
  end.

(** markets.py lines 158-166, [allocate_all_market_suppliers]. *)
Definition allocate_all_market_suppliers (kind : dtype) (data : list dataset)
  : result (list dataset) :=
  mapR (fun ds => if is_type kind ds then allocate_suppliers ds else Ok ds) data.

(** markets.py lines 253-312, [update_market_production_volumes]. *)
Definition original_volume (e : exchange) : result Qc :=
  let? v := getkey "production volume" (e_pv e) in Ok (default (v_amount v) (v_original v)).
Definition updated_volume (ds : dataset) : result Qc :=
  let? rp := get_single_reference_product ds in
  let? suppliers := getkey "suppliers" (d_suppliers ds) in
  let? _ := mapR original_volume suppliers in
  let? v := getkey "production volume" (e_pv rp) in
  let? pvs := mapR supplier_volume suppliers in
  Ok (Qcmax (Qcsum pvs - default 0%Qc (v_subtracted v)) 0).
Definition update_volume (ds : dataset) : result dataset :=
  let? pv := updated_volume ds in
  let? suppliers := getkey "suppliers" (d_suppliers ds) in
  let? originals := mapR original_volume suppliers in
  Ok (set_rp_pv (fun v => set_v_amount pv (set_v_original_total (Some (Qcsum originals)) v)) ds).

(** Lines 298-305: the volume seen by the other market groups. *)
Definition set_supplier_volume (code : option string) (pv : Qc) (s : exchange) : exchange :=
  if bool_decide (e_code s = code) then set_e_pv (Some (set_v_amount pv pvol0)) s else s.
Definition propagate (ds : dataset) (pv : Qc) (other : dataset) : result dataset :=
  if bool_decide (other = ds) then Ok other
  else
    let? suppliers := getkey "suppliers" (d_suppliers other) in
    match suppliers with
    | [] => Ok other
    | _ =>
        let? _ := mapR (fun s => getkey "code" (e_code s)) suppliers in
        let? code := getkey "code" (d_code ds) in
        Ok (set_d_suppliers (Some (map (set_supplier_volume (Some code) pv) suppliers)) other)
    end.

(** Lines 270-279: market groups in order of increasing size; the sort is
    stable also with [reverse=True].  [position] is the index in the ordered
    list of locations. *)
Definition position (l : list string) (x : string) : result nat :=
  match list_find (fun y => y = x) l with Some (i, _) => Ok i | None => Err (KeyError x) end.
Definition group_order (t : topo) (groups : list (nat * dataset)) : result (list nat) :=
  let? ordered := ordered_dependencies t (map (fun p => d_location p.2) groups) None in
  let? ks := mapR (fun p => let? k := position ordered (d_location p.2) in Ok (k, p.1)) groups in
  Ok (map snd (isort (fun a b : nat * nat => (b.1 <=? a.1)%nat) ks)).
Definition update_group_step (kind : dtype) (data : list dataset) (i : nat)
  : result (list dataset) :=
  let? ds := getkey "" (data !! i) in
  let? ds' := update_volume ds in
  let? pv := updated_volume ds in
  let data := <[i := ds']> data in
  mapR (fun other => if is_type kind other then propagate ds' pv other else Ok other) data.
Definition update_market_production_volumes (t : topo) (kind : dtype) (data : list dataset)
  : result (list dataset) :=
  if bool_decide (kind = MarketGroup) then
    let? order := group_order t (filterb (fun p => is_type kind p.2) (indexed data)) in
    foldR (update_group_step kind) data order
  else mapR (fun ds => if is_type kind ds then update_volume ds else Ok ds) data.

(** markets.py lines 320-327, [delete_suppliers_list]. *)
Definition delete_suppliers_list (data : list dataset) : list dataset :=
  map (set_d_suppliers None) data.

(** markets.py lines 330-355, [delete_whitelisted_zero_pv_market_datsets]. *)
Definition deletable_markets : list string :=
  ["market for heat, diffusion absorption heat pump";
   "market for heat, solar+electric, multiple-dwelling, for hot water";
   "market for heat, solar+gas, multiple-dwelling, for hot water";
   "market for heat, solar+gas, one-family house, for combined system";
   "market for heat, solar+gas, one-family house, for hot water";
   "market for heat, solar+wood, one-family house, for combined system";
   "market for nitro-compound";
   "market for petrol, 85% ethanol by volume from biomass";
   "market for refinery gas";
   "market for spent oxychlor catalyst for ethylene dichloride production";
   "market for waste emulsion paint, on wall"]%string.
Definition delete_whitelisted_zero_pv_market_datsets (data : list dataset) : list dataset :=
  filterb (fun ds => negb (is_type MarketActivity ds
                           && bool_decide (d_name ds ∈ deletable_markets)
                           && (d_location ds =? "GLO")%string)) data.

(** markets.py lines 363-396, [assign_fake_pv_to_confidential_datasets]. *)
Definition confidential_names : list string :=
  ["anthraquinone production"; "burnt shale production";
   "carboxymethyl cellulose production, powder"; "citric acid production";
   "esters of versatic acid production"; "feldspar production"; "latex production";
   "layered sodium silicate production, SKS-6, powder";
   "particle board production, cement bonded";
   "polycarboxylates production, 40% active substance";
   "sodium perborate production, monohydrate, powder";
   "sodium perborate production, tetrahydrate, powder";
   "sodium percarbonate production, powder";
   "wood wool boards production, cement bonded"; "zeolite production, powder";
   "zeolite production, slurry, without water, in 50% solution state"]%string.
Definition assign_fake_pv_to_confidential_datasets (data : list dataset)
  : result (list dataset) :=
  mapR (fun ds =>
    if is_type Transforming ds && bool_decide (d_name ds ∈ confidential_names) then
      let? rp := get_single_reference_product ds in
      let? _ := getkey "production volume" (e_pv rp) in
      Ok (set_rp_pv (set_v_amount 1%Qc) ds)
    else Ok ds) data.

(** markets.py lines 404-422, [delete_global_with_zero_pv_when_regional_present].
    [not original_production_volume(row)]: missing or zero. *)
Definition idle_row (group : list dataset) : list dataset :=
  match group with
  | _ :: _ :: _ =>
      match List.find (fun ds => (d_location ds =? "RoW")%string) group with
      | Some row =>
          match original_production_volume row with
          | Some v => if Qctruthy v then [] else [row]
          | None => [row]
          end
      | None => []
      end
  | _ => []
  end.
Definition delete_global_with_zero_pv_when_regional_present (kind : dtype)
    (data : list dataset) : result (list dataset) :=
  let? ks := keyed (typed_refprod [kind]) data in
  let purge := concat (map (fun g => idle_row (map snd g.2)) (groupby ks)) in
  Ok (filterb (fun ds => bool_decide (ds ∉ purge)) data).

(** ** market_groups.py *)

(** What the loops over candidate locations collect: [inside] tells whether a
    candidate fits in what is left, [take] whether it is used. *)
Fixpoint collect (inside : string -> list string -> result bool) (take : string -> bool)
    (found : list string) (candidates : list string) : result (list string) :=
  match candidates with
  | [] => Ok found
  | c :: candidates =>
      let? b := inside c found in
      collect inside take (if b && take c then found ++ [c] else found) candidates
  end.

(** The resolved RoW of the markets, market_groups.py lines 48-51 and
    linking.py lines 159-162. *)
Definition markets_row (t : topo) (markets : list string) : result faces :=
  if bool_decide ("RoW"%string ∈ markets) then resolve_row t (remove_dups markets) else Ok ∅.

(** market_groups.py lines 61-81: the suppliers of the market group at [loc],
    sorted by code. *)
Definition code_leb (a b : string * dataset) : bool := str_leb a.1 b.1.
Definition group_suppliers (t : topo) (markets groups : list dataset) (row : faces)
    (ordered : list string) (loc : string) : result (list exchange) :=
  let is_market l := match by_location l markets with Some _ => true | None => false end in
  let? found := collect
      (fun c found => contains t (PName loc) (PName c) found (Some row))
      (fun c => is_market c || negb (c =? loc)%string) [] ordered in
  let? objs := mapR (fun c => getkey c (match by_location c markets with
                                        | Some d => Some d
                                        | None => by_location c groups
                                        end)) found in
  let? coded := mapR (fun d => let? c := getkey "code" (d_code d) in Ok (c, d)) objs in
  mapR (fun cd => let? rp := get_single_reference_product cd.2 in
                  Ok (annotate_exchange rp cd.2))
    (isort code_leb coded).

(** market_groups.py lines 22-92, [link_market_group_suppliers].  A group
    overridden in [mg_by_location] by a later one at the same location is not
    changed. *)
Definition link_group (t : topo) (markets : list dataset) (group : list (nat * dataset))
  : result (list (nat * dataset)) :=
  let groups := map snd group in
  let mlocs := map d_location markets in
  let glocs := map d_location groups in
  let? row := markets_row t mlocs in
  let? ordered := ordered_dependencies t (mlocs ++ glocs) (Some row) in
  mapR (fun p =>
    let? sup := group_suppliers t markets groups row ordered (d_location p.2) in
    Ok (p.1, set_d_suppliers (match sup with [] => None | _ => Some sup end) p.2))
    (filterb (fun p => match last (filterb (fun q => (d_location q.2 =? d_location p.2)%string) group) with
                       | Some q => (q.1 =? p.1)%nat
                       | None => false
                       end) group).
Definition consistent_names (group : list (nat * dataset)) : bool :=
  match group with
  | [] => true
  | p :: _ => forallb (fun q => (d_name q.2 =? d_name p.2)%string) group
  end.
Definition link_market_group_suppliers (t : topo) (data : list dataset) : result (list dataset) :=
  let? ks := keyed (typed_refprod [MarketGroup]) data in
  let? _ := iterR (fun g => assertR (consistent_names g.2) MarketGroupError) (groupby ks) in
  update_groups (typed_refprod [MarketGroup]) (fun rp group =>
    let? markets := filterR (fun ds => if is_type MarketActivity ds
        then let? r := refprod ds in Ok (r =? rp)%string else Ok false) data in
    link_group t markets group) data.

(** market_groups.py lines 100-105, [check_no_row_market_groups]. *)
Definition check_no_row_market_groups (data : list dataset) : result (list dataset) :=
  let? _ := iterR (fun ds => assertR (negb (is_type MarketGroup ds && (d_location ds =? "RoW")%string))
                               MarketGroupError) data in
  Ok data.

(** ** linking.py *)

(** linking.py line 14, [unlinked]. *)
Definition code_truthy (e : exchange) : bool :=
  match e_code e with Some c => negb (c =? "")%string | None => false end.
Definition unlinked (e : exchange) : bool :=
  bool_decide (e_type e = FromTechnosphere) && negb (code_truthy e).

(** linking.py lines 17-45, [actualize_activity_links].  Neither the
    reference product, nor the id, nor the code of a dataset is changed. *)
Definition actualize_link (data : list dataset) (e : exchange) : result exchange :=
  match e_link e with
  | Some i =>
      if (i =? "")%string then Ok e
      else
        match filterb (fun ds => (d_id ds =? i)%string) data with
        | [] => Err (KeyError i)
        | group =>
            let? refs := filterR (fun ds => let? rp := refprod ds in Ok (rp =? e_name e)%string) group in
            match refs with
            | [ds] => let? c := getkey "code" (d_code ds) in Ok (set_e_code (Some c) e)
            | _ => Ok e
            end
        end
  | None => Ok e
  end.
Definition actualize_activity_links (data : list dataset) : result (list dataset) :=
  mapR (fun ds => let? es := mapR (actualize_link data) (d_exchanges ds) in
                  Ok (set_d_exchanges es ds)) data.

(** linking.py lines 53-82, [link_consumers_to_recycled_content_activities]. *)
Definition rc_producers (data : list dataset) : result (list (string * dataset)) :=
  concat_mapR (fun ds =>
    let? rp := refprod ds in
    Ok (if str_contains RC_STRING rp && is_type Transforming ds then [(rp, ds)] else [])) data.
Definition link_rc (producers : list (string * dataset)) (e : exchange) : result exchange :=
  if unlinked e then
    match filterb (fun p => (p.1 =? e_name e)%string) producers with
    | [p] => let? c := getkey "code" (d_code p.2) in Ok (set_e_code (Some c) e)
    | _ => Ok e
    end
  else Ok e.
Definition link_consumers_to_recycled_content_activities (data : list dataset)
  : result (list dataset) :=
  let? producers := rc_producers data in
  mapR (fun ds => let? es := mapR (link_rc producers) (d_exchanges ds) in
                  Ok (set_d_exchanges es ds)) data.

(** linking.py lines 91-229, [link_consumers_to_markets].

    The loops change only technosphere inputs and the key 'suppliers' of the
    dataset they are at; of the markets they read type, name, location,
    reference product, code and the volume of the reference product, none of
    which changes.  So the markets are read from the data as given. *)

(** Lines 136-143, [contains_wrapper]. *)
Definition contains_wrapper (t : topo) (consumer supplier : string) (found : list string)
    (consumer_row : option faces) (supplier_row : option faces) : result bool :=
  let child := if (supplier =? "RoW")%string
               then match supplier_row with Some r => PFaces r | None => PName "RoW" end
               else PName supplier in
  contains t (PName consumer) child found
    (if (consumer =? "RoW")%string then consumer_row else None).

(** Lines 154-187: the locations chosen for a consumer at [loc], among the
    markets and market groups [candidates]. *)
Fixpoint first_containing (inside : string -> result bool) (candidates : list string)
  : result (list string) :=
  match candidates with
  | [] => Ok []
  | c :: candidates => let? b := inside c in
                       if b then Ok [c] else first_containing inside candidates
  end.
Definition choose_locations (t : topo) (loc : string) (consumer_row : option faces)
    (markets groups : list string) : result (list string) :=
  let? supplier_row := markets_row t markets in
  let? ordered := ordered_dependencies t (markets ++ groups) (Some supplier_row) in
  let? found := collect
      (fun c found => contains_wrapper t loc c found consumer_row (Some supplier_row))
      (fun _ => true) [] ordered in
  match found with
  | [] => first_containing
            (fun c => contains_wrapper t c loc [] (Some supplier_row) consumer_row) (rev ordered)
  | _ => Ok found
  end.
Definition choose_markets (t : topo) (loc : string) (consumer_row : option faces)
    (candidates : list dataset) : result (list dataset) :=
  let markets := filterb (is_type MarketActivity) candidates in
  let groups := filterb (is_type MarketGroup) candidates in
  let? found := choose_locations t loc consumer_row (map d_location markets) (map d_location groups) in
  mapR (fun c => getkey c (match by_location c markets with
                           | Some d => Some d
                           | None => by_location c groups
                           end)) found.

(** Lines 189-228: what becomes of the input. *)
Inductive decision :=
| Keep                         (* nothing is found, or no volume to share by *)
| One (code : string)
| Many (new : list exchange).
Definition annotate_supplier (exc : exchange) (ds : dataset) : exchange :=
  set_e_pv (Some (set_v_amount (default 0%Qc (production_volume ds)) pvol0))
    (annotate_exchange exc ds).
Definition decide_input (ln : Qc -> Qc) (exc : exchange) (chosen : list dataset)
  : result decision :=
  match chosen with
  | [ds] => let? c := getkey "code" (d_code ds) in Ok (One c)
  | [] => Ok Keep
  | _ =>
      let? vs := volumes (map (annotate_supplier exc) chosen) in
      match vs with
      | None => Ok Keep
      | Some (suppliers, total) =>
          let? new := concat_mapR (input_of (consumer_input ln exc) total) suppliers in
          Ok (Many new)
      end
  end.

(** Lines 146-152: the candidates; for 'refinery gas' without a market the
    candidates of the input before are used again. *)
Definition candidates_for (mapping : list (string * list dataset)) (before : option (list dataset))
    (name : string) : result (list dataset) :=
  match List.find (fun g => (g.1 =? name)%string) mapping with
  | Some g => Ok g.2
  | None => if (name =? "refinery gas")%string
            then match before with Some c => Ok c | None => Err UnboundLocalError end
            else Err MissingSupplier
  end.

(** The exchanges of the dataset while its inputs are linked; originals carry
    their position, which stands for the identity of the Python object. *)
Definition link_state : Type := list (option nat * exchange) * bool.
Definition apply_decision (i : nat) (exc : exchange) (st : link_state)
    (d : decision) : link_state :=
  match d with
  | Keep => (st.1, true)
  | One c => (map (fun ox => if bool_decide (ox.1 = Some i) then (ox.1, set_e_code (Some c) ox.2) else ox)
                st.1, st.2)
  | Many new => (filterb (fun ox : option nat * exchange => bool_decide (ox.2 <> exc))
                   (st.1 ++ map (fun e => (None, e)) new), true)
  end.
Definition link_inputs_step (ln : Qc -> Qc) (t : topo)
    (mapping : list (string * list dataset)) (loc : string) (consumer_row : option faces)
    (acc : option (list dataset) * link_state) (p : nat * exchange)
  : result (option (list dataset) * link_state) :=
  let? candidates := candidates_for mapping acc.1 (e_name p.2) in
  let? chosen := choose_markets t loc consumer_row candidates in
  let? d := decide_input ln p.2 chosen in
  Ok (Some candidates, apply_decision p.1 p.2 acc.2 d).
Definition consumer_row_of (t : topo) (data : list dataset) (ds : dataset)
  : result (option faces) :=
  if (d_location ds =? "RoW")%string then
    let ty := if is_type Transforming ds then Transforming else MarketActivity in
    match map d_location (filterb (fun d => is_type ty d && (d_name d =? d_name ds)%string) data) with
    | [] => Err (KeyError (d_name ds))
    | locs => let? r := resolve_row t locs in Ok (Some r)
    end
  else Ok None.
Definition link_dataset (ln : Qc -> Qc) (t : topo) (mapping : list (string * list dataset))
    (data : list dataset) (before : option (list dataset)) (ds : dataset)
  : result (option (list dataset) * dataset) :=
  if is_type MarketGroup ds then Ok (before, ds)
  else
    let? row := consumer_row_of t data ds in
    let originals := indexed (d_exchanges ds) in
    let? r := foldR (link_inputs_step ln t mapping (d_location ds) row)
                (before, (map (fun p => (Some p.1, p.2)) originals, false))
                (filterb (fun p => unlinked p.2) originals) in
    let ds := set_d_exchanges (map snd r.2.1) ds in
    Ok (r.1, if r.2.2 then set_d_suppliers None ds else ds).
Definition link_consumers_to_markets (ln : Qc -> Qc) (t : topo) (data : list dataset)
  : result (list dataset) :=
  let? ks := keyed (typed_refprod [MarketActivity; MarketGroup]) data in
  let mapping := map (fun g => (g.1, map snd g.2)) (groupby ks) in
  let? r := foldR (fun acc ds =>
      let? r := link_dataset ln t mapping data acc.1 ds in Ok (r.1, acc.2 ++ [r.2])) (None, []) data in
  Ok r.2.

(** linking.py lines 237-246, [log_and_delete_unlinked_exchanges].  The
    condition reads the code of the dataset, not of the exchange. *)
Definition dataset_code_truthy (ds : dataset) : bool :=
  match d_code ds with Some c => negb (c =? "")%string | None => false end.
Definition log_and_delete_unlinked_exchanges (data : list dataset) : list dataset :=
  map (fun ds => set_d_exchanges (filterb (fun _ => dataset_code_truthy ds) (d_exchanges ds)) ds) data.

(** linking.py lines 254-262, [add_reference_product_codes]. *)
Definition add_reference_product_codes (data : list dataset) : result (list dataset) :=
  mapR (fun ds =>
    let? _ := assertR (bool_decide (is_Some (d_code ds))) AssertionError in
    let? rp := get_single_reference_product ds in
    Ok (set_d_exchanges (map (fun e => if bool_decide (e_type e = RefProduct)
                                       then set_e_code (d_code ds) e else e) (d_exchanges ds)) ds))
    data.

(** ** __init__.py lines 35-61, [link_markets_by_pv]. *)
Definition link_markets_by_pv (md5 : string -> string) (ln : Qc -> Qc)
    (ord : gset string -> list string) (t : topo) (data : list dataset)
  : result (list dataset) :=
  let? data := label_reference_product data in
  let data := delete_whitelisted_zero_pv_market_datsets data in
  let? data := assign_fake_pv_to_confidential_datasets data in
  let data := correct_natural_gas_pipeline_location data in
  let? data := relabel_global_to_row data in
  let? data := check_no_row_market_groups data in
  let? data := add_unique_codes md5 data in
  let? data := actualize_activity_links data in
  let? data := add_recycled_content_suppliers_to_markets ord t data in
  let? data := add_suppliers_to_markets ord t Transforming MarketActivity data in
  let? data := update_market_production_volumes t MarketActivity data in
  let? data := delete_global_with_zero_pv_when_regional_present MarketActivity data in
  let? data := delete_global_with_zero_pv_when_regional_present Transforming data in
  let? data := allocate_all_market_suppliers MarketActivity data in
  let? data := link_market_group_suppliers t data in
  let? data := update_market_production_volumes t MarketGroup data in
  let? data := allocate_all_market_suppliers MarketGroup data in
  let? data := link_consumers_to_recycled_content_activities data in
  let? data := link_consumers_to_markets ln t data in
  let? data := add_reference_product_codes data in
  Ok (log_and_delete_unlinked_exchanges data).

Global Arguments update_volume : simpl never.
Global Arguments allocate_suppliers : simpl never.
Global Arguments choose_locations : simpl never.
Global Arguments choose_markets : simpl never.
Global Arguments decide_input : simpl never.
Global Arguments group_suppliers : simpl never.
Global Arguments apportion : simpl never.
Global Arguments supply : simpl never.
Global Arguments group_supply : simpl never.
