(** Model of ocelot/transformations/activity_links.py. *)
From Verif Require Import Base Types Uncertainty Utils Validation.

(** [mapping = {ds['id']: ds for ds in data}]: the last dataset with an id wins. *)
Fixpoint dataset_by_id (data : list dataset) (i : string) : option dataset :=
  match data with
  | [] => None
  | ds :: data =>
      match dataset_by_id data i with
      | Some d => Some d
      | None => if (d_id ds =? i)%string then Some ds else None
      end
  end.

(** [[exc for exc in allocatable_production(ds) if exc['name'] == name]]. *)
Definition production_named (ds : dataset) (name : string) : result (list exchange) :=
  let? es := allocatable_production ds in
  Ok (filterb (fun e => (e_name e =? name)%string) es).

(** activity_links.py lines 26-42, the check of one exchange. *)
Definition check_link (data : list dataset) (link : exchange) : result unit :=
  if link_truthy link then
    match dataset_by_id data (default "" (e_link link)) with
    | None => Err UnresolvableActivityLink
    | Some ds =>
        let? found := production_named ds (e_name link) in
        assertR (bool_decide (length found = 1)) UnresolvableActivityLink
    end
  else Ok tt.

(** activity_links.py lines 17-43, [check_activity_link_validity]. *)
Definition check_activity_link_validity (data : list dataset) : result (list dataset) :=
  let? _ := iterR (fun ds => iterR (check_link data) (d_exchanges ds)) data in
  Ok data.

(** Applying [f] to the object stored in the mapping under id [i]. *)
Fixpoint update_by_id (data : list dataset) (i : string)
    (f : dataset -> result dataset) : result (list dataset) :=
  match data with
  | [] => Err (KeyError i)
  | ds :: data =>
      match dataset_by_id data i with
      | Some _ => let? data := update_by_id data i f in Ok (ds :: data)
      | None => if (d_id ds =? i)%string
                then let? ds := f ds in Ok (ds :: data)
                else Err (KeyError i)
      end
  end.

(** activity_links.py lines 157-161: [x] is added to the subtracted volume of
    the production exchange called [name] (the only one, lines 132-136). *)
Definition add_subtracted (x : Qc) (e : exchange) : result exchange :=
  let? v := getkey "production volume" (e_pv e) in
  Ok (set_e_pv (Some (set_v_subtracted (Some (default 0%Qc (v_subtracted v) + x)%Qc) v)) e).
Definition add_subtracted_named (name : string) (x : Qc) (ds : dataset) : result dataset :=
  let? es := mapR (fun e =>
      if okb production_exchange e && (e_name e =? name)%string
      then add_subtracted x e else Ok e) (d_exchanges ds) in
  Ok (set_d_exchanges es ds).

(** activity_links.py lines 111-161, the body for one exchange [exc] of [ds];
    [data] is the current state.  Log messages are left out. *)
Definition add_hard_link (ds : dataset) (data : list dataset) (exc : exchange)
  : result (list dataset) :=
  if link_truthy exc then
    let link := default "" (e_link exc) in
    if (link =? d_id ds)%string then Ok data
    else
      let? target := getkey link (dataset_by_id data link) in
      let? found := production_named target (e_name exc) in
      let? _ := assertR (bool_decide (length found = 1)) AssertionError in
      let? scale := get_biggest_pv_to_exchange_ratio ds in
      update_by_id data link (add_subtracted_named (e_name exc) (e_amount exc * scale)%Qc)
  else Ok data.

(** activity_links.py lines 46-162, [add_hard_linked_production_volumes].
    Simplification: [ds] and [exc] are read from the initial data.  The only
    key written, 'subtracted activity link volume', is read by no expression
    except the one that adds to it, which reads the current state here too. *)
Definition add_hard_linked_production_volumes (data : list dataset)
  : result (list dataset) :=
  foldR (fun cur ds => foldR (add_hard_link ds) cur (d_exchanges ds)) data data.

(** activity_links.py lines 171-189, one production exchange. *)
Definition subtract_volume (e : exchange) : result exchange :=
  let? b := production_exchange e in
  if b then
    let? v := getkey "production volume" (e_pv e) in
    match v_subtracted v with
    | None => Ok e
    | Some s =>
        let v := set_v_original (Some (v_amount v)) v in
        Ok (set_e_pv (Some (set_v_amount (Qcmax (v_amount v - s) 0) v)) e)
    end
  else Ok e.
Definition subtract_volumes (ds : dataset) : result dataset :=
  let? es := mapR subtract_volume (d_exchanges ds) in Ok (set_d_exchanges es ds).

(** activity_links.py lines 165-190,
    [update_transforming_activity_production_volumes]. *)
Definition update_transforming_activity_production_volumes (data : list dataset)
  : result (list dataset) :=
  mapR (fun ds => if bool_decide (d_type ds = Transforming)
                  then subtract_volumes ds else Ok ds) data.

(** activity_links.py lines 193-216, [update_activity_link_parent_child].
    [if not parent]: None or the empty string. *)
Definition relink_to_child (ds : dataset) : result dataset :=
  match d_parent ds with
  | None => Ok ds
  | Some parent =>
      if (parent =? "")%string then Ok ds
      else
        let? es := mapR (fun e =>
            let? b := production_exchange e in
            Ok (if negb b && bool_decide (e_link e = Some parent)
                then set_e_link (Some (d_id ds)) e else e)) (d_exchanges ds) in
        Ok (set_d_exchanges es ds)
  end.
Definition update_activity_link_parent_child (data : list dataset)
  : result (list dataset) := mapR relink_to_child data.

(** activity_links.py lines 224-239, [fix_35_activity_links]. *)
Definition withdrawn_link : string := "25edb027-d7c0-4756-a051-cab82e4f6248".
Definition fix_35_exchange (e : exchange) : exchange :=
  if link_truthy e && bool_decide (e_link e = Some withdrawn_link)
  then set_e_link None e else e.
Definition fix_35_activity_links (data : list dataset) : list dataset :=
  map (fun ds => set_d_exchanges (map fix_35_exchange (d_exchanges ds)) ds) data.

(** activity_links.py lines 242-248, the collection [manage_activity_links]. *)
Definition manage_activity_links (data : list dataset) : result (list dataset) :=
  let data := fix_35_activity_links data in
  let? data := check_activity_link_validity data in
  let? data := add_hard_linked_production_volumes data in
  update_transforming_activity_production_volumes data.
