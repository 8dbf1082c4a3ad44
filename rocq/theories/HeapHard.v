(** Objects with identity, continued: the passes that read one dataset and change another,
    or read the data they are changing: [add_hard_linked_production_volumes]
    (ocelot/transformations/activity_links.py lines 46-162), [actualize_activity_links] and
    [link_consumers_to_recycled_content_activities] (locations/linking.py lines 17-82).

    Every read is of the object as it is at that time. *)
From Verif Require Import Base Strings Types Utils Validation ActivityLinks Cutoff Locations Heap.

(** The keys of the mappings from id to datasets (activity_links.py line 103, linking.py
    line 19). *)
Definition ids_h (data : list addr) : M (list (string * addr)) :=
  mapM (fun a => let! d := getD a in retM (d_id d.1, a)) data.
(** [for ds in data: for exc in ds['exchanges']]. *)
Definition loop_h (f : addr -> addr -> M unit) (data : list addr) : M unit :=
  iterM (fun a => let! d := getD a in iterM (f a) d.2) data.

(** linking.py lines 25-27. *)
Definition same_product_h (name : string) (b : addr) : M (list addr) :=
  let! d := getD b in let! rp := lift (refprod d.1) in
  retM (if (rp =? name)%string then [b] else []).
(** linking.py lines 20-45, one exchange. *)
Definition actualize_link_h (ids : list (string * addr)) (x : addr) : M unit :=
  let! e := getE x in
  match e_link e with
  | Some i =>
      if (i =? "")%string then retM tt
      else
        match filterb (fun p => (p.1 =? i)%string) ids with
        | [] => lift (Err (KeyError i))
        | group =>
            let! refs := concat_mapM (fun p => same_product_h (e_name e) p.2) group in
            match refs with
            | [b] => let! d := getD b in
                     let! c := lift (getkey "code" (d_code d.1)) in
                     modE (fun e => Ok (set_e_code (Some c) e)) x
            | _ => retM tt
            end
        end
  | None => retM tt
  end.
Definition actualize_h (data : list addr) : M unit :=
  let! ids := ids_h data in loop_h (fun _ => actualize_link_h ids) data.

(** linking.py lines 59-65. *)
Definition rc_producers_h (data : list addr) : M (list (string * addr)) :=
  concat_mapM (fun a =>
    let! d := getD a in
    let! rp := lift (refprod d.1) in
    retM (if str_contains RC_STRING rp && is_type Transforming d.1 then [(rp, a)] else [])) data.
(** linking.py lines 67-82, one exchange. *)
Definition link_rc_h (producers : list (string * addr)) (x : addr) : M unit :=
  let! e := getE x in
  if unlinked e then
    match filterb (fun p => (p.1 =? e_name e)%string) producers with
    | [p] => let! d := getD p.2 in
             let! c := lift (getkey "code" (d_code d.1)) in
             modE (fun e => Ok (set_e_code (Some c) e)) x
    | _ => retM tt
    end
  else retM tt.
Definition link_recycled_h (data : list addr) : M unit :=
  let! producers := rc_producers_h data in loop_h (fun _ => link_rc_h producers) data.

(** activity_links.py lines 105-161, one exchange [x] of the dataset [a]; the object that
    is changed, line 157, is an exchange of another dataset. *)
Definition last_with (i : string) (ids : list (string * addr)) : option addr :=
  last (map snd (filterb (fun p => (p.1 =? i)%string) ids)).
Definition hard_link_h (ids : list (string * addr)) (a x : addr) : M unit :=
  let! e := getE x in
  if link_truthy e then
    let link := default "" (e_link e) in
    let! d := getD a in
    if (link =? d_id d.1)%string then retM tt
    else
      let! target := lift (getkey link (last_with link ids)) in
      let! t := getD target in
      let! prods := selectM production_exchange t.2 in
      let! found := selectM (fun o => Ok (e_name o =? e_name e)%string) prods in
      match found with
      | [y] => let! ds := readD a in
               let! scale := lift (get_biggest_pv_to_exchange_ratio ds) in
               modE (add_subtracted (e_amount e * scale)%Qc) y
      | _ => lift (Err AssertionError)
      end
  else retM tt.
Definition add_hard_h (data : list addr) : M unit :=
  let! ids := ids_h data in loop_h (hard_link_h ids) data.
