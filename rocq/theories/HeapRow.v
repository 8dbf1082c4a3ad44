(** Objects with identity, continued: making rest-of-world datasets,
    [relabel_global_to_row] (ocelot/transformations/locations/rest_of_world.py lines 16-75),
    the other steps before activity links, the steps after consumers, and the collection
    [link_markets_by_pv] as a whole (ocelot/transformations/locations/__init__.py lines
    35-61).

    What is only logged is left out. *)
From stdpp Require Import gmap.
From Verif Require Import Base Types Utils Grouping GroupUpdate Topology Locations Heap HeapMarkets HeapLinking.

(** Changes the production volume of the single reference product; it has to have one. *)
Definition set_pv_h (up : pvol -> pvol) (a : addr) : M unit :=
  let! x := single_h a in
  let! e := getE x in
  let! _ := lift (getkey "production volume" (e_pv e)) in
  modE (fun e => Ok (set_e_pv (option_map up (e_pv e)) e)) x.

(** rest_of_world.py lines 24-34: the key of each dataset. *)
Definition row_keys_h (data : list addr) : M (list ((string * list string) * addr)) :=
  concat_mapM (fun a =>
    let! ds := readD a in
    let! k := lift (row_key ds) in
    retM (match k with Some k => [(k, a)] | None => [] end)) data.
(** Lines 40-52, the global dataset [a]; [obj != glo] compares what is in the datasets. *)
Definition relabel_glo_h (group : list addr) (a : addr) : M unit :=
  let! glo := readD a in
  let! ds := mapM readD group in
  let region_specific := Qcsum (map (fun d => default 0%Qc (original_production_volume d))
      (filterb (fun d => bool_decide (d <> glo)) ds)) in
  let! _ := set_pv_h (fun v => set_v_amount (Qcmax (v_amount v - region_specific) 0) (set_v_global (Some (v_amount v)) v)) a in
  modD (fun d => Ok (set_d_location "RoW" d)) a.
(** Lines 35-52, one group. *)
Definition relabel_group_h (group : list addr) : M unit :=
  match group with
  | a :: _ =>
      let! d := readD a in
      if is_type MarketGroup d then retM tt
      else match group with
      | _ :: _ :: _ =>
          let! globals := those_h (fun d => (d_location d =? "GLO")%string) group in
          match globals with
          | [] => retM tt
          | [a] => relabel_glo_h group a
          | _ => lift (Err MultipleGlobalDatasets)
          end
      | _ => retM tt
      end
  | [] => retM tt
  end.
Definition relabel_h (data : list addr) : M unit :=
  let! ks := row_keys_h data in iterM (fun g : (string * list string) * list addr => relabel_group_h g.2) (groupby ks).

(** utils.py lines 251-259. *)
Definition label_h (data : list addr) : M unit :=
  iterM (modD (fun ds => let? rp := get_single_reference_product ds in Ok (set_d_refprod (Some (e_name rp)) ds))) data.
(** markets.py lines 330-355; the list that is returned has the same objects. *)
Definition delete_whitelisted_h (data : list addr) : M (list addr) :=
  those_h (fun ds => negb (is_type MarketActivity ds && bool_decide (d_name ds ∈ deletable_markets) && (d_location ds =? "GLO")%string)) data.
(** markets.py lines 363-396. *)
Definition fake_pv_h (data : list addr) : M unit :=
  iterM (fun a => let! ds := readD a in
    if is_type Transforming ds && bool_decide (d_name ds ∈ confidential_names) then set_pv_h (set_v_amount 1%Qc) a else retM tt) data.
(** cleanup.py lines 1-8. *)
Definition pipeline_h (data : list addr) : M unit :=
  iterM (modD (fun ds => Ok (if is_type Transforming ds && (d_name ds =? "transport, pipeline, long distance, natural gas")%string
                                && (d_location ds =? "RER w/o DE+NL+NO")%string
                             then set_d_location "RER w/o DE+NL+NO+RU" ds else ds))) data.
(** market_groups.py lines 100-105. *)
Definition check_groups_h (data : list addr) : M unit :=
  iterM (fun a => let! ds := readD a in
    lift (assertR (negb (is_type MarketGroup ds && (d_location ds =? "RoW")%string)) MarketGroupError)) data.
(** identifying.py lines 16-34. *)
Fixpoint codes_h (md5 : string -> string) (seen : list string) (data : list addr) : M unit :=
  match data with
  | [] => retM tt
  | a :: data =>
      let! ds := readD a in
      let code := activity_hash md5 ds in
      if bool_decide (code ∈ seen) then lift (Err IdenticalDatasets)
      else let! _ := modD (fun d => Ok (set_d_code (Some code) d)) a in codes_h md5 (code :: seen) data
  end.

(** linking.py lines 258-261. *)
Definition refcode_h (a : addr) : M unit :=
  let! ds := readD a in
  let! _ := lift (assertR (bool_decide (is_Some (d_code ds))) AssertionError) in
  let! x := single_h a in
  modE (fun e => Ok (set_e_code (d_code ds) e)) x.
Definition refcodes_h (data : list addr) : M unit := iterM refcode_h data.

(** Lines 239-245, one dataset: a new list of the same exchanges. *)
Definition unlinked_h (a : addr) : M (list addr) :=
  let! ds := readD a in
  let! d := getD a in
  let! _ := set_exs a (filterb (fun _ => dataset_code_truthy ds) d.2) in
  retM [a].

(** __init__.py lines 35-61. *)
Definition link_all_h (md5 : string -> string) (ln : Qc -> Qc) (ord : gset string -> list string) (t : topo) (data : list addr)
  : M (list addr) :=
  let! _ := label_h data in
  let! data := delete_whitelisted_h data in
  let! _ := fake_pv_h data in
  let! _ := pipeline_h data in
  let! _ := relabel_h data in
  let! _ := check_groups_h data in
  let! _ := codes_h md5 [] data in
  let! data := linking_h ln ord t data in
  let! _ := refcodes_h data in
  concat_mapM unlinked_h data.
