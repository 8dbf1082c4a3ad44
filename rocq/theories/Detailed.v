(** Model of the detailed log: logger.py lines 17-40 ([DatasetJsonFormatter]) and the
    calls of [detailed.info] in the transformations.

    A line is what the formatter puts into the JSON object, without the time.  Messages
    are kept as the values that are formatted, not as texts: numbers are not rounded to
    four digits.  The lines are functions of the data given to a transformation that
    does not raise; a line is written when the call is made, so the dataset is described
    as it is then. *)
From Coq Require Import Ascii.
From Verif Require Import Base Types Utils Grouping GroupUpdate Validation ActivityLinks Cutoff Topology Locations Tables.

(** The messages, in the order of the files: activity_links.py lines 116, 145, 175;
    cutoff/allocation.py line 169; locations/rest_of_world.py line 59;
    locations/markets.py lines 186, 201, 234; locations/linking.py lines 37, 193, 216. *)
Inductive message :=
  | Ignoring (amount volume : Qc)
  | Subtracting (amount volume : Qc) (name location : string)
  | HardLinked (subtracted volume : Qc)
  | Method (label : string)
  | Created (name : string) (volume : Qc) (unit : string) (original regional : Qc)
  | DefaultVolume (name product location supplier place : string)
  | Divided (total : Qc) (product : string) (suppliers : nat)
  | Input (amount : Qc) (unit product supplier place : string)
  | LinkedTo (product activity place : string)
  | Complete (product : string) (amount : Qc) (market place : string)
  | Consumption (product supplier place : string).
Global Instance message_eq_dec : EqDecision message.
Proof. solve_decision. Defined.

(** logger.py lines 30-38. *)
Record line := Line {
  l_id : string;
  l_file : string;
  l_code : option string;
  l_function : string;
  l_message : message
}.
Global Instance line_eq_dec : EqDecision line.
Proof. solve_decision. Defined.

(** [os.path.basename]: what follows the last slash. *)
Fixpoint has_slash (s : string) : bool :=
  match s with
  | EmptyString => false
  | String c s => Ascii.eqb c "/"%char || has_slash s
  end.
Fixpoint basename (s : string) : string :=
  match s with
  | EmptyString => EmptyString
  | String c s' => if has_slash s then basename s' else s
  end.
(** logger.py lines 28-39. *)
Definition about (ds : dataset) (function : string) (m : message) : line :=
  Line (d_id ds) (basename (d_filepath ds)) (d_code ds) function m.

(** ** activity_links.py *)
(** Lines 111-155.  The volumes and amounts that are shown are not changed by the loop. *)
Definition hard_link_line (data : list dataset) (ds : dataset) (exc : exchange) : result (list line) :=
  if link_truthy exc then
    let link := default "" (e_link exc) in
    if (link =? d_id ds)%string
    then Ok [about ds "add_hard_linked_production_volumes"
               (Ignoring (e_amount exc) (default 0%Qc (production_volume ds)))]
    else
      let? target := getkey link (dataset_by_id data link) in
      let? found := production_named target (e_name exc) in
      match found with
      | [hard_link] =>
          let? scale := get_biggest_pv_to_exchange_ratio ds in
          let? v := getkey "production volume" (e_pv hard_link) in
          Ok [about target "add_hard_linked_production_volumes"
                (Subtracting (e_amount exc * scale)%Qc (v_amount v) (d_name ds) (d_location ds))]
      | _ => Err AssertionError
      end
  else Ok [].
Definition hard_link_lines (data : list dataset) : result (list line) :=
  concat_mapR (fun ds => concat_mapR (hard_link_line data ds) (d_exchanges ds)) data.

(** Lines 171-183. *)
Definition hard_linked_line (ds : dataset) (e : exchange) : list line :=
  if okb production_exchange e then
    match e_pv e with
    | Some v => match v_subtracted v with
                | Some s => [about ds "update_transforming_activity_production_volumes" (HardLinked s (v_amount v))]
                | None => []
                end
    | None => []
    end
  else [].
Definition hard_linked_lines (data : list dataset) : list line :=
  each (fun ds => if bool_decide (d_type ds = Transforming) then each (hard_linked_line ds) (d_exchanges ds) else []) data.

(** ** cutoff/allocation.py lines 163-171, [label_allocation_method] *)
Definition method_lines (data : list dataset) : result (list line) :=
  mapR (fun ds => let? l := choose_allocation_method ds in
                  Ok (about (set_d_alloc (Some l) ds) "label_allocation_method" (Method l))) data.

(** ** locations/rest_of_world.py lines 34-71, [relabel_global_to_row]: [glo] is the dataset
    after the change. *)
Definition created_line (group : list (nat * dataset)) (glo glo' : dataset) : result line :=
  let region_specific := Qcsum (map (fun p => default 0%Qc (original_production_volume p.2))
      (filterb (fun p : nat * dataset => bool_decide (p.2 <> glo)) group)) in
  let? rp := get_single_reference_product glo in
  let? v := getkey "production volume" (e_pv rp) in
  Ok (about glo' "relabel_global_to_row"
    (Created (d_name glo') (Qcmax (v_amount v - region_specific) 0) (e_unit rp) (v_amount v) region_specific)).
Definition created_lines (data : list dataset) : result (list line) :=
  let? ks := keyed row_key data in
  concat_mapR (fun g : (string * list string) * list (nat * dataset) =>
    let? ups := relabel_group g.1 g.2 in
    concat_mapR (fun u : nat * dataset =>
      match List.find (fun p : nat * dataset => (p.1 =? u.1)%nat) g.2 with
      | Some p => let? l := created_line g.2 p.2 u.2 in Ok [l]
      | None => Ok []
      end) ups) (groupby ks).

(** ** locations/markets.py lines 169-245, [allocate_suppliers] *)
(** Lines 234-245.  The name of a supplier is the name of its product: [annotate_exchange]
    (lines 19-27) puts the name of the activity under another key. *)
Definition input_line (ds : dataset) (exc : exchange) (total : Qc) (s : exchange) : result (list line) :=
  let? pv := supplier_volume s in
  let? factor := divR pv total in
  Ok (if Qctruthy factor
      then [about ds "allocate_suppliers"
              (Input (factor * e_amount exc)%Qc (e_unit s) (e_name exc) (e_name s) (default "" (e_location s)))]
      else []).
(** Lines 180-210. *)
Definition supply_lines (ds : dataset) (exc : exchange) (suppliers : list exchange) : result (list line) :=
  let? pvs := mapR supplier_volume suppliers in
  let total := Qcsum pvs in
  if Qctruthy total then
    let? inputs := concat_mapR (input_line ds exc total) suppliers in
    Ok (about ds "allocate_suppliers" (Divided total (e_name exc) (length suppliers)) :: inputs)
  else match suppliers with
       | [s] =>
           let? inputs := input_line ds exc (Qcint 4321) (fake_volume s) in
           Ok (about ds "allocate_suppliers"
                 (DefaultVolume (d_name ds) (default "" (d_refprod ds)) (d_location ds) (e_name s)
                    (default "" (e_location s))) :: inputs)
       | _ => Ok []
       end.
Definition market_lines (ds : dataset) : result (list line) :=
  let? exc := get_single_reference_product ds in
  let? suppliers := getkey "suppliers" (d_suppliers ds) in
  supply_lines ds exc suppliers.
(** Lines 158-166, [allocate_all_market_suppliers]. *)
Definition all_market_lines (kind : dtype) (data : list dataset) : result (list line) :=
  concat_mapR (fun ds => if is_type kind ds then market_lines ds else Ok []) data.

(** ** locations/linking.py *)
(** Lines 17-45, [actualize_activity_links]. *)
Definition actual_line (data : list dataset) (ds : dataset) (e : exchange) : result (list line) :=
  match e_link e with
  | Some i =>
      if (i =? "")%string then Ok []
      else
        let? refs := filterR (fun ds => let? rp := refprod ds in Ok (rp =? e_name e)%string)
                       (filterb (fun ds => (d_id ds =? i)%string) data) in
        match refs with
        | [found] => Ok [about ds "actualize_activity_links" (LinkedTo (e_name e) (d_name found) (d_location found))]
        | _ => Ok []
        end
  | None => Ok []
  end.
Definition actual_lines (data : list dataset) : result (list line) :=
  concat_mapR (fun ds => concat_mapR (actual_line data ds) (d_exchanges ds)) data.

(** Lines 189-227, [link_consumers_to_markets], for one input. *)
Definition consumer_input_lines (ds : dataset) (e : exchange) (chosen : list dataset) : result (list line) :=
  match chosen with
  | [] => Ok []
  | [m] => Ok [about ds "link_consumers_to_markets" (Complete (e_name e) (e_amount e) (d_name m) (d_location m))]
  | _ =>
      let suppliers := map (annotate_supplier e) chosen in
      let? rest := supply_lines ds e suppliers in
      Ok (map (fun s => about ds "link_consumers_to_markets"
                          (Consumption (e_name e) (e_name s) (default "" (e_location s)))) suppliers ++ rest)
  end.
(** Lines 145-227. *)
Definition consumer_lines_step (t : topo) (mapping : list (string * list dataset)) (ds : dataset)
    (consumer_row : option faces) (acc : option (list dataset) * list line) (e : exchange)
  : result (option (list dataset) * list line) :=
  let? candidates := candidates_for mapping acc.1 (e_name e) in
  let? chosen := choose_markets t (d_location ds) consumer_row candidates in
  let? ls := consumer_input_lines ds e chosen in
  Ok (Some candidates, acc.2 ++ ls).
(** Lines 120-228. *)
Definition dataset_lines (t : topo) (mapping : list (string * list dataset)) (data : list dataset)
    (before : option (list dataset)) (ds : dataset) : result (option (list dataset) * list line) :=
  if is_type MarketGroup ds then Ok (before, [])
  else
    let? row := consumer_row_of t data ds in
    foldR (consumer_lines_step t mapping ds row) (before, []) (filterb unlinked (d_exchanges ds)).
Definition consumer_lines (t : topo) (data : list dataset) : result (list line) :=
  let? ks := keyed (typed_refprod [MarketActivity; MarketGroup]) data in
  let mapping := map (fun g => (g.1, map snd g.2)) (groupby ks) in
  let? r := foldR (fun acc ds =>
      let? r := dataset_lines t mapping data acc.1 ds in Ok (r.1, acc.2 ++ r.2)) (None, []) data in
  Ok r.2.
