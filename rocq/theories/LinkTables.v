(** Model of the rows logged while markets are linked (locations/market_groups.py,
    locations/linking.py) and while combined production is divided (cutoff/combined.py).
    What these functions do with the data is in Locations.v and Cutoff.v. *)
From Verif Require Import Base Types Utils Grouping GroupUpdate Topology Cutoff Locations Tables.

(** ** cutoff/combined.py lines 71-82, [combined_production] with [plain] true: a row for
    each non-zero reference product.  Called by the other functions of the file, [plain] is
    false and there are no rows. *)
Definition combined_rows (ds : dataset) : list row :=
  map (fun rp => [Txt (d_name ds); Txt (e_name rp); Txt (d_location ds)]) (nonzero_reference_product_exchanges ds).

(** ** locations/market_groups.py lines 57-91, [link_market_group_suppliers] *)
(** Lines 87-91; [annotate_exchange] has set the location. *)
Definition group_rows (ds : dataset) : list row :=
  map (fun s => [Txt (d_name ds); Txt (d_location ds); Txt (default ""%string (e_location s))])
    (default [] (d_suppliers ds)).
(** Lines 46 and 59-60: the keys of [mg_by_location] come in the order of their first use,
    and hold the last group of a location. *)
Definition by_place (group ups : list (nat * dataset)) : list row :=
  each (fun g => match List.find (fun u => (d_location u.2 =? g.1)%string) ups with
                 | Some u => group_rows u.2
                 | None => []
                 end) (groupby (map (fun p => (d_location p.2, p)) group)).
Definition group_link_rows (t : topo) (data : list dataset) : result (list row) :=
  let? ks := keyed (typed_refprod [MarketGroup]) data in
  let? rows := mapR (fun g =>
    let? markets := filterR (fun ds => if is_type MarketActivity ds
        then let? r := refprod ds in Ok (r =? g.1)%string else Ok false) data in
    let? ups := link_group t markets g.2 in
    Ok (by_place g.2 ups)) (groupby ks) in
  Ok (concat rows).

(** ** locations/linking.py lines 91-229, [link_consumers_to_markets] *)
(** Lines 189-216: no rows for a single market, nor for none. *)
Definition input_rows (ds : dataset) (chosen : list dataset) : list row :=
  match chosen with
  | [_] => []
  | _ => map (fun m => [Txt (d_name ds); Txt (d_location ds); Txt (d_location m)]) chosen
  end.
(** Lines 145-216. *)
Definition input_rows_step (t : topo) (mapping : list (string * list dataset)) (ds : dataset)
    (consumer_row : option faces) (acc : option (list dataset) * list row) (e : exchange)
  : result (option (list dataset) * list row) :=
  let? candidates := candidates_for mapping acc.1 (e_name e) in
  let? chosen := choose_markets t (d_location ds) consumer_row candidates in
  Ok (Some candidates, acc.2 ++ input_rows ds chosen).
(** Lines 120-228. *)
Definition dataset_link_rows (t : topo) (mapping : list (string * list dataset)) (data : list dataset)
    (before : option (list dataset)) (ds : dataset) : result (option (list dataset) * list row) :=
  if is_type MarketGroup ds then Ok (before, [])
  else
    let? row := consumer_row_of t data ds in
    foldR (input_rows_step t mapping ds row) (before, []) (filterb unlinked (d_exchanges ds)).
Definition consumer_link_rows (t : topo) (data : list dataset) : result (list row) :=
  let? ks := keyed (typed_refprod [MarketActivity; MarketGroup]) data in
  let mapping := map (fun g => (g.1, map snd g.2)) (groupby ks) in
  let? r := foldR (fun acc ds =>
      let? r := dataset_link_rows t mapping data acc.1 ds in Ok (r.1, acc.2 ++ r.2)) (None, []) data in
  Ok r.2.

(** ** The columns: combined.py lines 85-88, market_groups.py lines 94-97, linking.py lines
    231-234. *)
Definition link_columns : list (string * list string) :=
  [("combined_production", ["Name"; "Product"; "Location"]);
   ("link_market_group_suppliers", ["Name"; "Location"; "Supplier Location"]);
   ("link_consumers_to_markets", ["Name"; "Location"; "Supplier Location"])]%string.

Global Arguments by_place : simpl never.
