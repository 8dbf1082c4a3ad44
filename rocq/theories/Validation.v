(** Model of ocelot/transformations/validation.py. *)
From Verif Require Import Base Types Utils.

(** validation.py lines 18-22, [ensure_ids_are_unique]: the size of the set of
    ids against the number of datasets. *)
Definition ensure_ids_are_unique (data : list dataset) : result (list dataset) :=
  if bool_decide (length (remove_dups (map d_id data)) = length data)
  then Ok data else Err IdenticalDatasets.

(** validation.py lines 25-38, [check_single_output_activity]. *)
Definition check_single_output_activity (ds : dataset) : result dataset :=
  let num_rp := length (reference_products ds) in
  let? byproducts := anyR is_allocatable_byproduct (d_exchanges ds) in
  if negb (bool_decide (num_rp = 1)) then Err InvalidMultioutputDataset
  else if byproducts then Err InvalidMultioutputDataset
  else Ok ds.

(** [(obj for obj in data if obj['type'] == 'market activity')]. *)
Definition market_activities (data : list dataset) : list dataset :=
  filterb (fun d => bool_decide (d_type d = MarketActivity)) data.

(** validation.py lines 41-49, [ensure_markets_only_have_one_reference_product]. *)
Definition ensure_markets_only_have_one_reference_product (data : list dataset)
  : result (list dataset) :=
  let? _ := iterR (fun ds =>
      assertR (bool_decide (length (reference_products ds) = 1)) InvalidMarket)
    (market_activities data) in
  Ok data.

(** Truth value of [exc.get("activity link")]. *)
Definition link_truthy (e : exchange) : bool :=
  match e_link e with Some s => negb (s =? "")%string | None => false end.

(** validation.py lines 52-66, [ensure_markets_dont_consume_their_ref_product];
    [[...][0]] raises IndexError without reference product. *)
Definition ensure_markets_dont_consume_their_ref_product (data : list dataset)
  : result (list dataset) :=
  let? _ := iterR (fun ds =>
      match reference_products ds with
      | [] => Err IndexError
      | rp :: _ =>
          assertR (negb (existsb (fun e =>
              (e_name e =? e_name rp)%string && bool_decide (e <> rp)
              && negb (link_truthy e)) (d_exchanges ds))) InvalidMarketExchange
      end) (market_activities data) in
  Ok data.

(** validation.py lines 69-73, the collection [validate_markets]. *)
Definition validate_markets (data : list dataset) : result (list dataset) :=
  let? data := ensure_markets_only_have_one_reference_product data in
  ensure_markets_dont_consume_their_ref_product data.

(** validation.py lines 112-119,
    [ensure_production_exchanges_have_production_volume]. *)
Definition ensure_production_exchanges_have_production_volume (data : list dataset)
  : result (list dataset) :=
  let? _ := iterR (fun ds => iterR (fun e =>
      let? b := production_exchange e in
      if b then assertR (bool_decide (e_pv e <> None)) InvalidExchange
      else Ok tt) (d_exchanges ds)) data in
  Ok data.
