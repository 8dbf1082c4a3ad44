(** Objects with identity, continued: [link_consumers_to_markets] on a heap
    (ocelot/transformations/locations/linking.py lines 91-229 and markets.py lines
    169-250).

    The markets are read at the time the loop gets to them, after what it has changed
    before; an input that is changed is an object, whether or not it is still in the list.
    The exchanges in the list of suppliers belong to the dataset, as markets.py line 24
    copies them. *)
From Verif Require Import Base Grouping Types Uncertainty Utils Validation Cutoff Topology Locations Heap.

(** Lines 101-115: [toolz.groupby] by reference product and by name. *)
Definition refprods_h (tys : list dtype) (data : list addr) : M (list (string * addr)) :=
  concat_mapM (fun a => let! ds := readD a in let! k := lift (typed_refprod tys ds) in
                        retM (match k with Some k => [(k, a)] | None => [] end)) data.
Definition names_h (ty : dtype) (data : list addr) : M (list (string * addr)) :=
  concat_mapM (fun a => let! ds := readD a in
                        retM (if is_type ty ds then [(d_name ds, a)] else [])) data.

(** Lines 126-134. *)
Definition row_h (t : topo) (ma ta : list (string * list addr)) (ds : dataset) : M (option faces) :=
  if (d_location ds =? "RoW")%string then
    match List.find (fun g => (g.1 =? d_name ds)%string) (if is_type Transforming ds then ta else ma) with
    | None => lift (Err (KeyError (d_name ds)))
    | Some g => let! dss := mapM readD g.2 in
                let! r := lift (resolve_row t (map d_location dss)) in retM (Some r)
    end
  else retM None.

(** Lines 146-152. *)
Definition candidates_at {A} (mapping : list (string * list A)) (before : option (list A)) (name : string)
  : result (list A) :=
  match List.find (fun g => (g.1 =? name)%string) mapping with
  | Some g => Ok g.2
  | None => if (name =? "refinery gas")%string
            then match before with Some c => Ok c | None => Err UnboundLocalError end
            else Err MissingSupplier
  end.
(** Lines 156-187; of two objects at a location the last one counts. *)
Definition at_location {A} (l : string) (ps : list (dataset * A)) : option A :=
  last (map snd (filterb (fun p => (d_location p.1 =? l)%string) ps)).
Definition markets_h (t : topo) (loc : string) (consumer_row : option faces) (candidates : list addr)
  : M (list addr) :=
  let! cs := mapM (fun a => let! ds := readD a in retM (ds, a)) candidates in
  let markets := filterb (fun p => is_type MarketActivity p.1) cs in
  let groups := filterb (fun p => is_type MarketGroup p.1) cs in
  let! found := lift (choose_locations t loc consumer_row (map (fun p => d_location p.1) markets)
                        (map (fun p => d_location p.1) groups)) in
  mapM (fun c => lift (getkey c (match at_location c markets with
                                 | Some a => Some a
                                 | None => at_location c groups
                                 end))) found.

(** [dataset['suppliers'] = s], [del dataset['suppliers']]. *)
Definition set_suppliers_h (s : option (list exchange)) (a : addr) : M unit :=
  let! d := getD a in put a (Dat (set_d_suppliers s d.1) d.2).
(** markets.py lines 212-245, one supplier: the new input is appended to the list. *)
Definition supply_input_h (ln : Qc -> Qc) (a x : addr) (total : Qc) (s : exchange) : M unit :=
  let! pv := lift (supplier_volume s) in
  let! factor := lift (divR pv total) in
  if Qctruthy factor then
    let! y := copyE (fun e => consumer_input ln e factor s) x in
    let! d := getD a in set_exs a (d.2 ++ [y])
  else retM tt.
(** markets.py lines 169-250 with [is_market=False]. *)
Definition allocate_input_h (ln : Qc -> Qc) (a x : addr) : M unit :=
  let! d := getD a in
  let! suppliers := lift (getkey "suppliers" (d_suppliers d.1)) in
  let! vs := lift (volumes suppliers) in
  match vs with
  | None => retM tt
  | Some (suppliers, total) =>
      let! _ := set_suppliers_h (Some suppliers) a in
      let! _ := iterM (supply_input_h ln a x total) suppliers in
      let! exc := getE x in
      let! d := getD a in
      let! rest := selectM (fun e => Ok (bool_decide (e <> exc))) d.2 in
      set_exs a rest
  end.

(** Lines 145-228: one input [x] of the dataset [a]. *)
Definition link_input_h (ln : Qc -> Qc) (t : topo) (mapping : list (string * list addr)) (loc : string)
    (consumer_row : option faces) (a : addr) (before : option (list addr)) (x : addr)
  : M (option (list addr)) :=
  let! exc := getE x in
  let! candidates := lift (candidates_at mapping before (e_name exc)) in
  let! chosen := markets_h t loc consumer_row candidates in
  let! _ := match chosen with
            | [m] => let! obj := readD m in
                     let! c := lift (getkey "code" (d_code obj)) in
                     modE (fun e => Ok (set_e_code (Some c) e)) x
            | _ => let! suppliers := mapM (fun m => let! exc := getE x in let! obj := readD m in
                                                    retM (annotate_supplier exc obj)) chosen in
                   let! _ := set_suppliers_h (Some suppliers) a in
                   let! _ := match suppliers with [] => retM tt | _ => allocate_input_h ln a x end in
                   set_suppliers_h None a
            end in
  retM (Some candidates).
(** Lines 122-145; the list of inputs is made before the first is linked. *)
Definition link_dataset_h (ln : Qc -> Qc) (t : topo) (mapping ma ta : list (string * list addr))
    (before : option (list addr)) (a : addr) : M (option (list addr)) :=
  let! ds := readD a in
  if is_type MarketGroup ds then retM before
  else
    let! row := row_h t ma ta ds in
    let! d := getD a in
    let! inputs := selectM (fun e => Ok (unlinked e)) d.2 in
    foldM (link_input_h ln t mapping (d_location ds) row a) before inputs.
Definition link_consumers_h (ln : Qc -> Qc) (t : topo) (data : list addr) : M unit :=
  let! ks := refprods_h [MarketActivity; MarketGroup] data in
  let! ma := names_h MarketActivity data in
  let! ta := names_h Transforming data in
  let! _ := foldM (link_dataset_h ln t (groupby ks) (groupby ma) (groupby ta)) None data in
  retM tt.
