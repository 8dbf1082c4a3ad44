(** Objects with identity: the allocation functions of ocelot/transformations/cutoff/ on
    a heap.

    The other files treat a dataset as a value.  Here datasets and exchanges are objects
    at addresses: they are changed in place, copied with [deepcopy], and compared with
    [is].  What is inside an exchange (production volume, uncertainty, properties) belongs
    to it; parameters and other fields belong to the dataset.  Memory is not given back. *)
From stdpp Require Import gmap.
From Verif Require Import Base Grouping Types Uncertainty Utils Validation Cutoff.

(** ** Objects and programs *)
Notation addr := nat (only parsing).
(** An exchange, or a dataset with the addresses of its exchanges; the field
    [d_exchanges] of the record is not used. *)
Inductive cell :=
  | Exc (e : exchange)
  | Dat (d : dataset) (exs : list addr).
Record heap := Heap { cells : gmap nat cell; next : nat }.

(** A Python function: a value or an exception, and the heap afterwards. *)
Definition M (A : Type) : Type := heap -> result A * heap.
Definition retM {A} (a : A) : M A := fun h => (Ok a, h).
Definition lift {A} (r : result A) : M A := fun h => (r, h).
Definition bindM {A B} (m : M A) (k : A -> M B) : M B := fun h =>
  match m h with
  | (Ok a, h') => k a h'
  | (Err e, h') => (Err e, h')
  end.
Notation "'let!' x := m 'in' k" := (bindM m (fun x => k))
  (at level 200, x pattern, m at level 100, k at level 200, right associativity).
Fixpoint mapM {A B} (f : A -> M B) (l : list A) : M (list B) :=
  match l with
  | [] => retM []
  | x :: l => let! y := f x in let! ys := mapM f l in retM (y :: ys)
  end.
Fixpoint iterM {A} (f : A -> M unit) (l : list A) : M unit :=
  match l with
  | [] => retM tt
  | x :: l => let! _ := f x in iterM f l
  end.
Fixpoint foldM {A B} (f : B -> A -> M B) (acc : B) (l : list A) : M B :=
  match l with
  | [] => retM acc
  | x :: l => let! acc := f acc x in foldM f acc l
  end.
Definition concat_mapM {A B} (f : A -> M (list B)) (l : list A) : M (list B) :=
  let! ls := mapM f l in retM (concat ls).

(** Reading, writing and making objects.  An address with the wrong object does not
    happen. *)
Definition getE (x : addr) : M exchange := fun h =>
  match cells h !! x with Some (Exc e) => (Ok e, h) | _ => (Err TypeError, h) end.
Definition getD (a : addr) : M (dataset * list addr) := fun h =>
  match cells h !! a with Some (Dat d exs) => (Ok (d, exs), h) | _ => (Err TypeError, h) end.
Definition put (x : addr) (c : cell) : M unit := fun h => (Ok tt, Heap (<[x := c]> (cells h)) (next h)).
Definition new (c : cell) : M addr := fun h => (Ok (next h), Heap (<[next h := c]> (cells h)) (S (next h))).
(** [f(exc)] for a function that changes its argument. *)
Definition modE (f : exchange -> result exchange) (x : addr) : M unit :=
  let! e := getE x in let! e' := lift (f e) in put x (Exc e').
(** [f(deepcopy(exc))]. *)
Definition copyE (f : exchange -> result exchange) (x : addr) : M addr :=
  let! e := getE x in let! y := new (Exc e) in let! _ := modE f y in retM y.
(** [deepcopy(dataset)].  Simplification: an exchange that is twice in the list is copied
    twice. *)
Definition copyD (a : addr) : M addr :=
  let! d := getD a in let! exs := mapM (copyE Ok) d.2 in new (Dat d.1 exs).
(** [dataset['exchanges'] = exs]. *)
Definition set_exs (a : addr) (exs : list addr) : M unit := let! d := getD a in put a (Dat d.1 exs).
(** All that can be read of a dataset. *)
Definition readD (a : addr) : M dataset :=
  let! d := getD a in let! es := mapM getE d.2 in retM (set_d_exchanges es d.1).
(** [[exc for exc in exs if p(exc)]]. *)
Fixpoint selectM (p : exchange -> result bool) (exs : list addr) : M (list addr) :=
  match exs with
  | [] => retM []
  | x :: exs => let! e := getE x in let! b := lift (p e) in let! ys := selectM p exs in
                retM (if b then x :: ys else ys)
  end.

(** io/extract_ecospold2.py lines 113-200: all dictionaries of a dataset are new. *)
Definition store (ds : dataset) : M addr :=
  let! exs := mapM (fun e => new (Exc e)) (d_exchanges ds) in new (Dat (set_d_exchanges [] ds) exs).

(** ** utils.py *)
(** Lines 228-243. *)
Definition normalize_h (ln : Qc -> Qc) (a : addr) : M unit :=
  let! ds := readD a in
  let! product := lift (get_single_reference_product ds) in
  if negb (Qctruthy (e_amount product)) then lift (Err ZeroProduction)
  else
    let! factor := lift (divR 1 (Qcabs (e_amount product))) in
    if Qcltb epsilon (Qcabs (factor - 1)) then
      let! d := getD a in iterM (modE (fun e => scale_exchange ln e factor)) d.2
    else retM tt.
(** Lines 280-317. *)
Definition choose_h (ln : Qc -> Qc) (a x : addr) (factor : Qc) : M addr :=
  let! obj := copyD a in
  let! exc := getE x in
  if negb (Qctruthy (e_amount exc)) then lift (Err ZeroProduction)
  else
    let! rp := copyE (fun e => Ok (set_e_class None (set_e_type RefProduct (remove_exchange_uncertainty e)))) x in
    let! d := getD a in
    let! prods := selectM production_exchange d.2 in
    let! others := selectM (fun e => Ok (bool_decide (e <> exc))) prods in
    let! dropped := mapM (copyE (fun e => Ok (nonreference_product e))) others in
    let! nonprods := selectM (fun e => fmapR negb (production_exchange e)) d.2 in
    let! scaled := mapM (copyE (fun e => scale_exchange ln e factor)) nonprods in
    let! _ := set_exs obj (rp :: dropped ++ scaled) in
    let! _ := normalize_h ln obj in
    retM obj.

(** ** cutoff/economic.py lines 10-55, cutoff/utils.py lines 8-17 *)
Definition economic_h (ln : Qc -> Qc) (a : addr) : M (list addr) :=
  let! ds := readD a in
  let! _ := lift (valid_economic_activity ds) in
  let! d := getD a in
  let! prods := selectM production_exchange d.2 in
  let! es := mapM getE prods in
  let! factors := lift (economic_factors es) in
  mapM (fun fx => choose_h ln a fx.2 fx.1) (zip factors prods).

(** ** cutoff/wastes.py *)
(** The address of the only reference product. *)
Definition single_h (a : addr) : M addr :=
  let! d := getD a in
  let! rps := selectM (fun e => Ok (bool_decide (e_type e = RefProduct))) d.2 in
  match rps with
  | [] => lift (Err ValueError)
  | [x] => retM x
  | _ => lift (Err InvalidMultioutputDataset)
  end.
(** Lines 19-37: the given dataset is changed. *)
Definition recycling_h (ln : Qc -> Qc) (a : addr) : M (list addr) :=
  let! ds := readD a in
  let! _ := lift (valid_recycling_activity ds) in
  let! rp := single_h a in
  let! _ := modE (fun e => scale_exchange ln (set_e_type FromTechnosphere e) (- (1))%Qc) rp in
  economic_h ln a.
(** Lines 58-81; [exchange is not rp] compares addresses. *)
Definition free_h (ln : Qc -> Qc) (a x : addr) : M addr :=
  let! new_one := copyD a in
  let! byproduct := copyE Ok x in
  let! _ := set_exs new_one [byproduct] in
  choose_h ln new_one byproduct 1.
Definition waste_h (ln : Qc -> Qc) (a : addr) : M (list addr) :=
  let! ds := readD a in
  let! _ := lift (valid_waste_treatment_activity ds) in
  let! rp := single_h a in
  let! treatment := choose_h ln a rp 1 in
  let! d := getD a in
  let! prods := selectM production_exchange d.2 in
  let! free := mapM (free_h ln a) (filterb (fun x => negb (bool_decide (x = rp))) prods) in
  retM (treatment :: free).

(** ** cutoff/combined.py *)
(** [recalculate] (parameterization/recalculation.py lines 60-117) changes a dataset in
    place.  Simplification: all values are read before the first is written. *)
Definition recalc_h (recalc : dataset -> result dataset) (a : addr) : M unit :=
  let! ds := readD a in
  let! ds' := lift (recalc ds) in
  let! d := getD a in
  let! _ := put a (Dat (set_d_exchanges [] ds') d.2) in
  iterM (fun p => put p.1 (Exc p.2)) (zip d.2 (d_exchanges ds')).
(** Lines 69-76. *)
Definition subdivide_h (a x : addr) : M addr :=
  let! new_ds := copyD a in
  let! exc := getE x in
  let! rp := copyE (fun e => Ok (selected_product e)) x in
  let! n := getD new_ds in
  let! others := selectM (fun e => Ok (bool_decide (e_type e = RefProduct) && bool_decide (e <> exc))) n.2 in
  let! _ := iterM (modE (fun e => Ok (nonreference_product e))) others in
  let! d := getD a in
  let! rest := selectM (fun e => Ok (negb (bool_decide (e_type e = RefProduct)))) d.2 in
  let! copies := mapM (copyE Ok) rest in
  let! _ := set_exs new_ds (rp :: others ++ copies) in
  retM new_ds.
(** Lines 47-83. *)
Definition combined_h (recalc : dataset -> result dataset) (a : addr) : M (list addr) :=
  let! d := getD a in
  let! xs := selectM (fun e => Ok (bool_decide (e_type e = RefProduct) && Qctruthy (e_amount e))) d.2 in
  mapM (fun x => let! y := subdivide_h a x in let! _ := recalc_h recalc y in retM y) xs.
(** Lines 91-100: the given dataset gets another name. *)
Definition split_h (ln : Qc -> Qc) (a : addr) : M (list addr) :=
  let! ds := readD a in
  let! rp := lift (get_single_reference_product ds) in
  let! c := lift (getkey "byproduct classification" (e_class rp)) in
  if bool_decide (c = Waste) then waste_h ln a
  else if bool_decide (c = Recyclable) then
    let! d := getD a in
    let! _ := put a (Dat (set_d_name (d_name ds ++ ", from " ++ e_name rp)%string d.1) d.2) in
    recycling_h ln a
  else lift (Err InvalidExchange).
(** Lines 103-137. *)
Definition without_products_h (ln : Qc -> Qc) (recalc : dataset -> result dataset) (a : addr) : M (list addr) :=
  let! parts := combined_h recalc a in concat_mapM (split_h ln) parts.
(** Lines 140-154. *)
Definition add_h (to from : addr) : M addr :=
  let! f := readD from in
  let! _ := lift (iterR (fun e => let? _ := getkey "id" (e_id e) in Ok tt) (d_exchanges f)) in
  let! t := getD to in
  let! _ := iterM (modE (add_exchange (d_exchanges f))) t.2 in
  retM to.
(** Lines 157-177: the first dataset of each group is changed. *)
Definition merge_group_h (group : list addr) : M addr :=
  match group with
  | [] => lift (Err IndexError)
  | parent :: children => foldM add_h parent children
  end.
Definition merge_h (data : list addr) : M (list addr) :=
  let! dss := mapM readD data in
  let! _ := lift (valid_merge_datasets dss) in
  let! keyed := mapM (fun a => let! ds := readD a in let! k := lift (activity_grouper ds) in retM (k, a)) data in
  mapM (fun g => merge_group_h g.2) (groupby keyed).
(** Lines 180-189. *)
Definition with_byproducts_h (ln : Qc -> Qc) (recalc : dataset -> result dataset) (a : addr) : M (list addr) :=
  let! parts := combined_h recalc a in
  let! new := concat_mapM (economic_h ln) parts in
  merge_h new.

(** ** cutoff/allocation.py *)
(** Lines 25-30. *)
Definition no_allocation_h (a : addr) : M (list addr) :=
  let! ds := readD a in let! _ := lift (check_single_output_activity ds) in retM [a].
(** Lines 148-160, see [allocation_functions]. *)
Definition allocation_functions_h (ln : Qc -> Qc) (recalc : dataset -> result dataset)
  : list (string * (addr -> M (list addr))) :=
  [ ("market group"%string, no_allocation_h);
    ("unconstrained market"%string, no_allocation_h);
    ("economic"%string, economic_h ln);
    ("constrained market"%string, fun _ => lift (Err TypeError));
    ("recycling"%string, recycling_h ln);
    ("waste treatment"%string, waste_h ln);
    ("combined production without products"%string, without_products_h ln recalc);
    ("combined production"%string, combined_h recalc);
    ("combined production with byproducts"%string, with_byproducts_h ln recalc) ].
(** Fields of a dataset which are set in place. *)
Definition modD (f : dataset -> result dataset) (a : addr) : M unit :=
  let! ds := readD a in
  let! ds' := lift (f ds) in
  let! d := getD a in
  put a (Dat (set_d_exchanges [] ds') d.2).
(** Lines 163-180. *)
Definition label_h (data : list addr) : M unit :=
  iterM (modD (fun ds => let? l := choose_allocation_method ds in Ok (set_d_alloc (Some l) ds))) data.
(** wrapper.py lines 27-32. *)
Definition wrapped_h (func : addr -> M (list addr)) (filter_function : dataset -> result bool) (data : list addr)
  : M (list addr) :=
  concat_mapM (fun a => let! ds := readD a in let! b := lift (filter_function ds) in
                        if b then func a else retM [a]) data.
(** Lines 197-204. *)
Definition cutoff_allocation_h (ln : Qc -> Qc) (recalc : dataset -> result dataset) (data : list addr)
  : M (list addr) :=
  let! _ := label_h data in
  let! data := foldM (fun data lf => wrapped_h lf.2 (allocation_filter lf.1) data) data (allocation_functions_h ln recalc) in
  let! _ := iterM (modD (fun ds => Ok (delete_allocation_method ds))) data in
  retM data.

(** ** Passes over all exchanges of all datasets *)
(** [for ds in data: for exc in ds['exchanges']: f(ds, exc)], where [f] changes [exc] and
    reads [ds]'s own fields: the shape of most transformations. *)
Definition pass_h (f : dataset -> exchange -> result exchange) (data : list addr) : M unit :=
  iterM (fun a => let! d := getD a in iterM (modE (f d.1)) d.2) data.
