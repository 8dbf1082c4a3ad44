(** Model of functions which the configurations leave out or comment out:
    [ensure_mandatory_properties], [recalculate_all_parameterized_datasets],
    [log_conflicting_technology_levels], [cleanup_technology_levels],
    [recycling_2_allocation], [missing_formulas]. *)
From Verif Require Import Base Types Uncertainty Utils Strings Grouping GroupUpdate Recalculation Cutoff Locations
  Consequential Tables.

(** ** transformations/validation.py *)
(** Lines 87-104, [ensure_mandatory_properties]: the data stay as they are; the rows of its
    table.  'amount' is always present in the model. *)
Definition MANDATORY : list string :=
  ["dry mass"; "water in wet mass"; "water content"; "wet mass"; "carbon content fossil";
   "carbon content non-fossil"]%string.
Definition missing_properties (e : exchange) : list string :=
  isort str_leb (filterb (fun n => negb (existsb (fun p => p_name p =? n)%string (e_props e))) MANDATORY).
Definition mandatory_rows (data : list dataset) : list row :=
  each (fun ds => each (fun e =>
    match e_props e, missing_properties e with
    | [], _ => []
    | _, [] => []
    | _, missing => [[Txt (d_name ds); Txt (e_name e); Txt (String.concat "; " missing)]]
    end) (d_exchanges ds)) data.
Definition ensure_mandatory_properties (data : list dataset) : list dataset * list row :=
  (data, mandatory_rows data).

(** ** consequential/technology_levels.py *)
(** Lines 7-21, [log_conflicting_technology_levels]: its rows go to the root logger. *)
Definition has_level (level : string) (group : list dataset) : bool :=
  existsb (fun ds => d_tech ds =? level)%string group.
Definition conflict_rows (data : list dataset) : result (list row) :=
  let? ks := keyed (typed_refprod [Transforming]) data in
  Ok (each (fun g => let group := map snd g.2 in
                     if has_level "undefined" group && has_level "current" group
                     then [[Txt g.1; count_cell (length group)]] else []) (groupby ks)).
(** collection.py lines 14-17, [Collection.__init__]: the first argument is the name. *)
Definition make_collection {F} (arguments : list F) : result (F * list F) :=
  match arguments with [] => Err TypeError | name :: functions => Ok (name, functions) end.
(** Lines 46-49, [cleanup_technology_levels]. *)
Definition cleanup_technology_levels : result (string * list string) :=
  make_collection ["log_conflicting_technology_levels"; "switch_undefined_to_current"]%string.

(** ** cutoff/wastes.py and cutoff/allocation.py *)
(** wastes.py lines 40-55, [recycling_2_allocation]. *)
Definition promote_recyclable (e : exchange) : exchange :=
  if bool_decide (e_class e = Some Recyclable) && bool_decide (e_type e = Byproduct)
  then set_e_type RefProduct e else e.
Definition recycling_2_allocation (ln : Qc -> Qc) (ds : dataset) : result (list dataset) :=
  let? _ := get_single_reference_product ds in
  let? ds := flip_reference_product ln ds in
  economic_allocation ln (set_d_exchanges (map promote_recyclable (d_exchanges ds)) ds).

(** allocation.py lines 33-40, [missing_formulas]; an empty formula counts as none. *)
Definition missing_formulas (ds : dataset) : bool :=
  negb (forallb (fun e => match e_formula e with Some f => negb (f =? "")%string | None => false end)
          (filterb (fun e => bool_decide (e_type e ∈ [FromEnvironment; ToEnvironment; FromTechnosphere]))
             (d_exchanges ds))).

(** ** parameterization/recalculation.py *)
(** Statements which change an object in place and may raise: the object afterwards, and the
    exception.  The repair of one distribution is done or not done. *)
Definition outcome (A : Type) : Type := A * option exn.
Definition attempt {A} (f : A -> result A) (x : A) : outcome A :=
  match f x with Ok y => (y, None) | Err err => (x, Some err) end.
Definition within {A B} (get : A -> B) (put : B -> A -> A) (f : B -> outcome B) (x : A) : outcome A :=
  let (y, o) := f (get x) in (put y x, o).
Definition afterwards {A} (f g : A -> outcome A) (x : A) : outcome A :=
  match f x with (y, None) => g y | r => r end.
Fixpoint visit {A} (f : A -> outcome A) (l : list A) : outcome (list A) :=
  match l with
  | [] => ([], None)
  | x :: l =>
      match f x with
      | (y, None) => let (l', o) := visit f l in (y :: l', o)
      | (y, Some err) => (y :: l, Some err)
      end
  end.
Definition visit_option {A} (f : A -> outcome A) (o : option A) : outcome (option A) :=
  match o with None => (None, None) | Some x => let (y, r) := f x in (Some y, r) end.

Section in_place.
Context (ln : Qc -> Qc) (euler : Qc) (order : gmap string pobj -> result (list string))
  (eval : env -> string -> result Qc).

(** Lines 67-76. *)
Definition assign_exchange (m : env) : exchange -> outcome exchange :=
  afterwards (attempt (fun e => let? x := recalc_value eval m (e_obj e) in Ok (set_e_amount x e)))
    (afterwards (within e_pv set_e_pv (visit_option (attempt (recalc_pv eval m))))
       (within e_props set_e_props (visit (attempt (recalc_prop eval m))))).
Definition assign_amounts (m : env) : dataset -> outcome dataset :=
  afterwards (within d_exchanges set_d_exchanges (visit (assign_exchange m)))
    (within d_params set_d_params (visit (attempt (recalc_param eval m)))).
(** Lines 78-81. *)
Definition mend_exchange : exchange -> outcome exchange :=
  afterwards (attempt (fun e => let? o := repair_if ln euler (e_view e) in Ok (e_put e o)))
    (afterwards (within e_pv set_e_pv (visit_option (attempt (repair_pv ln euler))))
       (within e_props set_e_props (visit (attempt (repair_prop ln euler))))).
Definition mend : dataset -> outcome dataset :=
  afterwards (within d_exchanges set_d_exchanges (visit mend_exchange))
    (within d_params set_d_params (visit (attempt (repair_param ln euler)))).
(** Lines 52-83, [recalculate]. *)
Definition recalculate_in_place (ds : dataset) : outcome dataset :=
  match environment order eval ds with
  | Err err => (ds, Some err)
  | Ok m => afterwards (assign_amounts m) mend ds
  end.

(** Lines 86-107, [recalculate_all_parameterized_datasets]; [ParameterizationError] stands
    for ParameterError and DuplicateName of bw2parameters. *)
Definition caught (err : exn) : bool :=
  match err with ParameterizationError | ZeroDivisionError | TypeError => true | _ => false end.
Definition recalculate_one (ds : dataset) : result (dataset * list row) :=
  match recalculate_in_place ds with
  | (ds', None) => Ok (ds', [])
  | (ds', Some err) =>
      if caught err then
        let? rp := refprod ds' in
        Ok (ds', [[Txt (d_name ds'); Txt rp; Txt (d_location ds')]])
      else Err err
  end.
Definition recalculate_all_parameterized_datasets (data : list dataset) : result (list dataset * list row) :=
  let? l := mapR recalculate_one data in
  Ok (map fst l, concat (map snd l)).
End in_place.
