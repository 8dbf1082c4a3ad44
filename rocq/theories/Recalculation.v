(** Model of ocelot/transformations/parameterization/recalculation.py.
    Two things are oracles, given as arguments:
    - [eval env f] is the asteval interpreter applied to the formula string [f]
      with the symbols [env] (numpy names included); [Err] is a Python
      exception or a value that is not a number;
    - [order params] is [ParameterSet(params).order] of the external package
      bw2parameters, or the exception its constructor raises. *)
From stdpp Require Export gmap.
From Verif Require Import Base Types Uncertainty Utils.

Notation env := (gmap string Qc).

(** A parameterised object: an exchange, production volume, property or
    dataset parameter that has a 'variable' or a 'formula'. *)
Record pobj := mkPobj {
  o_variable : option string;
  o_formula : option string;
  o_value : Qc
}.
Definition parameterized (o : pobj) : bool :=
  bool_decide (o_variable o <> None) || bool_decide (o_formula o <> None).
Definition e_obj (e : exchange) : pobj := mkPobj (e_variable e) (e_formula e) (e_amount e).
Definition v_obj (v : pvol) : pobj := mkPobj (v_variable v) (v_formula v) (v_amount v).
Definition p_obj (p : prop) : pobj := mkPobj (p_variable p) (p_formula p) (p_amount p).
Definition q_obj (q : param) : pobj := mkPobj (q_variable q) (q_formula q) (q_amount q).

(** utils.py lines 105-118, [iterate_all_parameters]. *)
Definition exchange_objs (e : exchange) : list pobj :=
  e_obj e :: match e_pv e with Some v => [v_obj v] | None => [] end
          ++ map p_obj (e_props e).
Definition all_objs (ds : dataset) : list pobj :=
  concat (map exchange_objs (d_exchanges ds)) ++ map q_obj (d_params ds).
Definition iterate_all_parameters (ds : dataset) : list pobj :=
  filterb parameterized (all_objs ds).

(** recalculation.py lines 13-25, [extract_named_parameters]: a dictionary,
    the last object with a variable name wins. *)
Definition named_of (o : pobj) : option (string * pobj) :=
  match o_variable o with Some n => Some (n, o) | None => None end.
Definition extract_named_parameters (ds : dataset) : gmap string pobj :=
  list_to_map (reverse (omap named_of (iterate_all_parameters ds))).

(** recalculation.py lines 38-42 and 69-72: division by zero counts as 0. *)
Definition eval_tolerant (eval : env -> string -> result Qc) (m : env) (f : string)
  : result Qc :=
  match eval m f with
  | Err ZeroDivisionError => Ok 0%Qc
  | r => r
  end.

(** recalculation.py lines 30-49, [TolerantParameterSet.evaluate].  An empty
    formula counts as no formula there; 'amount' is always present here. *)
Definition evaluate_one (eval : env -> string -> result Qc) (params : gmap string pobj)
    (m : env) (key : string) : result env :=
  let? o := getkey key (params !! key) in
  match o_formula o with
  | Some f =>
      if (f =? "")%string then Ok (<[key := o_value o]> m)
      else let? x := eval_tolerant eval m f in Ok (<[key := x]> m)
  | None => Ok (<[key := o_value o]> m)
  end.
Definition evaluate (eval : env -> string -> result Qc) (params : gmap string pobj)
    (keys : list string) : result env :=
  foldR (evaluate_one eval params) ∅ keys.

(** recalculation.py lines 67-76, the new amount of one object; objects that
    are not parameterised are not visited. *)
Definition recalc_value (eval : env -> string -> result Qc) (m : env) (o : pobj)
  : result Qc :=
  match o_formula o, o_variable o with
  | Some f, _ => eval_tolerant eval m f
  | None, Some n => getkey n (m !! n)
  | None, None => Ok (o_value o)
  end.
Definition recalc_pv eval m (v : pvol) : result pvol :=
  let? x := recalc_value eval m (v_obj v) in Ok (set_v_amount x v).
Definition recalc_prop eval m (p : prop) : result prop :=
  let? x := recalc_value eval m (p_obj p) in Ok (set_p_amount x p).
Definition recalc_param eval m (q : param) : result param :=
  let? x := recalc_value eval m (q_obj q) in Ok (set_q_amount x q).
Definition recalc_exchange eval m (e : exchange) : result exchange :=
  let? x := recalc_value eval m (e_obj e) in
  let? v := optR (recalc_pv eval m) (e_pv e) in
  let? ps := mapR (recalc_prop eval m) (e_props e) in
  Ok (set_e_props ps (set_e_pv v (set_e_amount x e))).
Definition recalc_amounts eval m (ds : dataset) : result dataset :=
  let? es := mapR (recalc_exchange eval m) (d_exchanges ds) in
  let? qs := mapR (recalc_param eval m) (d_params ds) in
  Ok (set_d_params qs (set_d_exchanges es ds)).

(** The symbol table, recalculation.py lines 62-65. *)
Definition environment (order : gmap string pobj -> result (list string))
    (eval : env -> string -> result Qc) (ds : dataset) : result env :=
  let params := extract_named_parameters ds in
  let? keys := order params in
  evaluate eval params keys.

(** recalculation.py lines 52-83, [recalculate]. *)
Definition recalculate (ln : Qc -> Qc) (euler : Qc)
    (order : gmap string pobj -> result (list string))
    (eval : env -> string -> result Qc) (ds : dataset) : result dataset :=
  let? m := environment order eval ds in
  let? ds := recalc_amounts eval m ds in
  repair_dataset ln euler ds.

Global Arguments recalc_exchange : simpl never.
Global Arguments recalc_amounts : simpl never.
Global Arguments environment : simpl never.
Global Arguments recalculate : simpl never.
