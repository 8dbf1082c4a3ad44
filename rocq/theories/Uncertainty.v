(** Model of ocelot/transformations/uncertainty (the whole package) and of
    parameterization/uncertainty.py.

    The methods work on any dictionary with 'amount', 'uncertainty' and
    'pedigree matrix'; [uobj] is that view, so that one definition serves
    exchanges, production volumes, properties and parameters.

    Oracles: [ln] stands for [math.log] on positive numbers, [euler] for
    [math.e].  Both are arbitrary: the theorems hold for every choice. *)
From Verif Require Import Base Types.

Record uobj := mkUobj {
  o_amount : Qc;
  o_unc : option uncert;
  o_ped : option pedigree
}.
Global Instance uobj_eq_dec : EqDecision uobj.
Proof. solve_decision. Defined.

(** uncertainty/__init__.py lines 4-8, [remove_exchange_uncertainty]. *)
Definition remove_uncertainty (o : uobj) : uobj :=
  mkUobj (o_amount o) None (o_ped o).

(** ** Pedigree matrix: uncertainty/pedigree.py *)

(** pedigree.py lines 8-15, table 'original'. *)
Definition pedigree_row (label : string) : option (list Qc) :=
  if (label =? "reliability")%string then
    Some [0%Qc; frac 6 10000; frac 2 1000; frac 8 1000; frac 4 100]
  else if (label =? "completeness")%string then
    Some [0%Qc; frac 1 10000; frac 6 10000; frac 2 1000; frac 8 1000]
  else if (label =? "temporal correlation")%string then
    Some [0%Qc; frac 2 10000; frac 2 1000; frac 8 1000; frac 4 100]
  else if (label =? "geographical correlation")%string then
    Some [0%Qc; frac 25 1000000; frac 1 10000; frac 6 10000; frac 2 1000]
  else if (label =? "further technological correlation")%string then
    Some [0%Qc; frac 6 10000; frac 8 1000; frac 4 100; frac 12 100]
  else if (label =? "sample size")%string then
    Some [0%Qc; frac 98 1000000; frac 6 10000; frac 23 10000; frac 83 10000]
  else None.

(** Python indexing of a five-element tuple, with negative indices. *)
Definition py_index {A} (l : list A) (i : Z) : result A :=
  let n := Z.of_nat (length l) in
  let j := if (i <? 0)%Z then (i + n)%Z else i in
  if (j <? 0)%Z then Err IndexError
  else match l !! Z.to_nat j with Some a => Ok a | None => Err IndexError end.

(** pedigree.py lines 29-32, [get_pedigree_variance] with version 'original'.
    The assertion that scores are integers holds by typing here. *)
Definition get_pedigree_variance (pm : pedigree) : result Qc :=
  let? l := mapR (fun kv : string * Z =>
    let? row := getkey kv.1 (pedigree_row kv.1) in
    py_index row (kv.2 - 1)%Z) pm in
  Ok (Qcsum l).

(** pedigree.py lines 35-44: only the year of both dates is used.  Parsing of
    the date string is not modelled; years are integers. *)
Definition get_difference_in_years (first second : Z) : Z :=
  Z.abs (first - second).

(** pedigree.py lines 63-77, the new temporal correlation score. *)
Definition new_temporal_score (current difference : Z) : Z :=
  if ((current =? 3) && (difference <=? 5))%Z then 4%Z
  else if ((current =? 2) && (difference <? 5))%Z then 3%Z
  else if ((current =? 2) && (difference =? 5))%Z then 4%Z
  else if ((current =? 1) && (difference <=? 3))%Z then 2%Z
  else if ((current =? 1) && (difference <=? 7))%Z then 3%Z
  else if ((current =? 1) && (difference <=? 12))%Z then 4%Z
  else 5%Z.

Fixpoint assoc_get {A} (k : string) (l : list (string * A)) : option A :=
  match l with
  | [] => None
  | (k', v) :: l => if (k =? k')%string then Some v else assoc_get k l
  end.
Fixpoint assoc_set {A} (k : string) (v : A) (l : list (string * A)) :=
  match l with
  | [] => [(k, v)]
  | (k', v') :: l => if (k =? k')%string then (k', v) :: l
                     else (k', v') :: assoc_set k v l
  end.

(** pedigree.py lines 47-79, [adjust_pedigree_matrix_time]; [end_year] is the
    year of [ds['end date']]. *)
Definition adjust_pedigree_matrix_time (end_year : Z) (o : uobj) (year : Z)
  : result uobj :=
  match o_ped o with
  | None => Ok o
  | Some pm =>
      let difference := get_difference_in_years end_year year in
      let? current := getkey "temporal correlation" (assoc_get "temporal correlation" pm) in
      Ok (if (0 <? difference)%Z
          then mkUobj (o_amount o) (o_unc o)
                 (Some (assoc_set "temporal correlation"
                          (new_temporal_score current difference) pm))
          else o)
  end.

(** ** Distributions: uncertainty/distributions.py *)

(** [obj['uncertainty']]. *)
Definition getunc (o : uobj) : result uncert := getkey "uncertainty" (o_unc o).
Definition putunc (o : uobj) (u : uncert) : uobj :=
  mkUobj (o_amount o) (Some u) (o_ped o).
Definition putamount (o : uobj) (a : Qc) : uobj :=
  mkUobj a (o_unc o) (o_ped o).

(** [math.log]: ValueError for arguments that are not positive. *)
Definition logR (ln : Qc -> Qc) (x : Qc) : result Qc :=
  if Qcleb x 0 then Err ValueError else Ok (ln x).

(** [np.allclose(a, b)] on numbers with default tolerances. *)
Definition allclose (a b : Qc) : bool :=
  Qcleb (Qcabs (a - b)) (frac 1 100000000 + frac 1 100000 * Qcabs b)%Qc.

Global Arguments allclose : simpl never.
Global Arguments pedigree_row : simpl never.

(** distributions.py lines 31-35, [NoUncertainty.rescale]. *)
Definition none_rescale (o : uobj) (f : Qc) : uobj :=
  putamount o (o_amount o * f)%Qc.

(** distributions.py lines 66-73, [Undefined.rescale]. *)
Definition undefined_rescale (o : uobj) (f : Qc) : result uobj :=
  let o := putamount o (o_amount o * f)%Qc in
  let? u := getunc o in
  let? mn := getkey "minimum" (u_min u) in
  let? mx := getkey "maximum" (u_max u) in
  Ok (putunc o (set_u_max (Some (mx * f)%Qc) (set_u_min (Some (mn * f)%Qc) u))).
Global Arguments undefined_rescale : simpl never.

(** distributions.py lines 89-130, [Lognormal.repair] with the default
    [fix_extremes=True]. *)
Definition lognormal_repair (ln : Qc -> Qc) (euler : Qc) (o : uobj) : result uobj :=
  if Qceqb (o_amount o) 0 then Ok (remove_uncertainty o)
  else
    let? u := getunc o in
    let? vw := getkey "variance with pedigree uncertainty" (u_vwpu u) in
    if Qceqb vw 0 then Ok (remove_uncertainty o)
    else
      let mean := Qcabs (o_amount o) in
      let u := set_u_mean (Some mean) u in
      let u := set_u_negative (Some (Qcltb (o_amount o) 0)) u in
      let? mu := logR ln mean in
      let u := set_u_mu (Some mu) u in
      let? pv := get_pedigree_variance (default [] (o_ped o)) in
      let var := (vw - pv)%Qc in
      let u := set_u_variance (Some var) u in
      if Qcleb 1 var && Qcleb var euler then
        let? lv := logR ln var in
        let u := set_u_variance (Some lv) u in
        Ok (putunc o (set_u_vwpu (Some (lv + pv)%Qc) u))
      else if Qcltb euler var then
        let u := set_u_variance (Some (frac 1 4)) u in
        Ok (putunc o (set_u_vwpu (Some (frac 1 4 + pv)%Qc) u))
      else Ok (putunc o u).
Global Arguments lognormal_repair : simpl never.

(** distributions.py lines 143-147, the last branch of [Lognormal.rescale]. *)
Definition lognormal_rescale_pos (ln : Qc -> Qc) (o : uobj) (f : Qc) : result uobj :=
  let o := putamount o (o_amount o * f)%Qc in
  let? u := getunc o in
  let mean := Qcabs (o_amount o) in
  let? mu := logR ln mean in
  Ok (putunc o (set_u_mu (Some mu) (set_u_mean (Some mean) u))).
Global Arguments lognormal_rescale_pos : simpl never.

(** distributions.py lines 132-147, [Lognormal.rescale].  The recursive call
    has a positive factor, so it takes the last branch. *)
Definition lognormal_rescale (ln : Qc -> Qc) (o : uobj) (f : Qc) : result uobj :=
  if Qcltb f 0 then
    let o := putamount o (- o_amount o)%Qc in
    let? u := getunc o in
    let o := putunc o (set_u_negative (Some (negb (default false (u_negative u)))) u) in
    lognormal_rescale_pos ln o (Qcabs f)
  else if Qceqb f 0 then Ok (remove_uncertainty (putamount o 0%Qc))
  else lognormal_rescale_pos ln o f.
Global Arguments lognormal_rescale : simpl never.

(** distributions.py lines 149-156, [Lognormal.recalculate]. *)
Definition lognormal_recalculate (o : uobj) : result uobj :=
  let? u := getunc o in
  let? v := getkey "variance" (u_variance u) in
  let? pv := get_pedigree_variance (default [] (o_ped o)) in
  Ok (putunc o (set_u_vwpu (Some (v + pv)%Qc) u)).

(** distributions.py lines 178-198, [Normal.repair]. *)
Definition normal_repair (o : uobj) : result uobj :=
  let? u := getunc o in
  let? vw := getkey "variance with pedigree uncertainty" (u_vwpu u) in
  if Qceqb vw 0 then Ok (remove_uncertainty o)
  else Ok (putunc o (set_u_mean (Some (o_amount o)) u)).
Global Arguments normal_repair : simpl never.

(** distributions.py lines 200-224 and 226-272, [Normal.rescale]
    ([Normal.recalculate] returns its argument). The expression evaluates the
    quotient before it reads 'variance'. *)
Definition normal_rescale (o : uobj) (f : Qc) : result uobj :=
  if Qceqb f 0 then Ok (remove_uncertainty (putamount o 0%Qc))
  else
    let? q := divR (o_amount o * f) (o_amount o) in
    let? u := getunc o in
    let? v := getkey "variance" (u_variance u) in
    let o' := putunc o (set_u_variance (Some (q * q * v)%Qc) u) in
    Ok (putamount o' (o_amount o * f)%Qc).
Global Arguments normal_rescale : simpl never.

(** distributions.py lines 291-309, [Triangular.repair]. *)
Definition triangular_repair (o : uobj) : result uobj :=
  let? u := getunc o in
  let u := set_u_mode (Some (o_amount o)) u in
  let? mn := getkey "minimum" (u_min u) in
  let? mx := getkey "maximum" (u_max u) in
  if Qceqb mn mx && Qceqb mx (o_amount o) then Ok (remove_uncertainty o)
  else
    let flip := Qcltb mx mn in
    let lo := if flip then mx else mn in
    let hi := if flip then mn else mx in
    let u := set_u_max (Some hi) (set_u_min (Some lo) u) in
    if Qcltb (o_amount o) lo || Qcltb hi (o_amount o)
    then Ok (remove_uncertainty o)
    else Ok (putunc o u).

Global Arguments triangular_repair : simpl never.

(** distributions.py lines 311-319, [Triangular.rescale]. *)
Definition triangular_rescale (o : uobj) (f : Qc) : result uobj :=
  let? u := getunc o in
  let? mn := getkey "minimum" (u_min u) in
  let? md := getkey "mode" (u_mode u) in
  let? mx := getkey "maximum" (u_max u) in
  let u := set_u_max (Some (mx * f)%Qc)
             (set_u_mode (Some (md * f)%Qc) (set_u_min (Some (mn * f)%Qc) u)) in
  triangular_repair (mkUobj (o_amount o * f)%Qc (Some u) (o_ped o)).
Global Arguments triangular_rescale : simpl never.

(** distributions.py lines 342-364, [Uniform.repair]. *)
Definition uniform_repair (o : uobj) : result uobj :=
  let? u := getunc o in
  let? mn := getkey "minimum" (u_min u) in
  let? mx := getkey "maximum" (u_max u) in
  if Qceqb mn mx && Qceqb mx (o_amount o) then Ok (remove_uncertainty o)
  else
    let flip := Qcltb mx mn in
    let lo := if flip then mx else mn in
    let hi := if flip then mn else mx in
    let u := set_u_max (Some hi) (set_u_min (Some lo) u) in
    if Qcltb (o_amount o) lo || Qcltb hi (o_amount o) then Err ValueError
    else if negb (allclose (o_amount o) ((lo + hi) / (1 + 1))%Qc)
    then triangular_repair (putunc o (set_u_type (Some UTriangular) u))
    else Ok (putunc o u).

Global Arguments uniform_repair : simpl never.

(** distributions.py lines 366-373, [Uniform.rescale]. *)
Definition uniform_rescale (o : uobj) (f : Qc) : result uobj :=
  let? u := getunc o in
  let? mn := getkey "minimum" (u_min u) in
  let? mx := getkey "maximum" (u_max u) in
  let u := set_u_max (Some (mx * f)%Qc) (set_u_min (Some (mn * f)%Qc) u) in
  uniform_repair (mkUobj (o_amount o * f)%Qc (Some u) (o_ped o)).
Global Arguments uniform_rescale : simpl never.

(** uncertainty/__init__.py lines 22-36: [TYPE_MAPPING], [get_uncertainty_class].
    A missing 'uncertainty' or a missing 'type' selects [NoUncertainty]. *)
Inductive uclass := CNone | CUndefined | CLognormal | CNormal | CTriangular | CUniform.
Definition get_uncertainty_class (o : uobj) : result uclass :=
  match o_unc o ≫= u_type with
  | None => Ok CNone
  | Some UUndefined => Ok CUndefined
  | Some ULognormal => Ok CLognormal
  | Some UNormal => Ok CNormal
  | Some UTriangular => Ok CTriangular
  | Some UUniform => Ok CUniform
  | Some (UOther _) => Err UnsupportedDistribution
  end.

(** Method dispatch of [rescale]. *)
Definition rescale (ln : Qc -> Qc) (o : uobj) (f : Qc) : result uobj :=
  let? c := get_uncertainty_class o in
  match c with
  | CNone => Ok (none_rescale o f)
  | CUndefined => undefined_rescale o f
  | CLognormal => lognormal_rescale ln o f
  | CNormal => normal_rescale o f
  | CTriangular => triangular_rescale o f
  | CUniform => uniform_rescale o f
  end.

(** Method dispatch of [repair]; [Undefined] inherits the no-op of
    [NoUncertainty], distributions.py lines 26-29 and 60. *)
Definition repair (ln : Qc -> Qc) (euler : Qc) (o : uobj) : result uobj :=
  let? c := get_uncertainty_class o in
  match c with
  | CNone | CUndefined => Ok o
  | CLognormal => lognormal_repair ln euler o
  | CNormal => normal_repair o
  | CTriangular => triangular_repair o
  | CUniform => uniform_repair o
  end.

(** uncertainty/__init__.py lines 39-45, [scale_exchange], on the view. *)
Definition scale_obj (ln : Qc -> Qc) (o : uobj) (f : Qc) : result uobj :=
  if Qceqb f 1 then Ok o else rescale ln o f.

(** uncertainty/__init__.py lines 48-50; only [Lognormal] has an effective
    [recalculate] (distributions.py lines 37, 149, 226, 321, 375). *)
Definition adjust_and_recalculate (end_year : Z) (o : uobj) (year : Z) : result uobj :=
  let? o := adjust_pedigree_matrix_time end_year o year in
  let? c := get_uncertainty_class o in
  match c with
  | CLognormal => lognormal_recalculate o
  | _ => Ok o
  end.

(** ** The same on exchanges *)
Definition e_view (e : exchange) : uobj := mkUobj (e_amount e) (e_unc e) (e_ped e).
Definition e_put (e : exchange) (o : uobj) : exchange :=
  set_e_unc (o_unc o) (set_e_amount (o_amount o) e).

Definition scale_exchange (ln : Qc -> Qc) (e : exchange) (f : Qc) : result exchange :=
  let? o := scale_obj ln (e_view e) f in Ok (e_put e o).

Definition remove_exchange_uncertainty (e : exchange) : exchange := set_e_unc None e.

(** ** parameterization/uncertainty.py lines 7-16 with
    utils.py lines 121-134 ([iterate_all_uncertainties]). *)

(** [if obj.get('uncertainty')]: a non-empty dictionary. *)
Definition unc_truthy (u : option uncert) : bool :=
  match u with None => false | Some u => negb (bool_decide (u = uncert0)) end.

Definition repair_if (ln : Qc -> Qc) (euler : Qc) (o : uobj) : result uobj :=
  if unc_truthy (o_unc o) then repair ln euler o else Ok o.

Definition repair_pv ln euler (v : pvol) : result pvol :=
  let? o := repair_if ln euler (mkUobj (v_amount v) (v_unc v) None) in
  Ok (set_v_unc (o_unc o) (set_v_amount (o_amount o) v)).
Definition repair_prop ln euler (p : prop) : result prop :=
  let? o := repair_if ln euler (mkUobj (p_amount p) (p_unc p) None) in
  Ok (set_p_unc (o_unc o) (set_p_amount (o_amount o) p)).
Definition repair_param ln euler (q : param) : result param :=
  let? o := repair_if ln euler (mkUobj (q_amount q) (q_unc q) None) in
  Ok (set_q_unc (o_unc o) (set_q_amount (o_amount o) q)).

Definition optR {A B} (f : A -> result B) (o : option A) : result (option B) :=
  match o with None => Ok None | Some a => let? b := f a in Ok (Some b) end.

Definition repair_exchange ln euler (e : exchange) : result exchange :=
  let? o := repair_if ln euler (e_view e) in
  let e := e_put e o in
  let? v := optR (repair_pv ln euler) (e_pv e) in
  let? ps := mapR (repair_prop ln euler) (e_props e) in
  Ok (set_e_props ps (set_e_pv v e)).

Definition repair_dataset ln euler (ds : dataset) : result dataset :=
  let? es := mapR (repair_exchange ln euler) (d_exchanges ds) in
  let? qs := mapR (repair_param ln euler) (d_params ds) in
  Ok (set_d_params qs (set_d_exchanges es ds)).

Definition repair_all_uncertainty_distributions ln euler (data : list dataset)
  : result (list dataset) :=
  mapR (repair_dataset ln euler) data.
