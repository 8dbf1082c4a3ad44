(** Model of the [to_stats_arrays] methods of
    ocelot/transformations/uncertainty/distributions.py.

    [sample] (lines 51-57) hands the dictionary to the library stats_arrays, which is
    not modelled.  'uncertainty type' is [cls.distribution.id]: the identifiers of the
    six distributions are different, the class stands for them.

    Oracle: [sqrt] stands for [math.sqrt] on numbers that are not negative. *)
From Verif Require Import Base Types Uncertainty.

Record sampled := mkSampled {
  s_class : uclass;  (* 'uncertainty type' *)
  s_amount : Qc;
  s_loc : option Qc;
  s_scale : option Qc;
  s_minimum : option Qc;
  s_maximum : option Qc;
  s_negative : option bool
}.

(** [math.sqrt]: ValueError for negative numbers. *)
Definition sqrtR (sqrt : Qc -> Qc) (x : Qc) : result Qc := if Qcltb x 0 then Err ValueError else Ok (sqrt x).

(** distributions.py lines 42-49 and 75-82, [NoUncertainty] and [Undefined]. *)
Definition none_sampled (c : uclass) (o : uobj) : result sampled :=
  Ok (mkSampled c (o_amount o) (Some (o_amount o)) None None None None).

(** distributions.py lines 158-171, [Lognormal]. *)
Definition lognormal_sampled (sqrt : Qc -> Qc) (o : uobj) : result sampled :=
  let? u := getunc o in
  let? mu := getkey "mu" (u_mu u) in
  let? v := getkey "variance with pedigree uncertainty" (u_vwpu u) in
  let? s := sqrtR sqrt v in
  Ok (mkSampled CLognormal (o_amount o) (Some mu) (Some s) None None (Some (Qcltb (o_amount o) 0))).

(** distributions.py lines 274-284, [Normal]. *)
Definition normal_sampled (sqrt : Qc -> Qc) (o : uobj) : result sampled :=
  let? u := getunc o in
  let? m := getkey "mean" (u_mean u) in
  let? v := getkey "variance with pedigree uncertainty" (u_vwpu u) in
  let? s := sqrtR sqrt v in
  Ok (mkSampled CNormal (o_amount o) (Some m) (Some s) None None None).

(** distributions.py lines 326-335, [Triangular]. *)
Definition triangular_sampled (o : uobj) : result sampled :=
  let? u := getunc o in
  let? m := getkey "mode" (u_mode u) in
  let? lo := getkey "minimum" (u_min u) in
  let? hi := getkey "maximum" (u_max u) in
  Ok (mkSampled CTriangular (o_amount o) (Some m) None (Some lo) (Some hi) None).

(** distributions.py lines 380-388, [Uniform]. *)
Definition uniform_sampled (o : uobj) : result sampled :=
  let? u := getunc o in
  let? lo := getkey "minimum" (u_min u) in
  let? hi := getkey "maximum" (u_max u) in
  Ok (mkSampled CUniform (o_amount o) None None (Some lo) (Some hi) None).

(** [get_uncertainty_class(obj).to_stats_arrays(obj)]. *)
Definition to_stats_arrays (sqrt : Qc -> Qc) (o : uobj) : result sampled :=
  let? c := get_uncertainty_class o in
  match c with
  | CNone | CUndefined => none_sampled c o
  | CLognormal => lognormal_sampled sqrt o
  | CNormal => normal_sampled sqrt o
  | CTriangular => triangular_sampled o
  | CUniform => uniform_sampled o
  end.
