(** Specifications for the uncertainty properties (C01-C04).  They speak about
    dictionary contents only and use none of the functions of the model. *)
From Verif Require Import Base Types.

(** All keys of an exchange except 'amount' and 'uncertainty' are the same. *)
Definition same_besides_amount_uncertainty (e e' : exchange) : Prop :=
  e_id e' = e_id e /\ e_name e' = e_name e /\ e_unit e' = e_unit e /\
  e_type e' = e_type e /\ e_class e' = e_class e /\ e_link e' = e_link e /\
  e_variable e' = e_variable e /\ e_formula e' = e_formula e /\
  e_pv e' = e_pv e /\ e_props e' = e_props e /\ e_ped e' = e_ped e /\
  e_cond e' = e_cond e /\ e_code e' = e_code e /\
  e_location e' = e_location e /\ e_tech e' = e_tech e /\
  e_activity e' = e_activity e /\ e_orig_id e' = e_orig_id e /\
  e_compartment e' = e_compartment e /\
  e_subcompartment e' = e_subcompartment e /\ e_tag e' = e_tag e.

(** A well-formed distribution around amount [a]; [ln] is the logarithm. *)
Definition wf_lognormal (ln : Qc -> Qc) (a : Qc) (u : uncert) : Prop :=
  a <> 0%Qc /\
  u_mean u = Some (Qcabs a) /\ u_mu u = Some (ln (Qcabs a)) /\
  (u_negative u = Some true <-> (a < 0)%Qc).
Definition wf_normal (a : Qc) (u : uncert) : Prop :=
  a <> 0%Qc /\ exists v, u_variance u = Some v.
Definition wf_triangular (a : Qc) (u : uncert) : Prop :=
  exists lo hi, u_min u = Some lo /\ u_max u = Some hi /\ u_mode u = Some a /\
                (lo < hi)%Qc /\ (lo <= a)%Qc /\ (a <= hi)%Qc.
Definition wf_uniform (a : Qc) (u : uncert) : Prop :=
  exists lo hi, u_min u = Some lo /\ u_max u = Some hi /\
                (lo < hi)%Qc /\ (lo <= a)%Qc /\ (a <= hi)%Qc.
Definition wf_undefined (u : uncert) : Prop :=
  exists lo hi, u_min u = Some lo /\ u_max u = Some hi.

Definition wf_dist (ln : Qc -> Qc) (a : Qc) (u : option uncert) : Prop :=
  match u with
  | None => True
  | Some u =>
      match u_type u with
      | None => True
      | Some UUndefined => wf_undefined u
      | Some ULognormal => wf_lognormal ln a u
      | Some UNormal => wf_normal a u
      | Some UTriangular => wf_triangular a u
      | Some UUniform => wf_uniform a u
      | Some (UOther _) => False
      end
  end.

(** [lo', hi'] are the images of the bounds [lo, hi] under multiplication by
    [f], in increasing order. *)
Definition scaled_bounds (f : Qc) (u u' : uncert) : Prop :=
  exists lo hi, u_min u = Some lo /\ u_max u = Some hi /\
    ((0 < f)%Qc -> u_min u' = Some (lo * f)%Qc /\ u_max u' = Some (hi * f)%Qc) /\
    ((f < 0)%Qc -> u_min u' = Some (hi * f)%Qc /\ u_max u' = Some (lo * f)%Qc).

(** The description [u'] is that of [f] times the variable described by [u]
    with amount [a]. *)
Definition scaled_dist (ln : Qc -> Qc) (f a : Qc) (u u' : uncert) : Prop :=
  u_pedigree u' = u_pedigree u /\
  match u_type u with
  | None => u' = u
  | Some UUndefined =>
      u_type u' = Some UUndefined /\
      exists lo hi, u_min u = Some lo /\ u_max u = Some hi /\
                    u_min u' = Some (lo * f)%Qc /\ u_max u' = Some (hi * f)%Qc
  | Some ULognormal =>
      u_type u' = Some ULognormal /\
      u_mean u' = Some (Qcabs (a * f)) /\ u_mu u' = Some (ln (Qcabs (a * f))) /\
      u_variance u' = u_variance u /\ u_vwpu u' = u_vwpu u /\
      (u_negative u' = Some true <-> (a * f < 0)%Qc)
  | Some UNormal =>
      u_type u' = Some UNormal /\
      exists v, u_variance u = Some v /\ u_variance u' = Some (f * f * v)%Qc
  | Some UTriangular =>
      u_type u' = Some UTriangular /\ scaled_bounds f u u' /\
      u_mode u' = Some (a * f)%Qc
  | Some UUniform =>
      scaled_bounds f u u' /\
      (u_type u' = Some UUniform \/
       (u_type u' = Some UTriangular /\ u_mode u' = Some (a * f)%Qc))
  | Some (UOther _) => False
  end.

(** What holds of an uncertainty description right after repair; [pedvar] is
    the variance contributed by the object's pedigree matrix. *)
Definition repaired (ln : Qc -> Qc) (a : Qc) (u : uncert) : Prop :=
  match u_type u with
  | None | Some UUndefined => True
  | Some ULognormal => wf_lognormal ln a u
  | Some UNormal =>
      u_mean u = Some a /\ exists v, u_vwpu u = Some v /\ v <> 0%Qc
  | Some UTriangular => wf_triangular a u
  | Some UUniform => wf_uniform a u
  | Some (UOther _) => False
  end.

(** Forgetting all uncertainty descriptions of a dataset. *)
Definition strip_exchange (e : exchange) : exchange :=
  set_e_unc None
    (set_e_pv (option_map (set_v_unc None) (e_pv e))
       (set_e_props (map (set_p_unc None) (e_props e)) e)).
Definition strip_dataset (ds : dataset) : dataset :=
  set_d_params (map (set_q_unc None) (d_params ds))
    (set_d_exchanges (map strip_exchange (d_exchanges ds)) ds).

(** All (amount, uncertainty) pairs of a dataset. *)
Definition uncertain_objects (ds : dataset) : list (Qc * option uncert) :=
  concat (map (fun e =>
    (e_amount e, e_unc e)
      :: (match e_pv e with None => [] | Some v => [(v_amount v, v_unc v)] end)
      ++ map (fun p => (p_amount p, p_unc p)) (e_props e)) (d_exchanges ds))
  ++ map (fun q => (q_amount q, q_unc q)) (d_params ds).
