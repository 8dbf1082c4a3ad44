(** Specification of repeated repair (C03). *)
From Verif Require Import Base Types Uncertainty Spec_Uncertainty.

(** The variance of a lognormal distribution for which repair takes the logarithm. *)
Definition in_window (euler : Qc) (o : uobj) (v pv : Qc) : Prop :=
  exists u, o_unc o = Some u /\ u_type u = Some ULognormal /\ o_amount o <> 0%Qc /\ u_vwpu u = Some (v + pv)%Qc /\ (v + pv <> 0)%Qc /\
    get_pedigree_variance (default [] (o_ped o)) = Ok pv /\ (1 <= v /\ v <= euler)%Qc.
