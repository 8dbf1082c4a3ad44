(** Specifications for C05-C08 and C28: reference products, normalisation,
    activity codes, by-product volumes. *)
From Verif Require Import Base Types Spec_Uncertainty.

(** Outputs over which burdens are allocated. *)
Definition is_refproduct (e : exchange) : Prop := e_type e = RefProduct.
Definition alloc_byproduct (e : exchange) : Prop :=
  e_type e = Byproduct /\ e_class e = Some Allocatable.
Definition alloc_output (e : exchange) : Prop := is_refproduct e \/ alloc_byproduct e.
Global Instance is_refproduct_dec e : Decision (is_refproduct e).
Proof. unfold is_refproduct. apply _. Defined.
Global Instance alloc_byproduct_dec e : Decision (alloc_byproduct e).
Proof. unfold alloc_byproduct. apply _. Defined.
Global Instance alloc_output_dec e : Decision (alloc_output e).
Proof. unfold alloc_output. apply _. Defined.

(** Every by-product carries a classification. *)
Definition classified (ds : dataset) : Prop :=
  Forall (fun e => e_type e = Byproduct -> e_class e <> None) (d_exchanges ds).

(** [e'] is [e] multiplied by [k]. *)
Definition scaled_by (k : Qc) (e e' : exchange) : Prop :=
  e_amount e' = (e_amount e * k)%Qc /\ same_besides_amount_uncertainty e e'.

(** [k] brings amount [a] to +1 or -1, up to the tolerance 1e-14. *)
Definition normalising_factor (a k : Qc) : Prop :=
  (0 < k)%Qc /\
  ((a * k = 1 \/ a * k = - (1))%Qc \/
   (k = 1 /\ Qcabs (1 / Qcabs a - 1) <= frac 1 100000000000000)%Qc).

(** [e'] is [e] made reference product and scaled by [k]. *)
Definition made_reference (k : Qc) (e e' : exchange) : Prop :=
  e_type e' = RefProduct /\ e_amount e' = (e_amount e * k)%Qc /\
  e_unc e' = None /\ e_class e' = None /\
  e_id e' = e_id e /\ e_name e' = e_name e /\ e_unit e' = e_unit e /\
  e_link e' = e_link e /\ e_variable e' = e_variable e /\
  e_formula e' = e_formula e /\ e_pv e' = e_pv e /\ e_props e' = e_props e /\
  e_ped e' = e_ped e /\ e_cond e' = e_cond e /\ e_code e' = e_code e /\
  e_location e' = e_location e /\ e_tech e' = e_tech e /\
  e_activity e' = e_activity e /\ e_orig_id e' = e_orig_id e /\ e_tag e' = e_tag e.

(** [e'] is [e] dropped from production. *)
Definition dropped_from (e e' : exchange) : Prop :=
  e_type e' = DroppedProduct /\ e_amount e' = 0%Qc /\ e_unc e' = None /\
  e_formula e' = None /\ e_pv e' = None /\
  e_id e' = e_id e /\ e_name e' = e_name e /\ e_unit e' = e_unit e /\
  e_class e' = e_class e /\ e_variable e' = e_variable e /\ e_props e' = e_props e.

(** [r] is a production-volume-to-amount ratio of a reference product of [ds]
    with non-zero amount, and no such ratio is larger in absolute value. *)
Definition biggest_ratio (ds : dataset) (r : Qc) : Prop :=
  (exists e v, e ∈ d_exchanges ds /\ is_refproduct e /\ e_amount e <> 0%Qc /\
               e_pv e = Some v /\ r = (v_amount v / e_amount e)%Qc) /\
  (forall e v, e ∈ d_exchanges ds -> is_refproduct e -> e_amount e <> 0%Qc ->
               e_pv e = Some v -> (Qcabs (v_amount v / e_amount e) <= Qcabs r)%Qc).

(** What filling in does to one exchange, given the ratio [r]. *)
Definition pv_filled (r : Qc) (e e' : exchange) : Prop :=
  (alloc_byproduct e /\ exists v, e_pv e = Some v /\ v_amount v = 0%Qc /\
     e' = set_e_pv (Some (set_v_amount (Qcabs (e_amount e * r)) v)) e) \/
  ((alloc_byproduct e -> exists v, e_pv e = Some v /\ v_amount v <> 0%Qc) /\ e' = e).

(** Equality of the identifying fields, ignoring case through [low]. *)
Definition same_identity (low : string -> string) (d1 d2 : dataset) : Prop :=
  low (d_name d1) = low (d_name d2) /\
  low (default "" (d_refprod d1)) = low (default "" (d_refprod d2)) /\
  low (default "" (d_unit d1)) = low (default "" (d_unit d2)) /\
  low (d_location d1) = low (d_location d2) /\
  low (d_start d1) = low (d_start d2) /\
  low (d_end d1) = low (d_end d2).
