(** Specification for C78: what a run takes and gives. *)
From Verif Require Import Base Types Spec_Uncertainty Spec_Utils Spec_Waste Spec_Consumers Spec_Untouched Spec_Pipeline.

(** The product [n], whether or not it is marked as recycled. *)
Definition called (n : string) (e : exchange) : Prop := e_name e = n \/ e_name e = (n ++ marker)%string.
Global Instance called_dec n e : Decision (called n e).
Proof. unfold called. apply _. Defined.
(** Outputs minus inputs of [n], marked or not. *)
Definition net_called (n : string) (ds : dataset) : Qc :=
  (Qcsum (map e_amount (filter (fun e => is_output e /\ called n e) (d_exchanges ds)))
   - Qcsum (map e_amount (filter (fun e => e_type e = FromTechnosphere /\ called n e) (d_exchanges ds))))%Qc.

(** The marker is at the end of a name or nowhere. *)
Definition marked_once (ds : dataset) : Prop :=
  Forall (fun e => forall a, e_name e = (a ++ marker)%string -> ~ occurs_in marker a) (d_exchanges ds).

(** [e'] is [e], [k] times. *)
Definition times (k : Qc) (e e' : exchange) : Prop :=
  e_type e' = e_type e /\ e_id e' = e_id e /\ e_unit e' = e_unit e /\
  e_compartment e' = e_compartment e /\ e_subcompartment e' = e_subcompartment e /\
  ((forall a, e_name e <> (a ++ marker)%string) -> e_name e' = e_name e) /\
  e_amount e' = (e_amount e * k)%Qc.

(** [d'] gives and takes what [d] does, per unit of its one product.  Links of refinery gas
    are left out: they can be lost. *)
Definition per_unit (name : string -> dataset -> Qc) (d d' : dataset) : Prop :=
  exists rp rp' k, filter is_refproduct (d_exchanges d) = [rp] /\ filter is_refproduct (d_exchanges d') = [rp'] /\
    times k rp rp' /\ normalising_factor (e_amount rp) k /\
    Forall2 (times k) (filter elementary (d_exchanges d)) (filter elementary (d_exchanges d')) /\
    forall n, ~ occurs_in marker n -> n <> "refinery gas"%string -> net n d' = (name n d * k)%Qc.
