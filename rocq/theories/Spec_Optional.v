(** Specification for C90-C93. *)
From Verif Require Import Base Types Utils Spec_Utils Spec_Cutoff Spec_Recalculation.

(** Everything in a dataset but values and uncertainties. *)
Definition frame (ds : dataset) : dataset :=
  set_d_params (map blank_param (d_params ds)) (set_d_exchanges (map blank_exchange (d_exchanges ds)) ds).

(** The first values of [ds'] are new, the others those of [ds]. *)
Definition half_recalculated (eval : gmap string Qc -> string -> result Qc) (m : gmap string Qc) (ds ds' : dataset) : Prop :=
  frame ds' = frame ds /\
  exists old rest new, quantities ds = old ++ rest /\ quantities ds' = new ++ rest /\ Forall2 (revalued eval m) old new.

Definition recyclable_byproduct (e : exchange) : Prop := e_type e = Byproduct /\ e_class e = Some Recyclable.
Global Instance recyclable_byproduct_dec e : Decision (recyclable_byproduct e).
Proof. unfold recyclable_byproduct. apply _. Defined.

(** A reference product became an input of the opposite amount, a recyclable by-product a
    reference product. *)
Definition squared (e e' : exchange) : Prop :=
  (is_refproduct e /\ scaled_by (- (1)) (set_e_type FromTechnosphere e) e') \/
  (recyclable_byproduct e /\ e' = set_e_type RefProduct e) \/
  (~ is_refproduct e /\ ~ recyclable_byproduct e /\ e' = e).
(** What becomes a product of its own. *)
Definition saleable (e : exchange) : Prop := alloc_byproduct e \/ recyclable_byproduct e.
Global Instance saleable_dec e : Decision (saleable e).
Proof. unfold saleable. apply _. Defined.

Definition mandatory : list string :=
  ["dry mass"; "water in wet mass"; "water content"; "wet mass"; "carbon content fossil"; "carbon content non-fossil"]%string.
Definition lacks (n : string) (e : exchange) : Prop := n ∉ map p_name (e_props e).
Global Instance lacks_dec n e : Decision (lacks n e).
Proof. unfold lacks. apply _. Defined.
Definition incomplete (e : exchange) : Prop := e_props e <> [] /\ Exists (fun n => lacks n e) mandatory.
Global Instance incomplete_dec e : Decision (incomplete e).
Proof. unfold incomplete. apply _. Defined.
(** The exchanges of all datasets, in order. *)
Definition flows (data : list dataset) : list (dataset * exchange) :=
  concat (map (fun ds => map (pair ds) (d_exchanges ds)) data).

(** The recyclable by-products which become reference products. *)
Definition sold (e : exchange) : exchange :=
  if decide (recyclable_byproduct e) then set_e_type RefProduct e else e.

Definition supplies (n : string) (ds : dataset) : Prop := d_type ds = Transforming /\ d_refprod ds = Some n.
Global Instance supplies_dec n ds : Decision (supplies n ds).
Proof. unfold supplies. apply _. Defined.
