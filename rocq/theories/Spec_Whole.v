(** Specification for C84: what becomes of the flows of the input. *)
From stdpp Require Import gmap.
From Verif Require Import Base Types Spec_Utils Spec_Waste Spec_Allocation Spec_Pipeline.

(** Removed from every dataset by the cut-off model. *)
Definition consequential_only (e : exchange) : Prop :=
  Exists (fun p => p_name p = "consequential"%string /\ p_amount p = 1%Qc) (e_props e).
Global Instance consequential_only_dec e : Decision (consequential_only e).
Proof. unfold consequential_only. apply _. Defined.
Definition counted (ds : dataset) : dataset :=
  set_d_exchanges (filter (fun e => ~ consequential_only e) (d_exchanges ds)) ds.

(** All amounts of one flow from or to the environment. *)
Definition emitted (i : option string) (f : string * etype * option string * option string) (ds : dataset) : Qc :=
  Qcsum (map e_amount (filter (fun e => elementary e /\ e_id e = i /\ flow e = f) (d_exchanges ds))).

(** [ds] makes the product [p] of [d]. *)
Definition makes (d : dataset) (p : exchange) (ds : dataset) : Prop :=
  d_id ds = d_id d /\ d_type ds = d_type d /\ d_name ds = d_name d /\
  exists rp, filter is_refproduct (d_exchanges ds) = [rp] /\
    e_id rp = e_id p /\ e_name rp = e_name p /\ e_unit rp = e_unit p /\ e_amount rp <> 0%Qc.
(** The amount of its reference product. *)
Definition made (ds : dataset) : Qc := Qcsum (map e_amount (filter is_refproduct (d_exchanges ds))).

(** What [parts] give of something, measured by [f], if they make the amounts of [products]. *)
Definition together (f : dataset -> Qc) (products : list exchange) (parts : list dataset) : Qc :=
  Qcsum (zip_with (fun p ds => f ds / made ds * e_amount p)%Qc products parts).
(** The datasets of a result that come from [d]. *)
Definition made_from (d : dataset) (out : list dataset) : list dataset :=
  filter (fun ds => d_id ds = d_id d /\ d_name ds = d_name d) out.
