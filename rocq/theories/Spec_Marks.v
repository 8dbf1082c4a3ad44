(** Specification for C83: names of products in a result. *)
From stdpp Require Import gmap.
From Verif Require Import Base Types Spec_Waste.

(** No name of an exchange contains the marker of recycled content. *)
Definition unmarked_data (data : list dataset) : Prop :=
  Forall (fun ds => Forall (fun e => ~ occurs_in marker (e_name e)) (d_exchanges ds)) data.

(** Everything in [ds] has a name that something in [d] has. *)
Definition names_from (d ds : dataset) : Prop :=
  Forall (fun e => exists e0, e0 ∈ d_exchanges d /\ e_name e = e_name e0) (d_exchanges ds).

(** Before allocation: by-products can be marked, and the one product of a dataset that
    supplies recycled content. *)
Definition marked_from (d ds : dataset) : Prop :=
  (d_type ds = d_type d /\
   Forall (fun e => exists e0, e0 ∈ d_exchanges d /\
     (e_name e = e_name e0 \/ (e_type e = Byproduct /\ e_name e = (e_name e0 ++ marker)%string))) (d_exchanges ds)) \/
  (d_type ds = Transforming /\ exists rp e0, d_exchanges ds = [rp] /\ e_type rp = RefProduct /\
     e0 ∈ d_exchanges d /\ e_name rp = (e_name e0 ++ marker)%string).
