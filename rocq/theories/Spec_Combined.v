(** Specifications for C16-C18: combined production. *)
From Verif Require Import Base Types Spec_Uncertainty Spec_Utils Spec_Recalculation
  Spec_Allocation.

(** [part] is [ds] with product [p] fixed to its amount and the other
    reference products dropped. *)
Definition split_for (ds : dataset) (p : exchange) (part : dataset) : Prop :=
  exists p' dropped,
    part = set_d_exchanges
      (p' :: dropped ++ filter (fun e => ~ is_refproduct e) (d_exchanges ds)) ds /\
    p' = set_e_unc None (set_e_formula None p) /\
    Forall2 dropped_from
      (filter (fun e => e <> p) (filter is_refproduct (d_exchanges ds))) dropped.

(** Total amount of the exchanges with id [i]. *)
Definition flow (i : string) (ds : dataset) : Qc :=
  Qcsum (map e_amount (filter (fun e => e_id e = Some i) (d_exchanges ds))).
Definition exchange_ids (ds : dataset) : list (option string) := map e_id (d_exchanges ds).
(** Every exchange has an id of its own. *)
Definition unique_ids (ds : dataset) : Prop :=
  NoDup (exchange_ids ds) /\ Forall (fun e => e_id e <> None) (d_exchanges ds).

(** Exactly one allocatable output of non-zero amount, a reference product. *)
Definition single_output (ds : dataset) : Prop :=
  exists rp, filter (fun e => alloc_output e /\ e_amount e <> 0%Qc) (d_exchanges ds) = [rp] /\
             is_refproduct rp.
(** The only allocatable output is a reference product called [n]. *)
Definition product_of (n : string) (ds : dataset) : Prop :=
  exists rp, filter alloc_output (d_exchanges ds) = [rp] /\ is_refproduct rp /\ e_name rp = n.

(** [out] merges [group]: it looks like the first member and has the flows of
    all members added up. *)
Definition merges (group : list dataset) (out : dataset) : Prop :=
  (exists parent es, head group = Some parent /\ out = set_d_exchanges es parent /\
     Forall2 same_besides_amount_uncertainty (d_exchanges parent) es) /\
  forall i, flow i out = Qcsum (map (flow i) group).
