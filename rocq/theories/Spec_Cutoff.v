(** Specifications for the cutoff properties C09-C23. *)
From Verif Require Import Base Types Spec_Uncertainty Spec_Utils.

(** The amount of the first property called [n]. *)
Definition lookup_prop (n : string) (e : exchange) : option Qc :=
  match filter (fun p => p_name p = n) (e_props e) with
  | [] => None
  | p :: _ => Some (p_amount p)
  end.
Definition worth (e : exchange) : Qc :=
  (default 0 (lookup_prop "price" e) * e_amount e)%Qc.
Definition valued (e : exchange) : Prop := lookup_prop "true value relation" e <> None.
Global Instance valued_dec e : Decision (valued e).
Proof. unfold valued. apply _. Defined.
Definition true_worth (e : exchange) : Qc :=
  (default 0 (lookup_prop "true value relation" e) * e_amount e)%Qc.

(** The documented share [f] of product [e] among [prods]. *)
Definition economic_share (prods : list exchange) (e : exchange) (f : Qc) : Prop :=
  let total := Qcsum (map worth prods) in
  let total_t := Qcsum (map true_worth (filter valued prods)) in
  let worth_t := Qcsum (map worth (filter valued prods)) in
  total <> 0%Qc /\
  (~ valued e -> f = (worth e / total)%Qc) /\
  (valued e -> total_t <> 0%Qc /\ f = (true_worth e / total_t * (worth_t / total))%Qc).

(** [out] is [ds] with product [p] as only output and the other flows scaled
    by [f], per unit of [p]. *)
Definition single_output_of (ds : dataset) (p : exchange) (f : Qc) (out : dataset) : Prop :=
  exists k rp' dropped others,
    normalising_factor (e_amount p) k /\
    out = set_d_exchanges (rp' :: dropped ++ others) ds /\
    made_reference k p rp' /\
    Forall2 dropped_from (filter (fun e => e <> p) (filter alloc_output (d_exchanges ds))) dropped /\
    Forall2 (scaled_by (f * k)) (filter (fun e => ~ alloc_output e) (d_exchanges ds)) others /\
    filter alloc_output (d_exchanges out) = [rp'].

(** Total amount of the flow with id [i], name [n] and type [t] in [ds]. *)
Definition burden (i : option string) (n : string) (t : etype) (ds : dataset) : Qc :=
  Qcsum (map e_amount
    (filter (fun e => ~ alloc_output e /\ e_id e = i /\ e_name e = n /\ e_type e = t)
       (d_exchanges ds))).
(** Total amount of allocatable output. *)
Definition production (ds : dataset) : Qc :=
  Qcsum (map e_amount (filter alloc_output (d_exchanges ds))).

(** [out] provides by-product [p] and has no other exchange. *)
Definition free_supply (ds : dataset) (p : exchange) (out : dataset) : Prop :=
  exists k rp', normalising_factor (e_amount p) k /\ made_reference k p rp' /\
                out = set_d_exchanges [rp'] ds.

(** [e'] is [e], except that a reference product became an input of the
    opposite amount. *)
Definition turned_into_input (e e' : exchange) : Prop :=
  (~ is_refproduct e /\ e' = e) \/
  (is_refproduct e /\ scaled_by (- (1)) (set_e_type FromTechnosphere e) e').
