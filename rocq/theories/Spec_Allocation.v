(** Specifications for C14-C16: which allocation method a dataset gets. *)
From Verif Require Import Base Types Spec_Uncertainty Spec_Utils.

Definition produces (e : exchange) : Prop := is_refproduct e /\ e_amount e <> 0%Qc.
Global Instance produces_dec e : Decision (produces e).
Proof. unfold produces. apply _. Defined.

(** Number of reference products with non-zero amount. *)
Definition n_products (ds : dataset) : nat := length (filter produces (d_exchanges ds)).
Definition has_byproduct (ds : dataset) : Prop :=
  Exists (fun e => alloc_byproduct e /\ e_amount e <> 0%Qc) (d_exchanges ds).
(** Some reference product, also of amount zero, is classified allocatable. *)
Definition has_allocatable_product (ds : dataset) : Prop :=
  Exists (fun e => is_refproduct e /\ e_class e = Some Allocatable) (d_exchanges ds).
Definition has_conditional (ds : dataset) : Prop :=
  Exists (fun e => e_cond e = Some true) (d_exchanges ds).
(** The reference product with non-zero amount is negative and its class
    satisfies [P]. *)
Definition treats (P : option bclass -> Prop) (ds : dataset) : Prop :=
  exists rp, filter produces (d_exchanges ds) = [rp] /\ (e_amount rp < 0)%Qc /\ P (e_class rp).

Inductive method_of (ds : dataset) : string -> Prop :=
| M_single : n_products ds = 1 -> ~ has_byproduct ds -> method_of ds "single product"
| M_group : ~ (n_products ds = 1 /\ ~ has_byproduct ds) -> d_type ds = MarketGroup ->
    method_of ds "market group"
| M_constrained : ~ (n_products ds = 1 /\ ~ has_byproduct ds) -> d_type ds = MarketActivity ->
    has_conditional ds -> method_of ds "constrained market"
| M_unconstrained : ~ (n_products ds = 1 /\ ~ has_byproduct ds) -> d_type ds = MarketActivity ->
    ~ has_conditional ds -> method_of ds "unconstrained market"
| M_without : d_type ds <> MarketGroup -> d_type ds <> MarketActivity ->
    2 <= n_products ds -> ~ has_allocatable_product ds ->
    method_of ds "combined production without products"
| M_with : d_type ds <> MarketGroup -> d_type ds <> MarketActivity ->
    2 <= n_products ds -> has_allocatable_product ds -> has_byproduct ds ->
    method_of ds "combined production with byproducts"
| M_special : d_type ds <> MarketGroup -> d_type ds <> MarketActivity ->
    2 <= n_products ds -> has_allocatable_product ds -> ~ has_byproduct ds ->
    d_name ds = "rare earth oxides production from bastnäsite concentrate"%string ->
    method_of ds "economic"
| M_combined : d_type ds <> MarketGroup -> d_type ds <> MarketActivity ->
    2 <= n_products ds -> has_allocatable_product ds -> ~ has_byproduct ds ->
    d_name ds <> "rare earth oxides production from bastnäsite concentrate"%string ->
    method_of ds "combined production"
| M_waste : d_type ds <> MarketGroup -> d_type ds <> MarketActivity ->
    has_byproduct ds -> treats (fun c => c = Some Waste) ds -> method_of ds "waste treatment"
| M_recycling : d_type ds <> MarketGroup -> d_type ds <> MarketActivity ->
    has_byproduct ds -> treats (fun c => c <> Some Waste) ds -> method_of ds "recycling"
| M_economic : d_type ds <> MarketGroup -> d_type ds <> MarketActivity ->
    n_products ds <= 1 -> ~ (n_products ds = 1 /\ ~ has_byproduct ds) ->
    ~ treats (fun _ => True) ds -> method_of ds "economic".

(** Two exchanges that the decision cannot tell apart. *)
Definition same_features (e e' : exchange) : Prop :=
  e_type e' = e_type e /\ e_class e' = e_class e /\ e_cond e' = e_cond e /\
  (e_amount e' = 0%Qc <-> e_amount e = 0%Qc) /\ ((e_amount e' < 0)%Qc <-> (e_amount e < 0)%Qc).

(** A transformation of datasets that ignores the key 'allocation method' and
    copies it. *)
Definition label_blind (f : dataset -> result dataset) : Prop :=
  forall x ds, f (set_d_alloc x ds) = fmapR (set_d_alloc x) (f ds).
Definition label_blind_list (f : dataset -> result (list dataset)) : Prop :=
  forall x ds, f (set_d_alloc x ds) = fmapR (map (set_d_alloc x)) (f ds).
