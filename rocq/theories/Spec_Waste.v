(** Specifications for C19-C23. *)
From Verif Require Import Base Types Spec_Uncertainty Spec_Utils.

(** ** C19 *)
Definition nonalloc_byproduct (e : exchange) : Prop :=
  e_type e = Byproduct /\ e_class e <> Some Allocatable.
Global Instance nonalloc_byproduct_dec e : Decision (nonalloc_byproduct e).
Proof. unfold nonalloc_byproduct. apply _. Defined.
(** An output turned into a negative input. *)
Definition turned (e e' : exchange) : Prop :=
  e_type e' = FromTechnosphere /\ e_amount e' = (- e_amount e)%Qc /\ e_class e' = None /\
  e_formula e' = option_map (fun f => "-1 * (" ++ f ++ ")")%string (e_formula e) /\
  e' = set_e_type (e_type e') (set_e_amount (e_amount e') (set_e_class (e_class e')
         (set_e_formula (e_formula e') e))).
Definition flipped (e e' : exchange) : Prop :=
  (nonalloc_byproduct e /\ turned e e') \/ (~ nonalloc_byproduct e /\ e' = e).
(** Outputs minus inputs of the product called [n]. *)
Definition is_output (e : exchange) : Prop := e_type e = RefProduct \/ e_type e = Byproduct.
Global Instance is_output_dec e : Decision (is_output e).
Proof. unfold is_output. apply _. Defined.
Definition net (n : string) (ds : dataset) : Qc :=
  (Qcsum (map e_amount (filter (fun e => is_output e /\ e_name e = n) (d_exchanges ds)))
   - Qcsum (map e_amount
       (filter (fun e => e_type e = FromTechnosphere /\ e_name e = n) (d_exchanges ds))))%Qc.

(** ** C20 *)
(** A market the sign adjustment looks at. *)
Definition nonwaste_market (ds : dataset) (rp : exchange) : Prop :=
  d_type ds = MarketActivity /\ filter is_refproduct (d_exchanges ds) = [rp] /\
  e_class rp <> None /\ e_class rp <> Some Waste.
(** Exchanges satisfying [P] are multiplied by -1, the others stay. *)
Definition negated_where (P : exchange -> Prop) (e e' : exchange) : Prop :=
  (P e /\ scaled_by (- (1)) e e') \/ (~ P e /\ e' = e).
Definition signs_adjusted (ds ds' : dataset) : Prop :=
  (d_type ds <> MarketActivity /\ ds' = ds) \/
  (exists rp, d_type ds = MarketActivity /\ filter is_refproduct (d_exchanges ds) = [rp] /\
     e_class rp = Some Waste /\ ds' = ds) \/
  (exists rp es', nonwaste_market ds rp /\ ds' = set_d_exchanges es' ds /\
     ((Forall (fun e => e_amount e <= 0)%Qc (d_exchanges ds) /\
       Forall2 (negated_where (fun _ => True)) (d_exchanges ds) es') \/
      (Exists (fun e => 0 < e_amount e)%Qc (d_exchanges ds) /\ (e_amount rp < 0)%Qc /\
       Forall2 (negated_where (fun e => e_name e = e_name rp)) (d_exchanges ds) es') \/
      (Exists (fun e => 0 < e_amount e)%Qc (d_exchanges ds) /\ (0 <= e_amount rp)%Qc /\
       es' = d_exchanges ds))).

(** ** C21 *)
Definition recyclable_byproduct (e : exchange) : Prop :=
  e_type e = Byproduct /\ e_class e = Some Recyclable.
Global Instance recyclable_byproduct_dec e : Decision (recyclable_byproduct e).
Proof. unfold recyclable_byproduct. apply _. Defined.
Definition marker : string := ", Recycled Content cut-off".
Definition marked (e e' : exchange) : Prop :=
  (recyclable_byproduct e /\ e' = set_e_name (e_name e ++ marker)%string e) \/
  (~ recyclable_byproduct e /\ e' = e).
(** All exchanges of a database with the dataset they are in. *)
Definition sites (data : list dataset) : list (dataset * exchange) :=
  concat (map (fun ds => map (pair ds) (d_exchanges ds)) data).
(** A burden-free dataset supplying [n], made for by-product [e] of [ds]. *)
Definition supplies_recycled (n : string) (ds : dataset) (e : exchange) (rc : dataset) : Prop :=
  d_name rc = n /\ d_location rc = "GLO"%string /\ d_type rc = Transforming /\
  d_refprod rc = Some n /\ d_params rc = [] /\
  d_tech rc = d_tech ds /\ d_start rc = d_start ds /\ d_end rc = d_end ds /\
  exists rp v, d_exchanges rc = [rp] /\ e_type rp = RefProduct /\ e_name rp = n /\
    e_amount rp = 1%Qc /\ e_unit rp = e_unit e /\ e_id rp = e_id e /\
    e_pv rp = Some v /\ v_amount v = Qcint 4 /\ e_formula rp = None /\ e_link rp = None.

(** ** C22 *)
(** [m] occurs in [s]. *)
Definition occurs_in (m s : string) : Prop := exists a b, s = (a ++ m ++ b)%string.

(** ** C23 *)
Definition linked (e : exchange) : Prop :=
  exists i, e_link e = Some i /\ i <> ""%string.
(** [e'] is [e], without its link if [P e]. *)
Definition unlinked_where (P : exchange -> Prop) (e e' : exchange) : Prop :=
  (P e /\ e' = set_e_link None e) \/ (~ P e /\ e' = e).
Definition on_exchanges (R : list exchange -> list exchange -> Prop) (ds ds' : dataset) : Prop :=
  exists es', ds' = set_d_exchanges es' ds /\ R (d_exchanges ds) es'.
(** Some property called 'consequential' is 1. *)
Definition consequential (e : exchange) : Prop :=
  Exists (fun p => p_name p = "consequential"%string /\ p_amount p = 1%Qc) (e_props e).
Global Instance consequential_dec e : Decision (consequential e).
Proof. unfold consequential. apply _. Defined.
