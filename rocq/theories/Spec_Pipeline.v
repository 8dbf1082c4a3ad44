(** Specifications for C63-C66: whole system models. *)
From Verif Require Import Base Types Spec_Uncertainty Spec_Utils Spec_Waste Spec_Untouched.

(** Where a dataset comes from. *)
Definition origin (ds : dataset) : string * string * string * string * string :=
  (d_id ds, d_filepath ds, d_tech ds, d_start ds, d_end ds).

(** Exchanges with the environment. *)
Definition elementary (e : exchange) : Prop := e_type e = FromEnvironment \/ e_type e = ToEnvironment.
Definition flow (e : exchange) : string * etype * option string * option string :=
  (e_name e, e_type e, e_compartment e, e_subcompartment e).

(** Amount one or minus one, up to 1e-14. *)
Definition unit_amount (a : Qc) : Prop :=
  a = 1%Qc \/ a = (- (1))%Qc \/ (a <> 0%Qc /\ Qcabs (1 / Qcabs a - 1) <= frac 1 100000000000000)%Qc.

(** Data as they are extracted: nothing is linked yet. *)
Definition raw (data : list dataset) : Prop :=
  Forall (fun ds => d_suppliers ds = None /\ Forall (fun e => e_code e = None) (d_exchanges ds)) data.

(** One reference product, of amount one or minus one, positive in markets other than
    markets for waste; no output left that is neither product nor emission. *)
Definition finished_dataset (ds : dataset) : Prop :=
  exists rp, filter is_refproduct (d_exchanges ds) = [rp] /\ unit_amount (e_amount rp) /\
    (d_type ds = MarketActivity -> e_class rp <> Some Waste -> (0 < e_amount rp)%Qc) /\
    Forall (fun e => ~ nonalloc_byproduct e) (d_exchanges ds).

(** The dataset and everything in it but inputs from technosphere come from one and the
    same dataset of [data]; flows from and to the environment are what they were there. *)
Definition comes_from (data : list dataset) (ds : dataset) : Prop :=
  exists d0, d0 ∈ data /\ origin ds = origin d0 /\
    forall e, e ∈ d_exchanges ds -> e_type e <> FromTechnosphere ->
      exists e0, e0 ∈ d_exchanges d0 /\ e_id e = e_id e0 /\ e_unit e = e_unit e0 /\
        (elementary e -> e_type e = e_type e0 /\ e_compartment e = e_compartment e0 /\
           e_subcompartment e = e_subcompartment e0 /\
           ((forall a, e_name e0 <> (a ++ marker)%string) -> e_name e = e_name e0)).
