(** Specifications for C32: which suppliers a market gets. *)
From Verif Require Import Base Types Spec_Utils Topology Spec_Topology.

(** What the named places of [locs] leave of the world. *)
Definition rest_of (t : topo) (locs : list string) (f : faces) : Prop :=
  forall x, x ∈ f <-> (exists g, t !! "GLO"%string = Some g /\ x ∈ g) /\ ~ covered t locs x.
(** Where [n] is; RoW is what the others of [locs] leave. *)
Definition area (t : topo) (locs : list string) (n : string) (f : faces) : Prop :=
  (n <> "RoW"%string /\ t !! n = Some f) \/ (n = "RoW"%string /\ rest_of t locs f).

(** The last of the suppliers with its name and location. *)
Definition effective (suppliers : list dataset) (sup : dataset) : Prop :=
  last (filter (fun d => d_name d = d_name sup /\ d_location d = d_location sup) suppliers) = Some sup.
(** The locations of the suppliers with this name. *)
Definition namesakes (suppliers : list dataset) (name : string) : list string :=
  map d_location (filter (fun d => d_name d = name) suppliers).

(** The supplier lies in [f]; an empty rest of the world lies nowhere. *)
Definition fits (t : topo) (suppliers : list dataset) (f : faces) (sup : dataset) : Prop :=
  exists g, area t (namesakes suppliers (d_name sup)) (d_location sup) g /\ g ⊆ f /\ f <> ∅ /\
    (d_location sup = "RoW"%string -> g <> ∅).

(** The reference product of the supplier, marked with where it comes from. *)
Definition supply_of (sup : dataset) (s : exchange) : Prop :=
  exists rp, filter is_refproduct (d_exchanges sup) = [rp] /\
    s = set_e_activity (Some (d_name sup)) (set_e_tech (Some (d_tech sup))
          (set_e_code (match d_code sup with Some c => Some c | None => e_code rp end)
            (set_e_location (Some (d_location sup)) rp))).

Definition origin (s : exchange) : option string * option string := (e_activity s, e_location s).

(** [l] is what a market at [loc] is supplied with, the markets of its product
    being at [mlocs]. *)
Definition supplied (t : topo) (mlocs : list string) (suppliers : list dataset) (loc : string)
    (l : list exchange) : Prop :=
  exists f, area t mlocs loc f /\ NoDup (map origin l) /\
    forall s, s ∈ l <-> exists sup, sup ∈ suppliers /\ effective suppliers sup /\
                                    fits t suppliers f sup /\ supply_of sup s.

(** No two of the markets share a face, and nobody is beside the world. *)
Definition partition (t : topo) (locs : list string) : Prop :=
  apart t locs /\ ("GLO"%string ∈ locs -> length locs = 1%nat).

(** Markets of the product without suppliers so far. *)
Definition waiting (kind : dtype) (product : string) (ds : dataset) : Prop :=
  d_type ds = kind /\ d_refprod ds = Some product /\
  (d_suppliers ds = None \/ d_suppliers ds = Some []).
Global Instance waiting_dec kind product ds : Decision (waiting kind product ds).
Proof. unfold waiting. apply _. Defined.
Definition makers (kind : dtype) (product : string) (data : list dataset) : list dataset :=
  filter (fun d => d_type d = kind /\ d_refprod d = Some product) data.
(** Where the markets of the product are. *)
Definition waiting_locations (kind : dtype) (product : string) (data : list dataset) : list string :=
  map d_location (filter (waiting kind product) data).
Definition market_locations (p : string) (data : list dataset) : list string :=
  map d_location (makers MarketActivity p data).
