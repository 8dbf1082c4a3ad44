(** Specifications for C70 and C71: passes before linking that go by lists of names, and
    splitting by number of reference products. *)
From Verif Require Import Base Types Spec_Utils.

(** Global markets that are deleted. *)
Definition withdrawn_markets : list string :=
  ["market for heat, diffusion absorption heat pump";
   "market for heat, solar+electric, multiple-dwelling, for hot water";
   "market for heat, solar+gas, multiple-dwelling, for hot water";
   "market for heat, solar+gas, one-family house, for combined system";
   "market for heat, solar+gas, one-family house, for hot water";
   "market for heat, solar+wood, one-family house, for combined system";
   "market for nitro-compound"; "market for petrol, 85% ethanol by volume from biomass";
   "market for refinery gas"; "market for spent oxychlor catalyst for ethylene dichloride production";
   "market for waste emulsion paint, on wall"]%string.
Definition withdrawn (ds : dataset) : Prop :=
  d_type ds = MarketActivity /\ d_name ds ∈ withdrawn_markets /\ d_location ds = "GLO"%string.
Global Instance withdrawn_dec ds : Decision (withdrawn ds).
Proof. unfold withdrawn. apply _. Defined.

(** Activities whose volumes are not known. *)
Definition secret_activities : list string :=
  ["anthraquinone"; "burnt shale"; "carboxymethyl cellulose"; "citric acid"; "esters of versatic acid"; "feldspar"; "latex";
   "layered sodium silicate"; "particle board"; "polycarboxylates"; "sodium perborate"; "sodium perborate";
   "sodium percarbonate"; "wood wool boards"; "zeolite"; "zeolite"]%string.
Definition secret_kinds : list string :=
  [""; ""; ", powder"; ""; ""; ""; ""; ", SKS-6, powder"; ", cement bonded"; ", 40% active substance"; ", monohydrate, powder";
   ", tetrahydrate, powder"; ", powder"; ", cement bonded"; ", powder";
   ", slurry, without water, in 50% solution state"]%string.
Definition secret (ds : dataset) : Prop :=
  d_type ds = Transforming /\
  d_name ds ∈ zip_with (fun a k => a ++ " production" ++ k)%string secret_activities secret_kinds.
Global Instance secret_dec ds : Decision (secret ds).
Proof. unfold secret. apply _. Defined.
(** The dataset has a single reference product; the amount of its volume is set to one. *)
Definition equalled (ds ds' : dataset) : Prop :=
  exists pre rp v post, d_exchanges ds = pre ++ rp :: post /\ is_refproduct rp /\
    Forall (fun e => ~ is_refproduct e) (pre ++ post) /\ e_pv rp = Some v /\
    ds' = set_d_exchanges (pre ++ set_e_pv (Some (set_v_amount 1%Qc v)) rp :: post) ds.

Definition misplaced (ds : dataset) : Prop :=
  d_type ds = Transforming /\ d_name ds = "transport, pipeline, long distance, natural gas"%string /\
  d_location ds = "RER w/o DE+NL+NO"%string.
Global Instance misplaced_dec ds : Decision (misplaced ds).
Proof. unfold misplaced. apply _. Defined.

Definition n_refproducts (ds : dataset) : nat := List.length (filter is_refproduct (d_exchanges ds)).
