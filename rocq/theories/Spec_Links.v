(** Specifications for C38 and C41: which exchanges get which code. *)
From Verif Require Import Base Types StringFacts Spec_Utils.

(** A link to the dataset id [i]. *)
Definition links_to (e : exchange) (i : string) : Prop := e_link e = Some i /\ i <> ""%string.
Global Instance links_to_dec e i : Decision (links_to e i).
Proof. unfold links_to. apply _. Defined.

(** The datasets with the linked id whose reference product is exchanged. *)
Definition targets (data : list dataset) (e : exchange) : list dataset :=
  filter (fun ds => links_to e (d_id ds) /\ d_refprod ds = Some (e_name e)) data.

(** The code of the only target; an exchange without link, without target or
    with several is kept. *)
Definition coded_by (candidates : list dataset) (e e' : exchange) : Prop :=
  match candidates with
  | [ds] => is_Some (d_code ds) /\ e' = set_e_code (d_code ds) e
  | _ => e' = e
  end.

(** [ds'] is [ds] with its exchanges changed one by one. *)
Definition exchanges_by (R : exchange -> exchange -> Prop) (ds ds' : dataset) : Prop :=
  exists es, ds' = set_d_exchanges es ds /\ Forall2 R (d_exchanges ds) es.

Definition dangling (data : list dataset) (i : string) : Prop :=
  (exists ds e, ds ∈ data /\ e ∈ d_exchanges ds /\ links_to e i) /\
  forall ds, ds ∈ data -> d_id ds <> i.

(** Inputs which have no code, or an empty one. *)
Definition open_input (e : exchange) : Prop :=
  e_type e = FromTechnosphere /\ (e_code e = None \/ e_code e = Some ""%string).
Global Instance open_input_dec e : Decision (open_input e).
Proof. unfold open_input. apply _. Defined.

Definition recycled_producers (marker : string) (data : list dataset) (e : exchange) : list dataset :=
  filter (fun ds => d_type ds = Transforming /\ d_refprod ds = Some (e_name e) /\
                    open_input e /\ occurs marker (e_name e)) data.

(** [ds'] is [ds] with the code [c] on its only reference product. *)
Definition product_coded (ds ds' : dataset) : Prop :=
  exists c rp before after, d_code ds = Some c /\ d_exchanges ds = before ++ rp :: after /\
    is_refproduct rp /\ Forall (fun e => ~ is_refproduct e) (before ++ after) /\
    ds' = set_d_exchanges (before ++ set_e_code (Some c) rp :: after) ds.
