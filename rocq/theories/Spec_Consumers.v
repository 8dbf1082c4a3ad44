(** Specifications for C35 and C36: which markets an input comes from. *)
From Verif Require Import Base Types Spec_Utils Topology Spec_Topology Spec_Markets Spec_Mix.

(** ** The choice of places *)

(** [order] lists the candidate places once each, the larger before the
    smaller, and of equally large ones the later in the alphabet first. *)
Definition larger_first (t : topo) (mlocs glocs order : list string) : Prop :=
  NoDup order /\ (forall c, c ∈ order <-> c ∈ mlocs \/ c ∈ glocs) /\
  forall i j a b fa fb, (i < j)%nat -> order !! i = Some a -> order !! j = Some b ->
    area t mlocs a fa -> area t mlocs b fb ->
    (size fb < size fa)%nat \/ size fb = size fa /\ str_leb b a = true.

(** A RoW stands for something only if something is left over. *)
Definition proper (n : string) (f : faces) : Prop := n = "RoW"%string -> f <> ∅.

(** The places taken from [order] for a consumer [loc] with the area [f]: a place is
    taken if it lies in [f] and no place taken before it has a face in
    common with it; of a RoW taken before, nothing is known. *)
Definition taken_within (t : topo) (mlocs order : list string) (loc : string) (f : faces)
    (found : list string) : Prop :=
  sublist found order /\
  forall before c after, order = before ++ c :: after ->
    c ∈ found <-> exists g, area t mlocs c g /\ g ⊆ f /\ proper c g /\ proper loc f /\
      forall d h, d ∈ before -> d ∈ found -> d <> "RoW"%string -> t !! d = Some h -> g ## h.
(** The last of [order] around [f]. *)
Definition around (t : topo) (mlocs : list string) (c loc : string) (f : faces) : Prop :=
  exists g, area t mlocs c g /\ f ⊆ g /\ proper c g /\ proper loc f.
Definition smallest_around (t : topo) (mlocs order : list string) (loc : string) (f : faces)
    (found : list string) : Prop :=
  (exists before c after, order = before ++ c :: after /\ found = [c] /\ around t mlocs c loc f /\
     forall d, d ∈ after -> ~ around t mlocs d loc f) \/
  (found = [] /\ forall d, d ∈ order -> ~ around t mlocs d loc f).

Definition chosen_places (t : topo) (mlocs glocs : list string) (loc : string) (f : faces)
    (found : list string) : Prop :=
  exists order within, larger_first t mlocs glocs order /\ taken_within t mlocs order loc f within /\
    ((within <> [] /\ found = within) \/ (within = [] /\ smallest_around t mlocs order loc f found)).

(** ** The choice of markets *)
Definition sells (product : string) (m : dataset) : Prop :=
  (d_type m = MarketActivity \/ d_type m = MarketGroup) /\ d_refprod m = Some product.
Global Instance sells_dec product m : Decision (sells product m).
Proof. unfold sells. apply _. Defined.
Definition sellers (kind : dtype) (product : string) (data : list dataset) : list dataset :=
  filter (fun d => d_type d = kind /\ d_refprod d = Some product) data.
(** The market at a place is the last one there, and a market group only if
    there is no market. *)
Definition seller_at (product : string) (data : list dataset) (c : string) (m : dataset) : Prop :=
  last (filter (fun d => d_location d = c) (sellers MarketActivity product data)) = Some m \/
  (filter (fun d => d_location d = c) (sellers MarketActivity product data) = [] /\
   last (filter (fun d => d_location d = c) (sellers MarketGroup product data)) = Some m).

(** Datasets of the same activity, which leave the rest of the world. *)
Definition peer (ds d : dataset) : Prop :=
  d_name d = d_name ds /\
  d_type d = (if decide (d_type ds = Transforming) then Transforming else MarketActivity).
Global Instance peer_dec ds d : Decision (peer ds d).
Proof. unfold peer. apply _. Defined.
Definition consumer_area (t : topo) (data : list dataset) (ds : dataset) (f : faces) : Prop :=
  area t (map d_location (filter (peer ds) data)) (d_location ds) f.

Definition chosen_markets (t : topo) (data : list dataset) (ds : dataset) (product : string)
    (ms : list dataset) : Prop :=
  exists f found, consumer_area t data ds f /\
    chosen_places t (map d_location (sellers MarketActivity product data))
                    (map d_location (sellers MarketGroup product data)) (d_location ds) f found /\
    Forall2 (seller_at product data) found ms.

(** ** What becomes of an input *)
Definition open_exchange (e : exchange) : Prop :=
  e_type e = FromTechnosphere /\ (e_code e = None \/ e_code e = Some ""%string).
Definition market_volume (m : dataset) : Qc := default 0%Qc (output_volume m).
Definition part_of (e : exchange) (total : Qc) (m : dataset) (new : exchange) : Prop :=
  exists e', scaled_by (market_volume m / total) e e' /\ is_Some (d_code m) /\
    new = set_e_code (d_code m) (set_e_tag (Some "intermediateExchange"%string)
            (set_e_type FromTechnosphere e')).

(** [e] is replaced by [stays] where it is and by [new] at the end. *)
Definition linked_input (ms : list dataset) (e : exchange) (stays new : list exchange) : Prop :=
  let total := Qcsum (map market_volume ms) in
  match ms with
  | [] => stays = [e] /\ new = []
  | [m] => is_Some (d_code m) /\ stays = [set_e_code (d_code m) e] /\ new = []
  | _ => (total = 0%Qc /\ stays = [e] /\ new = []) \/
         (total <> 0%Qc /\ stays = [] /\
          Forall2 (part_of e total) (filter (fun m => market_volume m <> 0%Qc) ms) new)
  end.
Definition relinked (t : topo) (data : list dataset) (ds : dataset) (e : exchange)
    (r : list exchange * list exchange) : Prop :=
  (~ open_exchange e /\ r = ([e], [])) \/
  (open_exchange e /\ exists ms, chosen_markets t data ds (e_name e) ms /\ linked_input ms e r.1 r.2).

(** Every product with an open input has a market or market group. *)
Definition sold (data : list dataset) (product : string) : Prop :=
  Exists (sells product) data.

(** The demand for a product. *)
Definition demand (product : string) (es : list exchange) : Qc :=
  Qcsum (map e_amount (filter (fun e => e_type e = FromTechnosphere /\ e_name e = product) es)).

(** The dataset as a whole: inputs stay where they are, are given a code, or
    make place for new ones at the end; the list of suppliers may go. *)
Definition consumer_linked (t : topo) (data : list dataset) (ds ds' : dataset) : Prop :=
  exists rs s, Forall2 (relinked t data ds) (d_exchanges ds) rs /\
    ds' = set_d_suppliers s (set_d_exchanges (concat (map fst rs) ++ concat (map snd rs)) ds) /\
    (s = d_suppliers ds \/ s = None).

(** [row] is the argument by which a consumer in the rest of the world is
    told its area. *)
Definition consumer_row_fits (t : topo) (loc : string) (crow : option faces) (f : faces) : Prop :=
  (loc <> "RoW"%string /\ t !! loc = Some f /\ crow = None) \/ (loc = "RoW"%string /\ crow = Some f).
