(** Specifications for C37: what market groups are supplied from. *)
From Verif Require Import Base Types Spec_Utils GroupUpdate Topology Spec_Topology Spec_Markets Spec_Consumers.

(** The places [found] from which a market group at [loc] is supplied: going
    from the larger to the smaller, every place in [loc] which shares no
    face with those found before.  A market group does not supply itself.  A RoW
    market supplies nothing but GLO, and that only if nothing was found before. *)
Definition inner_places (t : topo) (mlocs glocs : list string) (loc : string) (found : list string) : Prop :=
  exists order, larger_first t mlocs glocs order /\ sublist found order /\
    forall before c after, order = before ++ c :: after ->
      c ∈ found <-> (c ∈ mlocs \/ c <> loc) /\
        ((c <> "RoW"%string /\ exists f g, t !! loc = Some f /\ t !! c = Some g /\ g ⊆ f /\
            forall d h, d ∈ before -> d ∈ found -> d <> "RoW"%string -> t !! d = Some h -> g ## h) \/
         (c = "RoW"%string /\ loc = "GLO"%string /\ forall d, d ∈ before -> d ∉ found)).

Definition product_places (kind : dtype) (product : string) (data : list dataset) : list string :=
  map d_location (sellers kind product data).

(** In the order of their codes. *)
Definition code_before (a b : dataset) : Prop :=
  exists ca cb, d_code a = Some ca /\ d_code b = Some cb /\ str_leb ca cb = true.

Definition group_supplied (t : topo) (product : string) (data : list dataset) (loc : string)
    (l : list exchange) : Prop :=
  exists found ms, inner_places t (product_places MarketActivity product data)
                     (product_places MarketGroup product data) loc found /\
    Forall (fun m => exists c, c ∈ found /\ seller_at product data c m) ms /\
    map d_location ms ≡ₚ found /\ StronglySorted code_before ms /\ Forall2 supply_of ms l.

(** The last market group of a product at a location. *)
Definition last_there (product : string) (data : list dataset) (i : nat) (ds : dataset) : Prop :=
  last (filter (fun q : nat * dataset => d_type q.2 = MarketGroup /\ d_refprod q.2 = Some product /\
                  d_location q.2 = d_location ds) (indexed data)) = Some (i, ds).
Global Instance last_there_dec product data i ds : Decision (last_there product data i ds).
Proof. unfold last_there. apply _. Defined.

(** ** Paths *)

(** [sup a] are the places from which the group at [a] is supplied.  Through the
    groups [l] the group at [a] gets what the market at [m] sells. *)
Inductive route (sup : string -> list string) (mlocs : list string) (m : string)
  : string -> list string -> Prop :=
| route_direct a : m ∈ sup a -> route sup mlocs m a []
| route_through a b l : b ∈ sup a -> b ∉ mlocs -> route sup mlocs m b l ->
    route sup mlocs m a (b :: l).
