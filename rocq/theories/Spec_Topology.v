(** What the claims about places are stated in. *)
From Verif Require Import Base Topology.

(** The faces a place occupies; [row] is the resolved rest of the world. *)
Inductive occupies (t : topo) (row : option faces) : place -> faces -> Prop :=
| occ_name n f : n <> "RoW"%string -> t !! n = Some f -> occupies t row (PName n) f
| occ_row r : row = Some r -> occupies t row (PName "RoW") r
| occ_faces f : occupies t row (PFaces f) f.

(** Some place of the list has this face; "RoW" has none here. *)
Definition covered (t : topo) (l : list string) (x : positive) : Prop :=
  exists n f, n ∈ l /\ n <> "RoW"%string /\ t !! n = Some f /\ x ∈ f.

Definition known (t : topo) (n : string) : Prop := n = "RoW"%string \/ is_Some (t !! n).

(** "GLO" has every face there is. *)
Definition glo_is_everything (t : topo) : Prop :=
  exists g, t !! "GLO"%string = Some g /\ forall n f, t !! n = Some f -> f ⊆ g.

(** Two different members of the group have no face in common. *)
Definition apart (t : topo) (group : list string) : Prop :=
  forall i j a b fa fb, i <> j -> group !! i = Some a -> group !! j = Some b ->
    a <> "RoW"%string -> b <> "RoW"%string ->
    t !! a = Some fa -> t !! b = Some fb -> fa ## fb.

(** [a] is larger than [b], or as large and later in the alphabet. *)
Definition before_in_order (t : topo) (row : option faces) (a b : string) : Prop :=
  exists fa fb, occupies t row (PName a) fa /\ occupies t row (PName b) fb /\
    ((size fb < size fa)%nat \/ size fb = size fa /\ str_leb b a = true).
