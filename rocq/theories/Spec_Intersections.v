(** Specification for C82. *)
From Verif Require Import Base Topology Spec_Topology.

(** Two places have a face in common. *)
Definition share (t : topo) (a b : string) : Prop :=
  exists fa fb x, t !! a = Some fa /\ t !! b = Some fb /\ x ∈ fa /\ x ∈ fb.

(** [a] weighs more than [b], or as much and is later in the alphabet. *)
Definition heavier (weight : faces -> Qc) (t : topo) (row : option faces) (a b : string) : Prop :=
  exists fa fb, occupies t row (PName a) fa /\ occupies t row (PName b) fb /\
    ((weight fb < weight fa)%Qc \/ weight fb = weight fa /\ str_leb b a = true).
