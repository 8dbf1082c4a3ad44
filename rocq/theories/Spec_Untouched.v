(** Specification for C62: what linking leaves alone. *)
From Verif Require Import Base Types.

(** The exchanges other than inputs from technosphere, without codes and volumes. *)
Definition others (ds : dataset) : list exchange :=
  map (fun e => set_e_code None (set_e_pv None e))
    (filter (fun e => e_type e <> FromTechnosphere) (d_exchanges ds)).

(** Everything but exchanges and what linking labels datasets with. *)
Definition frame (ds : dataset) : dataset :=
  set_d_exchanges [] (set_d_suppliers None (set_d_code None (set_d_refprod None (set_d_location "" ds)))).

(** [d'] is [d] after linking. *)
Definition linked_from (d d' : dataset) : Prop :=
  frame d' = frame d /\ others d' = others d /\
  (d_location d' = d_location d \/
   (d_location d = "GLO" /\ d_location d' = "RoW") \/
   (d_location d = "RER w/o DE+NL+NO" /\ d_location d' = "RER w/o DE+NL+NO+RU"))%string.

(** Made at a place of its own, neither everywhere nor in the rest of the world. *)
Definition local (ds : dataset) : Prop := d_location ds <> "GLO"%string /\ d_location ds <> "RoW"%string.
Global Instance local_dec ds : Decision (local ds).
Proof. unfold local. apply _. Defined.
