(** Specification for C81. *)
From Verif Require Import Base.

(** [i] is the index of the item between [l1] and [l2], counted from the beginning or
    from the end. *)
Definition at_index {T} (i : Z) (l1 l2 : list T) : Prop := (i = Z.of_nat (length l1) \/ i = - Z.of_nat (S (length l2)))%Z.
