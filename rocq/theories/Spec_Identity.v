(** What an activity code is computed from (C07). *)
From Verif Require Import Base Types.

(** The six texts that identify an activity, the case of letters aside. *)
Definition identity (low : string -> string) (d : dataset) : list string :=
  map low [d_name d; default "" (d_refprod d); default "" (d_unit d); d_location d; d_start d; d_end d].
