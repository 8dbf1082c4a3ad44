(** Specifications for C75: all corrections of parameters together. *)
From Coq Require Import Ascii.
From Verif Require Import Base Types Uncertainty Utils Strings Recalculation Formulas Spec_Uncertainty Spec_Parameters Spec_References
  Spec_Math Spec_Known.

(** A dataset without variables, formulas and uncertainties. *)
Definition bare (ds : dataset) : dataset := unnamed (strip_dataset ds).
(** Without refinery gas that does not flow, if it is the refinery. *)
Definition without_idle_gas (ds : dataset) : dataset :=
  if decide (d_name ds = "petroleum refinery operation"%string)
  then set_d_exchanges (filter (fun e => ~ idle_gas e) (d_exchanges ds)) ds else ds.

(** A variable in lower case; a reserved word in capitals. *)
Definition final_variable (v : string) : string :=
  if decide (lower v ∈ RESERVED_WORDS) then upper (lower v) else lower v.

(** A formula with nothing to correct. *)
Definition begins_with (w : string) (f : string) : Prop :=
  exists c post, chars f = chars w ++ c :: post /\ letter c = false.
Definition good_formula (parses : string -> bool) (f : string) : Prop :=
  quote ∉ chars f /\ lower f = f /\ plain_text (chars f) /\ parses f = true /\
  forall w, w ∈ RESERVED_WORDS -> ~ begins_with w f.
