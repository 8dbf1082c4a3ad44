(** When two computations end alike: with the same value, or both with an exception. *)
From Verif Require Import Base.

Definition same_outcome {A} (r r' : result A) : Prop :=
  match r, r' with
  | Ok a, Ok a' => a = a'
  | Err _, Err _ => True
  | _, _ => False
  end.
