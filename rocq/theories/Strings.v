(** Python string operations on Coq strings (bytes). *)
From Verif Require Import Base.

(** [s.startswith(p)]. *)
Fixpoint str_startswith (p s : string) : bool :=
  match p, s with
  | EmptyString, _ => true
  | String a p, String b s => Ascii.eqb a b && str_startswith p s
  | String _ _, EmptyString => false
  end.

(** [s.endswith(suffix)]. *)
Fixpoint str_endswith (suffix s : string) : bool :=
  (s =? suffix)%string ||
  match s with
  | EmptyString => false
  | String _ s => str_endswith suffix s
  end.

(** [s.replace(old, new)] for non-empty [old]: left to right, occurrences do
    not overlap.  [skip] characters still belong to the last occurrence. *)
Fixpoint replace_from (old new : string) (skip : nat) (s : string) : string :=
  match s with
  | EmptyString => EmptyString
  | String c s' =>
      match skip with
      | S skip => replace_from old new skip s'
      | O => if str_startswith old s
             then (new ++ replace_from old new (String.length old - 1) s')%string
             else String c (replace_from old new 0 s')
      end
  end.
Definition str_replace (old new s : string) : string := replace_from old new 0 s.

(** [old in s]. *)
Fixpoint str_contains (old s : string) : bool :=
  str_startswith old s ||
  match s with
  | EmptyString => false
  | String _ s => str_contains old s
  end.
