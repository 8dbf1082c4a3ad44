(** Specification for C108, from what the functions give without caches. *)
From stdpp Require Import gmap.
From Verif Require Import Base Types Topology Intersections Memo.

(** Nobody put anything into the object at [a]. *)
Definition untouched {W K V} (a : nat) (evs : list (event W K V)) : Prop := forall v, Changed a v ∉ evs.
(** The world stays as it is. *)
Definition steady {W K V} (evs : list (event W K V)) : Prop := forall w, Became w ∉ evs.
(** What was made so far was made in this state: some events lead to it. *)
Definition reached {W K V} `{EqDecision K} (f : W -> K -> result V) (maxsize : nat) (s : W * memo) : Prop :=
  exists w evs, (happens f maxsize (w, no_memo) evs).1 = s.

(** The answer without caches.  [subtract] can be left out, a list or a tuple. *)
Definition names_given (x : names) : option (list string) :=
  match x with NoNames => Some [] | ListOf l | TupleOf l => Some l | SetOf _ => None end.
Definition truth (w : world) (q : query) : result (answer q) :=
  match q with
  | Contained i location exclude_self subtract row =>
      match names_given subtract with
      | Some l => contained (i_data (w i)) location exclude_self l row
      | None => Err TypeError
      end
  | Contains i parent child subtract row =>
      match names_given subtract with
      | Some l => contains (i_data (w i)) parent child l row
      | None => Err TypeError
      end
  | Ordered i locations row => proxied_dependencies (i_proxy (w i)) (i_data (w i)) locations row
  end.
Fixpoint without_caches {A} (w : world) (p : prog A) : A :=
  match p with
  | Done a => a
  | Ask q k => without_caches w (k (truth w q))
  end.
