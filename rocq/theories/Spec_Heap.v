(** When objects stand for values, and when a program on objects does what a function on
    values says. *)
From stdpp Require Import gmap.
From Verif Require Import Base Types Heap.

(** All addresses in use are below the next one. *)
Definition wf (h : heap) : Prop := forall x, is_Some (cells h !! x) -> (x < next h)%nat.
Definition holds (h : heap) (x : nat) (e : exchange) : Prop := cells h !! x = Some (Exc e).
(** The object at [a] is the dataset [ds]; it and its exchanges are the objects [F]. *)
Definition stands (h : heap) (F : list nat) (a : nat) (ds : dataset) : Prop :=
  exists exs, F = a :: exs /\ cells h !! a = Some (Dat (set_d_exchanges [] ds) exs) /\
    Forall2 (holds h) exs (d_exchanges ds).
(** A list of datasets that share no object, within and among each other. *)
Definition separate (h : heap) (Fs : list (list nat)) (xs : list nat) (dss : list dataset) : Prop :=
  Forall3 (stands h) Fs xs dss /\ NoDup (concat Fs).
(** Of the objects below [n] only those in [F] may be different. *)
Definition only (n : nat) (F : list nat) (h h' : heap) : Prop :=
  wf h' /\ (next h <= next h')%nat /\ forall x, (x < n)%nat -> x ∉ F -> cells h' !! x = cells h !! x.

(** The program ends as the function says, with a value related to its value, and with
    changes to the objects [F] and to new ones only. *)
Definition does {A B} (n : nat) (F : list nat) (m : M A) (v : result B) (R : heap -> A -> B -> Prop) (h : heap) : Prop :=
  exists r h', m h = (r, h') /\ only n F h h' /\
    match v with
    | Ok b => exists a, r = Ok a /\ R h' a b
    | Err e => r = Err e
    end.
(** Datasets that share nothing and consist of objects of [F] and new ones. *)
Definition results (n : nat) (F : list nat) (h : heap) (xs : list nat) (dss : list dataset) : Prop :=
  exists Fs, separate h Fs xs dss /\ forall x, x ∈ concat Fs -> x ∈ F \/ (n <= x)%nat.

(** A program that makes datasets out of one, perhaps using up its objects, ... *)
Definition refines (G : nat -> M (list nat)) (g : dataset -> result (list dataset)) : Prop :=
  forall h F a ds, wf h -> stands h F a ds -> NoDup F ->
    does (next h) F (G a) (g ds) (results (next h) F) h.
(** ... and one that leaves all objects as they are and gives new ones. *)
Definition copies (G : nat -> M (list nat)) (g : dataset -> result (list dataset)) : Prop :=
  forall h F a ds, wf h -> stands h F a ds -> NoDup F ->
    does (next h) [] (G a) (g ds) (results (next h) []) h.

(** Recalculation keeps the number of exchanges. *)
Definition same_length (recalc : dataset -> result dataset) : Prop :=
  forall ds ds', recalc ds = Ok ds' -> length (d_exchanges ds') = length (d_exchanges ds).
(** What a pass over the exchanges does to values. *)
Definition on_exchanges (f : dataset -> exchange -> result exchange) (ds : dataset) : result dataset :=
  let? es := mapR (f (set_d_exchanges [] ds)) (d_exchanges ds) in Ok (set_d_exchanges es ds).
(** Nothing there yet. *)
Definition nothing : heap := Heap ∅ 0.
