(** Specification of what model runs leave on the disk (C98). *)
From stdpp Require Import gmap.
From Verif Require Import Base Types Runner Spec_Runner Outputs.

Section spec.
Context {A : Type}.
Context (fs : list (func A)) (data : list A) (save : Z -> bool) (follow : option (A -> bool)).

(** The data that belong into a file: those after all functions, after the numbered one, and
    the datasets followed. *)
Definition belongs (f : file) (d : list A) : Prop :=
  match f with
  | Final => exists tr, steps fs data tr d
  | Intermediate i n => save (Z.of_nat i) = true /\
      exists g tr, fs !! i = Some g /\ n = name_of g /\ steps (take (S i) fs) data tr d
  | Followed i => exists p tr d', follow = Some p /\ is_Some (fs !! i) /\ steps (take (S i) fs) data tr d' /\
      d = filterb p d' /\ d <> []
  end.
End spec.

(** Files as saved by completed steps. *)
Definition saved_files {A} (save : Z -> bool) (follow : option (A -> bool)) (tr : list (step A)) : list (file * content A) :=
  map (fun x => (match x.1 with Some (i, n) => Intermediate i n | None => Final end, Whole x.2)) (saved save 0 tr) ++
  map (fun x => (Followed x.1, Whole x.2)) (followed follow 0 tr).

(** The file is one for the function with number [i]. *)
Definition of_step (i : nat) (f : file) : Prop := match f with Intermediate j _ | Followed j => j = i | Final => False end.
