(** When repairing twice is repairing once (C03). *)
From Verif Require Import Base Types Uncertainty Spec_Uncertainty Uncertainty_proofs Spec_Repair Repair2_proofs Props_Uncertainty.

(** A second repair changes nothing, unless the first took the logarithm of a variance and
    that is one or more, or is cancelled by the variance of the pedigree matrix. *)
Theorem C03_repair_twice : forall ln euler o o', (1 <= euler)%Qc -> (forall x, ln x <> x) -> repair ln euler o = Ok o' ->
  repair ln euler o' = Ok o' <-> (forall v pv, in_window euler o v pv -> ln v < 1 /\ ln v + pv <> 0)%Qc.
Proof. exact repair_twice. Qed.
Print Assumptions C03_repair_twice.

(** With x - 1 for the logarithm: a variance of 3/2 is repaired once and for all, a variance
    of 1 is not. *)
Definition ex_window (v : Qc) : uobj :=
  mkUobj (Qcint 2) (Some (set_u_type (Some ULognormal) (set_u_vwpu (Some v) uncert0))) None.
Definition ex_less (x : Qc) : Qc := (x - 1)%Qc.
Example C03_twice_nonvacuous : (forall x, ex_less x <> x) /\
  in_window (Qcint 2) (ex_window (frac 3 2)) (frac 3 2) 0 /\ in_window (Qcint 2) (ex_window 1) 1 0 /\
  (exists o, repair ex_less (Qcint 2) (ex_window (frac 3 2)) = Ok o /\ repair ex_less (Qcint 2) o = Ok o /\
     option_map u_variance (o_unc o) = Some (Some (frac 1 2))) /\
  exists o, repair ex_less (Qcint 2) (ex_window 1) = Ok o /\ repair ex_less (Qcint 2) o <> Ok o.
Proof.
  split; [unfold ex_less; intros x E; qclra|]. split; [eexists; repeat split; by_compute|]. split; [eexists; repeat split; by_compute|].
  split; eexists; (split; [by vm_compute|]).
  - split; by_compute.
  - intros E. apply Ok_inj in E. by apply (f_equal o_unc) in E.
Qed.
