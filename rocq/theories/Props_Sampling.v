(** Property theorems C80 (what is handed over for sampling). *)
From Verif Require Import Base Types Uncertainty Spec_Uncertainty Uncertainty_proofs Sampling Spec_Sampling Sampling_proofs.

(** ** C80 The distribution that is sampled is centred on the amount *)

(** After the repair of uncertainty distributions. *)
Theorem C80_centred : forall ln euler sqrt o o' s,
  repair ln euler o = Ok o' -> to_stats_arrays sqrt o' = Ok s -> s_amount s = o_amount o /\ centred ln s.
Proof.
  intros ln euler sqrt o o' s H HS. split; [|by eapply repaired_sampled]. apply sampled_spec in HS as [-> _].
  by destruct (repair_frame _ _ _ _ H).
Qed.
Print Assumptions C80_centred.

(** Sampling is then possible if and only if the total variance is not negative. *)
Theorem C80_possible : forall ln euler sqrt o o', repair ln euler o = Ok o' ->
  (exists s, to_stats_arrays sqrt o' = Ok s) <->
  (forall u, o_unc o' = Some u -> u_type u = Some ULognormal \/ u_type u = Some UNormal -> exists v, u_vwpu u = Some v /\ (0 <= v)%Qc).
Proof. exact repaired_total. Qed.
Print Assumptions C80_possible.

(** Rescaling by [f] rescales what is sampled by [f], except for normal distributions. *)
Theorem C80_scaled : forall ln sqrt f a u ped o' s, f <> 0%Qc -> wf_dist ln a u -> (forall x, u = Some x -> u_type x <> Some UNormal) ->
  to_stats_arrays sqrt (mkUobj a u ped) = Ok s -> scale_obj ln (mkUobj a u ped) f = Ok o' ->
  exists s', to_stats_arrays sqrt o' = Ok s' /\ sampled_times ln f s s'.
Proof. exact scaled_sampled. Qed.
Print Assumptions C80_scaled.

(** After any number of rescalings what is sampled is still centred on the amount, and
    the relative width of a lognormal distribution is what it was. *)
Theorem C80_rescaled_often : forall ln sqrt fs o s0, Forall (fun f => f <> 0%Qc) fs -> wf_dist ln (o_amount o) (o_unc o) ->
  (forall x, o_unc o = Some x -> u_type x <> Some UNormal) -> to_stats_arrays sqrt o = Ok s0 ->
  exists o' s, foldR (scale_obj ln) o fs = Ok o' /\ to_stats_arrays sqrt o' = Ok s /\ centred ln s /\
    s_amount s = (o_amount o * foldr Qcmult 1 fs)%Qc /\ (s_class s0 = CLognormal -> s_scale s = s_scale s0).
Proof. exact chain_wf. Qed.
Print Assumptions C80_rescaled_often.

(** A normal distribution is sampled as before: only the amount changes. *)
Theorem C80_normal : forall ln sqrt f a u ped o' s, f <> 0%Qc -> u_type u = Some UNormal ->
  to_stats_arrays sqrt (mkUobj a (Some u) ped) = Ok s -> scale_obj ln (mkUobj a (Some u) ped) f = Ok o' ->
  exists s', to_stats_arrays sqrt o' = Ok s' /\ s_amount s' = (a * f)%Qc /\ s_loc s' = s_loc s /\ s_scale s' = s_scale s.
Proof. exact normal_sampled_same. Qed.
Print Assumptions C80_normal.

(** Examples: minus two, lognormal, rescaled by minus three; four between one and seven. *)
Definition ex_ln (x : Qc) : Qc := (x - 1)%Qc.
Definition ex_sqrt (x : Qc) : Qc := (x / Qcint 2)%Qc.
Definition ex_lognormal : uobj := mkUobj (Qcint (-2)) (Some (set_u_type (Some ULognormal) (set_u_mean (Some (Qcint 9))
  (set_u_mu (Some (Qcint 7)) (set_u_vwpu (Some (frac 1 5)) uncert0))))) None.
Definition ex_uniform : uobj := mkUobj (Qcint 4) (Some (set_u_type (Some UUniform) (set_u_min (Some (Qcint 1))
  (set_u_max (Some (Qcint 7)) uncert0)))) None.
Definition ex_normal : uobj := mkUobj (Qcint 2) (Some (set_u_type (Some UNormal) (set_u_mean (Some (Qcint 2))
  (set_u_variance (Some (Qcint 1)) (set_u_vwpu (Some (Qcint 4)) uncert0))))) None.
Definition facts (s : sampled) := (s_amount s, (s_loc s, s_scale s), (s_minimum s, s_maximum s), s_negative s).
Example C80_nonvacuous :
  fmapR facts (let? o := repair ex_ln (Qcint 3) ex_lognormal in to_stats_arrays ex_sqrt o)
  = Ok (Qcint (-2), (Some (Qcint 1), Some (frac 1 10)), (None, None), Some true) /\
  fmapR facts (let? o := repair ex_ln (Qcint 3) ex_lognormal in let? o := scale_obj ex_ln o (Qcint (-3)) in to_stats_arrays ex_sqrt o)
  = Ok (Qcint 6, (Some (Qcint 5), Some (frac 1 10)), (None, None), Some false) /\
  fmapR facts (let? o := repair ex_ln (Qcint 3) ex_uniform in let? o := scale_obj ex_ln o (Qcint (-3)) in to_stats_arrays ex_sqrt o)
  = Ok (Qcint (-12), (None, None), (Some (Qcint (-21)), Some (Qcint (-3))), None).
Proof. by_compute. Qed.
Example C80_rescaled_often_nonvacuous :
  match repair ex_ln (Qcint 3) ex_lognormal with
  | Ok o => wf_dist ex_ln (o_amount o) (o_unc o) /\ is_ok (to_stats_arrays ex_sqrt o) = true
  | Err _ => False
  end.
Proof.
  destruct (repair ex_ln (Qcint 3) ex_lognormal) as [o|x] eqn:E; [|by vm_compute in E].
  apply repair_repaired in E as H. vm_compute in E. apply Ok_inj in E as <-. split; [exact H|by vm_compute].
Qed.

(** The description of a normal distribution is not rescaled. *)
Theorem C80_normal_refuted : exists ln euler sqrt o0 o o' s s',
  repair ln euler o0 = Ok o /\ wf_dist ln (o_amount o) (o_unc o) /\ scale_obj ln o (Qcint 3) = Ok o' /\
  to_stats_arrays sqrt o = Ok s /\ to_stats_arrays sqrt o' = Ok s' /\ ~ sampled_times ln (Qcint 3) s s' /\ ~ centred ln s'.
Proof.
  exists ex_ln, (Qcint 3), ex_sqrt, ex_normal. do 4 eexists. split; [vm_compute; reflexivity|].
  split; [vm_compute; by repeat eexists|]. split; [vm_compute; reflexivity|]. split; [vm_compute; reflexivity|]. split; [vm_compute; reflexivity|].
  split.
  - intros [_ (_ & l & w & Hl & Hl' & _)]. injection Hl as <-. vm_compute in Hl'. done.
  - intros H. vm_compute in H. done.
Qed.
Print Assumptions C80_normal_refuted.

(** Repaired distributions can have negative variances: sampling them raises. *)
Theorem C80_possible_refuted : exists ln euler sqrt o o',
  repair ln euler o = Ok o' /\ to_stats_arrays sqrt o' = Err ValueError.
Proof.
  exists ex_ln, (Qcint 3), ex_sqrt, (mkUobj (Qcint 2) (Some (set_u_type (Some ULognormal) (set_u_vwpu (Some (frac (-1) 5)) uncert0))) None).
  eexists. split; vm_compute; reflexivity.
Qed.
Print Assumptions C80_possible_refuted.
