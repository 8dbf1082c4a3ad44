(** Specification for C80: what is handed over for sampling. *)
From Verif Require Import Base Types Uncertainty Sampling.

(** The description [s] is centred on the amount: on its logarithm for the lognormal
    distribution, which has a sign of its own. *)
Definition centred (ln : Qc -> Qc) (s : sampled) : Prop :=
  match s_class s with
  | CNone | CUndefined | CNormal => s_loc s = Some (s_amount s)
  | CLognormal => s_amount s <> 0%Qc /\ s_loc s = Some (ln (Qcabs (s_amount s))) /\
                  exists b, s_negative s = Some b /\ (b = true <-> (s_amount s < 0)%Qc)
  | CTriangular => s_loc s = Some (s_amount s) /\ exists lo hi, s_minimum s = Some lo /\ s_maximum s = Some hi /\
                   (lo < hi)%Qc /\ (lo <= s_amount s)%Qc /\ (s_amount s <= hi)%Qc
  | CUniform => exists lo hi, s_minimum s = Some lo /\ s_maximum s = Some hi /\
                   (lo < hi)%Qc /\ (lo <= s_amount s)%Qc /\ (s_amount s <= hi)%Qc
  end.

(** The bounds times [f], in increasing order. *)
Definition bounds_times (f : Qc) (s s' : sampled) : Prop :=
  exists lo hi, s_minimum s = Some lo /\ s_maximum s = Some hi /\
    ((0 < f)%Qc -> s_minimum s' = Some (lo * f)%Qc /\ s_maximum s' = Some (hi * f)%Qc) /\
    ((f < 0)%Qc -> s_minimum s' = Some (hi * f)%Qc /\ s_maximum s' = Some (lo * f)%Qc).

(** [s'] describes [f] times what [s] describes.  The width of a lognormal distribution is
    relative to its centre; that of a normal distribution is not. *)
Definition sampled_times (ln : Qc -> Qc) (f : Qc) (s s' : sampled) : Prop :=
  s_amount s' = (s_amount s * f)%Qc /\
  match s_class s with
  | CNone | CUndefined => s_class s' = s_class s /\ exists l, s_loc s = Some l /\ s_loc s' = Some (l * f)%Qc
  | CLognormal => s_class s' = CLognormal /\ s_loc s' = Some (ln (Qcabs (s_amount s * f))) /\ s_scale s' = s_scale s /\
                  exists b, s_negative s' = Some b /\ (b = true <-> (s_amount s * f < 0)%Qc)
  | CNormal => s_class s' = CNormal /\ exists l w, s_loc s = Some l /\ s_loc s' = Some (l * f)%Qc /\
                  s_scale s = Some w /\ s_scale s' = Some (w * Qcabs f)%Qc
  | CTriangular => s_class s' = CTriangular /\ bounds_times f s s' /\ s_loc s' = Some (s_amount s * f)%Qc
  | CUniform => bounds_times f s s' /\
                ((s_class s' = CUniform /\ s_loc s' = None) \/ (s_class s' = CTriangular /\ s_loc s' = Some (s_amount s * f)%Qc))
  end.
