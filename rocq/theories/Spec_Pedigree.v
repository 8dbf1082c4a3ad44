(** Specification of the variance of a pedigree matrix and of what repair makes of an
    uncertainty description (C96, C97). *)
From Verif Require Import Base Types Spec_Uncertainty.

(** The published additional variances, in millionths, of the five scores of an indicator. *)
Definition published (version label : string) : list Z :=
  (if (version =? "original") then
     if (label =? "reliability") then [0; 600; 2000; 8000; 40000]
     else if (label =? "completeness") then [0; 100; 600; 2000; 8000]
     else if (label =? "temporal correlation") then [0; 200; 2000; 8000; 40000]
     else if (label =? "geographical correlation") then [0; 25; 100; 600; 2000]
     else if (label =? "further technological correlation") then [0; 600; 8000; 40000; 120000]
     else if (label =? "sample size") then [0; 98; 600; 2300; 8300]
     else []
   else if (version =? "Ciroth et al") then
     if (label =? "reliability") then [0; 47000; 57000; 69000; 69000]
     else if (label =? "completeness") then [0; 220; 380; 1500; 1500]
     else if (label =? "temporal correlation") then [0; 220; 2300; 7600; 16000]
     else if (label =? "geographical correlation") then [0; 220; 2300; 7600; 16000]
     else if (label =? "further technological correlation") then [0; 220; 2300; 7600; 16000]
     else if (label =? "sample size") then [0; 0; 0; 0; 0]
     else []
   else [])%string%Z.

(** Score [s] counts as the [k]-th: a score of five below counts from the end. *)
Definition counts_as (s : Z) (k : nat) : Prop :=
  (1 <= s <= 5 /\ s = Z.of_nat k \/ -4 <= s <= 0 /\ s + 5 = Z.of_nat k)%Z.

(** The variance of a matrix is the sum over its scores. *)
Inductive variance_of (version : string) : pedigree -> Qc -> Prop :=
  | variance_none : variance_of version [] 0%Qc
  | variance_score label s k m pm q :
      counts_as s k -> published version label !! (k - 1)%nat = Some m -> variance_of version pm q ->
      variance_of version ((label, s) :: pm) (frac m 1000000 + q)%Qc.

(** The variance kept for a lognormal distribution: values from one to e are taken for those
    before the logarithm was applied, larger ones are replaced by a default. *)
Definition kept_variance (ln : Qc -> Qc) (euler v v' : Qc) : Prop :=
  (v < 1 /\ v' = v \/ 1 <= v /\ v <= euler /\ v' = ln v \/ 1 <= v /\ euler < v /\ v' = frac 1 4)%Qc.

(** The bounds [lo] and [hi] are minimum and maximum, in increasing order. *)
Definition bounds_of (u : uncert) (lo hi : Qc) : Prop :=
  exists mn mx, u_min u = Some mn /\ u_max u = Some mx /\
    (mn <= mx /\ lo = mn /\ hi = mx \/ mx < mn /\ lo = mx /\ hi = mn)%Qc.
(** Close to the middle, by the tolerances of numpy. *)
Definition about_middle (a lo hi : Qc) : Prop :=
  let m := ((lo + hi) / (1 + 1))%Qc in
  (a - m <= frac 1 100000000 + frac 1 100000 * (if Qcltb m 0 then - m else m) /\
   m - a <= frac 1 100000000 + frac 1 100000 * (if Qcltb m 0 then - m else m))%Qc.

(** What repair makes of description [u] of amount [a] with pedigree matrix [ped]. *)
Definition repair_says (ln : Qc -> Qc) (euler a : Qc) (ped : option pedigree) (u : uncert) (u' : option uncert) : Prop :=
  match u_type u with
  | None | Some UUndefined => u' = Some u
  | Some ULognormal =>
      a = 0%Qc /\ u' = None \/
      a <> 0%Qc /\ exists total, u_vwpu u = Some total /\
        (total = 0%Qc /\ u' = None \/
         total <> 0%Qc /\ exists pv v, variance_of "original" (default [] ped) pv /\ kept_variance ln euler (total - pv) v /\
           u' = Some (mkUncert (u_type u) (u_min u) (u_max u) (u_mode u) (Some (Qcabs a)) (Some (ln (Qcabs a)))
                        (Some v) (Some (v + pv)%Qc) (u_sd95 u) (Some (Qcltb a 0)) (u_pedigree u)))
  | Some UNormal =>
      exists total, u_vwpu u = Some total /\
        (total = 0%Qc /\ u' = None \/
         total <> 0%Qc /\
           u' = Some (mkUncert (u_type u) (u_min u) (u_max u) (u_mode u) (Some a) (u_mu u)
                        (u_variance u) (u_vwpu u) (u_sd95 u) (u_negative u) (u_pedigree u)))
  | Some UTriangular =>
      exists lo hi, bounds_of u lo hi /\
        ((lo = hi \/ a < lo \/ hi < a)%Qc /\ u' = None \/
         (lo < hi /\ lo <= a /\ a <= hi)%Qc /\
           u' = Some (mkUncert (u_type u) (Some lo) (Some hi) (Some a) (u_mean u) (u_mu u)
                        (u_variance u) (u_vwpu u) (u_sd95 u) (u_negative u) (u_pedigree u)))
  | Some UUniform =>
      exists lo hi, bounds_of u lo hi /\ (lo <= a /\ a <= hi)%Qc /\
        (lo = hi /\ u' = None \/
         lo <> hi /\ exists t md, (about_middle a lo hi /\ t = UUniform /\ md = u_mode u \/
                                   ~ about_middle a lo hi /\ t = UTriangular /\ md = Some a) /\
           u' = Some (mkUncert (Some t) (Some lo) (Some hi) md (u_mean u) (u_mu u)
                        (u_variance u) (u_vwpu u) (u_sd95 u) (u_negative u) (u_pedigree u)))
  | Some (UOther _) => False
  end.
Definition repair_says_opt ln euler (a : Qc) (ped : option pedigree) (u u' : option uncert) : Prop :=
  match u with None => u' = None | Some u => repair_says ln euler a ped u u' end.

(** A dataset and what repair makes of it: the descriptions, place by place, and nothing else. *)
Definition exchange_repaired ln euler (e e' : exchange) : Prop :=
  strip_exchange e' = strip_exchange e /\ repair_says_opt ln euler (e_amount e) (e_ped e) (e_unc e) (e_unc e') /\
  match e_pv e, e_pv e' with
  | Some v, Some v' => repair_says_opt ln euler (v_amount v) None (v_unc v) (v_unc v')
  | None, None => True
  | _, _ => False
  end /\
  Forall2 (fun p p' => repair_says_opt ln euler (p_amount p) None (p_unc p) (p_unc p')) (e_props e) (e_props e').
Definition dataset_repaired ln euler (ds ds' : dataset) : Prop :=
  strip_dataset ds' = strip_dataset ds /\
  Forall2 (exchange_repaired ln euler) (d_exchanges ds) (d_exchanges ds') /\
  Forall2 (fun q q' => repair_says_opt ln euler (q_amount q) None (q_unc q) (q_unc q')) (d_params ds) (d_params ds').
