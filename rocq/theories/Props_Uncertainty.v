(** Property theorems C01-C04 (uncertainty distributions). *)
From Verif Require Import Base Types Uncertainty Spec_Uncertainty Uncertainty_proofs.

(** ** C01 Rescaling an exchange is multiplication and nothing else *)
Theorem C01_scale_amount_and_frame :
  forall ln e f e', scale_exchange ln e f = Ok e' ->
    e_amount e' = (e_amount e * f)%Qc /\ same_besides_amount_uncertainty e e'.
Proof. exact scale_exchange_spec. Qed.
Print Assumptions C01_scale_amount_and_frame.

Theorem C01_scale_by_one_is_identity :
  forall ln e, scale_exchange ln e 1 = Ok e.
Proof. exact scale_exchange_one. Qed.
Print Assumptions C01_scale_by_one_is_identity.

Theorem C01_scale_amount_composes :
  forall ln e f g e1 e2 e12,
    scale_exchange ln e f = Ok e1 -> scale_exchange ln e1 g = Ok e2 ->
    scale_exchange ln e (f * g)%Qc = Ok e12 ->
    e_amount e2 = e_amount e12.
Proof. exact scale_exchange_amount_compose. Qed.
Print Assumptions C01_scale_amount_composes.

(** Scaling by [f] and then [g] is scaling by [f*g] also for the
    whole description, except for uniform distributions (refuted below). *)
Theorem C01_scale_composes :
  forall ln e f g,
    f <> 0%Qc -> g <> 0%Qc -> wf_dist ln (e_amount e) (e_unc e) ->
    (forall u, e_unc e = Some u ->
       u_type u <> Some UUniform /\
       (u_type u = Some ULognormal -> u_negative u <> None)) ->
    (let? e1 := scale_exchange ln e f in scale_exchange ln e1 g)
    = scale_exchange ln e (f * g)%Qc.
Proof. exact scale_exchange_compose. Qed.
Print Assumptions C01_scale_composes.

Definition ex_ln (x : Qc) : Qc := (x - 1)%Qc.
Definition ex_tri : exchange :=
  set_e_unc (Some (set_u_type (Some UTriangular) (set_u_min (Some (Qcint 1))
    (set_u_max (Some (Qcint 5)) (set_u_mode (Some (Qcint 2)) uncert0)))))
    (set_e_amount (Qcint 2) exchange0).
Definition ex_log : exchange :=
  set_e_unc (Some (set_u_type (Some ULognormal) (set_u_mean (Some (Qcint 2))
    (set_u_mu (Some (ex_ln (Qcint 2))) (set_u_negative (Some false)
    (set_u_variance (Some (frac 1 10)) uncert0))))))
    (set_e_amount (Qcint 2) exchange0).

Example C01_composes_nonvacuous :
  wf_dist ex_ln (e_amount ex_tri) (e_unc ex_tri) /\
  wf_dist ex_ln (e_amount ex_log) (e_unc ex_log) /\
  is_ok (scale_exchange ex_ln ex_tri (Qcint (-3))) = true /\
  is_ok (scale_exchange ex_ln ex_log (Qcint (-3))) = true.
Proof.
  split; [|split; [|split; vm_compute; reflexivity]].
  - exists (Qcint 1), (Qcint 5). repeat split; by_compute.
  - split; [by_compute|]. split; [by_compute|]. split; [by_compute|].
    cbn. split; [discriminate|]. intros H. exfalso. revert H.
    apply Qcle_not_lt. by_compute.
Qed.

(** For uniform distributions the law fails: repair compares with an absolute
    tolerance, so scaling up can turn uniform into triangular for good. *)
Theorem C01_uniform_compose_refuted :
  forall ln, exists e f g,
    f <> 0%Qc /\ g <> 0%Qc /\ wf_dist ln (e_amount e) (e_unc e) /\
    (exists e1 e2, scale_exchange ln e f = Ok e1 /\ scale_exchange ln e1 g = Ok e2 /\
       scale_exchange ln e (f * g) <> Ok e2).
Proof. exact uniform_compose_counterexample. Qed.
Print Assumptions C01_uniform_compose_refuted.

(** ** C02 Rescaling carries the uncertainty distribution along *)
Theorem C02_scaled_distribution :
  forall ln a u ped f,
    f <> 0%Qc -> wf_dist ln a u ->
    exists o', scale_obj ln (mkUobj a u ped) f = Ok o' /\
      o_amount o' = (a * f)%Qc /\ o_ped o' = ped /\
      wf_dist ln (a * f)%Qc (o_unc o') /\
      match u with
      | None => o_unc o' = None
      | Some u => exists u', o_unc o' = Some u' /\ scaled_dist ln f a u u'
      end.
Proof. exact scale_obj_wf. Qed.
Print Assumptions C02_scaled_distribution.

Example C02_nonvacuous :
  wf_dist ex_ln (e_amount ex_tri) (e_unc ex_tri) /\
  exists o', scale_obj ex_ln (e_view ex_tri) (Qcint (-2)) = Ok o' /\
    option_map u_min (o_unc o') = Some (Some (Qcint (-10))) /\
    option_map u_max (o_unc o') = Some (Some (Qcint (-2))).
Proof.
  split.
  - exists (Qcint 1), (Qcint 5). repeat split; by_compute.
  - eexists. split; [vm_compute; reflexivity|]. split; by_compute.
Qed.

(** Findings.  A repaired normal distribution has mean = amount; after scaling
    the stored mean - the location parameter used for sampling - is stale. *)
Theorem C02_normal_mean_refuted :
  forall ln euler, exists o o1 o2 u2,
    repair ln euler o = Ok o1 /\ scale_obj ln o1 (Qcint 2) = Ok o2 /\
    o_unc o2 = Some u2 /\ u_type u2 = Some UNormal /\
    u_mean u2 <> Some (o_amount o2) /\ u_vwpu u2 = (o_unc o1 ≫= u_vwpu).
Proof. exact normal_mean_counterexample. Qed.
Print Assumptions C02_normal_mean_refuted.

(** A repaired normal distribution with amount 0, or without 'variance', makes
    scaling raise. *)
Theorem C02_normal_zero_refuted :
  forall ln euler, exists o o1,
    repair ln euler o = Ok o1 /\ o_unc o1 <> None /\
    scale_obj ln o1 (Qcint 2) = Err ZeroDivisionError.
Proof. exact normal_zero_counterexample. Qed.
Print Assumptions C02_normal_zero_refuted.

Theorem C02_normal_no_variance_refuted :
  forall ln euler, exists o o1,
    repair ln euler o = Ok o1 /\ o_amount o1 <> 0%Qc /\
    scale_obj ln o1 (Qcint 2) = Err (KeyError "variance").
Proof. exact normal_no_variance_counterexample. Qed.
Print Assumptions C02_normal_no_variance_refuted.

(** A negative factor leaves an undefined distribution with minimum > maximum. *)
Theorem C02_undefined_bounds_refuted :
  forall ln, exists o o' u' lo hi,
    scale_obj ln o (Qcint (-1)) = Ok o' /\ o_unc o' = Some u' /\
    u_min u' = Some lo /\ u_max u' = Some hi /\ (hi < lo)%Qc /\
    (exists u l h, o_unc o = Some u /\ u_min u = Some l /\ u_max u = Some h /\ (l < h)%Qc).
Proof. exact undefined_bounds_counterexample. Qed.
Print Assumptions C02_undefined_bounds_refuted.

(** ** C03 Repair *)
Theorem C03_repair_all :
  forall ln euler data data',
    repair_all_uncertainty_distributions ln euler data = Ok data' ->
    map strip_dataset data' = map strip_dataset data /\
    Forall (fun ds => Forall (fun au => match snd au with
                                        | None => True
                                        | Some u => repaired ln (fst au) u
                                        end) (uncertain_objects ds)) data'.
Proof. exact repair_all_spec. Qed.
Print Assumptions C03_repair_all.

(** Repairing twice is repairing once, unless a lognormal variance lies in
    [1, e]. *)
Theorem C03_repair_idempotent_partial :
  forall ln euler o o',
    (1 <= euler)%Qc ->
    (forall u vw pv, o_unc o = Some u -> u_type u = Some ULognormal ->
       u_vwpu u = Some vw -> get_pedigree_variance (default [] (o_ped o)) = Ok pv ->
       ~ (1 <= vw - pv /\ vw - pv <= euler)%Qc) ->
    repair ln euler o = Ok o' -> repair ln euler o' = Ok o'.
Proof. exact repair_idem. Qed.
Print Assumptions C03_repair_idempotent_partial.

Definition ex_uni : uobj :=
  mkUobj (Qcint 2) (Some (set_u_type (Some UUniform) (set_u_min (Some (Qcint 5))
    (set_u_max (Some (Qcint 1)) uncert0)))) None.
Definition ex_ds : dataset :=
  set_d_exchanges [e_put exchange0 ex_uni; ex_log] dataset0.
Example C03_nonvacuous :
  is_ok (repair ex_ln (Qcint 3) ex_uni) = true /\
  is_ok (repair_all_uncertainty_distributions ex_ln (Qcint 3)
           [set_d_exchanges [e_put exchange0 ex_uni; ex_tri] dataset0]) = true.
Proof. split; vm_compute; reflexivity. Qed.

Theorem C03_repair_idempotent_refuted :
  forall ln euler, ln 1%Qc = 0%Qc -> (1 <= euler)%Qc ->
    exists o o1 o2, repair ln euler o = Ok o1 /\ repair ln euler o1 = Ok o2 /\
      o_unc o1 <> None /\ o_unc o2 = None.
Proof. exact repair_idem_counterexample. Qed.
Print Assumptions C03_repair_idempotent_refuted.

(** Repair can leave a lognormal distribution with a negative variance. *)
Theorem C03_positive_variance_refuted :
  forall ln euler, (1 <= euler)%Qc -> exists o o' u v,
    repair ln euler o = Ok o' /\ o_unc o' = Some u /\
    u_variance u = Some v /\ (v < 0)%Qc.
Proof. exact negative_variance_counterexample. Qed.
Print Assumptions C03_positive_variance_refuted.

(** ** C04 Ageing the pedigree matrix *)
Theorem C04_adjust_time :
  forall end_year year a u pm,
    (forall s, assoc_get "temporal correlation" pm = Some s -> (1 <= s <= 5)%Z) ->
    forall s, assoc_get "temporal correlation" pm = Some s ->
    exists pm' s',
      adjust_pedigree_matrix_time end_year (mkUobj a u (Some pm)) year
        = Ok (mkUobj a u (Some pm')) /\
      assoc_get "temporal correlation" pm' = Some s' /\
      (s <= s' <= 5)%Z /\ (1 <= s')%Z /\
      (year = end_year -> pm' = pm) /\
      (forall k, k <> "temporal correlation" -> assoc_get k pm' = assoc_get k pm) /\
      map fst pm' = map fst pm.
Proof. exact adjust_time_spec. Qed.
Print Assumptions C04_adjust_time.

Theorem C04_adjust_time_monotone :
  forall end_year y1 y2 a u pm o1 o2 s s1 s2,
    (1 <= s <= 5)%Z ->
    assoc_get "temporal correlation" pm = Some s ->
    (Z.abs (y1 - end_year) <= Z.abs (y2 - end_year))%Z ->
    adjust_pedigree_matrix_time end_year (mkUobj a u (Some pm)) y1 = Ok o1 ->
    adjust_pedigree_matrix_time end_year (mkUobj a u (Some pm)) y2 = Ok o2 ->
    (o_ped o1 ≫= assoc_get "temporal correlation") = Some s1 ->
    (o_ped o2 ≫= assoc_get "temporal correlation") = Some s2 ->
    (s1 <= s2)%Z.
Proof. exact adjust_time_mono. Qed.
Print Assumptions C04_adjust_time_monotone.

Theorem C04_variance_never_lowered :
  forall end_year year a u pm o v v' s,
    assoc_get "temporal correlation" pm = Some s -> (1 <= s <= 5)%Z ->
    adjust_pedigree_matrix_time end_year (mkUobj a u (Some pm)) year = Ok o ->
    get_pedigree_variance pm = Ok v ->
    get_pedigree_variance (default [] (o_ped o)) = Ok v' ->
    (v <= v')%Qc.
Proof. exact adjust_time_variance_mono. Qed.
Print Assumptions C04_variance_never_lowered.

Theorem C04_adjust_time_bands :
  forall end_year year a u pm s s' o,
    assoc_get "temporal correlation" pm = Some s -> (1 <= s <= 5)%Z ->
    adjust_pedigree_matrix_time end_year (mkUobj a u (Some pm)) year = Ok o ->
    (o_ped o ≫= assoc_get "temporal correlation") = Some s' ->
    let age := Z.abs (end_year - year) in
    forall k, (s <= k <= 4)%Z -> (s' <= k <->
      age <= (if s =? k then 0
              else if s =? 1 then (if k =? 2 then 3 else if k =? 3 then 7 else 12)
              else if s =? 2 then (if k =? 3 then 4 else 5)
              else 5))%Z.
Proof. exact adjust_time_bands. Qed.
Print Assumptions C04_adjust_time_bands.

Definition ex_pm : pedigree := [("reliability", 3%Z); ("temporal correlation", 2%Z)].
Example C04_nonvacuous :
  exists o, adjust_pedigree_matrix_time 2010 (mkUobj 1 None (Some ex_pm)) 2015 = Ok o /\
    (o_ped o ≫= assoc_get "temporal correlation") = Some 4%Z /\
    is_ok (get_pedigree_variance ex_pm) = true.
Proof. eexists. split; [vm_compute; reflexivity|]. split; vm_compute; reflexivity. Qed.
