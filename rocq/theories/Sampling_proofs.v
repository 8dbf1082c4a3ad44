(** Proofs for C80. *)
From Verif Require Import Base Types Uncertainty Spec_Uncertainty Uncertainty_proofs Sampling Spec_Sampling.

Lemma get_some {A} k (x : option A) v : getkey k x = Ok v -> x = Some v.
Proof. destruct x; [|done]. intros H. apply Ok_inj in H as ->. done. Qed.
Lemma flag_spec a : Qcltb a 0 = true <-> (a < 0)%Qc.
Proof. apply Qcltb_true. Qed.
(** What there is when there is something. *)
Lemma sampled_spec sqrt o s : to_stats_arrays sqrt o = Ok s -> s_amount s = o_amount o /\
  match o_unc o ≫= u_type with
  | None => s_class s = CNone /\ s_loc s = Some (o_amount o)
  | Some UUndefined => s_class s = CUndefined /\ s_loc s = Some (o_amount o)
  | Some ULognormal => s_class s = CLognormal /\ exists u v, o_unc o = Some u /\ is_Some (s_loc s) /\ s_loc s = u_mu u /\ u_vwpu u = Some v /\ (0 <= v)%Qc /\
      s_scale s = Some (sqrt v) /\ s_negative s = Some (Qcltb (o_amount o) 0)
  | Some UNormal => s_class s = CNormal /\ exists u v, o_unc o = Some u /\ is_Some (s_loc s) /\ s_loc s = u_mean u /\ u_vwpu u = Some v /\ (0 <= v)%Qc /\
      s_scale s = Some (sqrt v)
  | Some UTriangular => s_class s = CTriangular /\ exists u, o_unc o = Some u /\ s_loc s = u_mode u /\ s_minimum s = u_min u /\ s_maximum s = u_max u
  | Some UUniform => s_class s = CUniform /\ s_loc s = None /\ exists u, o_unc o = Some u /\ s_minimum s = u_min u /\ s_maximum s = u_max u
  | Some (UOther _) => False
  end.
Proof.
  intros H. unfold to_stats_arrays, get_uncertainty_class in H. destruct (o_unc o ≫= u_type) as [[| | | | |x]|] eqn:E; cbn [bind] in H; [..|].
  - apply bind_Ok in H as (u & Hu%get_some & H). apply bind_Ok in H as (mu & Hmu%get_some & H). apply bind_Ok in H as (v & Hv%get_some & H).
    apply bind_Ok in H as (r & Hr & <-%Ok_inj). split; [done|]. split; [done|]. exists u, v. unfold sqrtR in Hr. destruct (Qcltb v 0) eqn:Ev; [done|].
    apply Ok_inj in Hr as <-. qc_bool. cbn. rewrite Hmu. by repeat split.
  - apply bind_Ok in H as (u & Hu%get_some & H). apply bind_Ok in H as (mu & Hmu%get_some & H). apply bind_Ok in H as (v & Hv%get_some & H).
    apply bind_Ok in H as (r & Hr & <-%Ok_inj). split; [done|]. split; [done|]. exists u, v. unfold sqrtR in Hr. destruct (Qcltb v 0) eqn:Ev; [done|].
    apply Ok_inj in Hr as <-. qc_bool. cbn. rewrite Hmu. by repeat split.
  - apply bind_Ok in H as (u & Hu%get_some & H). apply bind_Ok in H as (m & Hm%get_some & H). apply bind_Ok in H as (lo & Hlo%get_some & H).
    apply bind_Ok in H as (hi & Hhi%get_some & <-%Ok_inj). split; [done|]. split; [done|]. exists u. cbn. by rewrite Hm, Hlo, Hhi.
  - apply Ok_inj in H as <-. done.
  - apply bind_Ok in H as (u & Hu%get_some & H). apply bind_Ok in H as (lo & Hlo%get_some & H).
    apply bind_Ok in H as (hi & Hhi%get_some & <-%Ok_inj). split; [done|]. split; [done|]. split; [done|]. exists u. cbn. by rewrite Hlo, Hhi.
  - done.
  - apply Ok_inj in H as <-. done.
Qed.
Lemma repaired_sampled ln euler sqrt o o' s : repair ln euler o = Ok o' -> to_stats_arrays sqrt o' = Ok s -> centred ln s.
Proof.
  intros H HS. apply repair_repaired in H. apply sampled_spec in HS as [Ha HS]. unfold centred.
  destruct (o_unc o') as [u|] eqn:E; cbn [mbind option_bind] in HS.
  2:{ destruct HS as [-> ->]. by rewrite Ha. }
  unfold repaired in H. destruct (u_type u) as [[| | | | |x]|] eqn:Et.
  - destruct HS as (-> & u1 & v & Hu & _ & Hl & _ & _ & _ & Hn). injection Hu as <-. destruct H as (H1 & H2 & H3 & H4). rewrite Ha, Hl, H3, Hn.
    split; [done|]. split; [done|]. eexists. split; [done|]. apply flag_spec.
  - destruct HS as (-> & u1 & v & Hu & _ & Hl & _). injection Hu as <-. rewrite Ha, Hl. by destruct H.
  - destruct HS as (-> & u1 & Hu & Hl & H1 & H2). injection Hu as <-. destruct H as (lo & hi & Hlo & Hhi & Hm & Hlt & Hle).
    rewrite Ha, Hl, H1, H2. split; [done|]. by exists lo, hi.
  - destruct HS as [-> ->]. by rewrite Ha.
  - destruct HS as (-> & _ & u1 & Hu & H1 & H2). injection Hu as <-. destruct H as (lo & hi & Hlo & Hhi & Hlt & Hle).
    rewrite Ha, H1, H2. by exists lo, hi.
  - done.
  - destruct HS as [-> ->]. by rewrite Ha.
Qed.
(** Sampling is possible exactly if the variance is not negative. *)
Lemma repaired_total ln euler sqrt o o' : repair ln euler o = Ok o' ->
  (exists s, to_stats_arrays sqrt o' = Ok s) <->
  (forall u, o_unc o' = Some u -> u_type u = Some ULognormal \/ u_type u = Some UNormal -> exists v, u_vwpu u = Some v /\ (0 <= v)%Qc).
Proof.
  intros H. apply repair_repaired in H. split.
  - intros [s HS] u Hu Ht. apply sampled_spec in HS as [_ HS]. rewrite Hu in HS. cbn [mbind option_bind] in HS.
    destruct Ht as [Ht|Ht]; rewrite Ht in HS; destruct HS as (_ & u1 & v & E & _ & _ & Hv & Hp & _); injection E as <-; by exists v.
  - intros HV. unfold to_stats_arrays, get_uncertainty_class. destruct (o_unc o') as [u|] eqn:E; cbn [mbind option_bind]; [|by eexists].
    unfold repaired in H. destruct (u_type u) as [[| | | | |x]|] eqn:Et; cbn [bind].
    + destruct (HV u eq_refl (or_introl Et)) as (v & Hv & Hp). destruct H as (H1 & H2 & H3 & H4).
      unfold lognormal_sampled, getunc. rewrite E. cbn [getkey bind]. rewrite H3. cbn [getkey bind]. rewrite Hv. cbn [getkey bind].
      unfold sqrtR. destruct (Qcltb v 0) eqn:Ev; [|by eexists]. qc_bool. exfalso. by apply (Qcle_not_lt _ _ Hp).
    + destruct (HV u eq_refl (or_intror Et)) as (v & Hv & Hp). destruct H as (H1 & _).
      unfold normal_sampled, getunc. rewrite E. cbn [getkey bind]. rewrite H1. cbn [getkey bind]. rewrite Hv. cbn [getkey bind].
      unfold sqrtR. destruct (Qcltb v 0) eqn:Ev; [|by eexists]. qc_bool. exfalso. by apply (Qcle_not_lt _ _ Hp).
    + destruct H as (lo & hi & Hlo & Hhi & Hm & _). unfold triangular_sampled, getunc. rewrite E. cbn [getkey bind].
      rewrite Hm, Hlo, Hhi. by eexists.
    + by eexists.
    + destruct H as (lo & hi & Hlo & Hhi & _). unfold uniform_sampled, getunc. rewrite E. cbn [getkey bind]. rewrite Hlo, Hhi. by eexists.
    + done.
    + by eexists.
Qed.
Lemma scaled_sampled ln sqrt f a u ped o' s : f <> 0%Qc -> wf_dist ln a u -> (forall x, u = Some x -> u_type x <> Some UNormal) ->
  to_stats_arrays sqrt (mkUobj a u ped) = Ok s -> scale_obj ln (mkUobj a u ped) f = Ok o' ->
  exists s', to_stats_arrays sqrt o' = Ok s' /\ sampled_times ln f s s'.
Proof.
  intros Hf Hwf Hn HS Ho. destruct (scale_obj_wf ln a u ped f Hf Hwf) as (o1 & E & Ha & Hp & Hwf' & Hsc).
  rewrite Ho in E. apply Ok_inj in E as <-. apply sampled_spec in HS as [Hsa HS]. cbn [o_amount o_unc] in Hsa, HS.
  unfold sampled_times. rewrite Hsa. unfold to_stats_arrays, get_uncertainty_class.
  destruct u as [u|]; cbn [mbind option_bind] in HS.
  2:{ destruct HS as [Hc Hl]. rewrite Hsc. cbn [mbind option_bind bind]. eexists. split; [done|]. cbn. rewrite Hc. split; [done|]. split; [done|].
      exists a. by rewrite Ha. }
  destruct Hsc as (u' & Hu' & _ & Hsc). rewrite Hu'. cbn [mbind option_bind]. specialize (Hn u eq_refl).
  destruct (u_type u) as [[| | | | |x]|] eqn:Et; [..|done|].
  - destruct HS as (Hc & u1 & v & E1 & _ & Hl & Hv & Hv0 & Hw & Hs). injection E1 as <-. destruct Hsc as (-> & Hm & Hmu & _ & Hvw & Hneg).
    cbn [bind]. unfold lognormal_sampled, getunc. rewrite Hu'. cbn [getkey bind]. rewrite Hmu. cbn [getkey bind]. rewrite Hvw, Hv. cbn [getkey bind].
    unfold sqrtR. destruct (Qcltb v 0) eqn:Ev; [qc_bool; exfalso; by apply (Qcle_not_lt _ _ Hv0)|]. cbn [bind]. eexists. split; [done|]. cbn.
    rewrite Hc. split; [done|]. split; [done|]. split; [done|]. split; [by rewrite Hw|]. eexists. split; [done|]. rewrite Ha. apply flag_spec.
  - done.
  - destruct HS as (Hc & u1 & E1 & Hl & H1 & H2). injection E1 as <-. destruct Hsc as (-> & (lo & hi & Hlo & Hhi & B1 & B2) & Hmode).
    cbn [bind]. unfold triangular_sampled, getunc. rewrite Hu'. cbn [getkey bind]. rewrite Hmode. cbn [getkey bind].
    destruct (Qc_dec f 0) as [[Hlt|Hgt]|]; [..|done].
    + destruct (B2 Hlt) as [-> ->]. cbn [getkey bind]. eexists. split; [done|]. cbn. rewrite Hc. split; [done|]. split; [done|]. split; [|done].
      exists lo, hi. cbn. rewrite H1, H2. split; [done|]. split; [done|]. split; [|done]. intros X. exfalso. by apply (Qclt_not_le _ _ X), Qclt_le_weak.
    + destruct (B1 Hgt) as [-> ->]. cbn [getkey bind]. eexists. split; [done|]. cbn. rewrite Hc. split; [done|]. split; [done|]. split; [|done].
      exists lo, hi. cbn. rewrite H1, H2. split; [done|]. split; [done|]. split; [done|]. intros X. exfalso. by apply (Qclt_not_le _ _ X), Qclt_le_weak.
  - destruct HS as [Hc Hl]. destruct Hsc as (-> & _). cbn [bind]. eexists. split; [done|]. cbn. rewrite Hc. split; [done|]. split; [done|].
    exists a. by rewrite Ha.
  - destruct HS as (Hc & Hl & u1 & E1 & H1 & H2). injection E1 as <-. destruct Hsc as ((lo & hi & Hlo & Hhi & B1 & B2) & Hty).
    assert (forall s', s_minimum s' = u_min u' -> s_maximum s' = u_max u' -> bounds_times f s s') as HB.
    { intros s' M1 M2. exists lo, hi. rewrite H1, H2, M1, M2. by repeat split; [..|apply B1|apply B1|apply B2|apply B2]. }
    assert (exists mn mx, u_min u' = Some mn /\ u_max u' = Some mx) as (mn & mx & Hmn & Hmx).
    { destruct (Qc_dec f 0) as [[Hlt|Hgt]|]; [destruct (B2 Hlt)|destruct (B1 Hgt)|done]; eauto. }
    destruct Hty as [->|[-> Hmode]]; cbn [bind].
    + unfold uniform_sampled, getunc. rewrite Hu'. cbn [getkey bind]. rewrite Hmn, Hmx. cbn [getkey bind]. eexists. split; [done|]. cbn.
      rewrite Hc. split; [done|]. split; [by apply HB|]. by left.
    + unfold triangular_sampled, getunc. rewrite Hu'. cbn [getkey bind]. rewrite Hmode, Hmn, Hmx. cbn [getkey bind]. eexists. split; [done|]. cbn.
      rewrite Hc. split; [done|]. split; [by apply HB|]. by right.
  - destruct HS as [Hc Hl]. subst u'. rewrite Et. cbn [bind]. eexists. split; [done|]. cbn. rewrite Hc. split; [done|]. split; [done|].
    exists a. by rewrite Ha.
Qed.
(** A normal distribution is sampled as before, whatever the factor. *)
Lemma normal_sampled_same ln sqrt f a u ped o' s : f <> 0%Qc -> u_type u = Some UNormal ->
  to_stats_arrays sqrt (mkUobj a (Some u) ped) = Ok s -> scale_obj ln (mkUobj a (Some u) ped) f = Ok o' ->
  exists s', to_stats_arrays sqrt o' = Ok s' /\ s_amount s' = (a * f)%Qc /\ s_loc s' = s_loc s /\ s_scale s' = s_scale s.
Proof.
  intros Hf Ht HS Ho. destruct (scale_obj_amount _ _ _ _ Ho) as [Ha _]. cbn [o_amount] in Ha.
  unfold to_stats_arrays, get_uncertainty_class in HS |- *. cbn [o_unc mbind option_bind] in HS. rewrite Ht in HS. cbn [bind] in HS.
  unfold normal_sampled, getunc in HS. cbn [o_unc getkey bind] in HS.
  apply bind_Ok in HS as (m & Hm%get_some & HS). apply bind_Ok in HS as (v & Hv%get_some & HS). apply bind_Ok in HS as (r & Hr & <-%Ok_inj).
  assert (exists u', o_unc o' = Some u' /\ u_type u' = Some UNormal /\ u_mean u' = u_mean u /\ u_vwpu u' = u_vwpu u) as (u' & Hu' & Ht' & Hm' & Hv').
  { unfold scale_obj in Ho. destruct (Qceqb f 1); [apply Ok_inj in Ho as <-; by exists u|].
    unfold rescale, get_uncertainty_class in Ho. cbn [o_unc mbind option_bind] in Ho. rewrite Ht in Ho. cbn [bind] in Ho.
    unfold normal_rescale in Ho. destruct (Qceqb f 0) eqn:E0; [qc_bool; done|]. apply bind_Ok in Ho as (q & _ & Ho).
    unfold getunc in Ho. cbn [o_unc getkey bind] in Ho. apply bind_Ok in Ho as (va & _ & <-%Ok_inj). eexists. by cbn. }
  rewrite Hu'. cbn [mbind option_bind]. rewrite Ht'. cbn [bind]. unfold normal_sampled, getunc. rewrite Hu'. cbn [getkey bind].
  rewrite Hm', Hm, Hv', Hv. cbn [getkey bind]. rewrite Hr. cbn [bind]. eexists. split; [done|]. cbn. done.
Qed.
Lemma wf_sampled ln sqrt o s : wf_dist ln (o_amount o) (o_unc o) -> (forall x, o_unc o = Some x -> u_type x <> Some UNormal) ->
  to_stats_arrays sqrt o = Ok s -> centred ln s.
Proof.
  intros H Hn HS. apply sampled_spec in HS as [Ha HS]. unfold centred.
  destruct (o_unc o) as [u|] eqn:E; cbn [mbind option_bind] in HS.
  2:{ destruct HS as [-> ->]. by rewrite Ha. }
  specialize (Hn u eq_refl). unfold wf_dist in H. destruct (u_type u) as [[| | | | |x]|] eqn:Et.
  - destruct HS as (-> & u1 & v & Hu & _ & Hl & _ & _ & _ & Hs). injection Hu as <-. destruct H as (H1 & H2 & H3 & H4). rewrite Ha, Hl, H3, Hs.
    split; [done|]. split; [done|]. eexists. split; [done|]. apply flag_spec.
  - done.
  - destruct HS as (-> & u1 & Hu & Hl & H1 & H2). injection Hu as <-. destruct H as (lo & hi & Hlo & Hhi & Hm & Hlt & Hle).
    rewrite Ha, Hl, H1, H2. split; [done|]. by exists lo, hi.
  - destruct HS as [-> ->]. by rewrite Ha.
  - destruct HS as (-> & _ & u1 & Hu & H1 & H2). injection Hu as <-. destruct H as (lo & hi & Hlo & Hhi & Hlt & Hle).
    rewrite Ha, H1, H2. by exists lo, hi.
  - done.
  - destruct HS as [-> ->]. by rewrite Ha.
Qed.
(** After any number of rescalings. *)
Lemma chain_wf ln sqrt fs : forall o s0, Forall (fun f => f <> 0%Qc) fs -> wf_dist ln (o_amount o) (o_unc o) ->
  (forall x, o_unc o = Some x -> u_type x <> Some UNormal) -> to_stats_arrays sqrt o = Ok s0 ->
  exists o' s, foldR (scale_obj ln) o fs = Ok o' /\ to_stats_arrays sqrt o' = Ok s /\ centred ln s /\
    s_amount s = (o_amount o * foldr Qcmult 1 fs)%Qc /\ (s_class s0 = CLognormal -> s_scale s = s_scale s0).
Proof.
  induction fs as [|f fs IH]; intros o s0 Hfs Hwf Hn HS.
  - exists o, s0. split; [done|]. split; [done|]. split; [by eapply wf_sampled|]. apply sampled_spec in HS as [-> _]. split; [cbn; ring|done].
  - apply Forall_cons in Hfs as [Hf Hfs]. destruct o as [a u ped]. cbn [o_amount o_unc] in *.
    destruct (scale_obj_wf ln a u ped f Hf Hwf) as (o1 & Ho & Ha & Hp & Hwf' & Hsc).
    destruct (scaled_sampled ln sqrt f a u ped o1 s0 Hf Hwf Hn HS Ho) as (s1 & HS1 & HT).
    assert (forall x, o_unc o1 = Some x -> u_type x <> Some UNormal) as Hn1.
    { intros x Hx. destruct u as [u|]; [|by rewrite Hsc in Hx]. destruct Hsc as (u' & Hu' & Hsc). rewrite Hu' in Hx. injection Hx as <-.
      destruct Hsc as [_ Hsc]. specialize (Hn u eq_refl). destruct (u_type u) as [[| | | | |y]|] eqn:Et.
      - destruct Hsc as (-> & _). done.
      - done.
      - destruct Hsc as (-> & _). done.
      - destruct Hsc as (-> & _). done.
      - destruct Hsc as (_ & [->|[-> _]]); done.
      - done.
      - subst u'. by rewrite Et. }
    rewrite <- Ha in Hwf'. destruct (IH o1 s1 Hfs Hwf' Hn1 HS1) as (o' & s & E & HS' & Hc & Hm & Hl). exists o', s.
    cbn [foldR]. rewrite Ho. cbn [bind]. split; [done|]. split; [done|]. split; [done|]. split.
    + rewrite Hm, Ha. cbn [foldr]. ring.
    + intros HL. destruct HT as [_ HT]. rewrite HL in HT. destruct HT as (HC & _ & HW & _). rewrite <- HW. by apply Hl.
Qed.
