(** When repairing twice is repairing once (C03). *)
From Verif Require Import Base Types Uncertainty Spec_Uncertainty Uncertainty_proofs Spec_Repair.

Lemma window_first ln euler o o' v pv : in_window euler o v pv -> repair ln euler o = Ok o' ->
  exists u mu, o' = mkUobj (o_amount o) (Some u) (o_ped o) /\ u_type u = Some ULognormal /\ u_mean u = Some (Qcabs (o_amount o)) /\
    u_negative u = Some (Qcltb (o_amount o) 0) /\ logR ln (Qcabs (o_amount o)) = Ok mu /\ u_mu u = Some mu /\
    u_variance u = Some (ln v) /\ u_vwpu u = Some (ln v + pv)%Qc.
Proof.
  intros (u & Hu & Ht & Ha & Hvw & Hz & Hp & H1 & H2) H. destruct o as [a u' ped]. cbn in *. subst u'.
  unfold repair, get_uncertainty_class in H. cbn in H. rewrite Ht in H. cbn in H. unfold lognormal_repair in H. cbn in H.
  apply Qceqb_false in Ha. rewrite Ha, Hvw in H. cbn in H. apply Qceqb_false in Hz. rewrite Hz in H.
  destruct (logR ln (Qcabs a)) as [mu|] eqn:Hl; [|done]. cbn [bind] in H. rewrite Hp in H. cbn [bind] in H.
  assert (v + pv - pv = v)%Qc as Ev by ring. rewrite Ev in H.
  rewrite (proj2 (Qcleb_true _ _) H1), (proj2 (Qcleb_true _ _) H2) in H. cbn [andb] in H.
  unfold logR in H at 1. assert (Qcleb v 0 = false) as Hv by (apply Qcleb_false; qclra). rewrite Hv in H. cbn [bind] in H.
  apply Ok_inj in H as <-. eexists _, mu. split; [reflexivity|]. cbn. by rewrite Ht.
Qed.
Lemma window_second ln euler o o' v pv : (1 <= euler)%Qc -> (forall x, ln x <> x) -> in_window euler o v pv -> repair ln euler o = Ok o' ->
  repair ln euler o' = Ok o' <-> (ln v < 1 /\ ln v + pv <> 0)%Qc.
Proof.
  intros He Hln HW H. pose proof HW as (_ & _ & _ & Ha & _ & _ & Hp & _ & _). apply (window_first _ _ _ _ _ _ HW) in H as (u & mu & -> & Ht & Hm & Hn & Hl & Hmu & Hv & Hvw).
  unfold repair, get_uncertainty_class. cbn. rewrite Ht. cbn. unfold lognormal_repair. cbn.
  rewrite (proj2 (Qceqb_false _ _) Ha), Hvw. cbn. destruct (Qceqb (ln v + pv) 0) eqn:Ez.
  { apply Qceqb_true in Ez. split; [intros E; apply Ok_inj in E; apply (f_equal o_unc) in E; done|]. intros [_ ?]. done. }
  apply Qceqb_false in Ez. rewrite Hl. cbn [bind]. rewrite Hp. cbn [bind].
  assert (ln v + pv - pv = ln v)%Qc as Ev by ring. rewrite Ev. destruct (Qcleb 1 (ln v) && Qcleb (ln v) euler) eqn:Ew.
  - apply andb_prop in Ew as [E1%Qcleb_true E2%Qcleb_true]. unfold logR. assert (Qcleb (ln v) 0 = false) as -> by (apply Qcleb_false; qclra). cbn [bind].
    split; [|intros [? _]; exfalso; qclra]. intros E. apply Ok_inj in E. apply (f_equal o_unc) in E. cbn in E.
    assert (Some (ln (ln v)) = u_variance u) as E' by (injection E; intros E0; by rewrite <- E0). rewrite Hv in E'.
    exfalso. apply (Hln (ln v)). by injection E'.
  - destruct (Qcltb euler (ln v)) eqn:Eg.
    + apply Qcltb_true in Eg. split; [|intros [? _]; exfalso; qclra]. intros E. apply Ok_inj in E. apply (f_equal o_unc) in E. cbn in E.
      assert (Some (frac 1 4) = u_variance u) as E' by (injection E; intros E0; by rewrite <- E0). rewrite Hv in E'. exfalso.
      assert (frac 1 4 = ln v) as E2 by (by injection E'). assert (frac 1 4 < 1)%Qc as Hq by (by vm_compute). rewrite E2 in Hq. qclra.
    + apply Qcltb_false in Eg. split.
      * intros _. split; [|done]. apply andb_false_iff in Ew as [Ew%Qcleb_false|Ew%Qcleb_false]; [done|]. qclra.
      * intros _. unfold putunc. destruct u; cbn in *. do 2 f_equal. by subst.
Qed.
Lemma repair_twice ln euler o o' : (1 <= euler)%Qc -> (forall x, ln x <> x) -> repair ln euler o = Ok o' ->
  repair ln euler o' = Ok o' <-> (forall v pv, in_window euler o v pv -> ln v < 1 /\ ln v + pv <> 0)%Qc.
Proof.
  intros He Hln H. split.
  - intros H2 v pv HW. by apply (window_second ln euler o o').
  - intros HW. destruct o as [a u ped].
    assert (o_unc o' = None -> repair ln euler o' = Ok o') as Hnone by (destruct o' as [a' u' p']; cbn; by intros ->).
    destruct u as [u|]; [|apply (repair_idem ln euler (mkUobj a None ped)); done].
    destruct (decide (u_type u = Some ULognormal)) as [Ht|Ht].
    2:{ apply (repair_idem ln euler (mkUobj a (Some u) ped)); [done| |done]. cbn. intros u0 vw pv [= <-] ?. done. }
    destruct (u_vwpu u) as [vw|] eqn:Evw.
    2:{ apply (repair_idem ln euler (mkUobj a (Some u) ped)); [done| |done]. cbn. intros u0 vw pv [= <-] ?. by rewrite Evw. }
    destruct (get_pedigree_variance (default [] ped)) as [pv|] eqn:Ep.
    2:{ apply (repair_idem ln euler (mkUobj a (Some u) ped)); [done| |done]. cbn. intros u0 vw' pv [= <-] ? _. by rewrite Ep. }
    destruct (Qceqb a 0) eqn:Ea.
    { apply Hnone. unfold repair, get_uncertainty_class in H. cbn in H. rewrite Ht in H. cbn in H. unfold lognormal_repair in H. cbn in H. rewrite Ea in H.
      by apply Ok_inj in H as <-. }
    destruct (Qceqb vw 0) eqn:Ez.
    { apply Hnone. unfold repair, get_uncertainty_class in H. cbn in H. rewrite Ht in H. cbn in H. unfold lognormal_repair in H. cbn in H. rewrite Ea, Evw in H.
      cbn in H. rewrite Ez in H. by apply Ok_inj in H as <-. }
    apply Qceqb_false in Ea, Ez.
    destruct (Qcleb 1 (vw - pv) && Qcleb (vw - pv) euler) eqn:Ew.
    + apply andb_prop in Ew as [E1%Qcleb_true E2%Qcleb_true].
      assert (in_window euler (mkUobj a (Some u) ped) (vw - pv)%Qc pv) as Hw.
      { exists u. cbn. assert (vw - pv + pv = vw)%Qc as -> by ring. done. }
      apply (window_second ln euler (mkUobj a (Some u) ped) o' (vw - pv)%Qc pv); [done|done|done|done|]. by apply HW.
    + apply (repair_idem ln euler (mkUobj a (Some u) ped)); [done| |done]. cbn. intros u0 vw' pv' [= <-] _. rewrite Evw, Ep. intros [= <-] [= <-].
      intros [H1%Qcleb_true H2%Qcleb_true]. by rewrite H1, H2 in Ew.
Qed.
