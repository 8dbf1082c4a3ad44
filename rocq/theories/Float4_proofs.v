(** Without rounding the rounded programs are the modelled ones. *)
From Verif Require Import Base Types Spec_Float Uncertainty Uncertainty_proofs Utils Spec_Utils Utils_proofs
  Cutoff Spec_Cutoff Cutoff_proofs Locations Spec_Mix Mix_proofs Float Float_proofs Float2_proofs Float3_proofs.

Lemma scale_all_amounts ln k es es' : scale_all ln k es = Ok es' ->
  map e_amount es' = map (fun a => a * k)%Qc (map e_amount es).
Proof.
  intros H. apply scale_all_scaled in H. induction H as [|e e' es es' [He _] HF IH]; [done|]. cbn [map]. by rewrite He, IH.
Qed.
Lemma float_scale_id a k : float_scale id a k = (a * k)%Qc.
Proof. unfold float_scale. destruct (Qceqb k 1) eqn:E; [|done]. qc_bool. subst. ring. Qed.
Lemma map_scale_id k l : map (fun a => float_scale id a k) l = map (fun a => a * k)%Qc l.
Proof. apply map_ext. intros a. apply float_scale_id. Qed.

Lemma normalize_exact ln ds ds' rp : get_single_reference_product ds = Ok rp ->
  normalize_reference_production_amount ln ds = Ok ds' ->
  float_normalize id (e_amount rp) (map e_amount (d_exchanges ds)) = Ok (map e_amount (d_exchanges ds')).
Proof.
  intros Hr H. unfold normalize_reference_production_amount in H. rewrite Hr in H. cbn [bind] in H.
  unfold float_normalize. destruct (Qctruthy (e_amount rp)) eqn:Et; [|discriminate]. cbn [negb] in *.
  apply bind_Ok in H as (k & Hk & H). apply divR_Ok in Hk as [_ ->]. unfold id.
  destruct (Qcltb epsilon (Qcabs (1 / Qcabs (e_amount rp) - 1))).
  - apply bind_Ok in H as (es & Hes & <-%Ok_inj). cbn [d_exchanges set_d_exchanges].
    rewrite (scale_all_amounts _ _ _ _ Hes). f_equal. apply (map_scale_id (1 / Qcabs (e_amount rp))%Qc).
  - by apply Ok_inj in H as <-.
Qed.

Lemma choose_exact ln ds exc f ds' : choose_reference_product_exchange ln ds exc f = Ok ds' ->
  exists d, nonproduction_exchanges ds = Ok d /\
  exists n, float_choose id (e_amount exc) f n (map e_amount d) = Ok (map e_amount (d_exchanges ds')).
Proof.
  unfold choose_reference_product_exchange. intros H. destruct (Qctruthy (e_amount exc)) eqn:Et; [|discriminate]. cbn [negb] in H.
  apply bind_Ok in H as (prods & Hp & H). apply bind_Ok in H as (nonprods & Hn & H). apply bind_Ok in H as (scaled & Hs & H).
  exists nonprods. split; [done|].
  set (dropped := filterb (fun e => bool_decide (e <> exc)) prods) in *. exists (length dropped).
  unfold float_choose. rewrite Et. cbn [negb].
  set (rp := set_e_class None (set_e_type RefProduct (remove_exchange_uncertainty exc))) in *.
  assert (e_amount rp = e_amount exc) as Ea by done.
  set (ds0 := set_d_exchanges (rp :: map nonreference_product dropped ++ scaled) ds) in *.
  assert (map e_amount (d_exchanges ds0) = e_amount exc :: repeat 0%Qc (length dropped) ++ map (fun a => float_scale id a f) (map e_amount nonprods)) as <-.
  { change (d_exchanges ds0) with (rp :: map nonreference_product dropped ++ scaled). cbn [map]. rewrite Ea. f_equal.
    rewrite map_app, (scale_all_amounts _ _ _ _ Hs), map_scale_id. f_equal. clear. induction dropped as [|e l IH]; [done|].
    cbn [map length repeat]. by rewrite IH. }
  assert (exists rp', get_single_reference_product ds0 = Ok rp') as [rp' Hr].
  { unfold normalize_reference_production_amount in H. destruct (get_single_reference_product ds0) as [rp'|]; [by eexists|discriminate]. }
  assert (rp' = rp) as ->; [|rewrite <- Ea; by eapply normalize_exact].
  apply get_single_ok in Hr. change (d_exchanges ds0) with (rp :: map nonreference_product dropped ++ scaled) in Hr.
  rewrite filter_cons_True in Hr by done. by inversion Hr.
Qed.

Lemma factors_exact prods : float_factors id Qcsum prods = economic_factors prods.
Proof. done. Qed.

Lemma float_inputs_exact amount total l make new : total <> 0%Qc ->
  (forall f s e, make f s = Ok e -> e_amount e = (f * amount)%Qc) ->
  concat_mapR (input_of make total) l = Ok new ->
  map e_amount new = concat (map (float_input id true amount total) (map volume_of l)).
Proof.
  intros Ht Hm H. apply (inputs_spec make total) in H as [_ HF]; [|done]. revert new HF. induction l as [|s l IH]; intros new HF.
  - by inversion HF.
  - unfold sharing in HF. rewrite filter_cons in HF. cbn [map concat]. unfold float_input at 1. unfold id at 1 2 3 4.
    assert ((volume_of s / total = 0)%Qc <-> volume_of s = 0%Qc) as Hz.
    { split; intros E; [|rewrite E; field; done].
      replace (volume_of s) with (volume_of s / total * total)%Qc by (field; done). rewrite E. ring. }
    destruct (Qctruthy (volume_of s / total)) eqn:Et; qc_bool.
    + rewrite decide_True in HF by tauto. apply Forall2_cons_inv_l in HF as (e & new' & He & HF & ->).
      cbn [map app]. rewrite (Hm _ _ _ He). f_equal. by apply IH.
    + rewrite decide_False in HF by tauto. cbn [app]. by apply IH.
Qed.
Lemma market_input_amount amount s e : market_input amount s = Ok e -> e_amount e = amount.
Proof. unfold market_input. intros H. apply bind_Ok in H as (c & _ & <-%Ok_inj). done. Qed.
Lemma suppliers_exact ds ds' rp l : get_single_reference_product ds = Ok rp -> d_suppliers ds = Some l ->
  allocate_suppliers ds = Ok ds' ->
  match float_inputs id Qcsum true (e_amount rp) (map volume_of l) with
  | None => ds' = ds
  | Some xs => map e_amount (d_exchanges ds') = map e_amount (d_exchanges ds) ++ xs
  end.
Proof.
  intros Hr Hl H. unfold allocate_suppliers in H. rewrite Hr, Hl in H. cbn [bind getkey] in H.
  apply bind_Ok in H as (vs & Hvs & H). unfold volumes in Hvs. apply bind_Ok in Hvs as (pvs & Hpvs & Hvs).
  apply mapR_volumes in Hpvs as [Hp ->]. unfold float_inputs. destruct (Qctruthy (Qcsum (map volume_of l))) eqn:Et.
  - apply Ok_inj in Hvs as <-. apply bind_Ok in H as (new & Hnew & <-%Ok_inj). apply Qctruthy_true in Et.
    cbn [d_exchanges set_d_suppliers set_d_exchanges]. rewrite map_app. f_equal.
    apply (float_inputs_exact (e_amount rp)) in Hnew; [done|done|]. intros f s e He. by apply market_input_amount in He.
  - destruct l as [|s [|s2 l]]; cbn [map].
    + apply Ok_inj in Hvs as <-. by apply Ok_inj in H.
    + apply Ok_inj in Hvs as <-. apply bind_Ok in H as (new & Hnew & <-%Ok_inj).
      cbn [d_exchanges set_d_suppliers set_d_exchanges]. rewrite map_app. f_equal.
      apply (float_inputs_exact (e_amount rp)) in Hnew; [|discriminate|intros f s' e He; by apply market_input_amount in He].
      rewrite Hnew. cbn [map concat]. rewrite app_nil_r. f_equal. apply Forall_cons in Hp as [[pv Hv] _].
      unfold fake_volume, volume_of. rewrite Hv. reflexivity.
    + apply Ok_inj in Hvs as <-. by apply Ok_inj in H.
Qed.

(** ** In the vocabulary of the statements *)
Lemma rounding_order fl x y : rounding fl -> (x <= y)%Qc -> (fl x <= fl y)%Qc.
Proof.
  intros H L. destruct (decide (x = y)) as [->|N]; [apply Qcle_refl|]. apply (nearest_mono x y); [apply H|apply H|].
  destruct (Qclt_le_dec x y) as [|C]; [done|]. exfalso. apply N. by apply Qcle_antisym.
Qed.
Lemma rounding_error fl x : rounding fl -> near unit_roundoff (fl x) x.
Proof. intros H. apply nearest_error. apply H. Qed.

Definition sound_prices (prods : list exchange) : Prop :=
  Forall (fun p => 0 <= default 0 (lookup_prop "price" p) /\ 0 <= e_amount p /\
                   0 <= default 0 (lookup_prop "true value relation" p))%Qc prods.
Lemma sound_ordinary prods : sound_prices prods -> Forall ordinary prods.
Proof.
  intros H. eapply Forall_impl; [exact H|]. intros e (H1 & H2 & H3). unfold ordinary, price, true_value. by rewrite !get_numerical_lookup.
Qed.
Lemma factors_close fl add prods fs' : rounding fl -> adds_up fl add -> sound_prices prods -> few (3 * length prods + 7) ->
  float_factors fl add prods = Ok fs' ->
  exists fs, economic_factors prods = Ok fs /\
    Forall2 (near (units (3 * length prods + 7))) fs' fs /\ near (units (3 * length prods + 7)) (Qcsum fs') 1.
Proof.
  intros Hfl Hadd Hp Hk H. apply sound_ordinary in Hp. pose proof (factors_rel fl Hfl add Hadd prods Hp) as HR. rewrite H in HR.
  destruct (economic_factors prods) as [fs|] eqn:E; [|done]. exists fs. split; [done|]. rewrite <- slack_units. split.
  - clear - HR Hk. unfold roundings in HR. induction HR; constructor; [|done]. by apply rel_near.
  - rewrite <- (economic_factors_sum _ _ E). apply rel_near; [done|]. by apply rel_sum.
Qed.
Lemma factors_fail fl add prods e : rounding fl -> adds_up fl add -> sound_prices prods ->
  float_factors fl add prods = Err e <-> economic_factors prods = Err e.
Proof.
  intros Hfl Hadd Hp. apply sound_ordinary in Hp. pose proof (factors_rel fl Hfl add Hadd prods Hp) as HR.
  destruct (float_factors fl add prods), (economic_factors prods); try done. by subst.
Qed.
Lemma burdens_close fl add prods fs' n others outs j b : rounding fl -> adds_up fl add -> sound_prices prods ->
  few (3 * length prods + 7) -> float_factors fl add prods = Ok fs' ->
  mapR (fun fp => float_choose fl fp.2 fp.1 n others) (zip fs' (map e_amount prods)) = Ok outs ->
  others !! j = Some b ->
  near (units (3 * length prods + 7) + frac 21 1000000000000000)
    (Qcsum (zip_with (in_total (S n + j)) outs (map e_amount prods))) b.
Proof.
  intros Hfl Hadd Hp Hk Hf Hm Hj. rewrite <- slack_units. apply sound_ordinary in Hp. by eapply (allocated fl Hfl add Hadd).
Qed.
Lemma shares_close fl add is_market amount pvs l : rounding fl -> adds_up fl add -> Forall (fun x => 0 <= x)%Qc pvs ->
  few (length pvs + 2) -> Qcsum pvs <> 0%Qc -> float_inputs fl add is_market amount pvs = Some l ->
  Forall2 (fun pv x => near (units (length pvs + 2)) x (pv / Qcsum pvs * amount)) (giving pvs) l /\
  near (units (length pvs + 2)) (Qcsum l) amount.
Proof. intros Hfl Hadd Hp Hk Ht H. rewrite <- slack_units. by eapply (inputs_whole fl Hfl add Hadd). Qed.
Lemma lone_supplier fl add is_market amount : rounding fl -> adds_up fl add ->
  exists x, float_inputs fl add is_market amount [0%Qc] = Some [x] /\ near (units 1) x amount.
Proof. intros Hfl Hadd. rewrite <- slack_units. by apply inputs_single. Qed.
Lemma amounts_close fl p l out : rounding fl -> float_normalize fl p l = Ok out ->
  Forall2 (fun a a' => near (frac 102 10000000000000000) a' (a / Qcabs p)) l out.
Proof.
  intros Hfl H. pose proof (proj1 (float_normalize_cases fl Hfl _ _ _ H)) as Hp. apply (normalised_any fl Hfl) in H.
  eapply Forall2_impl; [exact H|]. intros a a' (t & E & _ & Ht). cbn. pose proof (Qcabs_pos_nonzero p Hp) as P.
  set (q := Qcabs p) in *. assert (q <> 0%Qc) as Hq by (intros X; rewrite X in P; by apply Qclt_not_eq in P).
  assert (a' = a / q * t)%Qc as ->. { replace a' with (a' * q / q)%Qc by (field; done). rewrite E. field. done. }
  unfold near. replace (a / q * t - a / q)%Qc with ((t - 1) * (a / q))%Qc by ring. rewrite Qcabs_mult.
  apply Qcmult_le_compat_r; [exact Ht|apply Qcabs_nonneg].
Qed.
