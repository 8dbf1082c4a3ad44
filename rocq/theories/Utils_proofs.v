(** Proofs for C05-C08 and C28. *)
From Verif Require Import Base Types Uncertainty Spec_Uncertainty Uncertainty_proofs
  Utils Spec_Utils.

(** ** Filters *)
Lemma filterb_filter {A} (P : A -> Prop) `{forall x, Decision (P x)} (p : A -> bool) l :
  (forall x, x ∈ l -> p x = bool_decide (P x)) -> filterb p l = filter P l.
Proof.
  induction l as [|x l IH]; intros Hp; [done|]. rewrite filter_cons.
  change (filterb p (x :: l)) with (if p x then x :: filterb p l else filterb p l).
  rewrite (Hp x) by left. rewrite IH by (intros; apply Hp; by right).
  case_bool_decide; destruct (decide (P x)); done.
Qed.

Lemma reference_products_filter ds :
  reference_products ds = filter is_refproduct (d_exchanges ds).
Proof. apply filterb_filter. done. Qed.

Lemma production_exchange_ok e b :
  production_exchange e = Ok b <->
  (e_type e = Byproduct -> e_class e <> None) /\ b = bool_decide (alloc_output e).
Proof.
  assert (Hb : exists b0, bool_decide (alloc_output e) = b0 /\ (b0 = true <-> alloc_output e)).
  { exists (bool_decide (alloc_output e)). by rewrite bool_decide_eq_true. }
  destruct Hb as (b0 & -> & Hb).
  unfold alloc_output, alloc_byproduct, is_refproduct in Hb.
  unfold production_exchange.
  destruct (bool_decide (e_type e = RefProduct)) eqn:E1;
    [apply bool_decide_eq_true in E1|apply bool_decide_eq_false in E1].
  { assert (b0 = true) as -> by naive_solver. rewrite E1. naive_solver. }
  destruct (bool_decide (e_type e = Byproduct)) eqn:E2;
    [apply bool_decide_eq_true in E2|apply bool_decide_eq_false in E2].
  - destruct (e_class e) as [c|]; cbn; [|naive_solver].
    assert (bool_decide (c = Allocatable) = b0) as ->; [|naive_solver].
    destruct b0; [apply bool_decide_eq_true|apply bool_decide_eq_false].
    + naive_solver.
    + intros ->. destruct Hb as [_ Hb]. assert (false = true) by (apply Hb; auto). done.
  - assert (b0 = false) as ->; [|naive_solver].
    destruct b0; [|done]. naive_solver.
Qed.

Lemma allocatable_production_ok ds es :
  allocatable_production ds = Ok es <->
  classified ds /\ es = filter alloc_output (d_exchanges ds).
Proof.
  unfold allocatable_production, classified. rewrite filterR_Ok.
  assert (Hc : Forall (fun e => is_ok (production_exchange e) = true) (d_exchanges ds) <->
               Forall (fun e => e_type e = Byproduct -> e_class e <> None) (d_exchanges ds)).
  { apply Forall_iff. intros e. destruct (production_exchange e) as [b|] eqn:E; cbn.
    - apply production_exchange_ok in E. naive_solver.
    - split; [done|]. intros H.
      assert (production_exchange e = Ok (bool_decide (alloc_output e)));
        [by apply production_exchange_ok|congruence]. }
  rewrite Hc. split; intros [H ->]; (split; [done|]).
  - apply filterb_filter. intros e He. unfold okb.
    apply Hc in H. rewrite Forall_forall in H. specialize (H e He).
    destruct (production_exchange e) eqn:E; [|done].
    apply production_exchange_ok in E. naive_solver.
  - symmetry. apply filterb_filter. intros e He. unfold okb.
    apply Hc in H. rewrite Forall_forall in H. specialize (H e He).
    destruct (production_exchange e) eqn:E; [|done].
    apply production_exchange_ok in E. naive_solver.
Qed.

Lemma nonproduction_exchanges_ok ds es :
  nonproduction_exchanges ds = Ok es <->
  classified ds /\ es = filter (fun e => ~ alloc_output e) (d_exchanges ds).
Proof.
  unfold nonproduction_exchanges, classified. rewrite filterR_Ok.
  assert (Hc : Forall (fun e => is_ok (fmapR negb (production_exchange e)) = true) (d_exchanges ds) <->
               Forall (fun e => e_type e = Byproduct -> e_class e <> None) (d_exchanges ds)).
  { apply Forall_iff. intros e. destruct (production_exchange e) as [b|] eqn:E; cbn.
    - apply production_exchange_ok in E. naive_solver.
    - split; [done|]. intros H.
      assert (production_exchange e = Ok (bool_decide (alloc_output e)));
        [by apply production_exchange_ok|congruence]. }
  rewrite Hc.
  assert (Hf : Forall (fun e => e_type e = Byproduct -> e_class e <> None) (d_exchanges ds) ->
    filterb (okb (fun e => fmapR negb (production_exchange e))) (d_exchanges ds)
    = filter (fun e => ~ alloc_output e) (d_exchanges ds)).
  { intros H. apply filterb_filter. intros e He. unfold okb.
    rewrite Forall_forall in H. specialize (H e He).
    assert (production_exchange e = Ok (bool_decide (alloc_output e))) as ->
      by (by apply production_exchange_ok).
    cbn. rewrite bool_decide_not. done. }
  split; intros [H ->]; (split; [done|]); auto. symmetry; auto.
Qed.

Lemma get_single_ok ds rp :
  get_single_reference_product ds = Ok rp <->
  filter is_refproduct (d_exchanges ds) = [rp].
Proof.
  unfold get_single_reference_product. rewrite reference_products_filter.
  destruct (filter _ _) as [|e [|e' l]]; split; intros H; try discriminate;
    congruence.
Qed.

(** ** Scaling lists *)
Lemma same_besides_refl e : same_besides_amount_uncertainty e e.
Proof. unfold same_besides_amount_uncertainty. repeat split. Qed.
Lemma same_besides_trans e1 e2 e3 :
  same_besides_amount_uncertainty e1 e2 -> same_besides_amount_uncertainty e2 e3 ->
  same_besides_amount_uncertainty e1 e3.
Proof. unfold same_besides_amount_uncertainty. intuition congruence. Qed.

Lemma scale_all_scaled ln f es es' :
  scale_all ln f es = Ok es' -> Forall2 (scaled_by f) es es'.
Proof.
  unfold scale_all. rewrite mapR_Ok. intros HF. eapply Forall2_impl; [exact HF|]. cbn. intros e e' H.
  by apply scale_exchange_spec in H.
Qed.
Lemma scale_all_one ln es : scale_all ln 1 es = Ok es.
Proof.
  unfold scale_all. rewrite (mapR_ext _ (fun e => Ok (id e))).
  - rewrite mapR_pure. by rewrite map_id.
  - intros. apply scale_exchange_one.
Qed.
Lemma scaled_by_refl e : scaled_by 1 e e.
Proof. split; [ring|apply same_besides_refl]. Qed.
Lemma scaled_by_trans k1 k2 e1 e2 e3 :
  scaled_by k1 e1 e2 -> scaled_by k2 e2 e3 -> scaled_by (k1 * k2) e1 e3.
Proof.
  intros [H1 S1] [H2 S2]. split; [rewrite H2, H1; ring|].
  by eapply same_besides_trans.
Qed.

Lemma scaled_filter (P : exchange -> Prop) `{forall x, Decision (P x)} k es es' :
  (forall e e', same_besides_amount_uncertainty e e' -> P e <-> P e') ->
  Forall2 (scaled_by k) es es' ->
  Forall2 (scaled_by k) (filter P es) (filter P es').
Proof.
  intros HP. induction 1 as [|e e' es es' He Hes IH]; [constructor|].
  rewrite !filter_cons. destruct He as [Ha Hs].
  destruct (decide (P e)) as [p|p], (decide (P e')) as [p'|p'].
  - constructor; [by split|done].
  - exfalso. apply p'. by apply (HP e e').
  - exfalso. apply p. by apply (HP e e').
  - done.
Qed.
Lemma is_refproduct_same e e' :
  same_besides_amount_uncertainty e e' -> is_refproduct e <-> is_refproduct e'.
Proof. unfold same_besides_amount_uncertainty, is_refproduct. intros (?&?&?&->&?). done. Qed.
Lemma alloc_output_same e e' :
  same_besides_amount_uncertainty e e' -> alloc_output e <-> alloc_output e'.
Proof.
  unfold same_besides_amount_uncertainty, alloc_output, is_refproduct, alloc_byproduct.
  intros (?&?&?&->&->&?). done.
Qed.

(** ** C05 *)
Lemma Qc_div_pos a : a <> 0%Qc -> (0 < 1 / Qcabs a)%Qc.
Proof.
  intros Ha. assert (0 < Qcabs a)%Qc.
  { assert (Qcabs a <> 0%Qc) by (rewrite Qcabs_zero; done).
    pose proof (Qcabs_nonneg a) as Hn. apply Qcle_lt_or_eq in Hn as [?|Hn]; [done|].
    congruence. }
  assert (Hinv : (1 / Qcabs a * Qcabs a = 1)%Qc) by (field; intros E; qclra).
  destruct (Qclt_le_dec 0 (1 / Qcabs a)) as [|Hle]; [done|].
  exfalso. assert (1 / Qcabs a * Qcabs a <= 0)%Qc by qcnra. qclra.
Qed.
Lemma Qc_norm a : a <> 0%Qc ->
  (a * (1 / Qcabs a) = 1 \/ a * (1 / Qcabs a) = - (1))%Qc.
Proof.
  intros Ha. unfold Qcabs. destruct (Qcltb a 0) eqn:E.
  - right. field. intros H. apply Ha. qclra.
  - left. field. done.
Qed.

Lemma normalize_spec ln ds ds' :
  normalize_reference_production_amount ln ds = Ok ds' ->
  exists rp k es',
    filter is_refproduct (d_exchanges ds) = [rp] /\ e_amount rp <> 0%Qc /\
    normalising_factor (e_amount rp) k /\
    ds' = set_d_exchanges es' ds /\
    Forall2 (scaled_by k) (d_exchanges ds) es' /\
    scale_all ln k (d_exchanges ds) = Ok es'.
Proof.
  unfold normalize_reference_production_amount. intros H. inv_ok; subst.
  - apply get_single_ok in Hok. qc_bool.
    apply negb_false_iff in Heqb. qc_bool.
    exists v, (1 / Qcabs (e_amount v))%Qc, v1. split; [done|]. split; [done|].
    split.
    { split; [by apply Qc_div_pos|]. left. by apply Qc_norm. }
    split; [done|]. split; [|done]. by eapply scale_all_scaled.
  - apply get_single_ok in Hok. apply negb_false_iff in Heqb. qc_bool.
    exists v, 1%Qc, (d_exchanges ds'). split; [done|]. split; [done|].
    split.
    { split; [done|]. right. split; [done|]. exact Heqb0. }
    split; [by destruct ds'|]. split; [|apply scale_all_one].
    apply Forall_Forall2_diag. apply Forall_true. apply scaled_by_refl.
Qed.

Lemma normalize_idem ln ds ds' :
  normalize_reference_production_amount ln ds = Ok ds' ->
  normalize_reference_production_amount ln ds' = Ok ds'.
Proof.
  intros H. pose proof H as Hspec.
  apply normalize_spec in Hspec as (rp & k & es' & Hrp & Ha & [Hk Hnorm] & -> & Hes & Hsc).
  destruct Hnorm as [Hnorm|[-> Hnear]].
  - pose proof (scaled_filter is_refproduct k _ _ is_refproduct_same Hes) as Hf.
    rewrite Hrp in Hf.
    destruct (filter is_refproduct es') as [|rp' [|x l]] eqn:Hf'.
    { inversion Hf. }
    2: { apply Forall2_length in Hf. discriminate. }
    assert (Hrp' : scaled_by k rp rp') by (by inversion Hf). destruct Hrp' as [Hrp' _].
    unfold normalize_reference_production_amount.
    assert (get_single_reference_product (set_d_exchanges es' ds) = Ok rp') as ->.
    { apply get_single_ok. cbn. done. }
    cbn [bind].
    assert (Habs : Qcabs (e_amount rp') = 1%Qc).
    { rewrite Hrp'. destruct Hnorm as [-> | ->]; by_compute. }
    assert (Qctruthy (e_amount rp') = true) as ->.
    { apply Qctruthy_true. intros E. rewrite E in Habs. revert Habs. by_compute. }
    cbn. rewrite Habs.
    assert (divR 1 1 = Ok 1%Qc) as -> by by_compute.
    cbn. assert (Qcltb epsilon (Qcabs (1 - 1)) = false) as -> by by_compute.
    done.
  - rewrite scale_all_one in Hsc. injection Hsc as <-.
    assert (set_d_exchanges (d_exchanges ds) ds = ds) as Heq by (by destruct ds).
    rewrite Heq in *. done.
Qed.

Lemma normalize_errors ln ds :
  (filter is_refproduct (d_exchanges ds) = [] ->
     normalize_reference_production_amount ln ds = Err ValueError) /\
  (2 <= length (filter is_refproduct (d_exchanges ds)) ->
     normalize_reference_production_amount ln ds = Err InvalidMultioutputDataset) /\
  (forall rp, filter is_refproduct (d_exchanges ds) = [rp] -> e_amount rp = 0%Qc ->
     normalize_reference_production_amount ln ds = Err ZeroProduction) /\
  (forall rp, filter is_refproduct (d_exchanges ds) = [rp] -> e_amount rp <> 0%Qc ->
     Forall (fun e => wf_dist ln (e_amount e) (e_unc e)) (d_exchanges ds) ->
     exists ds', normalize_reference_production_amount ln ds = Ok ds' /\
       Forall (fun e => wf_dist ln (e_amount e) (e_unc e)) (d_exchanges ds')).
Proof.
  unfold normalize_reference_production_amount, get_single_reference_product.
  rewrite reference_products_filter.
  split; [|split; [|split]].
  - intros ->. done.
  - destruct (filter _ _) as [|e [|e' l]]; cbn; intros; try lia. done.
  - intros rp -> Ha. cbn. rewrite Ha. done.
  - intros rp -> Ha Hwf. cbn.
    assert (Qctruthy (e_amount rp) = true) as -> by (by apply Qctruthy_true). cbn.
    assert (Habs : Qcabs (e_amount rp) <> 0%Qc) by (rewrite Qcabs_zero; done).
    assert (divR 1 (Qcabs (e_amount rp)) = Ok (1 / Qcabs (e_amount rp))%Qc) as ->
      by (by apply divR_Ok).
    cbn. set (k := (1 / Qcabs (e_amount rp))%Qc).
    assert (Hk : k <> 0%Qc) by (pose proof (Qc_div_pos _ Ha); subst k; intros E; qclra).
    destruct (Qcltb _ _); [|eauto].
    assert (Hone : forall e, wf_dist ln (e_amount e) (e_unc e) ->
              exists e', scale_exchange ln e k = Ok e' /\
                         wf_dist ln (e_amount e') (e_unc e')).
    { intros e He. destruct (scale_obj_wf ln (e_amount e) (e_unc e) (e_ped e) k Hk He)
        as (o' & Ho & Ha' & _ & Hw & _).
      unfold scale_exchange, e_view. rewrite Ho. cbn [bind].
      eexists. split; [reflexivity|]. cbn. by rewrite Ha'. }
    assert (exists es', scale_all ln k (d_exchanges ds) = Ok es' /\
              Forall (fun e => wf_dist ln (e_amount e) (e_unc e)) es')
      as (es' & -> & Hes').
    { unfold scale_all. induction Hwf as [|e es He Hes IH]; cbn; [eauto|].
      destruct (Hone e He) as (e' & -> & He'). cbn.
      destruct IH as (es' & -> & Hes'). cbn. eauto. }
    cbn. eauto.
Qed.

(** ** C06 *)
Lemma scale_certain ln e k :
  e_unc e = None -> scale_exchange ln e k = Ok (set_e_amount (e_amount e * k)%Qc e).
Proof.
  intros Hu. unfold scale_exchange, scale_obj, e_view. rewrite Hu.
  destruct (Qceqb k 1) eqn:E; cbn.
  - qc_bool. subst. rewrite Qcmult_1_r. f_equal. destruct e; cbn in *. subst. done.
  - unfold e_put. cbn. destruct e; cbn in *; subst. done.
Qed.

Lemma scale_all_app ln k l1 l2 es :
  scale_all ln k (l1 ++ l2) = Ok es ->
  exists es1 es2, es = es1 ++ es2 /\ scale_all ln k l1 = Ok es1 /\ scale_all ln k l2 = Ok es2.
Proof.
  unfold scale_all. rewrite mapR_app. intros H. inv_ok. subst. eauto.
Qed.

Lemma scale_all_certain ln k l :
  Forall (fun e => e_unc e = None) l ->
  scale_all ln k l = Ok (map (fun e => set_e_amount (e_amount e * k)%Qc e) l).
Proof.
  unfold scale_all. induction 1 as [|e l He Hl IH]; [done|].
  cbn [mapR map]. rewrite scale_certain by done. cbn [bind]. rewrite IH. done.
Qed.

Lemma choose_spec ln ds exc f ds' :
  choose_reference_product_exchange ln ds exc f = Ok ds' ->
  e_amount exc <> 0%Qc /\ classified ds /\
  exists k rp' dropped others,
    normalising_factor (e_amount exc) k /\
    ds' = set_d_exchanges (rp' :: dropped ++ others) ds /\
    made_reference k exc rp' /\
    Forall2 dropped_from
      (filter (fun e => e <> exc) (filter alloc_output (d_exchanges ds))) dropped /\
    Forall2 (scaled_by (f * k))
      (filter (fun e => ~ alloc_output e) (d_exchanges ds)) others /\
    filter alloc_output (d_exchanges ds') = [rp'].
Proof.
  unfold choose_reference_product_exchange. intros H. inv_ok.
  apply negb_false_iff in Heqb. qc_bool. split; [done|].
  apply allocatable_production_ok in Hok as [Hcl ->].
  apply nonproduction_exchanges_ok in Hok0 as [_ ->]. split; [done|].
  rename v1 into scaled.
  pose proof (scale_all_scaled _ _ _ _ Hok1) as Hscaled.
  apply normalize_spec in H as (rp & k & es' & Hrp & Ha & Hk & -> & _ & Hes).
  cbn [d_exchanges set_d_exchanges] in *.
  assert (rp = set_e_class None (set_e_type RefProduct (remove_exchange_uncertainty exc))) as ->.
  { rewrite filter_cons_True in Hrp by done. by injection Hrp. }
  cbn [e_amount set_e_class set_e_type remove_exchange_uncertainty set_e_unc] in Hk.
  unfold scale_all in Hes. cbn [mapR] in Hes. rewrite scale_certain in Hes by done.
  cbn [bind] in Hes. inv_ok. subst es'. fold (scale_all ln k) in Hok.
  apply scale_all_app in Hok as (d' & o' & -> & Hd & Ho).
  rewrite scale_all_certain in Hd.
  2: { apply Forall_forall. intros e He. apply elem_of_list_fmap in He as (e0 & -> & _). done. }
  apply Ok_inj in Hd. subst d'. apply scale_all_scaled in Ho.
  eexists k, _, _, _. split; [done|]. split; [reflexivity|].
  split; [|split; [|split]].
  - unfold made_reference. cbn. repeat split.
  - rewrite map_map. clear.
    rewrite (filterb_filter (fun e => e <> exc)) by done.
    induction (filter _ (filter _ _)) as [|e l IH]; cbn; constructor; [|done].
    unfold dropped_from, nonreference_product. cbn. repeat split. ring.
  - eapply Forall2_transitive; [|exact Hscaled|exact Ho].
    intros e1 e2 e3 H1 H2. cbn in *. by eapply scaled_by_trans.
  - cbn [d_exchanges set_d_exchanges].
    rewrite filter_cons_True by (left; done). f_equal.
    rewrite filter_app.
    assert (forall l, Forall (fun e => ~ alloc_output e) l -> filter alloc_output l = []) as Hnil.
    { induction 1; [done|]. by rewrite filter_cons_False. }
    rewrite !Hnil; [done| |].
    + assert (Hno : Forall (fun e => ~ alloc_output e)
        (filter (fun e => ~ alloc_output e) (d_exchanges ds))).
      { apply Forall_forall. intros e He. apply elem_of_list_filter in He. tauto. }
      assert (Hno2 : forall l1 l2 q, Forall2 (scaled_by q) l1 l2 ->
         Forall (fun e => ~ alloc_output e) l1 -> Forall (fun e => ~ alloc_output e) l2).
      { induction 1 as [|a b l1 l2 [_ Hs] H12 IH]; intros HF; [done|].
        inversion HF; subst. constructor; [|auto].
        rewrite <- (alloc_output_same a b); done. }
      eauto.
    + rewrite map_map. apply Forall_forall. intros e He.
      apply elem_of_list_fmap in He as (e0 & -> & _). cbn.
      unfold alloc_output, is_refproduct, alloc_byproduct. cbn. naive_solver.
Qed.

(** Totality of choosing. *)
Lemma choose_total ln ds exc f :
  e_amount exc <> 0%Qc -> classified ds -> f <> 0%Qc ->
  Forall (fun e => wf_dist ln (e_amount e) (e_unc e)) (d_exchanges ds) ->
  exists ds', choose_reference_product_exchange ln ds exc f = Ok ds'.
Proof.
  intros Ha Hcl Hf Hwf. unfold choose_reference_product_exchange.
  assert (Qctruthy (e_amount exc) = true) as -> by (by apply Qctruthy_true). cbn [negb].
  assert (allocatable_production ds = Ok (filter alloc_output (d_exchanges ds))) as ->
    by (by apply allocatable_production_ok).
  assert (nonproduction_exchanges ds = Ok (filter (fun e => ~ alloc_output e) (d_exchanges ds))) as ->
    by (by apply nonproduction_exchanges_ok).
  cbn [bind].
  assert (Hone : forall e, wf_dist ln (e_amount e) (e_unc e) ->
            exists e', scale_exchange ln e f = Ok e' /\
                       wf_dist ln (e_amount e') (e_unc e')).
  { intros e He. destruct (scale_obj_wf ln (e_amount e) (e_unc e) (e_ped e) f Hf He)
      as (o' & Ho & Ha' & _ & Hw & _).
    unfold scale_exchange, e_view. rewrite Ho. cbn [bind].
    eexists. split; [reflexivity|]. cbn. by rewrite Ha'. }
  assert (Hall : exists es', scale_all ln f (filter (fun e => ~ alloc_output e) (d_exchanges ds)) = Ok es' /\
            Forall (fun e => wf_dist ln (e_amount e) (e_unc e)) es').
  { assert (Hw' : Forall (fun e => wf_dist ln (e_amount e) (e_unc e))
                    (filter (fun e => ~ alloc_output e) (d_exchanges ds))).
    { rewrite Forall_forall in *. intros e He. apply elem_of_list_filter in He as [_ He]. auto. }
    unfold scale_all. induction Hw' as [|e es He Hes IH]; cbn; [eauto|].
    destruct (Hone e He) as (e' & -> & He'). cbn.
    destruct IH as (es' & -> & Hes'). cbn. eauto. }
  destruct Hall as (es' & Hes & Hwf'). rewrite Hes. cbn [bind].
  pose proof (scale_all_scaled _ _ _ _ Hes) as Hsc.
  match goal with |- exists ds', normalize_reference_production_amount ln ?d = Ok ds' =>
    destruct (normalize_errors ln d) as (_ & _ & _ & Hn) end.
  destruct (Hn (set_e_class None (set_e_type RefProduct (remove_exchange_uncertainty exc))))
    as (ds' & -> & _).
  - cbn [d_exchanges set_d_exchanges]. rewrite filter_cons_True by done. f_equal.
    assert (Hnil : forall l, Forall (fun e => ~ is_refproduct e) l -> filter is_refproduct l = []).
    { induction 1; [done|]. by rewrite filter_cons_False. }
    rewrite filter_app, !Hnil; [done| |].
    + apply Forall_forall. intros e He. apply elem_of_list_lookup in He as [i Hi].
      destruct (Forall2_lookup_r _ _ _ _ _ Hsc Hi) as (e0 & He0 & [_ Hs]).
      apply elem_of_list_lookup_2, elem_of_list_filter in He0 as [Hno _].
      rewrite <- (is_refproduct_same e0 e) by done. intros Hr. apply Hno. by left.
    + apply Forall_forall. intros e He.
      apply elem_of_list_fmap in He as (e0 & -> & _). done.
  - done.
  - cbn [d_exchanges set_d_exchanges]. constructor; [done|]. apply Forall_app. split; [|done].
    apply Forall_forall. intros e He. apply elem_of_list_fmap in He as (e0 & -> & _). done.
  - eauto.
Qed.

Lemma choose_errors ln ds exc f :
  (e_amount exc = 0%Qc -> choose_reference_product_exchange ln ds exc f = Err ZeroProduction) /\
  (e_amount exc <> 0%Qc -> ~ classified ds ->
     choose_reference_product_exchange ln ds exc f = Err (KeyError "byproduct classification")).
Proof.
  unfold choose_reference_product_exchange. split; intros Ha.
  - rewrite Ha. done.
  - intros Hc. assert (Qctruthy (e_amount exc) = true) as -> by (by apply Qctruthy_true). cbn [negb].
    assert (allocatable_production ds = Err (KeyError "byproduct classification")) as ->; [|done].
    unfold allocatable_production. unfold classified in Hc.
    induction (d_exchanges ds) as [|e es IH]; [exfalso; apply Hc; constructor|].
    cbn [filterR]. destruct (production_exchange e) as [b|err] eqn:E; cbn [bind].
    + rewrite IH; [done|]. intros HF. apply Hc. constructor; [|done].
      apply production_exchange_ok in E. tauto.
    + unfold production_exchange in E.
      destruct (bool_decide _); [done|]. destruct (bool_decide _); [|done].
      destruct (e_class e); cbn in E; [done|]. congruence.
Qed.

(** ** C07, C08 *)
Lemma lower_ascii_idem c : lower_ascii (lower_ascii c) = lower_ascii c.
Proof. destruct c as [[] [] [] [] [] [] [] []]; vm_compute; reflexivity. Qed.
Lemma lower_idem s : lower (lower s) = lower s.
Proof. induction s as [|c s IH]; cbn [lower]; [done|]. by rewrite lower_ascii_idem, IH. Qed.
Lemma lower_length s : String.length (lower s) = String.length s.
Proof. induction s; cbn [lower String.length]; congruence. Qed.
Lemma lower_app s t : lower (s ++ t) = (lower s ++ lower t)%string.
Proof. induction s as [|c s IH]; [done|].
  change (String c s ++ t)%string with (String c (s ++ t)). cbn [lower]. by rewrite IH. Qed.

Lemma str_app_inj_length s1 s2 t1 t2 :
  String.length s1 = String.length s2 -> (s1 ++ t1 = s2 ++ t2)%string -> s1 = s2 /\ t1 = t2.
Proof.
  revert s2. induction s1 as [|c s1 IH]; intros [|c' s2]; cbn; intros HL H; try discriminate.
  - done.
  - change (String c s1 ++ t1)%string with (String c (s1 ++ t1)) in H.
    change (String c' s2 ++ t2)%string with (String c' (s2 ++ t2)) in H.
    injection HL as HL. injection H as -> H. destruct (IH _ HL H) as [-> ->]. done.
Qed.
Lemma str_app_length s t : String.length (s ++ t) = String.length s + String.length t.
Proof.
  induction s as [|c s IH]; [done|].
  change (String c s ++ t)%string with (String c (s ++ t)). cbn. by rewrite IH.
Qed.

(** If all but one of the fields have the same length, equal codes mean equal
    fields; [l] below is the location. *)
Lemma activity_hash_inj md5 d1 d2 :
  (forall s t, md5 s = md5 t -> s = t) ->
  String.length (d_name d1) = String.length (d_name d2) ->
  String.length (default "" (d_refprod d1)) = String.length (default "" (d_refprod d2)) ->
  String.length (default "" (d_unit d1)) = String.length (default "" (d_unit d2)) ->
  String.length (d_start d1) = String.length (d_start d2) ->
  String.length (d_end d1) = String.length (d_end d2) ->
  activity_hash md5 d1 = activity_hash md5 d2 -> same_identity lower d1 d2.
Proof.
  intros Hinj L1 L2 L3 L5 L6 H. unfold activity_hash in H. apply Hinj in H.
  assert (L4 : String.length (d_location d1) = String.length (d_location d2)).
  { apply (f_equal String.length) in H. rewrite !str_app_length, !lower_length in H. lia. }
  apply str_app_inj_length in H as [E1 H]; [|by rewrite !lower_length].
  apply str_app_inj_length in H as [E2 H]; [|by rewrite !lower_length].
  apply str_app_inj_length in H as [E3 H]; [|by rewrite !lower_length].
  apply str_app_inj_length in H as [E4 H]; [|by rewrite !lower_length].
  apply str_app_inj_length in H as [E5 E6]; [|by rewrite !lower_length].
  repeat split; done.
Qed.

(** Within one activity name and product, codes distinguish location and
    (fixed-width) dates. *)
Lemma activity_hash_group md5 d1 d2 :
  (forall s t, md5 s = md5 t -> s = t) ->
  lower (d_name d1) = lower (d_name d2) ->
  lower (default "" (d_refprod d1)) = lower (default "" (d_refprod d2)) ->
  d_unit d1 = None -> d_unit d2 = None ->
  String.length (d_start d1) = 10 -> String.length (d_end d1) = 10 ->
  String.length (d_start d2) = 10 -> String.length (d_end d2) = 10 ->
  (activity_hash md5 d1 = activity_hash md5 d2 <-> same_identity lower d1 d2).
Proof.
  intros Hinj E1 E2 U1 U2 L1 L2 L3 L4. split.
  - intros H. apply (activity_hash_inj md5); auto; try congruence.
    + rewrite <- (lower_length (d_name d1)), E1. apply lower_length.
    + rewrite <- (lower_length (default "" (d_refprod d1))), E2. apply lower_length.
  - intros (H1 & H2 & H3 & H4 & H5 & H6). unfold activity_hash. congruence.
Qed.

Lemma same_identity_same_hash md5 d1 d2 :
  same_identity lower d1 d2 -> activity_hash md5 d1 = activity_hash md5 d2.
Proof. intros (H1 & H2 & H3 & H4 & H5 & H6). unfold activity_hash. congruence. Qed.

Lemma add_unique_codes_from_spec md5 seen data :
  (NoDup (map (activity_hash md5) data) /\
   Forall (fun d => activity_hash md5 d ∉ seen) data /\
   add_unique_codes_from md5 seen data
     = Ok (map (fun d => set_d_code (Some (activity_hash md5 d)) d) data)) \/
  (~ (NoDup (map (activity_hash md5) data) /\
      Forall (fun d => activity_hash md5 d ∉ seen) data) /\
   add_unique_codes_from md5 seen data = Err IdenticalDatasets).
Proof.
  revert seen. induction data as [|d data IH]; intros seen.
  - left. repeat split; constructor.
  - cbn [add_unique_codes_from map]. case_bool_decide as Hin.
    + right. split; [|done]. intros [_ HF]. inversion HF. done.
    + destruct (IH (activity_hash md5 d :: seen)) as [(Hnd & HF & ->)|[Hno ->]]; cbn [bind].
      * left. split; [|split; [|done]].
        { constructor; [|done]. intros Hm. apply elem_of_list_fmap in Hm as (d' & Heq & Hd').
          rewrite Forall_forall in HF. apply (HF d' Hd'). rewrite <- Heq. left. }
        constructor; [done|]. eapply Forall_impl; [exact HF|]. cbn. intros x Hx Hs.
        apply Hx. by right.
      * right. split; [|done]. intros [Hnd HF]. apply Hno.
        apply NoDup_cons in Hnd as [Hd Hnd]. inversion HF as [|? ? Hds HF']; subst.
        split; [done|]. rewrite Forall_forall in *. intros x Hx Hm.
        apply elem_of_cons in Hm as [Heq|Hm]; [|by eapply HF'].
        apply Hd. rewrite <- Heq. apply elem_of_list_fmap. eauto.
Qed.

Lemma add_unique_codes_spec md5 data :
  (forall data', add_unique_codes md5 data = Ok data' ->
     data' = map (fun d => set_d_code (Some (activity_hash md5 d)) d) data /\
     NoDup (map d_code data')) /\
  (add_unique_codes md5 data = Err IdenticalDatasets <->
     ~ NoDup (map (activity_hash md5) data)) /\
  (is_ok (add_unique_codes md5 data) = true <-> NoDup (map (activity_hash md5) data)).
Proof.
  unfold add_unique_codes.
  destruct (add_unique_codes_from_spec md5 [] data) as [(Hnd & _ & ->)|[Hno ->]].
  - split; [|split].
    + intros data' H. apply Ok_inj in H. subst. split; [done|]. rewrite map_map.
      change (map (fun x => d_code (set_d_code (Some (activity_hash md5 x)) x)) data)
        with (map (fun x => Some (activity_hash md5 x)) data).
      rewrite <- (map_map (activity_hash md5) Some). apply NoDup_fmap_2; [|done].
      intros x y [= ->]. done.
    + split; [discriminate|]. done.
    + done.
  - assert (~ NoDup (map (activity_hash md5) data)).
    { intros Hnd. apply Hno. split; [done|]. apply Forall_true. intros x. apply not_elem_of_nil. }
    split; [|split]; [discriminate|done|]. split; [discriminate|done].
Qed.

Lemma label_spec data :
  (forall data', label_reference_product data = Ok data' ->
     Forall2 (fun ds ds' => exists rp, filter is_refproduct (d_exchanges ds) = [rp] /\
                                       ds' = set_d_refprod (Some (e_name rp)) ds) data data') /\
  (is_ok (label_reference_product data) = true <->
   Forall (fun ds => length (filter is_refproduct (d_exchanges ds)) = 1) data).
Proof.
  split.
  - intros data' H. apply mapR_Ok in H. eapply Forall2_impl; [exact H|]. cbn.
    intros ds ds' Hd. inv_ok. apply get_single_ok in Hok. eauto.
  - unfold label_reference_product. induction data as [|ds data IH]; cbn [mapR].
    + split; constructor.
    + destruct (get_single_reference_product ds) as [rp|err] eqn:E; cbn [bind].
      * apply get_single_ok in E.
        destruct (mapR _ data); cbn [bind is_ok] in *; split; intros H; try done.
        { constructor; [by rewrite E|]. by apply IH. }
        { inversion H; subst. by apply IH. }
      * split; [done|]. intros H. inversion H as [|? ? Hl Hr]; subst. exfalso.
        destruct (filter _ _) as [|rp [|? ?]] eqn:Ef; cbn in Hl; try lia.
        assert (get_single_reference_product ds = Ok rp) by (by apply get_single_ok).
        congruence.
Qed.

(** ** C28 *)
Lemma first_largest_spec l r :
  (foldl first_largest r l = r \/ foldl first_largest r l ∈ l) /\
  (Qcabs r <= Qcabs (foldl first_largest r l))%Qc /\
  Forall (fun x => Qcabs x <= Qcabs (foldl first_largest r l))%Qc l.
Proof.
  revert r. induction l as [|x l IH]; intros r; cbn [foldl].
  - split; [by left|]. split; [apply Qcle_refl|constructor].
  - destruct (IH (first_largest r x)) as (H1 & H2 & H3).
    assert (Hr : (Qcabs r <= Qcabs (first_largest r x))%Qc /\
                 (Qcabs x <= Qcabs (first_largest r x))%Qc).
    { unfold first_largest. destruct (Qcltb _ _) eqn:E; qc_bool; split;
        try apply Qcle_refl; try done. by apply Qclt_le_weak. }
    split; [|split].
    + destruct H1 as [->|H1].
      * unfold first_largest. destruct (Qcltb _ _); [right; left|by left].
      * right. by right.
    + eapply Qcle_trans; [|exact H2]. tauto.
    + constructor; [|done]. eapply Qcle_trans; [|exact H2]. tauto.
Qed.

Lemma biggest_ratio_ok ds r :
  get_biggest_pv_to_exchange_ratio ds = Ok r -> biggest_ratio ds r.
Proof.
  unfold get_biggest_pv_to_exchange_ratio. rewrite reference_products_filter.
  intros H. inv_ok. destruct v as [|r0 rs]; [discriminate|]. apply Ok_inj in H.
  assert (Hr : r ∈ r0 :: rs /\ Forall (fun x => Qcabs x <= Qcabs r)%Qc (r0 :: rs)).
  { destruct (first_largest_spec rs r0) as (H1 & H2 & H3). rewrite H in *. split.
    - destruct H1 as [-> |H1]; [left|by right].
    - by constructor. }
  clear H. destruct Hr as [Hin Hmax]. apply mapR_Ok in Hok. split.
  - apply elem_of_list_lookup in Hin as [i Hi].
    destruct (Forall2_lookup_r _ _ _ _ _ Hok Hi) as (e & He & Hd).
    apply elem_of_list_lookup_2, filterb_In in He as [He Ht].
    apply elem_of_list_filter in He as [Href He]. inv_ok. qc_bool.
    exists e, v. auto.
  - intros e v He Href Ha Hv.
    assert (Hin' : e ∈ filterb (fun e => Qctruthy (e_amount e))
                     (filter is_refproduct (d_exchanges ds))).
    { apply filterb_In. split; [|by apply Qctruthy_true]. by apply elem_of_list_filter. }
    apply elem_of_list_lookup in Hin' as [i Hi].
    destruct (Forall2_lookup_l _ _ _ _ _ Hok Hi) as (x & Hx & Hd).
    rewrite Hv in Hd. cbn in Hd. inv_ok. subst x.
    rewrite Forall_forall in Hmax. apply Hmax. by eapply elem_of_list_lookup_2.
Qed.

Lemma is_allocatable_byproduct_ok e b :
  is_allocatable_byproduct e = Ok b <->
  (e_type e = Byproduct -> e_class e <> None) /\ b = bool_decide (alloc_byproduct e).
Proof.
  assert (Hb : exists b0, bool_decide (alloc_byproduct e) = b0 /\ (b0 = true <-> alloc_byproduct e)).
  { exists (bool_decide (alloc_byproduct e)). by rewrite bool_decide_eq_true. }
  destruct Hb as (b0 & -> & Hb). unfold alloc_byproduct in Hb.
  unfold is_allocatable_byproduct.
  destruct (bool_decide (e_type e = Byproduct)) eqn:E2;
    [apply bool_decide_eq_true in E2|apply bool_decide_eq_false in E2].
  - destruct (e_class e) as [c|]; cbn; [|naive_solver].
    assert (bool_decide (c = Allocatable) = b0) as ->; [|naive_solver].
    destruct b0; [apply bool_decide_eq_true|apply bool_decide_eq_false].
    + naive_solver.
    + intros ->. destruct Hb as [_ Hb]. assert (false = true) by (apply Hb; auto). done.
  - assert (b0 = false) as ->; [|naive_solver].
    destruct b0; [|done]. naive_solver.
Qed.

Lemma add_pv_to_byproduct_ok scale e e' :
  add_pv_to_byproduct scale e = Ok e' -> pv_filled scale e e'.
Proof.
  unfold add_pv_to_byproduct. intros H. inv_ok; subst.
  - apply is_allocatable_byproduct_ok in Hok as [_ Hb]. symmetry in Hb.
    apply bool_decide_eq_true in Hb. qc_bool. right. eauto.
  - apply is_allocatable_byproduct_ok in Hok as [_ Hb]. symmetry in Hb.
    apply bool_decide_eq_true in Hb. qc_bool. left. eauto.
  - apply is_allocatable_byproduct_ok in Hok as [_ Hb]. symmetry in Hb.
    apply bool_decide_eq_false in Hb. right. split; [|done]. intros. done.
Qed.

Lemma add_pv_ds_ok ds ds' :
  add_pv_to_allocatable_byproducts_ds ds = Ok ds' ->
  (ds' = ds /\ Forall (fun e => ~ alloc_byproduct e) (d_exchanges ds)) \/
  (Exists alloc_byproduct (d_exchanges ds) /\
   exists r es', biggest_ratio ds r /\ Forall2 (pv_filled r) (d_exchanges ds) es' /\
                 ds' = set_d_exchanges es' ds).
Proof.
  unfold add_pv_to_allocatable_byproducts_ds. intros H. inv_ok; subst.
  - right. apply anyR_true in Hok as (l1 & x & l2 & Heq & Hx & _).
    apply is_allocatable_byproduct_ok in Hx as [_ Hx]. symmetry in Hx.
    apply bool_decide_eq_true in Hx. split.
    { rewrite Heq. apply Exists_app. right. by left. }
    apply biggest_ratio_ok in Hok0. apply mapR_Ok in Hok1.
    eexists _, _. split; [done|]. split; [|done].
    eapply Forall2_impl; [exact Hok1|]. intros. by apply add_pv_to_byproduct_ok.
  - left. split; [done|]. apply anyR_Ok in Hok. eapply Forall_impl; [exact Hok|].
    cbn. intros e He. apply is_allocatable_byproduct_ok in He as [_ He]. symmetry in He.
    by apply bool_decide_eq_false in He.
Qed.

Lemma pv_filled_ref r e e' : pv_filled r e e' -> is_refproduct e -> e' = e.
Proof. intros [[[Ht _] _]|[_ ->]] Hr; [|done]. unfold is_refproduct in *. congruence. Qed.

Lemma pv_filled_type r e e' :
  pv_filled r e e' -> e_type e' = e_type e /\ e_class e' = e_class e /\ e_amount e' = e_amount e.
Proof. intros [[_ (v & _ & _ & ->)]|[_ ->]]; done. Qed.

Lemma pv_filled_refs r es es' :
  Forall2 (pv_filled r) es es' -> filter is_refproduct es' = filter is_refproduct es.
Proof.
  induction 1 as [|e e' es es' He Hes IH]; [done|]. rewrite !filter_cons.
  destruct (pv_filled_type _ _ _ He) as (Ht & _).
  destruct (decide (is_refproduct e)) as [Hr|Hr].
  - rewrite (pv_filled_ref r e e') by done. destruct (decide (is_refproduct e)); [|done].
    by rewrite IH.
  - destruct (decide (is_refproduct e')) as [Hr'|Hr']; [|done].
    unfold is_refproduct in *. congruence.
Qed.

Lemma add_pv_to_byproduct_idem scale e e' :
  add_pv_to_byproduct scale e = Ok e' -> add_pv_to_byproduct scale e' = Ok e'.
Proof.
  intros H. pose proof H as H'. unfold add_pv_to_byproduct in H. inv_ok; subst; auto.
  unfold add_pv_to_byproduct, is_allocatable_byproduct in *. cbn [e_type e_class set_e_pv].
  rewrite Hok. cbn [bind e_pv set_e_pv getkey v_amount set_v_amount e_amount].
  destruct (Qctruthy (Qcabs (e_amount e * scale))); reflexivity.
Qed.

Lemma add_pv_ds_idem ds ds' :
  add_pv_to_allocatable_byproducts_ds ds = Ok ds' ->
  add_pv_to_allocatable_byproducts_ds ds' = Ok ds'.
Proof.
  intros H. pose proof H as H'. unfold add_pv_to_allocatable_byproducts_ds in H.
  inv_ok; subst; auto.
  apply mapR_Ok in Hok1.
  assert (Hfill : Forall2 (pv_filled v0) (d_exchanges ds) v1).
  { eapply Forall2_impl; [exact Hok1|]. intros. by apply add_pv_to_byproduct_ok. }
  unfold add_pv_to_allocatable_byproducts_ds. cbn [d_exchanges set_d_exchanges].
  assert (Hany : anyR is_allocatable_byproduct v1 = anyR is_allocatable_byproduct (d_exchanges ds)).
  { clear -Hfill. induction Hfill as [|e e' es es' He Hes IH]; [done|]. cbn [anyR].
    destruct (pv_filled_type _ _ _ He) as (Ht & Hc & _).
    unfold is_allocatable_byproduct at 1 3. rewrite Ht, Hc, IH. done. }
  rewrite Hany, Hok. cbn [bind].
  assert (Hr : get_biggest_pv_to_exchange_ratio (set_d_exchanges v1 ds)
               = get_biggest_pv_to_exchange_ratio ds).
  { unfold get_biggest_pv_to_exchange_ratio. rewrite !reference_products_filter.
    cbn [d_exchanges set_d_exchanges]. by rewrite (pv_filled_refs _ _ _ Hfill). }
  rewrite Hr, Hok0. cbn [bind].
  assert (mapR (add_pv_to_byproduct v0) v1 = Ok v1) as ->.
  { apply mapR_Ok. clear -Hok1. induction Hok1; constructor; auto.
    by eapply add_pv_to_byproduct_idem. }
  done.
Qed.

Lemma add_pv_spec data data' :
  add_pv_to_allocatable_byproducts data = Ok data' ->
  Forall2 (fun ds ds' =>
    (ds' = ds /\ Forall (fun e => ~ alloc_byproduct e) (d_exchanges ds)) \/
    (Exists alloc_byproduct (d_exchanges ds) /\
     exists r es', biggest_ratio ds r /\ Forall2 (pv_filled r) (d_exchanges ds) es' /\
                   ds' = set_d_exchanges es' ds)) data data'.
Proof.
  intros H. apply mapR_Ok in H. eapply Forall2_impl; [exact H|].
  intros. by apply add_pv_ds_ok.
Qed.

Lemma mapR_idem {A} (f : A -> result A) l l' :
  (forall x y, f x = Ok y -> f y = Ok y) -> mapR f l = Ok l' -> mapR f l' = Ok l'.
Proof.
  intros Hf H. apply mapR_Ok in H. apply mapR_Ok. induction H; constructor; eauto.
Qed.
Lemma add_pv_idem data data' :
  add_pv_to_allocatable_byproducts data = Ok data' ->
  add_pv_to_allocatable_byproducts data' = Ok data'.
Proof. apply mapR_idem. apply add_pv_ds_idem. Qed.

Lemma add_pv_no_reference ds :
  Exists alloc_byproduct (d_exchanges ds) -> classified ds ->
  (forall e, e ∈ d_exchanges ds -> is_refproduct e -> e_amount e = 0%Qc) ->
  add_pv_to_allocatable_byproducts_ds ds = Err ZeroProduction.
Proof.
  intros Hex Hcl Hz. unfold add_pv_to_allocatable_byproducts_ds.
  assert (anyR is_allocatable_byproduct (d_exchanges ds) = Ok true) as ->.
  { unfold classified in Hcl. induction Hcl as [|e es He Hes IH]; [inversion Hex|].
    cbn [anyR].
    assert (is_allocatable_byproduct e = Ok (bool_decide (alloc_byproduct e))) as ->
      by (by apply is_allocatable_byproduct_ok).
    cbn [bind]. case_bool_decide as Hb; [done|]. apply IH.
    - inversion Hex; subst; [done|]. done.
    - intros. apply Hz; [by right|done]. }
  cbn [bind]. unfold get_biggest_pv_to_exchange_ratio. rewrite reference_products_filter.
  assert (filterb (fun e => Qctruthy (e_amount e)) (filter is_refproduct (d_exchanges ds)) = []) as ->;
    [|done].
  destruct (filterb _ _) as [|e l] eqn:E; [done|]. exfalso.
  assert (He : e ∈ filterb (fun e => Qctruthy (e_amount e)) (filter is_refproduct (d_exchanges ds)))
    by (rewrite E; left).
  apply filterb_In in He as [He Ht]. apply elem_of_list_filter in He as [Hr He].
  qc_bool. apply Ht. auto.
Qed.

(** ** Code collisions *)
Lemma activity_hash_collision (md5 : string -> string) : exists d1 d2,
  activity_hash md5 d1 = activity_hash md5 d2 /\ ~ same_identity lower d1 d2.
Proof.
  exists (set_d_name "heat production, oil" (set_d_refprod (Some "heat") dataset0)).
  exists (set_d_name "heat production, o" (set_d_refprod (Some "ilheat") dataset0)).
  split; [reflexivity|]. intros [H _]. revert H. by_compute.
Qed.

Lemma activity_hash_unit (md5 : string -> string) : exists d1 d2 p1 p2,
  filter is_refproduct (d_exchanges d1) = [p1] /\
  filter is_refproduct (d_exchanges d2) = [p2] /\
  d_refprod d1 = Some (e_name p1) /\ d_refprod d2 = Some (e_name p2) /\
  e_unit p1 <> e_unit p2 /\ activity_hash md5 d1 = activity_hash md5 d2.
Proof.
  pose (p1 := set_e_type RefProduct (set_e_unit "kg" exchange0)).
  pose (p2 := set_e_type RefProduct (set_e_unit "m3" exchange0)).
  exists (set_d_refprod (Some "") (set_d_exchanges [p1] dataset0)).
  exists (set_d_refprod (Some "") (set_d_exchanges [p2] dataset0)).
  exists p1, p2. repeat split; by_compute.
Qed.
