From Verif Require Import Base Types Uncertainty Utils Spec_Utils Utils_proofs Grouping GroupUpdate
  Cutoff_proofs SingleOutput_proofs Topology Spec_Topology Topology_proofs Locations Spec_Mix
  RestOfWorld_proofs Links_proofs.

Lemma supplier_volume_Ok s v : supplier_volume s = Ok v <-> is_Some (e_pv s) /\ v = volume_of s.
Proof.
  unfold supplier_volume, volume_of. destruct (e_pv s) as [w|]; cbn.
  - split; [intros <-%Ok_inj; split; [by eexists|done]|]. by intros [_ ->].
  - split; [discriminate|]. by intros [[? ?] _].
Qed.
Lemma mapR_volumes l vs : mapR supplier_volume l = Ok vs <->
  Forall (fun s => is_Some (e_pv s)) l /\ vs = map volume_of l.
Proof.
  rewrite mapR_Ok. revert vs. induction l as [|s l IH]; intros vs.
  - split; [intros H; inversion H; done|]. intros [_ ->]. constructor.
  - split.
    + intros H. apply Forall2_cons_inv_l in H as (v & vs' & Hv & H & ->).
      apply supplier_volume_Ok in Hv as [Hp ->]. apply IH in H as [H ->]. split; [by constructor|done].
    + intros [H ->]. apply Forall_cons in H as [H1 H2]. cbn [map]. constructor.
      * by apply supplier_volume_Ok.
      * by apply IH.
Qed.

Lemma mix_amounts amount total l new : total <> 0%Qc ->
  Forall2 (mix_input amount total) (sharing l) new ->
  Qcsum (map e_amount new) = (total_volume l / total * amount)%Qc.
Proof.
  intros Ht HF.
  assert (Qcsum (map e_amount new) = Qcsum (map (fun s => (volume_of s / total * amount)%Qc) (sharing l))) as ->.
  { f_equal. induction HF as [|s e ss new (_ & ->) _ IH]; [done|]. cbn [map]. by rewrite <- IH. }
  unfold total_volume, sharing. clear HF.
  induction l as [|s l IH]; [cbn; field; done|].
  rewrite filter_cons. destruct (decide (volume_of s <> 0%Qc)) as [Hs|Hs].
  - cbn [map Qcsum foldr] in *. unfold Qcsum in IH |- *. cbn [map foldr]. rewrite IH. field. done.
  - rewrite IH. unfold Qcsum. cbn [map foldr].
    assert (volume_of s = 0%Qc) as -> by (destruct (decide (volume_of s = 0%Qc)); tauto). field. done.
Qed.

Lemma inputs_spec make total l new : total <> 0%Qc ->
  concat_mapR (input_of make total) l = Ok new ->
  Forall (fun s => is_Some (e_pv s)) l /\
  Forall2 (fun s e => make (volume_of s / total)%Qc s = Ok e) (sharing l) new.
Proof.
  intros Ht H. apply concat_mapR_Ok in H as (rs & HF & ->).
  induction HF as [|s r l rs Hr _ [IH1 IH2]]; [split; constructor|].
  unfold input_of in Hr. apply bind_Ok in Hr as (pv & Hpv & Hr).
  apply supplier_volume_Ok in Hpv as [Hp ->]. apply bind_Ok in Hr as (k & Hk & Hr).
  apply divR_Ok in Hk as [_ ->]. split; [by constructor|]. unfold sharing. rewrite filter_cons.
  unfold Qctruthy, Qceqb in Hr.
  assert ((volume_of s / total = 0)%Qc <-> volume_of s = 0%Qc) as Hz.
  { split; intros E; [|rewrite E; field; done].
    replace (volume_of s) with (volume_of s / total * total)%Qc by (field; done). rewrite E. ring. }
  case_bool_decide as E; cbn [negb] in Hr.
  - apply Ok_inj in Hr as <-. rewrite decide_False by tauto. done.
  - apply bind_Ok in Hr as (e & He & <-%Ok_inj). rewrite decide_True by tauto. cbn. by constructor.
Qed.
Lemma inputs_total make total l : total <> 0%Qc ->
  Forall (fun s => is_Some (e_pv s)) l ->
  (forall s, s ∈ sharing l -> exists e, make (volume_of s / total)%Qc s = Ok e) ->
  exists new, concat_mapR (input_of make total) l = Ok new.
Proof.
  intros Ht Hp Hm. unfold concat_mapR.
  destruct (mapR_ok_all (input_of make total) l) as [r ->]; [|eexists; reflexivity].
  intros s Hs. unfold input_of. rewrite Forall_forall in Hp.
  rewrite (proj2 (supplier_volume_Ok s _) (conj (Hp s Hs) eq_refl)). cbn [bind].
  rewrite (proj2 (divR_Ok _ _ _) (conj Ht eq_refl)). cbn [bind].
  unfold Qctruthy, Qceqb. case_bool_decide as E; cbn [negb]; [eexists; reflexivity|].
  destruct (Hm s) as [e ->]; [|eexists; reflexivity]. apply elem_of_list_filter. split; [|done].
  intros Hv. apply E. rewrite Hv. field. done.
Qed.

Lemma allocate_suppliers_spec ds ds' : allocate_suppliers ds = Ok ds' -> mixed ds ds'.
Proof.
  unfold allocate_suppliers. intros H. apply bind_Ok in H as (rp & Hrp & H).
  apply get_single_ok in Hrp. apply bind_Ok in H as (l & Hl & H).
  destruct (d_suppliers ds) as [l'|] eqn:El; [|discriminate]. apply Ok_inj in Hl as ->.
  apply bind_Ok in H as (vs & Hvs & H). unfold volumes in Hvs.
  apply bind_Ok in Hvs as (pvs & Hpvs & Hvs). apply mapR_volumes in Hpvs as [Hp ->].
  exists rp, l. split; [done|]. split; [done|]. split; [done|].
  change (Qcsum (map volume_of l)) with (total_volume l) in Hvs.
  unfold Qctruthy, Qceqb in Hvs. case_bool_decide as Et; cbn [negb] in Hvs.
  - destruct l as [|s [|s2 l]].
    + apply Ok_inj in Hvs as <-. right. right. split; [done|]. split; [done|]. by apply Ok_inj in H.
    + apply Ok_inj in Hvs as <-. apply bind_Ok in H as (new & Hnew & <-%Ok_inj).
      right. left. apply Forall_cons in Hp as [[v Hv] _].
      assert (volume_of s = 0%Qc) as Hz.
      { unfold total_volume, Qcsum in Et. cbn in Et. rewrite Qcplus_0_r in Et. done. }
      apply inputs_spec in Hnew as [_ HF]; [|discriminate].
      assert (volume_of (fake_volume s) = Qcint 4321) as Hf.
      { unfold fake_volume, volume_of. rewrite Hv. reflexivity. }
      unfold sharing in HF. rewrite filter_cons, Hf, decide_True, filter_nil in HF by discriminate.
      apply Forall2_cons_inv_l in HF as (e & r & He & HF & ->). inversion HF; subst. clear HF.
      exists s, v, e. split; [done|]. split; [done|]. split; [done|].
      unfold market_input in He. rewrite Hf in He. change (e_code (fake_volume s)) with (e_code s) in He.
      destruct (e_code s) as [c|] eqn:Ec; [|discriminate]. cbn [getkey bind] in He. apply Ok_inj in He as <-.
      split; [|split; [by eexists|]].
      * unfold fake_volume. rewrite Hv. done.
      * unfold remove_exchange_uncertainty.
        replace (Qcint 4321 / Qcint 4321 * e_amount rp)%Qc with (e_amount rp) by (field; discriminate).
        reflexivity.
    + apply Ok_inj in Hvs as <-. right. right. split; [done|]. split; [done|]. by apply Ok_inj in H.
  - apply Ok_inj in Hvs as <-. left. split; [done|]. apply bind_Ok in H as (new & Hnew & <-%Ok_inj).
    apply inputs_spec in Hnew as [_ HF]; [|done].
    assert (Forall2 (mix_input (e_amount rp) (total_volume l)) (sharing l) new) as HF'.
    { eapply Forall2_impl; [exact HF|]. intros s e He. unfold market_input in He.
      destruct (e_code s) as [c|] eqn:Ec; [|discriminate]. cbn [getkey bind] in He. apply Ok_inj in He as <-.
      split; [by eexists|]. rewrite Ec. reflexivity. }
    exists new. split; [|split; [done|]].
    + destruct ds; cbn in El |- *. by rewrite El.
    + rewrite (mix_amounts _ _ _ _ Et HF'). field. done.
Qed.

Lemma allocate_suppliers_total ds rp l :
  filter is_refproduct (d_exchanges ds) = [rp] -> d_suppliers ds = Some l ->
  Forall (fun s => is_Some (e_pv s) /\ is_Some (e_code s)) l ->
  exists ds', allocate_suppliers ds = Ok ds'.
Proof.
  intros Hrp Hl Hall. unfold allocate_suppliers. rewrite (proj2 (get_single_ok ds rp) Hrp), Hl. cbn [bind getkey].
  assert (Forall (fun s => is_Some (e_pv s)) l) as Hp.
  { eapply Forall_impl; [exact Hall|]. by intros s [? _]. }
  unfold volumes. rewrite (proj2 (mapR_volumes l _) (conj Hp eq_refl)). cbn [bind].
  assert (forall l' total, total <> 0%Qc -> Forall (fun s => is_Some (e_pv s) /\ is_Some (e_code s)) l' ->
    exists new, concat_mapR (input_of (fun f s => market_input (f * e_amount rp)%Qc s) total) l' = Ok new) as Hin.
  { intros l' total Ht Hl'. apply inputs_total; [done| |].
    - eapply Forall_impl; [exact Hl'|]. by intros s [? _].
    - intros s [_ Hs]%elem_of_list_filter. rewrite Forall_forall in Hl'. apply Hl' in Hs as [_ [c Hc]].
      unfold market_input. rewrite Hc. cbn. eexists; reflexivity. }
  unfold Qctruthy, Qceqb. case_bool_decide as Et; cbn [negb].
  - destruct l as [|s [|s2 l]]; cbn [bind]; [eexists; reflexivity| |eexists; reflexivity].
    destruct (Hin [fake_volume s] (Qcint 4321)) as [new ->]; [discriminate| |eexists; reflexivity].
    apply Forall_cons in Hall as [[[v Hv] Hc] _]. constructor; [|constructor].
    split; [|done]. unfold fake_volume. rewrite Hv. by eexists.
  - cbn [bind]. destruct (Hin l (Qcsum (map volume_of l)) Et Hall) as [new ->]. eexists; reflexivity.
Qed.

Lemma allocate_all_spec kind data data' : allocate_all_market_suppliers kind data = Ok data' ->
  Forall2 (fun ds ds' => (d_type ds = kind -> mixed ds ds') /\ (d_type ds <> kind -> ds' = ds)) data data'.
Proof.
  unfold allocate_all_market_suppliers. intros H%mapR_Ok. eapply Forall2_impl; [exact H|].
  intros ds ds' Hd. unfold is_type in Hd. case_bool_decide as E.
  - split; [|done]. intros _. by apply allocate_suppliers_spec.
  - split; [done|]. intros _. by apply Ok_inj in Hd as <-.
Qed.

(** *** Production volumes of markets *)
Lemma original_volume_Ok s v : original_volume s = Ok v <-> is_Some (e_pv s) /\ v = first_volume_of s.
Proof.
  unfold original_volume, first_volume_of. destruct (e_pv s) as [w|]; cbn.
  - split; [intros <-%Ok_inj; split; [by eexists|by destruct (v_original w)]|].
    intros [_ ->]. by destruct (v_original w).
  - split; [discriminate|]. by intros [[? ?] _].
Qed.
Lemma mapR_originals l vs : mapR original_volume l = Ok vs <->
  Forall (fun s => is_Some (e_pv s)) l /\ vs = map first_volume_of l.
Proof.
  rewrite mapR_Ok. revert vs. induction l as [|s l IH]; intros vs.
  - split; [intros H; inversion H; done|]. intros [_ ->]. constructor.
  - split.
    + intros H. apply Forall2_cons_inv_l in H as (v & vs' & Hv & H & ->).
      apply original_volume_Ok in Hv as [Hp ->]. apply IH in H as [H ->]. split; [by constructor|done].
    + intros [H ->]. apply Forall_cons in H as [H1 H2]. cbn [map]. constructor.
      * by apply original_volume_Ok.
      * by apply IH.
Qed.

Definition net_volume (l : list exchange) (ds : dataset) : Qc := Qcmax (total_volume l - taken ds) 0.

Lemma updated_volume_spec ds pv : updated_volume ds = Ok pv <->
  exists rp v l, filter is_refproduct (d_exchanges ds) = [rp] /\ e_pv rp = Some v /\
    d_suppliers ds = Some l /\ Forall (fun s => is_Some (e_pv s)) l /\ pv = net_volume l ds.
Proof.
  unfold updated_volume, net_volume, taken. split.
  - intros H. apply bind_Ok in H as (rp & Hrp%get_single_ok & H).
    apply bind_Ok in H as (l & Hl & H). destruct (d_suppliers ds) as [l'|]; [|discriminate].
    apply Ok_inj in Hl as ->. apply bind_Ok in H as (os & _ & H). apply bind_Ok in H as (v & Hv & H).
    destruct (e_pv rp) as [v'|] eqn:Ev; [|discriminate]. apply Ok_inj in Hv as ->.
    apply bind_Ok in H as (pvs & Hp & H). apply mapR_volumes in Hp as [Hp ->]. apply Ok_inj in H as <-.
    exists rp, v, l. split; [done|]. split; [done|]. split; [done|]. split; [done|].
    rewrite Hrp, Ev. by destruct (v_subtracted v).
  - intros (rp & v & l & Hrp & Hv & Hl & Hp & ->).
    rewrite (proj2 (get_single_ok ds rp) Hrp), Hl. cbn [bind getkey].
    rewrite (proj2 (mapR_originals l _) (conj Hp eq_refl)), Hv. cbn [bind getkey].
    rewrite (proj2 (mapR_volumes l _) (conj Hp eq_refl)). cbn [bind]. rewrite Hrp, Hv.
    by destruct (v_subtracted v).
Qed.

Lemma update_volume_spec ds ds' : update_volume ds = Ok ds' ->
  exists l, d_suppliers ds = Some l /\ Forall (fun s => is_Some (e_pv s)) l /\
    revalued (net_volume l ds) (Qcsum (map first_volume_of l)) ds ds'.
Proof.
  unfold update_volume. intros H. apply bind_Ok in H as (pv & Hpv & H).
  apply updated_volume_spec in Hpv as (rp & v & l & Hrp & Hv & Hl & Hp & ->).
  apply bind_Ok in H as (l' & Hl' & H). rewrite Hl in Hl'. apply Ok_inj in Hl' as <-.
  apply bind_Ok in H as (os & Hos & H). apply mapR_originals in Hos as [_ ->]. apply Ok_inj in H as <-.
  exists l. split; [done|]. split; [done|].
  destruct (set_rp_pv_single (fun v0 => set_v_amount (net_volume l ds)
    (set_v_original_total (Some (Qcsum (map first_volume_of l))) v0)) ds rp v)
    as (b & a & Hs & Hb & Hr & Heq); [by apply get_single_ok|done|].
  exists rp, v, b, a. done.
Qed.
Lemma update_volume_total ds rp v l :
  filter is_refproduct (d_exchanges ds) = [rp] -> e_pv rp = Some v -> d_suppliers ds = Some l ->
  Forall (fun s => is_Some (e_pv s)) l -> exists ds', update_volume ds = Ok ds'.
Proof.
  intros Hrp Hv Hl Hp. unfold update_volume.
  rewrite (proj2 (updated_volume_spec ds _)) by (eexists _, _, _; done). cbn [bind].
  rewrite Hl. cbn [bind getkey]. rewrite (proj2 (mapR_originals l _) (conj Hp eq_refl)). eexists; reflexivity.
Qed.

Lemma update_markets_spec t kind data data' : kind <> MarketGroup ->
  update_market_production_volumes t kind data = Ok data' ->
  Forall2 (fun ds ds' => (d_type ds = kind -> exists l, d_suppliers ds = Some l /\
      revalued (Qcmax (total_volume l - taken ds) 0) (Qcsum (map first_volume_of l)) ds ds') /\
    (d_type ds <> kind -> ds' = ds)) data data'.
Proof.
  intros Hk. unfold update_market_production_volumes. rewrite bool_decide_eq_false_2 by done.
  intros H%mapR_Ok. eapply Forall2_impl; [exact H|]. intros ds ds' Hd. unfold is_type in Hd.
  case_bool_decide as E.
  - split; [|done]. intros _. apply update_volume_spec in Hd as (l & ? & _ & ?). by exists l.
  - split; [done|]. intros _. by apply Ok_inj in Hd as <-.
Qed.
