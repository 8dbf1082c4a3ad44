(** Proofs for C79: from the inputs of markets to the result. *)
From stdpp Require Import gmap.
From Verif Require Import Base Strings Types Uncertainty Spec_Uncertainty Uncertainty_proofs Utils Spec_Utils Utils_proofs Grouping GroupUpdate
  Topology Cutoff Locations Consequential Spec_Waste Waste_proofs Spec_Markets Markets_proofs Spec_Mix Mix_proofs
  Spec_Codes Codes_proofs Linked_proofs Spec_Consumers Consumers_proofs ConsumerInputs_proofs SingleOutput_proofs Combined_proofs
  Spec_Untouched Untouched_proofs Pipeline Spec_Pipeline Pipeline_proofs
  Spec_Balance Balance_proofs Spec_Supply Supply_proofs Supply2_proofs.

(** *** After the inputs are there *)
Definition late (kind : dtype) (m d : dataset) : Prop :=
  keeps m d /\ (d_type m = kind -> exists mid, mixed m mid /\ settled mid d).
Definition settled_when (kind : dtype) (d d' : dataset) : Prop := keeps d d' /\ (d_type d = kind -> settled d d').
Lemma settled_always kind data data' : Forall2 settled data data' -> Forall2 (settled_when kind) data data'.
Proof. intros H. eapply Forall2_impl; [exact H|]. intros d d' S. split; [by destruct S|done]. Qed.
Lemma settled_other kind kind' data data' : kind <> kind' ->
  allocate_all_market_suppliers kind data = Ok data' -> Forall2 (settled_when kind') data data'.
Proof.
  intros Hk H. apply mapR_Ok in H. eapply Forall2_impl; [exact H|]. cbn beta. intros d d' E. unfold is_type in E. case_bool_decide as Ht.
  - split; [by eapply allocate_keeps|congruence].
  - apply Ok_inj in E as <-. split; [apply keeps_refl|]. intros _. apply settled_refl.
Qed.
Lemma late_start kind data data' : allocate_all_market_suppliers kind data = Ok data' -> Forall2 (late kind) data data'.
Proof.
  intros H. apply mapR_Ok in H. eapply Forall2_impl; [exact H|]. cbn beta. intros d d' E. unfold is_type in E. case_bool_decide as Ht.
  - split; [by eapply allocate_keeps|]. intros _. exists d'. split; [by apply allocate_suppliers_spec|apply settled_refl].
  - apply Ok_inj in E as <-. split; [apply keeps_refl|congruence].
Qed.
Lemma late_step kind ready data data' : Forall2 (late kind) ready data -> Forall2 (settled_when kind) data data' ->
  Forall2 (late kind) ready data'.
Proof.
  intros H1 H2. eapply Forall2_transitive; [|exact H1|exact H2]. intros m d d' [K L] [K' S]. split; [by eapply keeps_trans|].
  intros Ht. destruct (L Ht) as (mid & Hm & Hs). exists mid. split; [done|]. eapply settled_trans; [exact Hs|]. apply S.
  rewrite (frame_type m d); [done|]. by destruct K.
Qed.
Lemma coded_keeps md5 data data' : Forall (coded_by md5) data -> Forall2 keeps data data' -> Forall (coded_by md5) data'.
Proof.
  intros I2 HS. induction HS as [|d d' cur next (_ & _ & _ & E) _ IH]; [constructor|].
  apply Forall_cons in I2 as [[s Hs] I2]. constructor; [|by apply IH]. exists s. congruence.
Qed.
Lemma late_keeps kind ready data : Forall2 (late kind) ready data -> Forall2 keeps ready data.
Proof. intros H. eapply Forall2_impl; [exact H|]. by intros d d' [? _]. Qed.

Section parts.
Context (md5 : string -> string) (Hmd5 : forall s, md5 s <> ""%string).
Lemma coded_nonempty data : Forall (coded_by md5) data -> forall d, d ∈ data -> exists c, d_code d = Some c /\ c <> ""%string.
Proof. intros H d Hd. rewrite Forall_forall in H. destruct (H d Hd) as [s ->]. by exists (md5 s). Qed.
Lemma log_delete_id data : Forall (coded_by md5) data -> log_and_delete_unlinked_exchanges data = data.
Proof.
  induction 1 as [|d data H _ IH]; [done|]. unfold log_and_delete_unlinked_exchanges in *. cbn [map]. rewrite IH.
  rewrite (coded_truthy md5 Hmd5 d H).
  assert (filterb (fun _ => true) (d_exchanges d) = d_exchanges d) as ->.
  { unfold filterb. induction (d_exchanges d) as [|e es IHe]; [done|]. cbn [List.filter]. by rewrite IHe. }
  by destruct d.
Qed.
(** What comes after the inputs of market groups. *)
Lemma late_end ln t kind ready d17 d18 d19 d20 : Forall (coded_by md5) ready -> Forall2 (late kind) ready d17 ->
  link_consumers_to_recycled_content_activities d17 = Ok d18 -> link_consumers_to_markets ln t d18 = Ok d19 ->
  add_reference_product_codes d19 = Ok d20 -> Forall2 (late kind) ready (log_and_delete_unlinked_exchanges d20).
Proof.
  intros HC HL E18 E19 E20.
  eapply late_step in HL; [|apply settled_always, all_settled; [by apply rc_consumers_sure|by apply rc_consumers_still]].
  eapply late_step in HL; [|eapply settled_always, consumers_settled; [|exact E19]].
  2:{ apply coded_nonempty. eapply coded_keeps; [exact HC|by eapply late_keeps]. }
  eapply late_step in HL; [|apply settled_always, all_settled; [by apply rp_codes_sure|by apply rp_codes_still]].
  rewrite log_delete_id; [done|]. eapply coded_keeps; [exact HC|by eapply late_keeps].
Qed.
Lemma pv_parts ln ord t data out : uncoded' data -> link_markets_by_pv md5 ln ord t data = Ok out ->
  exists mk gr, markets_ready md5 ord t data = Ok mk /\ groups_ready md5 ord t data = Ok gr /\
    Forall2 (late MarketActivity) mk out /\ Forall2 (late MarketGroup) gr out.
Proof.
  intros HU H. unfold link_markets_by_pv in H.
  apply bind_Ok in H as (d1 & E1 & H). cbv zeta in H. apply bind_Ok in H as (d3 & E3 & H). apply bind_Ok in H as (d5 & E5 & H).
  apply bind_Ok in H as (d6 & E6 & H). apply bind_Ok in H as (d7 & E7 & H).
  assert (numbered md5 data = Ok d7) as EN.
  { unfold numbered. rewrite E1. cbn [bind]. cbv zeta. rewrite E3. cbn [bind]. rewrite E5. cbn [bind]. rewrite E6. exact E7. }
  apply bind_Ok in H as (d8 & E8 & H). apply bind_Ok in H as (d9 & E9 & H). apply bind_Ok in H as (d10 & E10 & H).
  apply bind_Ok in H as (d11 & E11 & H). apply bind_Ok in H as (d12 & E12 & H). apply bind_Ok in H as (d13 & E13 & H).
  assert (markets_ready md5 ord t data = Ok d13) as EM.
  { unfold markets_ready. rewrite EN. cbn [bind]. rewrite E8. cbn [bind]. rewrite E9. cbn [bind]. rewrite E10. cbn [bind].
    rewrite E11. cbn [bind]. rewrite E12. exact E13. }
  apply bind_Ok in H as (d14 & E14 & H). apply bind_Ok in H as (d15 & E15 & H). apply bind_Ok in H as (d16 & E16 & H).
  assert (groups_ready md5 ord t data = Ok d16) as EG.
  { unfold groups_ready. rewrite EM. cbn [bind]. rewrite E14. cbn [bind]. rewrite E15. exact E16. }
  apply bind_Ok in H as (d17 & E17 & H). apply bind_Ok in H as (d18 & E18 & H). apply bind_Ok in H as (d19 & E19 & H).
  apply bind_Ok in H as (d20 & E20 & <-%Ok_inj). exists d13, d16. split; [done|]. split; [done|].
  pose proof (markets_ready_inv _ _ _ _ _ HU EM MarketActivity) as (_ & C13 & _).
  pose proof (groups_ready_inv _ _ _ _ _ HU EG) as (_ & C16 & _).
  split; [|eapply late_end; [exact C16|by apply late_start|exact E18|exact E19|exact E20]].
  eapply late_end; [exact C13| |exact E18|exact E19|exact E20].
  eapply late_step; [|eapply (settled_other MarketGroup); [done|exact E17]].
  eapply late_step; [|apply settled_always, (all_settled d15 d16); [exact (update_market_volumes_sure _ _ _ _ E16)|exact (update_market_volumes_still _ _ _ _ E16)]].
  eapply late_step; [|apply settled_always, (all_settled d14 d15); [exact (group_link_sure _ _ _ E15)|exact (group_link_still _ _ _ E15)]].
  by apply late_start.
Qed.
Lemma tech_parts ln ord t data out : uncoded' data -> link_markets_by_technology_level md5 ln ord t data = Ok out ->
  exists mk, levels_ready md5 ord t data = Ok mk /\ Forall2 (late MarketActivity) mk out /\
    Forall2 (settled_when MarketGroup) mk out.
Proof.
  intros HU H. unfold link_markets_by_technology_level in H.
  apply bind_Ok in H as (d1 & E1 & H). cbv zeta in H. apply bind_Ok in H as (d3 & E3 & H). apply bind_Ok in H as (d5 & E5 & H).
  apply bind_Ok in H as (d7 & E7 & H). apply bind_Ok in H as (d8 & E8 & H). apply bind_Ok in H as (d10 & E10 & H).
  apply bind_Ok in H as (d11 & E11 & H). apply bind_Ok in H as (d12 & E12 & H). apply bind_Ok in H as (d13 & E13 & H).
  apply bind_Ok in H as (d14 & E14 & H).
  assert (levels_ready md5 ord t data = Ok d14) as EL.
  { unfold levels_ready. rewrite E1. cbn [bind]. cbv zeta. rewrite E3. cbn [bind]. rewrite E5. cbn [bind]. rewrite E7. cbn [bind].
    rewrite E8. cbn [bind]. rewrite E10. cbn [bind]. rewrite E11. cbn [bind]. rewrite E12. cbn [bind]. rewrite E13. exact E14. }
  apply bind_Ok in H as (d15 & E15 & H). apply bind_Ok in H as (d19 & E19 & <-%Ok_inj).
  exists d14. split; [done|]. pose proof (levels_ready_inv _ _ _ _ _ HU EL MarketActivity) as (_ & C14 & _).
  assert (Forall2 settled d15 (delete_suppliers_list d15)) as HD.
  { unfold delete_suppliers_list. clear. induction d15 as [|d l IH]; cbn [map]; constructor; [|done].
    apply sure_settled; [apply sure_suppliers|apply still_refl]. }
  assert (Forall2 keeps d14 d15) as K15.
  { eapply Forall2_impl; [by eapply late_keeps, late_start|]. done. }
  assert (Forall2 keeps d15 (delete_suppliers_list d15)) as K16 by (eapply Forall2_impl; [exact HD|]; by intros d d' [? _]).
  assert (Forall2 settled (delete_suppliers_list d15) d19) as HS.
  { eapply consumers_settled; [|exact E19]. apply coded_nonempty. eapply coded_keeps; [|exact K16]. by eapply coded_keeps. }
  rewrite log_delete_id.
  2:{ eapply coded_keeps; [|eapply Forall2_impl; [exact HS|]; by intros d d' [? _]]. eapply coded_keeps; [|exact K16]. by eapply coded_keeps. }
  split.
  - eapply late_step; [|by apply settled_always]. eapply late_step; [|by apply settled_always]. by apply late_start.
  - assert (forall a b c, settled_when MarketGroup a b -> settled_when MarketGroup b c -> settled_when MarketGroup a c) as Htr.
    { intros a b c [K1 S1] [K2 S2]. split; [by eapply keeps_trans|]. intros Ht. eapply settled_trans; [by apply S1|]. apply S2.
      rewrite (frame_type a b); [done|]. by destruct K1. }
    eapply Forall2_transitive; [exact Htr|by eapply (settled_other MarketActivity)|].
    eapply Forall2_transitive; [exact Htr|by apply settled_always|by apply settled_always].
Qed.
End parts.

(** *** What is in the market *)
Definition share_input (amount : Qc) (p : exchange * Qc) (e : exchange) : Prop :=
  e_type e = FromTechnosphere /\ e_name e = e_name p.1 /\ is_Some (e_code e) /\ e_code e = e_code p.1 /\
  e_amount e = (p.2 * amount)%Qc.
Lemma shares_elem l p : p ∈ shares l -> p.1 ∈ l.
Proof.
  unfold shares. destruct (decide _).
  - intros H. apply elem_of_list_fmap in H as (s & -> & H). unfold sharing in H. by apply elem_of_list_filter in H as [_ H].
  - destruct l as [|s [|? ?]]; [set_solver| |set_solver]. intros H. apply elem_of_list_singleton in H as ->. by left.
Qed.
Lemma sharing_nonempty l : total_volume l <> 0%Qc -> sharing l <> [].
Proof.
  intros H E. apply H. clear H. unfold total_volume, sharing in *. induction l as [|s l IH]; [done|]. rewrite filter_cons in E.
  destruct (decide (volume_of s <> 0%Qc)) as [D|D]; [discriminate|]. apply dec_stable in D. cbn [map]. unfold Qcsum in *. cbn [foldr].
  rewrite IH by done. rewrite D. ring.
Qed.
Lemma mixed_shares m mid : mixed m mid -> exists rp l new, filter is_refproduct (d_exchanges m) = [rp] /\ d_suppliers m = Some l /\
  d_exchanges mid = d_exchanges m ++ new /\ Forall2 (share_input (e_amount rp)) (shares l) new /\
  Qcsum (map e_amount new) = (provided l * e_amount rp)%Qc.
Proof.
  intros (rp & l & Hrp & Hl & _ & HC). exists rp, l. destruct HC as [(Hv & new & -> & HF & Hsum)|[(s & v & new & -> & Hv & Hpv & -> & Hc & Hnew)|(Hv & Hlen & ->)]].
  - exists new. split; [done|]. split; [done|]. split; [done|]. unfold provided, shares. rewrite decide_True by done. split.
    + rewrite (Forall2_fmap_l). eapply Forall2_impl; [exact HF|]. intros s e [Hs ->]. by repeat split.
    + rewrite Hsum. pose proof (sharing_nonempty l Hv) as Hne. destruct (sharing l); [done|]. cbn [map]. ring.
  - exists [new]. split; [done|]. split; [done|]. split; [done|]. unfold provided, shares, total_volume. cbn [map]. unfold Qcsum. cbn [foldr].
    rewrite Hv. rewrite decide_False by (intros X; apply X; ring). split.
    + constructor; [|constructor]. subst new. repeat split; [done|]. cbn. ring.
    + subst new. cbn. ring.
  - exists []. split; [done|]. split; [done|]. split; [by rewrite app_nil_r|]. unfold provided, shares.
    rewrite decide_False by (intros X; by apply X). destruct l as [|s [|? ?]]; [|by destruct Hlen|]; (split; [constructor|cbn; ring]).
Qed.
