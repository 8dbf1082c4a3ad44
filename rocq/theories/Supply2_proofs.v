(** Proofs for C79: markets from allocation to the addition of inputs, and from there on. *)
From stdpp Require Import gmap.
From Verif Require Import Base Strings Types Uncertainty Spec_Uncertainty Uncertainty_proofs Utils Spec_Utils Utils_proofs Grouping GroupUpdate
  Topology Cutoff Locations Consequential Spec_Waste Waste_proofs Spec_Markets Markets_proofs Spec_Mix Mix_proofs
  Spec_Codes Codes_proofs Linked_proofs Spec_Consumers Consumers_proofs ConsumerInputs_proofs SingleOutput_proofs Combined_proofs
  Spec_Untouched Untouched_proofs Pipeline Spec_Pipeline Pipeline_proofs
  Spec_Balance Balance_proofs Spec_Supply Supply_proofs.

(** *** Up to the inputs of markets *)
Definition plain (a m : dataset) : Prop := linked_from a m /\ map bare (d_exchanges m) = map bare (d_exchanges a).
Definition first (kind : dtype) (a m : dataset) : Prop :=
  linked_from a m /\ (d_type a = kind -> map bare (d_exchanges m) = map bare (d_exchanges a)).
Lemma sure_keeps d d' : sure d d' -> keeps d d'.
Proof. intros H. by apply sure_retains in H as [H _]. Qed.
Lemma early_sure data d1 d3 : label_reference_product data = Ok d1 ->
  assign_fake_pv_to_confidential_datasets (delete_whitelisted_zero_pv_market_datsets d1) = Ok d3 ->
  Untouched_proofs.from sure data d3.
Proof.
  intros H1 H3. apply label_sure in H1. apply fake_sure in H3.
  assert (Untouched_proofs.from sure data data) as H0 by (exists data; split; [done|]; split; [apply sure_all_refl|done]).
  eapply (step_by sure sure); [exact sure_trans| |exact H3]. apply step_filter.
  - intros d d' _ (_ & _ & E & _) [Hl _]. rewrite E. destruct (String.eqb_spec (d_location d) "GLO"); [done|]. by rewrite andb_false_r.
  - eapply (step_by sure sure); [exact sure_trans|exact H0|exact H1].
Qed.
Lemma plain_gas data cur : Untouched_proofs.from sure data cur ->
  Untouched_proofs.from plain data (correct_natural_gas_pipeline_location cur).
Proof.
  intros H. eapply (step_by sure plain); [|exact H|].
  - intros a b c S [L B]. split; [eapply keeps_linked; [by apply sure_keeps|exact L]|]. destruct S as (_ & S & _). congruence.
  - clear H. unfold correct_natural_gas_pipeline_location. induction cur as [|d cur IH]; cbn [map]; constructor; [|done].
    split; [by apply gas_location|]. by destruct (_ && _ && _).
Qed.
Lemma plain_sure data cur : Untouched_proofs.from sure data cur -> Untouched_proofs.from plain data cur.
Proof.
  intros (base & Hs & HF & HL). exists base. split; [done|]. split; [|done]. eapply Forall2_impl; [exact HF|].
  intros d d' S. split; [by apply keeps_linked_from, sure_keeps|]. by destruct S as (_ & S & _).
Qed.
Lemma plain_relabel data cur next : Untouched_proofs.from plain data cur -> relabel_global_to_row cur = Ok next ->
  Untouched_proofs.from plain data next.
Proof.
  intros HF H. pose proof (relabel_linked _ _ H) as HL. apply relabel_descends in H.
  assert (Forall2 (fun d d' => (frame d' = frame d /\ others d' = others d /\
    (d_location d' = d_location d \/ (d_location d = "GLO" /\ d_location d' = "RoW"))%string) /\
    map bare (d_exchanges d') = map bare (d_exchanges d)) cur next) as HB.
  { clear HF. induction HL as [|d d' cur next HL _ IH]; [constructor|]. apply Forall2_cons in H as [H1 H2].
    constructor; [|by apply IH]. destruct H1 as (_ & H1 & _). split; [exact HL|exact H1]. }
  eapply step_by; [|exact HF|exact HB]. cbn beta.
  intros d d' d'' [(A & B & C) D] [(A' & B' & C') D']. split; [|congruence]. split; [congruence|]. split; [congruence|].
  destruct C' as [E|[E1 E2]]; [by rewrite E|]. destruct C as [C|[[C1 C2]|[C1 C2]]].
  - right. left. rewrite <- C. done.
  - rewrite E1 in C2. discriminate.
  - rewrite E1 in C2. discriminate.
Qed.
Lemma plain_codes data cur next : Untouched_proofs.from plain data cur ->
  Forall2 (fun d d' => d' = set_d_code (d_code d') d) cur next -> Untouched_proofs.from plain data next.
Proof. apply step_by. intros d d' d'' [(A & B & C) D] ->. done. Qed.
Lemma first_plain kind data cur : Untouched_proofs.from plain data cur -> Untouched_proofs.from (first kind) data cur.
Proof.
  intros (base & Hs & HF & HL). exists base. split; [done|]. split; [|done]. eapply Forall2_impl; [exact HF|].
  intros d d' [A B]. by split.
Qed.
Definition same_when (kind : dtype) (d d' : dataset) : Prop :=
  keeps d d' /\ (d_type d = kind -> map bare (d_exchanges d') = map bare (d_exchanges d)).
Lemma first_same kind data cur next : Untouched_proofs.from (first kind) data cur -> Forall2 (same_when kind) cur next ->
  Untouched_proofs.from (first kind) data next.
Proof.
  apply step_by. intros a b c [L E] [S E']. split; [by eapply linked_keeps_r|]. intros Ht. rewrite E', E; [done|done|].
  rewrite (frame_type a b); [done|]. by destruct L.
Qed.
Lemma sure_same kind cur next : Forall2 sure cur next -> Forall2 (same_when kind) cur next.
Proof. intros H. eapply Forall2_impl; [exact H|]. intros d d' S. split; [by apply sure_keeps|]. by destruct S as (_ & S & _). Qed.
Lemma other_kind kind kind' data data' : kind <> kind' ->
  allocate_all_market_suppliers kind data = Ok data' -> Forall2 (same_when kind') data data'.
Proof.
  intros Hk H. apply mapR_Ok in H. eapply Forall2_impl; [exact H|]. cbn beta. intros d d' E. unfold is_type in E. case_bool_decide as Ht.
  - split; [by eapply allocate_keeps|congruence].
  - apply Ok_inj in E as <-. split; [apply keeps_refl|done].
Qed.

(** Codes and suppliers when the codes are there. *)
Notation uncoded' := (uncoded (fun _ => False)).
Lemma codes_none md5 data coded : Forall (labelled (fun _ => False)) data -> add_unique_codes md5 data = Ok coded ->
  Forall (fun d => d_suppliers d = None) coded.
Proof.
  intros HL H. destruct (add_unique_codes_spec md5 data) as [Hs _]. destruct (Hs coded H) as [-> _].
  apply Forall_forall. intros p Hp. apply elem_of_list_fmap in Hp as (d & -> & Hd). rewrite Forall_forall in HL.
  by destruct (HL d Hd) as (_ & _ & _ & H4).
Qed.

Section ready.
Context (md5 : string -> string) (Q K : string -> string -> Prop).
Definition ready (kind : dtype) (data cur : list dataset) : Prop :=
  Untouched_proofs.from (first kind) data cur /\ Forall (coded_by md5) cur /\ sound Q K cur.
Lemma ready_step kind data cur next : ready kind data cur -> Forall2 (same_when kind) cur next ->
  Forall2 (goes (fun _ => False) K) cur next -> Forall (named Q) next -> ready kind data next.
Proof.
  intros (I1 & I2 & _) HS HG HN. split; [by eapply first_same|]. split; [|split; [by eapply goes_good|done]].
  clear -I2 HS. induction HS as [|d d' cur next [(_ & _ & _ & E) _] _ IH]; [constructor|].
  apply Forall_cons in I2 as [[s Hs] I2]. constructor; [|by apply IH]. exists s. congruence.
Qed.
Lemma ready_delete kind kind' data cur next : ready kind data cur ->
  delete_global_with_zero_pv_when_regional_present kind' cur = Ok next -> ready kind data next.
Proof.
  intros (I1 & I2 & I3 & I4) H. apply bind_Ok in H as (ks & Hks & <-%Ok_inj). split; [|split; [|split]].
  - apply step_filter; [|exact I1]. intros d d' Hd [(_ & _ & HR) _] [L1 L2]. apply bool_decide_eq_true. intros Hin.
    apply (purged_row kind' cur ks d' Hks) in Hin. rewrite Hin in HR. destruct HR as [HR|[[HR _]|[_ HR]]]; congruence.
  - rewrite Forall_forall in *. intros d Hd. apply filterb_In in Hd as [Hd _]. by apply I2.
  - rewrite Forall_forall in *. intros d Hd. apply filterb_In in Hd as [Hd _]. by apply I3.
  - rewrite Forall_forall in *. intros d Hd. apply filterb_In in Hd as [Hd _]. by apply I4.
Qed.
Lemma kept_named cur next : Forall2 (fun d d' => d_suppliers d' = d_suppliers d /\ d_refprod d' = d_refprod d) cur next ->
  Forall (named Q) cur -> Forall (named Q) next.
Proof. apply named_from. intros d d' [H1 H2]. by apply named_same. Qed.
Lemma actualize_named cur next : actualize_activity_links cur = Ok next -> Forall (named Q) cur -> Forall (named Q) next.
Proof.
  intros H. apply kept_named. apply mapR_Ok in H. eapply Forall2_impl; [exact H|]. cbn beta. intros d d' E.
  by apply bind_Ok in E as (es & _ & <-%Ok_inj).
Qed.
End ready.

Definition marked_or_not (r n : string) : Prop := n = r \/ n = (r ++ marker)%string.
Definition hashed (md5 : string -> string) (c _ : string) : Prop := exists s, c = md5 s.
Lemma good_hashed md5 coded : Forall (good (fun _ => False) (pairs coded)) coded -> Forall (coded_by md5) coded ->
  Forall (good (fun _ => False) (hashed md5)) coded.
Proof.
  intros HG HC. eapply Forall_impl; [exact HG|]. intros d. apply good_mono. intros c n (p & Hp & Hc & _).
  rewrite Forall_forall in HC. destruct (HC p Hp) as [s Hs]. exists s. congruence.
Qed.
Lemma numbered_ready md5 kind data coded : uncoded' data -> numbered md5 data = Ok coded ->
  ready md5 marked_or_not (hashed md5) kind data coded.
Proof.
  intros HU H. destruct (numbered_good _ _ _ _ HU H) as (_ & _ & HG).
  unfold numbered in H. apply bind_Ok in H as (d1 & E1 & H). cbv zeta in H.
  apply bind_Ok in H as (d3 & E3 & H). apply bind_Ok in H as (d5 & E5 & H). apply bind_Ok in H as (d6 & E6 & H).
  unfold check_no_row_market_groups in E6. apply bind_Ok in E6 as (? & _ & <-%Ok_inj).
  assert (Forall (coded_by md5) coded) as HC by by apply codes_keeps in H as [_ H].
  split; [|split; [exact HC|split; [by apply good_hashed|]]].
  - apply first_plain. apply codes_keeps in H as [H _]. eapply plain_codes; [|exact H]. eapply plain_relabel; [|exact E5].
    apply plain_gas. by eapply early_sure.
  - assert (Forall (labelled (fun _ => False)) d5) as L.
    { eapply label_labelled in E1 as L1; [|exact HU].
      assert (Forall (labelled (fun _ => False)) (delete_whitelisted_zero_pv_market_datsets d1)) as L2.
      { rewrite Forall_forall in *. intros d Hd. apply filterb_In in Hd as [Hd _]. by apply L1. }
      eapply fake_labelled in E3 as L3; [|done].
      assert (Forall (labelled (fun _ => False)) (correct_natural_gas_pipeline_location d3)) as L4.
      { apply Forall_fmap. eapply Forall_impl; [exact L3|]. intros d (A & B & C & D). unfold compose. by destruct (_ && _). }
      by eapply relabel_labelled in E5 as [_ L5]. }
    eapply Forall_impl; [by eapply codes_none|]. intros d. apply named_none.
Qed.
Lemma markets_ready_inv md5 ord t data cur : uncoded' data -> markets_ready md5 ord t data = Ok cur ->
  forall kind, ready md5 marked_or_not (hashed md5) kind data cur.
Proof.
  intros HU H. unfold markets_ready in H. apply bind_Ok in H as (coded & E0 & H). intros kind.
  pose proof (numbered_ready md5 kind data coded HU E0) as I.
  apply bind_Ok in H as (d8 & E8 & H).
  eapply ready_step in I; [|eapply sure_same, actualize_sure; exact E8|eapply actualize_good; [apply I|exact E8]|eapply actualize_named; [exact E8|apply I]].
  apply bind_Ok in H as (d9 & E9 & H).
  eapply ready_step in I; [|eapply sure_same, rc_suppliers_sure; exact E9|eapply rc_suppliers_good; [apply I|exact E9]|
    eapply rc_suppliers_named; [|apply I|exact E9]; intros r; by right].
  apply bind_Ok in H as (d10 & E10 & H).
  eapply ready_step in I; [|eapply sure_same, add_suppliers_sure; exact E10|eapply add_suppliers_good; [apply I|exact E10]|
    eapply add_suppliers_named; [|apply I|exact E10]; intros r; by left].
  apply bind_Ok in H as (d11 & E11 & H).
  eapply ready_step in I; [|eapply sure_same, update_market_volumes_sure; exact E11|eapply update_market_volumes_good; [apply I|exact E11]|
    eapply update_market_volumes_named; [apply I|exact E11]].
  apply bind_Ok in H as (d12 & E12 & H). eapply ready_delete in I; [|exact E12]. by eapply ready_delete in I; [|exact H].
Qed.
Lemma groups_ready_inv md5 ord t data cur : uncoded' data -> groups_ready md5 ord t data = Ok cur ->
  ready md5 marked_or_not (hashed md5) MarketGroup data cur.
Proof.
  intros HU H. unfold groups_ready in H. apply bind_Ok in H as (d13 & E13 & H).
  pose proof (markets_ready_inv _ _ _ _ _ HU E13 MarketGroup) as I.
  apply bind_Ok in H as (d14 & E14 & H).
  eapply ready_step in I; [|eapply (other_kind MarketActivity); [done|exact E14]|eapply allocate_all_good; [apply I|exact E14]|
    eapply allocate_named; [apply I|exact E14]].
  apply bind_Ok in H as (d15 & E15 & H).
  eapply ready_step in I; [|eapply sure_same, group_link_sure; exact E15|eapply group_link_good; [apply I|exact E15]|
    eapply group_link_named; [|apply I|exact E15]; intros r; by left].
  eapply ready_step in I; [|eapply sure_same, update_market_volumes_sure; exact H|eapply update_market_volumes_good; [apply I|exact H]|
    eapply update_market_volumes_named; [apply I|exact H]]. exact I.
Qed.
Lemma levels_ready_inv md5 ord t data cur : uncoded' data -> levels_ready md5 ord t data = Ok cur ->
  forall kind, ready md5 (fun r n => n = r) (hashed md5) kind data cur.
Proof.
  intros HU H kind. unfold levels_ready in H. apply bind_Ok in H as (d1 & E1 & H). cbv zeta in H.
  apply bind_Ok in H as (d3 & E3 & H). apply bind_Ok in H as (d5 & E5 & H). apply bind_Ok in H as (coded & E7 & H).
  assert (ready md5 (fun r n => n = r) (hashed md5) kind data coded) as I.
  { eapply label_labelled in E1 as L1; [|exact HU].
    assert (Forall (labelled (fun _ => False)) (delete_whitelisted_zero_pv_market_datsets d1)) as L2.
    { rewrite Forall_forall in *. intros d Hd. apply filterb_In in Hd as [Hd _]. by apply L1. }
    eapply fake_labelled in E3 as L3; [|done]. eapply relabel_labelled in E5 as L5; [|exact L3]. destruct L5 as [_ L5].
    assert (Forall (coded_by md5) coded) as HC by by apply codes_keeps in E7 as [_ E7].
    split; [|split; [exact HC|split]].
    - apply first_plain. apply codes_keeps in E7 as [E7 _]. eapply plain_codes; [|exact E7]. eapply plain_relabel; [|exact E5].
      apply plain_sure. by eapply early_sure.
    - apply good_hashed; [|done]. by eapply codes_good in E7 as (_ & _ & HG).
    - eapply Forall_impl; [by eapply codes_none|]. intros d. apply named_none. }
  apply bind_Ok in H as (d8 & E8 & H).
  eapply ready_step in I; [|eapply sure_same, actualize_sure; exact E8|eapply actualize_good; [apply I|exact E8]|eapply actualize_named; [exact E8|apply I]].
  apply bind_Ok in H as (d10 & E10 & H).
  eapply ready_step in I; [|eapply sure_same, add_suppliers_sure; exact E10|eapply add_suppliers_good; [apply I|exact E10]|
    eapply add_suppliers_named; [|apply I|exact E10]; done].
  apply bind_Ok in H as (d11 & E11 & H).
  eapply ready_step in I; [|eapply sure_same, prune_sure; exact E11|eapply prune_good; [apply I|exact E11]|
    eapply prune_named; [apply I|exact E11]].
  apply bind_Ok in H as (d12 & E12 & H).
  eapply ready_step in I; [|eapply sure_same, update_market_volumes_sure; exact E12|eapply update_market_volumes_good; [apply I|exact E12]|
    eapply update_market_volumes_named; [apply I|exact E12]].
  apply bind_Ok in H as (d13 & E13 & H).
  eapply ready_step in I; [|eapply sure_same, add_suppliers_sure; exact E13|eapply add_suppliers_good; [apply I|exact E13]|
    eapply add_suppliers_named; [|apply I|exact E13]; done].
  eapply ready_step in I; [|eapply sure_same, update_market_volumes_sure; exact H|eapply update_market_volumes_good; [apply I|exact H]|
    eapply update_market_volumes_named; [apply I|exact H]]. exact I.
Qed.

(** *** Inputs with a code stay *)
Definition linked_input (e : exchange) : Prop := e_type e = FromTechnosphere /\ code_truthy e = true.
Global Instance linked_input_dec e : Decision (linked_input e).
Proof. unfold linked_input. apply _. Defined.
Definition still (es es' : list exchange) : Prop := sublist (filter linked_input es) (filter linked_input es').
Lemma still_trans a b c : still a b -> still b c -> still a c.
Proof. unfold still. apply transitivity. Qed.
Lemma still_pointwise es es' : Forall2 (fun e e' => linked_input e -> e' = e) es es' -> still es es'.
Proof.
  unfold still. induction 1 as [|e e' es es' H _ IH]; [constructor|]. rewrite !filter_cons. destruct (decide (linked_input e)) as [L|L].
  - rewrite (H L), decide_True by done. by constructor.
  - destruct (decide (linked_input e')); [by constructor|done].
Qed.
Lemma still_refl es : still es es.
Proof. unfold still. done. Qed.
Lemma still_map f es : (forall e, linked_input e -> f e = e) -> still es (map f es).
Proof. intros H. apply still_pointwise. induction es; cbn [map]; constructor; auto. Qed.
Lemma not_unlinked e : linked_input e -> unlinked e = false.
Proof. intros [_ H]. unfold unlinked. rewrite H. by rewrite andb_false_r. Qed.

Definition settled (d d' : dataset) : Prop := keeps d d' /\
  within_names (map e_name (d_exchanges d)) (d_exchanges d') /\
  (forall n, n <> "refinery gas"%string -> demand n (d_exchanges d') = demand n (d_exchanges d)) /\
  still (d_exchanges d) (d_exchanges d').
Lemma settled_refl d : settled d d.
Proof. split; [apply keeps_refl|]. split; [apply within_self|]. split; [done|apply still_refl]. Qed.
Lemma settled_trans a b c : settled a b -> settled b c -> settled a c.
Proof.
  intros (A1 & A2 & A3 & A4) (B1 & B2 & B3 & B4). split; [by eapply keeps_trans|]. split; [by eapply within_trans|].
  split; [|by eapply still_trans]. intros n Hn. by rewrite B3, A3.
Qed.
Lemma sure_settled d d' : sure d d' -> still (d_exchanges d) (d_exchanges d') -> settled d d'.
Proof.
  intros S H. pose proof S as (_ & B & _). split; [by apply sure_keeps|]. split; [by apply bare_names|]. split; [|done].
  intros n _. by apply bare_demand.
Qed.
Lemma set_rp_pv_still f d : still (d_exchanges d) (d_exchanges (set_rp_pv f d)).
Proof.
  unfold set_rp_pv. cbn [d_exchanges set_d_exchanges]. apply still_map. intros e [Ht _]. case_bool_decide as E; [|done].
  rewrite Ht in E. discriminate.
Qed.
Lemma both_Forall2 {A B} (R S : A -> B -> Prop) l k : Forall2 R l k -> Forall2 S l k -> Forall2 (fun x y => R x y /\ S x y) l k.
Proof. intros H. induction H as [|x y l k Hx _ IH]; intros HS; [constructor|]. apply Forall2_cons in HS as [? ?]. constructor; [done|by apply IH]. Qed.
Lemma all_settled data data' : Forall2 sure data data' ->
  Forall2 (fun d d' => still (d_exchanges d) (d_exchanges d')) data data' -> Forall2 settled data data'.
Proof. intros H1 H2. eapply Forall2_impl; [exact (both_Forall2 _ _ _ _ H1 H2)|]. intros d d' [S T]. by apply sure_settled. Qed.
Lemma update_volume_still d d' : update_volume d = Ok d' -> still (d_exchanges d) (d_exchanges d').
Proof.
  intros H. unfold update_volume in H. apply bind_Ok in H as (pv & _ & H). apply bind_Ok in H as (l & _ & H).
  apply bind_Ok in H as (o & _ & <-%Ok_inj). apply set_rp_pv_still.
Qed.
Lemma propagate_still ds pv d d' : propagate ds pv d = Ok d' -> still (d_exchanges d) (d_exchanges d').
Proof.
  intros H. unfold propagate in H. case_bool_decide; [apply Ok_inj in H as <-; apply still_refl|].
  apply bind_Ok in H as (l & _ & H). destruct l as [|s0 l]; [apply Ok_inj in H as <-; apply still_refl|].
  apply bind_Ok in H as (? & _ & H). apply bind_Ok in H as (code & _ & <-%Ok_inj). apply still_refl.
Qed.
Notation stills := (Forall2 (fun d d' => still (d_exchanges d) (d_exchanges d'))).
Lemma stills_refl data : stills data data.
Proof. induction data; constructor; [apply still_refl|done]. Qed.
Lemma update_market_volumes_still t kind data data' : update_market_production_volumes t kind data = Ok data' -> stills data data'.
Proof.
  intros H. unfold update_market_production_volumes in H. case_bool_decide.
  - apply bind_Ok in H as (order & _ & H). revert data H. induction order as [|i order IH]; intros data H.
    + cbn [foldR] in H. apply Ok_inj in H as <-. apply stills_refl.
    + cbn [foldR] in H. apply bind_Ok in H as (d1 & Hd1 & H). eapply Forall2_transitive; [|idtac|apply IH; exact H];
        [intros a b c; apply still_trans|].
      unfold update_group_step in Hd1. apply bind_Ok in Hd1 as (ds & Hds & Hd1). apply bind_Ok in Hd1 as (ds' & Hds' & Hd1).
      apply bind_Ok in Hd1 as (pv & _ & Hd1). cbv zeta in Hd1.
      destruct (data !! i) as [ds0|] eqn:Ei; [|discriminate]. apply Ok_inj in Hds as ->.
      eapply Forall2_transitive; [intros a b c; apply still_trans| |].
      * rewrite <- (list_insert_id data i ds Ei) at 1. apply Forall2_insert; [apply stills_refl|by apply update_volume_still].
      * apply mapR_Ok in Hd1. eapply Forall2_impl; [exact Hd1|]. cbn beta. intros d d' Hp.
        destruct (is_type kind d); [by eapply propagate_still|]. apply Ok_inj in Hp as <-. apply still_refl.
  - apply mapR_Ok in H. eapply Forall2_impl; [exact H|]. cbn beta. intros d d' Hp. destruct (is_type kind d).
    + by apply update_volume_still.
    + apply Ok_inj in Hp as <-. apply still_refl.
Qed.
Lemma group_link_still t data data' : link_market_group_suppliers t data = Ok data' -> stills data data'.
Proof.
  intros H. unfold link_market_group_suppliers in H. apply bind_Ok in H as (ks & _ & H). apply bind_Ok in H as (? & _ & H).
  eapply update_groups_Forall2; [| |exact H].
  - intros y _. apply still_refl.
  - intros k ups i d' Hf Hin. cbv beta in Hf. apply bind_Ok in Hf as (markets & Hm & Hf). unfold link_group in Hf. cbv zeta in Hf.
    apply bind_Ok in Hf as (row & _ & Hf). apply bind_Ok in Hf as (ordered & _ & Hf). apply mapR_Ok in Hf.
    apply elem_of_list_lookup in Hin as [m Hmm].
    destruct (Forall2_lookup_r _ _ _ _ _ Hf Hmm) as ([j d] & Hg & Hd). apply elem_of_list_lookup_2, filterb_In in Hg as [Hg _].
    apply bind_Ok in Hd as (sup & Hsup & E). apply Ok_inj in E. injection E as <- <-. cbn [fst snd] in *.
    apply elem_of_members in Hg as [Hg _]. exists d. split; [done|]. apply still_refl.
Qed.
Lemma rc_consumers_still data data' : link_consumers_to_recycled_content_activities data = Ok data' -> stills data data'.
Proof.
  intros H. unfold link_consumers_to_recycled_content_activities in H. apply bind_Ok in H as (producers & Hp & H).
  apply mapR_Ok in H. eapply Forall2_impl; [exact H|]. cbn beta. intros d d' E. apply bind_Ok in E as (es & Hes & <-%Ok_inj).
  cbn [d_exchanges set_d_exchanges]. apply still_pointwise. apply mapR_Ok in Hes. eapply Forall2_impl; [exact Hes|]. cbn beta.
  intros e e' He L. unfold link_rc in He. rewrite not_unlinked in He by done. by apply Ok_inj in He as <-.
Qed.
Lemma rp_codes_still data data' : add_reference_product_codes data = Ok data' -> stills data data'.
Proof.
  intros H. apply mapR_Ok in H. eapply Forall2_impl; [exact H|]. cbn beta. intros d d' E.
  apply bind_Ok in E as (? & _ & E). apply bind_Ok in E as (rp & _ & <-%Ok_inj).
  cbn [d_exchanges set_d_exchanges]. apply still_map. intros e [Ht _]. case_bool_decide as X; [|done].
  rewrite Ht in X. discriminate.
Qed.
Lemma log_delete_still data : Forall (fun d => dataset_code_truthy d = true) data ->
  stills data (log_and_delete_unlinked_exchanges data).
Proof.
  induction 1 as [|d data H _ IH]; [constructor|]. constructor; [|done]. rewrite H. cbn [d_exchanges set_d_exchanges].
  assert (filterb (fun _ => true) (d_exchanges d) = d_exchanges d) as ->; [|apply still_refl].
  unfold filterb. induction (d_exchanges d) as [|e es IHe]; [done|]. cbn [List.filter]. by rewrite IHe.
Qed.
(** Links of consumers. *)
Lemma sublist_fmap {A B} (f : A -> B) l k : sublist l k -> sublist (map f l) (map f k).
Proof. induction 1; cbn [map]; by constructor. Qed.
Lemma sublist_keep {A} (p : A -> bool) l k : sublist l k -> (forall x, x ∈ l -> p x = true) -> sublist l (filterb p k).
Proof.
  unfold filterb. induction 1 as [|x l k _ IH|x l k _ IH]; intros H; [constructor|..]; cbn [List.filter].
  - rewrite H by by left. constructor. apply IH. intros y Hy. apply H. by right.
  - destruct (p x); [constructor|]; by apply IH.
Qed.
Lemma fold_still ln t mapping loc row fixed todo acc r :
  (forall p, p ∈ todo -> unlinked p.2 = true) ->
  (forall ox, ox ∈ fixed -> linked_input ox.2) ->
  (forall p ox, p ∈ todo -> ox ∈ fixed -> ox.1 <> Some p.1) ->
  sublist fixed acc.2.1 -> foldR (link_inputs_step ln t mapping loc row) acc todo = Ok r -> sublist fixed r.2.1.
Proof.
  revert acc. induction todo as [|[i exc] todo IH]; intros acc Ht HL Hi HS H.
  - cbn [foldR] in H. by apply Ok_inj in H as <-.
  - cbn [foldR] in H. apply bind_Ok in H as (a & Ha & H). unfold link_inputs_step in Ha. cbn [fst snd] in Ha.
    apply bind_Ok in Ha as (cs & _ & Ha). apply bind_Ok in Ha as (chosen & _ & Ha). apply bind_Ok in Ha as (dec & Hdec & <-%Ok_inj).
    eapply IH; [| |..|exact H]; [intros p Hp; apply Ht; by right|done|intros p ox Hp; apply Hi; by right|]. cbn [snd].
    destruct dec as [|c|new]; cbn [apply_decision fst].
    + exact HS.
    + assert (map (fun ox : option nat * exchange => if bool_decide (ox.1 = Some i) then (ox.1, set_e_code (Some c) ox.2) else ox) fixed = fixed) as <-.
      { clear -Hi. induction fixed as [|ox fixed IH]; [done|]. cbn [map]. rewrite bool_decide_eq_false_2.
        - f_equal. apply IH. intros p x Hp Hx. apply Hi; [done|by right].
        - apply (Hi (i, exc)); by left. }
      by apply sublist_fmap.
    + apply sublist_keep; [by apply sublist_inserts_r|]. intros ox Hox. apply bool_decide_eq_true. intros E.
      specialize (Ht (i, exc) ltac:(by left)). cbn [snd] in Ht. apply HL in Hox. rewrite E in Hox. apply not_unlinked in Hox. congruence.
Qed.
Lemma link_dataset_still ln t mapping data before ds r :
  link_dataset ln t mapping data before ds = Ok r -> still (d_exchanges ds) (d_exchanges r.2).
Proof.
  intros H. unfold link_dataset in H. destruct (is_type MarketGroup ds); [apply Ok_inj in H as <-; apply still_refl|].
  apply bind_Ok in H as (row & _ & H). cbv zeta in H. apply bind_Ok in H as (res & Hres & <-%Ok_inj). cbn [snd].
  assert (forall (b : bool) d, d_exchanges (if b then set_d_suppliers None d else d) = d_exchanges d) as Hd by (by intros []).
  rewrite Hd. cbn [d_exchanges set_d_exchanges].
  apply (fold_still _ _ _ _ _ (filter (fun ox => linked_input ox.2) (map (fun p : nat * exchange => (Some p.1, p.2)) (indexed (d_exchanges ds))))) in Hres.
  - apply (sublist_fmap snd) in Hres.
    assert (map snd (filter (fun ox : option nat * exchange => linked_input ox.2)
      (map (fun p : nat * exchange => (Some p.1, p.2)) (indexed (d_exchanges ds)))) = filter linked_input (d_exchanges ds)) as E.
    { assert (map snd (map (fun p : nat * exchange => (Some p.1, p.2)) (indexed (d_exchanges ds))) = d_exchanges ds) as E.
      { rewrite map_map. cbn [snd]. apply indexed_snd. }
      rewrite <- E at 2. generalize (map (fun p : nat * exchange => (Some p.1, p.2)) (indexed (d_exchanges ds))) as l. clear.
      induction l as [|x l IH]; [done|]. rewrite filter_cons. cbn [map]. rewrite filter_cons.
      destruct (decide (linked_input x.2)); cbn [map]; by rewrite IH. }
    rewrite E in Hres. unfold still. 
    assert (sublist (filter linked_input (filter linked_input (d_exchanges ds))) (filter linked_input (map snd res.2.1))) as Hf.
    { clear -Hres. induction Hres as [|x l k _ IH|x l k _ IH]; [constructor|..]; rewrite !filter_cons.
      - destruct (decide _); [by constructor|done].
      - destruct (decide (linked_input x)); [by constructor|done]. }
    rewrite list_filter_filter in Hf. erewrite list_filter_iff in Hf; [exact Hf|]. intros x. tauto.
  - intros p Hp. by apply filterb_In in Hp as [_ Hp].
  - intros ox Hox. by apply elem_of_list_filter in Hox as [? _].
  - intros p ox Hp Hox. apply filterb_In in Hp as [Hp Hu]. apply elem_of_list_filter in Hox as [HL Hox].
    apply elem_of_list_fmap in Hox as (q & -> & Hq). cbn [fst snd] in *. intros E. apply Some_inj in E.
    destruct p as [i e], q as [j x]. cbn [fst snd] in *. subst j. apply elem_of_indexed in Hp, Hq. rewrite Hp in Hq.
    apply Some_inj in Hq as <-. apply not_unlinked in HL. congruence.
  - cbn [fst snd]. clear. generalize (map (fun p : nat * exchange => (Some p.1, p.2)) (indexed (d_exchanges ds))) as l.
    induction l as [|x l IH]; [constructor|]. rewrite filter_cons. destruct (decide _); by constructor.
Qed.
Lemma consumers_settled ln t data data' : (forall d, d ∈ data -> exists c, d_code d = Some c /\ c <> ""%string) ->
  link_consumers_to_markets ln t data = Ok data' -> Forall2 settled data data'.
Proof.
  intros Hc H. unfold link_consumers_to_markets in H. apply bind_Ok in H as (ks & Hks & H). cbv zeta in H.
  apply bind_Ok in H as (r & Hr & <-%Ok_inj).
  assert (forall l acc r, foldR (fun acc ds => let? r := link_dataset ln t (map (fun g => (g.1, map snd g.2)) (groupby ks)) data acc.1 ds in
                         Ok (r.1, acc.2 ++ [r.2])) acc l = Ok r ->
    exists new, r.2 = acc.2 ++ new /\ Forall2 settled l new) as Hgen.
  { clear Hr r. induction l as [|d l IH]; intros acc r H.
    - cbn [foldR] in H. apply Ok_inj in H as <-. exists []. rewrite app_nil_r. split; [done|constructor].
    - cbn [foldR] in H. apply bind_Ok in H as (a & Ha & H). apply bind_Ok in Ha as (x & Hx & <-%Ok_inj).
      assert (settled d x.2) as Hd.
      { split; [by eapply link_dataset_keeps|]. split; [by eapply link_dataset_names|]. split; [|by eapply link_dataset_still].
        intros n Hn. by eapply (link_dataset_demand ln t data ks Hks Hc n Hn). }
      apply IH in H as (new & E & HF). exists (x.2 :: new). cbn [snd] in E. rewrite E, <- app_assoc. split; [done|]. by constructor. }
  destruct (Hgen data (None, []) r Hr) as (new & E & HF). cbn [snd app] in E. by rewrite E.
Qed.
