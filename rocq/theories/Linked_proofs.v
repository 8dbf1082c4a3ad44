(** Proofs for C39: the whole linking stage. *)
From Verif Require Import Base Types Uncertainty Uncertainty_proofs Utils Spec_Utils Utils_proofs Grouping GroupUpdate
  Topology Cutoff Locations Spec_RestOfWorld RestOfWorld_proofs Spec_Markets Markets_proofs SingleOutput_proofs Waste_proofs
  Consequential Spec_Codes Codes_proofs.

Lemma filterb_length {A} (p : A -> bool) l : (length (filterb p l) <= length l)%nat.
Proof. unfold filterb. induction l as [|x l IH]; [done|]. cbn [List.filter]. destruct (p x); cbn [length]; lia. Qed.
Lemma sublist_same {A} (l k : list A) : sublist l k -> length l = length k -> l = k.
Proof.
  induction 1 as [|x l k H IH|x l k H IH]; intros E; cbn [length] in E; [done| |].
  - f_equal. apply IH. lia.
  - apply sublist_length in H. lia.
Qed.

Lemma NoDup_sublist {A} (l k : list A) : sublist l k -> NoDup k -> NoDup l.
Proof.
  induction 1 as [|x l k H IH|x l k H IH]; intros Hnd; [constructor| |].
  - apply NoDup_cons in Hnd as [Hx Hnd]. apply NoDup_cons. split; [|by apply IH]. intros Hin. apply Hx.
    eapply elem_of_submseteq; [exact Hin|]. by apply sublist_submseteq.
  - apply NoDup_cons in Hnd as [_ Hnd]. by apply IH.
Qed.

Section linked.
Context (T : etype -> Prop).
Definition uncoded (data : list dataset) : Prop :=
  Forall (fun ds => d_suppliers ds = None /\ Forall (fun e => T (e_type e) -> e_code e = None) (d_exchanges ds)) data.

(** *** Before the codes *)
Definition labelled (ds : dataset) : Prop :=
  is_Some (d_refprod ds) /\
  Forall (fun e => e_type e = RefProduct -> d_refprod ds = Some (e_name e)) (d_exchanges ds) /\
  Forall (fun e => T (e_type e) -> e_code e = None) (d_exchanges ds) /\
  d_suppliers ds = None.

Lemma labelled_exchanges d es : labelled d ->
  Forall (fun e => e_type e = RefProduct -> d_refprod d = Some (e_name e)) es ->
  Forall (fun e => T (e_type e) -> e_code e = None) es -> labelled (set_d_exchanges es d).
Proof. intros (H1 & H2 & H3 & H4) Ha Hb. split; [exact H1|]. split; [exact Ha|]. split; [exact Hb|]. exact H4. Qed.
Lemma labelled_pv f d : labelled d -> labelled (set_rp_pv f d).
Proof.
  intros Hd. pose proof Hd as (_ & H2 & H3 & _). unfold set_rp_pv. apply labelled_exchanges; [done|..].
  - apply Forall_fmap. eapply Forall_impl; [exact H2|]. intros e He. unfold compose. cbn beta. by case_bool_decide.
  - apply Forall_fmap. eapply Forall_impl; [exact H3|]. intros e He. unfold compose. cbn beta. by case_bool_decide.
Qed.
Lemma label_labelled data data' : uncoded data -> label_reference_product data = Ok data' -> Forall labelled data'.
Proof.
  intros HU H. apply mapR_Ok in H. revert HU. induction H as [|d d' data data' Hd _ IH]; intros HU; [constructor|].
  apply Forall_cons in HU as [[Hs Hx] HU]. constructor; [|by apply IH].
  apply bind_Ok in Hd as (rp & Hrp & <-%Ok_inj). split; [by eexists|]. split; [|done].
  cbn [d_exchanges d_refprod set_d_refprod]. apply Forall_forall. intros e He Ht. f_equal.
  unfold get_single_reference_product in Hrp. destruct (reference_products d) as [|r [|? ?]] eqn:E; try discriminate.
  apply Ok_inj in Hrp as ->. assert (e ∈ reference_products d) as Hin.
  { unfold reference_products. apply filterb_In. split; [done|by apply bool_decide_eq_true]. }
  rewrite E in Hin. by apply elem_of_list_singleton in Hin as ->.
Qed.
Lemma fake_labelled data data' : Forall labelled data -> assign_fake_pv_to_confidential_datasets data = Ok data' -> Forall labelled data'.
Proof.
  intros HL H. assert (Forall2 (fun _ d' => labelled d') data data') as HF.
  { eapply (mapR_Forall2 labelled); [done| |exact H]. intros d d' _ Hd Hdd. cbn beta in Hdd. destruct (_ && _).
    - apply bind_Ok in Hdd as (rp & _ & Hdd). apply bind_Ok in Hdd as (? & _ & <-%Ok_inj). by apply labelled_pv.
    - by apply Ok_inj in Hdd as <-. }
  clear -HF. induction HF; by constructor.
Qed.
Lemma relabel_labelled data data' : Forall labelled data -> relabel_global_to_row data = Ok data' ->
  length data' = length data /\ Forall labelled data'.
Proof.
  intros HL H. assert (Forall2 (fun _ d' => labelled d') data data') as HF.
  { eapply update_groups_Forall2; [| |exact H].
    - intros d Hd. rewrite Forall_forall in HL. by apply HL.
    - intros k ups i d' Hf Hin. unfold relabel_group in Hf.
      destruct (match members row_key k data with p :: _ => is_type MarketGroup p.2 | [] => false end); [apply Ok_inj in Hf as <-; set_solver|].
      destruct (members row_key k data) as [|p1 [|p2 ps]] eqn:Em; [apply Ok_inj in Hf as <-; set_solver|apply Ok_inj in Hf as <-; set_solver|].
      rewrite <- Em in Hf. destruct (filterb is_glo _) as [|[j glo] [|? ?]] eqn:Eg; [apply Ok_inj in Hf as <-; set_solver| |discriminate].
      cbv zeta in Hf. apply bind_Ok in Hf as (rp & _ & Hf). apply bind_Ok in Hf as (v & _ & <-%Ok_inj).
      apply elem_of_list_singleton in Hin. injection Hin as -> ->.
      assert ((j, glo) ∈ [(j, glo)]) as Hj by set_solver. rewrite <- Eg in Hj. apply filterb_In in Hj as [Hj _].
      apply elem_of_members in Hj as [Hj _]. exists glo. split; [done|].
      assert (labelled glo) as Hl by (rewrite Forall_forall in HL; apply HL; by eapply elem_of_list_lookup_2).
      match goal with |- labelled (set_d_location _ (set_rp_pv ?f glo)) => pose proof (labelled_pv f glo Hl) as Hp end.
      destruct Hp as (A & B & C & D). split; [exact A|]. split; [exact B|]. split; [exact C|exact D]. }
  split; [by apply Forall2_length in HF|]. clear -HF. induction HF; by constructor.
Qed.

(** The pairs of code and product. *)
Definition pairs (data : list dataset) (c n : string) : Prop :=
  exists p, p ∈ data /\ d_code p = Some c /\ d_refprod p = Some n.
Lemma codes_good md5 data coded : Forall labelled data -> add_unique_codes md5 data = Ok coded ->
  length coded = length data /\ NoDup (map d_code coded) /\ Forall (good T (pairs coded)) coded.
Proof.
  intros HL H. destruct (add_unique_codes_spec md5 data) as [Hs _]. destruct (Hs coded H) as [E Hnd].
  split; [by rewrite E, map_length|]. split; [done|]. apply Forall_forall. intros p Hp. pose proof Hp as Hp'. rewrite E in Hp.
  apply elem_of_list_fmap in Hp as (d & Ed & Hd). rewrite Forall_forall in HL. destruct (HL d Hd) as ([n Hn] & H2 & H3 & H4).
  split.
  - exists (activity_hash md5 d), n. assert (d_code p = Some (activity_hash md5 d)) as E1 by by rewrite Ed.
    assert (d_refprod p = Some n) as E2 by by rewrite Ed. split; [done|]. split; [done|]. by exists p.
  - subst p. split; [exact H2|]. split.
    + eapply Forall_impl; [exact H3|]. intros e He Ht c Hc. rewrite He in Hc; [discriminate|done].
    + intros l Hl. cbn [d_suppliers set_d_code] in Hl. congruence.
Qed.
Lemma numbered_good md5 data coded : uncoded data -> numbered md5 data = Ok coded ->
  (length coded <= length data)%nat /\ NoDup (map d_code coded) /\ Forall (good T (pairs coded)) coded.
Proof.
  intros HU H. unfold numbered in H. apply bind_Ok in H as (d1 & H1 & H). cbv zeta in H.
  apply bind_Ok in H as (d3 & H3 & H). apply bind_Ok in H as (d5 & H5 & H). apply bind_Ok in H as (d6 & H6 & H).
  apply label_labelled in H1 as L1; [|done].
  assert (Forall labelled (delete_whitelisted_zero_pv_market_datsets d1)) as L2.
  { rewrite Forall_forall in *. intros d Hd. apply filterb_In in Hd as [Hd _]. by apply L1. }
  apply fake_labelled in H3 as L3; [|done].
  assert (Forall labelled (correct_natural_gas_pipeline_location d3)) as L4.
  { apply Forall_fmap. eapply Forall_impl; [exact L3|]. intros d (A & B & C & D). unfold compose. by destruct (_ && _). }
  apply relabel_labelled in H5 as [E5 L5]; [|done].
  unfold check_no_row_market_groups in H6. apply bind_Ok in H6 as (? & _ & <-%Ok_inj).
  apply codes_good in H as (E & Hnd & HG); [|done]. split; [|done].
  apply mapR_Ok, Forall2_length in H1. apply mapR_Ok, Forall2_length in H3.
  assert (length (delete_whitelisted_zero_pv_market_datsets d1) <= length d1)%nat by apply filterb_length.
  unfold correct_natural_gas_pipeline_location in E5. rewrite map_length in E5. lia.
Qed.

(** *** From the codes on *)
Definition kept (coded cur : list dataset) : Prop :=
  forall p, p ∈ coded -> (exists p', p' ∈ cur /\ static p p') \/ 
    (d_location p = "RoW"%string /\ (d_type p = Transforming \/ d_type p = MarketActivity)).
Lemma kept_refl data : kept data data.
Proof. intros p Hp. left. exists p. split; [done|apply static_refl]. Qed.
Lemma static_trans d1 d2 d3 : static d1 d2 -> static d2 d3 -> static d1 d3.
Proof. intros (A1 & A2 & A3 & A4) (B1 & B2 & B3 & B4). split_and!; congruence. Qed.
Lemma kept_goes K coded cur next : kept coded cur -> Forall2 (goes T K) cur next -> kept coded next.
Proof.
  intros HK HF p Hp. destruct (HK p Hp) as [(p' & Hp' & Hs)|?]; [|by right]. left.
  apply elem_of_list_lookup in Hp' as [m Hm]. destruct (Forall2_lookup_l _ _ _ _ _ HF Hm) as (q & Hq & [Hs' _]).
  exists q. split; [by eapply elem_of_list_lookup_2|by eapply static_trans].
Qed.
Definition tag (d : dataset) : option string * option string := (d_code d, d_refprod d).
Definition in_order (coded cur : list dataset) : Prop := sublist (map tag cur) (map tag coded).
Lemma sublist_map {A B} (f : A -> B) l k : sublist l k -> sublist (map f l) (map f k).
Proof. induction 1; cbn [map]; by constructor. Qed.
Lemma in_order_codes coded cur : in_order coded cur -> sublist (map d_code cur) (map d_code coded).
Proof. intros H. apply (sublist_map fst) in H. by rewrite !map_map in H. Qed.
Lemma goes_codes K cur next : Forall2 (goes T K) cur next -> map tag next = map tag cur.
Proof. induction 1 as [|d d' cur next [(H1 & H2 & _) _] _ IH]; [done|]. cbn [map]. unfold tag at 1 3. by rewrite H1, H2, IH. Qed.

Lemma step_goes K coded cur next :
  Forall (good T K) cur /\ kept coded cur /\ in_order coded cur -> Forall2 (goes T K) cur next ->
  Forall (good T K) next /\ kept coded next /\ in_order coded next.
Proof.
  intros (H1 & H2 & H3) HF. split; [by eapply goes_good|]. split; [by eapply kept_goes|].
  unfold in_order. by rewrite (goes_codes _ _ _ HF).
Qed.
Lemma sublist_map_filterb {A B} (f : A -> B) p (l : list A) : sublist (map f (filterb p l)) (map f l).
Proof.
  unfold filterb. induction l as [|x l IH]; [constructor|]. cbn [List.filter map]. destruct (p x); cbn [map]; by constructor.
Qed.
Lemma step_delete K coded cur next kind : kind = Transforming \/ kind = MarketActivity ->
  Forall (good T K) cur /\ kept coded cur /\ in_order coded cur ->
  delete_global_with_zero_pv_when_regional_present kind cur = Ok next ->
  Forall (good T K) next /\ kept coded next /\ in_order coded next.
Proof.
  intros Hk (H1 & H2 & H3) H. destruct (delete_global_good _ _ _ _ _ H1 H) as [HG HD]. split; [done|]. split.
  - intros p Hp. destruct (H2 p Hp) as [(p' & Hp' & Hs)|?]; [|by right]. destruct (HD p' Hp') as [Hin|[Hl Ht]].
    + left. by exists p'.
    + right. destruct Hs as (_ & _ & S3 & S4). split; [congruence|]. rewrite <- S4, Ht. done.
  - unfold delete_global_with_zero_pv_when_regional_present in H. apply bind_Ok in H as (ks & _ & <-%Ok_inj).
    unfold in_order in *. etransitivity; [|exact H3]. apply sublist_map_filterb.
Qed.

Lemma pv_numbered md5 ln ord t data out : link_markets_by_pv md5 ln ord t data = Ok out ->
  exists coded, numbered md5 data = Ok coded.
Proof.
  intros H. unfold link_markets_by_pv in H. unfold numbered.
  apply bind_Ok in H as (d1 & -> & H). cbn [bind]. cbv zeta in H |- *. apply bind_Ok in H as (d3 & -> & H). cbn [bind].
  apply bind_Ok in H as (d5 & -> & H). cbn [bind]. apply bind_Ok in H as (d6 & -> & H). cbn [bind].
  apply bind_Ok in H as (d7 & -> & _). by exists d7.
Qed.
Lemma pv_invariant md5 ln ord t data coded out : uncoded data -> numbered md5 data = Ok coded ->
  link_markets_by_pv md5 ln ord t data = Ok out ->
  Forall (good T (or_gas (pairs coded))) out /\ kept coded out /\ in_order coded out.
Proof.
  intros HU Hn H. destruct (numbered_good _ _ _ HU Hn) as (_ & _ & HG).
  unfold link_markets_by_pv in H. unfold numbered in Hn.
  apply bind_Ok in H as (d1 & E1 & H). rewrite E1 in Hn. cbn [bind] in Hn. cbv zeta in H, Hn.
  apply bind_Ok in H as (d3 & E3 & H). rewrite E3 in Hn. cbn [bind] in Hn.
  apply bind_Ok in H as (d5 & E5 & H). rewrite E5 in Hn. cbn [bind] in Hn.
  apply bind_Ok in H as (d6 & E6 & H). rewrite E6 in Hn. cbn [bind] in Hn.
  apply bind_Ok in H as (d7 & E7 & H). rewrite E7 in Hn. apply Ok_inj in Hn as ->.
  assert (Forall (good T (pairs coded)) coded /\ kept coded coded /\ in_order coded coded) as I.
  { split; [done|]. split; [apply kept_refl|]. unfold in_order. done. }
  apply bind_Ok in H as (d8 & E8 & H). eapply (actualize_good T (pairs coded)) in E8; [|by destruct I]. eapply step_goes in I; [|exact E8].
  apply bind_Ok in H as (d9 & E9 & H). eapply (rc_suppliers_good T (pairs coded)) in E9; [|by destruct I]. eapply step_goes in I; [|exact E9].
  apply bind_Ok in H as (d10 & E10 & H). eapply (add_suppliers_good T (pairs coded)) in E10; [|by destruct I]. eapply step_goes in I; [|exact E10].
  apply bind_Ok in H as (d11 & E11 & H). eapply (update_market_volumes_good T (pairs coded)) in E11; [|by destruct I]. eapply step_goes in I; [|exact E11].
  apply bind_Ok in H as (d12 & E12 & H). eapply step_delete in I; [|by right|exact E12].
  apply bind_Ok in H as (d13 & E13 & H). eapply step_delete in I; [|by left|exact E13].
  apply bind_Ok in H as (d14 & E14 & H). eapply (allocate_all_good T (pairs coded)) in E14; [|by destruct I]. eapply step_goes in I; [|exact E14].
  apply bind_Ok in H as (d15 & E15 & H). eapply (group_link_good T (pairs coded)) in E15; [|by destruct I]. eapply step_goes in I; [|exact E15].
  apply bind_Ok in H as (d16 & E16 & H). eapply (update_market_volumes_good T (pairs coded)) in E16; [|by destruct I]. eapply step_goes in I; [|exact E16].
  apply bind_Ok in H as (d17 & E17 & H). eapply (allocate_all_good T (pairs coded)) in E17; [|by destruct I]. eapply step_goes in I; [|exact E17].
  apply bind_Ok in H as (d18 & E18 & H). eapply (rc_consumers_good T (pairs coded)) in E18; [|by destruct I]. eapply step_goes in I; [|exact E18].
  apply bind_Ok in H as (d19 & E19 & H). eapply (consumers_good T (pairs coded)) in E19; [|by destruct I].
  assert (Forall (good T (or_gas (pairs coded))) d18 /\ kept coded d18 /\ in_order coded d18) as J.
  { destruct I as (I1 & I2 & I3). split; [|done]. eapply Forall_impl; [exact I1|]. intros d. apply good_mono. by left. }
  eapply step_goes in J; [|exact E19].
  apply bind_Ok in H as (d20 & E20 & H). eapply (rp_codes_good T (or_gas (pairs coded))) in E20; [|by destruct J]. eapply step_goes in J; [|exact E20].
  apply Ok_inj in H as <-. eapply step_goes; [exact J|]. apply log_delete_good. by destruct J.
Qed.

Lemma kept_all coded out : in_order coded out -> length out = length coded -> map tag out = map tag coded.
Proof. intros H E. apply sublist_same; [done|]. rewrite !map_length. lia. Qed.

(** *** The theorems *)
Lemma pv_codes md5 ln ord t data out :
  uncoded data -> link_markets_by_pv md5 ln ord t data = Ok out ->
  exists coded, numbered md5 data = Ok coded /\ NoDup (map d_code coded) /\ NoDup (map d_code out) /\
  forall ds e c, ds ∈ out -> e ∈ d_exchanges ds -> T (e_type e) -> e_code e = Some c ->
    exists p, p ∈ coded /\ producer c (e_name e) p /\
      ((exists p', p' ∈ out /\ producer c (e_name e) p') \/
       (d_location p = "RoW"%string /\ (d_type p = Transforming \/ d_type p = MarketActivity))).
Proof.
  intros HU H. destruct (pv_numbered _ _ _ _ _ _ H) as [coded Hc]. exists coded. split; [done|].
  destruct (numbered_good _ _ _ HU Hc) as (_ & Hnd & _). split; [done|].
  destruct (pv_invariant _ _ _ _ _ _ _ HU Hc H) as (HG & HK & HO). split; [eapply NoDup_sublist; [by apply in_order_codes|done]|].
  intros ds e c Hds He Ht Hec. rewrite Forall_forall in HG. destruct (HG ds Hds) as (_ & _ & H3 & _).
  rewrite Forall_forall in H3. specialize (H3 e He Ht c Hec).
  assert (exists p, p ∈ coded /\ producer c (e_name e) p) as (p & Hp & Hpr).
  { destruct H3 as [(p & Hp & Hp1 & Hp2)|(Hn & n & p & Hp & Hp1 & Hp2)]; exists p; (split; [done|]); (split; [done|]).
    - by left.
    - right. split; [done|by eexists]. }
  exists p. split; [done|]. split; [done|]. destruct (HK p Hp) as [(p' & Hp' & S1 & S2 & _)|?]; [|by right].
  left. exists p'. split; [done|]. destruct Hpr as [Hp1 Hp2]. split; [congruence|]. by rewrite S2.
Qed.
Lemma pv_no_deletion md5 ln ord t data out :
  uncoded data -> link_markets_by_pv md5 ln ord t data = Ok out -> length out = length data ->
  forall ds e c, ds ∈ out -> e ∈ d_exchanges ds -> T (e_type e) -> e_code e = Some c ->
    exists p, p ∈ out /\ producer c (e_name e) p /\ forall p', p' ∈ out -> d_code p' = Some c -> p' = p.
Proof.
  intros HU H Hlen ds e c Hds He Ht Hec. destruct (pv_codes _ _ _ _ _ _ HU H) as (coded & Hc & Hnd & Hndo & HP).
  destruct (numbered_good _ _ _ HU Hc) as (Hle & _ & _).
  destruct (pv_invariant _ _ _ _ _ _ _ HU Hc H) as (HG & HK & HO).
  assert (length out = length coded) as E.
  { apply sublist_length in HO. rewrite !map_length in HO. lia. }
  pose proof (kept_all _ _ HO E) as Hcodes. destruct (HP ds e c Hds He Ht Hec) as (p & Hp & Hpr & Hcase).
  assert (exists p', p' ∈ out /\ producer c (e_name e) p') as (p' & Hp' & Hpr').
  { apply elem_of_list_lookup in Hp as [m Hm]. assert (map tag out !! m = Some (tag p)) as Hm'.
    { rewrite Hcodes, list_lookup_fmap, Hm. done. }
    rewrite list_lookup_fmap in Hm'. destruct (out !! m) as [p'|] eqn:Em; [|done]. cbn in Hm'. apply Some_inj in Hm'.
    injection Hm' as T1 T2. exists p'. split; [by eapply elem_of_list_lookup_2|]. destruct Hpr as [Hp1 Hp2].
    split; [congruence|]. by rewrite T2. }
  exists p'. split; [done|]. split; [done|]. intros q Hq Hqc. destruct Hpr' as [Hc' _].
  apply elem_of_list_lookup in Hq as [m Hm]. apply elem_of_list_lookup in Hp' as [m' Hm'].
  assert (m = m') as ->.
  { apply (NoDup_lookup (map d_code out) m m' (Some c)); [done|..]; rewrite list_lookup_fmap.
    - rewrite Hm. cbn. by f_equal.
    - rewrite Hm'. cbn. by f_equal. }
  rewrite Hm in Hm'. by apply Some_inj in Hm'.
Qed.

(** *** The consequential model *)
Lemma tech_invariant md5 ln ord t data out : uncoded data ->
  link_markets_by_technology_level md5 ln ord t data = Ok out ->
  exists coded, NoDup (map d_code coded) /\ Forall (good T (or_gas (pairs coded))) out /\ map tag out = map tag coded.
Proof.
  intros HU H. unfold link_markets_by_technology_level in H.
  apply bind_Ok in H as (d1 & E1 & H). cbv zeta in H. apply bind_Ok in H as (d3 & E3 & H).
  apply bind_Ok in H as (d5 & E5 & H). apply bind_Ok in H as (coded & E7 & H).
  apply label_labelled in E1; [|done].
  assert (Forall labelled (delete_whitelisted_zero_pv_market_datsets d1)) as L2.
  { rewrite Forall_forall in *. intros d Hd. apply filterb_In in Hd as [Hd _]. by apply E1. }
  apply fake_labelled in E3; [|done]. apply relabel_labelled in E5 as [_ E5]; [|done].
  apply codes_good in E7 as (_ & Hnd & HG); [|done]. exists coded. split; [done|].
  assert (Forall (good T (pairs coded)) coded /\ map tag coded = map tag coded) as I by done.
  assert (forall K cur next, Forall (good T K) cur /\ map tag cur = map tag coded -> Forall2 (goes T K) cur next ->
    Forall (good T K) next /\ map tag next = map tag coded) as step.
  { intros K cur next [_ Ht] HF. split; [by eapply goes_good|]. by rewrite (goes_codes _ _ _ HF). }
  apply bind_Ok in H as (d8 & E8 & H). eapply (actualize_good T (pairs coded)) in E8; [|by destruct I]. eapply step in I; [|exact E8].
  apply bind_Ok in H as (d10 & E10 & H). eapply (add_suppliers_good T (pairs coded)) in E10; [|by destruct I]. eapply step in I; [|exact E10].
  apply bind_Ok in H as (d11 & E11 & H). eapply (prune_good T (pairs coded)) in E11; [|by destruct I]. eapply step in I; [|exact E11].
  apply bind_Ok in H as (d12 & E12 & H). eapply (update_market_volumes_good T (pairs coded)) in E12; [|by destruct I]. eapply step in I; [|exact E12].
  apply bind_Ok in H as (d13 & E13 & H). eapply (add_suppliers_good T (pairs coded)) in E13; [|by destruct I]. eapply step in I; [|exact E13].
  apply bind_Ok in H as (d14 & E14 & H). eapply (update_market_volumes_good T (pairs coded)) in E14; [|by destruct I]. eapply step in I; [|exact E14].
  apply bind_Ok in H as (d15 & E15 & H). eapply (allocate_all_good T (pairs coded)) in E15; [|by destruct I]. eapply step in I; [|exact E15].
  eapply step in I; [|eapply delete_suppliers_good; by destruct I].
  apply bind_Ok in H as (d19 & E19 & H). eapply (consumers_good T (pairs coded)) in E19; [|by destruct I].
  assert (Forall (good T (or_gas (pairs coded))) (delete_suppliers_list d15) /\ map tag (delete_suppliers_list d15) = map tag coded) as J.
  { destruct I as [I1 I2]. split; [|done]. eapply Forall_impl; [exact I1|]. intros d. apply good_mono. by left. }
  eapply step in J; [|exact E19]. apply Ok_inj in H as <-. eapply step; [exact J|]. apply log_delete_good. by destruct J.
Qed.
Lemma tech_codes md5 ln ord t data out :
  uncoded data -> link_markets_by_technology_level md5 ln ord t data = Ok out ->
  NoDup (map d_code out) /\
  forall ds e c, ds ∈ out -> e ∈ d_exchanges ds -> T (e_type e) -> e_code e = Some c ->
    exists p, p ∈ out /\ producer c (e_name e) p.
Proof.
  intros HU H. destruct (tech_invariant _ _ _ _ _ _ HU H) as (coded & Hnd & HG & Htag).
  assert (map d_code out = map d_code coded) as Hcodes.
  { apply (f_equal (map fst)) in Htag. by rewrite !map_map in Htag. }
  split; [by rewrite Hcodes|]. intros ds e c Hds He Ht Hec. rewrite Forall_forall in HG. destruct (HG ds Hds) as (_ & _ & H3 & _).
  rewrite Forall_forall in H3. specialize (H3 e He Ht c Hec).
  assert (exists p, p ∈ coded /\ producer c (e_name e) p) as (p & Hp & Hpr).
  { destruct H3 as [(p & Hp & Hp1 & Hp2)|(Hn & n & p & Hp & Hp1 & Hp2)]; exists p; (split; [done|]); (split; [done|]).
    - by left.
    - right. split; [done|by eexists]. }
  apply elem_of_list_lookup in Hp as [m Hm]. assert (map tag out !! m = Some (tag p)) as Hm'.
  { rewrite Htag, list_lookup_fmap, Hm. done. }
  rewrite list_lookup_fmap in Hm'. destruct (out !! m) as [p'|] eqn:Em; [|done]. cbn in Hm'. apply Some_inj in Hm'.
  injection Hm' as T1 T2. exists p'. split; [by eapply elem_of_list_lookup_2|]. destruct Hpr as [Hp1 Hp2].
  split; [congruence|]. by rewrite T2.
Qed.

End linked.
