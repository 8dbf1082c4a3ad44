(** Proofs for C63-C66: whole system models. *)
From stdpp Require Import gmap.
From Verif Require Import Base Types Uncertainty Spec_Uncertainty Uncertainty_proofs Utils Spec_Utils Utils_proofs
  Strings Recalculation Spec_Recalculation Formulas Parameters Validation ActivityLinks Cutoff Topology Locations Consequential
  Spec_Waste Waste_proofs Spec_Combined Combined_proofs SingleOutput_proofs Spec_Codes Codes_proofs Linked_proofs Spec_Untouched Untouched_proofs
  Pipeline Stems_proofs Spec_Pipeline.

(** *** The end of the cut-off model, dataset by dataset *)
Definition touched (f : string -> string) (e e' : exchange) : Prop :=
  e_name e' = f (e_name e) /\ e_code e' = e_code e /\ e_id e' = e_id e /\ e_unit e' = e_unit e /\
  e_compartment e' = e_compartment e /\ e_subcompartment e' = e_subcompartment e /\
  (e_type e' = e_type e \/ (nonalloc_byproduct e /\ e_type e' = FromTechnosphere)).
Definition ending (f : string -> string) (d d' : dataset) : Prop :=
  d_code d' = d_code d /\ d_refprod d' = option_map f (d_refprod d) /\ d_location d' = d_location d /\
  d_type d' = d_type d /\ origin d' = origin d /\ Forall2 (touched f) (d_exchanges d) (d_exchanges d').

Lemma touched_trans f g e1 e2 e3 : touched f e1 e2 -> touched g e2 e3 ->
  (nonalloc_byproduct e2 -> e_type e3 = FromTechnosphere -> nonalloc_byproduct e1) -> touched (fun s => g (f s)) e1 e3.
Proof.
  intros (A1 & A2 & A3 & A4 & A5 & A6 & A7) (B1 & B2 & B3 & B4 & B5 & B6 & B7) HN. unfold touched.
  split; [by rewrite B1, A1|]. split; [congruence|]. split; [congruence|]. split; [congruence|]. split; [congruence|].
  split; [congruence|]. destruct B7 as [B7|[B7 B8]].
  - rewrite B7. destruct A7 as [A7|A7]; [by left|by right].
  - right. split; [by apply HN|done].
Qed.
Definition sameb (e e' : exchange) : Prop := same_besides_amount_uncertainty e e'.
Lemma sameb_fields e e' : sameb e e' -> e_name e' = e_name e /\ e_code e' = e_code e /\ e_id e' = e_id e /\
  e_unit e' = e_unit e /\ e_compartment e' = e_compartment e /\ e_subcompartment e' = e_subcompartment e /\
  e_type e' = e_type e /\ e_class e' = e_class e.
Proof. unfold sameb, same_besides_amount_uncertainty. intuition. Qed.
Lemma sameb_touched e e' : sameb e e' -> touched id e e'.
Proof. intros H. apply sameb_fields in H as (? & ? & ? & ? & ? & ? & ? & ?). unfold touched, id. intuition. Qed.
Lemma touched_same f e1 e2 e3 : touched f e1 e2 -> sameb e2 e3 -> touched f e1 e3.
Proof.
  intros (A1 & A2 & A3 & A4 & A5 & A6 & A7) H. apply sameb_fields in H as (? & ? & ? & ? & ? & ? & H & ?).
  unfold touched. rewrite H. repeat split; try congruence; done.
Qed.

Lemma normalize_same ln d d' : normalize_reference_production_amount ln d = Ok d' ->
  exists es, d' = set_d_exchanges es d /\ Forall2 sameb (d_exchanges d) es.
Proof.
  intros H. apply normalize_spec in H as (rp & k & es & _ & _ & _ & -> & H & _). exists es. split; [done|].
  eapply Forall2_impl; [exact H|]. by intros ? ? [_ ?].
Qed.
Lemma Forall2_sameb_refl es : Forall2 sameb es es.
Proof. induction es; constructor; [apply same_besides_refl|done]. Qed.
Lemma adjust_same ln d d' : adjust_market_sign ln d = Ok d' ->
  exists es, d' = set_d_exchanges es d /\ Forall2 sameb (d_exchanges d) es.
Proof.
  assert (N : forall P es es', Forall2 (negated_where P) es es' -> Forall2 sameb es es').
  { intros P es es' H. eapply Forall2_impl; [exact H|]. intros ? ? [[_ [_ ?]]|[_ ->]]; [done|apply same_besides_refl]. }
  intros H. apply adjust_spec in H as [[_ ->]|[(rp & _ & _ & _ & ->)|(rp & es & _ & -> & H)]].
  1,2: (exists (d_exchanges d); split; [by destruct d|apply Forall2_sameb_refl]).
  exists es. split; [done|]. destruct H as [[_ H]|[(_ & _ & H)|(_ & _ & ->)]]; [by eapply N|by eapply N|apply Forall2_sameb_refl].
Qed.
Lemma flipped_touched e e' : flipped e e' -> touched id e e'.
Proof.
  unfold touched. intros [(H1 & H2 & _ & _ & _ & ->)|[_ ->]]; [|by repeat split; left].
  cbn [e_name set_e_type set_e_amount set_e_class set_e_formula e_code e_id e_unit e_compartment e_subcompartment e_type].
  repeat split; try done. right. split; [done|]. done.
Qed.

(** Renaming, turning, normalising, signs. *)
Definition renamed (d : dataset) : dataset :=
  set_d_refprod (option_map strip_marker (d_refprod d))
    (set_d_exchanges (map (fun e => set_e_name (strip_marker (e_name e)) e) (d_exchanges d)) d).
Definition steps_of (w : world) (d d' : dataset) : Prop := exists d1 d2,
  flip_non_allocatable_byproducts (renamed d) = Ok d1 /\
  normalize_reference_production_amount (w_ln w) d1 = Ok d2 /\ adjust_market_sign (w_ln w) d2 = Ok d'.
Lemma finished_steps w linked out : cutoff_finished w linked = Ok out -> Forall2 (steps_of w) linked out.
Proof.
  unfold cutoff_finished, adjust_market_signs_for_allocatable_products, rename_recycled_content_products_after_linking.
  intros H. apply bind_Ok in H as (l1 & H1 & H). apply bind_Ok in H as (l2 & H2 & H).
  apply mapR_Ok in H, H1, H2. change (map _ linked) with (map renamed linked) in H1.
  revert l1 l2 out H1 H2 H. induction linked as [|d linked IH]; intros l1 l2 out H1 H2 H.
  { apply Forall2_nil_inv_l in H1 as ->. apply Forall2_nil_inv_l in H2 as ->. apply Forall2_nil_inv_l in H as ->. constructor. }
  cbn [map] in H1. apply Forall2_cons_inv_l in H1 as (d1 & l1' & E1 & H1 & ->).
  apply Forall2_cons_inv_l in H2 as (d2 & l2' & E2 & H2 & ->). apply Forall2_cons_inv_l in H as (d3 & l3' & E3 & H & ->).
  constructor; [by exists d1, d2|by eapply IH].
Qed.
Lemma steps_ending w d d' : steps_of w d d' -> ending strip_marker d d'.
Proof.
  intros (d1 & d2 & H1 & H2 & H3). apply flip_spec in H1 as (es1 & -> & H1). apply normalize_same in H2 as (es2 & -> & H2).
  apply adjust_same in H3 as (es3 & -> & H3). cbn [d_exchanges set_d_exchanges renamed set_d_refprod] in *.
  split; [done|]. split; [done|]. split; [done|]. split; [done|]. split; [done|].
  change (Forall2 (touched strip_marker) (d_exchanges d) es3).
  revert es1 es2 es3 H1 H2 H3. induction (d_exchanges d) as [|e es IH]; intros es1 es2 es3 H1 H2 H3.
  { apply Forall2_nil_inv_l in H1 as ->. apply Forall2_nil_inv_l in H2 as ->. apply Forall2_nil_inv_l in H3 as ->. constructor. }
  cbn [map] in H1. apply Forall2_cons_inv_l in H1 as (e1 & l1 & E1 & H1 & ->).
  apply Forall2_cons_inv_l in H2 as (e2 & l2 & E2 & H2 & ->). apply Forall2_cons_inv_l in H3 as (e3 & l3 & E3 & H3 & ->).
  constructor; [|by eapply IH]. eapply touched_same; [|exact E3]. eapply touched_same; [|exact E2].
  apply flipped_touched in E1. destruct E1 as (A1 & A2 & A3 & A4 & A5 & A6 & A7). unfold touched. repeat split; done.
Qed.

(** *** C63 *)
Lemma unit_amount_opp a : unit_amount a -> unit_amount (- a).
Proof.
  unfold unit_amount. intros [->|[->|[H1 H2]]].
  - right. by left.
  - left. ring.
  - right. right. rewrite Qcabs_opp. split; [|done]. intros E. apply H1. rewrite <- (Qcopp_involutive a), E. reflexivity.
Qed.
Lemma normalised_unit ln d d' : normalize_reference_production_amount ln d = Ok d' ->
  exists rp, filter is_refproduct (d_exchanges d') = [rp] /\ unit_amount (e_amount rp).
Proof.
  intros H. apply normalize_spec in H as (rp & k & es & Hrp & Ha & [Hk Hn] & -> & HF & _).
  cbn [d_exchanges set_d_exchanges]. pose proof (scaled_filter is_refproduct k _ _ is_refproduct_same HF) as Hf.
  rewrite Hrp in Hf. apply Forall2_cons_inv_l in Hf as (rp' & l & [Hs _] & Hl & ->). apply Forall2_nil_inv_l in Hl as ->.
  exists rp'. split; [done|]. rewrite Hs. unfold unit_amount. destruct Hn as [[->| ->]|[-> Hn]]; [by left|right; by left|].
  right. right. rewrite Qcmult_1_r. done.
Qed.
Lemma nonalloc_same e e' : sameb e e' -> nonalloc_byproduct e' -> nonalloc_byproduct e.
Proof. intros H. apply sameb_fields in H as (_ & _ & _ & _ & _ & _ & Ht & Hc). unfold nonalloc_byproduct. by rewrite Ht, Hc. Qed.
Lemma none_left_same es es' : Forall2 sameb es es' -> Forall (fun e => ~ nonalloc_byproduct e) es ->
  Forall (fun e => ~ nonalloc_byproduct e) es'.
Proof.
  induction 1 as [|e e' es es' H _ IH]; intros HF; [constructor|]. apply Forall_cons in HF as [H1 H2]. constructor; [|by apply IH].
  intros Hn. by apply H1, (nonalloc_same _ _ H).
Qed.
Lemma unit_nonzero a : unit_amount a -> a <> 0%Qc.
Proof. intros [->|[->|[H _]]]; [by intros ?%(f_equal (fun x => Qceqb x 0))|by intros ?%(f_equal (fun x => Qceqb x 0))|done]. Qed.
Lemma steps_finished w d d' : steps_of w d d' -> finished_dataset d'.
Proof.
  intros (d1 & d2 & H1 & H2 & H3). pose proof (flip_none_left _ _ H1) as N.
  destruct (normalised_unit _ _ _ H2) as (rp & Hrp & Hu). apply normalize_same in H2 as (es2 & -> & H2).
  apply (none_left_same _ _ H2) in N. set (d2 := set_d_exchanges es2 d1) in *. fold d2 in Hrp.
  change (Forall (fun e => ~ nonalloc_byproduct e) (d_exchanges d2)) in N.
  pose proof (adjust_same _ _ _ H3) as (es3 & E3 & S3). pose proof (none_left_same _ _ S3 N) as N3.
  assert (exists rp', filter is_refproduct es3 = [rp'] /\ sameb rp rp') as (rp' & Hrp' & Hs).
  { apply (filter_Forall2 is_refproduct) in S3.
    - rewrite Hrp in S3. apply Forall2_cons_inv_l in S3 as (rp' & l & S & Hl & ->). apply Forall2_nil_inv_l in Hl as ->. by exists rp'.
    - intros e e' S. symmetry. by apply is_refproduct_same. }
  assert (d_exchanges d' = es3) as Ed by (by rewrite E3).
  exists rp'. rewrite Ed. split; [done|].
  pose proof (sameb_fields _ _ Hs) as (_ & _ & _ & _ & _ & _ & _ & Hc).
  destruct (decide (d_type d2 = MarketActivity /\ e_class rp <> Some Waste)) as [[Hm Hw]|Hn].
  - assert (nonwaste_market d2 rp) as NM.
    { split; [done|]. split; [done|]. split; [|done]. intros E. unfold adjust_market_sign in H3.
      rewrite bool_decide_eq_true_2 in H3 by done. apply bind_Ok in H3 as (x & Hx & H3). apply get_single_filter in Hx.
      rewrite Hrp in Hx. injection Hx as <-. rewrite E in H3. done. }
    destruct (adjust_positive _ _ _ _ H3 NM) as (x & Hx & _ & Ha). rewrite Ed, Hrp' in Hx. injection Hx as <-.
    assert (unit_amount (e_amount rp')) as U.
    { rewrite Ha. destruct (Qclt_le_dec (e_amount rp) 0) as [Hl|Hl].
      - rewrite Qcabs_neg by (by apply Qclt_le_weak). by apply unit_amount_opp.
      - by rewrite Qcabs_pos. }
    split; [done|]. split; [|done]. intros _ _. apply unit_nonzero in U. rewrite Ha in U |- *. apply Qcabs_pos_nonzero. intros E. apply U. by rewrite E.
  - assert (d' = d2) as ->.
    { apply adjust_spec in H3 as [[_ ->]|[(y & _ & _ & _ & ->)|(y & es & (Hm & Hy & _ & Hw) & _ & _)]]; [done|done|].
      rewrite Hrp in Hy. injection Hy as <-. tauto. }
    assert (rp' = rp) as -> by congruence. split; [done|]. split; [|done]. intros Hm Hw. tauto.
Qed.
Lemma cutoff_model_parts w data out : cutoff_model w data = Ok out -> exists prepared allocated linked,
  cutoff_prepared w data = Ok prepared /\ cutoff_allocated w prepared = Ok allocated /\
  link_markets_by_pv (w_md5 w) (w_ln w) (w_ord w) (w_topo w) allocated = Ok linked /\ Forall2 (steps_of w) linked out.
Proof.
  unfold cutoff_model, cutoff_linked. intros H. apply bind_Ok in H as (linked & H & Hf).
  apply bind_Ok in H as (prepared & H1 & H). apply bind_Ok in H as (allocated & H2 & H3).
  exists prepared, allocated, linked. split_and!; try done. by apply finished_steps.
Qed.
Lemma consequential_parts w data out : consequential_model w data = Ok out -> exists prepared linked,
  consequential_prepared w data = Ok prepared /\
  link_markets_by_technology_level (w_md5 w) (w_ln w) (w_ord w) (w_topo w) prepared = Ok linked /\
  Forall2 (fun d d' => normalize_reference_production_amount (w_ln w) d = Ok d') linked out.
Proof.
  unfold consequential_model, consequential_linked. intros H. apply bind_Ok in H as (linked & H & Hf).
  apply bind_Ok in H as (prepared & H1 & H). exists prepared, linked. split_and!; try done. by apply mapR_Ok in Hf.
Qed.
Lemma Forall2_all_r {A B} (R : A -> B -> Prop) (P : B -> Prop) l k : Forall2 R l k -> (forall x y, R x y -> P y) -> Forall P k.
Proof. induction 1; intros H'; constructor; eauto. Qed.

Lemma cutoff_finished_data w data out : cutoff_model w data = Ok out -> Forall finished_dataset out.
Proof.
  intros H. apply cutoff_model_parts in H as (? & ? & ? & _ & _ & _ & H). eapply Forall2_all_r; [exact H|]. apply steps_finished.
Qed.
Lemma consequential_unit w data out : consequential_model w data = Ok out ->
  Forall (fun ds => exists rp, filter is_refproduct (d_exchanges ds) = [rp] /\ unit_amount (e_amount rp)) out.
Proof.
  intros H. apply consequential_parts in H as (? & ? & _ & _ & H). eapply Forall2_all_r; [exact H|]. intros d1 d2. apply normalised_unit.
Qed.

(** *** C64 *)
Lemma raw_from data out : raw data -> all_from data out -> uncoded (fun _ => True) out.
Proof.
  unfold raw, all_from, uncoded. rewrite !Forall_forall. intros Hr HF d' Hd'. destruct (HF d' Hd') as (d & Hd & (_ & Hs & He)).
  destruct (Hr d Hd) as [R1 R2]. split; [by destruct Hs as [->|]|]. unfold stem_list in He. rewrite Forall_forall in *.
  intros e He' _. destruct (He e He') as (e0 & He0 & (Hc & _)). destruct Hc as [->|]; [|done]. by apply R2.
Qed.
Lemma ending_lookup f linked out d' : Forall2 (ending f) linked out -> d' ∈ out -> exists d, d ∈ linked /\ ending f d d'.
Proof.
  intros HF Hd. apply elem_of_list_lookup_1 in Hd as [i Hi]. destruct (Forall2_lookup_r _ _ _ _ _ HF Hi) as (d & Hd & HE).
  exists d. split; [by eapply elem_of_list_lookup_2|done].
Qed.
Lemma ending_lookup_l f linked out d : Forall2 (ending f) linked out -> d ∈ linked -> exists d', d' ∈ out /\ ending f d d'.
Proof.
  intros HF Hd. apply elem_of_list_lookup_1 in Hd as [i Hi]. destruct (Forall2_lookup_l _ _ _ _ _ HF Hi) as (d' & Hd & HE).
  exists d'. split; [by eapply elem_of_list_lookup_2|done].
Qed.
Lemma ending_codes f linked out : Forall2 (ending f) linked out -> map d_code out = map d_code linked.
Proof. induction 1 as [|d d' l l' (H & _) _ IH]; cbn; [done|]. by rewrite H, IH. Qed.
Lemma touched_In f es es' e' : Forall2 (touched f) es es' -> e' ∈ es' -> exists e, e ∈ es /\ touched f e e'.
Proof.
  intros HF He. apply elem_of_list_lookup_1 in He as [i Hi]. destruct (Forall2_lookup_r _ _ _ _ _ HF Hi) as (e & He & HE).
  exists e. split; [by eapply elem_of_list_lookup_2|done].
Qed.
Lemma steps_endings w linked out : Forall2 (steps_of w) linked out -> Forall2 (ending strip_marker) linked out.
Proof. intros H. eapply Forall2_impl; [exact H|]. apply steps_ending. Qed.
Lemma gas_unmarked : strip_marker "refinery gas" = "refinery gas"%string.
Proof. by vm_compute. Qed.
Lemma producer_ending c n p p' : producer c n p -> ending strip_marker p p' -> producer c (strip_marker n) p'.
Proof.
  intros (H1 & H2) (E1 & E2 & _). split; [congruence|]. rewrite E2. destruct H2 as [->|[-> [x ->]]]; [by left|right].
  split; [apply gas_unmarked|by eexists].
Qed.

Lemma cutoff_codes w data out : raw data -> cutoff_model w data = Ok out ->
  NoDup (map d_code out) /\
  Forall (fun ds => is_Some (d_code ds) /\ exists rp, filter is_refproduct (d_exchanges ds) = [rp] /\
                      d_refprod ds = Some (e_name rp)) out /\
  forall ds e c, ds ∈ out -> e ∈ d_exchanges ds -> e_code e = Some c ->
    (exists p, p ∈ out /\ producer c (e_name e) p) \/
    (exists prepared allocated coded p, cutoff_prepared w data = Ok prepared /\ cutoff_allocated w prepared = Ok allocated /\
       numbered (w_md5 w) allocated = Ok coded /\ p ∈ coded /\ d_code p = Some c /\
       d_location p = "RoW"%string /\ (d_type p = Transforming \/ d_type p = MarketActivity)).
Proof.
  intros Hr H. pose proof (cutoff_finished_data _ _ _ H) as HFin.
  apply cutoff_model_parts in H as (prepared & allocated & linked & H1 & H2 & H3 & H4).
  assert (uncoded (fun _ => True) allocated) as HU.
  { eapply raw_from; [exact Hr|]. eapply all_from_trans; [by eapply cutoff_prepared_from|by eapply cutoff_allocated_from]. }
  apply steps_endings in H4. destruct (pv_codes _ _ _ _ _ _ _ HU H3) as (coded & Hc & _ & Hnd & HP).
  destruct (pv_invariant _ _ _ _ _ _ _ _ HU Hc H3) as (HG & _ & _).
  split; [by rewrite (ending_codes _ _ _ H4)|]. split.
  - rewrite Forall_forall in HFin, HG |- *. intros d' Hd'. destruct (HFin d' Hd') as (rp & Hrp & _).
    destruct (ending_lookup _ _ _ _ H4 Hd') as (d & Hd & (E1 & E2 & _ & _ & _ & E6)).
    destruct (HG d Hd) as ((c & n & Hc1 & Hn & _) & HL & _). split; [rewrite E1; by eexists|]. exists rp. split; [done|].
    assert (rp ∈ d_exchanges d') as Hin.
    { assert (rp ∈ filter is_refproduct (d_exchanges d')) as Hx by (rewrite Hrp; by left). by apply elem_of_list_filter in Hx as [_ ?]. }
    assert (is_refproduct rp) as Ht.
    { assert (rp ∈ filter is_refproduct (d_exchanges d')) as Hx by (rewrite Hrp; by left). by apply elem_of_list_filter in Hx as [? _]. }
    destruct (touched_In _ _ _ _ E6 Hin) as (e & He & (T1 & _ & _ & _ & _ & _ & T7)).
    rewrite Forall_forall in HL. assert (e_type e = RefProduct) as Hte.
    { unfold is_refproduct in Ht. destruct T7 as [T7|[_ T7]]; congruence. }
    rewrite E2, (HL e He Hte), T1. done.
  - intros d' e' c Hd' He' Hec. destruct (ending_lookup _ _ _ _ H4 Hd') as (d & Hd & (_ & _ & _ & _ & _ & E6)).
    destruct (touched_In _ _ _ _ E6 He') as (e & He & (T1 & T2 & _)). rewrite T2 in Hec.
    destruct (HP d e c Hd He I Hec) as (p & Hp & Hpr & [(p' & Hp' & Hpr')|[Hl Ht]]).
    + left. destruct (ending_lookup_l _ _ _ _ H4 Hp') as (p2 & Hp2 & HE). exists p2. split; [done|].
      rewrite T1. by eapply producer_ending.
    + right. exists prepared, allocated, coded, p. destruct Hpr as [Hpr _]. split_and!; done.
Qed.
Lemma cutoff_codes_complete w data out : raw data -> cutoff_model w data = Ok out ->
  (forall prepared allocated, cutoff_prepared w data = Ok prepared -> cutoff_allocated w prepared = Ok allocated ->
     length out = length allocated) ->
  forall ds e c, ds ∈ out -> e ∈ d_exchanges ds -> e_code e = Some c ->
    exists p, p ∈ out /\ producer c (e_name e) p /\ forall p', p' ∈ out -> d_code p' = Some c -> p' = p.
Proof.
  intros Hr H Hlen ds e c Hds He Hec. pose proof (cutoff_codes _ _ _ Hr H) as (Hnd & _ & _).
  apply cutoff_model_parts in H as (prepared & allocated & linked & H1 & H2 & H3 & H4).
  assert (uncoded (fun _ => True) allocated) as HU.
  { eapply raw_from; [exact Hr|]. eapply all_from_trans; [by eapply cutoff_prepared_from|by eapply cutoff_allocated_from]. }
  apply steps_endings in H4. pose proof (Hlen _ _ H1 H2) as Hl. rewrite <- (Forall2_length _ _ _ H4) in Hl.
  destruct (ending_lookup _ _ _ _ H4 Hds) as (d & Hd & (_ & _ & _ & _ & _ & E6)).
  destruct (touched_In _ _ _ _ E6 He) as (e0 & He0 & (T1 & T2 & _)). rewrite T2 in Hec.
  destruct (pv_no_deletion _ _ _ _ _ _ _ HU H3 Hl d e0 c Hd He0 I Hec) as (p & Hp & Hpr & _).
  destruct (ending_lookup_l _ _ _ _ H4 Hp) as (p2 & Hp2 & HE). exists p2. split; [done|].
  split; [rewrite T1; by eapply producer_ending|]. intros p' Hp' Hc'.
  apply elem_of_list_lookup_1 in Hp' as [i Hi], Hp2 as [j Hj].
  assert (d_code p2 = Some c) as Hc2 by (destruct HE as (-> & _); by destruct Hpr).
  assert (i = j) as ->.
  { eapply (NoDup_lookup (map d_code out)); [done| |]; rewrite list_lookup_fmap, ?Hi, ?Hj; cbn; [by rewrite Hc'|by rewrite Hc2]. }
  congruence.
Qed.
Definition normalised_ending d d' : Forall2 sameb (d_exchanges d) (d_exchanges d') -> frame d' = frame d ->
  d_code d' = d_code d -> d_refprod d' = d_refprod d -> d_location d' = d_location d -> ending id d d'.
Proof.
  intros HF Hfr H1 H2 H3. split; [done|]. split; [rewrite H2; by destruct (d_refprod d)|]. split; [done|].
  assert (d_type d' = d_type d) as Ht by (change (d_type (frame d') = d_type (frame d)); by rewrite Hfr).
  split; [done|]. split.
  - change (origin (frame d') = origin (frame d)). by rewrite Hfr.
  - eapply Forall2_impl; [exact HF|]. apply sameb_touched.
Qed.
Lemma normalised_endings ln linked out :
  Forall2 (fun d d' => normalize_reference_production_amount ln d = Ok d') linked out -> Forall2 (ending id) linked out.
Proof.
  intros H. eapply Forall2_impl; [exact H|]. intros d d' E. apply normalize_same in E as (es & -> & HF). by apply normalised_ending.
Qed.
Lemma consequential_codes w data out : raw data -> consequential_model w data = Ok out ->
  NoDup (map d_code out) /\
  forall ds e c, ds ∈ out -> e ∈ d_exchanges ds -> e_code e = Some c -> exists p, p ∈ out /\ producer c (e_name e) p.
Proof.
  intros Hr H. apply consequential_parts in H as (prepared & linked & H1 & H2 & H3). apply normalised_endings in H3.
  assert (uncoded (fun _ => True) prepared) as HU by (eapply raw_from; [exact Hr|by eapply consequential_prepared_from]).
  destruct (tech_codes _ _ _ _ _ _ _ HU H2) as (Hnd & HP). split; [by rewrite (ending_codes _ _ _ H3)|].
  intros d' e' c Hd' He' Hec. destruct (ending_lookup _ _ _ _ H3 Hd') as (d & Hd & (_ & _ & _ & _ & _ & E6)).
  destruct (touched_In _ _ _ _ E6 He') as (e & He & (T1 & T2 & _)). rewrite T2 in Hec.
  destruct (HP d e c Hd He I Hec) as (p & Hp & Hpr). destruct (ending_lookup_l _ _ _ _ H3 Hp) as (p2 & Hp2 & HE).
  exists p2. split; [done|]. rewrite T1. destruct Hpr as [P1 P2], HE as (E1 & E2 & _). split; [congruence|].
  rewrite E2. unfold id. destruct P2 as [->|[-> [x ->]]]; [by left|right]. split; [done|by eexists].
Qed.

(** *** C65 *)
Lemma others_In d e : e ∈ d_exchanges d -> e_type e <> FromTechnosphere -> bare e ∈ others d.
Proof. intros H1 H2. unfold others. apply elem_of_list_fmap. exists e. split; [done|]. by apply elem_of_list_filter. Qed.
Lemma In_others d x : x ∈ others d -> exists e, e ∈ d_exchanges d /\ x = bare e.
Proof. unfold others. intros H. apply elem_of_list_fmap in H as (e & -> & H). apply elem_of_list_filter in H as [_ H]. by exists e. Qed.
Lemma trace f data before base linked out : (forall n, (forall a, n <> (a ++ marker)%string) -> f n = n) ->
  all_from data before -> sublist base before -> Forall2 linked_from base linked -> Forall2 (ending f) linked out ->
  Forall (comes_from data) out.
Proof.
  intros Hf HA Hsub HL HE. apply Forall_forall. intros d' Hd'. destruct (ending_lookup _ _ _ _ HE Hd') as (d & Hd & (_ & _ & _ & _ & E5 & E6)).
  apply elem_of_list_lookup_1 in Hd as [i Hi]. destruct (Forall2_lookup_r _ _ _ _ _ HL Hi) as (b & Hb & (F1 & F2 & _)).
  apply elem_of_list_lookup_2 in Hb. eapply elem_of_submseteq in Hb; [|by apply sublist_submseteq].
  unfold all_from in HA. rewrite Forall_forall in HA. destruct (HA b Hb) as (d0 & Hd0 & (G1 & _ & G3)).
  exists d0. split; [done|]. split.
  { rewrite E5. transitivity (origin b); [|done]. change (origin (frame d) = origin (frame b)). by rewrite F1. }
  intros e' He' Ht. destruct (touched_In _ _ _ _ E6 He') as (e & He & (T1 & _ & T3 & T4 & T5 & T6 & T7)).
  destruct T7 as [T7|[_ ?]]; [|done]. rewrite T7 in Ht. pose proof (others_In _ _ He Ht) as Ho. rewrite F2 in Ho.
  apply In_others in Ho as (eb & Heb & EB). unfold stem_list in G3. rewrite Forall_forall in G3.
  destruct (G3 eb Heb) as (e0 & He0 & (_ & S2 & S3 & S4)). exists e0. split; [done|].
  assert (forall A (g : exchange -> A), (forall x, g (bare x) = g x) -> g e = g eb) as K.
  { intros A g Hg. rewrite <- (Hg e), <- (Hg eb). by rewrite EB. }
  rewrite T3, (K _ e_id), S2 by done. split; [done|]. rewrite T4, (K _ e_unit), S3 by done. split; [done|].
  unfold elementary. rewrite T7, (K _ e_type) by done. intros Hel. apply S4 in Hel. unfold flow in Hel. injection Hel as L1 L2 L3 L4.
  split; [done|]. rewrite T5, (K _ e_compartment), T6, (K _ e_subcompartment) by done. split; [done|]. split; [done|].
  intros Hm. rewrite T1, (K _ e_name), L1 by done. by apply Hf.
Qed.
Lemma cutoff_provenance w data out : (forall s, w_md5 w s <> ""%string) -> cutoff_model w data = Ok out -> Forall (comes_from data) out.
Proof.
  intros Hmd H. apply cutoff_model_parts in H as (prepared & allocated & linked & H1 & H2 & H3 & H4).
  destruct (pv_untouched _ Hmd _ _ _ _ _ H3) as (base & B1 & B2 & _). eapply (trace strip_marker); [|..].
  - apply strip_unmarked.
  - eapply all_from_trans; [by eapply cutoff_prepared_from|by eapply cutoff_allocated_from].
  - exact B1.
  - exact B2.
  - by eapply steps_endings.
Qed.
Lemma consequential_provenance w data out : (forall s, w_md5 w s <> ""%string) -> consequential_model w data = Ok out ->
  Forall (comes_from data) out.
Proof.
  intros Hmd H. apply consequential_parts in H as (prepared & linked & H1 & H2 & H3).
  destruct (tech_untouched _ Hmd _ _ _ _ _ H2) as (base & B1 & B2 & _). eapply (trace id); [|..].
  - done.
  - by eapply consequential_prepared_from.
  - exact B1.
  - exact B2.
  - by eapply normalised_endings.
Qed.

(** *** C66 *)
Definition counts (e : exchange) : Prop := alloc_output e /\ e_amount e <> 0%Qc.
Definition recounted (e e' : exchange) : Prop := (counts e' <-> counts e) /\ (is_refproduct e -> counts e -> is_refproduct e').
Lemma recounted_single d d' : Forall2 recounted (d_exchanges d) (d_exchanges d') -> single_output d -> single_output d'.
Proof.
  intros HF (rp & Hrp & Ht). unfold single_output. change (filter counts (d_exchanges d) = [rp]) in Hrp.
  change (exists rp, filter counts (d_exchanges d') = [rp] /\ is_refproduct rp).
  assert (counts rp) as Hc.
  { assert (rp ∈ filter counts (d_exchanges d)) as Hx by (rewrite Hrp; by left). by apply elem_of_list_filter in Hx as [? _]. }
  apply (filter_Forall2 counts) in HF.
  - rewrite Hrp in HF. apply Forall2_cons_inv_l in HF as (e & l & [_ H] & Hl & ->). apply Forall2_nil_inv_l in Hl as ->.
    exists e. split; [done|]. by apply H.
  - intros e e' [H _]. exact H.
Qed.
Lemma recounted_refl e : recounted e e.
Proof. done. Qed.
Lemma recounted_fields e e' : e_type e' = e_type e -> e_class e' = e_class e -> (e_amount e' = 0%Qc <-> e_amount e = 0%Qc) -> recounted e e'.
Proof.
  intros H1 H2 H3. unfold recounted, counts, alloc_output, is_refproduct, alloc_byproduct. rewrite H1, H2. tauto.
Qed.
Lemma scaled_recounted k e e' : k <> 0%Qc -> scaled_by k e e' -> recounted e e'.
Proof.
  intros Hk [Ha Hs]. apply sameb_fields in Hs as (_ & _ & _ & _ & _ & _ & H1 & H2). apply recounted_fields; [done|done|].
  rewrite Ha. split; [|intros ->; ring]. intros H. apply Qcmult_integral in H as [H|H]; done.
Qed.
Lemma drop_single data : Forall single_output data -> Forall single_output (drop_rp_activity_links data).
Proof.
  unfold drop_rp_activity_links. rewrite !Forall_forall. intros H d' Hd. apply elem_of_list_fmap in Hd as (d & -> & Hd).
  eapply recounted_single; [|by apply H]. cbn [d_exchanges set_d_exchanges]. induction (d_exchanges d) as [|e es IH]; constructor; [|done].
  destruct (_ && _); [|apply recounted_refl]. by apply recounted_fields.
Qed.
Lemma counts_bare e : counts (bare e) <-> counts e.
Proof. done. Qed.
Lemma single_others d d' : others d' = others d -> single_output d -> single_output d'.
Proof.
  assert (K : forall es : list exchange, filter counts es = filter counts (filter (fun e => e_type e <> FromTechnosphere) es)).
  { induction es as [|e es IH]; [done|]. rewrite (filter_cons (fun e => e_type e <> FromTechnosphere)).
    destruct (decide (e_type e <> FromTechnosphere)) as [H|H]; rewrite !filter_cons.
    - destruct (decide (counts e)); by rewrite IH.
    - rewrite decide_False; [done|]. intros [[H1|[H1 _]] _]; [unfold is_refproduct in H1|]; apply H; congruence. }
  assert (M : forall es : list exchange, map bare (filter counts es) = filter counts (map bare es)).
  { induction es as [|e es IH]; [done|]. cbn [map]. rewrite !filter_cons.
    destruct (decide (counts e)) as [H|H].
    - rewrite decide_True by done. cbn [map]. by rewrite IH.
    - rewrite decide_False by done. done. }
  assert (map bare (filter counts (d_exchanges d')) = filter counts (others d')) as E1 by (rewrite K, M; done).
  assert (map bare (filter counts (d_exchanges d)) = filter counts (others d)) as E2 by (rewrite K, M; done).
  intros Ho (rp & Hrp & Ht). change (filter counts (d_exchanges d) = [rp]) in Hrp. rewrite Hrp in E2. rewrite Ho, <- E2 in E1.
  destruct (filter counts (d_exchanges d')) as [|x [|]] eqn:Ex; try done. apply (f_equal (fun l => default (bare x) (head l))) in E1. change (bare x = bare rp) in E1. rename E1 into E3. exists x. split; [exact Ex|].
  unfold is_refproduct in *. change (e_type (bare x) = RefProduct). rewrite E3. done.
Qed.
Lemma renamed_single d : single_output d -> single_output (renamed d).
Proof.
  apply recounted_single. unfold renamed. cbn [d_exchanges set_d_exchanges set_d_refprod].
  induction (d_exchanges d) as [|e es IH]; constructor; [|done]. by apply recounted_fields.
Qed.
Lemma flip_single d d' : flip_non_allocatable_byproducts d = Ok d' -> single_output d -> single_output d'.
Proof.
  intros H. apply flip_spec in H as (es & -> & HF). apply recounted_single. cbn [d_exchanges set_d_exchanges].
  eapply Forall2_impl; [exact HF|]. intros e e' [[[H1 H2] (T1 & _)]|[_ ->]]; [|apply recounted_refl].
  assert (~ counts e) as N1.
  { unfold counts, alloc_output, is_refproduct, alloc_byproduct. rewrite H1. naive_solver. }
  assert (~ counts e') as N2.
  { unfold counts, alloc_output, is_refproduct, alloc_byproduct. rewrite T1. naive_solver. }
  unfold recounted. tauto.
Qed.
Lemma normalize_single ln d d' : normalize_reference_production_amount ln d = Ok d' -> single_output d -> single_output d'.
Proof.
  intros H. apply normalize_spec in H as (rp & k & es & _ & _ & [Hk _] & -> & HF & _). apply recounted_single.
  eapply Forall2_impl; [exact HF|]. intros e e'. apply scaled_recounted. intros ->. by apply Qclt_not_eq in Hk.
Qed.
Lemma adjust_single ln d d' : adjust_market_sign ln d = Ok d' -> single_output d -> single_output d'.
Proof.
  assert (N : forall P es es', Forall2 (negated_where P) es es' -> Forall2 recounted es es').
  { intros P es es' H. eapply Forall2_impl; [exact H|]. intros e e' [[_ Hs]|[_ ->]]; [|apply recounted_refl].
    eapply scaled_recounted; [|exact Hs]. done. }
  intros H. apply adjust_spec in H as [[_ ->]|[(rp & _ & _ & _ & ->)|(rp & es & _ & -> & H)]]; [done|done|].
  apply recounted_single. cbn [d_exchanges set_d_exchanges].
  destruct H as [[_ H]|[(_ & _ & H)|(_ & _ & ->)]]; [by eapply N|by eapply N|]. induction (d_exchanges d); constructor; [apply recounted_refl|done].
Qed.
Lemma steps_single w d d' : steps_of w d d' -> single_output d -> single_output d'.
Proof.
  intros (d1 & d2 & H1 & H2 & H3) H. eapply adjust_single; [exact H3|]. eapply normalize_single; [exact H2|].
  eapply flip_single; [exact H1|]. by apply renamed_single.
Qed.
Lemma cutoff_single w data out prepared : (forall s, w_md5 w s <> ""%string) -> cutoff_prepared w data = Ok prepared ->
  Forall (fun ds => d_alloc ds = None /\ classified ds /\ unique_ids ds /\ unique_variables ds /\
            Forall (fun e => alloc_output e -> e_amount e <> 0%Qc) (d_exchanges ds)) prepared ->
  cutoff_model w data = Ok out -> Forall single_output out.
Proof.
  intros Hmd Hp HF H. apply cutoff_model_parts in H as (prepared' & allocated & linked & H1 & H2 & H3 & H4).
  rewrite Hp in H1. apply Ok_inj in H1 as <-. unfold cutoff_allocated in H2. apply bind_Ok in H2 as (l & Hl & <-%Ok_inj).
  apply cutoff_allocation_single in Hl; [|done]. apply drop_single in Hl.
  destruct (pv_untouched _ Hmd _ _ _ _ _ H3) as (base & B1 & B2 & _).
  assert (Forall single_output base) as HB.
  { rewrite Forall_forall in Hl |- *. intros d Hd. apply Hl. eapply elem_of_submseteq; [exact Hd|]. by apply sublist_submseteq. }
  assert (Forall single_output linked) as HL.
  { eapply SingleOutput_proofs.Forall2_Forall_r; [exact B2|]. intros d d' Hd (_ & Ho & _). eapply single_others; [exact Ho|]. rewrite Forall_forall in HB. by apply HB. }
  eapply SingleOutput_proofs.Forall2_Forall_r; [exact H4|]. intros d d' Hd Hs. eapply steps_single; [exact Hs|]. rewrite Forall_forall in HL. by apply HL.
Qed.
