(** Proofs for C83: names of products in a result. *)
From stdpp Require Import gmap.
From Verif Require Import Base Strings Types Uncertainty Spec_Uncertainty Uncertainty_proofs Utils Spec_Utils Utils_proofs Grouping GroupUpdate
  Validation Topology Cutoff Locations Consequential Spec_Waste Waste_proofs Spec_Mix Mix_proofs
  Spec_Codes Codes_proofs Spec_Consumers SingleOutput_proofs
  Spec_Consequential Spec_Untouched Untouched_proofs Pipeline Spec_Pipeline Stems_proofs Pipeline_proofs
  Spec_Balance Balance_proofs Spec_Supply Supply_proofs Supply2_proofs Supply3_proofs Supply4_proofs Names_proofs Spec_Marks.

(** *** Before linking *)
Lemma prepared_parts w data out : cutoff_prepared w data = Ok out ->
  exists data1, cutoff_unmarked w data = Ok data1 /\ handle_waste_outputs data1 = Ok out.
Proof.
  unfold cutoff_prepared, cutoff_unmarked. intros H. apply bind_Ok in H as (d1 & H1 & H). apply bind_Ok in H as (d2 & H2 & H).
  apply bind_Ok in H as (d3 & H3 & H). exists d3. rewrite H1. cbn [bind]. rewrite H2. cbn [bind]. by rewrite H3.
Qed.
Lemma new_content (d1 l : list dataset) init new : (forall d, d ∈ l -> d ∈ d1) ->
  foldR (fun new ds => foldR (add_recycled_content ds) new (d_exchanges ds)) init l = Ok new ->
  forall P : dataset -> Prop, (forall ds e rc, ds ∈ d1 -> e ∈ d_exchanges ds -> is_recyclable_byproduct e = Ok true ->
    create_new_recycled_content_dataset ds e = Ok rc -> P rc) ->
  Forall P (map snd init) -> Forall P (map snd new).
Proof.
  intros Hsub H P HP. revert init new Hsub H. induction l as [|d l IH]; intros init new Hsub H Hi; cbn in H; [by apply Ok_inj in H as <-|].
  apply bind_Ok in H as (mid & Hm & H). eapply IH; [|exact H|]; [set_solver|].
  assert (Hd : d ∈ d1) by (apply Hsub; by left). clear IH H.
  assert (K : forall es init mid, (forall e, e ∈ es -> e ∈ d_exchanges d) ->
    foldR (add_recycled_content d) init es = Ok mid -> Forall P (map snd init) -> Forall P (map snd mid)).
  { clear -Hd HP. induction es as [|e es IH]; intros init mid Hsub H Hi; cbn in H; [by apply Ok_inj in H as <-|].
    apply bind_Ok in H as (m & Hm & H). eapply IH; [|exact H|]; [set_solver|].
    unfold add_recycled_content in Hm. apply bind_Ok in Hm as ([] & Hb & Hm); [|by apply Ok_inj in Hm as <-].
    apply bind_Ok in Hm as (rc & Hrc & <-%Ok_inj). apply Forall_forall. intros x Hx.
    apply assoc_set_In in Hx as [->|Hx].
    - eapply HP; [exact Hd| |exact Hb|exact Hrc]. apply Hsub. by left.
    - rewrite Forall_forall in Hi. by apply Hi. }
  eapply K; [|exact Hm|exact Hi]. done.
Qed.
Lemma rename_still e e' : rename_recyclable e = Ok e' -> is_recyclable_byproduct e' = is_recyclable_byproduct e /\
  e_type e' = e_type e /\
  ((is_recyclable_byproduct e = Ok true /\ e_name e' = (e_name e ++ marker)%string) \/
   (is_recyclable_byproduct e = Ok false /\ e' = e)).
Proof.
  unfold rename_recyclable. intros H. apply bind_Ok in H as ([] & Hb & <-%Ok_inj).
  - split; [done|]. split; [done|]. by left.
  - split; [done|]. split; [done|]. by right.
Qed.
Lemma handle_waste_marked data out : handle_waste_outputs data = Ok out ->
  Forall (fun ds => exists d, d ∈ data /\ d_id ds = d_id d /\ marked_from d ds) out.
Proof.
  unfold handle_waste_outputs. intros H. apply bind_Ok in H as (d1 & H1 & H). apply mapR_Ok in H1.
  assert (forall ds, ds ∈ d1 -> exists d, d ∈ data /\ d_id ds = d_id d /\ d_type ds = d_type d /\
    Forall2 (fun e e' => rename_recyclable e = Ok e') (d_exchanges d) (d_exchanges ds)) as HR.
  { intros ds Hds. apply elem_of_list_lookup in Hds as [i Hi]. destruct (Forall2_lookup_r _ _ _ _ _ H1 Hi) as (d & Hd & E).
    apply bind_Ok in E as (es & E & <-%Ok_inj). apply mapR_Ok in E. exists d. split; [by eapply elem_of_list_lookup_2|]. done. }
  unfold create_recycled_content_datasets in H. apply bind_Ok in H as (new & H & <-%Ok_inj). apply Forall_app. split.
  - apply Forall_forall. intros ds Hds. destruct (HR ds Hds) as (d & Hd & Hi & Ht & HF). exists d. split; [done|]. split; [done|].
    left. split; [done|]. apply Forall_forall. intros e He. apply elem_of_list_lookup in He as [i He].
    destruct (Forall2_lookup_r _ _ _ _ _ HF He) as (e0 & He0 & E). exists e0. split; [by eapply elem_of_list_lookup_2|].
    apply rename_still in E as (_ & Hty & [[Hb E]|[Hb ->]]); [|by left]. right. split; [|done].
    rewrite Hty. by apply is_recyclable_type.
  - eapply new_content; [|exact H| |constructor]; [done|]. intros ds e rc Hds He Hb Hrc.
    destruct (HR ds Hds) as (d & Hd & Hi & Ht & HF). exists d. split; [done|].
    apply elem_of_list_lookup in He as [i He]. destruct (Forall2_lookup_r _ _ _ _ _ HF He) as (e0 & He0 & E).
    apply rename_still in E as (Hsame & _ & [[_ E]|[Hf _]]); [|congruence].
    unfold create_new_recycled_content_dataset in Hrc. apply bind_Ok in Hrc as (k & _ & <-%Ok_inj).
    split; [done|]. right. split; [done|]. cbn [d_exchanges]. eexists _, e0. split; [done|]. split; [done|].
    split; [by eapply elem_of_list_lookup_2|]. exact E.
Qed.
Lemma names_marked d0 d ds : names_from d0 d -> d_type d = d_type d0 -> marked_from d ds -> marked_from d0 ds.
Proof.
  unfold names_from, marked_from. rewrite Forall_forall. intros HN Ht [[H1 H2]|(H1 & rp & e0 & E & Hr & He & Hn)].
  - left. split; [congruence|]. eapply Forall_impl; [exact H2|]. cbv beta. intros e (e1 & He1 & H).
    destruct (HN e1 He1) as (e0 & He0 & E). exists e0. split; [done|]. rewrite <- E. exact H.
  - right. split; [done|]. destruct (HN e0 He) as (e1 & He1 & E1). exists rp, e1. rewrite <- E1. done.
Qed.
Lemma from_names d d' : Names_proofs.from d d' -> names_from d d'.
Proof. intros [_ H]. eapply Forall_impl; [exact H|]. intros e (e0 & He & E). by exists e0. Qed.
Lemma prepared_marked w data prepared : cutoff_prepared w data = Ok prepared ->
  Forall (fun ds => exists d, d ∈ data /\ d_id ds = d_id d /\ marked_from d ds) prepared.
Proof.
  intros H. apply prepared_parts in H as (data1 & H1 & H). apply Names_proofs.cutoff_unmarked_from in H1.
  apply handle_waste_marked in H. eapply Forall_impl; [exact H|]. cbv beta. intros ds (d & Hd & Hi & HM).
  unfold Names_proofs.all_from in H1. rewrite Forall_forall in H1. destruct (H1 d Hd) as (d0 & Hd0 & HF). exists d0.
  split; [done|]. pose proof HF as [[F1 F2] _]. split; [congruence|]. eapply names_marked; [by apply from_names|done|done].
Qed.

(** Markets pass allocation as they are. *)
Definition market_label (l : string) : Prop :=
  l = "single product"%string \/ l = "market group"%string \/ l = "unconstrained market"%string \/ l = "constrained market"%string.
Lemma choose_market d l : is_market d -> choose_allocation_method d = Ok l -> market_label l.
Proof.
  intros Ht H. unfold choose_allocation_method in H. cbv zeta in H. apply bind_Ok in H as (b & _ & H).
  apply bind_Ok in H as (p & _ & H). destruct (_ && _); [apply Ok_inj in H as <-; by left|].
  case_bool_decide; [apply Ok_inj in H as <-; right; by left|]. case_bool_decide.
  - apply Ok_inj in H as <-. unfold market_label. destruct (existsb _ _); tauto.
  - by destruct Ht.
Qed.
Definition passed (data : list dataset) (d' : dataset) : Prop := is_market d' ->
  (exists l, d_alloc d' = Some l /\ market_label l) /\ exists d, d ∈ data /\ d_type d' = d_type d /\ d_exchanges d' = d_exchanges d.
Lemma none_same d l : no_allocation d = Ok l -> l = [d].
Proof.
  unfold no_allocation, check_single_output_activity. cbv zeta. intros H. apply bind_Ok in H as (d1 & H1 & <-%Ok_inj).
  apply bind_Ok in H1 as (b & _ & H1). destruct (negb _); [done|]. destruct b; [done|]. by apply Ok_inj in H1 as <-.
Qed.
Lemma wrapped_passed data label f cur out :
  (forall d l, f d = Ok l -> Forall (Names_proofs.from d) l) -> (market_label label -> forall d l, f d = Ok l -> l = [d]) ->
  Forall (passed data) cur -> wrapped f (allocation_filter label) cur = Ok out -> Forall (passed data) out.
Proof.
  intros Hf Hm HP H. unfold wrapped in H. apply concat_mapR_Ok in H as (ls & HF & ->). apply Forall_concat.
  clear -Hf Hm HP HF. induction HF as [|d l cur ls H _ IH]; [constructor|]. apply Forall_cons in HP as [Hd HP]. constructor; [|by apply IH].
  apply bind_Ok in H as (b & Hb & H). destruct b; [|apply Ok_inj in H as <-; constructor; [done|constructor]].
  unfold allocation_filter in Hb. apply bind_Ok in Hb as (x & Hx & Hb). apply Ok_inj, String.eqb_eq in Hb as ->.
  destruct (decide (d_type d = MarketActivity \/ d_type d = MarketGroup)) as [Ht|Ht].
  2:{ apply Hf in H. eapply Forall_impl; [exact H|]. intros d' [[_ E] _] Ht'. destruct Ht. unfold is_market in Ht'. by rewrite <- E. }
  - destruct (Hd Ht) as [(l0 & El & Hl0) _]. rewrite El in Hx. apply Ok_inj in Hx as ->.
    apply (Hm Hl0) in H as ->. constructor; [done|constructor].
Qed.
Lemma allocated_passed w data out : cutoff_allocated w data = Ok out ->
  Forall (fun d' => is_market d' -> exists d, d ∈ data /\ d_type d' = d_type d /\
    map (fun e => (e_name e, e_type e)) (d_exchanges d') = map (fun e => (e_name e, e_type e)) (d_exchanges d)) out.
Proof.
  unfold cutoff_allocated. intros H. apply bind_Ok in H as (a & H & <-%Ok_inj).
  unfold cutoff_allocation in H. apply bind_Ok in H as (d1 & H1 & H). apply bind_Ok in H as (d2 & H2 & <-%Ok_inj).
  assert (Forall (passed data) d1) as HP.
  { apply mapR_Ok in H1. apply Forall_forall. intros d' Hd' Ht. apply elem_of_list_lookup in Hd' as [i Hi].
    destruct (Forall2_lookup_r _ _ _ _ _ H1 Hi) as (d & Hd & E). apply bind_Ok in E as (l & Hl & <-%Ok_inj).
    split; [exists l; split; [done|by eapply choose_market]|]. exists d. split; [by eapply elem_of_list_lookup_2|done]. }
  clear H1.
  assert (Forall (passed data) d2) as HP2.
  { assert (G : Forall (fun lf : string * (dataset -> result (list dataset)) =>
      (forall d l, lf.2 d = Ok l -> Forall (Names_proofs.from d) l) /\ (market_label lf.1 -> forall d l, lf.2 d = Ok l -> l = [d]))
      (allocation_functions (w_ln w) (w_recalc w))).
    { assert (forall d d', w_recalc w d = Ok d' -> Names_proofs.from d d') as Hr by (unfold w_recalc; intros d d'; apply Names_proofs.recalc_from).
      unfold allocation_functions, market_label. apply Forall_cons; split.
      { split; cbn [fst snd]; [apply Names_proofs.none_from|intros _; apply none_same]. }
      apply Forall_cons; split. { split; cbn [fst snd]; [apply Names_proofs.none_from|intros _; apply none_same]. }
      apply Forall_cons; split. { split; cbn [fst snd]; [apply Names_proofs.economic_from|naive_solver]. }
      apply Forall_cons; split. { split; cbn [fst snd]; done. }
      apply Forall_cons; split. { split; cbn [fst snd]; [apply Names_proofs.recycling_from|naive_solver]. }
      apply Forall_cons; split. { split; cbn [fst snd]; [apply Names_proofs.waste_from|naive_solver]. }
      apply Forall_cons; split. { split; cbn [fst snd]; [by apply Names_proofs.without_from|naive_solver]. }
      apply Forall_cons; split. { split; cbn [fst snd]; [by apply Names_proofs.combined_from|naive_solver]. }
      apply Forall_cons; split. { split; cbn [fst snd]; [by apply Names_proofs.with_from|naive_solver]. }
      constructor. }
    revert d1 H2 HP G. generalize (allocation_functions (w_ln w) (w_recalc w)). induction l as [|lf l IH]; intros d1 H2 HP G; cbn in H2.
    { by apply Ok_inj in H2 as <-. }
    apply bind_Ok in H2 as (m & Hm & H2). apply Forall_cons in G as [[G1 G2] G]. eapply IH; [exact H2| |exact G].
    by eapply wrapped_passed. }
  apply Forall_forall. intros d' Hd' Ht. apply elem_of_list_fmap in Hd' as (d3 & -> & Hd'). apply elem_of_list_fmap in Hd' as (d4 & -> & Hd').
  rewrite Forall_forall in HP2. destruct (HP2 d4 Hd' Ht) as (_ & d & Hd & E1 & E2). exists d. split; [done|]. split; [done|].
  cbn [d_exchanges set_d_exchanges delete_allocation_method set_d_alloc]. rewrite map_map, <- E2. apply map_ext. intros e. by destruct (_ && _).
Qed.

(** *** After allocation *)
Definition marked_names (d ds : dataset) : Prop :=
  Forall (fun e => exists e0, e0 ∈ d_exchanges d /\ (e_name e = e_name e0 \/ e_name e = (e_name e0 ++ marker)%string)) (d_exchanges ds).
Lemma marked_weaken d ds : marked_from d ds -> marked_names d ds.
Proof.
  unfold marked_names. intros [[_ H]|(_ & rp & e0 & E & _ & He & Hn)]; [|rewrite E].
  - eapply Forall_impl; [exact H|]. cbv beta. intros e (e0 & He & [E|[_ E]]); exists e0; (split; [done|]); [by left|by right].
  - constructor; [|constructor]. exists e0. split; [done|by right].
Qed.
Lemma allocated_marked w data prepared allocated : cutoff_prepared w data = Ok prepared -> cutoff_allocated w prepared = Ok allocated ->
  Forall (fun ds => exists d, d ∈ data /\ d_id ds = d_id d /\ marked_names d ds) allocated.
Proof.
  intros H1 H2. apply prepared_marked in H1. apply Names_proofs.cutoff_allocated_from in H2.
  rewrite Forall_forall in H1. eapply Forall_impl; [exact H2|]. cbv beta. intros ds (p & Hp & [[F1 F2] F3]).
  destruct (H1 p Hp) as (d & Hd & Hi & HM). exists d. split; [done|]. split; [congruence|]. apply marked_weaken in HM.
  unfold marked_names, Names_proofs.stem_list in *. rewrite Forall_forall in *. intros e He. destruct (F3 e He) as (e1 & He1 & E).
  destruct (HM e1 He1) as (e0 & He0 & H). exists e0. split; [done|]. unfold Names_proofs.stems in E. rewrite E. exact H.
Qed.
Lemma unmarked_once w data prepared allocated : unmarked_data data ->
  cutoff_prepared w data = Ok prepared -> cutoff_allocated w prepared = Ok allocated -> Forall marked_once allocated.
Proof.
  intros HU H1 H2. pose proof (allocated_marked _ _ _ _ H1 H2) as H. eapply Forall_impl; [exact H|]. cbv beta.
  intros ds (d & Hd & _ & HM). unfold unmarked_data in HU. rewrite Forall_forall in HU. specialize (HU d Hd). rewrite Forall_forall in HU.
  eapply Forall_impl; [exact HM|]. cbv beta. intros e (e0 & He0 & [E|E]) a Ea.
  - destruct (HU e0 He0). rewrite <- E, Ea. apply occurs_end.
  - rewrite E in Ea. apply app_marker in Ea as <-. by apply HU.
Qed.
Lemma unmarked_plain w data prepared allocated : unmarked_data data ->
  cutoff_prepared w data = Ok prepared -> cutoff_allocated w prepared = Ok allocated -> Forall plain_market allocated.
Proof.
  intros HU H1 H2. apply prepared_marked in H1. apply allocated_passed in H2. rewrite Forall_forall in H1.
  eapply Forall_impl; [exact H2|]. cbv beta. intros ds H Ht. destruct (H Ht) as (p & Hp & Ety & Ees).
  destruct (H1 p Hp) as (d & Hd & _ & HM). unfold unmarked_data in HU. rewrite Forall_forall in HU. specialize (HU d Hd). rewrite Forall_forall in HU.
  destruct HM as [[_ HM]|(HT & _)]; [|unfold is_market in *; rewrite Ety, HT in Ht; by destruct Ht]. rewrite Forall_forall in HM. apply Forall_forall. intros e He Hr.
  assert ((e_name e, e_type e) ∈ map (fun e => (e_name e, e_type e)) (d_exchanges p)) as Hin.
  { rewrite <- Ees. apply elem_of_list_fmap. by exists e. }
  apply elem_of_list_fmap in Hin as (e1 & E & He1). injection E as E1 E2. rewrite E1.
  destruct (HM e1 He1) as (e0 & He0 & [E|[Hb _]]); [rewrite E; by apply HU|]. unfold is_refproduct in Hr. congruence.
Qed.

(** *** Linking *)
(** Names are those of [a], or its product, marked or not. *)
Definition link_names (Q : string -> string -> Prop) (a d : dataset) : Prop :=
  Forall (fun e => exists e0, e0 ∈ d_exchanges a /\ (e_name e = e_name e0 \/ (is_market a /\ is_refproduct e0 /\ Q (e_name e0) (e_name e))))
    (d_exchanges d).
Lemma within_link Q a d : within_names (map e_name (d_exchanges a)) (d_exchanges d) -> link_names Q a d.
Proof.
  intros H. eapply Forall_impl; [exact H|]. cbv beta. intros e He. apply elem_of_list_fmap_2 in He as (e0 & E & He). exists e0. split; [done|by left].
Qed.
Lemma grown_link Q a d rp new : is_market a -> grown a d rp new -> Forall (fun e => Q (e_name rp) (e_name e)) new -> link_names Q a d.
Proof.
  intros Hm (_ & _ & Hrp & _ & HN & _) HQ. eapply Forall_impl; [exact HN|]. cbv beta. intros e He.
  apply elem_of_app in He as [He|He]; apply elem_of_list_fmap_2 in He as (e0 & E & He).
  - exists e0. split; [done|by left].
  - assert (rp ∈ filter is_refproduct (d_exchanges a)) as Hin by (rewrite Hrp; by left).
    apply elem_of_list_filter in Hin as [Hr Hin]. exists rp. split; [done|]. right. rewrite Forall_forall in HQ. rewrite E. auto.
Qed.
Lemma frame_id d d' : frame d' = frame d -> d_id d' = d_id d.
Proof. intros H. by apply (f_equal d_id) in H. Qed.
Lemma pv_names w data out : (forall s, w_md5 w s <> ""%string) -> uncoded' data ->
  link_markets_by_pv (w_md5 w) (w_ln w) (w_ord w) (w_topo w) data = Ok out ->
  Forall (fun d => exists a, a ∈ data /\ d_id d = d_id a /\ link_names marked_or_not a d) out.
Proof.
  intros Hmd HU H. pose proof (pv_stem _ Hmd _ _ _ _ _ H) as (b1 & S1 & F1 & _).
  destruct (pv_parts _ Hmd _ _ _ _ _ HU H) as (mk & gr & Emk & Egr & Lmk & Lgr).
  destruct (markets_ready_inv _ _ _ _ _ HU Emk MarketActivity) as ((b2 & S2 & F2 & _) & _ & [G2 N2]).
  destruct (groups_ready_inv _ _ _ _ _ HU Egr) as ((b3 & S3 & F3 & _) & _ & [G3 N3]).
  apply Forall_forall. intros d Hd. apply elem_of_list_lookup in Hd as [i Hi].
  assert (forall kind base ready, kind = MarketActivity \/ kind = MarketGroup -> sublist base data -> Forall2 (first kind) base ready ->
    Forall (good (fun _ => False) (hashed (w_md5 w))) ready -> Forall (named marked_or_not) ready -> Forall2 (late kind) ready out ->
    d_type d = kind -> exists a, a ∈ data /\ d_id d = d_id a /\ link_names marked_or_not a d) as HK.
  { intros kind base ready Hk HS HF HG HN HL Ht. destruct (Forall2_lookup_r _ _ _ _ _ HL Hi) as (m & Hm & H2).
    destruct (Forall2_lookup_r _ _ _ _ _ HF Hm) as (a & Ha & H1). apply elem_of_list_lookup_2 in Ha, Hm.
    rewrite Forall_forall in HG, HN.
    assert (frame d = frame a) as Hf by (destruct H1 as [(E1 & _) _], H2 as [(E2 & _) _]; congruence).
    assert (d_type a = kind) as Hta by (rewrite <- Ht; symmetry; by apply frame_type).
    destruct (market_grown _ _ _ _ _ _ Hmd H1 Hta (HG m Hm) (HN m Hm) H2) as (rp & l & new & _ & _ & Hgr & _ & _ & HQ).
    exists a. split; [by eapply elem_of_submseteq, sublist_submseteq|]. split; [by apply frame_id|].
    eapply grown_link; [|exact Hgr|exact HQ]. unfold is_market. by rewrite Hta. }
  destruct (decide (d_type d = MarketActivity)) as [Ht|Ht]; [apply (HK MarketActivity b2 mk); try done; by left|].
  destruct (decide (d_type d = MarketGroup)) as [Ht'|Ht']; [apply (HK MarketGroup b3 gr); try done; by right|].
  destruct (Forall2_lookup_r _ _ _ _ _ F1 Hi) as (a & Ha & HD). apply elem_of_list_lookup_2 in Ha. exists a.
  split; [by eapply elem_of_submseteq, sublist_submseteq|]. destruct HD as [(Hf & _) HA]. split; [by apply frame_id|].
  destruct HA as [HA _]; [|by apply within_link]. unfold is_market. rewrite <- (frame_type _ _ Hf). by intros [?|?].
Qed.
Lemma tech_names w data out : (forall s, w_md5 w s <> ""%string) -> uncoded' data ->
  link_markets_by_technology_level (w_md5 w) (w_ln w) (w_ord w) (w_topo w) data = Ok out ->
  Forall (fun d => exists a, a ∈ data /\ d_id d = d_id a /\ link_names (fun r n => n = r) a d) out.
Proof.
  intros Hmd HU H. pose proof (tech_stem _ Hmd _ _ _ _ _ H) as (b1 & S1 & F1 & _).
  destruct (tech_parts _ Hmd _ _ _ _ _ HU H) as (mk & Emk & Lmk & Lgr).
  destruct (levels_ready_inv _ _ _ _ _ HU Emk MarketActivity) as ((b2 & S2 & F2 & _) & _ & [G2 N2]).
  destruct (levels_ready_inv _ _ _ _ _ HU Emk MarketGroup) as ((b3 & S3 & F3 & _) & _).
  apply Forall_forall. intros d Hd. apply elem_of_list_lookup in Hd as [i Hi].
  destruct (decide (d_type d = MarketActivity)) as [Ht|Ht].
  { destruct (Forall2_lookup_r _ _ _ _ _ Lmk Hi) as (m & Hm & H2).
    destruct (Forall2_lookup_r _ _ _ _ _ F2 Hm) as (a & Ha & H1). apply elem_of_list_lookup_2 in Ha, Hm.
    rewrite Forall_forall in G2, N2.
    assert (frame d = frame a) as Hf by (destruct H1 as [(E1 & _) _], H2 as [(E2 & _) _]; congruence).
    assert (d_type a = MarketActivity) as Hta by (rewrite <- Ht; symmetry; by apply frame_type).
    destruct (market_grown _ _ _ _ _ _ Hmd H1 Hta (G2 m Hm) (N2 m Hm) H2) as (rp & l & new & _ & _ & Hgr & _ & _ & HQ).
    exists a. split; [by eapply elem_of_submseteq, sublist_submseteq|]. split; [by apply frame_id|].
    eapply grown_link; [by left|exact Hgr|exact HQ]. }
  destruct (decide (d_type d = MarketGroup)) as [Ht'|Ht'].
  { destruct (Forall2_lookup_r _ _ _ _ _ Lgr Hi) as (m & Hm & [K H2]).
    destruct (Forall2_lookup_r _ _ _ _ _ F3 Hm) as (a & Ha & H1). apply elem_of_list_lookup_2 in Ha, Hm.
    assert (frame m = frame a) as Hf by (by destruct H1 as [(E1 & _) _]).
    assert (frame d = frame m) as Hf' by (by destruct K as (E2 & _)).
    assert (d_type m = MarketGroup) as Htm by (rewrite <- Ht'; symmetry; by apply frame_type).
    exists a. split; [by eapply elem_of_submseteq, sublist_submseteq|]. split; [apply frame_id; congruence|].
    apply within_link. destruct H1 as [_ HB]. destruct (H2 Htm) as (_ & HN & _). eapply within_trans; [|exact HN].
    apply bare_names, HB. rewrite <- Htm. symmetry. by apply frame_type. }
  destruct (Forall2_lookup_r _ _ _ _ _ F1 Hi) as (a & Ha & HD). apply elem_of_list_lookup_2 in Ha. exists a.
  split; [by eapply elem_of_submseteq, sublist_submseteq|]. destruct HD as [(Hf & _) HA]. split; [by apply frame_id|].
  destruct HA as [HA _]; [|by apply within_link]. unfold is_market. rewrite <- (frame_type _ _ Hf). by intros [?|?].
Qed.

(** *** The end *)
Lemma scaled_names k es es' : Forall2 (scaled_by k) es es' -> map e_name es' = map e_name es.
Proof.
  induction 1 as [|e e' es es' [_ Hs] _ IH]; [done|]. cbn [map]. pose proof (sameb_fields _ _ Hs) as (-> & _). by rewrite IH.
Qed.
Lemma normalize_names ln d d' : normalize_reference_production_amount ln d = Ok d' ->
  d_id d' = d_id d /\ map e_name (d_exchanges d') = map e_name (d_exchanges d).
Proof.
  intros H. apply normalize_spec in H as (rp & k & es & _ & _ & _ & -> & HS & _). split; [done|]. by eapply scaled_names.
Qed.
Lemma steps_names w d ds : steps_of w d ds -> d_id ds = d_id d /\
  map e_name (d_exchanges ds) = map (fun e => strip_marker (e_name e)) (d_exchanges d).
Proof.
  intros (d1 & d2 & H1 & H2 & H3). apply flip_spec in H1 as (es1 & -> & H1). apply normalize_names in H2 as [I2 N2].
  assert (d_id ds = d_id d2 /\ map e_name (d_exchanges ds) = map e_name (d_exchanges d2)) as [I3 N3].
  { apply adjust_spec in H3 as [[_ ->]|[(rp & _ & _ & _ & ->)|(rp & es & _ & -> & HC)]]; [done|done|]. split; [done|].
    cbn [d_exchanges set_d_exchanges].
    assert (forall P es', Forall2 (negated_where P) (d_exchanges d2) es' -> map e_name es' = map e_name (d_exchanges d2)) as HN.
    { clear. intros P es'. induction 1 as [|e e' es es' [[_ [_ Hs]]|[_ ->]] _ IH]; [done|..]; cbn [map].
      - pose proof (sameb_fields _ _ Hs) as (-> & _). by rewrite IH.
      - by rewrite IH. }
    destruct HC as [[_ HF]|[(_ & _ & HF)|(_ & _ & ->)]]; [by eapply HN|by eapply HN|done]. }
  split; [rewrite I3, I2; done|]. rewrite N3, N2. cbn [d_exchanges set_d_exchanges renamed set_d_refprod] in H1 |- *.
  clear -H1. revert H1. generalize (d_exchanges d) as l. intros l H1.
  apply (Forall2_fmap_l (fun e => set_e_name (strip_marker (e_name e)) e) flipped) in H1. induction H1 as [|e e' es es' H _ IH]; [done|]. cbn [map]. rewrite IH. f_equal.
  destruct H as [[_ (_ & _ & _ & _ & H)]|[_ ->]]; [|done]. apply (f_equal e_name) in H. exact H.
Qed.
Lemma steps_named w d ds : steps_of w d ds -> d_id ds = d_id d /\
  forall e, e ∈ d_exchanges ds -> exists e1, e1 ∈ d_exchanges d /\ e_name e = strip_marker (e_name e1).
Proof.
  intros H. apply steps_names in H as [Hi HN]. split; [done|]. intros e He.
  assert (e_name e ∈ map (fun e => strip_marker (e_name e)) (d_exchanges d)) as Hin.
  { rewrite <- HN. apply elem_of_list_fmap. by exists e. }
  apply elem_of_list_fmap in Hin as (e1 & E & H1). by exists e1.
Qed.
Lemma cutoff_names w data out : (forall s, w_md5 w s <> ""%string) -> raw data -> unmarked_data data -> cutoff_model w data = Ok out ->
  Forall (fun ds => exists d, d ∈ data /\ d_id ds = d_id d /\ names_from d ds) out.
Proof.
  intros Hmd Hr HU H. apply cutoff_model_parts in H as (prepared & allocated & linked & Hp & Ha & HL & HF).
  pose proof (cutoff_raw _ _ _ _ Hr Hp Ha) as HC. pose proof (unmarked_plain _ _ _ _ HU Hp Ha) as HP.
  pose proof (allocated_marked _ _ _ _ Hp Ha) as HM. apply pv_names in HL; [|done|done].
  rewrite Forall_forall in HM, HP, HL. apply Forall_forall. intros ds Hds. apply elem_of_list_lookup in Hds as [i Hi].
  destruct (Forall2_lookup_r _ _ _ _ _ HF Hi) as (l & Hl & HS). apply elem_of_list_lookup_2 in Hl.
  destruct (HL l Hl) as (a & Ha' & I1 & N1). destruct (HM a Ha') as (d & Hd & I2 & N2). apply steps_named in HS as [I3 N3].
  exists d. split; [done|]. split; [congruence|]. unfold unmarked_data in HU. rewrite Forall_forall in HU. specialize (HU d Hd).
  rewrite Forall_forall in HU. unfold link_names in N1. unfold marked_names in N2. rewrite Forall_forall in N1, N2.
  apply Forall_forall. intros e He. destruct (N3 e He) as (e1 & He1 & ->). destruct (N1 e1 He1) as (e2 & He2 & HQ).
  destruct (N2 e2 He2) as (e0 & He0 & HE). exists e0. split; [done|]. specialize (HU e0 He0).
  destruct HQ as [E|(Hm & Hrp & HQ)].
  - rewrite E. destruct HE as [->| ->]; [by apply strip_free|by apply strip_marked].
  - specialize (HP a Ha' Hm). rewrite Forall_forall in HP. specialize (HP e2 He2 Hrp).
    destruct HE as [HE|HE]; [|destruct HP; rewrite HE; apply occurs_end].
    rewrite HE in HQ. destruct HQ as [->| ->]; [by apply strip_free|by apply strip_marked].
Qed.
Lemma consequential_names w data out : (forall s, w_md5 w s <> ""%string) -> raw data -> consequential_model w data = Ok out ->
  Forall (fun ds => exists d, d ∈ data /\ d_id ds = d_id d /\ names_from d ds) out.
Proof.
  intros Hmd Hr H. apply consequential_parts in H as (prepared & linked & Hp & HL & HF).
  assert (uncoded' prepared) as HC by (eapply uncoded_weaken, raw_from; [exact Hr|by eapply Stems_proofs.consequential_prepared_from]).
  apply Names_proofs.consequential_prepared_from in Hp. apply tech_names in HL; [|done|done].
  unfold Names_proofs.all_from in Hp. rewrite Forall_forall in Hp, HL. apply Forall_forall. intros ds Hds. apply elem_of_list_lookup in Hds as [i Hi].
  destruct (Forall2_lookup_r _ _ _ _ _ HF Hi) as (l & Hl & HS). apply elem_of_list_lookup_2 in Hl.
  destruct (HL l Hl) as (a & Ha' & I1 & N1). destruct (Hp a Ha') as (d & Hd & [[I2 _] N2]). apply normalize_names in HS as [I3 N3].
  exists d. split; [done|]. split; [congruence|]. unfold link_names in N1. unfold Names_proofs.stem_list in N2. rewrite Forall_forall in N1, N2.
  apply Forall_forall. intros e He. assert (e_name e ∈ map e_name (d_exchanges l)) as Hin.
  { rewrite <- N3. apply elem_of_list_fmap. by exists e. }
  apply elem_of_list_fmap in Hin as (e1 & E1 & He1). destruct (N1 e1 He1) as (e2 & He2 & HQ).
  destruct (N2 e2 He2) as (e0 & He0 & HE). unfold Names_proofs.stems in HE. exists e0. split; [done|]. rewrite E1, <- HE.
  by destruct HQ as [?|(_ & _ & ?)].
Qed.
