(** Proofs about combined production (C16-C18). *)
From Verif Require Import Base Types Uncertainty Spec_Uncertainty Uncertainty_proofs
  Utils Spec_Utils Utils_proofs Validation Validation_proofs Strings Grouping
  Recalculation Spec_Recalculation Recalculation_proofs
  Cutoff Spec_Cutoff Cutoff_proofs Spec_Allocation Allocation_proofs Allocation2_proofs
  Spec_Combined.

Lemma nonrefs_filter (es : list exchange) :
  filterb (fun o => negb (bool_decide (e_type o = RefProduct))) es
  = filter (fun e => ~ is_refproduct e) es.
Proof.
  apply filterb_filter. intros e _. unfold is_refproduct. by rewrite bool_decide_not.
Qed.
Lemma others_filter p (es : list exchange) :
  filterb (fun o => bool_decide (o <> p)) es = filter (fun o => o <> p) es.
Proof.
  apply filterb_filter. done.
Qed.

Lemma subdivide_spec ds p : split_for ds p (subdivide ds p).
Proof.
  unfold subdivide, split_for. rewrite nonrefs_filter, others_filter, reference_products_filter.
  eexists _, _. split_and!; [done|done|].
  apply Forall2_fmap_r.
  apply Forall_Forall2_diag. apply Forall_forall. intros e _.
  unfold dropped_from, nonreference_product. cbn. done.
Qed.

Lemma combined_spec recalc ds outs :
  combined_production recalc ds = Ok outs ->
  Forall2 (fun p out => exists part, split_for ds p part /\ recalc part = Ok out)
    (filter produces (d_exchanges ds)) outs.
Proof.
  unfold combined_production. rewrite nonzero_refs. intros H. apply mapR_Ok in H.
  eapply Forall2_impl; [exact H|]. intros p out Hp. exists (subdivide ds p).
  split; [apply subdivide_spec|done].
Qed.
Lemma combined_spec_iff recalc ds outs :
  combined_production recalc ds = Ok outs <->
  Forall2 (fun p out => recalc (subdivide ds p) = Ok out)
    (filter produces (d_exchanges ds)) outs.
Proof. unfold combined_production. rewrite nonzero_refs. apply mapR_Ok. Qed.

(** ** Values of variables that have no formula *)
Lemma evaluate_plain eval params m keys m' k o :
  foldR (evaluate_one eval params) m keys = Ok m' ->
  params !! k = Some o -> o_formula o = None ->
  (forall x, m !! k = Some x -> x = o_value o) ->
  forall x, m' !! k = Some x -> x = o_value o.
Proof.
  intros H Ho Hf. revert m H. induction keys as [|j keys IH]; intros m H Hm; cbn in H.
  - by injection H as <-.
  - apply bind_Ok in H as (m1 & H1 & H). apply (IH _ H). clear IH H.
    apply evaluate_one_spec in H1 as (o' & y & Ho' & Hy & ->). intros x.
    destruct (decide (j = k)) as [->|Hne].
    + rewrite lookup_insert. intros [= <-]. rewrite Ho in Ho'. injection Ho' as <-.
      unfold own_value in Hy. by rewrite Hf in Hy.
    + rewrite lookup_insert_ne by done. apply Hm.
Qed.

Lemma environment_plain order eval ds m n x y :
  unique_variables ds -> environment order eval ds = Ok m ->
  (Some n, None, x) ∈ quantities ds -> m !! n = Some y -> y = x.
Proof.
  intros Hu H Hin Hy. unfold environment in H. apply bind_Ok in H as (keys & _ & H).
  rewrite <- all_objs_quantities in Hin. apply elem_of_list_fmap in Hin as ([v f z] & Ho & Hin).
  unfold pobj_q in Ho. cbn in Ho. injection Ho as <- <- <-.
  eapply (evaluate_plain _ _ _ _ _ n (mkPobj (Some n) None x)); [exact H| |done| |exact Hy].
  - apply params_lookup; done.
  - intros w Hw. by rewrite lookup_empty in Hw.
Qed.

(** ** The split dataset keeps variable names unique *)
Definition evars (e : exchange) : list string := omap q_var (exchange_quantities e).

Lemma quantities_vars ds :
  omap q_var (quantities ds)
  = concat (map evars (d_exchanges ds)) ++ omap q_var (map param_quantity (d_params ds)).
Proof.
  unfold quantities. rewrite omap_app. f_equal. induction (d_exchanges ds) as [|e es IH]; [done|].
  cbn [map concat]. rewrite omap_app, IH. done.
Qed.

Lemma concat_map_submseteq {A B} (f : A -> list B) l k :
  l ⊆+ k -> concat (map f l) ⊆+ concat (map f k).
Proof.
  induction 1 as [|x l k _ IH|x y l|x l k _ IH|l k j _ IH1 _ IH2]; cbn [map concat].
  - done.
  - by apply submseteq_app.
  - rewrite !app_assoc. apply submseteq_app; [|done]. rewrite (Permutation_app_comm (f y)). done.
  - rewrite IH. by apply submseteq_inserts_l.
  - by etrans.
Qed.
Lemma concat_map_submseteq_pw {A B} (f g : A -> list B) l :
  Forall (fun x => f x ⊆+ g x) l -> concat (map f l) ⊆+ concat (map g l).
Proof. induction 1; cbn [map concat]; [done|by apply submseteq_app]. Qed.

Lemma NoDup_submseteq' {A} (l k : list A) : l ⊆+ k -> NoDup k -> NoDup l.
Proof. intros H Hk. apply submseteq_Permutation in H as (j & Hj). rewrite Hj in Hk. by apply NoDup_app in Hk as [? _]. Qed.

Lemma dropped_vars e : evars (nonreference_product e) ⊆+ evars e.
Proof.
  unfold evars, nonreference_product, exchange_quantities. cbn.
  destruct (e_variable e); cbn; [apply submseteq_skip|]; rewrite omap_app; by apply submseteq_inserts_l.
Qed.

Lemma filter_partition {A} (P : A -> Prop) `{forall x, Decision (P x)} (l : list A) :
  filter P l ++ filter (fun x => ~ P x) l ≡ₚ l.
Proof.
  induction l as [|x l IH]; [done|]. rewrite !filter_cons.
  destruct (decide (P x)) as [Hx|Hx].
  - destruct (decide (~ P x)); [done|]. cbn. by rewrite IH.
  - destruct (decide (~ P x)); [|done]. rewrite <- Permutation_middle. by rewrite IH.
Qed.

Lemma subdivide_unique ds p :
  p ∈ filter is_refproduct (d_exchanges ds) -> unique_variables ds ->
  unique_variables (subdivide ds p).
Proof.
  intros Hin. unfold unique_variables. rewrite !quantities_vars. apply NoDup_submseteq'.
  unfold subdivide. cbn [d_exchanges set_d_exchanges d_params].
  apply submseteq_app; [|done].
  rewrite nonrefs_filter, others_filter, reference_products_filter.
  set (refs := filter is_refproduct (d_exchanges ds)) in *.
  cbn [map concat]. rewrite map_app, concat_app, map_map.
  trans (evars p ++ concat (map evars (filter (fun o => o <> p) refs))
         ++ concat (map evars (filter (fun o => ~ is_refproduct o)
                                (d_exchanges ds)))).
  { apply submseteq_app; [done|]. apply submseteq_app; [|done].
    apply (concat_map_submseteq_pw (fun x => evars (nonreference_product x)) evars).
    apply Forall_forall. intros e _. apply dropped_vars. }
  assert (Hperm : p :: filter (fun o => o <> p) refs
     ++ filter (fun o => ~ is_refproduct o) (d_exchanges ds)
     ⊆+ d_exchanges ds).
  { rewrite <- (filter_partition is_refproduct (d_exchanges ds)) at 2. fold refs.
    change (p :: ?a ++ ?b) with ((p :: a) ++ b). apply submseteq_app.
    - rewrite <- (filter_partition (fun o => o <> p) refs) at 2.
      rewrite Permutation_app_comm. change (p :: ?a) with ([p] ++ a).
      apply submseteq_app; [|done]. apply singleton_submseteq_l. apply elem_of_list_filter.
      split; [|done]. tauto.
    - done. }
  apply (concat_map_submseteq evars) in Hperm. cbn [map concat] in Hperm.
  by rewrite map_app, concat_app in Hperm.
Qed.

(** ** C17 *)
Lemma blank_fields e e' :
  blank_exchange e' = blank_exchange e ->
  e_id e' = e_id e /\ e_name e' = e_name e /\ e_unit e' = e_unit e /\ e_type e' = e_type e /\
  e_class e' = e_class e /\ e_variable e' = e_variable e /\ e_formula e' = e_formula e /\
  (e_pv e = None <-> e_pv e' = None) /\ e_cond e' = e_cond e /\ e_link e' = e_link e.
Proof.
  intros H. split_and!;
    try (match goal with |- ?f e' = ?f e =>
           change (f (blank_exchange e') = f (blank_exchange e)); by rewrite H end).
  apply (f_equal e_pv) in H. cbn in H. destruct (e_pv e), (e_pv e'); cbn in H; done.
Qed.

Lemma blank_alloc e e' : blank_exchange e' = blank_exchange e -> (alloc_output e' <-> alloc_output e).
Proof.
  intros H%blank_fields. unfold alloc_output, alloc_byproduct, is_refproduct.
  destruct H as (_ & _ & _ & -> & -> & _). done.
Qed.
Lemma blank_ref e e' : blank_exchange e' = blank_exchange e -> (is_refproduct e' <-> is_refproduct e).
Proof. intros H%blank_fields. unfold is_refproduct. destruct H as (_ & _ & _ & -> & _). done. Qed.

Lemma filter_Forall2 {A} (P : A -> Prop) `{forall x, Decision (P x)} (R : A -> A -> Prop) l k :
  (forall x y, R x y -> (P y <-> P x)) ->
  Forall2 R l k -> Forall2 R (filter P l) (filter P k).
Proof.
  intros HP. induction 1 as [|x y l k H1 _ IH]; [constructor|]. rewrite !filter_cons.
  specialize (HP _ _ H1). destruct (decide (P x)), (decide (P y)); try tauto. by constructor.
Qed.

Lemma combined_production_spec ln euler order eval ds outs :
  unique_variables ds ->
  combined_production (recalculate ln euler order eval) ds = Ok outs ->
  Forall2 (fun p out =>
      exists part m, split_for ds p part /\ environment order eval part = Ok m /\
        dataset_revalued eval m part out /\
        (* the product keeps its amount *)
        (exists rp, filter is_refproduct (d_exchanges out) = [rp] /\
           e_id rp = e_id p /\ e_name rp = e_name p /\ e_formula rp = None /\
           e_amount rp = e_amount p) /\
        (* the other products are gone, and zero where formulas use them *)
        (forall q n, q ∈ d_exchanges ds -> is_refproduct q -> q <> p ->
           e_variable q = Some n -> forall x, m !! n = Some x -> x = 0%Qc) /\
        (forall n x, e_variable p = Some n -> m !! n = Some x -> x = e_amount p))
    (filter produces (d_exchanges ds)) outs.
Proof.
  intros Hu H. apply combined_spec_iff in H.
  apply Forall2_same_length_lookup. split; [by eapply Forall2_length|]. intros i p out Hp Ho.
  destruct (Forall2_lookup_l _ _ _ _ _ H Hp) as (out' & Ho' & Hr). rewrite Ho in Ho'.
  injection Ho' as <-. apply recalculate_spec in Hr as (m & Hm & HR).
  exists (subdivide ds p), m. split_and!; [apply subdivide_spec|done|done| | |].
  - assert (Hpin : p ∈ filter is_refproduct (d_exchanges ds)).
    { apply elem_of_list_lookup_2 in Hp. apply elem_of_list_filter in Hp as [[Hp1 _] Hp2].
      by apply elem_of_list_filter. }
    pose proof (subdivide_unique ds p Hpin Hu) as Hu'.
    destruct HR as (es & ps & -> & Hes & _). cbn [d_exchanges set_d_params set_d_exchanges].
    unfold subdivide in Hes. cbn [d_exchanges set_d_exchanges] in Hes.
    apply Forall2_cons_inv_l in Hes as (rp & es' & [Hb Hq] & Hes & ->).
    exists rp. pose proof (blank_fields _ _ Hb) as (B1 & B2 & _ & B4 & _ & B6 & B7 & _). cbn in B1, B2, B4, B6, B7.
    assert (Hno : filter is_refproduct es' = []).
    { apply filter_none. apply Forall_lookup_2. intros j e Hj.
      destruct (Forall2_lookup_r _ _ _ _ _ Hes Hj) as (e0 & He0 & Hb0 & _).
      intros Hc. apply (proj1 (blank_ref _ _ Hb0)) in Hc.
      apply elem_of_list_lookup_2 in He0. apply elem_of_app in He0 as [He0|He0].
      - apply elem_of_list_fmap in He0 as (e1 & -> & _). done.
      - rewrite nonrefs_filter in He0. apply elem_of_list_filter in He0 as [He0 _]. done. }
    split_and!; try done.
    + rewrite filter_cons_True, Hno; [done|].
      apply elem_of_list_filter in Hpin as [Hpin _]. unfold is_refproduct in *. by rewrite B4.
    + apply Forall2_cons_inv_l in Hq as (q & qs & Hq & _ & Hqq).
      unfold exchange_quantities in Hqq. injection Hqq as Hqq _. subst q.
      destruct Hq as (_ & _ & Hv). unfold q_val, q_form, q_var in Hv. cbn in Hv.
      destruct (e_variable p) as [n|] eqn:En; [|done].
      eapply environment_plain; [exact Hu'|exact Hm| |exact Hv].
      unfold quantities, subdivide. cbn [d_exchanges set_d_exchanges map concat].
      apply elem_of_app. left. unfold exchange_quantities at 1. cbn. rewrite En. left.
  - intros q n Hq Hqr Hne Hn x Hx.
    assert (Hpin : p ∈ filter is_refproduct (d_exchanges ds)).
    { apply elem_of_list_lookup_2 in Hp. apply elem_of_list_filter in Hp as [[Hp1 _] Hp2].
      by apply elem_of_list_filter. }
    eapply environment_plain; [by apply subdivide_unique|exact Hm| |exact Hx].
    unfold quantities, subdivide. cbn [d_exchanges set_d_exchanges map concat].
    apply elem_of_app. left. apply elem_of_app. right. rewrite map_app, concat_app.
    apply elem_of_app. left. apply elem_of_list_In, in_concat.
    exists (exchange_quantities (nonreference_product q)). split.
    + apply elem_of_list_In, elem_of_list_fmap. exists (nonreference_product q). split; [done|].
      apply elem_of_list_fmap. exists q. split; [done|].
      rewrite others_filter, reference_products_filter. apply elem_of_list_filter.
      split; [done|]. by apply elem_of_list_filter.
    + left. unfold nonreference_product. cbn. by rewrite Hn.
  - intros n x Hn Hx.
    assert (Hpin : p ∈ filter is_refproduct (d_exchanges ds)).
    { apply elem_of_list_lookup_2 in Hp. apply elem_of_list_filter in Hp as [[Hp1 _] Hp2].
      by apply elem_of_list_filter. }
    eapply environment_plain; [by apply (subdivide_unique ds p)|exact Hm| |exact Hx].
    unfold quantities, subdivide. cbn [d_exchanges set_d_exchanges map concat].
    apply elem_of_app. left. unfold exchange_quantities at 1. cbn. rewrite Hn. left.
Qed.
