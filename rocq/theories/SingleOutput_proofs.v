(** Proofs for C16: allocation leaves one product per dataset. *)
From Verif Require Import Base Types Uncertainty Spec_Uncertainty Uncertainty_proofs
  Utils Spec_Utils Utils_proofs Validation Validation_proofs Strings Grouping
  Recalculation Spec_Recalculation Recalculation_proofs
  Cutoff Spec_Cutoff Cutoff_proofs Spec_Allocation Allocation_proofs Allocation2_proofs
  Spec_Combined Combined_proofs Combined2_proofs Spec_Dispatch.
From Verif Require ActivityLinks_proofs.

Lemma list_filter_iff' {A} (P Q : A -> Prop) `{forall x, Decision (P x), forall x, Decision (Q x)}
    (l : list A) :
  (forall x, x ∈ l -> P x <-> Q x) -> filter P l = filter Q l.
Proof.
  induction l as [|x l IH]; intros HPQ; [done|]. rewrite !filter_cons.
  pose proof (HPQ x (elem_of_list_here _ _)) as Hx.
  rewrite IH by (intros; apply HPQ; by right).
  destruct (decide (P x)), (decide (Q x)); tauto || done.
Qed.

Lemma single_output_filter ds rp :
  filter alloc_output (d_exchanges ds) = [rp] -> is_refproduct rp -> e_amount rp <> 0%Qc ->
  single_output ds.
Proof.
  intros Hf Hr Ha. exists rp. split; [|done].
  rewrite (list_filter_iff _ (fun e => e_amount e <> 0%Qc /\ alloc_output e)) by tauto.
  rewrite <- list_filter_filter, Hf. by rewrite filter_cons_True, filter_nil.
Qed.

Lemma Qcmult_ne x k : x <> 0%Qc -> (0 < k)%Qc -> (x * k <> 0)%Qc.
Proof.
  intros Hx Hk E. apply Qcmult_integral in E as [E|E]; [done|]. rewrite E in Hk.
  by apply Qclt_not_eq in Hk.
Qed.

Lemma single_output_of_single ds p f out :
  e_amount p <> 0%Qc -> single_output_of ds p f out -> single_output out.
Proof.
  intros Ha (k & rp' & dr & ot & [Hk _] & -> & Hm & _ & _ & Hf).
  apply (single_output_filter _ rp'); [done|by destruct Hm as [? _]|].
  destruct Hm as (_ & -> & _). by apply Qcmult_ne.
Qed.
Lemma choose_single ln ds e f out :
  choose_reference_product_exchange ln ds e f = Ok out -> single_output out.
Proof.
  intros H. apply choose_single_output in H as (Ha & _ & H).
  eapply single_output_of_single; [exact Ha|exact H].
Qed.

Lemma Forall2_Forall_r {A B} (R : A -> B -> Prop) (Q : B -> Prop) l k :
  Forall2 R l k -> (forall x y, x ∈ l -> R x y -> Q y) -> Forall Q k.
Proof.
  intros H HQ. apply Forall_lookup_2. intros i y Hy.
  destruct (Forall2_lookup_r _ _ _ _ _ H Hy) as (x & Hx & Hr). eapply HQ; [|exact Hr].
  by eapply elem_of_list_lookup_2.
Qed.

Lemma economic_single ln ds outs :
  economic_allocation ln ds = Ok outs -> Forall single_output outs.
Proof.
  intros H. unfold economic_allocation, apply_allocation_factors in H.
  apply bind_Ok in H as (u & _ & H). apply bind_Ok in H as (ps & _ & H).
  apply bind_Ok in H as (fs & _ & H). apply mapR_Ok in H.
  eapply Forall2_Forall_r; [exact H|]. intros fe out _ Hc. eapply choose_single. exact Hc.
Qed.
Lemma recycling_single ln ds outs :
  recycling_allocation ln ds = Ok outs -> Forall single_output outs.
Proof. intros H. apply recycling_spec in H as (rp & es & _ & _ & _ & _ & H). by eapply economic_single. Qed.
Lemma waste_single ln ds outs :
  waste_treatment_allocation ln ds = Ok outs -> Forall single_output outs.
Proof.
  unfold waste_treatment_allocation. intros H. apply bind_Ok in H as (u & _ & H).
  apply bind_Ok in H as (rp0 & _ & H). apply bind_Ok in H as (tr0 & Htr & H).
  apply bind_Ok in H as (ps & _ & H). apply bind_Ok in H as (fr & Hfr & H).
  apply Ok_inj in H as <-. constructor; [by eapply choose_single|]. apply mapR_Ok in Hfr.
  eapply Forall2_Forall_r; [exact Hfr|]. intros p out _ Hp. unfold free_byproduct in Hp.
  eapply choose_single. exact Hp.
Qed.
Lemma Forall_concat' {A} (P : A -> Prop) ls : Forall (Forall P) ls -> Forall P (concat ls).
Proof. induction 1; cbn [concat]; [constructor|]. by apply Forall_app. Qed.

Lemma without_products_single ln recalc ds outs :
  combined_production_without_products ln recalc ds = Ok outs -> Forall single_output outs.
Proof.
  unfold combined_production_without_products. intros H. apply bind_Ok in H as (parts & _ & H).
  apply concat_mapR_Ok in H as (outss & -> & H). apply Forall_concat'.
  eapply Forall2_Forall_r; [exact H|]. intros part os _ Hp. unfold handle_split_dataset in Hp.
  apply bind_Ok in Hp as (rp & _ & Hp). apply bind_Ok in Hp as (c & _ & Hp).
  destruct (bool_decide (c = Waste)); [by eapply waste_single|].
  destruct (bool_decide (c = Recyclable)); [by eapply recycling_single|done].
Qed.

(** ** Combined production *)
Lemma part_exchange ln euler order eval ds p part' e' :
  unique_variables ds -> p ∈ d_exchanges ds -> is_refproduct p ->
  recalculate ln euler order eval (subdivide ds p) = Ok part' -> e' ∈ d_exchanges part' ->
  (is_refproduct e' /\ e_id e' = e_id p) \/
  (~ alloc_output e' /\ e_amount e' = 0%Qc) \/
  (exists x, x ∈ d_exchanges ds /\ ~ is_refproduct x /\ e_id e' = e_id x /\
             blank_exchange e' = blank_exchange x).
Proof.
  intros Hu Hp Hr H He'. apply recalculate_spec in H as (m & Hm & es & ps & -> & Hes & _).
  cbn [d_exchanges set_d_params set_d_exchanges] in He'.
  apply elem_of_list_lookup in He' as (i & Hi).
  destruct (Forall2_lookup_r _ _ _ _ _ Hes Hi) as (e & He & Hb & Hq).
  pose proof (blank_fields _ _ Hb) as (B1 & B2 & _ & B4 & B5 & _).
  apply elem_of_list_lookup_2 in He. unfold subdivide in He.
  cbn [d_exchanges set_d_exchanges] in He. apply elem_of_cons in He as [->|He].
  { left. split; [|done]. unfold is_refproduct. by rewrite B4. }
  apply elem_of_app in He as [He|He].
  - right. left. pose proof He as He0. apply elem_of_list_fmap in He as (y & -> & Hy). split.
    { unfold alloc_output, alloc_byproduct, is_refproduct. rewrite B4. cbn. intros [[=]|[[=] _]]. }
    apply Forall2_cons_inv_l in Hq as (q & qs & Hq & _ & Hqq).
    unfold exchange_quantities in Hqq. injection Hqq as Hqq _. subst q.
    destruct Hq as (_ & _ & Hv). unfold q_val, q_form, q_var in Hv. cbn in Hv.
    destruct (e_variable y) as [n|] eqn:En; [|done].
    eapply environment_plain; [|exact Hm| |exact Hv].
    { apply subdivide_unique; [|done]. by apply elem_of_list_filter. }
    unfold quantities, subdivide. cbn [d_exchanges set_d_exchanges map concat].
    apply elem_of_app. left. apply elem_of_app. right. rewrite map_app, concat_app.
    apply elem_of_app. left. apply elem_of_list_In, in_concat.
    exists (exchange_quantities (nonreference_product y)). split.
    + apply elem_of_list_In. by apply elem_of_list_fmap_1.
    + left. unfold nonreference_product. cbn. by rewrite En.
  - rewrite nonrefs_filter in He. apply elem_of_list_filter in He as [Hn He].
    right. right. exists e. done.
Qed.

Lemma combined_single ln euler order eval ds outs :
  unique_variables ds -> Forall (fun e => ~ alloc_byproduct e) (d_exchanges ds) ->
  combined_production (recalculate ln euler order eval) ds = Ok outs -> Forall single_output outs.
Proof.
  intros Hu Hno H. pose proof (combined_production_spec _ _ _ _ _ _ Hu H) as HS.
  apply combined_spec_iff in H. apply Forall_lookup_2. intros i out Ho.
  destruct (Forall2_lookup_r _ _ _ _ _ HS Ho) as (p & Hp & part & m & _ & _ & _ & (rp & Hrp & _ & _ & _ & Ha) & _).
  destruct (Forall2_lookup_l _ _ _ _ _ H Hp) as (out' & Ho' & Hr). rewrite Ho in Ho'. injection Ho' as <-.
  apply elem_of_list_lookup_2 in Hp. apply elem_of_list_filter in Hp as [[Hpr Hpa] Hpin].
  assert (Hrr : is_refproduct rp /\ rp ∈ d_exchanges out).
  { rewrite <- elem_of_list_filter. rewrite Hrp. by left. }
  apply (single_output_filter _ rp); [|apply Hrr|by rewrite Ha].
  rewrite <- Hrp. apply list_filter_iff'. intros e He. split; [|by left].
  intros [Hx|Hx]; [done|].
  destruct (part_exchange _ _ _ _ _ _ _ _ Hu Hpin Hpr Hr He) as [[? _]|[[Hc _]|(x & Hx1 & _ & _ & Hb)]].
  - done.
  - exfalso. apply Hc. by right.
  - exfalso. rewrite Forall_forall in Hno. apply (Hno _ Hx1).
    apply blank_fields in Hb as (_ & _ & _ & B4 & B5 & _). unfold alloc_byproduct in *.
    by rewrite <- B4, <- B5.
Qed.

(** ** Combined production with by-products *)
Lemma piece_exchange ln euler order eval ds p part' ps c e x :
  unique_variables ds -> unique_ids ds -> p ∈ d_exchanges ds -> is_refproduct p ->
  recalculate ln euler order eval (subdivide ds p) = Ok part' ->
  economic_allocation ln part' = Ok ps -> c ∈ ps -> e ∈ d_exchanges c ->
  x ∈ d_exchanges ds -> alloc_output x -> e_id e = e_id x -> (0 <= e_amount e)%Qc.
Proof.
  intros Hu Hi Hp Hr Hrec He Hc Hin Hx Hal Hid.
  apply economic_allocation_spec in He as (_ & _ & Hpos & fs & _ & HF).
  apply elem_of_list_lookup in Hc as (i & Hc).
  destruct (Forall3_lookup_r _ _ _ _ _ _ HF Hc) as (q & f & Hq & _ & _ & Hs).
  rewrite Forall_lookup in Hpos. destruct (Hpos _ _ Hq) as (price & _ & _ & Hqa).
  destruct Hs as (k & rp' & dr & ot & [Hk _] & -> & Hm & Hd & Ho & _).
  cbn [d_exchanges set_d_exchanges] in Hin. apply elem_of_cons in Hin as [->|Hin].
  { destruct Hm as (_ & -> & _). apply Qclt_le_weak. by apply Qcmult_pos. }
  apply elem_of_app in Hin as [Hin|Hin]; apply elem_of_list_lookup in Hin as (j & Hj).
  - destruct (Forall2_lookup_r _ _ _ _ _ Hd Hj) as (y & _ & Hy). destruct Hy as (_ & -> & _).
    apply Qcle_refl.
  - destruct (Forall2_lookup_r _ _ _ _ _ Ho Hj) as (y & Hy & [Ha [Hyi _]]).
    apply elem_of_list_lookup_2 in Hy. apply elem_of_list_filter in Hy as [Hno Hy].
    assert (Hy0 : e_amount y = 0%Qc).
    { destruct (part_exchange _ _ _ _ _ _ _ _ Hu Hp Hr Hrec Hy) as [[Hc1 _]|[[_ Hc1]|(z & Hz & _ & Hzi & Hb)]].
      - exfalso. apply Hno. by left.
      - done.
      - exfalso. assert (z = x) as ->.
        { eapply (NoDup_map_inj e_id); [apply Hi|done|done|]. congruence. }
        apply Hno. by apply (blank_alloc _ _ Hb). }
    rewrite Ha, Hy0. rewrite Qcmult_0_l. apply Qcle_refl.
Qed.

Lemma piece_product ln euler order eval ds p part' ps c rp :
  unique_variables ds -> p ∈ d_exchanges ds -> is_refproduct p ->
  recalculate ln euler order eval (subdivide ds p) = Ok part' ->
  economic_allocation ln part' = Ok ps -> c ∈ ps ->
  rp ∈ d_exchanges c -> alloc_output rp ->
  (0 < e_amount rp)%Qc /\ exists x, x ∈ d_exchanges ds /\ alloc_output x /\ e_id rp = e_id x.
Proof.
  intros Hu Hp Hr Hrec He Hc Hin Hal.
  apply economic_allocation_spec in He as (_ & _ & Hpos & fs & _ & HF).
  apply elem_of_list_lookup in Hc as (i & Hc).
  destruct (Forall3_lookup_r _ _ _ _ _ _ HF Hc) as (q & f & Hq & _ & _ & Hs).
  rewrite Forall_lookup in Hpos. destruct (Hpos _ _ Hq) as (price & _ & _ & Hqa).
  destruct Hs as (k & rp' & dr & ot & [Hk _] & -> & Hm & Hd & Ho & Hf).
  assert (rp = rp') as ->.
  { assert (H : rp ∈ filter alloc_output (d_exchanges (set_d_exchanges (rp' :: dr ++ ot) part')))
      by (by apply elem_of_list_filter).
    rewrite Hf in H. by apply elem_of_list_singleton in H. }
  destruct Hm as (_ & -> & _ & _ & -> & _). split; [by apply Qcmult_pos|].
  apply elem_of_list_lookup_2 in Hq. apply elem_of_list_filter in Hq as [Hqal Hq].
  destruct (part_exchange _ _ _ _ _ _ _ _ Hu Hp Hr Hrec Hq) as [[_ Hc1]|[[Hc1 _]|(z & Hz & _ & Hzi & Hb)]].
  - exists p. split_and!; [done|by left|done].
  - done.
  - exists z. split_and!; [done| |done]. by apply (blank_alloc _ _ Hb).
Qed.

Lemma Qcsum_ge_nonneg l x : Forall (fun y => 0 <= y)%Qc l -> x ∈ l -> (x <= Qcsum l)%Qc.
Proof.
  induction 1 as [|y l Hy Hl IH]; intros Hx; [by apply elem_of_nil in Hx|].
  change (Qcsum (y :: l)) with (y + Qcsum l)%Qc.
  pose proof (Qcsum_nonneg _ Hl) as Hn. apply elem_of_cons in Hx as [->|Hx]; [qclra|].
  specialize (IH Hx). qclra.
Qed.

Lemma with_byproducts_single ln euler order eval ds outs :
  unique_variables ds -> unique_ids ds ->
  combined_production_with_byproducts ln (recalculate ln euler order eval) ds = Ok outs ->
  Forall single_output outs.
Proof.
  intros Hu Hi H. apply with_byproducts_spec in H as (parts & pieces & groups & Hparts & Hpieces & _ & Hperm & Hout & Hids); [|done].
  apply combined_spec_iff in Hparts.
  assert (Hmem : forall c, c ∈ concat pieces -> exists p part' ps, p ∈ d_exchanges ds /\ is_refproduct p /\
     recalculate ln euler order eval (subdivide ds p) = Ok part' /\ economic_allocation ln part' = Ok ps /\ c ∈ ps).
  { intros c Hc. apply elem_of_list_In, in_concat in Hc as (ps & Hps & Hc).
    apply elem_of_list_In in Hps, Hc. apply elem_of_list_lookup in Hps as (i & Hps).
    destruct (Forall2_lookup_r _ _ _ _ _ Hpieces Hps) as (part & Hpart & He).
    destruct (Forall2_lookup_r _ _ _ _ _ Hparts Hpart) as (p & Hp & Hr).
    apply elem_of_list_lookup_2 in Hp. apply elem_of_list_filter in Hp as [[Hp1 _] Hp2].
    exists p, part, ps. done. }
  eapply Forall2_Forall_r; [exact Hout|]. cbn [fst snd]. intros [n g] out Hg (Hne & Hprod & (rp & Hf & Hr & _) & [Hlook Hflow] & Hidout).
  cbn [fst snd] in *. apply (single_output_filter _ rp); [done|done|].
  assert (Hgsub : forall c, c ∈ g -> c ∈ concat pieces).
  { intros c Hc. rewrite <- Hperm. apply elem_of_list_In, in_concat. exists g. split; [|by apply elem_of_list_In].
    apply elem_of_list_In. by apply (elem_of_list_fmap_1 snd) in Hg. }
  destruct Hlook as (parent & es & Hhead & -> & Hes).
  destruct g as [|parent0 g]; [done|]. cbn in Hhead. injection Hhead as ->.
  assert (Hrpin : rp ∈ es /\ alloc_output rp).
  { assert (H : rp ∈ filter alloc_output es) by (cbn [d_exchanges set_d_exchanges] in Hf; rewrite Hf; by left).
    apply elem_of_list_filter in H. tauto. }
  destruct Hrpin as [Hrpin Hrpal]. pose proof Hrpin as Hrpin'. apply elem_of_list_lookup in Hrpin as (j & Hj).
  destruct (Forall2_lookup_r _ _ _ _ _ Hes Hj) as (rp0 & Hj0 & Hs0).
  apply elem_of_list_lookup_2 in Hj0.
  assert (Hparent : parent ∈ concat pieces) by (apply Hgsub; by left).
  destruct (Hmem _ Hparent) as (p & part' & ps & Hp & Hpr & Hrec & He & Hc).
  destruct (piece_product _ _ _ _ _ _ _ _ _ rp0 Hu Hp Hpr Hrec He Hc Hj0) as (Hpos & x & Hx & Hxal & Hxid).
  { by apply (alloc_output_same _ _ Hs0). }
  assert (Hidrp : e_id rp = e_id rp0) by (by destruct Hs0 as [? _]).
  assert (exists i, e_id x = Some i) as (i & Hxi).
  { destruct Hi as [_ Hi]. rewrite Forall_forall in Hi. specialize (Hi _ Hx). destruct (e_id x); [eauto|done]. }
  assert (Hval : e_amount rp = flow i (set_d_exchanges es parent)).
  { symmetry. apply flow_present; [rewrite Hidout; apply Hi|done|]. congruence. }
  rewrite Hval, Hflow.
  assert (Hfl0 : flow i parent = e_amount rp0).
  { apply flow_present; [|done|congruence]. rewrite Forall_forall in Hids. rewrite (Hids _ Hparent). apply Hi. }
  assert (Hge : (e_amount rp0 <= Qcsum (map (flow i) (parent :: g)))%Qc).
  { rewrite <- Hfl0. apply Qcsum_ge_nonneg; [|by left]. apply Forall_fmap, Forall_forall. intros c Hcin. cbn.
    unfold flow. apply Qcsum_nonneg. apply Forall_fmap, Forall_forall. intros e Hein. cbn.
    apply elem_of_list_filter in Hein as [Hei Hein].
    destruct (Hmem c) as (p1 & part1 & ps1 & Hp1 & Hpr1 & Hrec1 & He1 & Hc1).
    { apply Hgsub. done. }
    eapply (piece_exchange _ _ _ _ _ p1 part1 ps1 c e x); try done. congruence. }
  intros E. rewrite E in Hge. qclra.
Qed.

(** ** Datasets that need no allocation *)
Lemma single_product_single ds :
  n_products ds = 1 -> ~ has_byproduct ds -> single_output ds.
Proof.
  intros Hn Hb. unfold n_products in Hn. apply ActivityLinks_proofs.length_one in Hn as (rp & Hrp).
  exists rp. split.
  - rewrite <- Hrp. apply list_filter_iff'. intros e He. unfold produces. split; [|by intros [? ?]; split; [left|]].
    intros [[Hr|Hr] Ha]; [done|]. exfalso. apply Hb. apply Exists_exists. by exists e.
  - assert (H : rp ∈ filter produces (d_exchanges ds)) by (rewrite Hrp; by left).
    by apply elem_of_list_filter in H as [[? _] _].
Qed.
Lemma no_allocation_single ds outs :
  classified ds -> Forall (fun e => alloc_output e -> e_amount e <> 0%Qc) (d_exchanges ds) ->
  no_allocation ds = Ok outs -> outs = [ds] /\ single_output ds.
Proof.
  intros Hc Hnz H. unfold no_allocation in H. apply bind_Ok in H as (ds' & Hck & H). apply Ok_inj in H as <-.
  destruct (check_single_output_spec ds Hc) as [H1 H2].
  destruct (decide (length (filter is_refproduct (d_exchanges ds)) = 1)) as [Hl|Hl].
  2:{ rewrite H2 in Hck by tauto. done. }
  destruct (decide (Forall (fun e => ~ alloc_byproduct e) (d_exchanges ds))) as [Hb|Hb].
  2:{ rewrite H2 in Hck by tauto. done. }
  rewrite H1 in Hck by done. apply Ok_inj in Hck as <-. split; [done|].
  apply ActivityLinks_proofs.length_one in Hl as (rp & Hrp).
  assert (H : rp ∈ filter is_refproduct (d_exchanges ds)) by (rewrite Hrp; by left).
  apply elem_of_list_filter in H as [Hr Hin].
  apply (single_output_filter _ rp).
  - rewrite <- Hrp. apply list_filter_iff'. intros e He. split; [|by left]. intros [Hx|Hx]; [done|].
    exfalso. rewrite Forall_forall in Hb. by apply (Hb e).
  - done.
  - rewrite Forall_forall in Hnz. apply Hnz; [done|by left].
Qed.

(** ** All methods *)
Lemma allocated_single ln euler order eval ds outs :
  classified ds -> Forall (fun e => alloc_output e -> e_amount e <> 0%Qc) (d_exchanges ds) ->
  unique_ids ds -> unique_variables ds ->
  allocated ln (recalculate ln euler order eval) ds outs -> Forall single_output outs.
Proof.
  intros Hc Hnz Hi Hu (l & Hl & [[-> ->]|(f & Hf & H)]); apply choose_method in Hl.
  - constructor; [|constructor]. inversion Hl. by apply single_product_single.
  - unfold allocation_functions in Hf. set_unfold in Hf.
    destruct Hf as [E|[E|[E|[E|[E|[E|[E|[E|[E|[]]]]]]]]]]; injection E as -> ->.
    + apply no_allocation_single in H as [-> ?]; [by repeat constructor|done|done].
    + apply no_allocation_single in H as [-> ?]; [by repeat constructor|done|done].
    + by eapply economic_single.
    + done.
    + by eapply recycling_single.
    + by eapply waste_single.
    + by eapply without_products_single.
    + eapply combined_single; [done| |exact H]. inversion Hl.
      match goal with Hb : ~ has_byproduct ds |- _ => rename Hb into Hnb end.
      apply Forall_forall. intros e He Hal. apply Hnb. apply Exists_exists. exists e. split; [done|].
      split; [done|]. rewrite Forall_forall in Hnz. apply Hnz; [done|by right].
    + by eapply with_byproducts_single.
Qed.

(** ** C15: which function handles which dataset *)
Lemma allocated_handled ln recalc ds outs :
  classified ds ->
  allocated ln recalc ds outs <-> exists l, method_of ds l /\ handled ln recalc ds l outs.
Proof.
  intros Hc. unfold allocated. split.
  - intros (l & Hl & H). exists l. apply choose_method in Hl. split; [done|].
    destruct H as [[-> ->]|(f & Hf & H)]; [apply H_single|].
    unfold allocation_functions in Hf. set_unfold in Hf.
    destruct Hf as [E|[E|[E|[E|[E|[E|[E|[E|[E|[]]]]]]]]]]; injection E as -> ->.
    + by apply H_group.
    + by apply H_market.
    + by apply H_economic.
    + done.
    + by apply H_recycling.
    + by apply H_waste.
    + by apply H_without.
    + by apply H_combined.
    + by apply H_with.
  - intros (l & Hl & H). exists l. split; [by apply choose_method_iff|].
    destruct H as [|outs H|outs H|outs H|outs H|outs H|outs H|outs H|outs H]; [by left|..]; right;
      (eexists; split; [|exact H]); unfold allocation_functions; set_unfold; tauto.
Qed.

Lemma recalculate_blind ln euler order eval : label_blind (recalculate ln euler order eval).
Proof.
  intros x ds. unfold recalculate.
  change (environment order eval (set_d_alloc x ds)) with (environment order eval ds).
  destruct (environment order eval ds) as [m|]; cbn [bind fmapR]; [|done].
  unfold recalc_amounts. change (d_exchanges (set_d_alloc x ds)) with (d_exchanges ds).
  change (d_params (set_d_alloc x ds)) with (d_params ds).
  destruct (mapR (recalc_exchange eval m) (d_exchanges ds)) as [es|]; cbn [bind fmapR]; [|done].
  destruct (mapR (recalc_param eval m) (d_params ds)) as [qs|]; cbn [bind fmapR]; [|done].
  unfold repair_dataset. cbn [d_exchanges d_params set_d_params set_d_exchanges].
  destruct (mapR (repair_exchange ln euler) es) as [es'|]; cbn [bind fmapR]; [|done].
  destruct (mapR (repair_param ln euler) qs) as [qs'|]; cbn [bind fmapR]; done.
Qed.

Lemma cutoff_allocation_handled ln euler order eval data outs :
  Forall classified data -> Forall (fun d => d_alloc d = None) data ->
  cutoff_allocation ln (recalculate ln euler order eval) data = Ok outs <->
  exists outss, outs = concat outss /\
    Forall2 (fun ds os => exists l, method_of ds l /\
               handled ln (recalculate ln euler order eval) ds l os) data outss.
Proof.
  intros Hc Hn. rewrite (cutoff_allocation_spec _ _ _ _ (recalculate_blind ln euler order eval) Hn).
  assert (HF : forall outss, Forall2 (allocated ln (recalculate ln euler order eval)) data outss <->
    Forall2 (fun ds os => exists l, method_of ds l /\
               handled ln (recalculate ln euler order eval) ds l os) data outss).
  { intros outss. clear outs Hn. revert outss. induction data as [|d data IH]; intros outss.
    - split; intros H; apply Forall2_nil_inv_l in H as ->; constructor.
    - apply Forall_cons in Hc as [Hd Hc].
      split; intros H; apply Forall2_cons_inv_l in H as (o & os & H1 & H2 & ->); constructor;
        try (by apply IH); by apply allocated_handled. }
  by setoid_rewrite HF.
Qed.

Lemma cutoff_allocation_constrained ln euler order eval data ds :
  Forall classified data -> Forall (fun d => d_alloc d = None) data ->
  ds ∈ data -> method_of ds "constrained market" ->
  forall outs, cutoff_allocation ln (recalculate ln euler order eval) data <> Ok outs.
Proof.
  intros Hc Hn Hin Hm outs H. apply cutoff_allocation_handled in H as (outss & _ & HF); [|done|done].
  apply elem_of_list_lookup in Hin as (i & Hi).
  destruct (Forall2_lookup_l _ _ _ _ _ HF Hi) as (os & _ & l & Hl & Hh).
  pose proof (method_unique _ _ _ Hl Hm) as E.
  subst l. inversion Hh.
Qed.

Lemma cutoff_allocation_single ln euler order eval data outs :
  Forall (fun ds => d_alloc ds = None /\ classified ds /\ unique_ids ds /\ unique_variables ds /\
            Forall (fun e => alloc_output e -> e_amount e <> 0%Qc) (d_exchanges ds)) data ->
  cutoff_allocation ln (recalculate ln euler order eval) data = Ok outs ->
  Forall single_output outs.
Proof.
  intros Hd H. apply cutoff_allocation_spec in H as (outss & -> & HF).
  - apply Forall_concat'. eapply Forall2_Forall_r; [exact HF|]. intros ds os Hin Ha.
    rewrite Forall_forall in Hd. destruct (Hd _ Hin) as (_ & H1 & H2 & H3 & H4).
    by eapply allocated_single.
  - apply recalculate_blind.
  - eapply Forall_impl; [exact Hd|]. by intros ? [? _].
Qed.

(** ** C17: the parts satisfy their own formulas *)
Lemma subdivide_no_empty ds p :
  p ∈ d_exchanges ds ->
  Forall (fun q => q_form q <> Some ""%string) (quantities ds) ->
  Forall (fun q => q_form q <> Some ""%string) (quantities (subdivide ds p)).
Proof.
  intros Hp H. rewrite Forall_forall in H. apply Forall_forall. intros q Hq.
  unfold quantities, subdivide in Hq. cbn [d_exchanges set_d_exchanges d_params] in Hq.
  apply elem_of_app in Hq as [Hq|Hq]; [|apply H; unfold quantities; apply elem_of_app; by right].
  assert (Hsub : forall e, e ∈ d_exchanges ds -> forall q, q ∈ exchange_quantities e ->
            q_form q <> Some ""%string).
  { intros e He q' Hq'. apply H. unfold quantities. apply elem_of_app. left.
    apply elem_of_list_In, in_concat. exists (exchange_quantities e). split; apply elem_of_list_In; [|done].
    by apply elem_of_list_fmap_1. }
  apply elem_of_list_In, in_concat in Hq as (qs & Hqs & Hq). apply elem_of_list_In in Hqs, Hq.
  apply elem_of_list_fmap in Hqs as (e & -> & He). apply elem_of_cons in He as [->|He].
  { unfold exchange_quantities, selected_product, remove_exchange_uncertainty in Hq. cbn in Hq.
    apply elem_of_cons in Hq as [->|Hq]; [done|]. apply (Hsub _ Hp). unfold exchange_quantities. by right. }
  apply elem_of_app in He as [He|He].
  - apply elem_of_list_fmap in He as (y & -> & Hy). rewrite others_filter, reference_products_filter in Hy.
    apply elem_of_list_filter in Hy as [_ Hy]. apply elem_of_list_filter in Hy as [_ Hy].
    unfold exchange_quantities, nonreference_product, remove_exchange_uncertainty in Hq. cbn in Hq.
    apply elem_of_cons in Hq as [->|Hq]; [done|]. apply (Hsub _ Hy). unfold exchange_quantities.
    right. apply elem_of_app. by right.
  - rewrite nonrefs_filter in He. apply elem_of_list_filter in He as [_ He]. by apply (Hsub _ He).
Qed.

Lemma combined_solves uses ln euler order eval ds outs :
  (forall m1 m2 f, (forall x, x ∈ uses f -> m1 !! x = m2 !! x) -> eval m1 f = eval m2 f) ->
  orders_by uses order ->
  unique_variables ds -> Forall (fun q => q_form q <> Some ""%string) (quantities ds) ->
  combined_production (recalculate ln euler order eval) ds = Ok outs ->
  Forall (fun out => exists m,
    (forall n x, m !! n = Some x <-> exists f, (Some n, f, x) ∈ quantities out) /\
    Forall (fun q => forall f, q_form q = Some f -> formula_value eval m f (q_val q))
      (quantities out)) outs.
Proof.
  intros Hloc Hord Hu Hne H. apply combined_spec_iff in H. eapply Forall2_Forall_r; [exact H|].
  intros p out Hp Hr. apply elem_of_list_filter in Hp as [[Hp1 _] Hp2].
  assert (exists keys, order (extract_named_parameters (subdivide ds p)) = Ok keys) as (keys & Hk).
  { unfold recalculate, environment in Hr. apply bind_Ok in Hr as (m & Hm & _).
    apply bind_Ok in Hm as (keys & Hk & _). eauto. }
  destruct (recalculate_solves uses ln euler order eval (subdivide ds p) out keys Hloc Hk (Hord _ _ Hk))
    as (m & H1 & H2 & _).
  - apply subdivide_unique; [|done]. by apply elem_of_list_filter.
  - by apply subdivide_no_empty.
  - exact Hr.
  - exists m. done.
Qed.
