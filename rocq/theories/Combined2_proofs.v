(** Proofs about merging by-products (C18). *)
From Verif Require Import Base Types Uncertainty Spec_Uncertainty Uncertainty_proofs
  Utils Spec_Utils Utils_proofs Validation Validation_proofs Strings Grouping
  Recalculation Spec_Recalculation Recalculation_proofs
  Cutoff Spec_Cutoff Cutoff_proofs Spec_Allocation Allocation_proofs Allocation2_proofs
  Spec_Combined Combined_proofs.

(** ** Ids of the parts *)
Lemma filter_all {A} (P : A -> Prop) `{forall x, Decision (P x)} (l : list A) :
  Forall P l -> filter P l = l.
Proof. induction 1; [done|]. rewrite filter_cons_True by done. by f_equal. Qed.

Lemma NoDup_take_out {A} `{EqDecision A} (x : A) (l : list A) :
  NoDup l -> x ∈ l -> x :: filter (fun y => y <> x) l ≡ₚ l.
Proof.
  induction 1 as [|y l Hy Hl IH]; intros Hx; [by apply elem_of_nil in Hx|].
  destruct (decide (y = x)) as [->|Hne].
  - rewrite filter_cons_False by tauto. rewrite filter_all; [done|].
    apply Forall_forall. intros z Hz ->. done.
  - rewrite filter_cons_True by done. rewrite (Permutation_swap y x).
    apply elem_of_cons in Hx as [->|Hx]; [done|]. by rewrite IH.
Qed.

Lemma Forall2_ids (R : exchange -> exchange -> Prop) l k :
  (forall e e', R e e' -> e_id e' = e_id e) -> Forall2 R l k -> map e_id k = map e_id l.
Proof. intros HR. induction 1 as [|e e' l k H1 _ IH]; [done|]. cbn. by rewrite (HR _ _ H1), IH. Qed.

Lemma split_ids ds p part :
  unique_ids ds -> p ∈ d_exchanges ds -> is_refproduct p -> split_for ds p part ->
  exchange_ids part ≡ₚ exchange_ids ds.
Proof.
  intros [Hu _] Hp Hr (p' & dropped & -> & -> & Hd). unfold exchange_ids.
  cbn [d_exchanges set_d_exchanges map]. rewrite map_app.
  rewrite (Forall2_ids dropped_from _ _) by (try exact Hd; unfold dropped_from; tauto).
  rewrite <- map_app. change (e_id (set_e_unc _ _)) with (e_id p).
  rewrite <- map_cons. apply Permutation_map.
  assert (Hnd : NoDup (d_exchanges ds)) by (by apply NoDup_fmap_1 in Hu).
  change (p :: ?a ++ ?b) with ((p :: a) ++ b).
  rewrite NoDup_take_out.
  - apply filter_partition.
  - by apply NoDup_filter.
  - by apply elem_of_list_filter.
Qed.

Lemma revalued_ids eval m ds ds' :
  dataset_revalued eval m ds ds' -> exchange_ids ds' = exchange_ids ds.
Proof.
  intros (es & ps & -> & He & _). unfold exchange_ids. cbn [d_exchanges set_d_params set_d_exchanges].
  eapply Forall2_ids; [|exact He]. intros e e' [Hb _]. by apply blank_fields in Hb as [? _].
Qed.

Lemma single_output_ids ds p f out :
  NoDup (exchange_ids ds) -> p ∈ filter alloc_output (d_exchanges ds) ->
  single_output_of ds p f out -> exchange_ids out ≡ₚ exchange_ids ds.
Proof.
  intros Hu Hp (k & rp' & dropped & others & _ & -> & Hm & Hd & Ho & _). unfold exchange_ids.
  cbn [d_exchanges set_d_exchanges map]. rewrite map_app.
  rewrite (Forall2_ids dropped_from _ _) by (try exact Hd; unfold dropped_from; tauto).
  rewrite (Forall2_ids (scaled_by (f * k)) _ others) by (try exact Ho; by intros e e' [_ [? _]]).
  rewrite <- map_app. destruct Hm as (_ & _ & _ & _ & -> & _).
  rewrite <- map_cons. apply Permutation_map.
  assert (Hnd : NoDup (d_exchanges ds)) by (by apply NoDup_fmap_1 in Hu).
  change (p :: ?a ++ ?b) with ((p :: a) ++ b).
  rewrite NoDup_take_out; [apply filter_partition| |done].
  by apply NoDup_filter.
Qed.

(** ** Flows *)
Lemma NoDup_map_inj {A B} (f : A -> B) l x y :
  NoDup (map f l) -> x ∈ l -> y ∈ l -> f x = f y -> x = y.
Proof.
  induction l as [|z l IH]; intros Hu Hx Hy E; [by apply elem_of_nil in Hx|].
  cbn in Hu. apply NoDup_cons in Hu as [Hz Hu].
  apply elem_of_cons in Hx as [->|Hx]; apply elem_of_cons in Hy as [->|Hy].
  - done.
  - exfalso. apply Hz. rewrite E. by apply elem_of_list_fmap_1.
  - exfalso. apply Hz. rewrite <- E. by apply elem_of_list_fmap_1.
  - by apply IH.
Qed.

Lemma flow_none i es :
  Some i ∉ map e_id es -> filter (fun e => e_id e = Some i) es = [].
Proof.
  intros H. apply filter_none. apply Forall_forall. intros e He Hi. apply H.
  rewrite <- Hi. by apply elem_of_list_fmap_1.
Qed.
Lemma flow_one i es e :
  NoDup (map e_id es) -> e ∈ es -> e_id e = Some i ->
  filter (fun e => e_id e = Some i) es = [e].
Proof.
  induction es as [|x es IH]; intros Hu He Hi; [by apply elem_of_nil in He|].
  cbn in Hu. apply NoDup_cons in Hu as [Hx Hu].
  apply elem_of_cons in He as [->|He].
  - rewrite filter_cons_True by done. rewrite Hi in Hx. by rewrite flow_none.
  - rewrite filter_cons_False; [by apply IH|]. intros E. apply Hx. rewrite E, <- Hi.
    by apply elem_of_list_fmap_1.
Qed.
Lemma flow_absent i ds : Some i ∉ exchange_ids ds -> flow i ds = 0%Qc.
Proof. intros H. unfold flow. by rewrite flow_none. Qed.
Lemma flow_present i ds e :
  NoDup (exchange_ids ds) -> e ∈ d_exchanges ds -> e_id e = Some i -> flow i ds = e_amount e.
Proof. intros H1 H2 H3. unfold flow. rewrite (flow_one _ _ _ H1 H2 H3). cbn. qclra. Qed.

Lemma amount_by_id_none es i : Some i ∉ map e_id es -> amount_by_id es i = None.
Proof.
  induction es as [|e es IH]; intros H; [done|]. cbn in *. apply not_elem_of_cons in H as [H1 H2].
  rewrite (IH H2). by rewrite bool_decide_eq_false_2 by congruence.
Qed.
Lemma amount_by_id_some es i e :
  NoDup (map e_id es) -> e ∈ es -> e_id e = Some i -> amount_by_id es i = Some (e_amount e).
Proof.
  induction es as [|x es IH]; intros Hu He Hi; [by apply elem_of_nil in He|].
  cbn in Hu. apply NoDup_cons in Hu as [Hx Hu]. cbn.
  apply elem_of_cons in He as [->|He].
  - rewrite amount_by_id_none by (rewrite <- Hi; done). by rewrite bool_decide_eq_true_2.
  - by rewrite (IH Hu He Hi).
Qed.
Lemma amount_by_id_flow ds i :
  NoDup (exchange_ids ds) -> default 0%Qc (amount_by_id (d_exchanges ds) i) = flow i ds.
Proof.
  intros Hu. destruct (decide (Some i ∈ exchange_ids ds)) as [Hi|Hi].
  - unfold exchange_ids in Hi. apply elem_of_list_fmap in Hi as (e & Hi & He).
    rewrite (amount_by_id_some _ _ e) by done. by rewrite (flow_present _ _ e).
  - rewrite amount_by_id_none by done. by rewrite flow_absent.
Qed.

Lemma add_exchange_spec others e e' :
  add_exchange others e = Ok e' ->
  same_besides_amount_uncertainty e e' /\
  exists i, e_id e = Some i /\ e_amount e' = (e_amount e + default 0 (amount_by_id others i))%Qc.
Proof.
  unfold add_exchange. intros H. apply bind_Ok in H as (i & Hi & H).
  apply Ok_inj in H as <-. destruct (e_id e) as [j|] eqn:Ei; cbn in Hi; [|done].
  injection Hi as ->. case_bool_decide; (split; [|exists i; done]);
    unfold same_besides_amount_uncertainty; cbn; rewrite ?Ei; repeat split.
Qed.

Lemma add_exchanges_spec to from to' :
  NoDup (exchange_ids to) -> exchange_ids to ≡ₚ exchange_ids from ->
  add_exchanges to from = Ok to' ->
  (exists es, to' = set_d_exchanges es to /\
     Forall2 same_besides_amount_uncertainty (d_exchanges to) es) /\
  forall i, flow i to' = (flow i to + flow i from)%Qc.
Proof.
  intros Hu Hp H. unfold add_exchanges in H. apply bind_Ok in H as (u & _ & H).
  apply bind_Ok in H as (es & Hes & H). apply Ok_inj in H as <-.
  apply mapR_Ok in Hes. split.
  - exists es. split; [done|]. eapply Forall2_impl; [exact Hes|]. intros e e' H.
    by apply add_exchange_spec in H as [? _].
  - assert (Hids : map e_id es = exchange_ids to).
    { eapply Forall2_ids; [|exact Hes]. intros e e' H. by apply add_exchange_spec in H as [[? _] _]. }
    intros i. destruct (decide (Some i ∈ exchange_ids to)) as [Hi|Hi].
    + pose proof Hi as Hi'. unfold exchange_ids in Hi. apply elem_of_list_fmap in Hi as (e & Hi & He).
      pose proof He as He'. apply elem_of_list_lookup in He as (k & Hk).
      destruct (Forall2_lookup_l _ _ _ _ _ Hes Hk) as (e' & Hk' & H).
      apply add_exchange_spec in H as [Hs (j & Hj & Ha)].
      rewrite (flow_present i to e) by done.
      rewrite (flow_present i (set_d_exchanges es to) e').
      * rewrite Ha. rewrite Hj in Hi. injection Hi as <-. f_equal. apply amount_by_id_flow.
        by rewrite <- Hp.
      * unfold exchange_ids. cbn [d_exchanges set_d_exchanges]. by rewrite Hids.
      * cbn [d_exchanges set_d_exchanges]. by eapply elem_of_list_lookup_2.
      * destruct Hs as [Hs _]. by rewrite Hs.
    + rewrite !flow_absent; [qclra| |done|].
      * by rewrite <- Hp.
      * unfold exchange_ids. cbn [d_exchanges set_d_exchanges]. by rewrite Hids.
Qed.

Lemma merge_group_spec ids group out :
  NoDup ids -> Forall (fun d => exchange_ids d ≡ₚ ids) group ->
  merge_group group = Ok out -> merges group out /\ exchange_ids out ≡ₚ ids.
Proof.
  intros Hu HF H. destruct group as [|parent children]; [done|]. cbn in H.
  apply Forall_cons in HF as [Hp HF].
  assert (Hgen : forall acc, exchange_ids acc ≡ₚ ids -> foldR add_exchanges acc children = Ok out ->
    (exists es, out = set_d_exchanges es acc /\
       Forall2 same_besides_amount_uncertainty (d_exchanges acc) es) /\
    (forall i, flow i out = flow i acc + Qcsum (map (flow i) children))%Qc /\
    exchange_ids out ≡ₚ ids).
  { clear H Hp. induction children as [|c children IH]; intros acc Hacc H; cbn in H.
    - apply Ok_inj in H as <-. split_and!; [|intros i; cbn; qclra|done].
      exists (d_exchanges acc). split; [by destruct acc|].
      apply Forall_Forall2_diag. apply Forall_forall. intros e _. apply same_besides_refl.
    - apply bind_Ok in H as (acc' & H1 & H). apply Forall_cons in HF as [Hc HF].
      apply add_exchanges_spec in H1 as ((es & -> & He) & Hfl); [|by rewrite Hacc|by rewrite Hacc].
      apply (IH HF) in H as ((es' & -> & He') & Hfl' & Hid).
      2:{ unfold exchange_ids. cbn [d_exchanges set_d_exchanges].
          rewrite (Forall2_ids same_besides_amount_uncertainty _ _) by (try exact He; by intros ?? [? _]).
          done. }
      cbn [d_exchanges set_d_exchanges] in He'. split_and!.
      + exists es'. split; [done|]. clear -He He'. revert es' He'.
        induction He as [|x y l k Hxy _ IH]; intros es' He'.
        * apply Forall2_nil_inv_l in He' as ->. constructor.
        * apply Forall2_cons_inv_l in He' as (z & es'' & Hz & He' & ->). constructor; [|by apply IH].
          by eapply same_besides_trans.
      + intros i. rewrite Hfl', Hfl. unfold Qcsum. cbn [map foldr]. ring.
      + done. }
  apply (Hgen parent Hp) in H as ((es & -> & He) & Hfl & Hid). split; [|done]. split.
  - exists parent, es. done.
  - intros i. rewrite Hfl. done.
Qed.

(** ** Grouping *)
Lemma grouper_ok ds n rp :
  filter alloc_output (d_exchanges ds) = [rp] -> e_name rp = n ->
  forall k, activity_grouper ds = Ok k -> k = (d_name ds, [n]).
Proof.
  intros Hf <- k H. unfold activity_grouper, extract_products_as_tuple in H.
  apply bind_Ok in H as (ps & Hps & [= <-]). apply bind_Ok in Hps as (es & Hes & [= <-]).
  apply allocatable_production_ok in Hes as [_ ->]. rewrite Hf. done.
Qed.

Lemma merge_byproducts_spec ids dname data outs :
  NoDup ids -> Forall (fun d => exchange_ids d ≡ₚ ids) data ->
  Forall (fun d => d_name d = dname /\ exists n, product_of n d) data ->
  merge_byproducts data = Ok outs ->
  exists groups, NoDup (map fst groups) /\ concat (map snd groups) ≡ₚ data /\
    Forall2 (fun ng out => ng.2 <> [] /\ Forall (product_of ng.1) ng.2 /\ product_of ng.1 out /\
                           merges ng.2 out /\ exchange_ids out ≡ₚ ids) groups outs.
Proof.
  intros Hids Hdata Hn H. unfold merge_byproducts in H. apply bind_Ok in H as (u & _ & H).
  apply bind_Ok in H as (keyed & Hk & H). apply mapR_Ok in Hk, H.
  pose proof (groupby_spec keyed) as (Hnd & Hkeys & Hin).
  pose proof (groupby_perm keyed) as Hperm.
  assert (Hsnd : map snd keyed = data).
  { clear -Hk. induction Hk as [|d kd l k Hd _ IH]; [done|]. apply bind_Ok in Hd as (k0 & _ & [= <-]).
    cbn. by rewrite IH. }
  assert (Hkey : Forall (fun kd => exists n, kd.1 = (dname, [n]) /\ product_of n kd.2) keyed).
  { clear -Hk Hn. induction Hk as [|d kd l k Hd _ IH]; [constructor|].
    apply Forall_cons in Hn as [(Hdn & n & rp & Hf & Hr & Hrn) Hn]. constructor; [|by apply IH].
    apply bind_Ok in Hd as (k0 & Hk0 & [= <-]). cbn.
    eapply grouper_ok in Hk0 as ->; [|exact Hf|exact Hrn]. rewrite Hdn. exists n. split; [done|].
    by exists rp. }
  set (nm := fun k : string * list string => hd ""%string k.2).
  exists (map (fun g => (nm g.1, g.2)) (groupby keyed)).
  assert (Hgrp : Forall (fun g => exists n, g.1 = (dname, [n]) /\ g.2 <> [] /\ Forall (product_of n) g.2 /\
                   g.2 ⊆ data) (groupby keyed)).
  { apply Forall_forall. intros [k xs] Hg. apply Hin in Hg as [Hk1 ->]. cbn.
    pose proof (with_key_nonempty _ _ Hk1) as Hne.
    apply elem_of_list_fmap in Hk1 as ([k' d'] & -> & Hk1). cbn in *.
    rewrite Forall_forall in Hkey. destruct (Hkey _ Hk1) as (n & Hn1 & _). cbn in Hn1. subst k'.
    exists n. split_and!; [done|done| |].
    - apply Forall_forall. intros d Hd. unfold with_key in Hd.
      apply elem_of_list_fmap in Hd as ([k2 d2] & -> & Hd). apply elem_of_list_filter in Hd as [E Hd].
      cbn in E. subst k2. destruct (Hkey _ Hd) as (n2 & [= <-] & Hp). done.
    - intros d Hd. unfold with_key in Hd. apply elem_of_list_fmap in Hd as ([k2 d2] & -> & Hd).
      apply elem_of_list_filter in Hd as [_ Hd]. rewrite <- Hsnd. by apply (elem_of_list_fmap_1 snd) in Hd. }
  split_and!.
  - rewrite map_map. cbn. clear -Hnd Hgrp. induction (groupby keyed) as [|g gs IH]; [constructor|].
    cbn in *. apply NoDup_cons in Hnd as [Hg Hnd]. apply Forall_cons in Hgrp as [(n & Hgn & _) Hgrp].
    constructor; [|by apply IH]. intros Hc. apply Hg. apply elem_of_list_fmap in Hc as (g' & E & Hg').
    rewrite Forall_forall in Hgrp. destruct (Hgrp _ Hg') as (n' & Hn' & _).
    unfold nm in E. rewrite Hgn, Hn' in E. cbn in E. subst n'. rewrite Hgn, <- Hn'.
    by apply elem_of_list_fmap_1.
  - rewrite map_map. cbn. rewrite Hperm. by rewrite Hsnd.
  - apply Forall2_fmap_l.
    apply Forall2_same_length_lookup. split; [by eapply Forall2_length|]. intros i g out Hi Ho.
    destruct (Forall2_lookup_l _ _ _ _ _ H Hi) as (out' & Ho' & Hm). rewrite Ho in Ho'.
    injection Ho' as <-. rewrite Forall_lookup in Hgrp.
    destruct (Hgrp _ _ Hi) as (n & Hgn & Hne & Hprod & Hsub). destruct g as [k xs]. cbn in Hgn, Hne, Hprod, Hsub, Hm. subst k.
    change (nm (dname, [n], xs).1) with n. unfold compose; cbn [fst snd]; change (nm (dname, [n])) with n.
    apply (merge_group_spec ids) in Hm as [Hm Hidm]; [|done|].
    2:{ apply Forall_forall. intros d Hd. apply Hsub in Hd. rewrite Forall_forall in Hdata. by apply Hdata. }
    split_and!; [done|done| |done|done].
    destruct Hm as ((parent & es & Hhead & -> & Hes) & _).
    destruct xs as [|parent' children]; [done|]. cbn in Hhead. injection Hhead as ->.
    apply Forall_cons in Hprod as [(rp & Hf & Hr & Hrn) _].
    apply (filter_Forall2 alloc_output) in Hes; [|intros e e' He; symmetry; by apply alloc_output_same].
    cbn [d_exchanges set_d_exchanges]. rewrite Hf in Hes.
    apply Forall2_cons_inv_l in Hes as (rp' & l & Hs & Hl & Hfe). apply Forall2_nil_inv_l in Hl as ->.
    exists rp'. split_and!; [done| |].
    + by apply (is_refproduct_same _ _ Hs).
    + destruct Hs as (_ & -> & _). done.
Qed.

(** ** The whole function *)
Lemma revalued_name eval m ds ds' : dataset_revalued eval m ds ds' -> d_name ds' = d_name ds.
Proof. by intros (es & ps & -> & _). Qed.
Lemma split_name ds p part : split_for ds p part -> d_name part = d_name ds.
Proof. by intros (p' & dr & -> & _). Qed.

Lemma with_byproducts_spec ln euler order eval ds outs :
  unique_ids ds ->
  combined_production_with_byproducts ln (recalculate ln euler order eval) ds = Ok outs ->
  exists parts pieces groups,
    combined_production (recalculate ln euler order eval) ds = Ok parts /\
    Forall2 (fun part ps => economic_allocation ln part = Ok ps) parts pieces /\
    NoDup (map fst groups) /\ concat (map snd groups) ≡ₚ concat pieces /\
    Forall2 (fun ng out => ng.2 <> [] /\ Forall (product_of ng.1) ng.2 /\ product_of ng.1 out /\
                           merges ng.2 out /\ exchange_ids out ≡ₚ exchange_ids ds) groups outs /\
    Forall (fun c => exchange_ids c ≡ₚ exchange_ids ds) (concat pieces).
Proof.
  intros Hu H. unfold combined_production_with_byproducts in H.
  apply bind_Ok in H as (parts & Hparts & H). apply bind_Ok in H as (new & Hnew & H).
  apply concat_mapR_Ok in Hnew as (pieces & -> & Hpieces).
  assert (Hp : Forall (fun part => exchange_ids part ≡ₚ exchange_ids ds /\ d_name part = d_name ds) parts).
  { apply combined_spec in Hparts. apply Forall_lookup_2. intros i part Hi.
    destruct (Forall2_lookup_r _ _ _ _ _ Hparts Hi) as (p & Hpi & pre & Hsplit & Hr).
    apply recalculate_spec in Hr as (m & _ & Hrev).
    apply elem_of_list_lookup_2 in Hpi. apply elem_of_list_filter in Hpi as [[Hr _] Hpi].
    rewrite (revalued_ids _ _ _ _ Hrev), (revalued_name _ _ _ _ Hrev).
    split; [by eapply split_ids|by eapply split_name]. }
  assert (Hc : Forall (fun c => exchange_ids c ≡ₚ exchange_ids ds /\ d_name c = d_name ds /\
                                exists n, product_of n c) (concat pieces)).
  { clear -Hpieces Hp Hu. induction Hpieces as [|part ps l k He _ IH]; [constructor|].
    apply Forall_cons in Hp as [[Hi Hname] Hp]. cbn [concat]. apply Forall_app. split; [|by apply IH].
    clear IH. apply economic_allocation_spec in He as (_ & _ & _ & fs & _ & HF).
    apply Forall_lookup_2. intros i out Ho.
    destruct (Forall3_lookup_r _ _ _ _ _ _ HF Ho) as (p & f & Hpi & _ & _ & Hs).
    apply elem_of_list_lookup_2 in Hpi. pose proof Hs as Hs'.
    apply single_output_ids in Hs; [|rewrite Hi; apply Hu|done].
    split; [by rewrite Hs|]. destruct Hs' as (? & rp' & ? & ? & _ & -> & Hm & _ & _ & Hfil).
    split; [by cbn|]. exists (e_name rp'), rp'. split_and!; [done| |done].
    by destruct Hm as [? _]. }
  destruct (merge_byproducts_spec (exchange_ids ds) (d_name ds) (concat pieces) outs) as
    (groups & H1 & H2 & H3).
  - apply Hu.
  - eapply Forall_impl; [exact Hc|]. by intros ? [? _].
  - eapply Forall_impl; [exact Hc|]. by intros ? [_ [? ?]].
  - done.
  - exists parts, pieces, groups. split_and!; try done.
    eapply Forall_impl; [exact Hc|]. by intros ? [? _].
Qed.
