(** Proofs about the allocation step as a whole (C15). *)
From Verif Require Import Base Types Uncertainty Spec_Uncertainty Uncertainty_proofs
  Utils Spec_Utils Utils_proofs Validation Validation_proofs Strings Grouping
  Cutoff Spec_Cutoff Cutoff_proofs Spec_Allocation Allocation_proofs.

Lemma fmapR_comp {A B C} (f : A -> B) (g : B -> C) r :
  fmapR g (fmapR f r) = fmapR (fun x => g (f x)) r.
Proof. by destruct r. Qed.
Lemma bind_fmapR {A B C} (f : A -> B) (g : B -> result C) r :
  bind (fmapR f r) g = bind r (fun x => g (f x)).
Proof. by destruct r. Qed.
Lemma fmapR_bind {A B C} (f : A -> result B) (g : B -> C) r :
  fmapR g (bind r f) = bind r (fun x => fmapR g (f x)).
Proof. by destruct r. Qed.
Lemma bind_ext {A B} (f g : A -> result B) r :
  (forall x, f x = g x) -> bind r f = bind r g.
Proof. intros H. destruct r; cbn; auto. Qed.
Lemma mapR_fmap {A B C} (f : A -> result B) (g : B -> C) l :
  mapR (fun x => fmapR g (f x)) l = fmapR (map g) (mapR f l).
Proof.
  induction l as [|x l IH]; [done|]. cbn. destruct (f x); cbn; [|done]. rewrite IH.
  by destruct (mapR f l).
Qed.
Lemma mapR_map {A B C} (f : B -> result C) (g : A -> B) l :
  mapR f (map g l) = mapR (fun x => f (g x)) l.
Proof. induction l as [|x l IH]; [done|]. cbn. by rewrite IH. Qed.
Lemma concat_mapR_map {A B C} (f : B -> result (list C)) (g : A -> B) l :
  concat_mapR f (map g l) = concat_mapR (fun x => f (g x)) l.
Proof. unfold concat_mapR. by rewrite mapR_map. Qed.
Lemma concat_mapR_fmap {A B C} (f : A -> result (list B)) (g : B -> C) l :
  concat_mapR (fun x => fmapR (map g) (f x)) l = fmapR (map g) (concat_mapR f l).
Proof.
  unfold concat_mapR. rewrite mapR_fmap, !fmapR_comp. destruct (mapR f l); cbn; [|done].
  by rewrite concat_map.
Qed.

Lemma normalize_blind ln : label_blind (normalize_reference_production_amount ln).
Proof.
  intros x ds. unfold normalize_reference_production_amount.
  change (get_single_reference_product (set_d_alloc x ds)) with (get_single_reference_product ds).
  destruct (get_single_reference_product ds) as [rp|]; cbn [bind fmapR]; [|done].
  destruct (negb _); [done|]. destruct (divR _ _); cbn [bind fmapR]; [|done].
  destruct (Qcltb _ _); [|done].
  change (d_exchanges (set_d_alloc x ds)) with (d_exchanges ds).
  by destruct (scale_all _ _ _).
Qed.
Lemma choose_blind ln p f :
  label_blind (fun ds => choose_reference_product_exchange ln ds p f).
Proof.
  intros x ds. unfold choose_reference_product_exchange. destruct (negb _); [done|].
  change (allocatable_production (set_d_alloc x ds)) with (allocatable_production ds).
  change (nonproduction_exchanges (set_d_alloc x ds)) with (nonproduction_exchanges ds).
  destruct (allocatable_production ds); cbn [bind fmapR]; [|done].
  destruct (nonproduction_exchanges ds); cbn [bind fmapR]; [|done].
  destruct (scale_all _ _ _); cbn [bind fmapR]; [|done].
  apply (normalize_blind ln x (set_d_exchanges _ ds)).
Qed.
Lemma economic_blind ln : label_blind_list (economic_allocation ln).
Proof.
  intros x ds. unfold economic_allocation.
  change (valid_economic_activity (set_d_alloc x ds)) with (valid_economic_activity ds).
  change (allocatable_production (set_d_alloc x ds)) with (allocatable_production ds).
  destruct (valid_economic_activity ds); cbn [bind fmapR]; [|done].
  destruct (allocatable_production ds); cbn [bind fmapR]; [|done].
  destruct (economic_factors _); cbn [bind fmapR]; [|done].
  unfold apply_allocation_factors. rewrite <- mapR_fmap. apply mapR_ext. intros fe _.
  apply (choose_blind ln fe.2 fe.1).
Qed.
Lemma flip_blind ln : label_blind (flip_reference_product ln).
Proof.
  intros x ds. unfold flip_reference_product.
  change (d_exchanges (set_d_alloc x ds)) with (d_exchanges ds). by destruct (mapR _ _).
Qed.
Lemma recycling_blind ln : label_blind_list (recycling_allocation ln).
Proof.
  intros x ds. unfold recycling_allocation.
  change (valid_recycling_activity (set_d_alloc x ds)) with (valid_recycling_activity ds).
  change (get_single_reference_product (set_d_alloc x ds)) with (get_single_reference_product ds).
  destruct (valid_recycling_activity ds); cbn [bind fmapR]; [|done].
  destruct (get_single_reference_product ds); cbn [bind fmapR]; [|done].
  rewrite flip_blind. destruct (flip_reference_product ln ds); cbn [bind fmapR]; [|done].
  apply economic_blind.
Qed.
Lemma waste_blind ln : label_blind_list (waste_treatment_allocation ln).
Proof.
  intros x ds. unfold waste_treatment_allocation.
  change (valid_waste_treatment_activity (set_d_alloc x ds)) with (valid_waste_treatment_activity ds).
  change (get_single_reference_product (set_d_alloc x ds)) with (get_single_reference_product ds).
  change (allocatable_production (set_d_alloc x ds)) with (allocatable_production ds).
  destruct (valid_waste_treatment_activity ds); cbn [bind fmapR]; [|done].
  destruct (get_single_reference_product ds) as [rp|]; cbn [bind fmapR]; [|done].
  rewrite (choose_blind ln rp 1). destruct (choose_reference_product_exchange _ _ _ _); cbn [bind fmapR]; [|done].
  destruct (allocatable_production ds); cbn [bind fmapR]; [|done].
  rewrite (mapR_ext (free_byproduct ln (set_d_alloc x ds))
             (fun e => fmapR (set_d_alloc x) (free_byproduct ln ds e))).
  - rewrite mapR_fmap. by destruct (mapR _ _).
  - intros e _. unfold free_byproduct. apply (choose_blind ln e 1 x (set_d_exchanges [e] ds)).
Qed.
Lemma no_allocation_blind : label_blind_list no_allocation.
Proof.
  intros x ds. unfold no_allocation, check_single_output_activity.
  change (d_exchanges (set_d_alloc x ds)) with (d_exchanges ds).
  change (reference_products (set_d_alloc x ds)) with (reference_products ds).
  destruct (anyR _ _) as [b|]; cbn [bind fmapR]; [|done]. destruct (negb _); [done|]. by destruct b.
Qed.
Lemma combined_blind recalc : label_blind recalc -> label_blind_list (combined_production recalc).
Proof.
  intros Hr x ds. unfold combined_production. rewrite <- mapR_fmap.
  change (nonzero_reference_product_exchanges (set_d_alloc x ds))
    with (nonzero_reference_product_exchanges ds).
  apply mapR_ext. intros e _.
  change (subdivide (set_d_alloc x ds) e) with (set_d_alloc x (subdivide ds e)). apply Hr.
Qed.
Lemma split_blind ln : label_blind_list (handle_split_dataset ln).
Proof.
  intros x ds. unfold handle_split_dataset.
  change (get_single_reference_product (set_d_alloc x ds)) with (get_single_reference_product ds).
  destruct (get_single_reference_product ds) as [rp|]; cbn [bind fmapR]; [|done].
  destruct (getkey _ _) as [c|]; cbn [bind fmapR]; [|done].
  case_bool_decide; [apply waste_blind|]. case_bool_decide; [|done].
  apply (recycling_blind ln x (set_d_name _ ds)).
Qed.
Lemma without_blind ln recalc :
  label_blind recalc -> label_blind_list (combined_production_without_products ln recalc).
Proof.
  intros Hr x ds. unfold combined_production_without_products.
  rewrite (combined_blind recalc Hr), bind_fmapR, fmapR_bind. apply bind_ext. intros parts.
  rewrite concat_mapR_map, <- concat_mapR_fmap. unfold concat_mapR. f_equal.
  apply mapR_ext. intros d _. apply split_blind.
Qed.

(** Merging *)
Lemma groupby_map {K A B} `{EqDecision K} (g : A -> B) (l : list (K * A)) :
  groupby (map (fun kx => (kx.1, g kx.2)) l)
  = map (fun kx => (kx.1, map g kx.2)) (groupby l).
Proof.
  unfold groupby. change [] with (map (fun kx : K * list A => (kx.1, map g kx.2)) []) at 1.
  generalize (@nil (K * list A)). induction l as [|[k a] l IH]; intros groups; [done|]. cbn.
  rewrite <- IH. f_equal. clear. induction groups as [|[k' xs] groups IH]; [done|]. cbn.
  destruct (decide (k = k')); cbn; [by rewrite map_app|]. by rewrite IH.
Qed.
Lemma add_blind x a b :
  add_exchanges (set_d_alloc x a) (set_d_alloc x b) = fmapR (set_d_alloc x) (add_exchanges a b).
Proof.
  unfold add_exchanges. change (d_exchanges (set_d_alloc x a)) with (d_exchanges a).
  change (d_exchanges (set_d_alloc x b)) with (d_exchanges b).
  destruct (iterR _ _); cbn [bind fmapR]; [|done]. by destruct (mapR _ _).
Qed.
Lemma merge_group_blind x ds :
  merge_group (map (set_d_alloc x) ds) = fmapR (set_d_alloc x) (merge_group ds).
Proof.
  destruct ds as [|d ds]; [done|]. cbn. revert d. induction ds as [|e ds IH]; intros d; [done|].
  cbn. rewrite add_blind. destruct (add_exchanges d e); cbn; [apply IH|done].
Qed.
Lemma merge_blind x data :
  merge_byproducts (map (set_d_alloc x) data) = fmapR (map (set_d_alloc x)) (merge_byproducts data).
Proof.
  unfold merge_byproducts.
  assert (E1 : valid_merge_datasets (map (set_d_alloc x) data) = valid_merge_datasets data).
  { unfold valid_merge_datasets. induction data as [|d data IH]; [done|].
    cbn [map iterR]. by rewrite IH. }
  rewrite E1, fmapR_bind. apply bind_ext. intros _.
  rewrite mapR_map.
  rewrite (mapR_ext _ (fun d => fmapR (fun kd => (kd.1, set_d_alloc x kd.2))
     (let? k := activity_grouper d in Ok (k, d)))).
  2:{ intros d _. change (activity_grouper (set_d_alloc x d)) with (activity_grouper d).
      by destruct (activity_grouper d). }
  rewrite mapR_fmap, bind_fmapR, fmapR_bind. apply bind_ext. intros keyed.
  rewrite groupby_map, mapR_map, <- mapR_fmap. apply mapR_ext. intros g _. apply merge_group_blind.
Qed.
Lemma with_blind ln recalc :
  label_blind recalc -> label_blind_list (combined_production_with_byproducts ln recalc).
Proof.
  intros Hr x ds. unfold combined_production_with_byproducts.
  rewrite (combined_blind recalc Hr), bind_fmapR, fmapR_bind. apply bind_ext. intros parts.
  rewrite concat_mapR_map.
  replace (concat_mapR (fun d => economic_allocation ln (set_d_alloc x d)) parts)
    with (fmapR (map (set_d_alloc x)) (concat_mapR (economic_allocation ln) parts)).
  - rewrite bind_fmapR, fmapR_bind. apply bind_ext. intros new. apply merge_blind.
  - rewrite <- concat_mapR_fmap. unfold concat_mapR. f_equal. apply mapR_ext. intros d _.
    symmetry. apply economic_blind.
Qed.

Lemma all_blind ln recalc l f :
  label_blind recalc -> (l, f) ∈ allocation_functions ln recalc -> label_blind_list f.
Proof.
  intros Hr Hin. unfold allocation_functions in Hin.
  repeat (apply elem_of_cons in Hin as [Hin|Hin];
    [injection Hin as -> ->;
     first [apply no_allocation_blind|apply economic_blind|apply recycling_blind|apply waste_blind
           |by apply without_blind|by apply combined_blind|by apply with_blind|by intros ?]|]).
  by apply elem_of_nil in Hin.
Qed.

(** ** One pass over the labelled datasets *)
Definition step_for (fs : list (string * (dataset -> result (list dataset)))) (ds : dataset)
    (outs : list dataset) : Prop :=
  exists l, d_alloc ds = Some l /\
    ((exists f, (l, f) ∈ fs /\ f ds = Ok outs) \/ (l ∉ map fst fs /\ outs = [ds])).
Definition keeps_label (f : dataset -> result (list dataset)) : Prop :=
  forall ds outs, f ds = Ok outs -> Forall (fun o => d_alloc o = d_alloc ds) outs.

Lemma blind_keeps f : label_blind_list f -> keeps_label f.
Proof.
  intros Hf ds outs H.
  assert (E : ds = set_d_alloc (d_alloc ds) ds) by (by destruct ds).
  pose proof (Hf (d_alloc ds) ds) as HE. rewrite <- E, H in HE. cbn in HE. injection HE as HE.
  rewrite HE. apply Forall_map. apply Forall_forall. by intros.
Qed.

Lemma concat_mapR_Ok {A B} (f : A -> result (list B)) l ys :
  concat_mapR f l = Ok ys <-> exists yss, ys = concat yss /\ Forall2 (fun x ys => f x = Ok ys) l yss.
Proof.
  unfold concat_mapR. split.
  - destruct (mapR f l) as [yss|] eqn:E; cbn; [|done]. intros [= <-]. exists yss.
    split; [done|]. by apply mapR_Ok.
  - intros (yss & -> & H). apply mapR_Ok in H. by rewrite H.
Qed.

Lemma Forall2_concat_inv {A B} (R : A -> list B -> Prop) xss yss :
  Forall2 R (concat xss) yss ->
  exists ysss, yss = concat ysss /\ Forall2 (Forall2 R) xss ysss.
Proof.
  revert yss. induction xss as [|xs xss IH]; intros yss H; cbn in H.
  - apply Forall2_nil_inv_l in H as ->. by exists [].
  - apply Forall2_app_inv_l in H as (y1 & y2 & H1 & H2 & ->).
    destruct (IH _ H2) as (ysss & -> & H3). exists (y1 :: ysss). split; [done|]. by constructor.
Qed.
Lemma concat_concat {A} (l : list (list (list A))) : concat (concat l) = concat (map (@concat A) l).
Proof. induction l as [|x l IH]; [done|]. cbn. by rewrite concat_app, IH. Qed.

Lemma passes_spec fs data outs :
  NoDup (map fst fs) -> (forall l f, (l, f) ∈ fs -> keeps_label f) ->
  Forall (fun ds => is_Some (d_alloc ds)) data ->
  foldR (fun data lf => wrapped lf.2 (allocation_filter lf.1) data) data fs = Ok outs <->
  exists outss, outs = concat outss /\ Forall2 (step_for fs) data outss.
Proof.
  revert data outs. induction fs as [|[l1 f1] fs IH]; intros data outs Hnd Hk Hlab.
  - cbn. split.
    + intros [= ->]. exists (map (fun d => [d]) outs). split.
      { clear. induction outs as [|d outs IH]; [done|]. cbn. by rewrite <- IH. }
      apply Forall2_fmap_r, Forall_Forall2_diag. eapply Forall_impl; [exact Hlab|].
      intros d [l Hl]. exists l. split; [done|]. right. split; [set_solver|done].
    + intros (outss & -> & H). f_equal. clear -H. induction H as [|d o l k H _ IH]; [done|].
      destruct H as (x & _ & [(f & Hin & _)|[_ ->]]); [by apply elem_of_nil in Hin|].
      cbn. by rewrite <- IH.
  - cbn [map fst] in Hnd. apply NoDup_cons in Hnd as [Hl1 Hnd]. cbn [foldR]. cbn [fst snd].
    assert (Hstep : forall d outs1, is_Some (d_alloc d) ->
      (let? b := allocation_filter l1 d in if b then f1 d else Ok [d]) = Ok outs1 <->
      (d_alloc d = Some l1 /\ f1 d = Ok outs1) \/ (d_alloc d <> Some l1 /\ outs1 = [d])).
    { intros d outs1 [l Hl]. unfold allocation_filter. rewrite Hl. cbn.
      destruct (String.eqb_spec l l1) as [->|Hne].
      - split; [by left|]. intros [[_ H]|[H _]]; done.
      - split; [intros [= <-]; right; split; [congruence|done]|].
        intros [[[= ->] _]|[_ ->]]; done. }
    split.
    + intros H. apply bind_Ok in H as (mid & Hmid & H). unfold wrapped in Hmid.
      apply concat_mapR_Ok in Hmid as (mids & -> & Hmids).
      assert (Hmlab : Forall (fun ds => is_Some (d_alloc ds)) (concat mids)).
      { clear H. apply Forall_concat. clear -Hmids Hlab Hk Hstep.
        induction Hmids as [|d o l k H HF IH]; [constructor|].
        apply Forall_cons in Hlab as [Hd Hlab]. constructor; [|by apply IH].
        apply Hstep in H as [[Hl Hf]|[_ ->]]; [|by repeat constructor| done].
        eapply Forall_impl; [apply (Hk l1 f1); [left|exact Hf]|]. cbn. intros o' ->. done. }
      apply IH in H as (outss & -> & HF); [|done| |done].
      2:{ intros l f Hin. apply (Hk l f). by right. }
      apply Forall2_concat_inv in HF as (osss & -> & HF). exists (map (@concat dataset) osss).
      split; [apply concat_concat|]. clear Hmlab.
      revert osss HF. induction Hmids as [|d o l k H HF0 IH2]; intros osss HF.
      * apply Forall2_nil_inv_l in HF as ->. constructor.
      * apply Forall2_cons_inv_l in HF as (os & osss' & Ho & Hos & ->). cbn.
        apply Forall_cons in Hlab as [Hd Hlab]. constructor; [|by apply IH2]. clear IH2 Hos HF0.
        apply Hstep in H as [[Hl Hf]|[Hl ->]]; [| |done].
        -- exists l1. split; [done|]. left. exists f1. split; [left|].
           rewrite Hf. f_equal. pose proof (Hk l1 f1 ltac:(left) _ _ Hf) as Hkk.
           clear -Ho Hkk Hl Hl1. induction Ho as [|d' o' l k H _ IH]; [done|].
           apply Forall_cons in Hkk as [Hd' Hkk]. cbn.
           destruct H as (l' & Hl' & [(f & Hin & _)|[_ ->]]).
           ++ exfalso. apply Hl1. rewrite Hd', Hl in Hl'. injection Hl' as ->.
              apply elem_of_list_fmap. by exists (l', f).
           ++ cbn. f_equal. by apply IH.
        -- apply Forall2_cons_inv_l in Ho as (o1 & rest & (l' & Hl' & Ho) & Hnil & ->).
           apply Forall2_nil_inv_l in Hnil as ->. cbn. rewrite app_nil_r.
           exists l'. split; [done|]. destruct Ho as [(f & Hin & Hf)|[Hnin ->]].
           ++ left. exists f. split; [by right|done].
           ++ right. split; [|done]. cbn. intros [->|]%elem_of_cons; done.
    + intros (outss & -> & HF).
      assert (Hmid : exists mids, Forall2 (fun d o =>
         (let? b := allocation_filter l1 d in if b then f1 d else Ok [d]) = Ok o) data mids /\
         exists osss, Forall2 (Forall2 (step_for fs)) mids osss /\ map (@concat dataset) osss = outss).
      { clear IH. induction HF as [|d o l k H HF IH2].
        - exists []. split; [constructor|]. exists []. split; constructor.
        - apply Forall_cons in Hlab as [Hd Hlab]. destruct (IH2 Hlab) as (mids & Hm & osss & Ho & Hc).
          destruct H as (l' & Hl' & H). destruct (decide (l' = l1)) as [->|Hne].
          + destruct H as [(f & Hin & Hf)|[Hnin _]]; [|exfalso; apply Hnin; cbn; left].
            assert (f = f1) as ->.
            { apply elem_of_cons in Hin as [[= ->]|Hin]; [done|]. exfalso. apply Hl1.
              apply elem_of_list_fmap. by exists (l1, f). }
            exists (o :: mids). split; [constructor; [apply Hstep; [done|by left]|done]|].
            exists (map (fun d => [d]) o :: osss). split.
            * constructor; [|done]. apply Forall2_fmap_r, Forall_Forall2_diag.
              eapply Forall_impl; [apply (Hk l1 f1); [left|exact Hf]|]. cbn. intros d' Hd'.
              exists l1. split; [congruence|]. right. split; [done|done].
            * cbn. f_equal; [|done]. clear. induction o as [|x o IH]; [done|]. cbn. by rewrite IH.
          + exists ([d] :: mids). split.
            { constructor; [|done]. apply Hstep; [done|]. right. split; [congruence|done]. }
            exists ([o] :: osss). split.
            * constructor; [|done]. constructor; [|constructor]. exists l'. split; [done|].
              destruct H as [(f & Hin & Hf)|[Hnin ->]].
              -- left. exists f. split; [|done]. apply elem_of_cons in Hin as [[= ->]|Hin]; done.
              -- right. split; [|done]. intros Hi. apply Hnin. by right.
            * cbn. rewrite app_nil_r. by f_equal. }
      destruct Hmid as (mids & Hm & osss & Ho & <-).
      assert (Hmlab : Forall (fun ds => is_Some (d_alloc ds)) (concat mids)).
      { clear -Hm Hlab Hk Hstep. apply Forall_concat.
        induction Hm as [|d o l k H HF IH]; [constructor|].
        apply Forall_cons in Hlab as [Hd Hlab]. constructor; [|by apply IH].
        apply Hstep in H as [[Hl Hf]|[_ ->]]; [|by repeat constructor| done].
        eapply Forall_impl; [apply (Hk l1 f1); [left|exact Hf]|]. cbn. intros o' ->. done. }
      assert (Hw : wrapped f1 (allocation_filter l1) data = Ok (concat mids)).
      { apply concat_mapR_Ok. exists mids. done. }
      rewrite Hw. cbn [bind]. apply IH; [done| |done|].
      { intros l f Hin. apply (Hk l f). by right. }
      exists (concat osss). split; [by rewrite concat_concat|].
      clear -Ho. induction Ho as [|a b l k H _ IH]; [constructor|]. cbn. by apply Forall2_app.
Qed.

(** ** C15 *)
(** The datasets made from [ds]. *)
Definition allocated (ln : Qc -> Qc) (recalc : dataset -> result dataset) (ds : dataset)
    (outs : list dataset) : Prop :=
  exists l, choose_allocation_method ds = Ok l /\
    ((l = "single product"%string /\ outs = [ds]) \/
     (exists f, (l, f) ∈ allocation_functions ln recalc /\ f ds = Ok outs)).

Lemma functions_nodup ln recalc : NoDup (map fst (allocation_functions ln recalc)).
Proof. unfold allocation_functions. by_compute. Qed.

Lemma single_not_function ln recalc :
  "single product"%string ∉ map fst (allocation_functions ln recalc).
Proof.
  unfold allocation_functions. cbn.
  intros H. repeat (apply elem_of_cons in H as [H|H]; [discriminate H|]). by apply elem_of_nil in H.
Qed.

Lemma map_delete_id l :
  Forall (fun d => d_alloc d = None) l -> map delete_allocation_method l = l.
Proof.
  induction 1 as [|d l H _ IH]; [done|]. cbn. rewrite IH. f_equal.
  unfold delete_allocation_method. destruct d. cbn in *. by rewrite H.
Qed.
Lemma map_delete_relabel x l :
  map delete_allocation_method (map (set_d_alloc x) l) = map delete_allocation_method l.
Proof. rewrite map_map. by apply map_ext. Qed.

Lemma cutoff_allocation_spec ln recalc data outs :
  label_blind recalc -> Forall (fun d => d_alloc d = None) data ->
  cutoff_allocation ln recalc data = Ok outs <->
  exists outss, outs = concat outss /\ Forall2 (allocated ln recalc) data outss.
Proof.
  intros Hr Hnone. unfold cutoff_allocation.
  assert (Hk : forall l f, (l, f) ∈ allocation_functions ln recalc -> keeps_label f)
    by (intros l f Hin; apply blind_keeps; by eapply all_blind).
  assert (Hrel : forall d l outs1, d_alloc d = None ->
     step_for (allocation_functions ln recalc) (set_d_alloc (Some l) d) outs1 ->
     choose_allocation_method d = Ok l ->
     allocated ln recalc d (map delete_allocation_method outs1)).
  { intros d l outs1 Hd (l' & [= <-] & [(f & Hin & Hf)|[Hnin ->]]) Hc.
    - exists l. split; [done|]. right. exists f. split; [done|].
      pose proof (all_blind ln recalc l f Hr Hin) as Hb. rewrite Hb in Hf.
      destruct (f d) as [o|] eqn:Ef; cbn in Hf; [|done]. injection Hf as <-. f_equal.
      rewrite map_delete_relabel, map_delete_id; [done|].
      eapply Forall_impl; [by apply (blind_keeps f Hb)|]. cbn. congruence.
    - exists l. split; [done|]. left. cbn. split; [|].
      + destruct (decide (l = "single product"%string)) as [->|Hne]; [done|].
        exfalso. apply Hnin. eapply method_labels; [by apply choose_method|done].
      + f_equal. unfold delete_allocation_method. destruct d. cbn in *. by rewrite Hd. }
  split.
  - intros H. apply bind_Ok in H as (lab & Hlab & H). apply bind_Ok in H as (res & Hres & [= <-]).
    unfold label_allocation_method in Hlab. apply mapR_Ok in Hlab.
    apply passes_spec in Hres as (outss & -> & HF);
      [|apply functions_nodup|exact Hk|].
    2:{ clear -Hlab. induction Hlab as [|d d' l k H _ IH]; [constructor|]. constructor; [|done].
        apply bind_Ok in H as (x & _ & [= <-]). by eexists. }
    exists (map (map delete_allocation_method) outss). split; [by rewrite concat_map|].
    revert outss HF. induction Hlab as [|d d' l k H _ IH]; intros outss HF.
    + apply Forall2_nil_inv_l in HF as ->. constructor.
    + apply Forall2_cons_inv_l in HF as (o & outss' & Ho & Hos & ->).
      apply Forall_cons in Hnone as [Hd Hnone]. cbn. constructor; [|by apply IH].
      apply bind_Ok in H as (x & Hx & [= <-]). by eapply Hrel.
  - intros (outss & -> & HF).
    assert (Hlab : exists lab outss', label_allocation_method data = Ok lab /\
       Forall (fun ds => is_Some (d_alloc ds)) lab /\
       Forall2 (step_for (allocation_functions ln recalc)) lab outss' /\
       map (map delete_allocation_method) outss' = outss).
    { unfold label_allocation_method. induction HF as [|d o l k H HF IH].
      - exists [], []. cbn. split_and!; constructor.
      - apply Forall_cons in Hnone as [Hd Hnone].
        destruct (IH Hnone) as (lab & outss' & Hl & Hs & HF' & Hm).
        destruct H as (x & Hx & H). cbn. rewrite Hx. cbn. rewrite Hl. cbn.
        exists (set_d_alloc (Some x) d :: lab), (map (set_d_alloc (Some x)) o :: outss').
        split_and!; [done|constructor; [by eexists|done]| |].
        + constructor; [|done]. exists x. split; [done|].
          destruct H as [[-> ->]|(f & Hin & Hf)].
          * right. split; [apply single_not_function|done].
          * left. exists f. split; [done|]. rewrite (all_blind ln recalc x f Hr Hin), Hf. done.
        + cbn. f_equal; [|done]. rewrite map_delete_relabel. apply map_delete_id.
          destruct H as [[-> ->]|(f & Hin & Hf)]; [by repeat constructor|].
          eapply Forall_impl; [by apply (Hk x f Hin)|]. cbn. congruence. }
    destruct Hlab as (lab & outss' & Hl & Hs & HF' & Hm). rewrite Hl. cbn [bind].
    assert (Hp : foldR (fun data lf => wrapped lf.2 (allocation_filter lf.1) data) lab
                   (allocation_functions ln recalc) = Ok (concat outss')).
    { apply passes_spec; [apply functions_nodup|exact Hk|done|]. by exists outss'. }
    rewrite Hp. cbn [bind]. f_equal. by rewrite concat_map, Hm.
Qed.
