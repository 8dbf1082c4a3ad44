From stdpp Require Import gmap.
From Verif Require Import Configuration_proofs Base Types Utils Validation Cutoff Topology Locations Pipeline Heap Spec_Heap Heap_proofs HeapLinks_proofs HeapHard_proofs HeapMarkets_proofs Spec_HeapGroups HeapLinking_proofs HeapRow HeapRow_proofs HeapCutoff.
From Verif Require Import Props_Heap.

Lemma drop_rp_links_proof h Fs xs dss : wf h -> separate h Fs xs dss ->
  does (next h) (concat Fs) (drop_rp_links_h xs) (Ok (drop_rp_activity_links dss)) (fun h' _ dss' => separate h' Fs xs dss') h.
Proof.
  intros Hw Hs. unfold drop_rp_links_h. set (g := fun e => if (bool_decide (e_type e = RefProduct) || bool_decide (e_type e = DroppedProduct)) && link_truthy e
                         then set_e_link None e else e).
  pose proof (pass_proof (fun _ e => Ok (g e)) h Fs xs dss Hw Hs) as H.
  assert (mapR (on_exchanges (fun _ e => Ok (g e))) dss = Ok (drop_rp_activity_links dss)) as E.
  { unfold drop_rp_activity_links. rewrite <- mapR_pure. apply mapR_ext. intros ds _. unfold on_exchanges. by rewrite mapR_pure. }
  by rewrite E in H.
Qed.
Lemma flip_proof h Fs xs dss : wf h -> separate h Fs xs dss ->
  does (next h) (concat Fs) (flip_h xs) (mapR flip_non_allocatable_byproducts dss) (fun h' _ dss' => separate h' Fs xs dss') h.
Proof. intros Hw Hs. by apply (pass_proof (fun _ => flip_exchange)). Qed.
Lemma rename_proof h Fs xs dss : wf h -> separate h Fs xs dss ->
  does (next h) (concat Fs) (rename_h xs) (Ok (rename_recycled_content_products_after_linking dss)) (fun h' _ dss' => separate h' Fs xs dss') h.
Proof.
  intros Hw Hs. unfold rename_recycled_content_products_after_linking. rewrite <- mapR_pure. apply iter_spec; [|done|done].
  clear. intros h F a ds Hw H Hnd. destruct (getD_eq _ _ _ _ H) as (exs & HF & Hg & He). eapply does_read; [exact Hg|]. cbn [snd].
  pose proof (mods_stands (fun e => Ok (set_e_name (strip_marker (e_name e)) e)) h F a ds Hw H Hnd exs HF) as Hm. rewrite mapR_pure in Hm.
  eapply does_step; [exact Hm|done|by left|]. intros [] h1 O1 H1. assert (wf h1) as Hw1 by by eapply only_wf. assert (next h <= next h1)%nat by by eapply only_next.
  eapply does_as; [apply (modD_spec (fun ds => Ok (set_d_refprod (option_map strip_marker (d_refprod ds)) ds)) ltac:(intros e e' [= <-]; by destruct e) h1 F a _ Hw1 H1 Hnd)|done|by left|].
  intros h2 [] _ H2. by destruct ds.
Qed.
Lemma adjust_spec ln h F a ds : wf h -> stands h F a ds -> NoDup F ->
  does (next h) F (adjust_h ln a) (adjust_market_sign ln ds) (fun h' _ ds' => stands h' F a ds') h.
Proof.
  intros Hw H Hnd. unfold adjust_h, adjust_market_sign. eapply does_read; [by eapply readD_eq|].
  destruct (getD_eq _ _ _ _ H) as (exs & HF & Hg & He). eapply does_read; [exact Hg|]. cbn [snd].
  destruct (bool_decide (d_type ds = MarketActivity)); [|by apply does_ret]. apply does_lift; [done|]. intros rp _. apply does_lift; [done|]. intros c _.
  destruct (bool_decide _); [by apply does_ret|]. destruct (forallb _ _); [eapply does_map; [by eapply mods_stands|done]|].
  destruct (Qcltb _ _); [|by apply does_ret]. eapply does_map; [by eapply mods_stands|done].
Qed.
Lemma cutoff_ends w h xs dss : wf h -> apart h xs dss ->
  ends apart (cutoff_h w xs)
    (let? data := cutoff_allocated w dss in
     let? data := link_markets_by_pv (w_md5 w) (w_ln w) (w_ord w) (w_topo w) data in
     cutoff_finished w data) h.
Proof.
  intros Hw Ha.
  assert (forall (m : M unit) (v : list dataset -> result (list dataset)) xs,
    (forall h Fs dss, wf h -> separate h Fs xs dss -> does (next h) (concat Fs) m (v dss) (fun h' _ dss' => separate h' Fs xs dss') h) ->
    forall h dss, wf h -> apart h xs dss -> ends (fun h' _ => apart h' xs) m (v dss) h) as Hsep.
  { intros m v ys Hm h' d Hw' [Fs Hs]. eapply ends_does; [done|by apply (Hm h' Fs d)|]. intros h'' a b H. by exists Fs. }
  unfold cutoff_h, cutoff_allocated. rewrite bind_assoc.
  eapply ends_bind with (Q := apart).
  { destruct Ha as [Fs Hs]. eapply ends_does; [done|apply (allocation_proof (w_ln w) (w_recalc w) ltac:(apply C105_recalculate) h Fs xs dss Hw Hs)|].
    intros h' ys b (Fs' & H & _). by exists Fs'. }
  clear h Hw Ha dss xs. intros h xs dss Hw Ha.
  eapply ends_bind; [apply (Hsep _ (fun d => Ok (drop_rp_activity_links d)) xs); [intros; by apply drop_rp_links_proof|done|done]|]. clear h Hw Ha dss. intros h [] dss Hw Ha.
  eapply ends_bind; [by apply link_all_ends|]. clear h Hw Ha dss xs. intros h xs dss Hw Ha. unfold cutoff_finished.
  match goal with |- ends _ _ ?v _ => change v with
    (let? data := Ok (rename_recycled_content_products_after_linking dss) in
     let? data := mapR flip_non_allocatable_byproducts data in
     let? data := mapR (normalize_reference_production_amount (w_ln w)) data in
     adjust_market_signs_for_allocatable_products (w_ln w) data) end.
  eapply ends_bind; [apply (Hsep _ (fun d => Ok (rename_recycled_content_products_after_linking d)) xs); [intros; by apply rename_proof|done|done]|]. clear h Hw Ha dss. intros h [] dss Hw Ha.
  eapply ends_bind; [apply (Hsep _ _ xs); [intros; by apply flip_proof|done|done]|]. clear h Hw Ha dss. intros h [] dss Hw Ha.
  eapply ends_bind; [apply (Hsep _ (mapR (normalize_reference_production_amount (w_ln w))) xs); [intros; by apply iter_spec; [intros; by apply normalize_spec|..]|done|done]|]. clear h Hw Ha dss. intros h [] dss Hw Ha.
  rewrite <- (bind_ret (adjust_market_signs_for_allocatable_products _ _)).
  eapply ends_bind; [apply (Hsep _ (adjust_market_signs_for_allocatable_products (w_ln w)) xs); [intros; by apply (iter_spec _ (adjust_market_sign (w_ln w))); [intros; by apply adjust_spec|..]|done|done]|]. clear h Hw Ha dss. intros h [] dss Hw Ha.
  by exists (Ok xs), h.
Qed.
Lemma cutoff_run_proof w dss :
  same_outcome ((let! xs := mapM store dss in let! ys := cutoff_h w xs in mapM readD ys) nothing).1
    (let? data := cutoff_allocated w dss in
     let? data := link_markets_by_pv (w_md5 w) (w_ln w) (w_ord w) (w_topo w) data in
     cutoff_finished w data).
Proof.
  destruct (stores_proof nothing dss wf_nothing) as (r & h1 & E & O1 & xs & -> & Fs & Hs & _). rewrite (bindM_eq _ _ _ _ _ E).
  assert (wf h1) as Hw1 by by eapply only_wf. destruct (cutoff_ends w h1 xs dss Hw1 ltac:(by exists Fs)) as (r2 & h2 & E2 & Hw2 & H2).
  rewrite (bindM_eq _ _ _ _ _ E2). clear E2. match goal with |- same_outcome _ ?w => revert H2; generalize w end. intros v H2.
  destruct r2 as [ys|e], v as [d|e']; try done. destruct H2 as [Fs2 Hs2]. by rewrite (reads_spec _ _ _ _ Hs2).
Qed.
Lemma cutoff_model_proof w data prepared : cutoff_prepared w data = Ok prepared ->
  same_outcome ((let! xs := mapM store prepared in let! ys := cutoff_h w xs in mapM readD ys) nothing).1 (cutoff_model w data).
Proof.
  intros H. unfold cutoff_model, cutoff_linked. rewrite H. cbn [bind]. rewrite bind_assoc. apply cutoff_run_proof.
Qed.
