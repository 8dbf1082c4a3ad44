From stdpp Require Import gmap.
From Verif Require Import Configuration_proofs Base Types Utils Grouping GroupUpdate ActivityLinks Cutoff Topology Locations Consequential Heap Spec_Heap Heap_proofs HeapLinks HeapLinks_proofs HeapHard HeapHard_proofs
  HeapMarkets HeapMarkets_proofs HeapGroups Spec_HeapGroups HeapGroups_proofs HeapLinking HeapLinking_proofs HeapRow HeapRow_proofs HeapTechnology.

Lemma prune_exchanges ds ds' : prune_dataset ds = Ok ds' -> d_exchanges ds' = d_exchanges ds.
Proof.
  unfold prune_dataset. destruct (_ || _); [|by intros [= ->]]. destruct (d_suppliers ds) as [[|s l]|]; [by intros [= ->]| |by intros [= ->]].
  intros H. apply bind_Ok in H as (r & _ & H). destruct r; [done|]. injection H as <-. by destruct ds.
Qed.
Lemma prune_proof h Fs xs dss : wf h -> separate h Fs xs dss ->
  does (next h) (concat Fs) (prune_h xs) (prune_suppliers_by_technology_level dss) (fun h' _ dss' => separate h' Fs xs dss') h.
Proof. intros Hw Hs. apply (iter_spec _ _ (modD_spec prune_dataset prune_exchanges) h Fs xs dss Hw Hs). Qed.
Lemma delete_suppliers_proof h Fs xs dss : wf h -> separate h Fs xs dss ->
  does (next h) (concat Fs) (delete_suppliers_h xs) (Ok (delete_suppliers_list dss)) (fun h' _ dss' => separate h' Fs xs dss') h.
Proof.
  intros Hw Hs. unfold delete_suppliers_list. rewrite <- mapR_pure.
  apply (iter_spec _ _ (modD_spec (fun ds => Ok (set_d_suppliers None ds)) ltac:(intros ds ds' [= <-]; by destruct ds)) h Fs xs dss Hw Hs).
Qed.
Lemma technology_parts md5 ln ord t dss : link_markets_by_technology_level md5 ln ord t dss =
  let? data := label_reference_product dss in
  let? data := Ok (delete_whitelisted_zero_pv_market_datsets data) in
  let? data := assign_fake_pv_to_confidential_datasets data in
  let? data := relabel_global_to_row data in
  let? data := add_unique_codes md5 data in
  let? data := actualize_activity_links data in
  let? data := add_suppliers_to_markets ord t Transforming MarketActivity data in
  let? data := prune_suppliers_by_technology_level data in
  let? data := update_market_production_volumes t MarketActivity data in
  let? data := add_suppliers_to_markets ord t MarketActivity MarketGroup data in
  let? data := update_market_production_volumes t MarketGroup data in
  let? data := allocate_all_market_suppliers MarketActivity data in
  let? data := Ok (delete_suppliers_list data) in
  let? data := link_consumers_to_markets ln t data in
  Ok (log_and_delete_unlinked_exchanges data).
Proof. reflexivity. Qed.
Lemma technology_ends md5 ln ord t h xs dss : wf h -> apart h xs dss ->
  ends apart (technology_h md5 ln ord t xs) (link_markets_by_technology_level md5 ln ord t dss) h.
Proof.
  intros Hw Ha. rewrite technology_parts. unfold technology_h.
  assert (forall (m : M unit) (v : list dataset -> result (list dataset)) xs,
    (forall h Fs dss, wf h -> separate h Fs xs dss -> does (next h) (concat Fs) m (v dss) (fun h' _ dss' => separate h' Fs xs dss') h) ->
    forall h dss, wf h -> apart h xs dss -> ends (fun h' _ => apart h' xs) m (v dss) h) as Hsep.
  { intros m v ys Hm h' d Hw' [Fs Hs]. eapply ends_does; [done|by apply (Hm h' Fs d)|]. intros h'' a b H. by exists Fs. }
  assert (forall (m : M unit) (v : list dataset -> result (list dataset)) xs,
    (forall h Fs dss, wf h -> separate h Fs xs dss -> does (next h) (concat Fs) m (v dss) (fun h' _ dss' => results (next h) (concat Fs) h' xs dss') h) ->
    forall h dss, wf h -> apart h xs dss -> ends (fun h' _ => apart h' xs) m (v dss) h) as Hres.
  { intros m v ys Hm h' d Hw' [Fs Hs]. eapply ends_does; [done|by apply (Hm h' Fs d)|]. intros h'' a b H. destruct H as (Fs' & H & _). by exists Fs'. }
  eapply ends_bind; [apply (Hsep _ _ xs); [intros; by apply label_proof|done|done]|]. clear h Hw Ha dss. intros h [] dss Hw Ha.
  eapply ends_bind with (Q := apart).
  { destruct Ha as [Fs Hs].
    destruct (those_separate (fun ds => negb (is_type MarketActivity ds && bool_decide (d_name ds ∈ deletable_markets) && (d_location ds =? "GLO")%string)) h Fs xs dss Hs)
      as (Fs' & ys & E & Hs' & _). exists (Ok ys), h. split; [exact E|]. split; [done|]. by exists Fs'. }
  clear h Hw Ha dss xs. intros h xs dss Hw Ha.
  eapply ends_bind; [apply (Hsep _ _ xs); [intros; by apply fake_proof|done|done]|]. clear h Hw Ha dss. intros h [] dss Hw Ha.
  eapply ends_bind; [apply (Hsep _ _ xs); [intros; by apply relabel_proof|done|done]|]. clear h Hw Ha dss. intros h [] dss Hw Ha.
  eapply ends_bind; [apply (Hsep _ _ xs); [intros; by apply codes_proof|done|done]|]. clear h Hw Ha dss. intros h [] dss Hw Ha.
  eapply ends_bind; [apply (Hsep _ _ xs); [intros; by apply actualize_proof|done|done]|]. clear h Hw Ha dss. intros h [] dss Hw Ha.
  eapply ends_bind; [apply (Hsep _ (add_suppliers_to_markets ord t Transforming MarketActivity) xs); [intros; by apply suppliers_proof|done|done]|]. clear h Hw Ha dss. intros h [] dss Hw Ha.
  eapply ends_bind; [apply (Hsep _ _ xs); [intros; by apply prune_proof|done|done]|]. clear h Hw Ha dss. intros h [] dss Hw Ha.
  eapply ends_bind; [apply (Hsep _ _ xs); [intros; by apply volumes_proof|done|done]|]. clear h Hw Ha dss. intros h [] dss Hw Ha.
  eapply ends_bind; [apply (Hsep _ (add_suppliers_to_markets ord t MarketActivity MarketGroup) xs); [intros; by apply suppliers_proof|done|done]|]. clear h Hw Ha dss. intros h [] dss Hw Ha.
  eapply ends_bind; [by apply group_volumes_ends|]. clear h Hw Ha dss. intros h [] dss Hw Ha.
  eapply ends_bind; [apply (Hres _ _ xs); [intros; by apply allocate_all_proof|done|done]|]. clear h Hw Ha dss. intros h [] dss Hw Ha.
  eapply ends_bind; [apply (Hsep _ (fun d => Ok (delete_suppliers_list d)) xs); [intros; by apply delete_suppliers_proof|done|done]|]. clear h Hw Ha dss. intros h [] dss Hw Ha.
  eapply ends_bind; [apply (Hres _ (link_consumers_to_markets ln t) xs); [intros; by apply links_proof|done|done]|]. clear h Hw Ha dss. intros h [] dss Hw [Fs Hs].
  assert (concat_mapR (fun ds => Ok [set_d_exchanges (filterb (fun _ => dataset_code_truthy ds) (d_exchanges ds)) ds]) dss = Ok (log_and_delete_unlinked_exchanges dss)) as <-.
  { clear. induction dss as [|ds dss IH]; [done|]. by rewrite concat_mapR_cons, IH. }
  eapply ends_does; [done|apply (concat_map_spec _ _ unlinked_refines h Fs xs dss Hw Hs)|]. intros h' ys b (Fs' & H & _). by exists Fs'.
Qed.
Lemma technology_run_proof md5 ln ord t dss :
  same_outcome ((let! xs := mapM store dss in let! ys := technology_h md5 ln ord t xs in mapM readD ys) nothing).1
    (link_markets_by_technology_level md5 ln ord t dss).
Proof.
  destruct (stores_proof nothing dss wf_nothing) as (r & h1 & E & O1 & xs & -> & Fs & Hs & _). rewrite (bindM_eq _ _ _ _ _ E).
  assert (wf h1) as Hw1 by by eapply only_wf. destruct (technology_ends md5 ln ord t h1 xs dss Hw1 ltac:(by exists Fs)) as (r2 & h2 & E2 & Hw2 & H2).
  rewrite (bindM_eq _ _ _ _ _ E2). clear E2. revert H2. generalize (link_markets_by_technology_level md5 ln ord t dss). intros v H2.
  destruct r2 as [ys|e], v as [d|e']; try done. destruct H2 as [Fs2 Hs2]. by rewrite (reads_spec _ _ _ _ Hs2).
Qed.
