From stdpp Require Import gmap.
From Verif Require Import Base Types Utils Grouping GroupUpdate ActivityLinks Cutoff Topology Locations Heap Spec_Heap Heap_proofs HeapLinks HeapLinks_proofs HeapHard HeapHard_proofs
  HeapMarkets HeapMarkets_proofs HeapGroups Spec_HeapGroups HeapGroups_proofs HeapGroupLinks HeapGroupLinks_proofs HeapLinking.

(** ** Deleting *)
Lemma those_separate q h Fs xs dss : separate h Fs xs dss -> exists Fs' ys,
  those_h q xs h = (Ok ys, h) /\ separate h Fs' ys (filterb q dss) /\ forall x, x ∈ concat Fs' -> x ∈ concat Fs.
Proof.
  intros [H Hnd]. induction H as [|F a ds Fs xs dss Ha Hrest IH]; [exists [], []; split_and!; [done|by split; [constructor|]|done]|].
  cbn [concat] in Hnd. apply NoDup_app in Hnd as (N1 & N2 & N3). destruct (IH N3) as (Fs' & ys & E & [Hs HN] & Hsub). clear IH.
  assert (those_h q (a :: xs) h = (Ok (if q ds then a :: ys else ys), h)) as E2.
  { unfold those_h, concat_mapM in *. cbn [mapM]. 
    assert (forall ls h', mapM (fun a => let! ds := readD a in retM (if q ds then [a] else [])) xs h = (Ok ls, h') -> ys = concat ls /\ h' = h) as Hls.
    { intros ls h' El. rewrite (bindM_eq _ _ _ _ _ El) in E. unfold retM in E. by injection E as <- <-. }
    destruct (mapM (fun a => let! ds := readD a in retM (if q ds then [a] else [])) xs h) as [[ls|e] h'] eqn:El.
    - destruct (Hls ls h' eq_refl) as [-> ->].
      assert ((let! ds := readD a in retM (if q ds then [a] else [])) h = (Ok (if q ds then [a] else []), h)) as E1.
      { by rewrite (bindM_read _ _ _ _ (readD_eq _ _ _ _ Ha)). }
      match goal with |- bindM ?m _ h = _ => assert (m h = (Ok ((if q ds then [a] else []) :: ls), h)) as Em end.
      { rewrite (bindM_read _ _ _ _ E1). by rewrite (bindM_eq _ _ _ _ _ El). }
      rewrite (bindM_read _ _ _ _ Em). unfold retM. cbn [concat]. by destruct (q ds).
    - rewrite (bindM_eq _ _ _ _ _ El) in E. done. }
  rewrite filterb_cons. destruct (q ds).
  - exists (F :: Fs'), (a :: ys). split; [done|]. split; [split; [by constructor|]|].
    + cbn [concat]. apply NoDup_app. split_and!; [done| |done]. intros x Hx Hx2. apply (N2 x Hx). by apply Hsub.
    + cbn [concat]. intros x [Hx|Hx]%elem_of_app; apply elem_of_app; [by left|right; by apply Hsub].
  - exists Fs', ys. split; [done|]. split; [done|]. intros x Hx. cbn [concat]. apply elem_of_app. right. by apply Hsub.
Qed.
Lemma delete_global_proof kind h Fs xs dss : wf h -> separate h Fs xs dss ->
  does (next h) [] (delete_global_h kind xs) (delete_global_with_zero_pv_when_regional_present kind dss)
    (fun h' ys dss' => results (next h) (concat Fs) h' ys dss') h.
Proof.
  intros Hw Hs. unfold delete_global_h, delete_global_with_zero_pv_when_regional_present.
  pose proof (refprods_keyed Fs xs dss [kind] h Hs) as Hk. destruct (keyed (typed_refprod [kind]) dss) as [ks|e] eqn:Ek; cbn [fmapR] in Hk.
  2: { exists (Err e), h. split; [by rewrite (bindM_eq _ _ _ _ _ Hk)|]. split; [by apply only_refl|done]. }
  cbn [bind]. eapply does_read; [exact Hk|]. destruct (keyed_given dss _ _ Ek) as [Hg _].
  assert (Forall (fun g : string * list (nat * dataset) => given dss g.2) (groupby ks)) as HG.
  { apply Forall_forall. intros g Hgi p Hp. apply Hg. rewrite <- groupby_perm. apply elem_of_concat. exists g.2. split; [done|]. apply elem_of_list_fmap. by exists g. }
  assert (forall S, given dss S -> mapM readD (map (addr_of xs) S) h = (Ok (map snd S), h)) as Hread.
  { intros S HS. induction S as [|p S IH]; [done|]. cbn [map mapM].
    rewrite (bindM_read _ _ _ _ (exact_read Fs xs dss h dss p (start Fs xs dss h Hs) (HS p ltac:(by left)))).
    by rewrite (bindM_read _ _ _ _ (IH ltac:(intros q Hq; apply HS; by right))). }
  assert (mapM (fun g : string * list nat => let! ds := mapM readD g.2 in retM (idle_row ds)) (groupby (map (fun p : string * (nat * dataset) => (p.1, addr_of xs p.2)) ks)) h
    = (Ok (map (fun g : string * list (nat * dataset) => idle_row (map snd g.2)) (groupby ks)), h)) as Hp.
  { rewrite groupby_map. clear -HG Hread. induction HG as [|g G Hg _ IH]; [done|]. cbn [map mapM snd].
    assert ((let! ds := mapM readD (map (addr_of xs) g.2) in retM (idle_row ds)) h = (Ok (idle_row (map snd g.2)), h)) as E1 by by rewrite (bindM_read _ _ _ _ (Hread g.2 Hg)).
    rewrite (bindM_read _ _ _ _ E1). by rewrite (bindM_read _ _ _ _ IH). }
  eapply does_read; [exact Hp|].
  destruct (those_separate (fun ds => bool_decide (ds ∉ concat (map (fun g : string * list (nat * dataset) => idle_row (map snd g.2)) (groupby ks)))) h Fs xs dss Hs) as (Fs' & ys & E & Hs' & Hsub).
  exists (Ok ys), h. split; [exact E|]. split; [by apply only_refl|]. exists ys. split; [done|]. exists Fs'. split; [done|]. intros x Hx. left. by apply Hsub.
Qed.

(** ** One after the other *)
Definition ends {A B} (Q : heap -> A -> B -> Prop) (m : M A) (v : result B) (h : heap) : Prop :=
  exists r h', m h = (r, h') /\ wf h' /\
    match r, v with Ok a, Ok b => Q h' a b | Err _, Err _ => True | _, _ => False end.
Lemma ends_does {A B} n F (Q Q' : heap -> A -> B -> Prop) m v h : wf h -> does n F m v Q h -> (forall h' a b, Q h' a b -> Q' h' a b) -> ends Q' m v h.
Proof.
  intros Hw (r & h' & E & O & H) HQ. exists r, h'. split; [done|]. split; [by eapply only_wf|]. destruct v as [b|e]; [|by rewrite H].
  destruct H as (a & -> & H). by apply HQ.
Qed.
Lemma ends_bind {A B C D} (Q : heap -> A -> B -> Prop) (P : heap -> C -> D -> Prop) m v k kv h : ends Q m v h ->
  (forall h' a b, wf h' -> Q h' a b -> ends P (k a) (kv b) h') -> ends P (bindM m k) (bind v kv) h.
Proof.
  intros (r & h' & E & Hw & H) Hk. unfold ends. rewrite (bindM_eq _ _ _ _ _ E). destruct r as [a|e], v as [b|e']; try done; cbn [bind].
  - by apply Hk.
  - by exists (Err e), h'.
Qed.
Definition apart (h : heap) (xs : list nat) (dss : list dataset) : Prop := exists Fs, separate h Fs xs dss.
Lemma group_volumes_ends t h xs dss : wf h -> apart h xs dss ->
  ends (fun h' _ => apart h' xs) (update_group_volumes_h t xs) (update_market_production_volumes t MarketGroup dss) h.
Proof.
  intros Hw [Fs Hs]. destruct (group_volumes_proof t h Fs xs dss Hw Hs) as (v & Hv & Hd).
  destruct (ends_does _ _ _ (fun h' _ => apart h' xs) _ _ _ Hw Hd) as (r & h' & E & Hw' & H); [intros h' a b H; by exists Fs|].
  exists r, h'. split; [done|]. split; [done|]. destruct v as [b|e], (update_market_production_volumes t MarketGroup dss) as [b'|e']; try done. cbn in Hv. by subst b'.
Qed.
Lemma linking_ends ln ord t h xs dss : wf h -> apart h xs dss ->
  ends apart (linking_h ln ord t xs)
    (let? data := actualize_activity_links dss in
     let? data := add_recycled_content_suppliers_to_markets ord t data in
     let? data := add_suppliers_to_markets ord t Transforming MarketActivity data in
     let? data := update_market_production_volumes t MarketActivity data in
     let? data := delete_global_with_zero_pv_when_regional_present MarketActivity data in
     let? data := delete_global_with_zero_pv_when_regional_present Transforming data in
     let? data := allocate_all_market_suppliers MarketActivity data in
     let? data := link_market_group_suppliers t data in
     let? data := update_market_production_volumes t MarketGroup data in
     let? data := allocate_all_market_suppliers MarketGroup data in
     let? data := link_consumers_to_recycled_content_activities data in
     link_consumers_to_markets ln t data) h.
Proof.
  intros Hw Ha. unfold linking_h.
  assert (forall (m : M unit) (v : list dataset -> result (list dataset)) xs,
    (forall h Fs dss, wf h -> separate h Fs xs dss -> does (next h) (concat Fs) m (v dss) (fun h' _ dss' => separate h' Fs xs dss') h) ->
    forall h dss, wf h -> apart h xs dss -> ends (fun h' _ => apart h' xs) m (v dss) h) as Hsep.
  { intros m v ys Hm h' d Hw' [Fs Hs]. eapply ends_does; [done|by apply (Hm h' Fs d)|]. intros h'' a b H. by exists Fs. }
  assert (forall (m : M unit) (v : list dataset -> result (list dataset)) xs,
    (forall h Fs dss, wf h -> separate h Fs xs dss -> does (next h) (concat Fs) m (v dss) (fun h' _ dss' => results (next h) (concat Fs) h' xs dss') h) ->
    forall h dss, wf h -> apart h xs dss -> ends (fun h' _ => apart h' xs) m (v dss) h) as Hres.
  { intros m v ys Hm h' d Hw' [Fs Hs]. eapply ends_does; [done|by apply (Hm h' Fs d)|]. intros h'' a b H. destruct H as (Fs' & H & _). by exists Fs'. }
  assert (forall kind h xs dss, wf h -> apart h xs dss -> ends apart (delete_global_h kind xs) (delete_global_with_zero_pv_when_regional_present kind dss) h) as Hdel.
  { intros kind h' ys d Hw' [Fs Hs]. eapply ends_does; [done|by apply (delete_global_proof kind h' Fs)|]. intros h'' zs b H. destruct H as (Fs' & H & _). by exists Fs'. }
  eapply ends_bind; [apply (Hsep _ _ xs); [intros; by apply actualize_proof|done|done]|]. clear h Hw Ha dss. intros h [] dss Hw Ha.
  eapply ends_bind; [apply (Hsep _ _ xs); [intros; by apply recycled_suppliers_proof|done|done]|]. clear h Hw Ha dss. intros h [] dss Hw Ha.
  eapply ends_bind; [apply (Hsep _ (add_suppliers_to_markets ord t Transforming MarketActivity) xs); [intros; by apply suppliers_proof|done|done]|]. clear h Hw Ha dss. intros h [] dss Hw Ha.
  eapply ends_bind; [apply (Hsep _ _ xs); [intros; by apply volumes_proof|done|done]|]. clear h Hw Ha dss. intros h [] dss Hw Ha.
  eapply ends_bind; [by apply Hdel|]. clear h Hw Ha dss xs. intros h xs dss Hw Ha.
  eapply ends_bind; [by apply Hdel|]. clear h Hw Ha dss xs. intros h xs dss Hw Ha.
  eapply ends_bind; [apply (Hres _ _ xs); [intros; by apply allocate_all_proof|done|done]|]. clear h Hw Ha dss. intros h [] dss Hw Ha.
  eapply ends_bind; [apply (Hsep _ _ xs); [intros; by apply group_links_proof|done|done]|]. clear h Hw Ha dss. intros h [] dss Hw Ha.
  eapply ends_bind; [by apply group_volumes_ends|]. clear h Hw Ha dss. intros h [] dss Hw Ha.
  eapply ends_bind; [apply (Hres _ _ xs); [intros; by apply allocate_all_proof|done|done]|]. clear h Hw Ha dss. intros h [] dss Hw Ha.
  eapply ends_bind; [apply (Hsep _ _ xs); [intros; by apply recycled_proof|done|done]|]. clear h Hw Ha dss. intros h [] dss Hw Ha.
  destruct (Hres (link_consumers_h ln t xs) (link_consumers_to_markets ln t) xs ltac:(intros; by apply links_proof) h dss Hw Ha) as (r & h' & E & Hw' & H).
  unfold ends. rewrite (bindM_eq _ _ _ _ _ E). destruct r as [[]|e]; [by exists (Ok xs), h'|by exists (Err e), h'].
Qed.
Lemma linking_run_proof ln ord t dss :
  same_outcome ((let! xs := mapM store dss in let! ys := linking_h ln ord t xs in mapM readD ys) nothing).1
    (let? data := actualize_activity_links dss in
     let? data := add_recycled_content_suppliers_to_markets ord t data in
     let? data := add_suppliers_to_markets ord t Transforming MarketActivity data in
     let? data := update_market_production_volumes t MarketActivity data in
     let? data := delete_global_with_zero_pv_when_regional_present MarketActivity data in
     let? data := delete_global_with_zero_pv_when_regional_present Transforming data in
     let? data := allocate_all_market_suppliers MarketActivity data in
     let? data := link_market_group_suppliers t data in
     let? data := update_market_production_volumes t MarketGroup data in
     let? data := allocate_all_market_suppliers MarketGroup data in
     let? data := link_consumers_to_recycled_content_activities data in
     link_consumers_to_markets ln t data).
Proof.
  destruct (stores_proof nothing dss wf_nothing) as (r & h1 & E & O1 & xs & -> & Fs & Hs & _). rewrite (bindM_eq _ _ _ _ _ E).
  assert (wf h1) as Hw1 by by eapply only_wf. destruct (linking_ends ln ord t h1 xs dss Hw1 ltac:(by exists Fs)) as (r2 & h2 & E2 & Hw2 & H2).
  rewrite (bindM_eq _ _ _ _ _ E2). clear E2. match goal with |- same_outcome _ ?w => revert H2; generalize w end. intros v H2.
  destruct r2 as [ys|e], v as [d|e']; try done. destruct H2 as [Fs2 Hs2]. by rewrite (reads_spec _ _ _ _ Hs2).
Qed.
