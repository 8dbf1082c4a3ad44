(** Proofs for C77, third part: volumes, shares and market groups. *)
From stdpp Require Import gmap.
From Verif Require Import Base Types Uncertainty Utils Utils_proofs Validation Strings Grouping GroupUpdate Cutoff Topology
  Locations Consequential Spec_Order Order_proofs Order2_proofs Codes_proofs.

(** What is known while linking: codes, here and of suppliers, are not empty, and codes
    of datasets differ. *)
Notation coded := (good (fun _ => False) (fun c _ => c <> ""%string)).
Lemma Forall2_elem {A A'} (R : A -> A' -> Prop) l l' : Forall2 R l l' -> Forall2 (fun x y => R x y /\ x ∈ l /\ y ∈ l') l l'.
Proof.
  intros H. apply Forall2_same_length_lookup_2; [by eapply Forall2_length|]. intros i x y Hx Hy.
  split; [by eapply Forall2_lookup_lr|]. split; by eapply elem_of_list_lookup_2.
Qed.
Lemma NoDup_map_inj {A B} (f : A -> B) l x y : NoDup (map f l) -> x ∈ l -> y ∈ l -> f x = f y -> x = y.
Proof.
  induction l as [|z l IH]; intros H Hx Hy E; [set_solver|]. cbn in H. apply NoDup_cons in H as [Hz H].
  apply elem_of_cons in Hx as [->|Hx], Hy as [->|Hy]; [done| | |by apply IH].
  - destruct Hz. rewrite E. by apply (elem_of_list_fmap_1 f).
  - destruct Hz. rewrite <- E. by apply (elem_of_list_fmap_1 f).
Qed.
Lemma rel_code d d' : rel d d' -> d_code d = d_code d'.
Proof. intros H. by apply rel_fields in H as (_ & _ & _ & _ & _ & H & _). Qed.
Lemma rel_codes data data' : Forall2 rel data data' -> map d_code data = map d_code data'.
Proof. intros H. eapply map_Forall2; [exact H|]. apply rel_code. Qed.

(** *** Production volumes of markets *)
Lemma rel_suppliers d d' : rel d d' ->
  both Permutation (getkey "suppliers" (d_suppliers d)) (getkey "suppliers" (d_suppliers d')).
Proof. intros [(_ & _ & H) _]. by destruct (d_suppliers d), (d_suppliers d'). Qed.
Lemma updated_volume_rel d d' : rel d d' -> both eq (updated_volume d) (updated_volume d').
Proof.
  intros H. unfold updated_volume. rewrite (rel_single _ _ H). apply both_same. intros rp _.
  eapply both_bind; [by apply rel_suppliers|]. intros s s' _ Hs. eapply both_bind; [by apply both_mapR_perm|]. intros _ _ _ _.
  apply both_same. intros v _. eapply both_bind; [by apply both_mapR_perm|]. intros a b _ Hab. cbn. by rewrite (Qcsum_perm _ _ Hab).
Qed.
Lemma update_volume_rel d d' : rel d d' -> both rel (update_volume d) (update_volume d').
Proof.
  intros H. unfold update_volume. eapply both_bind; [by apply updated_volume_rel|]. intros pv _ _ <-.
  eapply both_bind; [by apply rel_suppliers|]. intros s s' _ Hs. eapply both_bind; [by apply both_mapR_perm|]. intros a b _ Hab.
  cbn. rewrite (Qcsum_perm _ _ Hab). by apply rel_set_rp_pv.
Qed.
Lemma rel_set_suppliers d d' l l' : rel d d' -> l ≡ₚ l' -> rel (set_d_suppliers (Some l) d) (set_d_suppliers (Some l') d').
Proof. intros [H Hu] Hl. split; [|exact Hu]. by apply reordered_suppliers. Qed.
Lemma propagate_rel ds ds' pv d d' : rel ds ds' -> rel d d' -> (d = ds <-> d' = ds') ->
  both rel (propagate ds pv d) (propagate ds' pv d').
Proof.
  intros H Hd E. unfold propagate. rewrite (bool_decide_ext _ _ E). case_bool_decide; [done|].
  eapply both_bind; [by apply rel_suppliers|]. intros s s' _ Hs. rewrite (rel_code _ _ H).
  destruct s as [|x s], s' as [|y s'].
  - done.
  - by apply Permutation_nil in Hs.
  - symmetry in Hs. by apply Permutation_nil in Hs.
  - eapply both_bind; [by apply both_mapR_perm|]. intros _ _ _ _. apply both_same. intros c _.
    cbn [both]. apply rel_set_suppliers; [done|]. by apply Permutation_map.
Qed.
Lemma update_volume_code d d' : update_volume d = Ok d' -> d_code d' = d_code d.
Proof.
  unfold update_volume. intros H. apply bind_Ok in H as (? & _ & H). apply bind_Ok in H as (? & _ & H).
  by apply bind_Ok in H as (? & _ & <-%Ok_inj).
Qed.
Lemma propagate_code ds pv d d' : propagate ds pv d = Ok d' -> d_code d' = d_code d.
Proof.
  unfold propagate. intros H. case_bool_decide; [by apply Ok_inj in H as <-|]. apply bind_Ok in H as (s & _ & H).
  destruct s as [|x s]; [by apply Ok_inj in H as <-|]. apply bind_Ok in H as (? & _ & H). by apply bind_Ok in H as (? & _ & <-%Ok_inj).
Qed.
Lemma mapR_codes f data data' : (forall d d', f d = Ok d' -> d_code d' = d_code d) -> mapR f data = Ok data' ->
  map d_code data' = map d_code data.
Proof.
  intros Hf H. apply mapR_Ok in H. symmetry. eapply map_Forall2; [exact H|]. intros d d' Hd. cbv beta in Hd. symmetry. by apply Hf.
Qed.
Lemma insert_codes i d d' data : data !! i = Some d -> d_code d' = d_code d -> map d_code (<[i:=d']> data) = map d_code data.
Proof.
  intros Hi E. change (d_code <$> <[i:=d']> data = d_code <$> data). rewrite list_fmap_insert, E. apply list_insert_id.
  etransitivity; [apply list_lookup_fmap|]. by rewrite Hi.
Qed.
Lemma group_step_rel kind data data' i : Forall2 rel data data' -> NoDup (map d_code data) ->
  both (fun a b => Forall2 rel a b /\ NoDup (map d_code a)) (update_group_step kind data i) (update_group_step kind data' i).
Proof.
  intros H HN. unfold update_group_step. pose proof (proj1 (Forall2_lookup _ _ _) H i) as Hi.
  inversion Hi as [d d' Hd E1 E2|E1 E2]; [|done]. cbn [getkey bind].
  eapply both_bind; [by apply update_volume_rel|]. intros u u' Hu Huu.
  eapply both_bind; [by apply updated_volume_rel|]. intros pv _ _ <-. cbv zeta.
  assert (Forall2 rel (<[i:=u]> data) (<[i:=u']> data')) as HI by by apply Forall2_insert.
  assert (map d_code (<[i:=u]> data) = map d_code data) as HC.
  { eapply insert_codes; [by symmetry|]. by apply update_volume_code. }
  rewrite <- HC in HN. pose proof HN as HN'. rewrite (rel_codes _ _ HI) in HN'.
  assert (u ∈ <[i:=u]> data) as Hin.
  { eapply elem_of_list_lookup_2, list_lookup_insert. by eapply lookup_lt_Some. }
  assert (u' ∈ <[i:=u']> data') as Hin'.
  { eapply elem_of_list_lookup_2, list_lookup_insert. by eapply lookup_lt_Some. }
  eapply both_mono; [eapply both_mapR; [by apply Forall2_elem|]|].
  - intros x y _ (Hxy & Hx & Hy). rewrite (rel_is_type kind _ _ Hxy). destruct (is_type kind y); [|exact Hxy].
    apply propagate_rel; [done|done|]. split; intros ->.
    + apply (NoDup_map_inj d_code _ _ _ HN'); [done|done|]. by rewrite <- (rel_code _ _ Hxy), (rel_code _ _ Huu).
    + apply (NoDup_map_inj d_code _ _ _ HN); [done|done|]. by rewrite (rel_code _ _ Hxy), (rel_code _ _ Huu).
  - intros a b Ha Hab. split; [exact Hab|]. erewrite mapR_codes; [exact HN| |exact Ha]. cbv beta. intros x x' Hx.
    destruct (is_type kind x); [by eapply propagate_code|]. by apply Ok_inj in Hx as <-.
Qed.
Lemma group_order_rel t g g' : Forall2 (prel rel) g g' -> group_order t g = group_order t g'.
Proof.
  intros H. unfold group_order. rewrite (prel_locations _ _ H). destruct (ordered_dependencies _ _ _) as [o|]; [|done]. cbn [bind].
  assert (mapR (fun p => let? k := position o (d_location p.2) in Ok (k, p.1)) g =
    mapR (fun p => let? k := position o (d_location p.2) in Ok (k, p.1)) g') as ->; [|done].
  induction H as [|p q g g' [Hp Hd] _ IH]; [done|]. cbn [mapR]. rewrite (rel_location _ _ Hd), Hp. by rewrite IH.
Qed.
Lemma volumes_rel t kind data data' : Forall2 rel data data' -> NoDup (map d_code data) ->
  both (Forall2 rel) (update_market_production_volumes t kind data) (update_market_production_volumes t kind data').
Proof.
  intros H HN. unfold update_market_production_volumes. case_bool_decide.
  - erewrite group_order_rel.
    2:{ apply filterb_Forall2; [by apply (indexed_Forall2 rel)|]. intros p q [_ Hd]. cbv beta. by apply rel_is_type. }
    apply both_same. intros order _. eapply both_mono.
    + apply (both_foldR eq (fun a b => Forall2 rel a b /\ NoDup (map d_code a))); [clear; induction order; by constructor|done|].
      intros i _ a b _ <- [Hab Ha]. by apply group_step_rel.
    + by intros a b _ [Hab _].
  - eapply both_mapR; [exact H|]. intros d d' _ Hd. rewrite (rel_is_type kind _ _ Hd). destruct (is_type kind d'); [|exact Hd].
    by apply update_volume_rel.
Qed.

(** *** Markets without volume *)
Lemma find_rel {A A'} (R : A -> A' -> Prop) (p : A -> bool) (p' : A' -> bool) l l' : Forall2 R l l' ->
  (forall x y, R x y -> p x = p' y) ->
  match List.find p l, List.find p' l' with Some x, Some y => R x y | None, None => True | _, _ => False end.
Proof.
  intros H Hp. induction H as [|x y l l' Hxy _ IH]; [done|]. cbn [List.find]. rewrite (Hp x y Hxy). by destruct (p' y).
Qed.
Lemma idle_row_rel g g' : Forall2 rel g g' -> Forall2 rel (idle_row g) (idle_row g').
Proof.
  intros H. unfold idle_row. pose proof H as HF. destruct H as [|x y g g' Hx H]; [constructor|]. destruct H as [|x2 y2 g g' Hx2 H]; [constructor|].
  pose proof (find_rel rel (fun ds => (d_location ds =? "RoW")%string) (fun ds => (d_location ds =? "RoW")%string) _ _ HF) as HR.
  specialize (HR (fun a b Hab => f_equal (fun l => (l =? "RoW")%string) (rel_location _ _ Hab))).
  destruct (List.find _ (x :: _)) as [r|], (List.find _ (y :: _)) as [r'|]; try done.
  rewrite (reordered_original _ _ (proj1 HR)). destruct (original_production_volume r) as [v|]; [destruct (Qctruthy v)|]; first [by constructor|constructor; [exact HR|constructor]].
Qed.
Lemma idle_row_elem g d : d ∈ idle_row g -> d ∈ g.
Proof.
  unfold idle_row. destruct g as [|x [|y g]]; [done|set_solver|]. destruct (List.find _ _) as [r|] eqn:E; [|set_solver].
  apply List.find_some in E as [E _]. apply elem_of_list_In in E. destruct (original_production_volume r) as [v|]; [destruct (Qctruthy v)|]; set_solver.
Qed.
Lemma NoDup_filterb {A B} (f : A -> B) (p : A -> bool) l : NoDup (map f l) -> NoDup (map f (filterb p l)).
Proof.
  unfold filterb. induction l as [|x l IH]; intros H; [done|]. cbn in H. apply NoDup_cons in H as [Hx H]. cbn [List.filter].
  destruct (p x); [|by apply IH]. cbn [map]. apply NoDup_cons. split; [|by apply IH]. intros Hc. apply Hx.
  apply elem_of_list_fmap in Hc as (y & -> & Hy). apply elem_of_list_In, List.filter_In in Hy as [Hy _]. apply elem_of_list_In in Hy.
  by apply (elem_of_list_fmap_1 f).
Qed.
Lemma delete_global_rel kind data data' : Forall2 rel data data' -> NoDup (map d_code data) ->
  both (fun a b => Forall2 rel a b /\ NoDup (map d_code a))
    (delete_global_with_zero_pv_when_regional_present kind data) (delete_global_with_zero_pv_when_regional_present kind data').
Proof.
  intros H HN. pose proof HN as HN'. rewrite (rel_codes _ _ H) in HN'. unfold delete_global_with_zero_pv_when_regional_present.
  pose proof (keyed_rel rel (typed_refprod [kind]) (typed_refprod [kind]) data data' H (fun d d' Hd => rel_typed _ _ _ Hd)) as HK.
  destruct (keyed _ data) as [ks|] eqn:E, (keyed _ data') as [ks'|] eqn:E'; cbn in HK |- *; try done.
  split; [|by apply NoDup_filterb].
  assert (forall dt kk, keyed (typed_refprod [kind]) dt = Ok kk -> forall d, d ∈ concat (map (fun g => idle_row (map snd g.2)) (groupby kk)) -> d ∈ dt) as HE.
  { clear. intros dt kk E d Hd. apply elem_of_list_In, in_concat in Hd as (r & Hr & Hd). apply elem_of_list_In in Hr, Hd.
    apply elem_of_list_fmap in Hr as ([k xs] & -> & Hg). apply idle_row_elem in Hd. cbn [snd] in Hd.
    destruct (groupby_spec kk) as (_ & _ & Hgx). apply Hgx in Hg as [_ ->]. apply keyed_Ok in E as (_ & _ & Hw). rewrite Hw in Hd.
    apply elem_of_list_fmap in Hd as ([i x] & -> & Hd). apply elem_of_members in Hd as [Hd _]. by eapply elem_of_list_lookup_2. }
  assert (Forall2 rel (concat (map (fun g => idle_row (map snd g.2)) (groupby ks))) (concat (map (fun g => idle_row (map snd g.2)) (groupby ks')))) as HP.
  { apply Forall2_concat_of. apply Forall2_fmap. eapply Forall2_impl; [by apply (groupby_rel (prel rel))|].
    intros g g' [_ Hg]. apply idle_row_rel. by apply prel_snd. }
  eapply Forall2_impl; [apply (filterb_Forall2 (fun x y => rel x y /\ x ∈ data /\ y ∈ data')); [by apply Forall2_elem|]|by intros x y [? _]].
  intros x y (Hxy & Hx & Hy). apply bool_decide_ext. f_equiv.
  split; intros Hin; apply elem_of_list_lookup in Hin as [k Hk].
  - destruct (Forall2_lookup_l _ _ _ _ _ HP Hk) as (z & Hz & Hxz). apply elem_of_list_lookup_2 in Hz.
    rewrite (NoDup_map_inj d_code _ y z HN'); [done|done|by eapply HE|]. by rewrite <- (rel_code _ _ Hxy), (rel_code _ _ Hxz).
  - destruct (Forall2_lookup_r _ _ _ _ _ HP Hk) as (z & Hz & Hxz). apply elem_of_list_lookup_2 in Hz.
    rewrite (NoDup_map_inj d_code _ x z HN); [done|done|by eapply HE|]. by rewrite (rel_code _ _ Hxy), (rel_code _ _ Hxz).
Qed.

(** *** Shares of suppliers *)
Lemma volumes_perm l l' : l ≡ₚ l' ->
  both (fun o o' => match o, o' with Some (s, t), Some (s', t') => s ≡ₚ s' /\ t = t' | None, None => True | _, _ => False end)
    (volumes l) (volumes l').
Proof.
  intros H. unfold volumes. eapply both_bind; [by apply both_mapR_perm|]. intros a b _ Hab. cbv zeta. rewrite (Qcsum_perm _ _ Hab).
  destruct (Qctruthy _); [done|]. destruct l as [|x [|y l]].
  - apply Permutation_nil in H as ->. done.
  - apply Permutation_singleton_l in H as <-. done.
  - apply Permutation_length in H. by destruct l' as [|? [|? ?]].
Qed.
Lemma filterb_app {A} (p : A -> bool) l1 l2 : filterb p (l1 ++ l2) = filterb p l1 ++ filterb p l2.
Proof. apply List.filter_app. Qed.
Lemma filterb_none {A} (p : A -> bool) l : Forall (fun x => p x = false) l -> filterb p l = [].
Proof. unfold filterb. induction 1 as [|x l Hx _ IH]; [done|]. cbn. by rewrite Hx. Qed.
Lemma coded_input e : e_type e = FromTechnosphere -> (exists c, e_code e = Some c /\ c <> ""%string) -> unlinked e = false.
Proof.
  intros Ht (c & Hc & Hne). unfold unlinked, code_truthy. rewrite Ht, Hc. apply String.eqb_neq in Hne. by rewrite Hne.
Qed.
Lemma allocate_rel d d' : coded d -> rel d d' -> both rel (allocate_suppliers d) (allocate_suppliers d').
Proof.
  intros Hc H. unfold allocate_suppliers. rewrite (rel_single _ _ H). apply both_same. intros exc _.
  eapply both_bind; [by apply rel_suppliers|]. intros s s' Es Hs. eapply both_bind; [by apply volumes_perm|].
  intros o o' Eo Ho. destruct o as [[u tt']|], o' as [[u' t']|]; try done. destruct Ho as [Hu <-].
  eapply both_bind; [by apply both_concat_perm|]. intros n n' En Hn. cbn.
  assert (Forall (fun e => unlinked e = false) n) as HL.
  { destruct Hc as (_ & _ & _ & H4). destruct (d_suppliers d) as [s0|]; [|discriminate]. apply Ok_inj in Es as ->.
    pose proof (volumes_suppliers _ _ _ _ Eo (H4 _ eq_refl)) as HS. apply concat_mapR_Ok in En as (rs & HF & ->). apply Forall_concat. clear -HF HS.
    induction HF as [|x r ss rs Hr _ IH]; [constructor|]. apply Forall_cons in HS as [(c & Hc & HK) HS]. constructor; [|by apply IH].
    unfold input_of in Hr. apply bind_Ok in Hr as (pv & _ & Hr). apply bind_Ok in Hr as (f & _ & Hr). destruct (Qctruthy f); [|by apply Ok_inj in Hr as <-].
    apply bind_Ok in Hr as (e & He & <-%Ok_inj). constructor; [|constructor]. unfold market_input in He. rewrite Hc in He. cbn [getkey bind] in He.
    apply Ok_inj in He as <-. apply coded_input; [done|]. by exists c. }
  assert (Forall (fun e => unlinked e = false) n') as HL' by by rewrite <- Hn.
  apply rel_set_suppliers; [|done]. destruct H as [H HU]. split.
  - apply reordered_exchanges; [done|]. destruct H as (_ & -> & _). by rewrite Hn.
  - cbn [d_exchanges set_d_exchanges]. rewrite !filterb_app, (filterb_none _ _ HL), (filterb_none _ _ HL'). by rewrite HU.
Qed.
Lemma allocate_all_rel kind data data' : Forall coded data -> Forall2 rel data data' ->
  both (Forall2 rel) (allocate_all_market_suppliers kind data) (allocate_all_market_suppliers kind data').
Proof.
  intros Hc H. eapply both_mapR; [exact H|]. intros d d' Hin Hd. rewrite (rel_is_type kind _ _ Hd). destruct (is_type kind d'); [|exact Hd].
  apply allocate_rel; [|done]. rewrite Forall_forall in Hc. by apply Hc.
Qed.

(** *** Technology levels *)
Lemma best_level_perm l l' levels : l ≡ₚ l' -> both Permutation (best_level l levels) (best_level l' levels).
Proof.
  intros H. induction levels as [|lv levels IH]; [apply perm_nil|].
  change (best_level l (lv :: levels)) with
    (let? s := filterR (fun o => let? x := getkey "technology level" (e_tech o) in Ok (x =? lv)%string) l in
     match s with [] => best_level l levels | _ => Ok s end).
  change (best_level l' (lv :: levels)) with
    (let? s := filterR (fun o => let? x := getkey "technology level" (e_tech o) in Ok (x =? lv)%string) l' in
     match s with [] => best_level l' levels | _ => Ok s end).
  eapply both_bind; [by apply both_filterR_perm|]. intros s s' _ Hs. destruct s as [|x s], s' as [|y s'].
  - done.
  - by apply Permutation_nil in Hs.
  - symmetry in Hs. by apply Permutation_nil in Hs.
  - done.
Qed.
Lemma prune_rel data data' : Forall2 rel data data' ->
  both (Forall2 rel) (prune_suppliers_by_technology_level data) (prune_suppliers_by_technology_level data').
Proof.
  intros H. eapply both_mapR; [exact H|]. intros d d' _ Hd. unfold prune_dataset. rewrite !(rel_is_type _ _ _ Hd).
  destruct (_ || _); [|exact Hd]. pose proof Hd as [(_ & _ & Hs) _].
  destruct (d_suppliers d) as [[|x l]|], (d_suppliers d') as [[|y l']|]; try done.
  - by apply Permutation_nil in Hs.
  - symmetry in Hs. by apply Permutation_nil in Hs.
  - eapply both_bind; [by apply best_level_perm|]. intros s s' _ Hss. destruct s as [|a s], s' as [|b s'].
    + done.
    + by apply Permutation_nil in Hss.
    + symmetry in Hss. by apply Permutation_nil in Hss.
    + cbn. by apply rel_set_suppliers.
Qed.
Lemma delete_suppliers_rel data data' : Forall2 rel data data' -> Forall2 rel (delete_suppliers_list data) (delete_suppliers_list data').
Proof. intros H. apply Forall2_fmap. eapply Forall2_impl; [exact H|]. intros d d' [Hd Hu]. split; [|exact Hu]. by apply reordered_suppliers. Qed.

(** *** Market groups *)
Lemma collect_ext inside (take take' : string -> bool) found cs : (forall c, take c = take' c) ->
  collect inside take found cs = collect inside take' found cs.
Proof.
  intros H. revert found. induction cs as [|c cs IH]; intros found; [done|]. cbn [collect]. destruct (inside c found); [|done].
  cbn [bind]. rewrite H. apply IH.
Qed.
Lemma isort_rel {A A'} (R : A -> A' -> Prop) (le : A -> A -> bool) (le' : A' -> A' -> bool) l l' :
  (forall x y x' y', R x x' -> R y y' -> le x y = le' x' y') -> Forall2 R l l' -> Forall2 R (isort le l) (isort le' l').
Proof.
  intros Hle. induction 1 as [|x x' l l' Hx _ IH]; [constructor|]. unfold isort. cbn [foldr].
  change (foldr (insert_sorted le) [] l) with (isort le l). change (foldr (insert_sorted le') [] l') with (isort le' l').
  revert IH. generalize (isort le l) (isort le' l'). induction 1 as [|y y' m m' Hy Hm IHm]; cbn [insert_sorted]; [by constructor|].
  rewrite (Hle x y x' y' Hx Hy). destruct (le' x' y'); constructor; [done|by constructor|done|done].
Qed.
Lemma is_market_rel l data data' : Forall2 rel data data' ->
  match by_location l data with Some _ => true | None => false end = match by_location l data' with Some _ => true | None => false end.
Proof. intros H. pose proof (by_location_rel l _ _ H) as HB. by destruct (by_location l data), (by_location l data'). Qed.
Lemma group_suppliers_rel t ms ms' gs gs' row ordered loc : Forall2 rel ms ms' -> Forall2 rel gs gs' ->
  both eq (group_suppliers t ms gs row ordered loc) (group_suppliers t ms' gs' row ordered loc).
Proof.
  intros Hm Hg. unfold group_suppliers. cbv zeta.
  erewrite collect_ext; [|intros c; rewrite (is_market_rel c _ _ Hm); reflexivity].
  apply both_same. intros found _. eapply (both_bind (Forall2 rel)).
  { eapply (both_mapR eq); [clear; induction found; by constructor|]. intros c _ _ <-.
    pose proof (by_location_rel c _ _ Hm) as HB. pose proof (by_location_rel c _ _ Hg) as HB'.
    destruct (by_location c ms), (by_location c ms'); try done. by destruct (by_location c gs), (by_location c gs'). }
  intros os os' _ Hos. eapply (both_bind (Forall2 (krel rel))).
  { eapply both_mapR; [exact Hos|]. intros d d' _ Hd. rewrite (rel_code _ _ Hd). apply both_same. intros c _. by cbn. }
  intros cs cs' _ Hcs.
  assert (Forall2 (krel rel) (isort code_leb cs) (isort code_leb cs')) as HS.
  { apply isort_rel; [|done]. intros x y x' y' [Hx _] [Hy _]. unfold code_leb. by rewrite Hx, Hy. }
  eapply both_mono; [eapply (both_mapR _ eq); [exact HS|]|].
  - intros x y _ [_ Hd]. rewrite (rel_single _ _ Hd). apply both_same. intros rp _. cbn. by apply rel_annotate.
  - intros a b _ Hab. clear -Hab. induction Hab; [done|by subst].
Qed.
Lemma forallb_rel {A A'} (R : A -> A' -> Prop) (p : A -> bool) (p' : A' -> bool) l l' : Forall2 R l l' ->
  (forall x y, R x y -> p x = p' y) -> forallb p l = forallb p' l'.
Proof. intros H Hp. induction H as [|x y l l' Hxy _ IH]; [done|]. cbn [forallb]. by rewrite (Hp x y Hxy), IH. Qed.
Lemma rel_name d d' : rel d d' -> d_name d = d_name d'.
Proof. intros H. by apply rel_fields in H as (H & _). Qed.
Lemma consistent_rel g g' : Forall2 (prel rel) g g' -> consistent_names g = consistent_names g'.
Proof.
  intros H. unfold consistent_names. destruct H as [|p q g g' Hpq H]; [done|].
  apply (forallb_rel (prel rel)); [by constructor|]. intros x y [_ Hx]. destruct Hpq as [_ Hpq].
  by rewrite (rel_name _ _ Hx), (rel_name _ _ Hpq).
Qed.
Lemma link_group_rel t ms ms' g g' : Forall2 rel ms ms' -> Forall2 (prel rel) g g' ->
  both (Forall2 (prel rel)) (link_group t ms g) (link_group t ms' g').
Proof.
  intros Hm Hg. unfold link_group. cbv zeta. pose proof (prel_snd _ _ Hg) as Hg2.
  rewrite <- (rel_locations _ _ Hm), <- (rel_locations _ _ Hg2).
  apply both_same. intros row _. apply both_same. intros ordered _.
  eapply both_mapR.
  - apply (filterb_Forall2 (prel rel)); [exact Hg|]. intros p q [Hp Hd].
    assert (Forall2 (prel rel) (filterb (fun x => (d_location x.2 =? d_location p.2)%string) g)
      (filterb (fun x => (d_location x.2 =? d_location q.2)%string) g')) as HF.
    { apply filterb_Forall2; [done|]. intros x y [_ Hx]. by rewrite (rel_location _ _ Hx), (rel_location _ _ Hd). }
    pose proof (last_Forall2 _ _ _ HF) as HL. destruct (last _) as [x|], (last _) as [y|]; try done.
    destruct HL as [HL _]. by rewrite HL, Hp.
  - intros [i d] [j d'] _ [Hi Hd]. cbn [fst snd] in Hi, Hd |- *. subst j. rewrite (rel_location _ _ Hd).
    eapply both_bind; [by apply group_suppliers_rel|]. intros s _ _ <-. cbn. split; [done|]. cbn [snd].
    destruct Hd as [Hd Hu]. split; [|exact Hu]. apply reordered_suppliers; [done|]. by destruct s.
Qed.
Lemma link_groups_rel t data data' : Forall2 rel data data' ->
  both (Forall2 rel) (link_market_group_suppliers t data) (link_market_group_suppliers t data').
Proof.
  intros H. unfold link_market_group_suppliers.
  eapply both_bind; [apply (keyed_rel rel _ (typed_refprod [MarketGroup])); [exact H|intros d d'; apply rel_typed]|].
  intros ks ks' _ Hks. apply (both_bind (fun _ _ => True)).
  { pose proof (groupby_rel (prel rel) _ _ Hks) as HG. revert HG. generalize (groupby ks) (groupby ks').
    induction 1 as [|g g' l l' [_ Hg] _ IH]; [done|]. cbn [iterR]. rewrite (consistent_rel _ _ Hg).
    destruct (assertR _ _); cbn [bind]; [exact IH|done]. }
  intros _ _ _ _. apply update_groups_rel; [done|intros d d'; apply rel_typed|]. intros rp g g' _ Hg.
  eapply (both_bind (Forall2 rel)).
  - apply both_filterR; [done|]. intros d d' Hd. by rewrite (rel_is_type _ _ _ Hd), (rel_refprod _ _ Hd).
  - intros ms ms' _ Hm. by apply link_group_rel.
Qed.

(** *** Recycled content *)
Lemma rc_producers_rel data data' : Forall2 rel data data' -> both (Forall2 (krel rel)) (rc_producers data) (rc_producers data').
Proof.
  intros H. unfold rc_producers. eapply both_concat2; [exact H|]. intros d d' _ Hd. rewrite (rel_refprod _ _ Hd), (rel_is_type _ _ _ Hd).
  apply both_same. intros rp _. cbn. destruct (_ && _); [|by constructor]. constructor; [|constructor]. done.
Qed.
Lemma link_rc_rel ps ps' e : Forall2 (krel rel) ps ps' -> link_rc ps e = link_rc ps' e.
Proof.
  intros H. unfold link_rc. destruct (unlinked e); [|done].
  assert (Forall2 (krel rel) (filterb (fun p => (p.1 =? e_name e)%string) ps) (filterb (fun p => (p.1 =? e_name e)%string) ps')) as HF.
  { apply filterb_Forall2; [done|]. intros p q [Hp _]. by rewrite Hp. }
  destruct HF as [|p q l l' [_ Hp] HF]; [done|]. destruct HF; [|done]. by rewrite (rel_code _ _ Hp).
Qed.
Lemma rc_consumers_rel data data' : Forall2 rel data data' ->
  both (Forall2 rel) (link_consumers_to_recycled_content_activities data) (link_consumers_to_recycled_content_activities data').
Proof.
  intros H. unfold link_consumers_to_recycled_content_activities. eapply both_bind; [by apply rc_producers_rel|]. intros ps ps' _ Hps.
  eapply both_mapR; [exact H|]. intros d d' _ Hd.
  rewrite (mapR_ext (link_rc ps') (link_rc ps)) by (intros e; symmetry; by apply link_rc_rel).
  apply rel_mapR; [|done]. intros e e' He Hu. unfold link_rc in He. rewrite Hu in He. by apply Ok_inj in He as <-.
Qed.
