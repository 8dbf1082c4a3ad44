(** Proofs for C77, second part: linking. *)
From stdpp Require Import gmap.
From Verif Require Import Base Types Uncertainty Utils Utils_proofs Validation Strings Grouping GroupUpdate Cutoff Topology
  Locations Consequential Spec_Order Order_proofs Codes_proofs.

(** *** Reordered datasets *)
Lemma reordered_fields d d' : reordered d d' ->
  d_name d' = d_name d /\ d_location d' = d_location d /\ d_type d' = d_type d /\ d_tech d' = d_tech d /\
  d_refprod d' = d_refprod d /\ d_code d' = d_code d /\ d_id d' = d_id d.
Proof.
  intros [H _]. pose proof (f_equal d_name H). pose proof (f_equal d_location H). pose proof (f_equal d_type H).
  pose proof (f_equal d_tech H). pose proof (f_equal d_refprod H). pose proof (f_equal d_code H). pose proof (f_equal d_id H). done.
Qed.
Lemma reordered_refl d : reordered d d.
Proof. split; [done|]. split; [done|]. by destruct (d_suppliers d). Qed.
Lemma reordered_products d d' : reordered d d' -> reference_products d ≡ₚ reference_products d'.
Proof. intros (_ & H & _). by apply filterb_perm. Qed.
Lemma reordered_single d d' : reordered d d' -> get_single_reference_product d' = get_single_reference_product d.
Proof.
  intros H. apply reordered_products in H. unfold get_single_reference_product.
  destruct (reference_products d) as [|e [|e2 l]].
  - apply Permutation_nil in H as ->. done.
  - apply Permutation_singleton_l in H as <-. done.
  - apply Permutation_length in H. by destruct (reference_products d') as [|? [|? ?]].
Qed.
Lemma reordered_volume d d' : reordered d d' -> production_volume d' = production_volume d.
Proof.
  intros H. apply reordered_products in H. unfold production_volume.
  destruct (reference_products d) as [|e [|e2 l]].
  - apply Permutation_nil in H as ->. done.
  - apply Permutation_singleton_l in H as <-. done.
  - apply Permutation_length in H. by destruct (reference_products d') as [|? [|? ?]].
Qed.
Lemma reordered_original d d' : reordered d d' -> original_production_volume d' = original_production_volume d.
Proof.
  intros H. apply reordered_products in H. unfold original_production_volume.
  destruct (reference_products d) as [|e [|e2 l]].
  - apply Permutation_nil in H as ->. done.
  - apply Permutation_singleton_l in H as <-. done.
  - apply Permutation_length in H. by destruct (reference_products d') as [|? [|? ?]].
Qed.

(** While linking, inputs still to be linked are even in the same order. *)
Definition rel (d d' : dataset) : Prop :=
  reordered d d' /\ filterb unlinked (d_exchanges d) = filterb unlinked (d_exchanges d').
Lemma rel_refl d : rel d d.
Proof. split; [apply reordered_refl|done]. Qed.
Lemma rel_refl_all data : Forall2 rel data data.
Proof. induction data; constructor; [apply rel_refl|done]. Qed.
Lemma rel_fields d d' : rel d d' ->
  d_name d' = d_name d /\ d_location d' = d_location d /\ d_type d' = d_type d /\ d_tech d' = d_tech d /\
  d_refprod d' = d_refprod d /\ d_code d' = d_code d /\ d_id d' = d_id d.
Proof. intros [H _]. by apply reordered_fields. Qed.
Lemma rel_is_type ty d d' : rel d d' -> is_type ty d = is_type ty d'.
Proof. intros H. apply rel_fields in H as (_ & _ & H & _). unfold is_type. by rewrite H. Qed.
Lemma rel_location d d' : rel d d' -> d_location d = d_location d'.
Proof. intros H. by apply rel_fields in H as (_ & H & _). Qed.
Lemma rel_refprod d d' : rel d d' -> refprod d = refprod d'.
Proof. intros H. apply rel_fields in H as (_ & _ & _ & _ & H & _). unfold refprod. by rewrite H. Qed.
Lemma rel_typed tys d d' : rel d d' -> typed_refprod tys d = typed_refprod tys d'.
Proof. intros H. unfold typed_refprod. rewrite (rel_refprod _ _ H). apply rel_fields in H as (_ & _ & H & _). by rewrite H. Qed.
Lemma rel_single d d' : rel d d' -> get_single_reference_product d' = get_single_reference_product d.
Proof. intros [H _]. by apply reordered_single. Qed.
Lemma rel_annotate e d d' : rel d d' -> annotate_exchange e d = annotate_exchange e d'.
Proof. intros H. apply rel_fields in H as (H1 & H2 & _ & H4 & _ & H6 & _). unfold annotate_exchange. by rewrite H1, H2, H4, H6. Qed.
Lemma map_Forall2 {A A' B} (R : A -> A' -> Prop) (f : A -> B) (f' : A' -> B) l l' :
  Forall2 R l l' -> (forall x y, R x y -> f x = f' y) -> map f l = map f' l'.
Proof. induction 1 as [|x y l l' H _ IH]; intros Hf; [done|]. cbn. rewrite (Hf x y H), IH; done. Qed.
Lemma rel_locations data data' : Forall2 rel data data' -> map d_location data = map d_location data'.
Proof. intros H. eapply map_Forall2; [exact H|]. apply rel_location. Qed.
Lemma prel_locations g g' : Forall2 (prel rel) g g' -> map (fun p => d_location p.2) g = map (fun p => d_location p.2) g'.
Proof. intros H. eapply map_Forall2; [exact H|]. intros p q [_ H1]. by apply rel_location. Qed.
Lemma by_location_rel l data data' : Forall2 rel data data' ->
  match by_location l data, by_location l data' with Some d, Some d' => rel d d' | None, None => True | _, _ => False end.
Proof.
  intros H. unfold by_location. apply last_Forall2. apply filterb_Forall2; [done|]. intros x y Hx. by rewrite (rel_location _ _ Hx).
Qed.

(** Changes of the exchanges, one by one. *)
Lemma reordered_exchanges d d' es es' : reordered d d' -> es ≡ₚ es' -> reordered (set_d_exchanges es d) (set_d_exchanges es' d').
Proof. intros (H & _ & Hs) He. split; [exact H|]. split; [exact He|exact Hs]. Qed.
Lemma reordered_suppliers d d' s s' : reordered d d' ->
  match s, s' with Some l, Some l' => l ≡ₚ l' | None, None => True | _, _ => False end ->
  reordered (set_d_suppliers s d) (set_d_suppliers s' d').
Proof. intros (H & He & _) Hs. split; [exact H|]. split; [exact He|exact Hs]. Qed.
Lemma filterb_map_same {A} (p : A -> bool) (g : A -> A) l : (forall x, p (g x) = p x) -> filterb p (map g l) = map g (filterb p l).
Proof. intros H. unfold filterb. induction l as [|x l IH]; [done|]. cbn. rewrite H. destruct (p x); cbn; by rewrite IH. Qed.
Lemma rel_map g d d' : (forall e, unlinked (g e) = unlinked e) -> rel d d' ->
  rel (set_d_exchanges (map g (d_exchanges d)) d) (set_d_exchanges (map g (d_exchanges d')) d').
Proof.
  intros Hg [H Hu]. split.
  - apply reordered_exchanges; [done|]. apply Permutation_map. by destruct H as (_ & H & _).
  - cbn [d_exchanges set_d_exchanges]. rewrite !filterb_map_same by done. by rewrite Hu.
Qed.
Lemma rel_set_rp_pv f d d' : rel d d' -> rel (set_rp_pv f d) (set_rp_pv f d').
Proof.
  intros H. unfold set_rp_pv. apply rel_map; [|done]. intros e. case_bool_decide as Ht; [|done].
  unfold unlinked, code_truthy. cbn. done.
Qed.
Lemma unlinked_mapR (g : exchange -> result exchange) es r : (forall e e', g e = Ok e' -> unlinked e = false -> unlinked e' = false) ->
  mapR g es = Ok r -> exists r1, mapR g (filterb unlinked es) = Ok r1 /\ filterb unlinked r = filterb unlinked r1.
Proof.
  intros Hg. revert r. unfold filterb. induction es as [|e es IH]; intros r H; cbn [mapR] in H.
  - apply Ok_inj in H as <-. by exists [].
  - apply bind_Ok in H as (e' & He & H). apply bind_Ok in H as (r' & Hr & <-%Ok_inj). destruct (IH r' Hr) as (r1 & H1 & H2).
    cbn [List.filter]. destruct (unlinked e) eqn:E.
    + exists (e' :: r1). cbn [mapR]. rewrite He. cbn [bind]. rewrite H1. split; [done|]. cbn [List.filter]. by rewrite H2.
    + exists r1. split; [done|]. by rewrite (Hg e e' He E).
Qed.
Lemma rel_mapR g d d' : (forall e e', g e = Ok e' -> unlinked e = false -> unlinked e' = false) -> rel d d' ->
  both rel (let? es := mapR g (d_exchanges d) in Ok (set_d_exchanges es d))
    (let? es := mapR g (d_exchanges d') in Ok (set_d_exchanges es d')).
Proof.
  intros Hg [H Hu]. pose proof (both_mapR_perm g _ _ (proj1 (proj2 H))) as HP.
  destruct (mapR g (d_exchanges d)) as [r|] eqn:E, (mapR g (d_exchanges d')) as [r'|] eqn:E'; cbn in HP |- *; try done.
  split; [by apply reordered_exchanges|]. cbn [d_exchanges set_d_exchanges].
  destruct (unlinked_mapR g _ _ Hg E) as (r1 & H1 & ->). destruct (unlinked_mapR g _ _ Hg E') as (r2 & H2 & ->).
  rewrite Hu, H2 in H1. by injection H1 as ->.
Qed.

(** *** Suppliers of markets *)
Lemma group_supply_rel o o' t loc g g' : iterates o -> iterates o' -> Forall2 rel g g' ->
  both Permutation (group_supply o t loc g) (group_supply o' t loc g').
Proof.
  intros Ho Ho' H. unfold group_supply. rewrite <- (rel_locations _ _ H).
  apply both_same. intros _ _. apply both_same. intros row _. apply both_same. intros c _.
  set (s := c ∩ list_to_set (map d_location g)).
  erewrite (mapR_ext _ (fun l => let? obj := getkey l (by_location l g') in
     let? rp := get_single_reference_product obj in Ok (annotate_exchange rp obj))).
  - apply both_mapR_perm. by rewrite (Ho s), (Ho' s).
  - intros l. pose proof (by_location_rel l _ _ H) as HB. destruct (by_location l g) as [d|], (by_location l g') as [d'|]; try done.
    cbn [getkey bind]. rewrite (rel_single _ _ HB). destruct (get_single_reference_product d); [|done]. cbn [bind].
    by rewrite (rel_annotate _ _ _ HB).
Qed.
Lemma supply_rel o o' t loc l l' : iterates o -> iterates o' -> Forall2 rel l l' ->
  both Permutation (supply o t loc l) (supply o' t loc l').
Proof.
  intros Ho Ho' H. unfold supply. eapply both_concat; [eapply (groupby_rel rel)|].
  - apply Forall2_fmap. eapply Forall2_impl; [exact H|]. intros d d' Hd. split; [|done]. by apply rel_fields in Hd as (-> & _).
  - intros g g' _ [_ Hg]. by apply group_supply_rel.
Qed.
Lemma apportion_rel o o' t cs cs' l l' : iterates o -> iterates o' -> Forall2 (prel rel) cs cs' -> Forall2 rel l l' ->
  both (Forall2 (prel rel)) (apportion o t cs l) (apportion o' t cs' l').
Proof.
  intros Ho Ho' Hc Hl. unfold apportion. rewrite <- (prel_locations _ _ Hc). apply both_same. intros _ _.
  apply both_same. intros row _. eapply both_mapR; [exact Hc|]. intros [i d] [j d'] _ [Hi Hd]. cbn [fst snd] in Hi, Hd |- *. subst j.
  rewrite <- (rel_location _ _ Hd). eapply both_bind; [by apply supply_rel|]. intros new new' _ Hnew. cbn. split; [done|]. cbn.
  destruct Hd as [Hd Hu]. split; [|exact Hu]. apply reordered_suppliers; [done|].
  destruct Hd as (_ & _ & Hs). destruct (d_suppliers d), (d_suppliers d'); try done; cbn; by rewrite Hs, Hnew.
Qed.
Lemma prel_snd g g' : Forall2 (prel rel) g g' -> Forall2 rel (map snd g) (map snd g').
Proof. intros H. apply Forall2_fmap. eapply Forall2_impl; [exact H|]. by intros p q [_ ?]. Qed.
Lemma add_rc_rel o o' t data data' : iterates o -> iterates o' -> Forall2 rel data data' ->
  both (Forall2 rel) (add_recycled_content_suppliers_to_markets o t data) (add_recycled_content_suppliers_to_markets o' t data').
Proof.
  intros Ho Ho' H. unfold add_recycled_content_suppliers_to_markets.
  eapply (both_bind (fun _ _ => True)).
  { eapply both_mono; [eapply (both_mapR rel eq); [exact H|]|done]. intros d d' _ Hd. rewrite (rel_typed _ _ _ Hd). apply both_eq. }
  intros _ _ _ _. eapply both_bind.
  { unfold rc_suppliers. apply both_filterR; [exact H|]. intros d d' Hd. by rewrite (rel_is_type _ _ _ Hd), (rel_refprod _ _ Hd). }
  intros rcs rcs' _ Hrcs. apply update_groups_rel; [done|intros d d' Hd; by apply rel_typed|].
  intros rp g g' _ Hg. rewrite <- (prel_locations _ _ Hg). apply both_same. intros _ _.
  assert (Forall2 rel (filterb (fun ds => bool_decide (d_refprod ds = Some (rp ++ RC_STRING)%string)) rcs)
    (filterb (fun ds => bool_decide (d_refprod ds = Some (rp ++ RC_STRING)%string)) rcs')) as HS.
  { apply filterb_Forall2; [done|]. intros d d' Hd. by apply rel_fields in Hd as (_ & _ & _ & _ & -> & _). }
  inversion HS as [E1 E2|x y l l' Hx Hl E1 E2]; [constructor|]. rewrite E1, E2. by apply apportion_rel.
Qed.
Lemma add_suppliers_rel o o' t a b data data' : iterates o -> iterates o' -> Forall2 rel data data' ->
  both (Forall2 rel) (add_suppliers_to_markets o t a b data) (add_suppliers_to_markets o' t a b data').
Proof.
  intros Ho Ho' H. unfold add_suppliers_to_markets. apply update_groups_rel; [done|intros d d' Hd; by apply rel_typed|].
  intros rp g g' _ Hg. cbv zeta.
  assert (Forall2 rel (filterb (is_type a) (map snd g)) (filterb (is_type a) (map snd g'))) as HS.
  { apply filterb_Forall2; [by apply prel_snd|]. intros d d'. apply rel_is_type. }
  match goal with |- both _ (match filterb ?p g with _ => _ end) (match filterb ?p' g' with _ => _ end) =>
    assert (Forall2 (prel rel) (filterb p g) (filterb p' g')) as HC end.
  { apply filterb_Forall2; [done|]. intros p q [_ Hd]. rewrite (rel_is_type _ _ _ Hd). f_equal. destruct Hd as [(_ & _ & Hs) _].
    destruct (d_suppliers p.2) as [l|], (d_suppliers q.2) as [l'|]; try done. destruct l as [|x l], l' as [|y l']; try done.
    - by apply Permutation_nil in Hs.
    - symmetry in Hs. by apply Permutation_nil in Hs. }
  pose proof (prel_locations _ _ HC) as HL.
  inversion HC as [E1 E2|x y l l' Hx Hl E1 E2]; [constructor|]. rewrite E1, E2. rewrite <- HL.
  apply both_same. intros _ _. by apply apportion_rel.
Qed.
