(** Proofs for C77, fourth part: consumers, and the models. *)
From stdpp Require Import gmap.
From Verif Require Import Base Types Uncertainty Utils Utils_proofs Validation Strings Grouping GroupUpdate Cutoff Topology
  Locations Consequential Pipeline Spec_Order Order_proofs Order2_proofs Order3_proofs Codes_proofs RestOfWorld_proofs
  Linked_proofs Spec_Pipeline Stems_proofs Pipeline_proofs.

(** *** Choice of markets *)
Definition orel (o o' : option (list dataset)) : Prop :=
  match o, o' with Some l, Some l' => Forall2 rel l l' | None, None => True | _, _ => False end.
Definition mrel : list (string * list dataset) -> list (string * list dataset) -> Prop := Forall2 (grel rel).
Lemma candidates_rel m m' b b' n : mrel m m' -> orel b b' -> both (Forall2 rel) (candidates_for m b n) (candidates_for m' b' n).
Proof.
  intros H Hb. unfold candidates_for.
  pose proof (find_rel (grel rel) (fun g => (g.1 =? n)%string) (fun g => (g.1 =? n)%string) m m' H) as HF.
  specialize (HF (fun x y Hxy => f_equal (fun s => (s =? n)%string) (proj1 Hxy))).
  destruct (List.find _ m) as [g|], (List.find _ m') as [g'|]; try done; [by destruct HF|].
  destruct (n =? "refinery gas")%string; [|done]. by destruct b, b'.
Qed.
Lemma choose_rel t loc row cs cs' : Forall2 rel cs cs' -> both (Forall2 rel) (choose_markets t loc row cs) (choose_markets t loc row cs').
Proof.
  intros H. unfold choose_markets. cbv zeta.
  assert (Forall2 rel (filterb (is_type MarketActivity) cs) (filterb (is_type MarketActivity) cs')) as H1 by (apply filterb_Forall2; [done|apply rel_is_type]).
  assert (Forall2 rel (filterb (is_type MarketGroup) cs) (filterb (is_type MarketGroup) cs')) as H2 by (apply filterb_Forall2; [done|apply rel_is_type]).
  rewrite <- (rel_locations _ _ H1), <- (rel_locations _ _ H2). apply both_same. intros found _.
  eapply (both_mapR eq); [clear; induction found; by constructor|]. intros c _ _ <-.
  pose proof (by_location_rel c _ _ H1) as HB. pose proof (by_location_rel c _ _ H2) as HB'.
  destruct (by_location c _), (by_location c (filterb (is_type MarketActivity) cs')); try done.
  by destruct (by_location c _), (by_location c (filterb (is_type MarketGroup) cs')).
Qed.
Lemma annotate_supplier_rel e d d' : rel d d' -> annotate_supplier e d = annotate_supplier e d'.
Proof. intros H. unfold annotate_supplier. by rewrite (rel_annotate _ _ _ H), (reordered_volume _ _ (proj1 H)). Qed.
Lemma decide_rel ln e cs cs' : Forall2 rel cs cs' -> decide_input ln e cs = decide_input ln e cs'.
Proof.
  intros H. pose proof (map_Forall2 rel (annotate_supplier e) (annotate_supplier e) _ _ H (annotate_supplier_rel e)) as HA.
  unfold decide_input. destruct H as [|x y l l' Hx H]; [done|]. destruct H as [|x2 y2 l l' Hx2 H].
  - by rewrite (rel_code _ _ Hx).
  - by rewrite HA.
Qed.
Lemma consumer_row_rel t data data' d d' : Forall2 rel data data' -> rel d d' -> consumer_row_of t data d = consumer_row_of t data' d'.
Proof.
  intros H Hd. unfold consumer_row_of. rewrite (rel_location _ _ Hd). destruct (_ =? _)%string; [|done]. cbv zeta.
  rewrite (rel_is_type Transforming _ _ Hd), (rel_name _ _ Hd). set (ty := if is_type Transforming d' then Transforming else MarketActivity).
  erewrite (map_Forall2 rel d_location d_location); [reflexivity| |apply rel_location].
  apply filterb_Forall2; [done|]. intros x y Hx. by rewrite (rel_is_type _ _ _ Hx), (rel_name _ _ Hx).
Qed.

(** *** The exchanges of a consumer *)
Section consumer.
Context (todo todo' : list (nat * exchange)).
Definition tagged (t t' : option nat) : Prop :=
  forall k p p', todo !! k = Some p -> todo' !! k = Some p' -> (t = Some p.1 <-> t' = Some p'.1).
Definition erel (x y : option nat * exchange) : Prop := x.2 = y.2 /\ tagged x.1 y.1.
Definition states (a b : list (option nat * exchange)) : Prop := exists m, a ≡ₚ m /\ Forall2 erel m b.
Definition linked_states (a b : link_state) : Prop := states a.1 b.1 /\ a.2 = b.2.
Definition turn (p q : nat * exchange) : Prop := exists k, todo !! k = Some p /\ todo' !! k = Some q /\ p.2 = q.2.
Lemma decision_states p q st st' dec : turn p q -> linked_states st st' ->
  linked_states (apply_decision p.1 p.2 st dec) (apply_decision q.1 q.2 st' dec).
Proof.
  intros (k & Hp & Hq & E) [(m & Hm & HF) Hs]. destruct dec as [|c|new]; cbn [apply_decision].
  - split; [by exists m|done].
  - split; [|done]. cbn [fst]. eexists. split; [apply Permutation_map; exact Hm|]. apply Forall2_fmap.
    eapply Forall2_impl; [exact HF|]. intros [t x] [t' y] [Hx Ht]. cbn [fst snd] in *. subst y.
    pose proof (Ht k p q Hp Hq) as Hk. rewrite (bool_decide_ext _ _ Hk). case_bool_decide; done.
  - split; [|done]. cbn [fst]. exists (filterb (fun ox => bool_decide (ox.2 <> p.2)) (m ++ map (fun e => (None, e)) new)). split.
    + apply filterb_perm. by rewrite Hm.
    + rewrite E. apply filterb_Forall2.
      * apply Forall2_app; [done|]. apply Forall2_fmap. clear. induction new; constructor; [|done]. split; [done|]. by intros ? ? ? ? ?.
      * intros x y [Hx _]. by rewrite Hx.
Qed.
End consumer.
Lemma step_states todo todo' ln t m m' loc row acc acc' p q : mrel m m' -> turn todo todo' p q ->
  orel acc.1 acc'.1 /\ linked_states todo todo' acc.2 acc'.2 ->
  both (fun a b => orel a.1 b.1 /\ linked_states todo todo' a.2 b.2)
    (link_inputs_step ln t m loc row acc p) (link_inputs_step ln t m' loc row acc' q).
Proof.
  intros Hm Ht [Hb Hs]. unfold link_inputs_step. pose proof Ht as (_ & _ & _ & E). rewrite <- E.
  eapply both_bind; [by apply candidates_rel|]. intros cs cs' _ Hcs. eapply both_bind; [by apply choose_rel|]. intros ch ch' _ Hch.
  rewrite (decide_rel _ _ _ _ Hch). apply both_same. intros dec _. cbn. split; [done|]. rewrite E at 2. by apply decision_states.
Qed.

(** At the start the inputs still to be linked correspond to one another in order. *)
Lemma filterb_split {A} (p : A -> bool) l : l ≡ₚ filterb p l ++ filterb (fun x => negb (p x)) l.
Proof.
  unfold filterb. induction l as [|x l IH]; [done|]. cbn [List.filter]. destruct (p x); cbn [negb app]; [by f_equiv|].
  rewrite <- Permutation_middle. by f_equiv.
Qed.
Lemma filterb_map {A B} (f : A -> B) (p : B -> bool) l : filterb p (map f l) = map f (filterb (fun x => p (f x)) l).
Proof. unfold filterb. induction l as [|x l IH]; [done|]. cbn. destruct (p (f x)); cbn; by rewrite IH. Qed.
Lemma start_states es es' : es ≡ₚ es' -> filterb unlinked es = filterb unlinked es' ->
  let todo := filterb (fun p : nat * exchange => unlinked p.2) (indexed es) in
  let todo' := filterb (fun p : nat * exchange => unlinked p.2) (indexed es') in
  Forall2 (turn todo todo') todo todo' /\
  states todo todo' (map (fun p => (Some p.1, p.2)) (indexed es)) (map (fun p => (Some p.1, p.2)) (indexed es')).
Proof.
  intros HP HU todo todo'.
  assert (map snd todo = map snd todo') as HV.
  { unfold todo, todo'. rewrite <- !(filterb_map snd unlinked), !indexed_snd. done. }
  assert (NoDup (map fst todo)) as HN by apply NoDup_filterb, indexed_fst.
  assert (NoDup (map fst todo')) as HN' by apply NoDup_filterb, indexed_fst.
  assert (Forall2 (turn todo todo') todo todo') as HT.
  { apply Forall2_same_length_lookup_2; [rewrite <- !(map_length snd), HV; done|]. intros k p q Hp Hq. exists k. split; [done|]. split; [done|].
    assert (map snd todo !! k = Some p.2) as E1 by (etransitivity; [apply list_lookup_fmap|]; by rewrite Hp).
    assert (map snd todo' !! k = Some q.2) as E2 by (etransitivity; [apply list_lookup_fmap|]; by rewrite Hq). congruence. }
  split; [done|].
  set (tag := fun p : nat * exchange => (Some p.1, p.2)).
  set (rest := filterb (fun p : nat * exchange => negb (unlinked p.2)) (indexed es)).
  set (rest' := filterb (fun p : nat * exchange => negb (unlinked p.2)) (indexed es')).
  assert (exists m, rest ≡ₚ m /\ Forall2 (fun p q : nat * exchange => p.2 = q.2) m rest') as (m & Hm & HF).
  { assert (map snd rest' ≡ₚ map snd rest) as HR.
    { unfold rest, rest'. rewrite <- !(filterb_map snd (fun e => negb (unlinked e))), !indexed_snd. symmetry. by apply filterb_perm. }
    apply Permutation_map_inv in HR as (m & Em & Hm). exists m. split; [done|]. clear -Em. revert m Em. induction rest' as [|x l IH]; intros [|y m] E; try done.
    cbn in E. injection E as E1 E2. constructor; [done|]. by apply IH. }
  assert (forall p, p ∈ rest -> forall q, q ∈ todo -> p.1 <> q.1) as HD.
  { intros [i e] Hp [j e'] Hq. apply filterb_In in Hp as [Hp1 Hp2]. apply filterb_In in Hq as [Hq1 Hq2].
    apply elem_of_indexed in Hp1, Hq1. cbn in *. intros <-. rewrite Hp1 in Hq1. injection Hq1 as ->. by rewrite Hq2 in Hp2. }
  assert (forall p, p ∈ rest' -> forall q, q ∈ todo' -> p.1 <> q.1) as HD'.
  { intros [i e] Hp [j e'] Hq. apply filterb_In in Hp as [Hp1 Hp2]. apply filterb_In in Hq as [Hq1 Hq2].
    apply elem_of_indexed in Hp1, Hq1. cbn in *. intros <-. rewrite Hp1 in Hq1. injection Hq1 as ->. by rewrite Hq2 in Hp2. }
  assert (exists n, map tag (indexed es') ≡ₚ n /\ Forall2 (erel todo todo') (map tag (todo ++ m)) n) as (n & Hn & HE).
  { exists (map tag (todo' ++ rest')). split; [apply Permutation_map, filterb_split|].
    apply Forall2_fmap, Forall2_app.
    - eapply Forall2_impl; [exact HT|]. intros p q (k & Hp & Hq & E). split; [done|]. intros j x y Hx Hy. cbn [fst tag]. unfold tag. cbn [fst].
      assert (map fst todo !! k = Some p.1) as A1 by (etransitivity; [apply list_lookup_fmap|]; by rewrite Hp).
      assert (map fst todo !! j = Some x.1) as A2 by (etransitivity; [apply list_lookup_fmap|]; by rewrite Hx).
      assert (map fst todo' !! k = Some q.1) as A3 by (etransitivity; [apply list_lookup_fmap|]; by rewrite Hq).
      assert (map fst todo' !! j = Some y.1) as A4 by (etransitivity; [apply list_lookup_fmap|]; by rewrite Hy).
      split; intros Ej; injection Ej as Ej.
      + rewrite Ej in A1. rewrite (NoDup_lookup _ _ _ _ HN A1 A2) in A3. congruence.
      + rewrite Ej in A3. rewrite (NoDup_lookup _ _ _ _ HN' A3 A4) in A1. congruence.
    - assert (forall p, p ∈ m -> p ∈ rest) as Hsub by (intros p; by rewrite Hm).
      eapply Forall2_impl; [by apply Forall2_elem|]. intros p q (E & Hp & Hq). split; [done|]. intros j x y Hx Hy. unfold tag. cbn [fst].
      apply elem_of_list_lookup_2 in Hx, Hy. split; intros Ej; injection Ej as Ej; exfalso.
      + by apply (HD p (Hsub p Hp) x Hx).
      + by apply (HD' q Hq y Hy). }
  assert (map tag (indexed es) ≡ₚ map tag (todo ++ m)) as HM.
  { apply Permutation_map. rewrite <- Hm. apply filterb_split. }
  symmetry in Hn. apply Forall2_flip in HE. destruct (Permutation_Forall2 Hn HE) as (l & Hl & HL).
  exists l. split; [by rewrite HM|]. by apply Forall2_flip in HL.
Qed.
Lemma states_perm todo todo' a b : states todo todo' a b -> map snd a ≡ₚ map snd b.
Proof.
  intros (m & Hm & HF). rewrite Hm.
  assert (map snd m = map snd b) as ->; [|done]. eapply map_Forall2; [exact HF|]. by intros x y [? _].
Qed.
Lemma link_dataset_rel ln t m m' data data' b b' d d' : Forall2 rel data data' -> mrel m m' -> orel b b' -> rel d d' ->
  both (fun x y => orel x.1 y.1 /\ reordered x.2 y.2) (link_dataset ln t m data b d) (link_dataset ln t m' data' b' d').
Proof.
  intros H Hm Hb Hd. unfold link_dataset. rewrite (rel_is_type _ _ _ Hd). destruct (is_type MarketGroup d'); [by destruct Hd|].
  rewrite (consumer_row_rel t _ _ _ _ H Hd). apply both_same. intros row _. cbv zeta.
  destruct Hd as [Hr HU]. pose proof Hr as (_ & He & _). destruct (start_states _ _ He HU) as [HT HS].
  assert (d_location d' = d_location d) as -> by (by apply reordered_fields in Hr as (_ & ? & _)).
  eapply both_bind.
  - eapply (both_foldR (turn _ _) (fun a c : option (list dataset) * link_state => orel a.1 c.1 /\ linked_states _ _ a.2 c.2)); [exact HT| |].
    + split; [done|]. split; [exact HS|done].
    + intros p q a c _ Hpq Hac. by apply step_states.
  - intros x y _ [Hx [Hs Hf]]. cbn. split; [done|]. rewrite Hf. destruct y.2.2.
    + apply reordered_suppliers; [|done]. apply reordered_exchanges; [done|]. by eapply states_perm.
    + apply reordered_exchanges; [done|]. by eapply states_perm.
Qed.
Lemma consumers_rel ln t data data' : Forall2 rel data data' ->
  both (Forall2 reordered) (link_consumers_to_markets ln t data) (link_consumers_to_markets ln t data').
Proof.
  intros H. unfold link_consumers_to_markets.
  eapply both_bind; [apply (keyed_rel rel _ (typed_refprod [MarketActivity; MarketGroup])); [exact H|intros d d'; apply rel_typed]|].
  intros ks ks' _ Hks. cbv zeta.
  assert (mrel (map (fun g => (g.1, map snd g.2)) (groupby ks)) (map (fun g => (g.1, map snd g.2)) (groupby ks'))) as HM.
  { apply Forall2_fmap. eapply Forall2_impl; [by apply (groupby_rel (prel rel))|]. intros g g' [Hg1 Hg2]. split; [done|]. cbn [snd]. by apply prel_snd. }
  eapply (both_bind (fun x y => orel x.1 y.1 /\ Forall2 reordered x.2 y.2)).
  - eapply both_foldR; [exact H|by split; [|constructor]|]. intros d d' a c _ Hd [Ha1 Ha2].
    eapply both_bind; [by apply link_dataset_rel|]. intros x y _ [Hx1 Hx2]. cbn. split; [done|]. cbn. apply Forall2_app; [done|]. by constructor.
  - by intros x y _ [_ Hxy].
Qed.

(** *** After linking *)
Lemma rp_codes_reordered data data' : Forall2 reordered data data' ->
  both (Forall2 reordered) (add_reference_product_codes data) (add_reference_product_codes data').
Proof.
  intros H. eapply both_mapR; [exact H|]. intros d d' _ Hd. rewrite (reordered_single _ _ Hd).
  assert (d_code d' = d_code d) as -> by (by apply reordered_fields in Hd as (_ & _ & _ & _ & _ & ? & _)).
  apply both_same. intros _ _. apply both_same. intros rp _. cbn [both]. apply reordered_exchanges; [done|].
  apply Permutation_map. by destruct Hd as (_ & ? & _).
Qed.
Lemma log_delete_reordered data data' : Forall2 reordered data data' ->
  Forall2 reordered (log_and_delete_unlinked_exchanges data) (log_and_delete_unlinked_exchanges data').
Proof.
  intros H. apply Forall2_fmap. eapply Forall2_impl; [exact H|]. intros d d' Hd. unfold dataset_code_truthy.
  assert (d_code d' = d_code d) as -> by (by apply reordered_fields in Hd as (_ & _ & _ & _ & _ & ? & _)).
  apply reordered_exchanges; [done|]. apply filterb_perm. by destruct Hd as (_ & ? & _).
Qed.
Lemma reordered_refprod s d d' : reordered d d' -> reordered (set_d_refprod s d) (set_d_refprod s d').
Proof.
  intros (H & He & Hs). split; [|split; [exact He|exact Hs]].
  exact (f_equal (set_d_refprod s) H).
Qed.
Lemma rename_reordered data data' : Forall2 reordered data data' ->
  Forall2 reordered (rename_recycled_content_products_after_linking data) (rename_recycled_content_products_after_linking data').
Proof.
  intros H. apply Forall2_fmap. eapply Forall2_impl; [exact H|]. intros d d' Hd.
  assert (d_refprod d' = d_refprod d) as -> by (by apply reordered_fields in Hd as (_ & _ & _ & _ & ? & _)).
  apply reordered_refprod, reordered_exchanges; [done|]. apply Permutation_map. by destruct Hd as (_ & ? & _).
Qed.
Lemma reordered_mapR g d d' : reordered d d' ->
  both reordered (let? es := mapR g (d_exchanges d) in Ok (set_d_exchanges es d)) (let? es := mapR g (d_exchanges d') in Ok (set_d_exchanges es d')).
Proof.
  intros Hd. eapply both_bind; [apply both_mapR_perm; by destruct Hd as (_ & ? & _)|]. intros a b _ Hab. cbn. by apply reordered_exchanges.
Qed.
Lemma flip_reordered d d' : reordered d d' -> both reordered (flip_non_allocatable_byproducts d) (flip_non_allocatable_byproducts d').
Proof. apply reordered_mapR. Qed.
Lemma normalize_reordered ln d d' : reordered d d' ->
  both reordered (normalize_reference_production_amount ln d) (normalize_reference_production_amount ln d').
Proof.
  intros Hd. unfold normalize_reference_production_amount. rewrite (reordered_single _ _ Hd). apply both_same. intros p _.
  destruct (negb _); [done|]. apply both_same. intros f _. destruct (Qcltb _ _); [|done]. by apply reordered_mapR.
Qed.
Lemma forallb_perm {A} (p : A -> bool) l l' : l ≡ₚ l' -> forallb p l = forallb p l'.
Proof.
  induction 1 as [|x l l' _ IH|x y l|l1 l2 l3 _ IH1 _ IH2]; [done|cbn; by rewrite IH| |congruence].
  cbn. by destruct (p x), (p y).
Qed.
Lemma adjust_reordered ln d d' : reordered d d' -> both reordered (adjust_market_sign ln d) (adjust_market_sign ln d').
Proof.
  intros Hd. unfold adjust_market_sign. assert (d_type d' = d_type d) as -> by (by apply reordered_fields in Hd as (_ & _ & ? & _)).
  case_bool_decide; [|done]. rewrite (reordered_single _ _ Hd). apply both_same. intros rp _. apply both_same. intros c _.
  case_bool_decide; [done|]. rewrite <- (forallb_perm _ _ _ (proj1 (proj2 Hd))). destruct (forallb _ _); [by apply reordered_mapR|].
  destruct (Qcltb _ _); [|done]. by apply reordered_mapR.
Qed.

(** *** The models *)
Definition known (data : list dataset) : Prop := Forall coded data /\ NoDup (map d_code data).
Lemma known_goes cur next : known cur -> Forall2 (goes (fun _ => False) (fun c _ => c <> ""%string)) cur next -> known next.
Proof.
  intros [_ HN] HF. split; [by eapply goes_good|].
  erewrite <- (map_Forall2 _ d_code d_code); [exact HN|exact HF|]. by intros d d' [(-> & _) _].
Qed.
Lemma without_uncoded data : without_suppliers data -> uncoded (fun _ => False) data.
Proof. intros H. eapply Forall_impl; [exact H|]. intros d Hd. split; [done|]. by apply Forall_true. Qed.
Lemma codes_known md5 data data' : (forall s, md5 s <> ""%string) -> Forall (labelled (fun _ => False)) data ->
  add_unique_codes md5 data = Ok data' -> known data'.
Proof.
  intros Hmd HL H. destruct (codes_good _ _ _ _ HL H) as (_ & HN & HG). split; [|done]. eapply Forall_impl; [exact HG|]. intros d. apply good_mono.
  intros c n (p & Hp & Hc & _). destruct (add_unique_codes_spec md5 data) as [Hs _]. destruct (Hs _ H) as [E _]. rewrite E in Hp.
  apply elem_of_list_fmap in Hp as (x & -> & _). cbn in Hc. injection Hc as <-. apply Hmd.
Qed.
Section models.
Context (md5 : string -> string) (ln : Qc -> Qc) (ord ord' : gset string -> list string) (t : topo).
Context (Hmd : forall s, md5 s <> ""%string) (Ho : iterates ord) (Ho' : iterates ord').
Lemma pv_reordered data : without_suppliers data ->
  both (Forall2 reordered) (link_markets_by_pv md5 ln ord t data) (link_markets_by_pv md5 ln ord' t data).
Proof.
  intros Hs%without_uncoded. unfold link_markets_by_pv.
  apply both_same. intros d1 E1. cbv zeta. apply both_same. intros d3 E3. apply both_same. intros d5 E5. apply both_same. intros d6 E6.
  apply both_same. intros d7 E7. apply both_same. intros d8 E8.
  assert (known d8) as K.
  { apply (label_labelled (fun _ => False)) in E1; [|done].
    assert (Forall (labelled (fun _ => False)) (delete_whitelisted_zero_pv_market_datsets d1)) as L2.
    { rewrite Forall_forall in *. intros d Hd. apply filterb_In in Hd as [Hd _]. by apply E1. }
    apply (fake_labelled (fun _ => False)) in E3; [|done].
    assert (Forall (labelled (fun _ => False)) (correct_natural_gas_pipeline_location d3)) as L4.
    { apply Forall_fmap. eapply Forall_impl; [exact E3|]. intros d (A & B & C & D). unfold compose. by destruct (_ && _). }
    apply (relabel_labelled (fun _ => False)) in E5 as [_ E5]; [|done]. unfold check_no_row_market_groups in E6. apply bind_Ok in E6 as (? & _ & <-%Ok_inj).
    apply (codes_known _ _ _ Hmd) in E7; [|done]. eapply known_goes; [exact E7|]. apply actualize_good; [by destruct E7|done]. }
  eapply both_bind; [by apply add_rc_rel; [| |apply rel_refl_all]|]. intros a a' Ea Ha.
  apply (rc_suppliers_good _ _ _ _ _ _ (proj1 K)) in Ea. eapply known_goes in K; [|exact Ea].
  eapply both_bind; [by apply add_suppliers_rel|]. intros b b' Eb Hb.
  apply (add_suppliers_good _ _ _ _ _ _ _ _ (proj1 K)) in Eb. eapply known_goes in K; [|exact Eb].
  eapply both_bind; [apply volumes_rel; [exact Hb|apply K]|]. intros c c' Ec Hc.
  apply (update_market_volumes_good _ _ _ _ _ _ (proj1 K)) in Ec. eapply known_goes in K; [|exact Ec].
  eapply both_bind; [apply delete_global_rel; [exact Hc|apply K]|]. intros e e' Ee [He Ne].
  apply (delete_global_good _ _ _ _ _ (proj1 K)) in Ee as [Ee _].
  eapply both_bind; [apply delete_global_rel; [exact He|exact Ne]|]. intros f f' Ef [Hf Nf].
  apply (delete_global_good _ _ _ _ _ Ee) in Ef as [Ef _]. clear K. assert (known f) as K by done.
  eapply both_bind; [apply allocate_all_rel; [apply K|exact Hf]|]. intros g g' Eg Hg.
  apply (allocate_all_good _ _ _ _ _ (proj1 K)) in Eg. eapply known_goes in K; [|exact Eg].
  eapply both_bind; [by apply link_groups_rel|]. intros h h' Eh Hh.
  apply (group_link_good _ _ _ _ _ (proj1 K)) in Eh. eapply known_goes in K; [|exact Eh].
  eapply both_bind; [apply volumes_rel; [exact Hh|apply K]|]. intros i i' Ei Hi.
  apply (update_market_volumes_good _ _ _ _ _ _ (proj1 K)) in Ei. eapply known_goes in K; [|exact Ei].
  eapply both_bind; [apply allocate_all_rel; [apply K|exact Hi]|]. intros j j' Ej Hj.
  eapply both_bind; [by apply rc_consumers_rel|]. intros k k' _ Hk.
  eapply both_bind; [by apply consumers_rel|]. intros l l' _ Hl.
  eapply both_bind; [by apply rp_codes_reordered|]. intros m m' _ Hm. cbn [both]. by apply log_delete_reordered.
Qed.
Lemma tech_reordered data : without_suppliers data ->
  both (Forall2 reordered) (link_markets_by_technology_level md5 ln ord t data) (link_markets_by_technology_level md5 ln ord' t data).
Proof.
  intros Hs%without_uncoded. unfold link_markets_by_technology_level.
  apply both_same. intros d1 E1. cbv zeta. apply both_same. intros d3 E3. apply both_same. intros d5 E5.
  apply both_same. intros d7 E7. apply both_same. intros d8 E8.
  assert (known d8) as K.
  { apply (label_labelled (fun _ => False)) in E1; [|done].
    assert (Forall (labelled (fun _ => False)) (delete_whitelisted_zero_pv_market_datsets d1)) as L2.
    { rewrite Forall_forall in *. intros d Hd. apply filterb_In in Hd as [Hd _]. by apply E1. }
    apply (fake_labelled (fun _ => False)) in E3; [|done]. apply (relabel_labelled (fun _ => False)) in E5 as [_ E5]; [|done].
    apply (codes_known _ _ _ Hmd) in E7; [|done]. eapply known_goes; [exact E7|]. apply actualize_good; [by destruct E7|done]. }
  eapply both_bind; [by apply add_suppliers_rel; [| |apply rel_refl_all]|]. intros a a' Ea Ha.
  apply (add_suppliers_good _ _ _ _ _ _ _ _ (proj1 K)) in Ea. eapply known_goes in K; [|exact Ea].
  eapply both_bind; [by apply prune_rel|]. intros b b' Eb Hb.
  apply (prune_good _ _ _ _ (proj1 K)) in Eb. eapply known_goes in K; [|exact Eb].
  eapply both_bind; [apply volumes_rel; [exact Hb|apply K]|]. intros c c' Ec Hc.
  apply (update_market_volumes_good _ _ _ _ _ _ (proj1 K)) in Ec. eapply known_goes in K; [|exact Ec].
  eapply both_bind; [by apply add_suppliers_rel|]. intros e e' Ee He.
  apply (add_suppliers_good _ _ _ _ _ _ _ _ (proj1 K)) in Ee. eapply known_goes in K; [|exact Ee].
  eapply both_bind; [apply volumes_rel; [exact He|apply K]|]. intros f f' Ef Hf.
  apply (update_market_volumes_good _ _ _ _ _ _ (proj1 K)) in Ef. eapply known_goes in K; [|exact Ef].
  eapply both_bind; [apply allocate_all_rel; [apply K|exact Hf]|]. intros g g' Eg Hg.
  eapply both_bind; [apply consumers_rel; by apply delete_suppliers_rel|]. intros l l' _ Hl.
  cbn [both]. by apply log_delete_reordered.
Qed.
End models.
Lemma from_without data out : without_suppliers data -> all_from data out -> without_suppliers out.
Proof.
  unfold without_suppliers, all_from. rewrite !Forall_forall. intros Hr HF d' Hd'. destruct (HF d' Hd') as (d & Hd & (_ & Hs & _)).
  destruct Hs as [->|]; [|done]. by apply Hr.
Qed.
Lemma finished_reordered w data data' : Forall2 reordered data data' ->
  both (Forall2 reordered) (cutoff_finished w data) (cutoff_finished w data').
Proof.
  intros H. unfold cutoff_finished. eapply both_bind.
  { eapply both_mapR; [by apply rename_reordered|]. intros d d' _. apply flip_reordered. }
  intros a a' _ Ha. eapply both_bind; [eapply both_mapR; [exact Ha|]; intros d d' _; apply normalize_reordered|].
  intros b b' _ Hb. eapply both_mapR; [exact Hb|]. intros d d' _. apply adjust_reordered.
Qed.
Lemma cutoff_reordered w ord data : iterates (w_ord w) -> iterates ord -> (forall s, w_md5 w s <> ""%string) -> without_suppliers data ->
  both (Forall2 reordered) (cutoff_model w data) (cutoff_model (with_order ord w) data).
Proof.
  intros Ho Ho' Hmd Hs. unfold cutoff_model. eapply (both_bind (Forall2 reordered)).
  - unfold cutoff_linked. change (cutoff_prepared (with_order ord w) data) with (cutoff_prepared w data).
    apply both_same. intros p Hp. change (cutoff_allocated (with_order ord w) p) with (cutoff_allocated w p).
    apply both_same. intros a Ha. apply pv_reordered; [done|done|done|]. eapply from_without; [exact Hs|].
    eapply all_from_trans; [by eapply cutoff_prepared_from|by eapply cutoff_allocated_from].
  - intros a a' _ Haa. exact (finished_reordered w _ _ Haa).
Qed.
Lemma consequential_reordered w ord data : iterates (w_ord w) -> iterates ord -> (forall s, w_md5 w s <> ""%string) -> without_suppliers data ->
  both (Forall2 reordered) (consequential_model w data) (consequential_model (with_order ord w) data).
Proof.
  intros Ho Ho' Hmd Hs. unfold consequential_model. eapply (both_bind (Forall2 reordered)).
  - unfold consequential_linked. change (consequential_prepared (with_order ord w) data) with (consequential_prepared w data).
    apply both_same. intros p Hp. apply tech_reordered; [done|done|done|]. eapply from_without; [exact Hs|].
    by eapply consequential_prepared_from.
  - intros a a' _ Haa. eapply both_mapR; [exact Haa|]. intros d d' _. apply normalize_reordered.
Qed.
