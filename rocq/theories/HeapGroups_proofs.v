From stdpp Require Import gmap.
From Verif Require Import Base Types Utils GroupUpdate Topology Locations Heap Spec_Heap Heap_proofs HeapLinks HeapLinks_proofs HeapHard HeapHard_proofs
  HeapMarkets HeapMarkets_proofs HeapGroups Spec_HeapGroups.

(** ** One dataset of many *)
Lemma separate_change h h' Fs xs cur m G b d' : wf h -> separate h Fs xs cur -> only (next h) G h h' ->
  Fs !! m = Some G -> xs !! m = Some b -> stands h' G b d' -> separate h' Fs xs (<[m := d']> cur).
Proof.
  intros Hw Hs Ho HG Hb Hst. pose proof (fun x => separate_lt h Fs xs cur x Hw Hs) as Hlt. destruct Hs as (H & Hnd). split; [|done].
  revert m HG Hb. induction H as [|F a ds Fs xs dss Ha Hrest IH]; intros m HG Hb; [done|]. cbn [concat] in *. apply NoDup_app in Hnd as (N1 & N2 & N3).
  destruct m as [|m].
  - cbn in HG, Hb. injection HG as ->. injection Hb as ->. cbn. constructor; [done|].
    assert (separate h Fs xs dss) as Hs by done.
    apply (separate_only (next h) G h h') in Hs as [Hs _]; [exact Hs|exact Ho|]. intros x Hx. split; [apply Hlt, elem_of_app; by right|].
    intros Hx2. by apply (N2 x).
  - cbn in HG, Hb |- *. constructor; [|apply IH; try done; intros x Hx; apply Hlt, elem_of_app; by right].
    eapply stands_only; [exact Ho| |exact Ha]. intros x Hx. split; [apply Hlt, elem_of_app; by left|].
    intros Hx2. apply (N2 x Hx). apply elem_of_concat. exists G. split; [done|]. by eapply elem_of_list_lookup_2.
Qed.
Lemma at_index m f : (forall h F a ds, wf h -> stands h F a ds -> NoDup F -> does (next h) F (m a) (f ds) (fun h' (_ : unit) ds' => stands h' F a ds') h) ->
  forall h Fs xs cur i a d, wf h -> separate h Fs xs cur -> xs !! i = Some a -> cur !! i = Some d ->
  does (next h) (concat Fs) (m a) (f d) (fun h' _ d' => separate h' Fs xs (<[i := d']> cur)) h.
Proof.
  intros Hm h Fs xs cur i a d Hw Hs Ha Hd. destruct (separate_at _ _ _ _ _ _ Hs Ha) as (F & c & HF & Hc & Hst & Hnd). assert (c = d) as -> by congruence.
  eapply does_weaken; [by apply (Hm h F a d)|done| |].
  - intros x Hx. left. apply elem_of_concat. exists F. split; [done|]. by eapply elem_of_list_lookup_2.
  - intros h' [] d' O Hst'. by eapply separate_change.
Qed.
Lemma propagate_kept ds pv d d' : propagate ds pv d = Ok d' -> d_exchanges d' = d_exchanges d /\ d_type d' = d_type d.
Proof.
  unfold propagate. destruct (bool_decide _); [by intros [= <-]|]. destruct (getkey _ (d_suppliers d)) as [[|s l]|]; cbn [bind]; [by intros [= <-]| |done].
  destruct (mapR _ _); [|done]. cbn [bind]. destruct (getkey _ (d_code ds)); [|done]. cbn [bind]. intros [= <-]. by destruct d.
Qed.
Lemma propagate_self ds pv : propagate ds pv ds = Ok ds.
Proof. unfold propagate. by rewrite bool_decide_true. Qed.

(** ** In the order of the code *)
Definition others_in_order (ds : dataset) (pv : Qc) (order : list nat) (data : list dataset) : result (list dataset) :=
  foldR (fun data j => let? d := getkey "" (data !! j) in let? d' := propagate ds pv d in Ok (<[j := d']> data)) data order.
Definition step_in_order (order : list nat) (data : list dataset) (i : nat) : result (list dataset) :=
  let? ds := getkey "" (data !! i) in
  let? ds' := update_volume ds in
  let? pv := updated_volume ds in
  others_in_order ds' pv order (<[i := ds']> data).

Section groups.
Context (Fs : list (list nat)) (xs : list nat).
Definition ad (i : nat) : nat := default 0%nat (xs !! i).
Lemma ad_lookup h cur i d : separate h Fs xs cur -> cur !! i = Some d -> xs !! i = Some (ad i).
Proof.
  intros Hs Hi. unfold ad. destruct (lookup_lt_is_Some_2 xs i) as [a ->]; [|done]. rewrite (separate_length _ _ _ _ Hs). by eapply lookup_lt_Some.
Qed.
Lemma ad_read h cur i d : separate h Fs xs cur -> cur !! i = Some d -> readD (ad i) h = (Ok d, h).
Proof.
  intros Hs Hi. destruct (separate_at _ _ _ _ _ _ Hs (ad_lookup _ _ _ _ Hs Hi)) as (F & c & _ & Hc & Hst & _). assert (c = d) as -> by congruence. by eapply readD_eq.
Qed.
Lemma others_spec i ds pv js : (forall j, j ∈ js -> (j < length xs)%nat) -> forall h cur, wf h -> separate h Fs xs cur -> cur !! i = Some ds ->
  does (next h) (concat Fs) (iterM (propagate_h (ad i) pv) (map ad js)) (others_in_order ds pv js cur) (fun h' _ cur' => separate h' Fs xs cur') h.
Proof.
  unfold others_in_order. induction js as [|j js IH]; intros Hjs h cur Hw Hs Hi; cbn [map iterM foldR]; [by apply does_ret|].
  assert (j < length cur)%nat as Lj by (rewrite <- (separate_length _ _ _ _ Hs); apply Hjs; by left).
  destruct (lookup_lt_is_Some_2 cur j Lj) as [d Hd]. rewrite Hd. cbn [getkey bind].
  eapply (does_bind (next h) (concat Fs) _ _ _ _ _ _ (fun h' (_ : unit) cur' => separate h' Fs xs cur' /\ cur' !! i = Some ds)); [|done|by left|].
  - unfold propagate_h. eapply does_read; [by eapply ad_read|].
    pose proof (at_index (modD (propagate ds pv)) (propagate ds pv) (modD_spec _ ltac:(intros; by eapply propagate_kept)) h Fs xs cur j (ad j) d Hw Hs (ad_lookup _ _ _ _ Hs Hd) Hd) as Hm.
    destruct (propagate ds pv d) as [d'|e] eqn:E; cbn [bind].
    + eapply does_as; [exact Hm|done|by left|]. intros h' [] _ Hs'. split; [done|]. destruct (decide (j = i)) as [->|Hne].
      * rewrite list_lookup_insert by done. rewrite Hi in Hd. injection Hd as <-. rewrite propagate_self in E. by injection E as <-.
      * by rewrite list_lookup_insert_ne.
    + exact Hm.
  - intros [] cur' h1 O1 [Hs1 Hi1]. assert (wf h1) as Hw1 by by eapply only_wf. assert (next h <= next h1)%nat by by eapply only_next.
    eapply does_weaken; [apply (IH ltac:(intros; apply Hjs; by right) h1 cur' Hw1 Hs1 Hi1)|done|by left|done].
Qed.
Lemma step_spec order i : (forall j, j ∈ order -> (j < length xs)%nat) -> (i < length xs)%nat -> forall h cur, wf h -> separate h Fs xs cur ->
  does (next h) (concat Fs) (group_step_h (map ad order) (ad i)) (step_in_order order cur i) (fun h' _ cur' => separate h' Fs xs cur') h.
Proof.
  intros Ho Li h cur Hw Hs. rewrite (separate_length _ _ _ _ Hs) in Li. destruct (lookup_lt_is_Some_2 cur i Li) as [d Hd].
  unfold group_step_h, group_volume_h, step_in_order. rewrite Hd. cbn [getkey bind].
  pose proof (at_index volume_h update_volume volume_spec h Fs xs cur i (ad i) d Hw Hs (ad_lookup _ _ _ _ Hs Hd) Hd) as Hv.
  destruct (updated_volume d) as [pv|e] eqn:Ep.
  - eapply (does_bind (next h) (concat Fs) _ _ _ _ (update_volume d) _ (fun h' p d' => p = pv /\ separate h' Fs xs (<[i := d']> cur))); [|done|by left|].
    + eapply does_read; [by eapply ad_read|]. rewrite Ep. eapply (does_read _ _ _ _ pv); [done|].
      eapply does_bind_end; [exact Hv|done|by left|]. intros [] d' h1 O1 Hs1. apply does_ret; [by eapply only_wf|]. done.
    + intros p d' h1 O1 [-> Hs1]. cbn [bind]. assert (wf h1) as Hw1 by by eapply only_wf. assert (next h <= next h1)%nat by by eapply only_next.
      eapply does_weaken; [apply (others_spec i d' pv order Ho h1 _ Hw1 Hs1); by apply list_lookup_insert|done|by left|done].
  - assert (update_volume d = Err e) as -> by (unfold update_volume; by rewrite Ep). exists (Err e), h. split; [|split; [by apply only_refl|done]].
    assert ((let! ds := readD (ad i) in let! pv := lift (updated_volume ds) in let! _ := volume_h (ad i) in retM pv) h = (Err e, h)) as E.
    { rewrite (bindM_read _ _ _ _ (ad_read _ _ _ _ Hs Hd)). unfold bindM, lift. by rewrite Ep. }
    by rewrite (bindM_eq _ _ _ _ _ E).
Qed.
Lemma steps_spec order js : (forall j, j ∈ order -> (j < length xs)%nat) -> (forall j, j ∈ js -> (j < length xs)%nat) -> forall h cur, wf h -> separate h Fs xs cur ->
  does (next h) (concat Fs) (iterM (group_step_h (map ad order)) (map ad js)) (foldR (step_in_order order) cur js) (fun h' _ cur' => separate h' Fs xs cur') h.
Proof.
  intros Ho. induction js as [|j js IH]; intros Hjs h cur Hw Hs; cbn [map iterM foldR]; [by apply does_ret|].
  eapply does_bind; [apply step_spec; [done|apply Hjs; by left|done|done]|done|by left|]. intros [] cur' h1 O1 Hs1.
  assert (wf h1) as Hw1 by by eapply only_wf. assert (next h <= next h1)%nat by by eapply only_next.
  eapply does_weaken; [apply (IH ltac:(intros; apply Hjs; by right) h1 cur' Hw1 Hs1)|done|by left|done].
Qed.
End groups.

(** ** The order does not matter *)
Lemma others_ok ds pv js : forall cur, NoDup js ->
  (forall j, j ∈ js -> exists d d', cur !! j = Some d /\ propagate ds pv d = Ok d') ->
  exists cur', others_in_order ds pv js cur = Ok cur' /\ length cur' = length cur /\
    forall j d, cur !! j = Some d -> exists d', cur' !! j = Some d' /\ if decide (j ∈ js) then propagate ds pv d = Ok d' else d' = d.
Proof.
  unfold others_in_order. induction js as [|j js IH]; intros cur Hnd H; cbn [foldR].
  { exists cur. split_and!; [done..|]. intros j d Hd. exists d. split; [done|]. destruct (decide _) as [Hj|]; [by apply elem_of_nil in Hj|done]. }
  apply NoDup_cons in Hnd as [Hn Hnd]. destruct (H j ltac:(by left)) as (d & d' & Hd & Hp). rewrite Hd. cbn [getkey bind]. rewrite Hp. cbn [bind].
  assert (j < length cur)%nat as Lj by by eapply lookup_lt_Some.
  destruct (IH (<[j := d']> cur) Hnd) as (cur' & -> & Hl & Hc).
  { intros k Hk. rewrite list_lookup_insert_ne by (intros ->; done). apply H. by right. }
  exists cur'. split; [done|]. split; [by rewrite Hl, insert_length|]. intros k e He. destruct (decide (k = j)) as [->|Hne].
  - destruct (Hc j d' ltac:(by apply list_lookup_insert)) as (d2 & Hd2 & Hc2). rewrite decide_False in Hc2 by done. subst d2. exists d'. split; [done|].
    rewrite decide_True by by left. congruence.
  - destruct (Hc k e ltac:(by rewrite list_lookup_insert_ne)) as (d2 & Hd2 & Hc2). exists d2. split; [done|].
    destruct (decide (k ∈ js)) as [Hk|Hk]; [rewrite decide_True by (by right); done|]. rewrite decide_False; [done|]. by intros [|]%elem_of_cons.
Qed.
Lemma others_needs ds pv js : forall cur cur', NoDup js -> others_in_order ds pv js cur = Ok cur' ->
  forall j, j ∈ js -> exists d d', cur !! j = Some d /\ propagate ds pv d = Ok d'.
Proof.
  unfold others_in_order. induction js as [|k js IH]; intros cur cur' Hnd H j Hj; [by apply elem_of_nil in Hj|]. apply NoDup_cons in Hnd as [Hn Hnd]. cbn [foldR] in H.
  destruct (cur !! k) as [d|] eqn:Hd; [|done]. cbn [getkey bind] in H. destruct (propagate ds pv d) as [d'|] eqn:Hp; [|done]. cbn [bind] in H.
  apply elem_of_cons in Hj as [->|Hj]; [by exists d, d'|]. destruct (IH _ _ Hnd H j Hj) as (e & e' & He & Hpe). exists e, e'. split; [|done].
  rewrite list_lookup_insert_ne in He; [done|]. intros ->. done.
Qed.
Lemma others_same ds pv order cur : NoDup order -> (forall j, j ∈ order -> (j < length cur)%nat) ->
  (forall j d, cur !! j = Some d -> (is_type MarketGroup d = true <-> j ∈ order)) ->
  same_outcome (others_in_order ds pv order cur) (mapR (fun other => if is_type MarketGroup other then propagate ds pv other else Ok other) cur).
Proof.
  intros Hnd Hlt Hty. destruct (mapR _ cur) as [out|e] eqn:Em.
  - apply mapR_Ok in Em. destruct (others_ok ds pv order cur Hnd) as (cur' & -> & Hl & Hc).
    { intros j Hj. destruct (lookup_lt_is_Some_2 cur j (Hlt j Hj)) as [d Hd]. destruct (Forall2_lookup_l _ _ _ _ _ Em Hd) as (d' & _ & H).
      rewrite (proj2 (Hty j d Hd) Hj) in H. by exists d, d'. }
    cbn. apply list_eq. intros j. destruct (cur !! j) as [d|] eqn:Hd.
    + destruct (Hc j d Hd) as (d' & Hd' & Hcase). destruct (Forall2_lookup_l _ _ _ _ _ Em Hd) as (d2 & Hd2 & H). rewrite Hd', Hd2. f_equal.
      destruct (decide (j ∈ order)) as [Hj|Hj].
      * rewrite (proj2 (Hty j d Hd) Hj) in H. congruence.
      * destruct (is_type MarketGroup d) eqn:E; [exfalso; apply Hj; by apply (Hty j d Hd)|]. congruence.
    + apply lookup_ge_None_1 in Hd. apply Forall2_length in Em. rewrite !(proj2 (lookup_ge_None _ _)); [done|lia|lia].
  - destruct (others_in_order ds pv order cur) as [cur'|] eqn:E; [|done]. exfalso. apply mapR_Err in Em as (l1 & d & l2 & -> & Hd & _).
    assert ((l1 ++ d :: l2) !! length l1 = Some d) as Hl by by apply list_lookup_middle.
    destruct (is_type MarketGroup d) eqn:Et; [|done]. pose proof (proj1 (Hty _ _ Hl) Et) as Hj.
    destruct (others_needs _ _ _ _ _ Hnd E _ Hj) as (d0 & d' & H0 & Hp). rewrite Hl in H0. injection H0 as <-. congruence.
Qed.
Lemma update_volume_type ds ds' : update_volume ds = Ok ds' -> d_type ds' = d_type ds.
Proof.
  unfold update_volume. intros H. apply bind_Ok in H as (pv & _ & H). apply bind_Ok in H as (s & _ & H). apply bind_Ok in H as (o & _ & H). injection H as <-. by destruct ds.
Qed.
Definition typed (order : list nat) (cur : list dataset) : Prop :=
  (forall j, j ∈ order -> (j < length cur)%nat) /\ forall j d, cur !! j = Some d -> (is_type MarketGroup d = true <-> j ∈ order).
Lemma is_type_eq ty d d' : d_type d' = d_type d -> is_type ty d' = is_type ty d.
Proof. unfold is_type. by intros ->. Qed.
Lemma step_same order cur i : NoDup order -> typed order cur -> same_outcome (step_in_order order cur i) (update_group_step MarketGroup cur i) /\
  forall cur', step_in_order order cur i = Ok cur' -> typed order cur'.
Proof.
  intros Hnd [Hlt Hty]. unfold step_in_order, update_group_step. destruct (cur !! i) as [ds|] eqn:Hi; [|done]. cbn [getkey bind].
  destruct (update_volume ds) as [ds'|] eqn:Eu; [|done]. cbn [bind]. destruct (updated_volume ds) as [pv|]; [|done]. cbn [bind].
  assert (i < length cur)%nat as Li by by eapply lookup_lt_Some.
  assert (typed order (<[i:=ds']> cur)) as [Hlt' Hty'].
  { split; [intros j Hj; rewrite insert_length; by apply Hlt|]. intros j d Hd. destruct (decide (j = i)) as [->|Hne].
    - rewrite list_lookup_insert in Hd by done. injection Hd as <-. rewrite (is_type_eq _ _ _ (update_volume_type _ _ Eu)). by apply Hty.
    - rewrite list_lookup_insert_ne in Hd by done. by apply Hty. }
  split; [by apply others_same|]. intros cur' H. destruct (others_ok ds' pv order _ Hnd (others_needs _ _ _ _ _ Hnd H)) as (c & E & Hl & Hc). rewrite H in E. injection E as <-.
  split; [intros j Hj; rewrite Hl; by apply Hlt'|]. intros j d' Hd'. assert (j < length (<[i:=ds']> cur))%nat as Lj by (rewrite <- Hl; by eapply lookup_lt_Some).
  destruct (lookup_lt_is_Some_2 _ _ Lj) as [d Hd]. destruct (Hc j d Hd) as (d2 & Hd2 & Hcase). rewrite Hd' in Hd2. injection Hd2 as <-. rewrite <- (Hty' j d Hd).
  destruct (decide (j ∈ order)); [|by subst]. apply propagate_kept in Hcase as [_ Ht]. by rewrite (is_type_eq _ _ _ Ht).
Qed.
Lemma steps_same order js : NoDup order -> forall cur, typed order cur -> same_outcome (foldR (step_in_order order) cur js) (foldR (update_group_step MarketGroup) cur js).
Proof.
  intros Hnd. induction js as [|j js IH]; intros cur Ht; cbn [foldR]; [done|]. destruct (step_same order cur j Hnd Ht) as [Hs Hk].
  destruct (step_in_order order cur j) as [c|], (update_group_step MarketGroup cur j) as [c'|]; cbn in Hs; try done. subst c'. cbn [bind]. apply IH. by apply Hk.
Qed.

(** ** Ordering *)
Lemma insert_map {A B} (f : A -> B) (l : list (nat * A)) x :
  insert_sorted (fun a b : nat * B => (b.1 <=? a.1)%nat) (x.1, f x.2) (map (fun p => (p.1, f p.2)) l)
  = map (fun p => (p.1, f p.2)) (insert_sorted (fun a b : nat * A => (b.1 <=? a.1)%nat) x l).
Proof. induction l as [|y l IH]; [done|]. cbn. destruct (_ <=? _)%nat; [done|]. cbn. by rewrite IH. Qed.
Lemma sort_map {A B} (f : A -> B) (l : list (nat * A)) :
  isort (fun a b : nat * B => (b.1 <=? a.1)%nat) (map (fun p => (p.1, f p.2)) l) = map (fun p => (p.1, f p.2)) (isort (fun a b : nat * A => (b.1 <=? a.1)%nat) l).
Proof. induction l as [|y l IH]; [done|]. cbn [map isort foldr]. unfold isort in *. cbn [foldr]. rewrite IH. apply insert_map. Qed.
Lemma order_read t h Fs xs dss S : separate h Fs xs dss -> (forall p, p ∈ S -> dss !! p.1 = Some p.2) ->
  group_order_h t (map (addr_of xs) S) h = (fmapR (map (ad xs)) (group_order t S), h).
Proof.
  intros Hs HS. unfold group_order_h, group_order. pose proof (start Fs xs dss h Hs) as Hst.
  rewrite (bindM_read _ _ _ _ (locations_read Fs xs dss h dss S Hst HS)). destruct (ordered_dependencies _ _ _) as [ordered|e]; [|done]. cbn [bind].
  rewrite (bindM_read _ _ h ordered eq_refl).
  assert (mapM (fun a => let! ds := readD a in let! k := lift (position ordered (d_location ds)) in retM (k, a)) (map (addr_of xs) S) h
    = (fmapR (map (fun p => (p.1, ad xs p.2))) (mapR (fun p => let? k := position ordered (d_location p.2) in Ok (k, p.1)) S), h)) as E.
  { clear -HS Hst. induction S as [|p S IH]; [done|]. cbn [map mapM mapR].
    assert ((let! ds := readD (addr_of xs p) in let! k := lift (position ordered (d_location ds)) in retM (k, addr_of xs p)) h
      = (let? k := position ordered (d_location p.2) in Ok (k, addr_of xs p), h)) as E1.
    { rewrite (bindM_read _ _ _ _ (exact_read Fs xs dss h dss p Hst (HS p ltac:(by left)))). unfold bindM, lift. by destruct (position _ _). }
    rewrite (bindM_eq _ _ _ _ _ E1). destruct (position ordered (d_location p.2)) as [k|]; [|done]. cbn [bind].
    rewrite (bindM_eq _ _ _ _ _ (IH ltac:(intros; apply HS; by right))). by destruct (mapR _ S). }
  rewrite (bindM_eq _ _ _ _ _ E). destruct (mapR _ S) as [ks|]; [|done]. cbn [fmapR bind]. unfold retM. rewrite sort_map, !map_map. done.
Qed.
Lemma order_perm t S order : group_order t S = Ok order -> order ≡ₚ map fst S.
Proof.
  unfold group_order. intros H. apply bind_Ok in H as (o & _ & H). apply bind_Ok in H as (ks & Hk & H). injection H as <-. rewrite isort_perm.
  apply mapR_Ok in Hk. clear -Hk. induction Hk as [|p q S ks H _ IH]; [done|]. apply bind_Ok in H as (k & _ & H). injection H as <-. cbn. by rewrite IH.
Qed.

Lemma group_volumes_proof t h Fs xs dss : wf h -> separate h Fs xs dss ->
  exists v, same_outcome v (update_market_production_volumes t MarketGroup dss) /\
    does (next h) (concat Fs) (update_group_volumes_h t xs) v (fun h' _ dss' => separate h' Fs xs dss') h.
Proof.
  intros Hw Hs. unfold update_group_volumes_h, update_market_production_volumes. rewrite bool_decide_true by done.
  set (S := filterb (fun p : nat * dataset => is_type MarketGroup p.2) (indexed dss)).
  assert (forall p, p ∈ S -> dss !! p.1 = Some p.2) as HS by (intros [i d] Hp; apply filterb_In in Hp as [Hp _]; by apply elem_of_indexed).
  assert (those_h (is_type MarketGroup) xs h = (Ok (map (addr_of xs) S), h)) as Ht.
  { rewrite <- (indexed_addr Fs xs dss h Hs) at 1. apply (those_exact Fs xs dss (is_type MarketGroup) h dss); [by apply (start Fs)|]. intros [i d] Hp. by apply elem_of_indexed. }
  pose proof (order_read t h Fs xs dss S Hs HS) as Ho. destruct (group_order t S) as [order|e] eqn:Eo; cbn [fmapR] in Ho.
  2: { exists (Err e). split; [done|]. exists (Err e), h. split; [by rewrite (bindM_read _ _ _ _ Ht), (bindM_eq _ _ _ _ _ Ho)|]. split; [by apply only_refl|done]. }
  cbn [bind]. pose proof (order_perm _ _ _ Eo) as Hp.
  assert (typed order dss) as Hty.
  { split.
    - intros j Hj. rewrite Hp in Hj. apply elem_of_list_fmap in Hj as (p & -> & Hj). eapply lookup_lt_Some. by apply HS.
    - intros j d Hd. rewrite Hp. split.
      + intros Hd2. apply elem_of_list_fmap. exists (j, d). split; [done|]. apply filterb_In. split; [by apply elem_of_indexed|done].
      + intros Hj. apply elem_of_list_fmap in Hj as ([k d2] & -> & Hj). cbn in Hd. pose proof (HS _ Hj) as Hk. cbn in Hk. rewrite Hd in Hk. injection Hk as ->. by apply filterb_In in Hj as [_ Hj]. }
  assert (NoDup order) as Hnd by (rewrite Hp; apply NoDup_filter_fst, indexed_fst).
  exists (foldR (step_in_order order) dss order). split; [by apply steps_same|].
  eapply does_read; [exact Ht|]. eapply does_read; [exact Ho|]. apply steps_spec; [| |done|done]; intros j Hj; rewrite (separate_length _ _ _ _ Hs); by apply Hty.
Qed.
Lemma group_run_proof t dss :
  same_outcome ((let! xs := mapM store dss in let! _ := update_group_volumes_h t xs in mapM readD xs) nothing).1 (update_market_production_volumes t MarketGroup dss).
Proof.
  destruct (stores_proof nothing dss wf_nothing) as (r & h1 & E & O1 & xs & -> & Fs & Hs & _). rewrite (bindM_eq _ _ _ _ _ E).
  assert (wf h1) as Hw1 by by eapply only_wf. destruct (group_volumes_proof t h1 Fs xs dss Hw1 Hs) as (v & Hv & r2 & h2 & E2 & O2 & H2).
  rewrite (bindM_eq _ _ _ _ _ E2). destruct v as [dss'|e].
  - destruct H2 as ([] & -> & Hs2). by rewrite (reads_spec _ _ _ _ Hs2).
  - by rewrite H2.
Qed.
