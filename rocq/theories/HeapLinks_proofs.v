From stdpp Require Import gmap.
From Verif Require Import Base Grouping GroupUpdate Types Uncertainty Utils Validation Cutoff Topology Locations
  Heap Spec_Heap Heap_proofs HeapLinks.

(** ** Reading *)
(** What the loop reads of a market. *)
Definition sees (d d' : dataset) : Prop :=
  d_type d' = d_type d /\ d_name d' = d_name d /\ d_location d' = d_location d /\ d_refprod d' = d_refprod d /\
  d_code d' = d_code d /\ d_tech d' = d_tech d /\ reference_products d' = reference_products d.
Lemma sees_refl d : sees d d.
Proof. done. Qed.
Lemma sees_type ty d d' : sees d d' -> is_type ty d' = is_type ty d.
Proof. intros (H & _). unfold is_type. by rewrite H. Qed.
Lemma sees_location d d' : sees d d' -> d_location d' = d_location d.
Proof. by intros (_ & _ & H & _). Qed.
Lemma sees_supplier e d d' : sees d d' -> annotate_supplier e d' = annotate_supplier e d.
Proof.
  intros (_ & Hn & Hl & _ & Hc & Ht & Hr). unfold annotate_supplier, annotate_exchange, production_volume. by rewrite Hn, Hl, Hc, Ht, Hr.
Qed.
(** The object [p.1] can be read like the dataset [p.2]. *)
Definition visible (h : heap) (p : nat * dataset) : Prop := exists F d, stands h F p.1 d /\ sees p.2 d.

Lemma mapM_visible {B} (f : dataset -> nat -> B) h c : Forall (visible h) c -> exists cur,
  Forall2 sees (map snd c) cur /\
  mapM (fun a => let! ds := readD a in retM (f ds a)) (map fst c) h = (Ok (zip_with f cur (map fst c)), h).
Proof.
  induction 1 as [|p c (F & d & Hst & Hs) _ (cur & Hc & IH)]; [exists []; split; [constructor|done]|]. exists (d :: cur). split; [by constructor|].
  cbn [map mapM]. unfold bindM at 1 2. rewrite (readD_eq _ _ _ _ Hst). cbn. unfold bindM at 1. rewrite IH. done.
Qed.
Lemma mapM_lift {A B} (f : A -> result B) l h : mapM (fun x => lift (f x)) l h = (mapR f l, h).
Proof.
  induction l as [|x l IH]; [done|]. cbn [mapM mapR]. unfold bindM at 1, lift at 1. destruct (f x); [|done]. unfold bindM. rewrite IH. by destruct (mapR f l).
Qed.

(** Choosing among pairs of an object and its dataset. *)
Definition pair_at (l : string) (c : list (nat * dataset)) : option (nat * dataset) :=
  last (filterb (fun p => (d_location p.2 =? l)%string) c).
Definition choose_pairs (t : topo) (loc : string) (row : option faces) (c : list (nat * dataset)) : result (list (nat * dataset)) :=
  let markets := filterb (fun p => is_type MarketActivity p.2) c in
  let groups := filterb (fun p => is_type MarketGroup p.2) c in
  let? found := choose_locations t loc row (map (fun p => d_location p.2) markets) (map (fun p => d_location p.2) groups) in
  mapR (fun l => getkey l (match pair_at l markets with Some p => Some p | None => pair_at l groups end)) found.
Lemma last_map {A B} (f : A -> B) l : last (map f l) = option_map f (last l).
Proof. change (map f l) with (f <$> l). rewrite fmap_last. by destruct (last l). Qed.
Lemma filterb_map {A B} (f : A -> B) p l : filterb p (map f l) = map f (filterb (fun x => p (f x)) l).
Proof. unfold filterb. induction l as [|x l IH]; [done|]. cbn [map List.filter]. rewrite IH. by destruct (p (f x)). Qed.
Lemma filterb_cons {A} p (x : A) l : filterb p (x :: l) = if p x then x :: filterb p l else filterb p l.
Proof. done. Qed.
Lemma last_filterb_in {A} (p : A -> bool) l x : last (filterb p l) = Some x -> x ∈ l.
Proof. intros H%last_Some_elem_of. by apply filterb_In in H as [H _]. Qed.
Lemma mapR_fmap {A B C} (f : A -> result B) (g : B -> C) l : mapR (fun x => fmapR g (f x)) l = fmapR (map g) (mapR f l).
Proof.
  induction l as [|x l IH]; [done|]. cbn [mapR]. destruct (f x); [|done]. cbn [fmapR bind]. rewrite IH. by destruct (mapR f l).
Qed.
Lemma choose_pairs_values t loc row c : choose_markets t loc row (map snd c) = fmapR (map snd) (choose_pairs t loc row c).
Proof.
  unfold choose_markets, choose_pairs. cbv zeta. rewrite !filterb_map, !map_map.
  destruct (choose_locations _ _ _ _ _) as [found|]; [|done]. cbn [bind]. rewrite <- mapR_fmap. apply mapR_ext. intros l _.
  unfold by_location, pair_at. rewrite !filterb_map, !last_map. cbn [option_map].
  destruct (last (filterb _ (filterb _ c))); [done|]. cbn [option_map]. by destruct (last _).
Qed.
Lemma choose_pairs_in t loc row c ps : choose_pairs t loc row c = Ok ps -> forall p, p ∈ ps -> p ∈ c.
Proof.
  unfold choose_pairs. cbv zeta. intros (found & _ & H)%bind_Ok p Hp. apply mapR_Ok in H.
  apply elem_of_list_lookup in Hp as [i Hi]. destruct (Forall2_lookup_r _ _ _ _ _ H Hi) as (l & _ & Hl). unfold pair_at in Hl.
  assert (forall ty, p ∈ filterb (fun p => is_type ty p.2) c -> p ∈ c) as Hf.
  { intros ty Hin. by apply filterb_In in Hin as [Hin _]. }
  destruct (last _) as [q|] eqn:E.
  - cbn in Hl. injection Hl as ->. apply last_filterb_in in E. by eapply Hf.
  - destruct (last (filterb _ (filterb (fun p => is_type MarketGroup p.2) c))) as [q|] eqn:E2; [|done].
    cbn in Hl. injection Hl as ->. apply last_filterb_in in E2. by eapply Hf.
Qed.
(** The same, with the datasets as they are now. *)
Lemma filterb_seen (p : dataset -> bool) (Hp : forall d d', sees d d' -> p d' = p d) (c : list (nat * dataset)) : forall cur, Forall2 sees (map snd c) cur ->
  exists cur', Forall2 sees (map snd (filterb (fun q => p q.2) c)) cur' /\
    filterb (fun q => p q.1) (zip cur (map fst c)) = zip cur' (map fst (filterb (fun q => p q.2) c)).
Proof.
  induction c as [|q c IH]; intros cur H; inversion H as [|? d ? cur1 Hd H1]; subst; [exists []; split; [constructor|done]|].
  destruct (IH cur1 H1) as (cur' & Hc & Heq). cbn [map zip zip_with fst snd]. rewrite !filterb_cons. cbn [fst snd]. rewrite (Hp _ _ Hd). destruct (p q.2).
  - exists (d :: cur'). split; [by constructor|]. rewrite Heq. done.
  - exists cur'. done.
Qed.
Lemma map_seen (c : list (nat * dataset)) : forall cur, Forall2 sees (map snd c) cur ->
  map (fun p => d_location p.1) (zip cur (map fst c)) = map (fun p => d_location p.2) c /\ map snd (zip cur (map fst c)) = map fst c.
Proof.
  induction c as [|q c IH]; intros cur H; inversion H as [|? d ? cur1 Hd H1]; subst; [done|].
  destruct (IH cur1 H1) as (E1 & E2). cbn. rewrite (sees_location _ _ Hd), E1, E2. done.
Qed.
Lemma at_seen l (c : list (nat * dataset)) cur : Forall2 sees (map snd c) cur -> at_location l (zip cur (map fst c)) = option_map fst (pair_at l c).
Proof.
  intros H. unfold at_location, pair_at.
  destruct (filterb_seen (fun d => (d_location d =? l)%string) (fun d d' Hs => ltac:(cbn; by rewrite (sees_location _ _ Hs))) c cur H) as (cur' & H' & ->).
  rewrite (proj2 (map_seen _ _ H')). apply last_map.
Qed.
Lemma markets_read t loc row h c : Forall (visible h) c ->
  markets_h t loc row (map fst c) h = (fmapR (map fst) (choose_pairs t loc row c), h).
Proof.
  intros Hv. destruct (mapM_visible pair h c Hv) as (cur & Hc & Hm). unfold markets_h, choose_pairs, bindM at 1. rewrite Hm. cbv zeta.
  destruct (filterb_seen (is_type MarketActivity) (sees_type MarketActivity) c cur Hc) as (cm & Hcm & Em).
  destruct (filterb_seen (is_type MarketGroup) (sees_type MarketGroup) c cur Hc) as (cg & Hcg & Eg).
  change (zip_with pair cur (map fst c)) with (zip cur (map fst c)). rewrite Em, Eg.
  rewrite (proj1 (map_seen _ _ Hcm)), (proj1 (map_seen _ _ Hcg)). unfold bindM, lift at 1.
  destruct (choose_locations _ _ _ _ _) as [found|]; [|done]. cbn [bind]. rewrite mapM_lift. f_equal. rewrite <- mapR_fmap. apply mapR_ext. intros l _.
  rewrite (at_seen l _ _ Hcm), (at_seen l _ _ Hcg). destruct (pair_at l (filterb _ c)); [done|]. cbn [option_map]. by destruct (pair_at l _).
Qed.

Lemma candidates_pairs gm b name :
  candidates_for (map (fun g => (g.1, map snd g.2)) gm) (option_map (map snd) b) name = fmapR (map (@snd nat dataset)) (candidates_at gm b name) /\
  candidates_at (map (fun g => (g.1, map fst g.2)) gm) (option_map (map fst) b) name = fmapR (map (@fst nat dataset)) (candidates_at gm b name).
Proof.
  unfold candidates_for, candidates_at.
  assert (forall {B} (f : nat * dataset -> B), List.find (fun g => (g.1 =? name)%string) (map (fun g => (g.1, map f g.2)) gm)
    = option_map (fun g => (g.1, map f g.2)) (List.find (fun g => (g.1 =? name)%string) gm)) as Hf.
  { intros B f. clear. induction gm as [|g gm IH]; [done|]. cbn. destruct (_ =? _)%string; [done|]. exact IH. }
  rewrite !Hf. destruct (List.find _ gm); [done|]. cbn. destruct (_ =? _)%string; [|done]. by destruct b.
Qed.
Lemma candidates_in gm b name c (P : nat * dataset -> Prop) : candidates_at gm b name = Ok c ->
  (forall g, g ∈ gm -> Forall P g.2) -> (forall l, b = Some l -> Forall P l) -> Forall P c.
Proof.
  unfold candidates_at. intros H Hg Hb. destruct (List.find _ gm) as [g|] eqn:E.
  - injection H as <-. apply Hg. apply find_some in E as [E _]. by apply elem_of_list_In.
  - destruct (_ =? _)%string; [|done]. destruct b; [|done]. injection H as ->. by apply Hb.
Qed.

(** ** Programs *)
Lemma does_as {A B C} n n' F F' (m : M A) (b : B) (c : C) (R : heap -> A -> B -> Prop) (R' : heap -> A -> C -> Prop) h :
  does n' F' m (Ok b) R h -> (n <= n')%nat -> (forall x, x ∈ F' -> x ∈ F \/ (n <= x)%nat) ->
  (forall h' a, only n' F' h h' -> R h' a b -> R' h' a c) -> does n F m (Ok c) R' h.
Proof.
  intros (r & h' & Hm & Ho & a & -> & HR) Hn HF HRR. exists (Ok a), h'. split; [done|]. split; [by eapply only_weaken|]. exists a. split; [done|]. by apply HRR.
Qed.
Lemma concat_mapR_cons {A B} (f : A -> result (list B)) x l :
  concat_mapR f (x :: l) = let? ys := f x in let? zs := concat_mapR f l in Ok (ys ++ zs).
Proof. unfold concat_mapR. cbn [mapR]. destruct (f x); [|done]. cbn [bind]. by destruct (mapR f l). Qed.
Lemma select_eq (p : exchange -> bool) h (Q : list (nat * (option nat * exchange))) : Forall (fun q => holds h q.1 q.2.2) Q ->
  selectM (fun e => Ok (p e)) (map fst Q) h = (Ok (map fst (filterb (fun q => p q.2.2) Q)), h).
Proof.
  induction 1 as [|q Q Hq _ IH]; [done|]. cbn [map selectM]. unfold bindM at 1. rewrite (getE_eq _ _ _ Hq). unfold bindM at 1, lift.
  unfold bindM. rewrite IH, filterb_cons. by destruct (p q.2.2).
Qed.

(** ** One dataset *)
Section one.
Context (ln : Qc -> Qc) (t : topo) (a : nat) (ds0 : dataset) (exs0 : list nat) (n0 : nat) (O : list (nat * dataset)).
Context (Hnd : NoDup (a :: exs0)) (Hlt : forall x, x ∈ a :: exs0 -> (x < n0)%nat).

Definition is_ref (e : exchange) : bool := bool_decide (e_type e = RefProduct).
Definition tagged (h : heap) (q : nat * (option nat * exchange)) : Prop :=
  holds h q.1 q.2.2 /\ match q.2.1 with Some i => exs0 !! i = Some q.1 | None => (n0 <= q.1)%nat end.
Definition outside (h : heap) (p : nat * dataset) : Prop :=
  p = (a, ds0) \/ exists F d, stands h F p.1 d /\ sees p.2 d /\ forall x, x ∈ F -> (x < n0)%nat /\ x ∉ a :: exs0.
Definition state (h : heap) (sup : option (list exchange)) (l : list (option nat * exchange)) : Prop :=
  exists Q, cells h !! a = Some (Dat (set_d_suppliers sup (set_d_exchanges [] ds0)) (map fst Q)) /\ l = map snd Q /\
    Forall (tagged h) Q /\ NoDup (map fst Q).
Definition refs (l : list (option nat * exchange)) : Prop := filterb is_ref (map snd l) = reference_products ds0.
Definition sup_of (st : link_state) : option (list exchange) := if st.2 then None else d_suppliers ds0.
Definition waiting (h : heap) (x : nat) (p : nat * exchange) : Prop :=
  exs0 !! p.1 = Some x /\ holds h x p.2 /\ e_type p.2 = FromTechnosphere.
Definition inv (h : heap) (st : link_state) (xs : list nat) (inputs : list (nat * exchange)) : Prop :=
  wf h /\ (n0 <= next h)%nat /\ state h (sup_of st) st.1 /\ refs st.1 /\ Forall2 (waiting h) xs inputs /\ NoDup xs /\ Forall (outside h) O.

Lemma outside_only h h' p : only n0 (a :: exs0) h h' -> outside h p -> outside h' p.
Proof.
  intros Ho [-> |(F & d & Hst & Hs & HF)]; [by left|]. right. exists F, d. split_and!; [|done..]. eapply stands_only; [exact Ho|exact HF|done].
Qed.
Lemma only_a h h' F : only n0 F h h' -> (forall x, x ∈ F -> x ∈ a :: exs0) -> only n0 (a :: exs0) h h'.
Proof. intros Ho HF. eapply only_weaken; [exact Ho|done|]. intros x Hx. left. by apply HF. Qed.
Lemma waiting_only h h' F x p : wf h -> only n0 F h h' -> x ∉ F -> waiting h x p -> waiting h' x p.
Proof.
  intros Hw Ho HF (Hx & Hh & Ht). split_and!; [done| |done]. eapply holds_only; [exact Ho| |exact HF|done].
  apply Hlt. right. by eapply elem_of_list_lookup_2.
Qed.
Lemma a_not : a ∉ exs0.
Proof. by apply NoDup_cons in Hnd as [H _]. Qed.
Lemma state_visible h sup l : state h sup l -> refs l -> visible h (a, ds0).
Proof.
  intros (Q & Ha & -> & HQ & HndQ) Hr. exists (a :: map fst Q), (set_d_suppliers sup (set_d_exchanges (map snd (map snd Q)) ds0)). split.
  - exists (map fst Q). cbn [fst]. split; [done|]. split; [rewrite Ha; by destruct ds0|].
    assert (d_exchanges (set_d_suppliers sup (set_d_exchanges (map snd (map snd Q)) ds0)) = map snd (map snd Q)) as -> by by destruct ds0.
    clear -HQ. induction HQ as [|q Q (H & _) _ IH]; cbn [map]; by constructor.
  - unfold refs in Hr. unfold sees. cbn [snd]. split_and!; [by destruct ds0..|]. rewrite <- Hr. unfold reference_products. by destruct ds0.
Qed.
Lemma inv_visible h st xs inputs : inv h st xs inputs -> Forall (visible h) O.
Proof.
  intros (_ & _ & Hs & Hr & _ & _ & HO). eapply Forall_impl; [exact HO|]. intros p [-> |(F & d & H1 & H2 & _)]; [by eapply state_visible|]. by exists F, d.
Qed.

(** Changes to the dataset object only, and new objects. *)
Lemma not_a h q : (n0 <= next h)%nat -> tagged h q -> q.1 <> a.
Proof.
  intros Hn (_ & Ht) E. assert (a < n0)%nat as La by (apply Hlt; by left).
  rewrite E in Ht. destruct q.2.1 as [i|]; [apply a_not; by eapply elem_of_list_lookup_2|lia].
Qed.
Lemma tagged_only h h' q : wf h -> (n0 <= next h)%nat -> only (next h) [a] h h' -> tagged h q -> tagged h' q.
Proof.
  intros Hw Hn Ho Hq. pose proof (not_a h q Hn Hq) as Hne. destruct Hq as (Hh & Ht). split; [|done].
  eapply holds_only; [exact Ho|by eapply holds_lt| |done]. intros Hin%elem_of_list_singleton. done.
Qed.
Lemma set_suppliers_spec h sup sup' l : wf h -> (n0 <= next h)%nat -> state h sup l ->
  does (next h) [a] (set_suppliers_h sup' a) (Ok tt) (fun h' _ _ => state h' sup' l) h.
Proof.
  intros Hw Hn (Q & Ha & -> & HQ & HndQ). unfold set_suppliers_h. eapply does_read; [unfold getD; by rewrite Ha|]. cbn [fst snd].
  assert (a < n0)%nat as La by (apply Hlt; by left).
  eapply (does_as _ _ _ _ _ tt); [apply put_spec; [done|lia]|done|by left|]. intros h' [] Ho Hc. exists Q. split_and!; [rewrite Hc; by destruct ds0|done| |done].
  eapply Forall_impl; [exact HQ|]. intros q. by apply tagged_only.
Qed.
Lemma supply_spec x exc total s h sup l : wf h -> (n0 <= next h)%nat -> state h sup l -> holds h x exc ->
  does (next h) [a] (supply_input_h ln a x total s) (input_of (consumer_input ln exc) total s)
    (fun h' _ new => state h' sup (l ++ map (pair None) new)) h.
Proof.
  intros Hw Hn Hs Hx. unfold supply_input_h, input_of. apply does_lift; [done|]. intros pv _. apply does_lift; [done|]. intros factor _.
  destruct (Qctruthy factor); [|apply does_ret; [done|]; cbn [map]; by rewrite app_nil_r].
  eapply does_bind; [apply (copyE_spec (fun e => consumer_input ln e factor s) h x exc Hw Hx)|done|nilF|].
  intros y e h1 G1 (Hy & Ly). assert (wf h1) as Hw1 by by eapply only_wf. assert (next h <= next h1)%nat as L1 by by eapply only_next.
  destruct Hs as (Q & Ha & -> & HQ & HndQ).
  assert (a < n0)%nat as La by (apply Hlt; by left).
  assert (cells h1 !! a = Some (Dat (set_d_suppliers sup (set_d_exchanges [] ds0)) (map fst Q))) as Ha1.
  { destruct G1 as (_ & _ & G1). rewrite G1; [done|lia|apply not_nil]. }
  assert (Forall (tagged h1) Q) as HQ1.
  { eapply Forall_impl; [exact HQ|]. intros q. apply tagged_only; [done..|]. eapply only_weaken; [exact G1|done|nilF]. }
  eapply does_read; [unfold getD; by rewrite Ha1|]. cbn [snd].
  eapply (does_as _ _ _ _ _ tt); [by eapply set_exs_spec|lia|by left|]. intros h2 [] O2 Hset.
  exists (Q ++ [(y, (None, e))]). split_and!.
  - rewrite Hset, map_app. done.
  - by rewrite map_app.
  - apply Forall_app. split; [|constructor; [|constructor]].
    + eapply Forall_impl; [exact HQ1|]. intros q. apply tagged_only; [done|lia|done].
    + split; [|cbn; lia]. cbn [fst snd]. eapply holds_only; [exact O2|by eapply holds_lt| |exact Hy]. intros ->%elem_of_list_singleton. lia.
  - rewrite map_app. cbn [map fst]. apply NoDup_app. split_and!; [done| |apply NoDup_singleton]. intros z Hz ->%elem_of_list_singleton.
    apply elem_of_list_fmap in Hz as (q & -> & Hq). rewrite Forall_forall in HQ. destruct (HQ q Hq) as (Hh & _).
    pose proof (holds_lt _ _ _ Hw Hh). lia.
Qed.
Lemma supplies_spec x exc total ss : x <> a -> forall h sup l, wf h -> (n0 <= next h)%nat -> state h sup l -> holds h x exc ->
  does (next h) [a] (iterM (supply_input_h ln a x total) ss) (concat_mapR (input_of (consumer_input ln exc) total) ss)
    (fun h' _ new => state h' sup (l ++ map (pair None) new)) h.
Proof.
  intros Hxa. induction ss as [|s ss IH]; intros h sup l Hw Hn Hs Hx; cbn [iterM].
  { apply (does_ret _ _ _ []); [done|]. cbn [map]. by rewrite app_nil_r. }
  rewrite concat_mapR_cons. eapply does_bind; [by apply supply_spec|done|by left|].
  intros [] new h1 O1 Hs1. assert (wf h1) as Hw1 by by eapply only_wf. assert (next h <= next h1)%nat as L1 by by eapply only_next.
  eapply (does_map _ _ _ _ (fun zs => new ++ zs) (fun h' _ zs => state h' sup ((l ++ map (pair None) new) ++ map (pair None) zs))); [eapply does_weaken; [apply (IH h1 sup _ Hw1 ltac:(lia) Hs1)|done|by left|]|].
  - eapply holds_only; [exact O1|by eapply holds_lt| |done]. by intros ->%elem_of_list_singleton.
  - intros h2 [] zs _ HR. exact HR.
  - intros h2 [] zs _ HR. by rewrite map_app, app_assoc.
Qed.
Lemma filter_spec x exc h sup l : wf h -> (n0 <= next h)%nat -> state h sup l -> holds h x exc ->
  does (next h) [a] (let! exc := getE x in let! d := getD a in
      let! rest := selectM (fun e => Ok (bool_decide (e <> exc))) d.2 in set_exs a rest) (Ok tt)
    (fun h' _ _ => state h' sup (filterb (fun ox : option nat * exchange => bool_decide (ox.2 <> exc)) l)) h.
Proof.
  intros Hw Hn (Q & Ha & -> & HQ & HndQ) Hx. eapply does_read; [by apply getE_eq|]. eapply does_read; [unfold getD; by rewrite Ha|]. cbn [snd].
  eapply does_read; [apply (select_eq (fun e => bool_decide (e <> exc)))|].
  { eapply Forall_impl; [exact HQ|]. by intros q []. }
  eapply (does_as _ _ _ _ _ tt); [by eapply set_exs_spec|done|by left|]. intros h' [] Ho Hset. eexists. split; [exact Hset|]. split_and!.
  - by rewrite filterb_map.
  - apply Forall_forall. intros q Hq. apply filterb_In in Hq as [Hq _]. rewrite Forall_forall in HQ. eapply tagged_only; [done|done|exact Ho|by apply HQ].
  - clear -HndQ. induction Q as [|q Q IH]; [done|]. cbn [map] in HndQ. apply NoDup_cons in HndQ as [Hq HndQ]. rewrite filterb_cons.
    destruct (bool_decide _); [|by apply IH]. cbn [map]. apply NoDup_cons. split; [|by apply IH]. intros Hin. apply Hq.
    apply elem_of_list_fmap in Hin as (q' & -> & Hin). apply elem_of_list_fmap. exists q'. split; [done|]. by apply filterb_In in Hin as [Hin _].
Qed.
(** Several markets, or none. *)
Definition shared (exc : exchange) (sups : list exchange) : result decision :=
  match sups with
  | [] => Ok Keep
  | _ => let? vs := volumes sups in
         match vs with
         | None => Ok Keep
         | Some (suppliers, total) => let? new := concat_mapR (input_of (consumer_input ln exc) total) suppliers in Ok (Many new)
         end
  end.
Lemma many_spec i x exc sups h sup st : x <> a -> wf h -> (n0 <= next h)%nat -> state h sup st.1 -> holds h x exc ->
  does (next h) [a] (let! _ := set_suppliers_h (Some sups) a in
      let! _ := match sups with [] => retM tt | _ => allocate_input_h ln a x end in
      set_suppliers_h None a) (shared exc sups)
    (fun h' _ d => (forall c, d <> One c) /\ state h' None (apply_decision i exc st d).1) h.
Proof.
  intros Hxa Hw Hn Hs Hx.
  eapply does_step; [apply (set_suppliers_spec h _ (Some sups) st.1 Hw Hn Hs)|done|by left|]. intros [] h1 O1 Hs1. clear Hs.
  assert (wf h1) as Hw1 by by eapply only_wf. assert (next h <= next h1)%nat as L1 by by eapply only_next.
  assert (holds h1 x exc) as Hx1.
  { eapply holds_only; [exact O1|by eapply holds_lt| |done]. by intros ->%elem_of_list_singleton. }
  eapply (does_bind_end (next h1) [a] _ _ _ _ _ (fun h' _ d => (forall c, d <> One c) /\ exists sup', state h' sup' (apply_decision i exc st d).1)); [|done|by left|].
  - unfold shared. destruct sups as [|s0 sups]; [apply does_ret; [done|]; split; [done|]; by eexists|].
    unfold allocate_input_h. pose proof Hs1 as (Q & Ha & _). eapply does_read; [unfold getD; by rewrite Ha|]. cbn [fst].
    assert (d_suppliers (set_d_suppliers (Some (s0 :: sups)) (set_d_exchanges [] ds0)) = Some (s0 :: sups)) as -> by by destruct ds0.
    eapply does_read; [reflexivity|]. clear Q Ha. apply does_lift; [done|]. intros [[ss total]|] _; [|apply does_ret; [done|]; split; [done|]; by eexists].
    eapply does_step; [apply (set_suppliers_spec h1 _ (Some ss) st.1 Hw1 ltac:(lia) Hs1)|done|by left|]. intros [] h2 O2 Hs2.
    assert (wf h2) as Hw2 by by eapply only_wf. assert (next h1 <= next h2)%nat as L2 by by eapply only_next.
    assert (holds h2 x exc) as Hx2.
    { eapply holds_only; [exact O2|by eapply holds_lt| |done]. by intros ->%elem_of_list_singleton. }
    eapply does_bind; [apply (supplies_spec x exc total ss Hxa h2 _ _ Hw2 ltac:(lia) Hs2 Hx2)|done|by left|]. intros [] new h3 O3 Hs3.
    assert (wf h3) as Hw3 by by eapply only_wf. assert (next h2 <= next h3)%nat as L3 by by eapply only_next.
    assert (holds h3 x exc) as Hx3.
    { eapply holds_only; [exact O3|by eapply holds_lt| |done]. by intros ->%elem_of_list_singleton. }
    eapply (does_as _ _ _ _ _ tt); [apply (filter_spec x exc h3 _ _ Hw3 ltac:(lia) Hs3 Hx3)|lia|by left|].
    intros h4 [] _ Hs4. split; [done|]. eexists. exact Hs4.
  - intros [] d h2 O2 (Hd & sup' & Hs2). assert (wf h2) as Hw2 by by eapply only_wf. assert (next h1 <= next h2)%nat as L2 by by eapply only_next.
    eapply (does_as _ _ _ _ _ tt); [apply (set_suppliers_spec h2 _ None _ Hw2 ltac:(lia) Hs2)|lia|by left|]. done.
Qed.
(** One market: the input gets its code. *)
Lemma one_spec i x exc c h sup st : exs0 !! i = Some x -> wf h -> (n0 <= next h)%nat -> state h sup st.1 -> holds h x exc ->
  does (next h) [x] (modE (fun e => Ok (set_e_code (Some c) e)) x) (Ok tt)
    (fun h' _ _ => state h' sup (apply_decision i exc st (One c)).1) h.
Proof.
  intros Hi Hw Hn (Q & Ha & Hl & HQ & HndQ) Hx.
  assert (x ∈ exs0) as Hin by by eapply elem_of_list_lookup_2. assert (x <> a) as Hxa by (intros ->; by apply a_not).
  assert (x < n0)%nat as Lx by (apply Hlt; by right). assert (a < n0)%nat as La by (apply Hlt; by left).
  eapply (does_as _ _ _ _ _ _ _ _ _ _ (modE_spec (fun e => Ok (set_e_code (Some c) e)) h x exc Hw Hx)); [done|by left|].
  intros h' [] Ho He. set (g := fun q : nat * (option nat * exchange) => if bool_decide (q.2.1 = Some i) then (q.1, (q.2.1, set_e_code (Some c) q.2.2)) else q).
  exists (map g Q).
  assert (map fst (map g Q) = map fst Q) as Hfst.
  { rewrite map_map. apply map_ext. intros q. unfold g. by destruct (bool_decide _). }
  rewrite Hfst. split_and!; [|cbn; rewrite Hl, !map_map; apply map_ext; intros q; unfold g; by destruct (bool_decide _)| |done].
  - destruct Ho as (_ & _ & Ho). rewrite Ho; [done|lia|]. by intros E%elem_of_list_singleton.
  - apply Forall_forall. intros q' Hq'. apply elem_of_list_fmap in Hq' as (q & -> & Hq). rewrite Forall_forall in HQ. destruct (HQ q Hq) as (Hh & Ht).
    unfold g. case_bool_decide as E.
    + split; cbn [fst snd]; [|done]. rewrite E in Ht. assert (q.1 = x) as Eq by congruence. rewrite Eq in Hh |- *. unfold holds in *. rewrite Hx in Hh. injection Hh as <-. done.
    + split; [|done]. eapply holds_only; [exact Ho|by eapply holds_lt| |done]. intros Eq%elem_of_list_singleton. rewrite Eq in Ht.
      destruct q.2.1 as [j|] eqn:Ej; [|lia]. apply E. f_equal. apply NoDup_cons in Hnd as [_ Hnd']. exact (NoDup_lookup exs0 j i x Hnd' Ht Hi).
Qed.

(** The reference products stay. *)
Lemma refs_one i x exc c h sup st : exs0 !! i = Some x -> state h sup st.1 -> holds h x exc -> e_type exc = FromTechnosphere ->
  refs st.1 -> refs (apply_decision i exc st (One c)).1.
Proof.
  intros Hi (Q & _ & Hl & HQ & _) Hx Ht Hr. unfold refs in *. rewrite <- Hr. cbn [apply_decision fst]. rewrite Hl. clear Hl Hr.
  induction HQ as [|q Q (Hh & Hq) _ IH]; [done|]. cbn [map]. rewrite !filterb_cons, IH. case_bool_decide as E; [|done]. cbn [snd].
  rewrite E in Hq. assert (q.1 = x) as Eq by congruence. rewrite Eq in Hh. unfold holds in *. rewrite Hx in Hh. injection Hh as Hh. rewrite <- Hh.
  unfold is_ref. by destruct exc; cbn in *; subst.
Qed.
Lemma consumer_input_type exc factor s e : consumer_input ln exc factor s = Ok e -> e_type e = FromTechnosphere.
Proof. unfold consumer_input. intros (n & _ & H)%bind_Ok. apply bind_Ok in H as (c & _ & [= <-]). by destruct n. Qed.
Lemma shared_types exc sups new : shared exc sups = Ok (Many new) -> Forall (fun e => e_type e = FromTechnosphere) new.
Proof.
  unfold shared. destruct sups as [|s0 sups]; [done|]. intros (vs & _ & H)%bind_Ok. destruct vs as [[ss total]|]; [|done].
  apply bind_Ok in H as (new' & H & [= <-]). revert new' H. clear -ss. induction ss as [|s' ss IH]; intros new H; [injection H as <-; constructor|].
  rewrite concat_mapR_cons in H. apply bind_Ok in H as (ys & Hy & H). apply bind_Ok in H as (zs & Hz & [= <-]). apply Forall_app. split; [|by apply IH].
  unfold input_of in Hy. apply bind_Ok in Hy as (pv & _ & Hy). apply bind_Ok in Hy as (factor & _ & Hy). destruct (Qctruthy factor); [|injection Hy as <-; constructor].
  apply bind_Ok in Hy as (e & He & [= <-]). constructor; [|constructor]. by eapply consumer_input_type.
Qed.
Lemma refs_many i exc sups d st : shared exc sups = Ok d -> e_type exc = FromTechnosphere -> (forall c, d <> One c) ->
  refs st.1 -> refs (apply_decision i exc st d).1.
Proof.
  intros Hd Ht Hone Hr. destruct d as [|c|new]; [done|by destruct (Hone c)|]. apply shared_types in Hd. unfold refs in *. cbn [apply_decision fst].
  rewrite <- Hr. clear Hr. rewrite filterb_app, map_app, filterb_app.
  assert (filterb is_ref (map snd (filterb (fun ox : option nat * exchange => bool_decide (ox.2 <> exc)) (map (fun e => (None, e)) new))) = []) as ->.
  { clear Hone. induction Hd as [|e new He _ IH]; [done|]. cbn [map]. rewrite filterb_cons. case_bool_decide; [|exact IH]. cbn [map snd]. rewrite filterb_cons, IH.
    unfold is_ref. by rewrite He. }
  rewrite app_nil_r. induction st.1 as [|ox l IH]; [done|]. cbn [map]. rewrite !filterb_cons. case_bool_decide as E; cbn [map]; [by rewrite filterb_cons, IH|].
  rewrite IH. assert (ox.2 = exc) as -> by (by destruct (decide (ox.2 = exc))). unfold is_ref. by rewrite Ht.
Qed.

Lemma shared_decide exc chosen : length chosen <> 1%nat -> decide_input ln exc chosen = shared exc (map (annotate_supplier exc) chosen).
Proof. intros Hl. destruct chosen as [|d [|d' ds]]; done. Qed.
Lemma annotate_read x exc h c : Forall (visible h) c -> holds h x exc ->
  mapM (fun m => let! exc := getE x in let! obj := readD m in retM (annotate_supplier exc obj)) (map fst c) h
  = (Ok (map (annotate_supplier exc) (map snd c)), h).
Proof.
  intros Hv Hx. induction Hv as [|p c (F & d & Hst & Hs) _ IH]; [done|]. cbn [map mapM].
  assert ((let! exc := getE x in let! obj := readD p.1 in retM (annotate_supplier exc obj)) h = (Ok (annotate_supplier exc p.2), h)) as E.
  { unfold bindM. rewrite (getE_eq _ _ _ Hx), (readD_eq _ _ _ _ Hst). unfold retM. by rewrite (sees_supplier _ _ _ Hs). }
  unfold bindM at 1. rewrite E. cbv beta iota. unfold bindM at 1. rewrite IH. done.
Qed.

(** One input. *)
Definition ours (b : option (list (nat * dataset))) : Prop := forall l, b = Some l -> Forall (fun p => p ∈ O) l.
Context (gm : list (string * list (nat * dataset))) (loc : string) (row : option faces).
Context (Hgm : forall g, g ∈ gm -> Forall (fun p => p ∈ O) g.2).
Definition mapping_h : list (string * list nat) := map (fun g => (g.1, map fst g.2)) gm.
Definition mapping_v : list (string * list dataset) := map (fun g => (g.1, map snd g.2)) gm.

Lemma inv_step h h' F st st' x xs p inputs : inv h st (x :: xs) (p :: inputs) -> only (next h) F h h' ->
  (forall y, y ∈ F -> y = a \/ y = x) -> state h' (sup_of st') st'.1 -> refs st'.1 -> inv h' st' xs inputs.
Proof.
  intros (Hw & Hn & _ & _ & Hxs & Hndx & HO) Ho HF Hs Hr. inversion Hxs as [|? ? ? ? Hx Hxs']; subst. apply NoDup_cons in Hndx as [Hxn Hndx].
  assert (only n0 F h h') as Ho' by (eapply only_weaken; [exact Ho|done|by left]).
  split_and!; [by eapply only_wf|etrans; [exact Hn|by eapply only_next]|done|done| |done|].
  - clear Hxs. induction Hxs' as [|y q xs inputs Hy _ IH]; constructor.
    + eapply waiting_only; [exact Hw|exact Ho'| |exact Hy]. intros Hin. destruct (HF y Hin) as [-> | ->].
      * apply a_not. destruct Hy as (Hy & _). by eapply elem_of_list_lookup_2.
      * apply Hxn. by left.
    + apply NoDup_cons in Hndx as [_ Hndx]. apply IH; [|done]. intros Hin. apply Hxn. by right.
  - eapply Forall_impl; [exact HO|]. intros q. apply outside_only. eapply only_a; [exact Ho'|]. intros y Hy. destruct (HF y Hy) as [-> | ->]; [by left|].
    right. destruct Hx as (Hx & _). by eapply elem_of_list_lookup_2.
Qed.
Lemma input_spec h b st x xs p inputs : inv h st (x :: xs) (p :: inputs) -> ours b ->
  does n0 (a :: exs0) (link_input_h ln t mapping_h loc row a (option_map (map fst) b) x)
    (link_inputs_step ln t mapping_v loc row (option_map (map snd) b, st) p)
    (fun h' bh r => exists b', bh = option_map (map fst) b' /\ r.1 = option_map (map snd) b' /\ ours b' /\ inv h' r.2 xs inputs) h.
Proof.
  intros Hinv Hb. pose proof (inv_visible _ _ _ _ Hinv) as Hvis. pose proof Hinv as (Hw & Hn & Hs & Hr & Hxs & Hndx & HO).
  inversion Hxs as [|? ? ? ? (Hi & Hx & Hty) Hxs']; subst.
  assert (x ∈ exs0) as Hin by by eapply elem_of_list_lookup_2. assert (x <> a) as Hxa by (intros ->; by apply a_not).
  unfold link_input_h, link_inputs_step, mapping_h, mapping_v. cbn [fst snd].
  eapply does_read; [by apply getE_eq|]. destruct (candidates_pairs gm b (e_name p.2)) as (Ev & Eh). rewrite Ev, Eh.
  destruct (candidates_at gm b (e_name p.2)) as [c|] eqn:Ec; [|by apply does_err]. cbn [fmapR bind]. eapply does_read; [reflexivity|].
  assert (Forall (fun p => p ∈ O) c) as Hc by by eapply candidates_in.
  assert (forall c', (forall q, q ∈ c' -> q ∈ c) -> Forall (visible h) c') as Hvc.
  { intros c' Hc'. apply Forall_forall. intros q Hq. rewrite Forall_forall in Hvis, Hc. auto. }
  rewrite choose_pairs_values.
  destruct (choose_pairs t loc row c) as [ps|e] eqn:Eps.
  2: { cbn [fmapR bind]. exists (Err e), h. split; [unfold bindM; rewrite markets_read by (by apply Hvc); by rewrite Eps|]. split; [by apply only_refl|done]. }
  cbn [fmapR bind]. eapply does_read; [rewrite markets_read by (by apply Hvc); rewrite Eps; reflexivity|].
  pose proof (choose_pairs_in _ _ _ _ _ Eps) as Hps. pose proof (Hvc ps Hps) as Hvps.
  assert (forall d h', inv h' (apply_decision p.1 p.2 st d) xs inputs -> exists b', Some (map fst c) = option_map (map fst) b' /\
    (Some (map snd c), apply_decision p.1 p.2 st d).1 = option_map (map snd) b' /\ ours b' /\ inv h' (Some (map snd c), apply_decision p.1 p.2 st d).2 xs inputs) as Hend.
  { intros d h' H. exists (Some c). split_and!; [done..| |done]. intros l [= <-]. done. }
  assert (length ps = 1 \/ length ps <> 1)%nat as [E1|E1] by lia.
  - destruct ps as [|[m vm] [|? ?]]; [done| |done]. cbn [map fst snd decide_input]. inversion Hvps as [|? ? (F & d & Hst & Hsee) _]; subst. cbn [fst snd] in *.
    assert (decide_input ln p.2 [vm] = let? c := getkey "code" (d_code vm) in Ok (One c)) as -> by done.
    destruct (getkey "code" (d_code vm)) as [code|e] eqn:Ek; cbn [bind].
    + eapply (does_step n0 (a :: exs0) _ _ _ _ tt _ (fun h' _ _ => inv h' (apply_decision p.1 p.2 st (One code)) xs inputs)); [|done|by left|].
      * eapply does_read; [by eapply readD_eq|]. assert (d_code d = d_code vm) as -> by by destruct Hsee as (_ & _ & _ & _ & ? & _).
        rewrite Ek. eapply does_read; [reflexivity|].
        eapply (does_as _ _ _ _ _ tt tt); [apply (one_spec p.1 x p.2 code h _ st Hi Hw Hn Hs Hx)|done|intros z ->%elem_of_list_singleton; left; by right|].
        intros h' [] Ho Hs'. eapply inv_step; [exact Hinv|exact Ho|intros y ->%elem_of_list_singleton; by right|exact Hs'|]. by eapply refs_one.
      * intros [] h' Ho Hinv'. apply does_ret; [by destruct Hinv'|]. by apply Hend.
    + exists (Err e), h. split; [|split; [by apply only_refl|done]]. unfold bindM. rewrite (readD_eq _ _ _ _ Hst).
      assert (d_code d = d_code vm) as -> by by destruct Hsee as (_ & _ & _ & _ & ? & _). by rewrite Ek.
  - rewrite shared_decide by (by rewrite map_length).
    eapply (does_bind n0 (a :: exs0) _ _ _ _ _ _ (fun h' _ d => inv h' (apply_decision p.1 p.2 st d) xs inputs)); [|done|by left|].
    + assert (does (next h) [a] (let! suppliers := mapM (fun m => let! exc := getE x in let! obj := readD m in
                                                    retM (annotate_supplier exc obj)) (map fst ps) in
                   let! _ := set_suppliers_h (Some suppliers) a in
                   let! _ := match suppliers with [] => retM tt | _ => allocate_input_h ln a x end in
                   set_suppliers_h None a) (shared p.2 (map (annotate_supplier p.2) (map snd ps)))
             (fun h' _ d => (forall c, d <> One c) /\ state h' None (apply_decision p.1 p.2 st d).1) h) as Hm.
      { eapply does_read; [by apply annotate_read|]. by eapply many_spec. }
      assert (does n0 (a :: exs0) (let! suppliers := mapM (fun m => let! exc := getE x in let! obj := readD m in
                                                    retM (annotate_supplier exc obj)) (map fst ps) in
                   let! _ := set_suppliers_h (Some suppliers) a in
                   let! _ := match suppliers with [] => retM tt | _ => allocate_input_h ln a x end in
                   set_suppliers_h None a) (shared p.2 (map (annotate_supplier p.2) (map snd ps)))
             (fun h' _ d => inv h' (apply_decision p.1 p.2 st d) xs inputs) h) as Hm'.
      { destruct Hm as (r & h' & Hm & Ho & HR). exists r, h'. split; [done|]. split; [eapply only_weaken; [exact Ho|done|intros z ->%elem_of_list_singleton; left; by left]|].
        destruct (shared _ _) as [d|] eqn:Ed; [|done]. destruct HR as (u & -> & Hone & Hs'). exists u. split; [done|].
        eapply inv_step; [exact Hinv|exact Ho|intros y ->%elem_of_list_singleton; by left| |by eapply refs_many].
        destruct d as [|code|new]; [exact Hs'|by destruct (Hone code)|exact Hs']. }
      destruct ps as [|q [|q' ps]]; [exact Hm'|done|exact Hm'].
    + intros [] d h' Ho Hinv'. apply does_ret; [by destruct Hinv'|]. by apply Hend.
Qed.
Lemma inputs_spec inputs : forall xs h b st, inv h st xs inputs -> ours b ->
  does n0 (a :: exs0) (foldM (link_input_h ln t mapping_h loc row a) (option_map (map fst) b) xs)
    (foldR (link_inputs_step ln t mapping_v loc row) (option_map (map snd) b, st) inputs)
    (fun h' bh r => exists b', bh = option_map (map fst) b' /\ r.1 = option_map (map snd) b' /\ ours b' /\ inv h' r.2 [] []) h.
Proof.
  induction inputs as [|p inputs IH]; intros xs h b st Hinv Hb; pose proof Hinv as (Hw & _ & _ & _ & Hxs & _); inversion Hxs; subst; cbn [foldM foldR].
  { apply does_ret; [done|]. by exists b. }
  eapply does_bind; [by apply input_spec|done|by left|]. intros bh [vb st'] h' Ho (b' & -> & Eb & Hb' & Hinv'). cbn [fst snd] in *. rewrite Eb. by apply IH.
Qed.
End one.

(** ** The dictionaries *)
Lemma find_groupby {A} (l : list (string * A)) k :
  List.find (fun g => (g.1 =? k)%string) (groupby l) = match with_key k l with [] => None | ys => Some (k, ys) end.
Proof.
  destruct (groupby_spec l) as (_ & Hk & Hg). destruct (List.find _ _) as [[k' xs]|] eqn:E.
  - apply find_some in E as [Hin E]. cbn in E. apply String.eqb_eq in E as ->. apply elem_of_list_In, Hg in Hin as (Hin & ->).
    pose proof (with_key_nonempty k l Hin). by destruct (with_key k l).
  - destruct (with_key k l) as [|y ys] eqn:Ew; [done|]. exfalso.
    assert (k ∈ map fst l) as Hin.
    { destruct (decide (k ∈ map fst l)) as [|Hno]; [done|]. by rewrite with_key_nil in Ew. }
    assert ((k, y :: ys) ∈ groupby l) as Hin2 by (apply Hg; by rewrite Ew).
    apply elem_of_list_In in Hin2. pose proof (find_none _ _ E _ Hin2) as Hne. cbn in Hne. by rewrite String.eqb_refl in Hne.
Qed.
Definition named (ty : dtype) (O : list (nat * dataset)) : list (string * (nat * dataset)) :=
  map (fun p => (d_name p.2, p)) (filterb (fun p => is_type ty p.2) O).
Lemma with_key_named ty O k : with_key k (named ty O) = filterb (fun p => is_type ty p.2 && (d_name p.2 =? k)%string) O.
Proof.
  unfold named, with_key. induction O as [|p O IH]; [done|]. rewrite !filterb_cons. destruct (is_type ty p.2); [|exact IH]. cbn [map andb].
  rewrite filter_cons. cbn [fst]. destruct (decide (d_name p.2 = k)) as [E|E].
  - cbn [map snd]. rewrite IH. rewrite E, String.eqb_refl. done.
  - apply String.eqb_neq in E. rewrite E. exact IH.
Qed.
Lemma mapM_readD_visible h c : Forall (visible h) c -> exists cur, Forall2 sees (map snd c) cur /\ mapM readD (map fst c) h = (Ok cur, h).
Proof.
  induction 1 as [|p c (F & d & Hst & Hs) _ (cur & Hc & IH)]; [exists []; split; [constructor|done]|]. exists (d :: cur). split; [by constructor|].
  cbn [map mapM]. unfold bindM at 1. rewrite (readD_eq _ _ _ _ Hst). unfold bindM. rewrite IH. done.
Qed.
Lemma map_location c cur : Forall2 sees c cur -> map d_location cur = map d_location c.
Proof. induction 1 as [|d d' c cur H _ IH]; [done|]. cbn. by rewrite IH, (sees_location _ _ H). Qed.
Lemma groupby_fst (l : list (string * (nat * dataset))) :
  groupby (map (fun p => (p.1, p.2.1)) l) = map (fun g => (g.1, map fst g.2)) (groupby l).
Proof. apply groupby_map. Qed.
Lemma row_read t O h ds : Forall (visible h) O ->
  row_h t (groupby (map (fun p => (p.1, p.2.1)) (named MarketActivity O))) (groupby (map (fun p => (p.1, p.2.1)) (named Transforming O))) ds h
  = (consumer_row_of t (map snd O) ds, h).
Proof.
  intros Hv. unfold row_h, consumer_row_of. destruct (_ =? "RoW")%string; [|done].
  set (ty := if is_type Transforming ds then Transforming else MarketActivity).
  assert ((if is_type Transforming ds then groupby (map (fun p => (p.1, p.2.1)) (named Transforming O)) else groupby (map (fun p => (p.1, p.2.1)) (named MarketActivity O)))
    = groupby (map (fun p => (p.1, p.2.1)) (named ty O))) as -> by (unfold ty; by destruct (is_type _ _)).
  rewrite find_groupby.
  assert (with_key (d_name ds) (map (fun p : string * (nat * dataset) => (p.1, p.2.1)) (named ty O)) = map fst (with_key (d_name ds) (named ty O))) as ->.
  { unfold with_key. generalize (named ty O). intros l. induction l as [|p l IH]; [done|]. cbn [map]. rewrite !filter_cons. cbn [fst]. destruct (decide _); [|exact IH]. cbn [map]. by rewrite IH. }
  rewrite with_key_named, filterb_map.
  assert (Forall (visible h) (filterb (fun p => is_type ty p.2 && (d_name p.2 =? d_name ds)%string) O)) as Hvf.
  { apply Forall_forall. intros p Hp. apply filterb_In in Hp as [Hp _]. rewrite Forall_forall in Hv. by apply Hv. }
  set (c := filterb (fun p => is_type ty p.2 && (d_name p.2 =? d_name ds)%string) O) in *.
  destruct (mapM_readD_visible h c Hvf) as (cur & Hcur & Hm).
  assert (c = [] \/ exists p c', c = p :: c') as [E|(p & c' & E)] by (destruct c; [by left|right; by eexists _, _]).
  { rewrite E. done. }
  assert (match map fst c with [] => None | ys => Some (d_name ds, ys) end = Some (d_name ds, map fst c)) as -> by by rewrite E.
  cbn [snd]. unfold bindM at 1. rewrite Hm. rewrite (map_location _ _ Hcur).
  assert (map d_location (map snd c) <> []) as Hne by by rewrite E.
  destruct (map d_location (map snd c)) as [|l ls]; [done|]. unfold bindM, lift, retM. by destruct (resolve_row t (l :: ls)).
Qed.

(** ** All datasets *)
Lemma bindM_read {A B} (m : M A) (k : A -> M B) h a : m h = (Ok a, h) -> bindM m k h = k a h.
Proof. unfold bindM. by intros ->. Qed.
Definition known (O : list (nat * dataset)) (l : list (string * (nat * dataset))) : Prop := forall p, p ∈ l -> p.2 ∈ O.
Lemma names_read ty h ts : Forall (stand h) ts ->
  names_h ty (map (fun t => t.2.1) ts) h = (Ok (map (fun p => (p.1, p.2.1)) (named ty (map snd ts))), h).
Proof.
  intros H. unfold names_h, concat_mapM.
  assert (mapM (fun a => let! ds := readD a in retM (if is_type ty ds then [(d_name ds, a)] else [])) (map (fun t : thing => t.2.1) ts) h
    = (Ok (map (fun t : thing => if is_type ty t.2.2 then [(d_name t.2.2, t.2.1)] else []) ts), h)) as E.
  { induction H as [|x ts Hx _ IH]; [done|]. cbn [map mapM].
    assert ((let! ds := readD x.2.1 in retM (if is_type ty ds then [(d_name ds, x.2.1)] else [])) h = (Ok (if is_type ty x.2.2 then [(d_name x.2.2, x.2.1)] else []), h)) as E1.
    { unfold bindM. by rewrite (readD_eq _ _ _ _ Hx). }
    unfold bindM at 1. rewrite E1. cbv beta iota. unfold bindM at 1. rewrite IH. done. }
  rewrite (bindM_read _ _ _ _ E). unfold retM. do 2 f_equal. clear. induction ts as [|x ts IH]; [done|]. cbn [map concat]. rewrite IH. unfold named. cbn [map]. rewrite filterb_cons.
  by destruct (is_type ty x.2.2).
Qed.
Definition keyed' {K} (key : dataset -> result (option K)) (dss : list dataset) : result (list (K * dataset)) :=
  concat_mapR (fun ds => let? k := key ds in Ok (match k with Some k => [(k, ds)] | None => [] end)) dss.
Lemma keyed_values {K} (key : dataset -> result (option K)) dss : fmapR (map (fun p => (p.1, p.2.2))) (keyed key dss) = keyed' key dss.
Proof.
  unfold keyed, keyed'. rewrite <- (indexed_snd dss) at 2. generalize (indexed dss). intros l. induction l as [|p l IH]; [done|].
  cbn [map]. rewrite !concat_mapR_cons. destruct (key p.2) as [k|]; [|done]. cbn [bind]. rewrite <- IH.
  destruct (concat_mapR _ l) as [zs|]; [|done]. cbn [bind fmapR]. rewrite map_app. by destruct k.
Qed.
Lemma refprods_spec tys h ts : wf h -> Forall (stand h) ts ->
  does (next h) [] (refprods_h tys (map (fun t => t.2.1) ts)) (keyed' (typed_refprod tys) (map (fun t => t.2.2) ts))
    (fun h' ks vks => h' = h /\ exists l, known (map snd ts) l /\ ks = map (fun p => (p.1, p.2.1)) l /\ vks = map (fun p => (p.1, p.2.2)) l) h.
Proof.
  intros Hw H. unfold refprods_h, keyed', concat_mapM.
  assert (does (next h) [] (mapM (fun a => let! ds := readD a in let! k := lift (typed_refprod tys ds) in retM (match k with Some k => [(k, a)] | None => [] end)) (map (fun t : thing => t.2.1) ts))
    (concat_mapR (fun ds => let? k := typed_refprod tys ds in Ok (match k with Some k => [(k, ds)] | None => [] end)) (map (fun t : thing => t.2.2) ts))
    (fun h' kss vks => h' = h /\ exists l, known (map snd ts) l /\ concat kss = map (fun p => (p.1, p.2.1)) l /\ vks = map (fun p => (p.1, p.2.2)) l) h) as Hd.
  { induction H as [|x ts Hx _ IH]; [apply (does_ret _ _ _ []); [done|]; split; [done|]; exists []; split_and!; [intros p Hp; by apply elem_of_nil in Hp|done|done]|].
    cbn [map mapM]. rewrite concat_mapR_cons.
    eapply (does_bind (next h) [] _ _ _ _ _ _ (fun h' kx kd => h' = h /\ exists k, kx = (match k with Some k => [(k, x.2.1)] | None => [] end) /\ kd = (match k with Some k => [(k, x.2.2)] | None => [] end))); [|done|nilF|].
    { eapply does_read; [by eapply readD_eq|]. apply does_lift; [done|]. intros k _. apply does_ret; [done|]. split; [done|]. by exists k. }
    intros kx kd ? _ (-> & k & -> & ->). eapply does_bind; [exact IH|done|nilF|]. intros kss vks ? _ (-> & l & Hl & Ek & ->).
    apply does_ret; [done|]. split; [done|]. exists (match k with Some k => [(k, x.2)] | None => [] end ++ l). split_and!.
    - intros p Hp. apply elem_of_app in Hp as [Hp|Hp]; [|right; by apply Hl]. destruct k; [|by apply elem_of_nil in Hp]. apply elem_of_list_singleton in Hp as ->. by left.
    - cbn [concat]. rewrite Ek, map_app. by destruct k.
    - rewrite map_app. by destruct k. }
  eapply does_bind_end; [exact Hd|done|nilF|]. intros kss vks ? _ (-> & l & Hl & Ek & ->). apply does_ret; [done|]. split; [done|]. by exists l.
Qed.
Lemma select_inputs h exs es : Forall2 (holds h) exs es -> forall k (exs0 : list nat), (forall i x, exs !! i = Some x -> exs0 !! (k + i)%nat = Some x) -> exists xs,
  selectM (fun e => Ok (unlinked e)) exs h = (Ok xs, h) /\ sublist xs exs /\
  Forall2 (waiting exs0 h) xs (filterb (fun p => unlinked p.2) (imap (fun i x => ((k + i)%nat, x)) es)).
Proof.
  induction 1 as [|x e exs es Hx _ IH]; intros k exs0 Hk; [exists []; split_and!; [done|constructor|constructor]|].
  destruct (IH (S k) exs0) as (xs & E & Hsub & HF).
  { intros i y Hy. rewrite Nat.add_succ_l, <- Nat.add_succ_r. by apply Hk. }
  cbn [selectM]. rewrite (bindM_read _ _ _ _ (getE_eq _ _ _ Hx)). rewrite (bindM_read _ _ h (unlinked e) eq_refl), (bindM_read _ _ _ _ E). unfold retM.
  rewrite imap_cons, filterb_cons. cbn [snd].
  assert (imap ((fun i (x : exchange) => ((k + i)%nat, x)) ∘ S) es = imap (fun i x => ((S k + i)%nat, x)) es) as Ei.
  { apply imap_ext. intros i y _. cbn. f_equal. lia. }
  destruct (unlinked e) eqn:Eu.
  - exists (x :: xs). split; [done|]. split; [by constructor|]. constructor; [|rewrite Ei; exact HF].
    unfold waiting. cbn [fst snd]. split_and!; [by apply (Hk 0%nat)|done|]. unfold unlinked in Eu. apply andb_true_iff in Eu as [Eu _]. by apply bool_decide_eq_true in Eu.
  - exists xs. split; [done|]. split; [by constructor|]. rewrite Ei; exact HF.
Qed.

Lemma link_dataset_spec ln t O gm h F a ds b : wf h -> stands h F a ds -> NoDup F ->
  (forall p, p ∈ O -> p = (a, ds) \/ exists F' d, stands h F' p.1 d /\ sees p.2 d /\ forall x, x ∈ F' -> (x < next h)%nat /\ x ∉ F) ->
  (forall g, g ∈ gm -> Forall (fun p => p ∈ O) g.2) -> ours O b ->
  does (next h) F
    (link_dataset_h ln t (mapping_h gm) (groupby (map (fun p => (p.1, p.2.1)) (named MarketActivity O)))
      (groupby (map (fun p => (p.1, p.2.1)) (named Transforming O))) (option_map (map fst) b) a)
    (link_dataset ln t (mapping_v gm) (map snd O) (option_map (map snd) b) ds)
    (fun h' bh r => exists b', bh = option_map (map fst) b' /\ r.1 = option_map (map snd) b' /\ ours O b' /\
       exists F', stands h' F' a r.2 /\ NoDup F' /\ (forall x, x ∈ F' -> x ∈ F \/ (next h <= x)%nat) /\ sees ds r.2) h.
Proof.
  intros Hw Hst Hnd HO Hgm Hb. pose proof Hst as (exs & -> & Ha & He). unfold link_dataset_h, link_dataset.
  eapply does_read; [by eapply readD_eq|]. destruct (is_type MarketGroup ds).
  { apply does_ret; [done|]. exists b. split_and!; [done..|]. exists (a :: exs). split_and!; [done|done|by left|apply sees_refl]. }
  assert (Forall (visible h) O) as Hvis.
  { apply Forall_forall. intros p Hp. destruct (HO p Hp) as [-> |(F' & d & H1 & H2 & _)]; [exists (a :: exs), ds; split; [done|apply sees_refl]|by exists F', d]. }
  destruct (consumer_row_of t (map snd O) ds) as [row|e] eqn:Erow.
  2: { exists (Err e), h. split; [unfold bindM; rewrite (row_read t O h ds Hvis); by rewrite Erow|]. split; [by apply only_refl|done]. }
  eapply does_read; [rewrite (row_read t O h ds Hvis); by rewrite Erow|]. cbn [bind].
  eapply does_read; [unfold getD; by rewrite Ha|]. cbn [snd].
  destruct (select_inputs h exs (d_exchanges ds) He 0 exs ltac:(done)) as (xs & Exs & Hsub & Hwait).
  eapply does_read; [exact Exs|].
  assert (forall x, x ∈ a :: exs -> (x < next h)%nat) as Hlt.
  { intros x Hx. by eapply stands_lt. }
  set (Q0 := imap (fun i xe => (xe.1, (Some i, xe.2))) (zip exs (d_exchanges ds))).
  assert (map fst Q0 = exs) as HQ1.
  { unfold Q0. change (map fst) with (fmap (M := list) (@fst nat (option nat * exchange))). rewrite fmap_imap. rewrite <- (fst_zip exs (d_exchanges ds)) at 2; [|apply Forall2_length in He; lia].
    apply list_eq. intros i. rewrite list_lookup_imap. change (map fst) with (fmap (M := list) (@fst nat exchange)). rewrite list_lookup_fmap. by destruct (zip _ _ !! i). }
  assert (map snd Q0 = map (fun p => (Some p.1, p.2)) (indexed (d_exchanges ds))) as HQ2.
  { unfold Q0, indexed. apply list_eq. intros i. change (map snd) with (fmap (M := list) (@snd nat (option nat * exchange))).
    change (map (fun p : nat * exchange => (Some p.1, p.2))) with (fmap (M := list) (fun p : nat * exchange => (Some p.1, p.2))).
    rewrite !list_lookup_fmap, !list_lookup_imap. rewrite lookup_zip_with. apply Forall2_length in He.
    destruct (d_exchanges ds !! i) as [e|] eqn:E1.
    - destruct (lookup_lt_is_Some_2 exs i) as [x ->]; [rewrite He; by eapply lookup_lt_Some|]. done.
    - destruct (exs !! i); done. }
  assert (inv a ds exs (next h) O h (map (fun p => (Some p.1, p.2)) (indexed (d_exchanges ds)), false) xs (filterb (fun p => unlinked p.2) (indexed (d_exchanges ds)))) as Hinv.
  { split_and!.
    - done.
    - done.
    - exists Q0. cbn [fst]. split_and!; [rewrite Ha, HQ1; unfold sup_of; by destruct ds|by rewrite HQ2| |rewrite HQ1; by apply NoDup_cons in Hnd as [_ Hnd]].
      apply Forall_forall. intros q Hq. apply elem_of_list_lookup in Hq as [i Hi]. unfold Q0 in Hi. rewrite list_lookup_imap in Hi.
      destruct (zip exs (d_exchanges ds) !! i) as [[x e]|] eqn:Ez; [|done]. cbn in Hi. injection Hi as <-. apply lookup_zip_with_Some in Ez as (x' & e' & [= <- <-] & H1 & H2).
      split; cbn [fst snd]; [|done]. by eapply (Forall2_lookup_lr _ _ _ _ _ _ He).
    - unfold refs. cbn [fst]. rewrite map_map. cbn [snd]. unfold reference_products, is_ref. f_equal. apply indexed_snd.
    - exact Hwait.
    - eapply sublist_NoDup; [exact Hsub|]. by apply NoDup_cons in Hnd as [_ Hnd].
    - apply Forall_forall. intros p Hp. destruct (HO p Hp) as [-> |H]; [by left|by right]. }
  eapply (does_map _ _ _ _ _ _ _ _ (inputs_spec ln t a ds exs (next h) O Hnd Hlt gm (d_location ds) row Hgm _ xs h b _ Hinv Hb)).
  intros h' bh [vb st] Ho (b' & -> & Eb & Hb' & Hinv'). cbn [fst snd] in *. exists b'. split_and!; [done..|].
  destruct Hinv' as (Hw' & _ & (Q & Hc & Hl & HQ & HndQ) & Hr & _). exists (a :: map fst Q). split_and!.
  - exists (map fst Q). split; [done|].
    assert (d_exchanges (if st.2 then set_d_suppliers None (set_d_exchanges (map snd st.1) ds) else set_d_exchanges (map snd st.1) ds) = map snd st.1) as -> by (destruct ds; by destruct st.2).
    split; [rewrite Hc; unfold sup_of; destruct ds; by destruct st.2|]. rewrite Hl. clear -HQ. induction HQ as [|q Q (H & _) _ IH]; cbn [map]; by constructor.
  - apply NoDup_cons. split; [|done]. intros Hin. apply elem_of_list_fmap in Hin as (q & Eq & Hq). rewrite Forall_forall in HQ.
    apply (not_a a exs (next h) Hnd Hlt h' q ltac:(by eapply only_next) (HQ q Hq)). done.
  - intros x Hx. apply elem_of_cons in Hx as [-> |Hx]; [left; by left|]. apply elem_of_list_fmap in Hx as (q & -> & Hq). rewrite Forall_forall in HQ.
    destruct (HQ q Hq) as (_ & Ht). destruct q.2.1 as [i|]; [left; right; by eapply elem_of_list_lookup_2|by right].
  - unfold refs in Hr. unfold sees. split_and!; (destruct ds; by destruct st.2).
Qed.

Lemma things_app h ts1 ts2 : Forall (stand h) ts1 -> Forall (stand h) ts2 -> Forall (stand h) (ts1 ++ ts2).
Proof. intros. by apply Forall_app. Qed.
Lemma objects_app ts1 ts2 : objects (ts1 ++ ts2) = objects ts1 ++ objects ts2.
Proof. unfold objects. by rewrite map_app, concat_app. Qed.
Lemma elem_of_objects x ts : x ∈ objects ts <-> exists t, t ∈ ts /\ x ∈ t.1.
Proof.
  unfold objects. rewrite elem_of_concat. split.
  - intros (F & Hx & HF). apply elem_of_list_fmap in HF as (t & -> & Ht). by exists t.
  - intros (t & Ht & Hx). exists t.1. split; [done|]. apply elem_of_list_fmap. by exists t.
Qed.
Lemma fold_links ln t O gm n G : (forall g, g ∈ gm -> Forall (fun p => p ∈ O) g.2) -> forall (todo : list thing) (Od : list (nat * dataset)) (ended : list thing) h b,
  O = Od ++ map snd todo -> Forall2 (fun p u => p.1 = u.2.1 /\ sees p.2 u.2.2) Od ended ->
  wf h -> (n <= next h)%nat -> Forall (stand h) (ended ++ todo) -> NoDup (objects (ended ++ todo)) ->
  (forall x, x ∈ objects (ended ++ todo) -> x ∈ G \/ (n <= x)%nat) -> ours O b ->
  does n G
    (foldM (link_dataset_h ln t (mapping_h gm) (groupby (map (fun p => (p.1, p.2.1)) (named MarketActivity O)))
      (groupby (map (fun p => (p.1, p.2.1)) (named Transforming O)))) (option_map (map fst) b) (map (fun u => u.2.1) todo))
    (foldR (fun acc ds => let? r := link_dataset ln t (mapping_v gm) (map snd O) acc.1 ds in Ok (r.1, acc.2 ++ [r.2]))
      (option_map (map snd) b, map (fun u => u.2.2) ended) (map (fun u => u.2.2) todo))
    (fun h' _ r => results n G h' (map (fun u => u.2.1) (ended ++ todo)) r.2) h.
Proof.
  intros Hgm. induction todo as [|[F [a ds]] todo IH]; intros Od ended h b HOeq Hod Hw Hn Hst Hnd HG Hb; cbn [map foldM foldR fst snd].
  { apply does_ret; [done|]. cbn [snd]. rewrite app_nil_r in *. exists (map (fun u => u.1) ended). split; [by apply things_separate|]. exact HG. }
  rewrite objects_app in Hnd. unfold objects in Hnd at 2. cbn [map concat fst] in Hnd. change (concat (map (fun u : thing => u.1) todo)) with (objects todo) in Hnd.
  apply NoDup_app in Hnd as (N1 & D1 & N2). apply NoDup_app in N2 as (N2 & D2 & N3).
  apply Forall_app in Hst as [Hst1 Hst2]. inversion Hst2 as [|? ? Hta Hst3]; subst. unfold stand in Hta. cbn [fst snd] in Hta.
  assert (forall u, u ∈ ended ++ todo -> stand h u /\ forall x, x ∈ u.1 -> (x < next h)%nat /\ x ∉ F) as Hother.
  { intros u Hu. apply elem_of_app in Hu as [Hu|Hu].
    - rewrite Forall_forall in Hst1. specialize (Hst1 u Hu). split; [done|]. intros x Hx. split; [exact (stands_lt h u.1 u.2.1 u.2.2 x Hw Hst1 Hx)|]. intros HxF. eapply (D1 x); [apply elem_of_objects; by exists u|].
      apply elem_of_app. by left.
    - rewrite Forall_forall in Hst3. specialize (Hst3 u Hu). split; [done|]. intros x Hx. split; [exact (stands_lt h u.1 u.2.1 u.2.2 x Hw Hst3 Hx)|]. intros HxF. apply (D2 x HxF). apply elem_of_objects. by exists u. }
  eapply (does_bind (next h) F _ _ _ _ (let? r := link_dataset ln t (mapping_v gm) _ _ ds in Ok (r.1, map (fun u => u.2.2) ended ++ [r.2])));
    [eapply (does_map _ _ _ _ _ _ (fun h' bh acc => exists b' F' ds', bh = option_map (map fst) b' /\ acc = (option_map (map snd) b', map (fun u => u.2.2) (ended ++ [(F', (a, ds'))])) /\
        ours (Od ++ map snd ((F, (a, ds)) :: todo)) b' /\ stands h' F' a ds' /\ NoDup F' /\ (forall x, x ∈ F' -> x ∈ F \/ (next h <= x)%nat) /\ sees ds ds'))|exact Hn| |].
  - apply (link_dataset_spec ln t _ gm h F a ds b Hw Hta N2); [|exact Hgm|exact Hb]. intros p Hp. apply elem_of_app in Hp as [Hp|Hp].
    + right. apply elem_of_list_lookup in Hp as [i Hi]. destruct (Forall2_lookup_l _ _ _ _ _ Hod Hi) as (u & Hu & Ep & Hs). apply elem_of_list_lookup_2 in Hu.
      destruct (Hother u ltac:(apply elem_of_app; by left)) as (Hsu & Hx). exists u.1, u.2.2. rewrite Ep. split_and!; done.
    + cbn [map] in Hp. apply elem_of_cons in Hp as [-> |Hp]; [by left|]. right. apply elem_of_list_fmap in Hp as (u & -> & Hu).
      destruct (Hother u ltac:(apply elem_of_app; by right)) as (Hsu & Hx). exists u.1, u.2.2. split_and!; [exact Hsu|apply sees_refl|done].
  - intros h' bh [vb ds'] Ho (b' & -> & Eb & Hb' & F' & HF1 & HF2 & HF3 & HF4). cbn [fst snd] in *. exists b', F', ds'. rewrite Eb, map_app. split_and!; done.
  - intros x Hx. apply HG. rewrite objects_app, elem_of_app. right. unfold objects. cbn. apply elem_of_app. by left.
  - intros bh acc h1 O1 (b' & F' & ds' & -> & -> & Hb' & HF1 & HF2 & HF3 & HF4). assert (wf h1) as Hw1 by by eapply only_wf. assert (next h <= next h1)%nat as L1 by by eapply only_next.
    assert (forall u, u ∈ ended ++ todo -> stand h1 u) as Hother1.
    { intros u Hu. destruct (Hother u Hu) as (Hsu & Hx). eapply stands_only; [exact O1|exact Hx|exact Hsu]. }
    eapply does_weaken; [apply (IH (Od ++ [(a, ds)]) (ended ++ [(F', (a, ds'))]) h1 b')|done|by left|].
    9: { intros h2 u r _ HR. refine (eq_ind _ (fun l => results n G h2 l _) HR _ _). rewrite <- app_assoc, !map_app. done. }
    + cbn [map]. by rewrite <- app_assoc.
    + apply Forall2_app; [done|]. constructor; [|constructor]. done.
    + done.
    + lia.
    + apply Forall_forall. intros u Hu. rewrite <- app_assoc in Hu. apply elem_of_app in Hu as [Hu|Hu]; [apply Hother1; apply elem_of_app; by left|].
      cbn in Hu. apply elem_of_cons in Hu as [-> |Hu]; [done|]. apply Hother1. apply elem_of_app. by right.
    + rewrite !objects_app. unfold objects at 2. cbn [map concat fst]. rewrite app_nil_r. rewrite <- app_assoc. apply NoDup_app. split_and!; [done| |apply NoDup_app; split_and!; [done| |done]].
      * intros x Hx Hx'. pose proof (things_lt h ended x Hw Hst1 Hx) as Lx. apply elem_of_app in Hx' as [Hx'|Hx'].
        -- destruct (HF3 x Hx') as [Hx2|Hx2]; [|lia]. apply (D1 x Hx). apply elem_of_app. by left.
        -- apply (D1 x Hx). apply elem_of_app. by right.
      * intros x Hx Hx'. pose proof (things_lt h todo x Hw Hst3 Hx') as Lx. destruct (HF3 x Hx) as [Hx2|Hx2]; [|lia]. by apply (D2 x Hx2).
    + intros x Hx. rewrite !objects_app in Hx. unfold objects in Hx at 2. cbn [map concat fst] in Hx. rewrite app_nil_r in Hx.
      apply elem_of_app in Hx as [Hx|Hx]; [apply elem_of_app in Hx as [Hx|Hx]|].
      * apply HG. rewrite objects_app, elem_of_app. by left.
      * destruct (HF3 x Hx) as [Hx2|Hx2]; [|right; lia]. apply HG. rewrite objects_app, elem_of_app. right. unfold objects. cbn. apply elem_of_app. by left.
      * apply HG. rewrite objects_app, elem_of_app. right. unfold objects. cbn. apply elem_of_app. by right.
    + exact Hb'.
Qed.
Lemma links_proof ln t h Fs xs dss : wf h -> separate h Fs xs dss ->
  does (next h) (concat Fs) (link_consumers_h ln t xs) (link_consumers_to_markets ln t dss) (fun h' _ dss' => results (next h) (concat Fs) h' xs dss') h.
Proof.
  intros Hw Hs. destruct (separate_things _ _ _ _ Hs) as (ts & -> & -> & -> & Hts & Hnd). clear Hs. unfold link_consumers_h, link_consumers_to_markets.
  assert (forall B (k : list (string * (nat * dataset)) -> result B) (k' : list (string * dataset) -> result B),
    (forall ks, k ks = k' (map (fun p => (p.1, p.2.2)) ks)) ->
    bind (keyed (typed_refprod [MarketActivity; MarketGroup]) (map (fun u : thing => u.2.2) ts)) k
    = bind (keyed' (typed_refprod [MarketActivity; MarketGroup]) (map (fun u : thing => u.2.2) ts)) k') as Hk.
  { intros B k k' Hkk. rewrite <- keyed_values. destruct (keyed _ _); [|done]. cbn. apply Hkk. }
  erewrite (Hk _ _ (fun ks => let? r := foldR (fun acc ds => let? r := link_dataset ln t (groupby ks) (map (fun u : thing => u.2.2) ts) acc.1 ds in Ok (r.1, acc.2 ++ [r.2])) (None, []) (map (fun u : thing => u.2.2) ts) in Ok r.2)).
  2: { intros ks. cbv zeta. by rewrite (groupby_map (fun p : nat * dataset => p.2)). }
  eapply does_bind; [by apply refprods_spec|done|nilF|]. intros ks vks ? _ (-> & l & Hl & -> & ->).
  eapply does_read; [by apply names_read|]. eapply does_read; [by apply names_read|].
  rewrite (groupby_map (fun p : nat * dataset => p.1)), (groupby_map (fun p : nat * dataset => p.2)).
  assert (forall g, g ∈ groupby l -> Forall (fun p => p ∈ map snd ts) g.2) as Hgm.
  { intros [k ys] Hg. apply (proj2 (proj2 (groupby_spec l))) in Hg as (_ & ->). cbn [snd]. apply Forall_forall. intros p Hp. unfold with_key in Hp.
    apply elem_of_list_fmap in Hp as (q & -> & Hq). apply elem_of_list_filter in Hq as [_ Hq]. by apply Hl. }
  assert (map (fun u : thing => u.2.2) ts = map snd (map snd ts)) as E by (by rewrite map_map).
  eapply does_bind.
  - pose proof (fold_links ln t (map snd ts) (groupby l) (next h) (objects ts) Hgm ts [] [] h None eq_refl ltac:(constructor) Hw ltac:(done) Hts Hnd ltac:(by left) ltac:(done)) as Hf.
    rewrite <- E in Hf. exact Hf.
  - done.
  - by left.
  - intros bh r h' Ho HR. apply does_ret; [by eapply only_wf|]. exact HR.
Qed.

(** ** Allocation and linking from nothing *)
Lemma link_run_proof ln t recalc dss : same_length recalc ->
  ((let! xs := mapM store dss in let! ys := cutoff_allocation_h ln recalc xs in let! _ := link_consumers_h ln t ys in mapM readD ys) nothing).1
  = (let? outs := cutoff_allocation ln recalc dss in link_consumers_to_markets ln t outs).
Proof.
  intros Hlen.
  assert (does 0 [] (let! xs := mapM store dss in let! ys := cutoff_allocation_h ln recalc xs in let! _ := link_consumers_h ln t ys in mapM readD ys)
    (let? outs := cutoff_allocation ln recalc dss in link_consumers_to_markets ln t outs) (fun _ a b => a = b) nothing) as (r & h' & -> & _ & H).
  - eapply does_step; [apply stores_proof, wf_nothing|lia|nilF|]. intros xs h1 O1 (Fs & Hs & _). assert (wf h1) as Hw1 by by eapply only_wf.
    eapply does_bind; [by apply allocation_proof|lia|intros; right; lia|]. intros ys outs h2 O2 (Fs2 & Hs2 & _). assert (wf h2) as Hw2 by by eapply only_wf.
    eapply does_bind_end; [by apply links_proof|lia|intros; right; lia|]. intros [] dss3 h3 O3 (Fs3 & Hs3 & _).
    exists (Ok dss3), h3. split; [by eapply reads_spec|]. split; [apply only_refl; by eapply only_wf|]. by exists dss3.
  - cbn [fst]. destruct (let? outs := _ in _) as [b|]; [|done]. by destruct H as (a & -> & ->).
Qed.
