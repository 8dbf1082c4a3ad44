From stdpp Require Import gmap.
From Verif Require Import Base Types Utils Grouping GroupUpdate Topology Locations Order_proofs Order2_proofs Order3_proofs Heap Spec_Heap Heap_proofs
  HeapLinks HeapLinks_proofs HeapHard HeapHard_proofs HeapMarkets HeapMarkets_proofs HeapGroups Spec_HeapGroups HeapGroups_proofs HeapGroupLinks.

(** ** What is read *)
Definition agree {A B} (Q : A -> B -> Prop) (r : result A) (r' : result B) : Prop :=
  match r, r' with Ok a, Ok b => Q a b | Err e, Err e' => e = e' | _, _ => False end.
Lemma mapR_agree {A A' B B'} (R : A -> A' -> Prop) (Q : B -> B' -> Prop) f g l l' : Forall2 R l l' -> (forall x y, R x y -> agree Q (f x) (g y)) ->
  agree (Forall2 Q) (mapR f l) (mapR g l').
Proof.
  intros H Hf. induction H as [|x y l l' Hxy _ IH]; [constructor|]. cbn [mapR]. specialize (Hf x y Hxy). destruct (f x), (g y); cbn in *; try done.
  destruct (mapR f l), (mapR g l'); cbn in *; try done. by constructor.
Qed.
Lemma agree_bind {A B C D} (Q : A -> B -> Prop) (P : C -> D -> Prop) r r' f g : agree Q r r' -> (forall a b, Q a b -> agree P (f a) (g b)) -> agree P (bind r f) (bind r' g).
Proof. destruct r, r'; cbn; try done. intros H1 H2. by apply H2. Qed.
Lemma agree_refl {A} (r : result A) : agree eq r r.
Proof. by destruct r. Qed.
Lemma agree_eq {A} (r r' : result (list A)) : agree (Forall2 eq) r r' -> r = r'.
Proof.
  destruct r as [l|], r' as [l'|]; cbn; try done; [|by intros ->]. intros H. f_equal. induction H; [done|by subst].
Qed.
Lemma group_suppliers_seen t ms gs ms' gs' row ordered loc : Forall2 sees ms ms' -> Forall2 sees gs gs' ->
  group_suppliers t ms' gs' row ordered loc = group_suppliers t ms gs row ordered loc.
Proof.
  intros Hm Hg. symmetry. apply agree_eq. unfold group_suppliers.
  assert (forall l, match by_location l ms' with Some _ => true | None => false end = match by_location l ms with Some _ => true | None => false end) as Hl.
  { intros l. by destruct (last_seen l _ _ Hm). }
  eapply (agree_bind eq).
  - assert (forall inside take take' c found, (forall x, take x = take' x) -> collect inside take found c = collect inside take' found c) as Hc.
    { intros inside take take' c. induction c as [|x c IH]; intros found Ht; [done|]. cbn [collect]. destruct (inside x found); [|done]. cbn [bind]. by rewrite Ht, IH. }
    rewrite (Hc _ _ (fun c => match by_location c ms' with Some _ => true | None => false end || negb (c =? loc)%string)); [apply agree_refl|]. intros x. by rewrite Hl.
  - intros found ? <-. eapply (agree_bind (Forall2 sees)).
    + eapply (mapR_agree eq); [by apply Forall_Forall2_diag, Forall_forall|]. intros c ? <-. destruct (last_seen c _ _ Hm) as [d d' Hd|]; [done|].
      destruct (last_seen c _ _ Hg) as [d d' Hd|]; done.
    + intros os os' Ho. eapply (agree_bind (Forall2 (fun p q => p.1 = q.1 /\ sees p.2 q.2))).
      * eapply mapR_agree; [exact Ho|]. intros d d' Hd. assert (d_code d' = d_code d) as -> by apply Hd. by destruct (d_code d).
      * intros cs cs' Hcs. eapply mapR_agree; [apply (isort_rel (fun p q : string * dataset => p.1 = q.1 /\ sees p.2 q.2)); [|exact Hcs]|].
        -- intros x y x' y' [Hx _] [Hy _]. unfold code_leb. by rewrite Hx, Hy.
        -- intros x y [_ (_ & Hn & Hlo & _ & Hc & Ht & Hr)]. unfold get_single_reference_product. rewrite Hr.
           destruct (reference_products x.2) as [|e [|]]; [done| |done]. cbn. unfold annotate_exchange. by rewrite Hn, Hlo, Hc, Ht.
Qed.

(** ** Which group is changed *)
Lemma existsb_filterb {A} (P : A -> bool) l : existsb P l = match filterb P l with [] => false | _ => true end.
Proof. induction l as [|x l IH]; [done|]. cbn [existsb]. rewrite filterb_cons, IH. by destruct (P x). Qed.
Lemma lasts_map {A B} (f : A -> B) l : lasts (map (fun p => (p.1, f p.2)) l) = map f (lasts l).
Proof.
  induction l as [|p l IH]; [done|]. cbn [map lasts fst snd].
  assert (existsb (fun q : string * B => (q.1 =? p.1)%string) (map (fun p => (p.1, f p.2)) l) = existsb (fun q => (q.1 =? p.1)%string) l) as ->.
  { clear. induction l as [|q l IH]; [done|]. cbn [map existsb fst]. by rewrite IH. }
  destruct (existsb _ l); [done|]. cbn [map]. by rewrite IH.
Qed.
Lemma filterb_ext_in {A} (P Q : A -> bool) l : (forall x, x ∈ l -> P x = Q x) -> filterb P l = filterb Q l.
Proof. induction l as [|x l IH]; intros H; [done|]. rewrite !filterb_cons, (H x ltac:(by left)), IH; [done|]. intros y Hy. apply H. by right. Qed.
Lemma last_In {A} (l : list A) x : last l = Some x -> x ∈ l.
Proof. intros H. apply last_Some in H as [l' ->]. apply elem_of_app. right. by left. Qed.
Lemma lasts_spec (pre l : list (nat * dataset)) : NoDup (map fst (pre ++ l)) ->
  filterb (fun p => match last (filterb (fun q => (d_location q.2 =? d_location p.2)%string) (pre ++ l)) with Some q => (q.1 =? p.1)%nat | None => false end) l
  = lasts (map (fun p => (d_location p.2, p)) l).
Proof.
  revert pre. induction l as [|p l IH]; intros pre Hnd; [done|]. rewrite filterb_cons. cbn [map lasts fst snd].
  specialize (IH (pre ++ [p])). rewrite <- app_assoc in IH. cbn [app] in IH. rewrite (IH Hnd). clear IH.
  assert (existsb (fun q : string * (nat * dataset) => (q.1 =? d_location p.2)%string) (map (fun p => (d_location p.2, p)) l)
    = existsb (fun q => (d_location q.2 =? d_location p.2)%string) l) as ->.
  { clear. induction l as [|q l IH]; [done|]. cbn [map existsb fst]. by rewrite IH. }
  rewrite existsb_filterb, filterb_app, filterb_cons, String.eqb_refl.
  rewrite map_app in Hnd. cbn [map] in Hnd. apply NoDup_app in Hnd as (_ & _ & Hnd). apply NoDup_cons in Hnd as [Hn _].
  destruct (filterb (fun q : nat * dataset => (d_location q.2 =? d_location p.2)%string) l) as [|q r] eqn:E.
  - rewrite last_snoc, Nat.eqb_refl. done.
  - rewrite last_app_cons. rewrite last_cons_cons. destruct (last (q :: r)) as [z|] eqn:Ez; [|done]. apply last_In in Ez. rewrite <- E in Ez. apply filterb_In in Ez as [Ez _].
    destruct (Nat.eqb_spec z.1 p.1) as [Hz|]; [|done]. exfalso. apply Hn. rewrite <- Hz. apply elem_of_list_fmap. by exists z.
Qed.

Section links.
Context (t : topo) (Fs : list (list nat)) (xs : list nat) (dss : list dataset).
Notation market_state := (market_state Fs xs dss).
Notation addr_of := (addr_of xs).
Notation given := (given dss).

Definition of_product (rp : string) (ds : dataset) : result bool :=
  if is_type MarketActivity ds then let? r := refprod ds in Ok (r =? rp)%string else Ok false.
Lemma markets_read rp h cur : market_state h cur ->
  match filterR (of_product rp) dss with
  | Ok ms => exists R, given R /\ ms = map snd R /\ markets_of_h rp xs h = (Ok (map addr_of R), h)
  | Err e => markets_of_h rp xs h = (Err e, h)
  end.
Proof.
  intros Hst.
  assert (map addr_of (indexed dss) = xs) as Hix.
  { destruct Hst as [Hs Hl]. pose proof (separate_length _ _ _ _ Hs) as L1. apply Forall2_length in Hl. apply list_eq. intros i.
    change (map addr_of (indexed dss)) with (addr_of <$> indexed dss). rewrite list_lookup_fmap, indexed_lookup. destruct (dss !! i) as [d|] eqn:E; cbn.
    - unfold HeapMarkets_proofs.addr_of. cbn. destruct (lookup_lt_is_Some_2 xs i) as [a ->]; [|done]. rewrite L1, <- Hl. by eapply lookup_lt_Some.
    - symmetry. apply lookup_ge_None. apply lookup_ge_None in E. lia. }
  assert (markets_of_h rp xs h = (concat_mapR (fun p : nat * dataset => let? b := of_product rp p.2 in Ok (if b then [addr_of p] else [])) (indexed dss), h)) as E.
  { rewrite <- Hix at 1. unfold markets_of_h. apply concat_mapM_read. pose proof (indexed_given dss) as Hg. revert Hg. generalize (indexed dss). intros l Hg.
    induction l as [|p l IH]; [constructor|]. cbn [map]. constructor; [|apply IH; intros q Hq; apply Hg; by right].
    pose proof (state_visible Fs xs dss h cur [p] Hst ltac:(intros x ->%elem_of_list_singleton; apply Hg; by left)) as Hv.
    inversion Hv as [|? ? (F & d & Hs & Hd) _]; subst. cbn [fst snd] in *. rewrite (bindM_read _ _ _ _ (readD_eq _ _ _ _ Hs)).
    assert ((if is_type MarketActivity d then let? r := refprod d in Ok (r =? rp)%string else Ok false) = of_product rp p.2) as ->.
    { unfold of_product. rewrite (sees_type _ _ _ Hd). destruct Hd as (_ & _ & _ & Hr & _). unfold refprod. by rewrite Hr. }
    unfold bindM, lift. by destruct (of_product rp p.2). }
  assert (filterR (of_product rp) dss = filterR (of_product rp) (map snd (indexed dss))) as -> by by rewrite indexed_snd.
  rewrite E. clear E Hix. pose proof (indexed_given dss) as Hg. revert Hg. generalize (indexed dss). intros l Hg.
  assert (match filterR (of_product rp) (map snd l) with
    | Ok rcs => exists R, given R /\ rcs = map snd R /\ concat_mapR (fun p : nat * dataset => let? b := of_product rp p.2 in Ok (if b then [addr_of p] else [])) l = Ok (map addr_of R)
    | Err e => concat_mapR (fun p : nat * dataset => let? b := of_product rp p.2 in Ok (if b then [addr_of p] else [])) l = Err e end) as Hm.
  { induction l as [|p l IH]; [exists []; split_and!; [intros p Hp; by apply elem_of_nil in Hp|done|done]|]. cbn [map filterR]. rewrite concat_mapR_cons.
    destruct (of_product rp p.2) as [b|]; [|done]. cbn [bind]. specialize (IH ltac:(intros q Hq; apply Hg; by right)).
    destruct (filterR (of_product rp) (map snd l)) as [rcs|]; cbn [bind]; [|by rewrite IH]. destruct IH as (R & HR & -> & ->). cbn [bind].
    exists (if b then p :: R else R). destruct b; split_and!; try done. intros q [->|Hq]%elem_of_cons; [apply Hg; by left|by apply HR]. }
  destruct (filterR (of_product rp) (map snd l)) as [rcs|]; [|by rewrite Hm]. destruct Hm as (R & ? & ? & ->). by exists R.
Qed.
Lemma places_read h cur S : market_state h cur -> given S ->
  by_place_h (map addr_of S) h = (Ok (map (fun p => (d_location p.2, addr_of p)) S), h).
Proof.
  intros Hst HS. destruct (mapM_visible (fun ds a => (d_location ds, a)) h _ (state_visible Fs xs dss h cur _ Hst HS)) as (rd & Hrd & Hread).
  rewrite map_addr in Hread. rewrite map_value in Hrd. unfold by_place_h. rewrite Hread. do 2 f_equal. clear -Hrd.
  revert rd Hrd. induction S as [|p S IH]; intros rd H; inversion H as [|? d ? rd' (_ & _ & Hn & _) Hr]; subst; [done|]. cbn. by rewrite Hn, (IH _ Hr).
Qed.
Lemma names_read h S : separate h Fs xs dss -> given S ->
  names_h (map addr_of S) h = (assertR (consistent_names S) MarketGroupError, h).
Proof.
  intros Hs HS. pose proof (start Fs xs dss h Hs) as Hst. destruct (mapM_visible (fun ds _ => d_name ds) h _ (state_visible Fs xs dss h dss _ Hst HS)) as (rd & Hrd & Hread).
  rewrite map_addr in Hread. rewrite map_value in Hrd. unfold names_h. rewrite (bindM_read _ _ _ _ Hread). unfold lift. do 2 f_equal.
  assert (zip_with (fun ds (_ : nat) => d_name ds) rd (map addr_of S) = map (fun p => d_name p.2) S) as ->.
  { clear -Hrd. revert rd Hrd. induction S as [|p S IH]; intros rd H; inversion H as [|? d ? rd' (_ & Hn & _) Hr]; subst; [done|]. cbn. by rewrite Hn, (IH _ Hr). }
  unfold consistent_names. destruct S as [|p S]; [done|]. cbn [map]. rewrite (forallb_rel (fun m (q : nat * dataset) => m = d_name q.2) _ (fun q => (d_name q.2 =? d_name p.2)%string) (d_name p.2 :: map (fun p => d_name p.2) S) (p :: S)); [done| |].
  - constructor; [done|]. clear. induction S; by constructor.
  - by intros ? ? ->.
Qed.

Lemma link_one_spec R G row ordered h cur i d : given R -> given G -> wf h -> market_state h cur -> cur !! i = Some d ->
  does (next h) (concat Fs) (link_one_h t (map addr_of R) (map addr_of G) row ordered (addr_of (i, d)))
    (let? sup := group_suppliers t (map snd R) (map snd G) row ordered (d_location d) in
     Ok (i, set_d_suppliers (match sup with [] => None | _ => Some sup end) d))
    (fun h' _ u => u.1 = i /\ market_state h' (<[i := u.2]> cur)) h.
Proof.
  intros HR HG Hw Hst Hi. unfold link_one_h. eapply does_read; [by apply (exact_read Fs xs dss h cur (i, d))|]. cbn [snd].
  destruct (mapM_readD_visible h _ (state_visible Fs xs dss h cur _ Hst HR)) as (ms & Hms & Hrm). rewrite map_addr in Hrm. rewrite map_value in Hms.
  destruct (mapM_readD_visible h _ (state_visible Fs xs dss h cur _ Hst HG)) as (gs & Hgs & Hrg). rewrite map_addr in Hrg. rewrite map_value in Hgs.
  eapply does_read; [exact Hrm|]. eapply does_read; [exact Hrg|]. rewrite (group_suppliers_seen _ _ _ _ _ _ _ _ Hms Hgs). apply does_lift; [done|]. intros sup _.
  set (s := match sup with [] => None | _ => Some sup end).
  eapply does_as; [apply (change_spec Fs xs dss (fun d0 => Ok (set_d_suppliers s d0)) h cur i d Hw Hst Hi)|done|by left|].
  - intros d' [= <-]. by eexists.
  - intros e e' [= <-]. by destruct e.
  - intros h' [] _ H'. by split.
Qed.
Lemma links_loop R G row ordered L : given R -> given G -> NoDup (map fst L) -> forall h cur, wf h -> market_state h cur -> (forall p, p ∈ L -> cur !! p.1 = Some p.2) ->
  does (next h) (concat Fs) (iterM (link_one_h t (map addr_of R) (map addr_of G) row ordered) (map addr_of L))
    (mapR (fun p => let? sup := group_suppliers t (map snd R) (map snd G) row ordered (d_location p.2) in
                    Ok (p.1, set_d_suppliers (match sup with [] => None | _ => Some sup end) p.2)) L)
    (fun h' _ ups => market_state h' (update_all ups cur) /\ forall i, i ∈ map fst ups -> i ∈ map fst L) h.
Proof.
  intros HR HG Hnd. induction L as [|[i d] L IH]; intros h cur Hw Hst Hcur; cbn [map iterM mapR].
  { apply does_ret; [done|]. split; [done|]. intros i Hi. by apply elem_of_nil in Hi. }
  cbn [map fst] in Hnd. apply NoDup_cons in Hnd as [Hn Hnd].
  eapply does_bind; [apply (link_one_spec R G row ordered h cur i d HR HG Hw Hst); by apply (Hcur (i, d)); left|done|by left|].
  intros [] [j d'] h1 O1 [Hj Hst1]. cbn [fst snd] in Hj, Hst1. subst j. assert (wf h1) as Hw1 by by eapply only_wf. assert (next h <= next h1)%nat as L1 by by eapply only_next.
  eapply does_map; [eapply does_weaken; [apply (IH Hnd h1 _ Hw1 Hst1)|done|by left|by intros h2 a b _ H2; exact H2]|].
  - intros p Hp. rewrite list_lookup_insert_ne; [by apply Hcur; right|]. intros ->. apply Hn. apply elem_of_list_fmap. by exists p.
  - intros h2 [] ups _ [H2 H3]. split; [exact H2|]. cbn [map fst]. intros k [->|Hk]%elem_of_cons; [by left|right; by apply H3].
Qed.
Lemma link_group_spec (g : string * list (nat * dataset)) h cur : given g.2 -> NoDup (map fst g.2) -> wf h -> market_state h cur -> (forall p, p ∈ g.2 -> cur !! p.1 = Some p.2) ->
  does (next h) (concat Fs) (link_group_h t xs (g.1, map addr_of g.2)) (let? markets := filterR (of_product g.1) dss in link_group t markets g.2)
    (fun h' _ ups => market_state h' (update_all ups cur) /\ forall i, i ∈ map fst ups -> i ∈ map fst g.2) h.
Proof.
  intros Hg Hnd Hw Hst Hcur. destruct g as [rp g]. cbn [fst snd] in *. unfold link_group_h. cbn [fst snd].
  pose proof (markets_read rp h cur Hst) as Hm. destruct (filterR (of_product rp) dss) as [ms|e].
  2: { exists (Err e), h. split; [by rewrite (bindM_eq _ _ _ _ _ Hm)|]. split; [by apply only_refl|done]. }
  destruct Hm as (R & HR & -> & Hm). cbn [bind]. eapply does_read; [exact Hm|]. eapply does_read; [by eapply locations_read|]. eapply does_read; [by eapply places_read|].
  unfold link_group. rewrite !map_map. apply does_lift; [done|]. intros row _. apply does_lift; [done|]. intros ordered _.
  pose proof (lasts_spec [] g Hnd) as Hl. cbn [app] in Hl. rewrite Hl.
  assert (map (fun p : nat * dataset => (d_location p.2, addr_of p)) g = map (fun q => (q.1, addr_of q.2)) (map (fun p => (d_location p.2, p)) g)) as -> by by rewrite map_map.
  rewrite lasts_map, <- Hl. clear Hl. set (L := filterb _ g).
  assert (forall i, i ∈ map fst L -> i ∈ map fst g) as Hsub.
  { intros i Hi. apply elem_of_list_fmap in Hi as (p & -> & Hp). apply filterb_In in Hp as [Hp _]. apply elem_of_list_fmap. by exists p. }
  eapply does_weaken; [apply (links_loop R g row ordered L HR Hg); [by apply NoDup_filter_fst|done|done|]|done|by left|].
  - intros p Hp. apply filterb_In in Hp as [Hp _]. by apply Hcur.
  - intros h' [] ups _ [H1 H2]. split; [done|]. intros i Hi. by apply Hsub, H2.
Qed.
Lemma link_groups_h_spec h : wf h -> separate h Fs xs dss ->
  does (next h) (concat Fs) (link_market_groups_h t xs) (link_market_group_suppliers t dss) (fun h' _ dss' => separate h' Fs xs dss') h.
Proof.
  intros Hw Hs. unfold link_market_groups_h, link_market_group_suppliers.
  pose proof (refprods_keyed Fs xs dss [MarketGroup] h Hs) as Hk. destruct (keyed (typed_refprod [MarketGroup]) dss) as [ks|e] eqn:Ek; cbn [fmapR] in Hk.
  2: { exists (Err e), h. split; [by rewrite (bindM_eq _ _ _ _ _ Hk)|]. split; [by apply only_refl|done]. }
  cbn [bind]. destruct (keyed_given dss _ _ Ek) as [Hg _].
  assert (Forall (fun g : string * list (nat * dataset) => given g.2) (groupby ks)) as HG.
  { apply Forall_forall. intros g Hgi p Hp. apply Hg. rewrite <- groupby_perm. apply elem_of_concat. exists g.2. split; [done|]. apply elem_of_list_fmap. by exists g. }
  assert (iterM (fun g : string * list nat => names_h g.2) (groupby (map (fun p : string * (nat * dataset) => (p.1, addr_of p.2)) ks)) h
    = (iterR (fun g : string * list (nat * dataset) => assertR (consistent_names g.2) MarketGroupError) (groupby ks), h)) as Hn.
  { rewrite groupby_map. clear -HG Hs. induction HG as [|g G Hg _ IH]; [done|]. cbn [map iterM iterR snd].
    rewrite (bindM_eq _ _ _ _ _ (names_read h g.2 Hs Hg)). by destruct (assertR _ _). }
  destruct (iterR _ (groupby ks)) as [[]|e].
  2: { exists (Err e), h. split; [by rewrite (bindM_read _ _ _ _ Hk), (bindM_eq _ _ _ _ _ Hn)|]. split; [by apply only_refl|done]. }
  cbn [bind]. eapply (does_same _ _ _ (let! ks := refprods_h [MarketGroup] xs in iterM (link_group_h t xs) (groupby ks))).
  { by rewrite !(bindM_read _ _ _ _ Hk), (bindM_read _ _ _ _ Hn). }
  apply (pass_spec Fs xs dss [MarketGroup] (link_group_h t xs) (fun rp g => let? markets := filterR (of_product rp) dss in link_group t markets g)); [done|done|].
  intros g h' cur. apply link_group_spec.
Qed.
End links.
Lemma group_links_proof t h Fs xs dss : wf h -> separate h Fs xs dss ->
  does (next h) (concat Fs) (link_market_groups_h t xs) (link_market_group_suppliers t dss) (fun h' _ dss' => separate h' Fs xs dss') h.
Proof. exact (link_groups_h_spec t Fs xs dss h). Qed.

(** ** Suppliers, volumes and inputs of market groups *)
Lemma groups_run_proof t dss :
  same_outcome ((let! xs := mapM store dss in let! _ := link_market_groups_h t xs in let! _ := update_group_volumes_h t xs in
                 let! _ := allocate_all_h MarketGroup xs in mapM readD xs) nothing).1
    (let? d1 := link_market_group_suppliers t dss in let? d2 := update_market_production_volumes t MarketGroup d1 in
     allocate_all_market_suppliers MarketGroup d2).
Proof.
  destruct (stores_proof nothing dss wf_nothing) as (r & h1 & E & O1 & xs & -> & Fs & Hs & _). rewrite (bindM_eq _ _ _ _ _ E).
  assert (wf h1) as Hw1 by by eapply only_wf. destruct (group_links_proof t h1 Fs xs dss Hw1 Hs) as (r2 & h2 & E2 & O2 & H2).
  rewrite (bindM_eq _ _ _ _ _ E2). destruct (link_market_group_suppliers t dss) as [d1|e]; [|by rewrite H2]. destruct H2 as ([] & -> & Hs2). cbn [bind].
  assert (wf h2) as Hw2 by by eapply only_wf. destruct (group_volumes_proof t h2 Fs xs d1 Hw2 Hs2) as (v & Hv & r3 & h3 & E3 & O3 & H3).
  rewrite (bindM_eq _ _ _ _ _ E3). destruct v as [d2|e]; [|rewrite H3; by destruct (update_market_production_volumes t MarketGroup d1)].
  destruct H3 as ([] & -> & Hs3). destruct (update_market_production_volumes t MarketGroup d1) as [d2'|]; [|done]. cbn in Hv. subst d2'. cbn [bind].
  assert (wf h3) as Hw3 by by eapply only_wf. destruct (allocate_all_proof MarketGroup h3 Fs xs d2 Hw3 Hs3) as (r4 & h4 & E4 & O4 & H4).
  rewrite (bindM_eq _ _ _ _ _ E4). destruct (allocate_all_market_suppliers MarketGroup d2) as [d3|e]; [|by rewrite H4].
  destruct H4 as ([] & -> & Fs4 & Hs4 & _). by rewrite (reads_spec _ _ _ _ Hs4).
Qed.
