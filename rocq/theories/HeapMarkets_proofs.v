From stdpp Require Import gmap.
From Verif Require Import Base Strings Types Utils Grouping GroupUpdate Topology Cutoff Locations Heap Spec_Heap Heap_proofs
  HeapLinks HeapLinks_proofs HeapHard HeapHard_proofs HeapMarkets.

(** ** What supplying reads *)
Lemma seen_names c cur : Forall2 sees c cur -> map d_name cur = map d_name c.
Proof. induction 1 as [|d d' c cur (_ & H & _) _ IH]; [done|]. cbn. by rewrite IH, H. Qed.
Lemma last_seen l c cur : Forall2 sees c cur ->
  option_Forall2 sees (by_location l c) (by_location l cur).
Proof.
  intros H. unfold by_location.
  assert (Forall2 sees (filterb (fun d => (d_location d =? l)%string) c) (filterb (fun d => (d_location d =? l)%string) cur)) as Hf.
  { induction H as [|d d' c cur Hd _ IH]; [constructor|]. rewrite !filterb_cons, (sees_location _ _ Hd). destruct (_ =? _)%string; [by constructor|done]. }
  clear H. induction Hf as [|d d' c' cur' Hd Hc IH]; [constructor|]. destruct Hc as [|e e' c' cur' He Hc]; [by constructor|]. exact IH.
Qed.
Lemma supply_seen ord t location c cur : Forall2 sees c cur -> group_supply ord t location cur = group_supply ord t location c.
Proof.
  intros H. unfold group_supply. rewrite (map_location _ _ H). destruct (no_overlaps _ _); [|done]. cbn [bind]. destruct (resolve_row _ _); [|done]. cbn [bind].
  destruct (contained _ _ _ _ _); [|done]. cbn [bind]. apply mapR_ext. intros l _. pose proof (last_seen l _ _ H) as Hl.
  destruct Hl as [d d' (_ & Hn & Hlo & _ & Hc & Ht & Hr)|]; [|done]. cbn [getkey bind]. unfold get_single_reference_product. rewrite Hr.
  destruct (reference_products d) as [|e [|]]; [done| |done]. cbn [bind]. unfold annotate_exchange. by rewrite Hn, Hlo, Hc, Ht.
Qed.
Lemma sees_trans a b c : sees a b -> sees b c -> sees a c.
Proof. intros (A1 & A2 & A3 & A4 & A5 & A6 & A7) (B1 & B2 & B3 & B4 & B5 & B6 & B7). unfold sees. split_and!; congruence. Qed.
Lemma sees_suppliers s d : sees d (set_d_suppliers s d).
Proof. by destruct d. Qed.

Lemma sublist_map {A B} (f : A -> B) l1 l2 : sublist l1 l2 -> sublist (map f l1) (map f l2).
Proof. induction 1; cbn; by constructor. Qed.
Lemma sublist_filterb {A} (P : A -> bool) (l : list A) : sublist (filterb P l) l.
Proof. induction l as [|x l IH]; [constructor|]. rewrite filterb_cons. destruct (P x); by constructor. Qed.
Lemma NoDup_part {A} (ll : list (list A)) l : NoDup (concat ll) -> l ∈ ll -> NoDup l.
Proof.
  induction ll as [|l' ll IH]; intros H Hl; [by apply elem_of_nil in Hl|]. cbn in H. apply NoDup_app in H as (H1 & _ & H2).
  apply elem_of_cons in Hl as [->|Hl]; [done|by apply IH].
Qed.

Section Markets.
Context (ord : gset string -> list string) (t : topo) (Fs : list (list nat)) (xs : list nat) (dss : list dataset).

(** The datasets as they are now. *)
Definition market_state (h : heap) (cur : list dataset) : Prop := separate h Fs xs cur /\ Forall2 sees dss cur.
Definition addr_of (p : nat * dataset) : nat := default 0%nat (xs !! p.1).
Definition given (S : list (nat * dataset)) : Prop := forall p, p ∈ S -> dss !! p.1 = Some p.2.

Lemma state_addr h cur i d : market_state h cur -> cur !! i = Some d -> xs !! i = Some (addr_of (i, d)) .
Proof.
  intros [Hs _] Hi. unfold addr_of. cbn. destruct (lookup_lt_is_Some_2 xs i) as [a ->]; [|done].
  rewrite (separate_length _ _ _ _ Hs). by eapply lookup_lt_Some.
Qed.
Lemma state_visible h cur S : market_state h cur -> given S -> Forall (visible h) (map (fun p => (addr_of p, p.2)) S).
Proof.
  intros Hst HS. apply Forall_forall. intros q Hq. apply elem_of_list_fmap in Hq as (p & -> & Hp). pose proof (HS p Hp) as Hd.
  destruct Hst as [Hs Hl]. destruct (Forall2_lookup_l _ _ _ _ _ Hl Hd) as (d & Hc & Hsee).
  assert (xs !! p.1 = Some (addr_of p)) as Ha by (apply (state_addr h cur p.1 d); [by split|done]).
  destruct (separate_at _ _ _ _ _ _ Hs Ha) as (F & c & _ & Hc' & Hst & _). assert (c = d) as -> by congruence. by exists F, d.
Qed.
Lemma map_addr S : map fst (map (fun p => (addr_of p, p.2)) S) = map addr_of S.
Proof. rewrite map_map. done. Qed.
Lemma map_value S : map snd (map (fun p : nat * dataset => (addr_of p, p.2)) S) = map snd S.
Proof. rewrite map_map. done. Qed.

(** Changing the suppliers of one dataset. *)
Lemma change_spec f h cur i d : wf h -> market_state h cur -> cur !! i = Some d -> (forall d', f d = Ok d' -> exists s, d' = set_d_suppliers s d) ->
  (forall ds ds', f ds = Ok ds' -> d_exchanges ds' = d_exchanges ds) ->
  does (next h) (concat Fs) (modD f (addr_of (i, d))) (f d) (fun h' _ d' => market_state h' (<[i := d']> cur)) h.
Proof.
  intros Hw [Hs Hl] Hi Hf Hfe. assert (xs !! i = Some (addr_of (i, d))) as Ha by (by eapply (state_addr h cur)).
  destruct (separate_at _ _ _ _ _ _ Hs Ha) as (F & c & HF & Hc & Hst & Hnd). assert (c = d) as -> by congruence.
  unfold modD. eapply does_read; [by eapply readD_eq|]. apply does_lift_end; [done|]. intros d' Hd'. destruct (getD_eq _ _ _ _ Hst) as (exs & -> & Hg & He).
  eapply does_read; [exact Hg|]. cbn [snd]. set (a := addr_of (i, d)) in *.
  assert (a < next h)%nat as La by (eapply stands_lt; [done|exact Hst|by left]).
  assert (a ∈ concat Fs) as Hain by (apply elem_of_concat; exists (a :: exs); split; [by left|by eapply elem_of_list_lookup_2]).
  destruct (put_spec h a (Dat (set_d_exchanges [] d') exs) Hw La) as (r & h' & Hm & O & [] & -> & Hcell).
  exists (Ok tt), h'. split; [done|]. split; [eapply only_weaken; [exact O|done|]; intros x ->%elem_of_list_singleton; by left|]. exists tt. split; [done|].
  assert (stands h' (a :: exs) a d') as Hst'.
  { exists exs. split; [done|]. split; [done|]. rewrite (Hfe _ _ Hd'). eapply Forall2_holds_only; [exact O| |exact He].
    intros x Hx. split; [eapply stands_lt; [done|exact Hst|by right]|]. intros ->%elem_of_list_singleton. by apply NoDup_cons in Hnd as [? _]. }
  split.
  - eapply (separate_update a h h'); try done. by left.
  - destruct (Forall2_lookup_r _ _ _ _ _ Hl Hi) as (d0 & Hd0 & Hsee). rewrite <- (list_insert_id dss i d0 Hd0). apply Forall2_insert; [done|].
    destruct (Hf _ Hd') as [s ->]. eapply sees_trans; [exact Hsee|apply sees_suppliers].
Qed.

(** One technology after the other. *)
Lemma extends_spec location i G : Forall (fun g : string * list (nat * dataset) => given g.2) G -> forall h cur d s,
  wf h -> market_state h cur -> cur !! i = Some (set_d_suppliers (Some s) d) ->
  does (next h) (concat Fs) (iterM (fun g : string * list nat => extend_h ord t location (addr_of (i, d)) g.2) (map (fun g => (g.1, map addr_of g.2)) G))
    (concat_mapR (fun g : string * list dataset => group_supply ord t location g.2) (map (fun g => (g.1, map snd g.2)) G))
    (fun h' _ new => market_state h' (<[i := set_d_suppliers (Some (s ++ new)) d]> cur)) h.
Proof.
  induction 1 as [|g G Hg _ IH]; intros h cur d s Hw Hst Hi.
  { apply does_ret; [done|]. by rewrite app_nil_r, list_insert_id. }
  cbn [map iterM]. rewrite concat_mapR_cons. cbn [fst snd].
  destruct (mapM_readD_visible h _ (state_visible h cur _ Hst Hg)) as (rd & Hrd & Hread). rewrite map_addr in Hread. rewrite map_value in Hrd.
  eapply (does_bind (next h) (concat Fs) _ _ _ _ _ _ (fun h' _ new => market_state h' (<[i := set_d_suppliers (Some (s ++ new)) d]> cur))); [|done|by left|].
  - unfold extend_h. eapply does_read; [exact Hread|]. rewrite (supply_seen _ _ _ _ _ Hrd). apply does_lift_end; [done|]. intros new _.
    set (f := fun d0 : dataset => let? s0 := getkey "suppliers" (d_suppliers d0) in Ok (set_d_suppliers (Some (s0 ++ new)) d0)).
    assert (f (set_d_suppliers (Some s) d) = Ok (set_d_suppliers (Some (s ++ new)) d)) as Hf by by destruct d.
    pose proof (change_spec f h cur i (set_d_suppliers (Some s) d) Hw Hst Hi) as Hc. rewrite Hf in Hc.
    eapply does_as; [apply Hc|done|by left|by intros h' [] _ H'].
    + intros d' [= <-]. exists (Some (s ++ new)). by destruct d.
    + intros e e' He. unfold f in He. destruct (getkey _ _); [|done]. cbn in He. injection He as <-. by destruct e.
  - intros [] new h1 O1 Hst1. assert (wf h1) as Hw1 by by eapply only_wf. assert (next h <= next h1)%nat as L1 by by eapply only_next.
    assert (i < length cur)%nat as Li by by eapply lookup_lt_Some.
    eapply does_map; [eapply does_weaken; [apply (IH h1 _ d (s ++ new) Hw1 Hst1); by apply list_lookup_insert|done|by left|done]|].
    intros h2 [] news _ H2. cbn beta in H2. by rewrite list_insert_insert, <- app_assoc in H2.
Qed.

Lemma given_groups {K} `{EqDecision K} (key : nat * dataset -> K) S : given S -> Forall (fun g : K * list (nat * dataset) => given g.2) (groupby (map (fun p => (key p, p)) S)).
Proof.
  intros HS. apply Forall_forall. intros g Hg p Hp. apply HS.
  assert (p ∈ concat (map snd (groupby (map (fun p => (key p, p)) S)))) as Hin.
  { apply elem_of_concat. exists g.2. split; [done|]. apply elem_of_list_fmap. by exists g. }
  rewrite groupby_perm, map_map in Hin. cbn in Hin. by rewrite map_id in Hin.
Qed.
Lemma by_name_read h cur S : market_state h cur -> given S ->
  by_name_h (map addr_of S) h = (Ok (map (fun p => (d_name p.2, addr_of p)) S), h).
Proof.
  intros Hst HS. destruct (mapM_visible (fun ds a => (d_name ds, a)) h _ (state_visible h cur _ Hst HS)) as (rd & Hrd & Hread).
  rewrite map_addr in Hread. rewrite map_value in Hrd. unfold by_name_h. rewrite Hread. do 2 f_equal. clear -Hrd.
  revert rd Hrd. induction S as [|p S IH]; intros rd H; inversion H as [|? d ? rd' (_ & Hn & _) Hr]; subst; [done|]. cbn. by rewrite Hn, (IH _ Hr).
Qed.
Lemma locations_read h cur S : market_state h cur -> given S ->
  locations_h (map addr_of S) h = (Ok (map (fun p => d_location p.2) S), h).
Proof.
  intros Hst HS. destruct (mapM_visible (fun ds _ => d_location ds) h _ (state_visible h cur _ Hst HS)) as (rd & Hrd & Hread).
  rewrite map_addr in Hread. rewrite map_value in Hrd. unfold locations_h. rewrite Hread. do 2 f_equal. clear -Hrd.
  revert rd Hrd. induction S as [|p S IH]; intros rd H; inversion H as [|? d ? rd' (_ & _ & Hn & _) Hr]; subst; [done|]. cbn. by rewrite Hn, (IH _ Hr).
Qed.

(** One consumer. *)
Lemma consumer_spec row S h cur i d : given S -> wf h -> market_state h cur -> cur !! i = Some d ->
  does (next h) (concat Fs) (consumer_h ord t row (map addr_of S) (addr_of (i, d)))
    (let? new := supply ord t (if (d_location d =? "RoW")%string then PFaces row else PName (d_location d)) (map snd S) in
     Ok (i, set_d_suppliers (Some (default [] (d_suppliers d) ++ new)) d))
    (fun h' _ u => u.1 = i /\ market_state h' (<[i := u.2]> cur)) h.
Proof.
  intros HS Hw Hst Hi. unfold consumer_h.
  eapply (does_step (next h) (concat Fs)); [apply (change_spec (fun d0 => Ok (set_d_suppliers (Some (default [] (d_suppliers d0))) d0)) h cur i d Hw Hst Hi)|done|by left|].
  { intros d' [= <-]. by eexists. }
  { intros e e' [= <-]. by destruct e. }
  intros [] h1 O1 Hst1. assert (wf h1) as Hw1 by by eapply only_wf. assert (next h <= next h1)%nat as L1 by by eapply only_next.
  assert (i < length cur)%nat as Li by by eapply lookup_lt_Some.
  set (s := default [] (d_suppliers d)) in *. set (cur1 := <[i:=set_d_suppliers (Some s) d]> cur) in *.
  assert (cur1 !! i = Some (set_d_suppliers (Some s) d)) as Hi1 by by apply list_lookup_insert.
  assert (xs !! i = Some (addr_of (i, d))) as Ha by (by eapply (state_addr h cur)).
  destruct (separate_at _ _ _ _ _ _ (proj1 Hst1) Ha) as (F & c & HF & Hc & Hstc & Hnd). rewrite Hi1 in Hc. injection Hc as <-.
  eapply does_read; [by eapply readD_eq|]. cbv zeta. assert (d_location (set_d_suppliers (Some s) d) = d_location d) as -> by by destruct d.
  set (location := if (d_location d =? "RoW")%string then PFaces row else PName (d_location d)).
  eapply does_read; [by eapply by_name_read|]. unfold supply.
  assert (map (fun p => (d_name p.2, addr_of p)) S = map (fun q => (q.1, addr_of q.2)) (map (fun p => (d_name p.2, p)) S)) as -> by by rewrite map_map.
  assert (map (fun d0 => (d_name d0, d0)) (map snd S) = map (fun q => (q.1, snd q.2)) (map (fun p => (d_name p.2, p)) S)) as -> by by rewrite !map_map.
  rewrite !groupby_map.
  eapply does_map; [eapply does_weaken; [apply (extends_spec location i _ (given_groups _ S HS) h1 cur1 d s Hw1 Hst1 Hi1)|done|by left|done]|].
  intros h2 [] new _ H2. cbn beta in H2. split; [done|]. cbn [snd]. unfold cur1 in H2. by rewrite list_insert_insert in H2.
Qed.

(** All of them. *)
Lemma apportion_spec S C : given S -> given C -> NoDup (map fst C) -> forall h cur, wf h -> market_state h cur -> (forall p, p ∈ C -> cur !! p.1 = Some p.2) ->
  does (next h) (concat Fs) (apportion_h ord t (map addr_of C) (map addr_of S)) (apportion ord t C (map snd S))
    (fun h' _ ups => market_state h' (update_all ups cur) /\ forall i, i ∈ map fst ups -> i ∈ map fst C) h.
Proof.
  intros HS HC Hnd h cur Hw Hst Hcur. unfold apportion_h, apportion. eapply does_read; [by eapply locations_read|].
  apply does_lift; [done|]. intros _ _. apply does_lift; [done|]. intros row _. clear HC. revert h cur Hw Hst Hcur.
  induction C as [|[i d] C IH]; intros h cur Hw Hst Hcur; cbn [map iterM mapR].
  { apply does_ret; [done|]. split; [done|]. intros i Hi. by apply elem_of_nil in Hi. }
  cbn [map fst] in Hnd. apply NoDup_cons in Hnd as [Hn Hnd].
  eapply does_bind; [apply (consumer_spec row S h cur i d HS Hw Hst); by apply (Hcur (i, d)); left|done|by left|].
  intros [] [j d'] h1 O1 [Hj Hst1]. cbn [fst snd] in Hj, Hst1. subst j. assert (wf h1) as Hw1 by by eapply only_wf. assert (next h <= next h1)%nat as L1 by by eapply only_next.
  eapply does_map; [eapply does_weaken; [apply (IH Hnd h1 _ Hw1 Hst1)|done|by left|by intros h2 a b _ H2; exact H2]|].
  - intros p Hp. rewrite list_lookup_insert_ne; [by apply Hcur; right|]. intros ->. apply Hn. apply elem_of_list_fmap. by exists p.
  - intros h2 [] ups _ [H2 H3]. split; [exact H2|]. cbn [map fst]. intros k [->|Hk]%elem_of_cons; [by left|right; by apply H3].
Qed.

(** ** Group after group *)
Lemma update_all_app {A} (a b : list (nat * A)) l : update_all (a ++ b) l = update_all b (update_all a l).
Proof. unfold update_all. by rewrite foldl_app. Qed.
Lemma groups_spec {K} (body : K * list nat -> M unit) (f : K -> list (nat * dataset) -> result (list (nat * dataset))) (G : list (K * list (nat * dataset))) :
  (forall g h cur, g ∈ G -> wf h -> market_state h cur -> (forall p, p ∈ g.2 -> cur !! p.1 = Some p.2) ->
    does (next h) (concat Fs) (body (g.1, map addr_of g.2)) (f g.1 g.2)
      (fun h' _ ups => market_state h' (update_all ups cur) /\ forall i, i ∈ map fst ups -> i ∈ map fst g.2) h) ->
  NoDup (concat (map (fun g => map fst g.2) G)) -> forall h cur, wf h -> market_state h cur ->
  (forall g p, g ∈ G -> p ∈ g.2 -> cur !! p.1 = Some p.2) ->
  does (next h) (concat Fs) (iterM body (map (fun g => (g.1, map addr_of g.2)) G)) (mapR (fun g => f g.1 g.2) G)
    (fun h' _ upss => market_state h' (update_all (concat upss) cur)) h.
Proof.
  induction G as [|g G IH]; intros Hb Hnd h cur Hw Hst Hcur; cbn [map iterM mapR].
  { by apply does_ret. }
  cbn [map concat] in Hnd. apply NoDup_app in Hnd as (_ & Hd & Hnd).
  eapply does_bind; [apply (Hb g h cur); [by left|done|done|intros p Hp; apply (Hcur g); [by left|done]]|done|by left|].
  intros [] ups h1 O1 [Hst1 Hin]. assert (wf h1) as Hw1 by by eapply only_wf. assert (next h <= next h1)%nat as L1 by by eapply only_next.
  eapply does_map; [eapply does_weaken; [apply (IH ltac:(intros; apply Hb; [by right|done..]) Hnd h1 _ Hw1 Hst1)|done|by left|by intros h2 a b _ H2; exact H2]|].
  - intros g' p Hg' Hp. rewrite update_all_other; [apply (Hcur g'); [by right|done]|]. intros Hi. apply (Hd p.1 (Hin _ Hi)).
    apply elem_of_concat. exists (map fst g'.2). split; [apply elem_of_list_fmap; by exists p|]. apply elem_of_list_fmap. by exists g'.
  - intros h2 [] upss _ H2. cbn [concat]. by rewrite update_all_app.
Qed.

(** ** Reading the data before *)
Lemma start h : separate h Fs xs dss -> market_state h dss.
Proof. intros H. split; [done|]. clear. induction dss as [|d ds IH]; constructor; [apply sees_refl|done]. Qed.
Lemma indexed_given : given (indexed dss).
Proof. intros [i d] Hp. by apply elem_of_indexed. Qed.
Lemma indexed_addr h : separate h Fs xs dss -> map addr_of (indexed dss) = xs.
Proof.
  intros H. pose proof (separate_length _ _ _ _ H) as Hl. apply list_eq. intros i. change (map addr_of (indexed dss)) with (addr_of <$> indexed dss).
  rewrite list_lookup_fmap, indexed_lookup. destruct (dss !! i) as [d|] eqn:E; cbn.
  - unfold addr_of. cbn. destruct (lookup_lt_is_Some_2 xs i) as [a ->]; [|done]. rewrite Hl. by eapply lookup_lt_Some.
  - symmetry. apply lookup_ge_None_2. rewrite Hl. by apply lookup_ge_None_1.
Qed.
(** What is read of datasets whose value is known. *)
Lemma exact_read h cur p : market_state h cur -> cur !! p.1 = Some p.2 -> readD (addr_of p) h = (Ok p.2, h).
Proof.
  intros Hst Hp. assert (xs !! p.1 = Some (addr_of p)) as Ha by apply (state_addr h cur p.1 p.2 Hst Hp).
  destruct (separate_at _ _ _ _ _ _ (proj1 Hst) Ha) as (F & c & _ & Hc & Hs & _). assert (c = p.2) as -> by congruence. by eapply readD_eq.
Qed.
Lemma those_exact (q : dataset -> bool) h cur S : market_state h cur -> (forall p, p ∈ S -> cur !! p.1 = Some p.2) ->
  those_h q (map addr_of S) h = (Ok (map addr_of (filterb (fun p => q p.2) S)), h).
Proof.
  intros Hst HS. unfold those_h.
  rewrite (concat_mapM_read _ (fun p : nat * dataset => Ok (if q p.2 then [addr_of p] else [])) h _ S).
  - f_equal. clear. induction S as [|p S IH]; [done|]. rewrite concat_mapR_cons, IH, filterb_cons. by destruct (q p.2).
  - clear -Hst HS. induction S as [|p S IH]; [constructor|]. cbn [map]. constructor; [|apply IH; intros; apply HS; by right].
    rewrite (bindM_read _ _ _ _ (exact_read _ _ _ Hst (HS p ltac:(by left)))). done.
Qed.
(** ... and of those that can have got suppliers. *)
Lemma those_seen (q : dataset -> bool) (Hq : forall d d', sees d d' -> q d' = q d) h cur S : market_state h cur -> given S ->
  those_h q (map addr_of S) h = (Ok (map addr_of (filterb (fun p => q p.2) S)), h).
Proof.
  intros Hst HS. unfold those_h.
  rewrite (concat_mapM_read _ (fun p : nat * dataset => Ok (if q p.2 then [addr_of p] else [])) h _ S).
  - f_equal. clear. induction S as [|p S IH]; [done|]. rewrite concat_mapR_cons, IH, filterb_cons. by destruct (q p.2).
  - induction S as [|p S IH]; [constructor|]. cbn [map]. constructor; [|apply IH; intros ? ?; apply HS; by right].
    pose proof (state_visible h cur [p] Hst ltac:(intros x ->%elem_of_list_singleton; apply HS; by left)) as Hv.
    inversion Hv as [|? ? (F & d & Hs & Hd) _]; subst. cbn [fst snd] in *. rewrite (bindM_read _ _ _ _ (readD_eq _ _ _ _ Hs)). by rewrite (Hq _ _ Hd).
Qed.
Lemma refprods_keyed tys h : separate h Fs xs dss ->
  refprods_h tys xs h = (fmapR (map (fun p => (p.1, addr_of p.2))) (keyed (typed_refprod tys) dss), h).
Proof.
  intros H. unfold refprods_h. rewrite <- (indexed_addr h H) at 1. pose proof (start h H) as Hst.
  rewrite (concat_mapM_read _ (fun p : nat * dataset => let? k := typed_refprod tys p.2 in Ok (match k with Some k => [(k, addr_of p)] | None => [] end)) h _ (indexed dss)).
  - f_equal. unfold keyed. generalize (indexed dss). intros l. induction l as [|p l IH]; [done|]. rewrite !concat_mapR_cons, IH. clear IH.
    destruct (typed_refprod tys p.2) as [k|]; [|done]. cbn [bind]. destruct (concat_mapR _ l) as [zs|]; [|reflexivity]. cbn [bind fmapR]. rewrite map_app. by destruct k.
  - assert (forall p, p ∈ indexed dss -> dss !! p.1 = Some p.2) as Hi by (intros [i d] Hp; by apply elem_of_indexed).
    revert Hi. generalize (indexed dss). intros l Hi. induction l as [|p l IH]; [constructor|]. cbn [map]. constructor; [|apply IH; intros; apply Hi; by right].
    rewrite (bindM_read _ _ _ _ (exact_read _ _ _ Hst (Hi p ltac:(by left)))). unfold bindM, lift. by destruct (typed_refprod tys p.2).
Qed.
Lemma keyed_given {K} (key : dataset -> result (option K)) ks : keyed key dss = Ok ks -> given (map snd ks) /\ NoDup (map (fun p => p.2.1) ks).
Proof.
  unfold keyed, given. intros H.
  assert (forall l (ks : list (K * (nat * dataset))), concat_mapR (fun p => let? k := key p.2 in Ok (match k with Some k => [(k, p)] | None => [] end)) l = Ok ks -> sublist (map snd ks) l) as Hsub.
  { clear. intros l. induction l as [|p l IH]; intros ks H.
    - injection H as <-. constructor.
    - rewrite concat_mapR_cons in H. destruct (key p.2) as [k|]; [|done]. cbn [bind] in H. destruct (concat_mapR _ l) as [zs|] eqn:E; [|done].
      cbn [bind] in H. injection H as <-. specialize (IH _ eq_refl). destruct k; cbn; [by constructor|by constructor]. }
  specialize (Hsub _ _ H). split.
  - intros [i d] Hp. apply elem_of_indexed. eapply elem_of_submseteq; [exact Hp|by apply sublist_submseteq].
  - rewrite <- (map_map snd fst). eapply sublist_NoDup; [|apply (indexed_fst dss)]. by apply sublist_map.
Qed.
(** A pass over groups. *)
Lemma pass_spec tys body f h : wf h -> separate h Fs xs dss ->
  (forall (g : string * list (nat * dataset)) h cur, given g.2 -> NoDup (map fst g.2) -> wf h -> market_state h cur -> (forall p, p ∈ g.2 -> cur !! p.1 = Some p.2) ->
    does (next h) (concat Fs) (body (g.1, map addr_of g.2)) (f g.1 g.2)
      (fun h' _ ups => market_state h' (update_all ups cur) /\ forall i, i ∈ map fst ups -> i ∈ map fst g.2) h) ->
  does (next h) (concat Fs) (let! ks := refprods_h tys xs in iterM body (groupby ks)) (update_groups (typed_refprod tys) f dss)
    (fun h' _ dss' => separate h' Fs xs dss') h.
Proof.
  intros Hw Hs Hb. unfold update_groups. pose proof (refprods_keyed tys h Hs) as Hk. destruct (keyed (typed_refprod tys) dss) as [ks|e] eqn:E; cbn [fmapR] in Hk.
  2: { exists (Err e), h. split; [unfold bindM; by rewrite Hk|]. split; [by apply only_refl|done]. }
  eapply does_read; [exact Hk|]. cbn [bind]. rewrite groupby_map. destruct (keyed_given _ _ E) as [Hg Hnd].
  assert (NoDup (concat (map (fun g => map fst g.2) (groupby ks)))) as Hnd2.
  { assert (concat (map (fun g : string * list (nat * dataset) => map fst g.2) (groupby ks)) = map fst (concat (map snd (groupby ks)))) as ->.
    { rewrite concat_map, map_map. done. }
    rewrite groupby_perm, map_map. exact Hnd. }
  assert (forall g p, g ∈ groupby ks -> p ∈ g.2 -> dss !! p.1 = Some p.2) as Hin.
  { intros g p Hgi Hp. apply Hg. rewrite <- groupby_perm. apply elem_of_concat. exists g.2. split; [done|]. apply elem_of_list_fmap. by exists g. }
  eapply does_map; [apply (groups_spec body f (groupby ks)); [|done|done|by apply start|done]|].
  - intros g h' cur Hgi Hw' Hst' Hcur. apply Hb; [intros p Hp; by eapply Hin| |done..].
    eapply NoDup_part; [exact Hnd2|]. apply elem_of_list_fmap. by exists g.
  - intros h' [] upss _ [H' _]. exact H'.
Qed.

Lemma given_filter (P : nat * dataset -> bool) S : given S -> given (filterb P S).
Proof. intros HS p Hp. apply filterb_In in Hp as [Hp _]. by apply HS. Qed.
Lemma NoDup_filter_fst (P : nat * dataset -> bool) S : NoDup (map fst S) -> NoDup (map fst (filterb P S)).
Proof. intros H. eapply sublist_NoDup; [|exact H]. apply sublist_map, sublist_filterb. Qed.

Lemma add_suppliers_spec from_type to_type h : wf h -> separate h Fs xs dss ->
  does (next h) (concat Fs) (add_suppliers_h ord t from_type to_type xs) (add_suppliers_to_markets ord t from_type to_type dss)
    (fun h' _ dss' => separate h' Fs xs dss') h.
Proof.
  intros Hw Hs. unfold add_suppliers_h, add_suppliers_to_markets. apply pass_spec; [done|done|]. clear h Hw Hs.
  intros [rp g] h cur Hg Hnd Hw Hst Hcur. cbn [fst snd] in *.
  eapply does_read; [by eapply those_exact|]. eapply does_read; [by eapply those_exact|]. rewrite filterb_map.
  set (C := filterb (fun p : nat * dataset => is_type to_type p.2 && match d_suppliers p.2 with None | Some [] => true | _ => false end) g).
  assert (given C) as HC by by apply given_filter. assert (NoDup (map fst C)) as HndC by by apply NoDup_filter_fst.
  assert (forall p, p ∈ C -> cur !! p.1 = Some p.2) as HcurC by (intros p Hp; apply filterb_In in Hp as [Hp _]; by apply Hcur).
  assert (forall i, i ∈ map fst C -> i ∈ map fst g) as Hsub.
  { intros i Hi. apply elem_of_list_fmap in Hi as (p & -> & Hp). apply filterb_In in Hp as [Hp _]. apply elem_of_list_fmap. by exists p. }
  assert (forall v, does (next h) (concat Fs) (apportion_h ord t (map addr_of C) (map addr_of (filterb (fun p : nat * dataset => is_type from_type p.2) g))) v
    (fun h' (_ : unit) ups => market_state h' (update_all ups cur) /\ (forall i, i ∈ map fst ups -> i ∈ map fst g)) h
    -> does (next h) (concat Fs) (match map addr_of C with [] => retM tt | _ =>
        let! _ := if bool_decide (to_type = MarketActivity) then let! locs := locations_h (map addr_of C) in lift (no_overlaps t locs) else retM tt in
        apportion_h ord t (map addr_of C) (map addr_of (filterb (fun p : nat * dataset => is_type from_type p.2) g)) end)
      (match C with [] => Ok [] | _ => let? _ := if bool_decide (to_type = MarketActivity) then no_overlaps t (map (fun p => d_location p.2) C) else Ok tt in v end)
      (fun h' (_ : unit) ups => market_state h' (update_all ups cur) /\ (forall i, i ∈ map fst ups -> i ∈ map fst g)) h) as Hcase.
  { intros v Hv. assert ((if bool_decide (to_type = MarketActivity) then let! locs := locations_h (map addr_of C) in lift (no_overlaps t locs) else retM tt) h
      = (if bool_decide (to_type = MarketActivity) then no_overlaps t (map (fun p => d_location p.2) C) else Ok tt, h)) as Ho.
    { destruct (bool_decide _); [|done]. rewrite (bindM_read _ _ _ _ (locations_read h cur C Hst HC)). done. }
    destruct C as [|c C']; [apply does_ret; [done|]; split; [done|]; intros i Hi; by apply elem_of_nil in Hi|].
    change (map addr_of (c :: C')) with (addr_of c :: map addr_of C') in *. cbv iota.
    destruct (if bool_decide (to_type = MarketActivity) then no_overlaps t (map (fun p => d_location p.2) (c :: C')) else Ok tt) as [[]|e].
    - eapply does_read; [exact Ho|]. exact Hv.
    - exists (Err e), h. split; [by rewrite (bindM_eq _ _ _ _ _ Ho)|]. split; [by apply only_refl|done]. }
  apply Hcase. eapply does_weaken; [apply (apportion_spec _ C (given_filter (fun p : nat * dataset => is_type from_type p.2) g Hg) HC HndC h cur Hw Hst HcurC)|done|by left|].
  intros h' [] ups _ [H1 H2]. split; [done|]. intros i Hi. by apply Hsub, H2.
Qed.

Definition is_rc (ds : dataset) : result bool :=
  if is_type Transforming ds then let? rp := refprod ds in Ok (str_endswith RC_STRING rp) else Ok false.
Lemma rc_read h : separate h Fs xs dss ->
  match rc_suppliers dss with
  | Ok rcs => exists R, given R /\ rcs = map snd R /\ rc_h xs h = (Ok (map addr_of R), h)
  | Err e => rc_h xs h = (Err e, h)
  end.
Proof.
  intros H. pose proof (start h H) as Hst. unfold rc_suppliers. change (filterR _ dss) with (filterR is_rc dss).
  assert (rc_h xs h = (concat_mapR (fun p : nat * dataset => let? b := is_rc p.2 in Ok (if b then [addr_of p] else [])) (indexed dss), h)) as E.
  { rewrite <- (indexed_addr h H) at 1. unfold rc_h. apply concat_mapM_read.
    assert (forall p, p ∈ indexed dss -> dss !! p.1 = Some p.2) as Hi by (intros [i d] Hp; by apply elem_of_indexed).
    revert Hi. generalize (indexed dss). intros l Hi. induction l as [|p l IH]; [constructor|]. cbn [map]. constructor; [|apply IH; intros; apply Hi; by right].
    rewrite (bindM_read _ _ _ _ (exact_read _ _ _ Hst (Hi p ltac:(by left)))). unfold bindM, lift. fold (is_rc p.2). by destruct (is_rc p.2). }
  assert (filterR is_rc dss = filterR is_rc (map snd (indexed dss))) as -> by by rewrite indexed_snd.
  rewrite E. clear E. pose proof indexed_given as Hg. revert Hg. generalize (indexed dss). intros l Hg.
  assert (match filterR is_rc (map snd l) with
    | Ok rcs => exists R, given R /\ rcs = map snd R /\ concat_mapR (fun p : nat * dataset => let? b := is_rc p.2 in Ok (if b then [addr_of p] else [])) l = Ok (map addr_of R)
    | Err e => concat_mapR (fun p : nat * dataset => let? b := is_rc p.2 in Ok (if b then [addr_of p] else [])) l = Err e end) as Hm.
  { induction l as [|p l IH]; [exists []; split_and!; [intros p Hp; by apply elem_of_nil in Hp|done|done]|]. cbn [map filterR]. rewrite concat_mapR_cons.
    destruct (is_rc p.2) as [b|]; [|done]. cbn [bind]. specialize (IH ltac:(intros q Hq; apply Hg; by right)).
    destruct (filterR is_rc (map snd l)) as [rcs|]; cbn [bind]; [|by rewrite IH]. destruct IH as (R & HR & -> & ->). cbn [bind].
    exists (if b then p :: R else R). destruct b; split_and!; try done. intros q [->|Hq]%elem_of_cons; [apply Hg; by left|by apply HR]. }
  destruct (filterR is_rc (map snd l)) as [rcs|]; [|by rewrite Hm]. destruct Hm as (R & ? & ? & ->). by exists R.
Qed.
Lemma keyed_mapR {K} (key : dataset -> result (option K)) :
  match keyed key dss with Ok _ => exists vs, mapR key dss = Ok vs | Err e => mapR key dss = Err e end.
Proof.
  unfold keyed. assert (mapR key dss = mapR key (map snd (indexed dss))) as -> by by rewrite indexed_snd. generalize (indexed dss). intros l. induction l as [|p l IH]; [by exists []|]. rewrite concat_mapR_cons. cbn [map mapR].
  destruct (key p.2) as [k|]; [|done]. cbn [bind]. destruct (concat_mapR _ l) as [zs|]; cbn [bind].
  - destruct IH as [vs ->]. by eexists.
  - by rewrite IH.
Qed.
Lemma add_recycled_spec h : wf h -> separate h Fs xs dss ->
  does (next h) (concat Fs) (add_recycled_h ord t xs) (add_recycled_content_suppliers_to_markets ord t dss)
    (fun h' _ dss' => separate h' Fs xs dss') h.
Proof.
  intros Hw Hs. unfold add_recycled_h, add_recycled_content_suppliers_to_markets.
  pose proof (refprods_keyed [MarketActivity] h Hs) as Hk. pose proof (keyed_mapR (typed_refprod [MarketActivity])) as Hm.
  destruct (keyed (typed_refprod [MarketActivity]) dss) as [ks|e]; cbn [fmapR] in Hk.
  2: { rewrite Hm. exists (Err e), h. split; [unfold bindM at 1; by rewrite Hk|]. split; [by apply only_refl|done]. }
  destruct Hm as [vs ->]. cbn [bind]. pose proof (rc_read h Hs) as Hr. destruct (rc_suppliers dss) as [rcs|e].
  2: { exists (Err e), h. split; [unfold bindM at 1; rewrite Hk; unfold bindM at 1; by rewrite Hr|]. split; [by apply only_refl|done]. }
  destruct Hr as (R & HR & -> & Hr). cbn [bind].
  set (body := fun rcs (g : string * list nat) =>
    let! suppliers := those_h (fun ds => bool_decide (d_refprod ds = Some (g.1 ++ RC_STRING)%string)) rcs in
    let! locs := locations_h g.2 in let! _ := lift (no_overlaps t locs) in
    match suppliers with [] => retM tt | _ => apportion_h ord t g.2 suppliers end).
  eapply (does_same _ _ _ (let! ks := refprods_h [MarketActivity] xs in iterM (body (map addr_of R)) (groupby ks))).
  { unfold bindM at 1. rewrite Hk. unfold bindM at 1. rewrite Hr. unfold bindM at 4. rewrite Hk. done. }
  clear Hk Hr. apply pass_spec; [done|done|]. clear h Hw Hs ks. intros [rp g] h cur Hg Hnd Hw Hst Hcur. unfold body. cbn [fst snd] in *.
  eapply does_read; [eapply (those_seen (fun ds => bool_decide (d_refprod ds = Some (rp ++ RC_STRING)%string))); [|exact Hst|exact HR]|].
  { intros d d' (_ & _ & _ & H & _). by rewrite H. }
  eapply does_read; [by eapply locations_read|]. apply does_lift; [done|]. intros _ _. rewrite filterb_map.
  set (S := filterb (fun p : nat * dataset => bool_decide (d_refprod p.2 = Some (rp ++ RC_STRING)%string)) R).
  assert (given S) as HS by by apply given_filter. pose proof (apportion_spec S g HS Hg Hnd h cur Hw Hst Hcur) as Ha.
  destruct S as [|p S]; [|exact Ha]. apply does_ret; [done|]. split; [done|]. intros i Hi. by apply elem_of_nil in Hi.
Qed.
End Markets.

Definition suppliers_proof ord t from_type to_type h Fs xs dss := add_suppliers_spec ord t Fs xs dss from_type to_type h.
Definition recycled_suppliers_proof ord t h Fs xs dss := add_recycled_spec ord t Fs xs dss h.

(** ** Volumes of markets *)
Lemma when_spec ty m f : (forall h F a ds, wf h -> stands h F a ds -> NoDup F -> does (next h) F (m a) (f ds) (fun h' (_ : unit) ds' => stands h' F a ds') h) ->
  forall h F a ds, wf h -> stands h F a ds -> NoDup F ->
  does (next h) F (when_h ty m a) (if is_type ty ds then f ds else Ok ds) (fun h' _ ds' => stands h' F a ds') h.
Proof.
  intros Hm h F a ds Hw H Hnd. destruct (getD_eq _ _ _ _ H) as (exs & HF & Hg & He). unfold when_h. eapply does_read; [exact Hg|]. cbn [fst].
  assert (is_type ty (set_d_exchanges [] ds) = is_type ty ds) as -> by by destruct ds. destruct (is_type ty ds); [by apply Hm|by apply does_ret].
Qed.
Lemma update_volume_eq ds : update_volume ds =
  let? rp := get_single_reference_product ds in
  let? suppliers := getkey "suppliers" (d_suppliers ds) in
  let? originals := mapR original_volume suppliers in
  let? v := getkey "production volume" (e_pv rp) in
  let? pvs := mapR supplier_volume suppliers in
  Ok (set_rp_pv (fun w => set_v_amount (Qcmax (Qcsum pvs - default 0%Qc (v_subtracted v)) 0) (set_v_original_total (Some (Qcsum originals)) w)) ds).
Proof.
  unfold update_volume, updated_volume. destruct (get_single_reference_product ds); [|done]. cbn [bind]. destruct (getkey _ (d_suppliers ds)); [|done]. cbn [bind].
  destruct (mapR original_volume _); [|done]. cbn [bind]. destruct (getkey _ (e_pv _)); [|done]. cbn [bind]. destruct (mapR supplier_volume _); done.
Qed.
Lemma volume_spec h F a ds : wf h -> stands h F a ds -> NoDup F -> does (next h) F (volume_h a) (update_volume ds) (fun h' _ ds' => stands h' F a ds') h.
Proof.
  intros Hw H Hnd. rewrite update_volume_eq. destruct (getD_eq _ _ _ _ H) as (exs & -> & Hg & He). unfold volume_h.
  eapply does_bind; [by eapply single_spec|done|nilF|]. intros x rp ? _ (-> & Hx & Hxin & _ & Huniq).
  eapply does_read; [exact Hg|]. cbn [fst]. assert (d_suppliers (set_d_exchanges [] ds) = d_suppliers ds) as -> by by destruct ds.
  apply does_lift; [done|]. intros suppliers _. apply does_lift; [done|]. intros originals _.
  eapply does_read; [by apply getE_eq|]. apply does_lift; [done|]. intros v _. apply does_lift; [done|]. intros pvs _. cbv zeta.
  set (up := fun w => set_v_amount (Qcmax (Qcsum pvs - default 0%Qc (v_subtracted v)) 0) (set_v_original_total (Some (Qcsum originals)) w)).
  apply NoDup_cons in Hnd as [Ha Hnd]. destruct H as (exs' & [= <-] & Hc & _).
  pose proof (mod_one (fun e => Ok (set_e_pv (option_map up (e_pv e)) e)) (fun e => bool_decide (e_type e = RefProduct)) h exs (d_exchanges ds) x Hw He Hnd Hxin) as Hm.
  assert (mapR (fun e => if bool_decide (e_type e = RefProduct) then Ok (set_e_pv (option_map up (e_pv e)) e) else Ok e) (d_exchanges ds)
    = Ok (map (fun e => if bool_decide (e_type e = RefProduct) then set_e_pv (option_map up (e_pv e)) e else e) (d_exchanges ds))) as Em.
  { rewrite <- mapR_pure. apply mapR_ext. intros e _. by destruct (bool_decide _). }
  cbv beta in Hm. rewrite Em in Hm. eapply does_as; [apply Hm|done| |].
  - intros z e Hz Hze. rewrite bool_decide_eq_true. by apply Huniq.
  - intros z ->%elem_of_list_singleton. left. by right.
  - intros h' [] (_ & _ & O) [HF _]. exists exs. split; [done|]. split; [|unfold set_rp_pv; by destruct ds].
    rewrite O; [rewrite Hc; unfold set_rp_pv; by destruct ds|by apply Hw; eexists|]. intros ->%elem_of_list_singleton. done.
Qed.
Lemma volumes_proof t h Fs xs dss : wf h -> separate h Fs xs dss ->
  does (next h) (concat Fs) (update_volumes_h xs) (update_market_production_volumes t MarketActivity dss) (fun h' _ dss' => separate h' Fs xs dss') h.
Proof.
  intros Hw Hs. unfold update_volumes_h, update_market_production_volumes. rewrite bool_decide_false by done.
  apply (iter_spec _ (fun ds => if is_type MarketActivity ds then update_volume ds else Ok ds)); [|done|done]. apply when_spec. apply volume_spec.
Qed.

(** ** Inputs of markets *)
Definition grown (n : nat) (F : list nat) (a : nat) (h : heap) (ds : dataset) : Prop :=
  exists ys, stands h (F ++ ys) a ds /\ NoDup (F ++ ys) /\ forall y, y ∈ ys -> (n <= y)%nat.
Lemma append_spec e h F a ds : wf h -> stands h F a ds -> NoDup F ->
  does (next h) [a] (append_h a e) (Ok tt) (fun h' _ _ => grown (next h) F a h' (set_d_exchanges (d_exchanges ds ++ [e]) ds)) h.
Proof.
  intros Hw H Hnd. pose proof (fun x => stands_lt h F a ds x Hw H) as Hlt. unfold append_h.
  eapply does_step; [by apply new_spec|done|nilF|]. intros y h1 O1 [Hy Ly]. assert (wf h1) as Hw1 by by eapply only_wf. assert (next h <= next h1)%nat as L1 by by eapply only_next.
  pose proof (stands_grows h h1 _ _ _ Hw O1 H) as H1. destruct (getD_eq _ _ _ _ H1) as (exs & -> & Hg & He). eapply does_read; [exact Hg|]. cbn [snd].
  pose proof H1 as (exs' & [= <-] & Hc & _).
  eapply does_as; [by eapply set_exs_spec|done|by intros z Hz; left|]. intros h2 [] O2 Hc2. exists [y]. split_and!.
  - exists (exs ++ [y]). split; [done|]. split; [rewrite Hc2; by destruct ds|]. assert (d_exchanges (set_d_exchanges (d_exchanges ds ++ [e]) ds) = d_exchanges ds ++ [e]) as -> by by destruct ds.
    apply Forall2_app.
    + eapply Forall2_holds_only; [exact O2| |exact He]. intros x Hx. split; [eapply stands_lt; [exact Hw1|exact H1|by right]|].
      intros ->%elem_of_list_singleton. by apply NoDup_cons in Hnd as [? _].
    + constructor; [|constructor]. eapply holds_only; [exact O2|apply Hw1; by eexists| |exact Hy]. intros ->%elem_of_list_singleton. specialize (Hlt a ltac:(by left)). lia.
  - apply NoDup_app. split; [done|]. split; [|apply NoDup_singleton]. intros z Hz ->%elem_of_list_singleton. specialize (Hlt y Hz). lia.
  - by intros z ->%elem_of_list_singleton.
Qed.
Lemma grown_more n n' F ys a h ds : (n <= n')%nat -> (forall y, y ∈ ys -> (n <= y)%nat) -> grown n' (F ++ ys) a h ds -> grown n F a h ds.
Proof.
  intros Hn Hys (zs & H1 & H2 & H3). exists (ys ++ zs). rewrite app_assoc. split_and!; [done..|]. intros y [Hy|Hy]%elem_of_app; [by apply Hys|]. specialize (H3 y Hy). lia.
Qed.
Lemma appends_spec a es : forall h F ds, wf h -> stands h F a ds -> NoDup F ->
  does (next h) [a] (iterM (append_h a) es) (Ok tt) (fun h' _ _ => grown (next h) F a h' (set_d_exchanges (d_exchanges ds ++ es) ds)) h.
Proof.
  induction es as [|e es IH]; intros h F ds Hw H Hnd; cbn [iterM].
  { apply does_ret; [done|]. exists []. rewrite !app_nil_r. split_and!; [by destruct ds|done|]. intros y Hy. by apply elem_of_nil in Hy. }
  eapply does_step; [by apply append_spec|done|by left|]. intros [] h1 O1 (ys & H1 & N1 & L1). assert (wf h1) as Hw1 by by eapply only_wf. assert (next h <= next h1)%nat by by eapply only_next.
  eapply does_as; [by apply (IH h1 (F ++ ys) _ Hw1 H1 N1)|done|by left|]. intros h2 [] _ H2. eapply grown_more; [|exact L1|]; [done|].
  assert (set_d_exchanges (d_exchanges ds ++ e :: es) ds = set_d_exchanges (d_exchanges (set_d_exchanges (d_exchanges ds ++ [e]) ds) ++ es) (set_d_exchanges (d_exchanges ds ++ [e]) ds)) as ->; [|exact H2].
  destruct ds. cbn. by rewrite <- app_assoc.
Qed.
Lemma market_inputs_spec (make : exchange -> exchange -> result (list exchange)) a x rp (suppliers : list exchange) : forall h F ds, wf h -> stands h F a ds -> NoDup F -> holds h x rp -> x <> a ->
  does (next h) [a] (iterM (fun s => let! e := getE x in let! new := lift (make e s) in iterM (append_h a) new) suppliers) (concat_mapR (make rp) suppliers)
    (fun h' _ new => grown (next h) F a h' (set_d_exchanges (d_exchanges ds ++ new) ds)) h.
Proof.
  induction suppliers as [|s suppliers IH]; intros h F ds Hw H Hnd Hx Hxa; cbn [iterM].
  { apply does_ret; [done|]. exists []. rewrite !app_nil_r. split_and!; [by destruct ds|done|]. intros y Hy. by apply elem_of_nil in Hy. }
  rewrite concat_mapR_cons.
  eapply (does_bind (next h) [a] _ _ _ _ _ _ (fun h' (_ : unit) new => grown (next h) F a h' (set_d_exchanges (d_exchanges ds ++ new) ds))); [|done|by left|].
  { eapply does_read; [by apply getE_eq|]. apply does_lift_end; [done|]. intros new _. eapply does_as; [by apply appends_spec|done|by left|done]. }
  intros [] new h1 O1 (ys & H1 & N1 & L1). assert (wf h1) as Hw1 by by eapply only_wf. assert (next h <= next h1)%nat by by eapply only_next.
  eapply does_map; [eapply does_weaken; [apply (IH h1 (F ++ ys) _ Hw1 H1 N1); [|done]|done|by left|by intros h2 u b _ H2; exact H2]|].
  - eapply holds_only; [exact O1|by eapply holds_lt| |done]. by intros ->%elem_of_list_singleton.
  - intros h2 [] news _ H2. cbn beta in H2. eapply grown_more; [|exact L1|]; [done|].
    assert (set_d_exchanges (d_exchanges ds ++ new ++ news) ds = set_d_exchanges (d_exchanges (set_d_exchanges (d_exchanges ds ++ new) ds) ++ news) (set_d_exchanges (d_exchanges ds ++ new) ds)) as ->; [|exact H2].
    destruct ds. cbn. by rewrite <- app_assoc.
Qed.
Lemma allocate_spec h F a ds : wf h -> stands h F a ds -> NoDup F ->
  does (next h) F (allocate_h a) (allocate_suppliers ds) (fun h' _ ds' => grown (next h) F a h' ds') h.
Proof.
  intros Hw H Hnd. destruct (getD_eq _ _ _ _ H) as (exs & -> & Hg & He). unfold allocate_h, allocate_suppliers.
  eapply does_bind; [by eapply single_spec|done|nilF|]. intros x rp ? _ (-> & Hx & Hxin & _ & _).
  eapply does_read; [exact Hg|]. cbn [fst]. assert (d_suppliers (set_d_exchanges [] ds) = d_suppliers ds) as -> by by destruct ds.
  apply does_lift; [done|]. intros suppliers _. apply does_lift; [done|]. intros [[s total]|] _.
  2: { apply does_ret; [done|]. exists []. rewrite !app_nil_r. split_and!; [done|done|]. intros y Hy. by apply elem_of_nil in Hy. }
  assert (x <> a) as Hxa by (intros ->; by apply NoDup_cons in Hnd as [? _]).
  pose proof H as (exs' & [= <-] & Hc & _).
  eapply (does_step (next h) [a] _ _ _ _ tt _ (fun h' _ _ => stands h' (a :: exs) a (set_d_suppliers (Some s) ds))); [|done|intros z ->%elem_of_list_singleton; left; by left|].
  { unfold modD. eapply does_read; [by eapply readD_eq|]. eapply (does_read _ _ _ _ (set_d_suppliers (Some s) ds)); [done|]. eapply does_read; [exact Hg|]. cbn [snd].
    eapply does_as; [apply put_spec; [done|by apply Hw; eexists]|done|by left|]. intros h' [] O Hc'. exists exs. split; [done|]. split; [done|].
    assert (d_exchanges (set_d_suppliers (Some s) ds) = d_exchanges ds) as -> by by destruct ds. eapply Forall2_holds_only; [exact O| |exact He].
    intros z Hz. split; [eapply stands_lt; [done|exact H|by right]|]. intros ->%elem_of_list_singleton. by apply NoDup_cons in Hnd as [? _]. }
  intros [] h1 O1 H1. assert (wf h1) as Hw1 by by eapply only_wf. assert (next h <= next h1)%nat by by eapply only_next.
  assert (holds h1 x rp) as Hx1 by (eapply holds_only; [exact O1|by eapply holds_lt| |done]; by intros ->%elem_of_list_singleton).
  eapply does_map; [eapply does_weaken; [apply (market_inputs_spec (fun e s => input_of (fun f s => market_input (f * e_amount e)%Qc s) total s) a x rp s h1 (a :: exs) _ Hw1 H1 Hnd Hx1 Hxa)|done| |by intros h2 u b _ H2; exact H2]|].
  - intros z ->%elem_of_list_singleton. left. by left.
  - intros h2 [] new _ (ys & H2 & N2 & L2). exists ys. split_and!; [|done|intros y Hy; specialize (L2 y Hy); lia].
    assert (set_d_suppliers (Some s) (set_d_exchanges (d_exchanges ds ++ new) ds) = set_d_exchanges (d_exchanges (set_d_suppliers (Some s) ds) ++ new) (set_d_suppliers (Some s) ds)) as -> by by destruct ds. exact H2.
Qed.
Lemma grow_spec m f : (forall h F a ds, wf h -> stands h F a ds -> NoDup F -> does (next h) F (m a) (f ds) (fun h' (_ : unit) ds' => grown (next h) F a h' ds') h) ->
  forall h Fs xs dss, wf h -> separate h Fs xs dss ->
  does (next h) (concat Fs) (iterM m xs) (mapR f dss) (fun h' _ dss' => results (next h) (concat Fs) h' xs dss') h.
Proof.
  intros Hm h Fs xs dss Hw (H & Hnd). revert h Hw H Hnd. revert xs dss. induction Fs as [|F Fs IH]; intros xs dss h Hw H Hnd; inversion H as [|? a ds ? xs' dss' Hst Hrest]; subst; cbn [iterM mapR concat] in *.
  { apply does_ret; [done|]. apply results_nil. }
  apply NoDup_app in Hnd as (Hn1 & Hn12 & Hn2).
  assert (forall z, z ∈ concat Fs -> (z < next h)%nat) as Hlt by (intros z Hz; eapply separate_lt; [done|split; [exact Hrest|done]|done]).
  eapply does_bind; [by apply Hm|done|set_solver|]. intros [] ds' h1 O1 (ys & HR1 & N1 & L1).
  assert (wf h1) as Hw1 by by eapply only_wf. assert (next h <= next h1)%nat by by eapply only_next.
  assert (separate h1 Fs xs' dss') as (Hs1 & _).
  { eapply separate_only; [exact O1| |by split]. intros z Hz. split; [by apply Hlt|]. intros Hz2. by apply (Hn12 z). }
  eapply (does_map _ _ _ _ _ (fun h2 (_ : unit) dss2 => only (next h1) (concat Fs) h1 h2 /\ results (next h1) (concat Fs) h2 xs' dss2)).
  - eapply does_weaken; [by apply IH|lia|set_solver|]. done.
  - intros h2 [] dss2 _ (O2 & HR2). change (a :: xs') with ([a] ++ xs'). change (ds' :: dss2) with ([ds'] ++ dss2).
    eapply (results_two _ _ _ h h1); [done|exact O1|done|done|done| |exact O2|exact HR2].
    exists [F ++ ys]. split; [by apply separate_one|]. cbn. rewrite app_nil_r. intros z [Hz|Hz]%elem_of_app; [by left|right; by apply L1].
Qed.
Lemma allocate_all_proof kind h Fs xs dss : wf h -> separate h Fs xs dss ->
  does (next h) (concat Fs) (allocate_all_h kind xs) (allocate_all_market_suppliers kind dss) (fun h' _ dss' => results (next h) (concat Fs) h' xs dss') h.
Proof.
  intros Hw Hs. apply (grow_spec _ (fun ds => if is_type kind ds then allocate_suppliers ds else Ok ds)); [|done|done]. clear. intros h F a ds Hw H Hnd.
  destruct (getD_eq _ _ _ _ H) as (exs & HF & Hg & He). unfold when_h. eapply does_read; [exact Hg|]. cbn [fst].
  assert (is_type kind (set_d_exchanges [] ds) = is_type kind ds) as -> by by destruct ds. destruct (is_type kind ds); [by apply allocate_spec|].
  apply does_ret; [done|]. exists []. rewrite !app_nil_r. split_and!; [done|done|]. intros y Hy. by apply elem_of_nil in Hy.
Qed.

(** ** One after the other *)
Lemma markets_run_proof ord ln t from_type dss :
  ((let! xs := mapM store dss in let! _ := add_recycled_h ord t xs in let! _ := add_suppliers_h ord t from_type MarketActivity xs in
    let! _ := update_volumes_h xs in let! _ := allocate_all_h MarketActivity xs in let! _ := link_consumers_h ln t xs in mapM readD xs) nothing).1
  = (let? d1 := add_recycled_content_suppliers_to_markets ord t dss in let? d2 := add_suppliers_to_markets ord t from_type MarketActivity d1 in
     let? d3 := update_market_production_volumes t MarketActivity d2 in let? d4 := allocate_all_market_suppliers MarketActivity d3 in
     link_consumers_to_markets ln t d4).
Proof.
  match goal with |- (?m nothing).1 = ?v => assert (does 0 [] m v (fun _ a b => a = b) nothing) as (r & h' & -> & _ & H) end.
  - eapply does_step; [apply stores_proof, wf_nothing|lia|nilF|]. intros xs h1 O1 (Fs & Hs & _). assert (wf h1) as Hw1 by by eapply only_wf.
    eapply does_bind; [by apply recycled_suppliers_proof|lia|intros; right; lia|]. intros [] d1 h2 O2 Hs2. assert (wf h2) as Hw2 by by eapply only_wf.
    eapply does_bind; [by apply suppliers_proof|lia|intros; right; lia|]. intros [] d2 h3 O3 Hs3. assert (wf h3) as Hw3 by by eapply only_wf.
    eapply does_bind; [by apply volumes_proof|lia|intros; right; lia|]. intros [] d3 h4 O4 Hs4. assert (wf h4) as Hw4 by by eapply only_wf.
    eapply does_bind; [by apply allocate_all_proof|lia|intros; right; lia|]. intros [] d4 h5 O5 (Fs5 & Hs5 & _). assert (wf h5) as Hw5 by by eapply only_wf.
    eapply does_bind_end; [by apply links_proof|lia|intros; right; lia|]. intros [] d5 h6 O6 (Fs6 & Hs6 & _).
    exists (Ok d5), h6. split; [by eapply reads_spec|]. split; [apply only_refl; by eapply only_wf|]. by exists d5.
  - cbn [fst]. destruct (let? d1 := _ in _) as [b|]; [|done]. by destruct H as (a & -> & ->).
Qed.
