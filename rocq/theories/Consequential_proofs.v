(** Proofs for C42 and C44 and for links to constrained markets. *)
From Verif Require Import Base Types Uncertainty Utils Spec_Utils Utils_proofs Grouping GroupUpdate
  Topology Cutoff Locations Consequential Spec_Consequential SingleOutput_proofs Waste_proofs Combined2_proofs Cutoff_proofs.

(** *** Technology levels *)
Lemma level_filter level l s :
  filterR (fun o => let? t := getkey "technology level" (e_tech o) in Ok (t =? level)%string) l = Ok s ->
  s = filter (fun o => e_tech o = Some level) l /\ Forall (fun o => is_Some (e_tech o)) l.
Proof.
  revert s. induction l as [|o l IH]; intros s H; cbn [filterR] in H.
  - apply Ok_inj in H as <-. split; [done|constructor].
  - apply bind_Ok in H as (b & Hb & H). apply bind_Ok in H as (r & Hr & H). apply Ok_inj in H as <-.
    apply IH in Hr as [-> Hall]. apply bind_Ok in Hb as (t & Ht & <-%Ok_inj).
    unfold getkey in Ht. destruct (e_tech o) as [t'|] eqn:E; [|discriminate]. apply Ok_inj in Ht as ->.
    rewrite filter_cons, E. split.
    + destruct (String.eqb_spec t level) as [->|Hn].
      * by rewrite decide_True.
      * by rewrite decide_False by congruence.
    + constructor; [by rewrite E|done].
Qed.
Lemma level_filter_total level l : Forall (fun o => is_Some (e_tech o)) l ->
  filterR (fun o => let? t := getkey "technology level" (e_tech o) in Ok (t =? level)%string) l
  = Ok (filter (fun o => e_tech o = Some level) l).
Proof.
  induction 1 as [|o l [t Ht] _ IH]; [done|]. cbn [filterR]. rewrite Ht, IH. cbn [getkey bind].
  rewrite filter_cons, Ht. destruct (String.eqb_spec t level) as [->|Hn].
  - by rewrite decide_True.
  - by rewrite decide_False by congruence.
Qed.

Lemma level_rank_spec level n : level_rank level = Some n <-> TECHNOLOGY_LEVEL_HIERARCHY !! n = Some level.
Proof.
  unfold level_rank, TECHNOLOGY_LEVEL_HIERARCHY. destruct n as [|[|[|[|[|n]]]]]; cbn [lookup list_lookup];
  repeat match goal with |- context [(level =? ?x)%string] => destruct (String.eqb_spec level x) as [->|?] end;
    split; intros H; try (injection H as H); try congruence; try discriminate.
Qed.

(** The loop: levels before position [n] have no supplier. *)
Lemma best_level_from l levels n s :
  (forall i level, levels !! i = Some level -> level_rank level = Some (n + i)%nat) ->
  (forall m, (m < 5)%nat -> (m < n)%nat \/ exists i level, m = (n + i)%nat /\ levels !! i = Some level) ->
  (forall o m, o ∈ l -> rank o = Some m -> (n <= m)%nat) ->
  best_level l levels = Ok s -> l <> [] ->
  s = filter (best_of l) l.
Proof.
  revert n. induction levels as [|level levels IH]; intros n Hlev Hcov Hno H Hne; cbn [best_level] in H.
  - unfold best_level in H. apply Ok_inj in H as <-. symmetry. apply filter_none, Forall_forall. intros o Ho (m & Hm & _).
    pose proof (Hno o m Ho Hm) as Hge. unfold rank in Hm. destruct (e_tech o) as [t|]; [|done].
    apply level_rank_spec in Hm as Hlt. apply lookup_lt_Some in Hlt. cbn in Hlt.
    destruct (Hcov m Hlt) as [?|(i & ? & _ & ?)]; [lia|done].
  - change (best_level l (level :: levels)) with
      (let? s := filterR (fun o => let? l := getkey "technology level" (e_tech o) in
                                  Ok (l =? level)%string) l in
      match s with [] => best_level l levels | _ => Ok s end) in H.
    apply bind_Ok in H as (s0 & Hs0 & H). apply level_filter in Hs0 as [-> Hall].
    assert (level_rank level = Some n) as Hn.
    { rewrite <- (Nat.add_0_r n). by apply (Hlev 0%nat). }
    assert (forall o, e_tech o = Some level <-> rank o = Some n) as Hrank.
    { intros o. unfold rank. destruct (e_tech o) as [t|]; [|naive_solver]. split; [naive_solver|].
      intros Ht. apply level_rank_spec in Ht, Hn. congruence. }
    destruct (filter (fun o => e_tech o = Some level) l) as [|x xs] eqn:E.
    + apply (IH (S n)) in H; [done| | | |done].
      * intros i lv Hi. replace (S n + i)%nat with (n + S i)%nat by lia. by apply (Hlev (S i)).
      * intros m Hm. destruct (Hcov m Hm) as [?|(i & lv & -> & Hi)]; [left; lia|].
        destruct i as [|i]; [left; lia|]. right. exists i, lv. split; [lia|done].
      * intros o m Ho Hm. specialize (Hno o m Ho Hm). destruct (decide (m = n)) as [->|]; [|lia].
        exfalso. apply Hrank in Hm.
        assert (o ∈ filter (fun o => e_tech o = Some level) l) as Hin by by apply elem_of_list_filter.
        rewrite E in Hin. by apply elem_of_nil in Hin.
    + apply Ok_inj in H as <-. rewrite <- E. apply list_filter_iff'. intros o Ho. rewrite Hrank. split.
      * intros Hr. exists n. split; [done|]. apply Forall_forall. intros o' Ho' m Hm. by apply (Hno o').
      * intros (m & Hm & Hbest). rewrite Hm. f_equal.
        assert (x ∈ filter (fun o => e_tech o = Some level) l) as Hx by (rewrite E; set_solver).
        apply elem_of_list_filter in Hx as [Hx Hxl]. apply Hrank in Hx.
        rewrite Forall_forall in Hbest. specialize (Hbest x Hxl n Hx). specialize (Hno o m Ho Hm). lia.
Qed.
Lemma best_level_spec l s : l <> [] -> best_level l TECHNOLOGY_LEVEL_HIERARCHY = Ok s -> s = filter (best_of l) l.
Proof.
  intros Hne H. eapply (best_level_from l TECHNOLOGY_LEVEL_HIERARCHY 0); [..|exact H|exact Hne].
  - intros i level Hi. by apply level_rank_spec.
  - intros m Hm. right. destruct (lookup_lt_is_Some_2 TECHNOLOGY_LEVEL_HIERARCHY m Hm) as [lv Hlv]. by exists m, lv.
  - lia.
Qed.
Lemma best_level_total l : Forall (fun o => is_Some (e_tech o)) l ->
  exists s, best_level l TECHNOLOGY_LEVEL_HIERARCHY = Ok s.
Proof.
  intros Hall. generalize TECHNOLOGY_LEVEL_HIERARCHY as levels. induction levels as [|level levels IH]; [by eexists|].
  change (best_level l (level :: levels)) with
      (let? s := filterR (fun o => let? l := getkey "technology level" (e_tech o) in
                                  Ok (l =? level)%string) l in
      match s with [] => best_level l levels | _ => Ok s end).
  rewrite level_filter_total by done. cbn [bind]. destruct (filter _ l); [done|by eexists].
Qed.

Lemma best_exists l o n : o ∈ l -> rank o = Some n -> exists b, b ∈ filter (best_of l) l.
Proof.
  intros Ho Hn.
  assert (exists b m, b ∈ l /\ rank b = Some m /\ Forall (fun s => forall k, rank s = Some k -> (m <= k)%nat) l) as (b & m & Hb & Hm & HF).
  { revert o Ho Hn. induction (lt_wf n) as [n _ IH]. intros o Ho Hn.
    assert (forall s, Decision (exists k, rank s = Some k /\ (k < n)%nat)) as D.
    { intros s. destruct (rank s) as [k|]; [|right; naive_solver].
      destruct (decide (k < n)%nat); [left; by exists k|right; naive_solver]. }
    destruct (decide (Exists (fun s => exists k, rank s = Some k /\ (k < n)%nat) l)) as [HE|HE].
    - apply Exists_exists in HE as (s & Hs & k & Hk & Hlt). by apply (IH k Hlt s).
    - exists o, n. split; [done|]. split; [done|]. apply Forall_forall. intros s Hs k Hk.
      destruct (decide (n <= k)%nat); [done|]. exfalso. apply HE. apply Exists_exists. exists s. split; [done|].
      exists k. split; [done|lia]. }
  exists b. apply elem_of_list_filter. split; [|done]. by exists m.
Qed.

Lemma prune_spec data data' : prune_suppliers_by_technology_level data = Ok data' -> Forall2 pruned data data'.
Proof.
  intros H. apply mapR_Ok in H. eapply Forall2_impl; [exact H|]. cbn beta. intros ds ds' Hd. unfold prune_dataset, is_type in Hd.
  unfold pruned, is_market.
  destruct (bool_decide (d_type ds = MarketActivity) || bool_decide (d_type ds = MarketGroup)) eqn:E.
  - apply orb_true_iff in E as E'. rewrite !bool_decide_eq_true in E'.
    destruct (d_suppliers ds) as [[|s l]|] eqn:Es.
    + apply Ok_inj in Hd as <-. split; [|done]. intros _ l Hl. congruence.
    + apply bind_Ok in Hd as (best & Hb & Hd). apply best_level_spec in Hb; [|done].
      split.
      * intros _ l' Hl' _. apply Some_inj in Hl' as <-. destruct best as [|b best]; [discriminate|].
        apply Ok_inj in Hd as <-. by rewrite <- Hb.
      * intros [Hn|[?|?]]; [done|discriminate|discriminate].
    + apply Ok_inj in Hd as <-. split; [|done]. intros _ l Hl. congruence.
  - apply orb_false_iff in E. rewrite !bool_decide_eq_false in E. apply Ok_inj in Hd as <-.
    split; [|done]. intros [?|?]; naive_solver.
Qed.

(** It fails iff some market has suppliers of which none has a known level. *)
Lemma prune_fails data :
  Forall (fun ds => forall l, d_suppliers ds = Some l -> Forall (fun s => is_Some (e_tech s)) l) data ->
  prune_suppliers_by_technology_level data = Err AssertionError <->
  Exists (fun ds => is_market ds /\ exists l, d_suppliers ds = Some l /\ l <> [] /\
                    Forall (fun s => rank s = None) l) data.
Proof.
  unfold prune_suppliers_by_technology_level. induction 1 as [|ds data Hds _ IH].
  - cbn. split; [discriminate|]. intros HE. inversion HE.
  - rewrite Exists_cons, <- IH. cbn [mapR].
    assert (forall l, d_suppliers ds = Some l -> l <> [] -> is_market ds ->
       (Forall (fun s => rank s = None) l /\ prune_dataset ds = Err AssertionError) \/
       (~ Forall (fun s => rank s = None) l /\ is_ok (prune_dataset ds))) as Hmarket.
    { intros l Hl Hne Hm. destruct (best_level_total l (Hds l Hl)) as [s Hs].
      pose proof (best_level_spec l s Hne Hs) as Hsp.
      unfold prune_dataset, is_type.
      replace (bool_decide (d_type ds = MarketActivity) || bool_decide (d_type ds = MarketGroup)) with true.
      2:{ symmetry. apply orb_true_iff. rewrite !bool_decide_eq_true. exact Hm. }
      rewrite Hl. destruct l as [|o l]; [done|]. rewrite Hs. cbn [bind].
      destruct s as [|b s].
      - left. split; [|done]. apply Forall_forall. intros o' Ho'. destruct (rank o') as [n|] eqn:En; [|done].
        exfalso. destruct (best_exists _ _ _ Ho' En) as [b Hb]. rewrite <- Hsp in Hb. by apply elem_of_nil in Hb.
      - right. split; [|done]. intros HF. rewrite Forall_forall in HF.
        assert (b ∈ filter (best_of (o :: l)) (o :: l)) as Hb by (rewrite <- Hsp; set_solver).
        apply elem_of_list_filter in Hb as [(n & Hn & _) Hb]. rewrite (HF b Hb) in Hn. done. }
    assert (~ is_market ds \/ d_suppliers ds = None \/ d_suppliers ds = Some [] -> prune_dataset ds = Ok ds) as Hother.
    { intros Hc. unfold prune_dataset, is_type.
      destruct (bool_decide (d_type ds = MarketActivity) || bool_decide (d_type ds = MarketGroup)) eqn:E; [|done].
      apply orb_true_iff in E. rewrite !bool_decide_eq_true in E.
      destruct Hc as [Hc|[Hc|Hc]]; [by destruct Hc| |]; by rewrite Hc. }
    assert ((is_market ds /\ exists l, d_suppliers ds = Some l /\ l <> []) \/
      (~ is_market ds \/ d_suppliers ds = None \/ d_suppliers ds = Some [])) as [(Hm & l & Hl & Hne)|Hc].
    { destruct (decide (d_type ds = MarketActivity \/ d_type ds = MarketGroup)) as [Hm|Hm]; [|by right; left].
      destruct (d_suppliers ds) as [[|s l]|]; [right; right; by right| |right; right; by left].
      left. split; [done|]. by exists (s :: l). }
    + destruct (Hmarket l Hl Hne Hm) as [[HF He]|[HF Ho]].
      * rewrite He. cbn [bind]. split; [|done]. intros _. left. split; [done|]. by exists l.
      * destruct (prune_dataset ds) as [ds'|] eqn:Ed; [|by destruct Ho]. cbn [bind].
        destruct (mapR prune_dataset data) as [r|e]; cbn [bind].
        -- split; [discriminate|]. intros [(_ & l' & Hl' & _ & HF')|?]; [|done]. exfalso. apply HF. congruence.
        -- split; [by right|]. intros [(_ & l' & Hl' & _ & HF')|?]; [|done]. exfalso. apply HF. congruence.
    + rewrite (Hother Hc). cbn [bind]. destruct (mapR prune_dataset data) as [r|e]; cbn [bind].
      * split; [discriminate|]. intros [(Hm & l' & Hl' & Hne & _)|?]; [|done].
        destruct Hc as [?|[?|?]]; [done|congruence|congruence].
      * split; [by right|]. intros [(Hm & l' & Hl' & Hne & _)|?]; [|done].
        destruct Hc as [?|[?|?]]; [done|congruence|congruence].
Qed.

Lemma best_of_best l s : s ∈ filter (best_of l) l -> best_of (filter (best_of l) l) s.
Proof.
  intros Hs. apply elem_of_list_filter in Hs as [(n & Hn & HF) _]. exists n. split; [done|].
  rewrite Forall_forall in HF |- *. intros s' Hs'. apply HF. by apply elem_of_list_filter in Hs' as [_ ?].
Qed.
Lemma prune_dataset_idempotent ds ds' : prune_dataset ds = Ok ds' -> prune_dataset ds' = Ok ds'.
Proof.
  intros H. unfold prune_dataset in H.
  destruct (is_type MarketActivity ds || is_type MarketGroup ds) eqn:E.
  - destruct (d_suppliers ds) as [[|s l]|] eqn:Es.
    + apply Ok_inj in H as <-. unfold prune_dataset. by rewrite E, Es.
    + apply bind_Ok in H as (best & Hb & H). apply best_level_spec in Hb as Hsp; [|done].
      destruct best as [|b best]; [discriminate|]. apply Ok_inj in H as <-.
      unfold prune_dataset. 
      change (is_type MarketActivity (set_d_suppliers _ ds)) with (is_type MarketActivity ds).
      change (is_type MarketGroup (set_d_suppliers _ ds)) with (is_type MarketGroup ds). rewrite E.
      cbn [d_suppliers set_d_suppliers].
      destruct (best_level_total (b :: best)) as [s' Hs'].
      { apply Forall_forall. intros o Ho. rewrite Hsp in Ho. apply elem_of_list_filter in Ho as [(n & Hn & _) _].
        unfold rank in Hn. destruct (e_tech o); [by eexists|done]. }
      rewrite Hs'. cbn [bind]. apply best_level_spec in Hs' as ->; [|done].
      rewrite (filter_all (best_of (b :: best)) (b :: best)); [done|].
      apply Forall_forall. intros o Ho. rewrite Hsp in Ho |- *. by apply best_of_best.
    + apply Ok_inj in H as <-. unfold prune_dataset. by rewrite E, Es.
  - apply Ok_inj in H as <-. unfold prune_dataset. by rewrite E.
Qed.
Lemma prune_idempotent data data' : prune_suppliers_by_technology_level data = Ok data' ->
  prune_suppliers_by_technology_level data' = Ok data'.
Proof.
  unfold prune_suppliers_by_technology_level. rewrite !mapR_Ok. induction 1 as [|ds ds' data data' H _ IH]; constructor; [|done].
  by eapply prune_dataset_idempotent.
Qed.

(** *** By-products *)
Lemma names_of_type_spec ty data n :
  n ∈ names_of_type ty data <-> exists ds e, ds ∈ data /\ e ∈ d_exchanges ds /\ e_type e = ty /\ e_name e = n.
Proof.
  unfold names_of_type. rewrite elem_of_list_to_set, elem_of_list_In, in_concat. split.
  - intros (l & Hl & Hn). apply elem_of_list_In, elem_of_list_fmap in Hl as (ds & -> & Hds).
    apply elem_of_list_In, elem_of_list_fmap in Hn as (e & -> & He). apply filterb_In in He as [He Ht].
    apply bool_decide_eq_true in Ht. by exists ds, e.
  - intros (ds & e & Hds & He & Ht & Hn). eexists. split.
    + apply elem_of_list_In, elem_of_list_fmap. by exists ds.
    + apply elem_of_list_In, elem_of_list_fmap. exists e. split; [done|]. apply filterb_In. split; [done|].
      by apply bool_decide_eq_true.
Qed.
Lemma byproducts_missing data :
  ensure_byproducts_have_alternative_production data = Err MissingAlternativeProducer <->
  exists ds e, ds ∈ data /\ e ∈ d_exchanges ds /\ e_type e = Byproduct /\
    forall ds' e', ds' ∈ data -> e' ∈ d_exchanges ds' -> e_type e' = RefProduct -> e_name e' <> e_name e.
Proof.
  unfold ensure_byproducts_have_alternative_production. case_bool_decide as E.
  - split; [|done]. intros _. apply set_choose_L in E as [n Hn]. apply elem_of_difference in Hn as [H1 H2].
    apply names_of_type_spec in H1 as (ds & e & Hds & He & Ht & <-). exists ds, e. do 3 (split; [done|]).
    intros ds' e' Hds' He' Ht' Hn. apply H2. apply names_of_type_spec. by exists ds', e'.
  - split; [discriminate|]. intros (ds & e & Hds & He & Ht & Hno). exfalso. rename E into Hempty.
    assert (e_name e ∈ names_of_type Byproduct data ∖ names_of_type RefProduct data) as Hin; [|rewrite Hempty in Hin; set_solver].
    apply elem_of_difference. split; [apply names_of_type_spec; by exists ds, e|].
    intros Hr. apply names_of_type_spec in Hr as (ds' & e' & Hds' & He' & Ht' & Hn). by apply (Hno ds' e').
Qed.
Lemma byproducts_other data r : ensure_byproducts_have_alternative_production data = r ->
  r = Ok data \/ r = Err MissingAlternativeProducer.
Proof. intros <-. unfold ensure_byproducts_have_alternative_production. case_bool_decide; [by right|by left]. Qed.

(** *** Activity links *)
Lemma delete_links_spec data data' : delete_activity_links_to_constrained_markets data = Ok data' ->
  Forall2 (fun ds ds' => exists es, ds' = set_d_exchanges es ds /\
    Forall2 (fun e e' => (conditional e -> is_Some (e_link e) /\ e' = e) /\
                         (~ conditional e -> e_link e = Some ""%string -> e' = e) /\
                         (~ conditional e -> e_link e <> Some ""%string -> e' = set_e_link None e))
      (d_exchanges ds) es) data data'.
Proof.
  intros H. unfold delete_activity_links_to_constrained_markets in H. apply bind_Ok in H as (u & Hu & <-%Ok_inj).
  apply mapR_Ok in Hu. apply Forall2_fmap_r. 
  assert (Forall (fun ds => Forall (fun e => cond_truthy e = true -> is_Some (e_link e)) (d_exchanges ds)) data) as HL.
  { clear -Hu. induction Hu as [|ds y data ys Hy _ IH]; constructor; [|done]. apply mapR_Ok in Hy.
    induction Hy as [|e z es zs Hz _ IHy]; constructor; [|done]. intros Ht. rewrite Ht in Hz.
    unfold getkey in Hz. destruct (e_link e); [by eexists|done]. }
  apply Forall_Forall2_diag. eapply Forall_impl; [exact HL|]. clear. cbn beta. intros ds HL.
  eexists. split; [reflexivity|]. apply Forall2_fmap_r, Forall_Forall2_diag. eapply Forall_impl; [exact HL|]. clear.
  unfold compose; cbn beta. intros e HL.
  assert (cond_truthy e = true <-> conditional e) as Hc.
  { unfold cond_truthy, conditional. destruct (e_cond e) as [[]|]; naive_solver. }
  unfold delete_link. destruct (cond_truthy e) eqn:E.
  - assert (conditional e) by by apply Hc. split_and!; [intros _; split; [by apply HL|done]|done|done].
  - assert (~ conditional e) as Hn by (rewrite <- Hc; done). cbn [negb andb].
    destruct (e_link e) as [l|] eqn:El.
    + destruct (String.eqb_spec l "") as [->|Hl]; cbn [negb]; split_and!; intros; try done; congruence.
    + split_and!; intros; try done. rewrite <- El. by destruct e.
Qed.
