(** Proofs for C78: what a run takes and gives. *)
From Verif Require Import Base Strings Types Uncertainty Spec_Uncertainty Uncertainty_proofs Utils Spec_Utils Utils_proofs Grouping GroupUpdate
  Topology Cutoff Locations Spec_RestOfWorld RestOfWorld_proofs Spec_Markets Markets_proofs SingleOutput_proofs
  Spec_Mix Mix_proofs Spec_Waste Waste_proofs Spec_Consumers Consumers_proofs ConsumerInputs_proofs
  Consequential Spec_Codes Codes_proofs Linked_proofs Spec_Untouched Untouched_proofs
  Combined_proofs Pipeline Spec_Pipeline Pipeline_proofs Spec_Consequential Spec_Balance.

(** *** Links of consumers *)
Section one_product.
Context (ln : Qc -> Qc) (t : topo) (data : list dataset) (ks : list (string * (nat * dataset))).
Context (Hks : keyed (typed_refprod [MarketActivity; MarketGroup]) data = Ok ks).
Context (Hcodes : forall d, d ∈ data -> exists c, d_code d = Some c /\ c <> ""%string).
Context (n : string) (Hn : n <> "refinery gas"%string).

Lemma chosen_sells loc row product ms m :
  choose_markets t loc row (filter (sells product) data) = Ok ms -> m ∈ ms -> exists c, d_code m = Some c /\ c <> ""%string.
Proof.
  intros H Hm. eapply choose_markets_elem in Hm; [|exact H]. apply elem_of_list_filter in Hm as [_ Hm]. by apply Hcodes.
Qed.
Lemma chosen_coded loc row product ms :
  choose_markets t loc row (filter (sells product) data) = Ok ms -> Forall (fun m => is_Some (d_code m)) ms.
Proof.
  intros H. apply Forall_forall. intros m Hm. destruct (chosen_sells _ _ _ _ _ H Hm) as (c & -> & _). by eexists.
Qed.
Lemma any_choice ds row e d : choice_of ln t data ds row e = Ok d ->
  exists ms, Forall (fun m => exists c, d_code m = Some c /\ c <> ""%string) ms /\ linked_input ms e (stays_of d e) (new_of d).
Proof.
  intros H. apply bind_Ok in H as (ms & Hms & H). exists ms. split.
  - apply Forall_forall. intros m. by apply (chosen_sells _ _ _ _ _ Hms).
  - eapply decide_input_spec; [|exact H]. by eapply chosen_coded.
Qed.
Lemma any_new ds row e e' : e' ∈ new_of (ConsumerInputs_proofs.choice ln t data ds row e) -> unlinked e' = false.
Proof.
  unfold ConsumerInputs_proofs.choice. intros He'. destruct (choice_of ln t data ds row e) as [d|] eqn:E; [|set_solver].
  destruct (any_choice ds row e d E) as (ms & HF & HL). rewrite Forall_forall in HF.
  unfold linked_input in HL. destruct ms as [|m [|m2 ms]].
  - destruct HL as [_ HL]. rewrite HL in He'. set_solver.
  - destruct HL as (_ & _ & HL). rewrite HL in He'. set_solver.
  - destruct HL as [(_ & _ & HL)|(_ & _ & HL)]; [rewrite HL in He'; set_solver|].
    apply elem_of_list_lookup in He' as [i Hi]. destruct (Forall2_lookup_r _ _ _ _ _ HL Hi) as (m' & Hm' & Hp).
    apply elem_of_list_lookup_2, elem_of_list_filter in Hm' as [_ Hm'].
    destruct (HF m' Hm') as (cc & Hcc & Hne).
    destruct Hp as (x & _ & _ & ->). apply not_true_iff_false. rewrite unlinked_iff. unfold open_exchange.
    cbn [e_code set_e_code]. rewrite Hcc. intros [_ [?|?]]; congruence.
Qed.
Lemma any_one ds row e c : ConsumerInputs_proofs.choice ln t data ds row e = One c -> unlinked (set_e_code (Some c) e) = false.
Proof.
  unfold ConsumerInputs_proofs.choice. intros He'. destruct (choice_of ln t data ds row e) as [d|] eqn:E; [|discriminate]. subst d.
  unfold choice_of in E. apply bind_Ok in E as (ms & Hms & E).
  unfold decide_input in E. destruct ms as [|m [|m2 ms]]; [discriminate| |].
  - destruct (chosen_sells _ _ _ _ m Hms) as (cc & Hcc & Hne); [by left|].
    rewrite Hcc in E. cbn [getkey bind] in E. apply Ok_inj in E. injection E as ->.
    apply not_true_iff_false. rewrite unlinked_iff. unfold open_exchange.
    cbn [e_code set_e_code]. intros [_ [?|Hx]]; congruence.
  - apply bind_Ok in E as ([[? ?]|] & _ & E); [|discriminate]. apply bind_Ok in E as (? & _ & E). discriminate.
Qed.

Definition ours (l : list (option nat * exchange)) : list (option nat * exchange) :=
  filter (fun ox => e_name ox.2 = n) l.
Definition mine (l : list (nat * exchange)) : list (nat * exchange) := filter (fun p => e_name p.2 = n) l.

Lemma decided_names e ms d : decide_input ln e ms = Ok d -> Forall (fun x => e_name x = e_name e) (new_of d).
Proof.
  intros H. unfold decide_input in H. destruct ms as [|m [|m2 ms]].
  - apply Ok_inj in H as <-. constructor.
  - apply bind_Ok in H as (c & _ & <-%Ok_inj). constructor.
  - apply bind_Ok in H as (vs & _ & H). destruct vs as [[suppliers total]|]; [|apply Ok_inj in H as <-; constructor].
    apply bind_Ok in H as (new & Hnew & <-%Ok_inj). cbn [new_of].
    apply concat_mapR_Ok in Hnew as (rs & HF & ->). apply Forall_concat.
    induction HF as [|s r ss rs Hr _ IH]; [constructor|]. constructor; [|done].
    unfold input_of in Hr. apply bind_Ok in Hr as (pv & _ & Hr). apply bind_Ok in Hr as (f & _ & Hr).
    destruct (Qctruthy f); [|apply Ok_inj in Hr as <-; constructor]. apply bind_Ok in Hr as (x & Hx & <-%Ok_inj).
    constructor; [|done]. unfold consumer_input in Hx. apply bind_Ok in Hx as (e0 & He0 & Hx).
    apply bind_Ok in Hx as (c & _ & <-%Ok_inj). apply scale_exchange_spec in He0 as [_ Hs].
    change (e_name e0 = e_name e). by destruct Hs as (? & ? & _).
Qed.

Lemma ours_map_code i c l :
  ours (map (fun ox => if bool_decide (ox.1 = Some i) then (ox.1, set_e_code (Some c) ox.2) else ox) l) =
  map (fun ox : option nat * exchange => if bool_decide (ox.1 = Some i) then (ox.1, set_e_code (Some c) ox.2) else ox) (ours l).
Proof.
  unfold ours. induction l as [|[o x] l IH]; [done|]. cbn [map fst snd]. rewrite !filter_cons.
  destruct (bool_decide (o = Some i)) eqn:E; cbn [snd e_name set_e_code].
  - destruct (decide (e_name x = n)); [|exact IH]. cbn [map fst snd]. rewrite E. by rewrite IH.
  - destruct (decide (e_name x = n)); [|exact IH]. cbn [map fst snd]. rewrite E. by rewrite IH.
Qed.
Lemma ours_same i e st d : e_name e = n -> Forall (fun x => e_name x = n) (new_of d) ->
  ours (apply_decision i e st d).1 = (apply_decision i e (ours st.1, st.2) d).1.
Proof.
  intros He Hnew. destruct d as [|c|new]; cbn [apply_decision fst snd new_of] in *.
  - done.
  - apply ours_map_code.
  - unfold ours. rewrite !(filterb_filter (fun ox : option nat * exchange => ox.2 <> e)) by done.
    rewrite !list_filter_filter. rewrite !filter_app.
    f_equal.
    + rewrite list_filter_filter. apply list_filter_iff. intros x. tauto.
    + apply list_filter_iff'. intros ox Hox. apply elem_of_list_fmap in Hox as (x & -> & Hx). cbn [snd].
      rewrite Forall_forall in Hnew. pose proof (Hnew x Hx). tauto.
Qed.
Lemma ours_other i e st d : e_name e <> n -> Forall (fun x => e_name x = e_name e) (new_of d) ->
  (forall x, (Some i, x) ∉ ours st.1) ->
  ours (apply_decision i e st d).1 = ours st.1.
Proof.
  intros He Hnew Hi. destruct d as [|c|new]; cbn [apply_decision fst snd new_of] in *.
  - done.
  - rewrite ours_map_code. rewrite <- (map_id (ours st.1)) at 2. apply map_ext_in. intros [o x] Hox%elem_of_list_In. cbn [fst snd].
    case_bool_decide as E; [|done]. subst o. by apply Hi in Hox.
  - unfold ours. rewrite (filterb_filter (fun ox : option nat * exchange => ox.2 <> e)) by done.
    rewrite list_filter_filter, filter_app.
    rewrite (Cutoff_proofs.filter_none _ (map _ new)).
    + rewrite app_nil_r. apply list_filter_iff'. intros ox _. split; [tauto|]. intros E. split; [done|]. congruence.
    + apply Forall_fmap. eapply Forall_impl; [exact Hnew|]. unfold compose. cbn [snd]. intros x Hx [E _]. congruence.
Qed.
Lemma state_positions D orig done i x : (Some i, x) ∈ state D orig done -> i ∈ map fst orig.
Proof.
  intros H. unfold state in H. apply elem_of_app in H as [H|H].
  - apply elem_of_list_In, in_concat in H as (l & Hl & Hx). apply elem_of_list_In in Hl, Hx.
    apply elem_of_list_fmap in Hl as (p & -> & Hp). apply elem_of_list_fmap. exists p. split; [|done].
    unfold current in Hx. destruct (unlinked p.2); [|by apply elem_of_list_singleton in Hx as [= ? ?]].
    destruct (D p.2); [by apply elem_of_list_singleton in Hx as [= ? ?]| |];
      destruct (decide _); try (by apply elem_of_list_singleton in Hx as [= ? ?]); set_solver.
  - unfold added in H. apply elem_of_list_fmap in H as (e & E & _). discriminate.
Qed.
Lemma mine_elem l p : p ∈ mine l <-> e_name p.2 = n /\ p ∈ l.
Proof. unfold mine. by rewrite elem_of_list_filter. Qed.
Lemma mine_app a b : mine (a ++ b) = mine a ++ mine b.
Proof. apply filter_app. Qed.

Lemma fold_ours ds row orig todo : NoDup (map fst orig) ->
  forall done before st r,
  (forall p, p ∈ done ++ todo -> p ∈ orig /\ unlinked p.2 = true) -> NoDup (done ++ todo) ->
  ours st.1 = state (ConsumerInputs_proofs.choice ln t data ds row) (mine orig) (mine done) ->
  foldR (link_inputs_step ln t (map (fun g => (g.1, map snd g.2)) (groupby ks)) (d_location ds) row)
    (before, st) todo = Ok r ->
  ours r.2.1 = state (ConsumerInputs_proofs.choice ln t data ds row) (mine orig) (mine (done ++ todo)) /\
  (forall p, p ∈ mine todo -> exists d, choice_of ln t data ds row p.2 = Ok d).
Proof.
  intros Hnd.
  assert (forall p q, p ∈ orig -> q ∈ orig -> q.1 = p.1 -> q = p) as Hinj.
  { intros p q Hp Hq E. apply elem_of_list_lookup in Hq as [i Hi]. apply elem_of_list_lookup in Hp as [j Hj].
    assert (i = j) as ->; [|congruence].
    eapply (proj1 (NoDup_alt (map fst orig)) Hnd i j p.1); apply list_lookup_fmap_Some; eexists; (split; [eassumption|done]). }
  assert (NoDup (map fst (mine orig))) as Hnd'.
  { unfold mine. by apply NoDup_map_filter. }
  induction todo as [|p todo IH]; intros done before st r Hin Hndt Hst H; cbn [foldR] in H.
  - apply Ok_inj in H as <-. rewrite app_nil_r. split; [done|]. intros p Hp. apply mine_elem in Hp as [_ Hp]. set_solver.
  - apply bind_Ok in H as ([before' st'] & Hstep & H). unfold link_inputs_step in Hstep.
    apply bind_Ok in Hstep as (cs & Hcs & Hstep). apply bind_Ok in Hstep as (chosen & Hch & Hstep).
    apply bind_Ok in Hstep as (d & Hd & Hstep). apply Ok_inj in Hstep. injection Hstep as <- <-. cbn [fst snd] in *.
    destruct (Hin p) as [Hpo Hpu]; [set_solver|]. pose proof (decided_names _ _ _ Hd) as Hnames.
    assert (ours (apply_decision p.1 p.2 st d).1 =
            state (ConsumerInputs_proofs.choice ln t data ds row) (mine orig) (mine (done ++ [p])) /\
            (e_name p.2 = n -> choice_of ln t data ds row p.2 = Ok d)) as [Hs Hc].
    { destruct (decide (e_name p.2 = n)) as [En|En].
      - apply (candidates_spec data ks) in Hcs as ->; [|done|intros E; congruence].
        assert (choice_of ln t data ds row p.2 = Ok d) as Ed by (unfold choice_of; rewrite Hch; exact Hd).
        split; [|done]. rewrite mine_app.
        assert (mine [p] = [p]) as -> by (unfold mine; rewrite filter_cons_True by done; by rewrite filter_nil).
        assert (Forall (fun x => e_name x = n) (new_of d)) as Hnames' by (by rewrite <- En).
        rewrite (ours_same p.1 p.2 st d En Hnames').
        assert (d = ConsumerInputs_proofs.choice ln t data ds row p.2) as -> by (unfold ConsumerInputs_proofs.choice; by rewrite Ed).
        apply state_step.
        + intros e e'. apply any_new.
        + intros e c. apply any_one.
        + exact Hnd'.
        + by apply mine_elem.
        + exact Hpu.
        + intros q Hq. apply mine_elem in Hq as [E Hq]. apply mine_elem. split; [done|]. apply Hin. set_solver.
        + intros Hq. apply mine_elem in Hq as [_ Hq]. apply NoDup_app in Hndt as (_ & Hx & _). apply (Hx p Hq). set_solver.
        + exact Hst.
      - split; [|done]. rewrite mine_app.
        assert (mine [p] = []) as -> by (unfold mine; rewrite filter_cons_False by done; by rewrite filter_nil).
        rewrite app_nil_r, <- Hst. apply ours_other; [done|done|]. intros x Hx. rewrite Hst in Hx.
        apply state_positions in Hx. apply elem_of_list_fmap in Hx as (q & E & Hq). apply mine_elem in Hq as [Eq Hq].
        apply En. by rewrite <- (Hinj p q Hpo Hq (eq_sym E)). }
    destruct (IH (done ++ [p]) (Some cs) (apply_decision p.1 p.2 st d) r) as [Hr Hall].
    + rewrite <- app_assoc. exact Hin.
    + rewrite <- app_assoc. exact Hndt.
    + exact Hs.
    + exact H.
    + rewrite <- app_assoc in Hr. split; [exact Hr|].
      intros q Hq. apply mine_elem in Hq as [E Hq]. apply elem_of_cons in Hq as [->|Hq]; [exists d; by apply Hc|].
      apply Hall. by apply mine_elem.
Qed.
Lemma ours_demand l : demand n (map snd (ours l)) = demand n (map snd l).
Proof.
  unfold demand, ours. induction l as [|[o x] l IH]; [done|]. rewrite filter_cons. cbn [snd].
  destruct (decide (e_name x = n)) as [E|E]; cbn [map snd].
  - rewrite !filter_cons. destruct (decide _); cbn [map]; [|exact IH]. unfold Qcsum in *. cbn [foldr]. by rewrite IH.
  - rewrite (filter_cons_False _ x) by tauto. exact IH.
Qed.
Lemma ours_originals l : ours (map (fun p : nat * exchange => (Some p.1, p.2)) l) = map (fun p : nat * exchange => (Some p.1, p.2)) (mine l).
Proof.
  unfold ours, mine. induction l as [|p l IH]; [done|]. cbn [map]. rewrite !filter_cons. cbn [snd].
  destruct (decide _); cbn [map]; by rewrite IH.
Qed.
Lemma mine_open l : mine (filterb (fun p => unlinked p.2) l) = filterb (fun p => unlinked p.2) (mine l).
Proof.
  unfold mine. rewrite !(filterb_filter (fun p : nat * exchange => unlinked p.2 = true)).
  - rewrite !list_filter_filter. apply list_filter_iff. intros p. tauto.
  - intros x _. destruct (unlinked x.2); [by rewrite bool_decide_eq_true_2|by rewrite bool_decide_eq_false_2].
  - intros x _. destruct (unlinked x.2); [by rewrite bool_decide_eq_true_2|by rewrite bool_decide_eq_false_2].
Qed.

Lemma link_dataset_demand before ds r :
  link_dataset ln t (map (fun g => (g.1, map snd g.2)) (groupby ks)) data before ds = Ok r ->
  demand n (d_exchanges r.2) = demand n (d_exchanges ds).
Proof.
  intros H. unfold link_dataset in H. destruct (is_type MarketGroup ds); [by apply Ok_inj in H as <-|].
  apply bind_Ok in H as (row & _ & H). cbv zeta in H. apply bind_Ok in H as (res & Hres & <-%Ok_inj). cbn [snd].
  assert (forall (b : bool) d, d_exchanges (if b then set_d_suppliers None d else d) = d_exchanges d) as Hd by (by intros []).
  rewrite Hd. cbn [d_exchanges set_d_exchanges].
  eapply (fold_ours ds row (indexed (d_exchanges ds)) _ (indexed_fst _) []) in Hres as [Hst Hall].
  - cbn [app] in Hst. rewrite mine_open in Hst. rewrite <- ours_demand, Hst, state_final by (unfold mine; apply NoDup_map_filter, indexed_fst).
    transitivity (demand n (map snd (mine (indexed (d_exchanges ds))))).
    + rewrite demand_app. assert (forall p, p ∈ mine (indexed (d_exchanges ds)) -> unlinked p.2 = true ->
        exists ms, linked_input ms p.2 (stays_of (ConsumerInputs_proofs.choice ln t data ds row p.2) p.2)
                                      (new_of (ConsumerInputs_proofs.choice ln t data ds row p.2))) as HL.
      { intros p Hp Hu. destruct (Hall p) as [d Hd'].
        - rewrite mine_open. by apply filterb_In.
        - destruct (any_choice ds row p.2 d Hd') as (ms & _ & HL). exists ms. unfold ConsumerInputs_proofs.choice. by rewrite Hd'. }
      clear Hall Hst. revert HL. generalize (mine (indexed (d_exchanges ds))) as l. intros l HL.
      induction l as [|p l IH]; [done|]. cbn [map concat]. rewrite !demand_app.
      change (p.2 :: map snd l) with ([p.2] ++ map snd l). rewrite demand_app, <- IH by (intros q Hq; apply HL; by right).
      destruct (unlinked p.2) eqn:Eu.
      * destruct (HL p) as (ms & Hm); [by left|done|]. apply unlinked_iff in Eu.
        rewrite <- (linked_demand n ms p.2 _ _ Eu Hm), demand_app. ring.
      * change (demand n []) with 0%Qc. ring.
    + rewrite <- (indexed_snd (d_exchanges ds)) at 2. unfold demand, mine. generalize (indexed (d_exchanges ds)) as l. intros l.
      induction l as [|p l IH]; [done|]. rewrite filter_cons. destruct (decide (e_name p.2 = n)) as [E|E]; cbn [map].
      * rewrite !filter_cons. destruct (decide _); cbn [map]; [|exact IH]. unfold Qcsum in *. cbn [foldr]. by rewrite IH.
      * rewrite (filter_cons_False _ p.2) by tauto. exact IH.
  - cbn [app]. intros p Hp. by apply filterb_In in Hp.
  - cbn [app]. apply (NoDup_fmap_1 fst). change (NoDup (map fst (filterb (fun p : nat * exchange => unlinked p.2) (indexed (d_exchanges ds))))).
    rewrite (filterb_filter (fun p : nat * exchange => unlinked p.2 = true)).
    + apply NoDup_map_filter, indexed_fst.
    + intros x _. destruct (unlinked x.2); [by rewrite bool_decide_eq_true_2|by rewrite bool_decide_eq_false_2].
  - cbn [fst]. rewrite ours_originals. change (mine []) with (@nil (nat * exchange)). by rewrite state_nil.
Qed.
End one_product.

(** No new names. *)
Definition within_names (N : list string) (es : list exchange) : Prop := Forall (fun e => e_name e ∈ N) es.
Lemma fold_names ln t mapping loc row N todo acc r :
  (forall p, p ∈ todo -> e_name p.2 ∈ N) -> within_names N (map snd acc.2.1) ->
  foldR (link_inputs_step ln t mapping loc row) acc todo = Ok r -> within_names N (map snd r.2.1).
Proof.
  revert acc. induction todo as [|[i exc] todo IH]; intros acc Ht HN H.
  - cbn [foldR] in H. by apply Ok_inj in H as <-.
  - cbn [foldR] in H. apply bind_Ok in H as (a & Ha & H). unfold link_inputs_step in Ha. cbn [fst snd] in Ha.
    apply bind_Ok in Ha as (cs & _ & Ha). apply bind_Ok in Ha as (chosen & _ & Ha). apply bind_Ok in Ha as (dec & Hdec & <-%Ok_inj).
    eapply IH; [|..|exact H]; [intros p Hp; apply Ht; by right|]. cbn [snd]. apply decided_names in Hdec.
    assert (e_name exc ∈ N) as He by (apply (Ht (i, exc)); by left).
    unfold within_names in *. rewrite Forall_fmap in HN |- *. destruct dec as [|c|new]; cbn [apply_decision fst new_of] in *.
    + exact HN.
    + apply Forall_fmap. eapply Forall_impl; [exact HN|]. intros [o x] Hx. unfold compose in *. cbn [fst snd] in *.
      by case_bool_decide.
    + apply Forall_forall. intros ox Hox. apply filterb_In in Hox as [Hox _]. apply elem_of_app in Hox as [Hox|Hox].
      * rewrite Forall_forall in HN. by apply HN.
      * apply elem_of_list_fmap in Hox as (x & -> & Hx). rewrite Forall_forall in Hdec. unfold compose. cbn [snd]. by rewrite (Hdec x Hx).
Qed.
Lemma link_dataset_names ln t mapping data before ds r :
  link_dataset ln t mapping data before ds = Ok r -> within_names (map e_name (d_exchanges ds)) (d_exchanges r.2).
Proof.
  assert (within_names (map e_name (d_exchanges ds)) (d_exchanges ds)) as Hself.
  { apply Forall_forall. intros e He. apply elem_of_list_fmap. by exists e. }
  intros H. unfold link_dataset in H. destruct (is_type MarketGroup ds); [by apply Ok_inj in H as <-|].
  apply bind_Ok in H as (row & _ & H). cbv zeta in H. apply bind_Ok in H as (res & Hres & <-%Ok_inj). cbn [snd].
  assert (forall (b : bool) d, d_exchanges (if b then set_d_suppliers None d else d) = d_exchanges d) as Hd by (by intros []).
  rewrite Hd. cbn [d_exchanges set_d_exchanges]. eapply fold_names; [| |exact Hres].
  - intros [i e] Hp. apply filterb_In in Hp as [Hp _]. apply elem_of_indexed in Hp. apply elem_of_list_lookup_2 in Hp.
    apply elem_of_list_fmap. by exists e.
  - cbn [fst snd]. rewrite map_map. cbn [snd]. assert (map (fun x : nat * exchange => x.2) (indexed (d_exchanges ds)) = d_exchanges ds) as ->
      by apply indexed_snd. exact Hself.
Qed.

(** *** Passes that change labels only *)
Definition sure (d d' : dataset) : Prop :=
  frame d' = frame d /\ map bare (d_exchanges d') = map bare (d_exchanges d) /\
  d_location d' = d_location d /\ d_code d' = d_code d.
Lemma sure_refl d : sure d d.
Proof. done. Qed.
Lemma sure_trans d1 d2 d3 : sure d1 d2 -> sure d2 d3 -> sure d1 d3.
Proof. intros (A & B & C & D) (A' & B' & C' & D'). split_and!; congruence. Qed.
Lemma bares_eq es es' : Forall2 (fun e e' => bare e' = bare e) es es' -> map bare es' = map bare es.
Proof. induction 1 as [|e e' es es' H _ IH]; [done|]. cbn [map]. by rewrite H, IH. Qed.
Lemma sure_exchanges d es : Forall2 (fun e e' => bare e' = bare e) (d_exchanges d) es -> sure d (set_d_exchanges es d).
Proof. intros H. split; [done|]. split; [|done]. by apply bares_eq. Qed.
Lemma sure_suppliers d s : sure d (set_d_suppliers s d).
Proof. done. Qed.
Lemma sure_all_refl data : Forall2 sure data data.
Proof. induction data; by constructor. Qed.
Lemma sure_mapR f data data' : (forall d d', f d = Ok d' -> sure d d') -> mapR f data = Ok data' -> Forall2 sure data data'.
Proof. intros H HM. apply mapR_Ok in HM. eapply Forall2_impl; [exact HM|]. cbn beta. auto. Qed.
Lemma bare_map f es : (forall e, bare (f e) = bare e) -> Forall2 (fun e e' => bare e' = bare e) es (map f es).
Proof. intros H. induction es; cbn [map]; by constructor. Qed.
Lemma sure_rp_pv f d : sure d (set_rp_pv f d).
Proof.
  unfold set_rp_pv. apply sure_exchanges, bare_map. intros e. destruct (bool_decide _); done.
Qed.
Lemma actualize_sure data data' : actualize_activity_links data = Ok data' -> Forall2 sure data data'.
Proof.
  apply sure_mapR. intros d d' H. apply bind_Ok in H as (es & Hes & <-%Ok_inj). apply sure_exchanges.
  apply mapR_Ok in Hes. eapply Forall2_impl; [exact Hes|]. cbn beta. intros e e' He. unfold actualize_link in He.
  destruct (e_link e) as [i|]; [|apply Ok_inj in He as <-; apply eq_refl].
  destruct (String.eqb i ""); [apply Ok_inj in He as <-; apply eq_refl|].
  destruct (filterb _ data) as [|g0 g]; [discriminate|]. apply bind_Ok in He as (refs & _ & He).
  destruct refs as [|p [|? ?]]; [apply Ok_inj in He as <-; apply eq_refl| |apply Ok_inj in He as <-; apply eq_refl].
  apply bind_Ok in He as (c & _ & <-%Ok_inj). done.
Qed.
Lemma apportion_sure ord t consumers suppliers ups i d' :
  apportion ord t consumers suppliers = Ok ups -> (i, d') ∈ ups -> exists d, (i, d) ∈ consumers /\ sure d d'.
Proof.
  intros H Hin. unfold apportion in H. apply bind_Ok in H as (? & _ & H). apply bind_Ok in H as (row & _ & H).
  apply mapR_Ok in H. apply elem_of_list_lookup in Hin as [m Hm].
  destruct (Forall2_lookup_r _ _ _ _ _ H Hm) as ([j d] & Hg & Hd). apply elem_of_list_lookup_2 in Hg. cbv zeta in Hd.
  apply bind_Ok in Hd as (new & Hnew & E). apply Ok_inj in E. injection E as <- <-. cbn [fst snd] in *.
  exists d. split; [done|]. apply sure_suppliers.
Qed.
Lemma rc_suppliers_sure ord t data data' :
  add_recycled_content_suppliers_to_markets ord t data = Ok data' -> Forall2 sure data data'.
Proof.
  intros H. unfold add_recycled_content_suppliers_to_markets in H.
  apply bind_Ok in H as (? & _ & H). apply bind_Ok in H as (rcs & Hrcs & H).
  eapply update_groups_Forall2; [| |exact H]; [intros y _; apply sure_refl|].
  intros k ups i d' Hf Hin. cbv beta zeta in Hf. apply bind_Ok in Hf as (? & _ & Hf).
  destruct (filterb _ rcs) as [|s0 ss]; [apply Ok_inj in Hf as <-; set_solver|].
  eapply apportion_sure in Hf as (d & Hd & Hk); [|exact Hin]. exists d. split; [|done].
  by apply elem_of_members in Hd as [Hd _].
Qed.
Lemma add_suppliers_sure ord t a b data data' :
  add_suppliers_to_markets ord t a b data = Ok data' -> Forall2 sure data data'.
Proof.
  intros H. unfold add_suppliers_to_markets in H.
  eapply update_groups_Forall2; [| |exact H]; [intros y _; apply sure_refl|].
  intros k ups i d' Hf Hin. cbv beta zeta in Hf.
  destruct (filterb _ (members _ k data)) as [|c0 cs] eqn:E; [apply Ok_inj in Hf as <-; set_solver|].
  apply bind_Ok in Hf as (? & _ & Hf). eapply apportion_sure in Hf as (d & Hd & Hk); [|exact Hin]. exists d. split; [|done].
  rewrite <- E in Hd. apply filterb_In in Hd as [Hd _]. by apply elem_of_members in Hd as [Hd _].
Qed.
Lemma update_volume_sure d d' : update_volume d = Ok d' -> sure d d'.
Proof.
  intros H. unfold update_volume in H. apply bind_Ok in H as (pv & _ & H). apply bind_Ok in H as (l & _ & H).
  apply bind_Ok in H as (o & _ & <-%Ok_inj). apply sure_rp_pv.
Qed.
Lemma propagate_sure ds pv d d' : propagate ds pv d = Ok d' -> sure d d'.
Proof.
  intros H. unfold propagate in H. destruct (bool_decide _); [apply Ok_inj in H as <-; apply sure_refl|].
  apply bind_Ok in H as (l & _ & H). destruct l as [|s0 l]; [apply Ok_inj in H as <-; apply sure_refl|].
  apply bind_Ok in H as (? & _ & H). apply bind_Ok in H as (code & _ & <-%Ok_inj). apply sure_suppliers.
Qed.
Lemma update_market_volumes_sure t kind data data' :
  update_market_production_volumes t kind data = Ok data' -> Forall2 sure data data'.
Proof.
  intros H. unfold update_market_production_volumes in H. destruct (bool_decide _).
  - apply bind_Ok in H as (order & _ & H). revert data H. induction order as [|i order IH]; intros data H.
    + cbn [foldR] in H. apply Ok_inj in H as <-. apply sure_all_refl.
    + cbn [foldR] in H. apply bind_Ok in H as (d1 & Hd1 & H). eapply Forall2_transitive; [exact sure_trans| |by apply IH].
      unfold update_group_step in Hd1. apply bind_Ok in Hd1 as (ds & Hds & Hd1). apply bind_Ok in Hd1 as (ds' & Hds' & Hd1).
      apply bind_Ok in Hd1 as (pv & _ & Hd1). cbv zeta in Hd1.
      destruct (data !! i) as [ds0|] eqn:Ei; [|discriminate]. apply Ok_inj in Hds as ->. apply update_volume_sure in Hds'.
      eapply Forall2_transitive; [exact sure_trans| |].
      * rewrite <- (list_insert_id data i ds Ei) at 1. apply Forall2_insert; [apply sure_all_refl|exact Hds'].
      * eapply sure_mapR; [|exact Hd1]. intros d d' Hp. cbn beta in Hp. destruct (is_type kind d); [by eapply propagate_sure|].
        apply Ok_inj in Hp as <-. apply sure_refl.
  - eapply sure_mapR; [|exact H]. intros d d' Hp. cbn beta in Hp. destruct (is_type kind d).
    + by apply update_volume_sure.
    + apply Ok_inj in Hp as <-. apply sure_refl.
Qed.
Lemma group_link_sure t data data' : link_market_group_suppliers t data = Ok data' -> Forall2 sure data data'.
Proof.
  intros H. unfold link_market_group_suppliers in H. apply bind_Ok in H as (ks & _ & H). apply bind_Ok in H as (? & _ & H).
  eapply update_groups_Forall2; [| |exact H]; [intros y _; apply sure_refl|].
  intros k ups i d' Hf Hin. cbv beta in Hf. apply bind_Ok in Hf as (markets & Hm & Hf). unfold link_group in Hf. cbv zeta in Hf.
  apply bind_Ok in Hf as (row & _ & Hf). apply bind_Ok in Hf as (ordered & _ & Hf). apply mapR_Ok in Hf.
  apply elem_of_list_lookup in Hin as [m Hmm].
  destruct (Forall2_lookup_r _ _ _ _ _ Hf Hmm) as ([j d] & Hg & Hd). apply elem_of_list_lookup_2, filterb_In in Hg as [Hg _].
  apply bind_Ok in Hd as (sup & Hsup & E). apply Ok_inj in E. injection E as <- <-. cbn [fst snd] in *.
  apply elem_of_members in Hg as [Hg _]. exists d. split; [done|]. apply sure_suppliers.
Qed.
Lemma rc_consumers_sure data data' :
  link_consumers_to_recycled_content_activities data = Ok data' -> Forall2 sure data data'.
Proof.
  intros H. unfold link_consumers_to_recycled_content_activities in H. apply bind_Ok in H as (producers & _ & H).
  revert H. apply sure_mapR. intros d d' H. apply bind_Ok in H as (es & Hes & <-%Ok_inj). apply sure_exchanges.
  apply mapR_Ok in Hes. eapply Forall2_impl; [exact Hes|]. cbn beta. intros e e' He. unfold link_rc in He.
  destruct (unlinked e); [|apply Ok_inj in He as <-; apply eq_refl].
  destruct (filterb _ producers) as [|p [|? ?]]; [apply Ok_inj in He as <-; apply eq_refl| |apply Ok_inj in He as <-; apply eq_refl].
  apply bind_Ok in He as (c & _ & <-%Ok_inj). done.
Qed.
Lemma rp_codes_sure data data' : add_reference_product_codes data = Ok data' -> Forall2 sure data data'.
Proof.
  apply sure_mapR. intros d d' H. apply bind_Ok in H as (? & _ & H). apply bind_Ok in H as (rp & _ & <-%Ok_inj).
  apply sure_exchanges, bare_map. intros e. destruct (bool_decide _); done.
Qed.
Lemma prune_sure data data' : prune_suppliers_by_technology_level data = Ok data' -> Forall2 sure data data'.
Proof.
  apply sure_mapR. intros d d' H. unfold prune_dataset in H.
  destruct (_ || _); [|apply Ok_inj in H as <-; apply sure_refl].
  destruct (d_suppliers d) as [[|s0 l]|]; [apply Ok_inj in H as <-; apply sure_refl| |apply Ok_inj in H as <-; apply sure_refl].
  apply bind_Ok in H as (best & _ & H). destruct best; [discriminate|]. apply Ok_inj in H as <-. apply sure_suppliers.
Qed.
Lemma label_sure data data' : label_reference_product data = Ok data' -> Forall2 sure data data'.
Proof. apply sure_mapR. intros d d' H. by apply bind_Ok in H as (rp & _ & <-%Ok_inj). Qed.
Lemma fake_sure data data' : assign_fake_pv_to_confidential_datasets data = Ok data' -> Forall2 sure data data'.
Proof.
  apply sure_mapR. intros d d' H. destruct (_ && _).
  - apply bind_Ok in H as (rp & _ & H). apply bind_Ok in H as (? & _ & <-%Ok_inj). apply sure_rp_pv.
  - by apply Ok_inj in H as <-.
Qed.
(** *** What is kept of a transforming activity *)
Definition also (d d' : dataset) : Prop := ~ is_market d ->
  within_names (map e_name (d_exchanges d)) (d_exchanges d') /\
  forall n, n <> "refinery gas"%string -> demand n (d_exchanges d') = demand n (d_exchanges d).
Definition retains (d d' : dataset) : Prop := keeps d d' /\ also d d'.
Definition descends (d d' : dataset) : Prop := linked_from d d' /\ also d d'.
Lemma frame_type d d' : frame d' = frame d -> d_type d' = d_type d.
Proof. intros H. by apply (f_equal d_type) in H. Qed.
Lemma within_trans a b c : within_names (map e_name a) b -> within_names (map e_name b) c -> within_names (map e_name a) c.
Proof.
  unfold within_names. rewrite !Forall_forall. intros H1 H2 e He. apply H2, elem_of_list_fmap in He as (e1 & -> & He). by apply H1.
Qed.
Lemma also_trans d1 d2 d3 : d_type d2 = d_type d1 -> also d1 d2 -> also d2 d3 -> also d1 d3.
Proof.
  intros Ht H1 H2 E. destruct (H1 E) as [A1 B1]. destruct H2 as [A2 B2]; [unfold is_market; by rewrite Ht|].
  split; [by eapply within_trans|]. intros n Hn. by rewrite B2, B1.
Qed.
Lemma descends_retains d1 d2 d3 : descends d1 d2 -> retains d2 d3 -> descends d1 d3.
Proof.
  intros [H1 A1] [H2 A2]. split; [by eapply linked_keeps_r|]. eapply also_trans; [|exact A1|exact A2].
  apply frame_type. by destruct H1.
Qed.
Lemma bare_demand n es es' : map bare es' = map bare es -> demand n es' = demand n es.
Proof.
  assert (forall es, demand n es = demand n (map bare es)) as H.
  { clear es es'. intros es. unfold demand. induction es as [|e es IH]; [done|]. cbn [map]. rewrite !filter_cons.
    change (e_type (bare e)) with (e_type e). change (e_name (bare e)) with (e_name e).
    destruct (decide _); [|exact IH]. cbn [map]. unfold Qcsum in *. cbn [foldr]. by rewrite IH. }
  intros E. by rewrite H, E, <- H.
Qed.
Lemma within_self es : within_names (map e_name es) es.
Proof. apply Forall_forall. intros e He. apply elem_of_list_fmap. by exists e. Qed.
Lemma bare_names es es' : map bare es' = map bare es -> within_names (map e_name es) es'.
Proof.
  intros E. assert (map e_name es = map e_name es') as ->; [|apply within_self].
  apply (f_equal (map e_name)) in E. rewrite !map_map in E. symmetry. exact E.
Qed.
Lemma bare_also d d' : map bare (d_exchanges d') = map bare (d_exchanges d) -> also d d'.
Proof. intros E _. split; [by apply bare_names|]. intros n _. by apply bare_demand. Qed.
Lemma both_parts {A} (x y : A) l k : x :: l = y :: k -> x = y /\ l = k.
Proof. intros H. by injection H. Qed.
Lemma sure_retains d d' : sure d d' -> retains d d'.
Proof.
  intros (A & B & C & D). split; [|by apply bare_also]. split; [done|]. split; [|done]. rewrite !others_bares. apply bares_alike.
  revert B. generalize (d_exchanges d) as es, (d_exchanges d') as es'. intros es. induction es as [|e es IH]; intros [|e' es'] B;
    try discriminate; [constructor|]. cbn [map] in B. apply both_parts in B as [B1 B2]. constructor; [by right|by apply IH].
Qed.
Lemma all_retain data data' : Forall2 sure data data' -> Forall2 retains data data'.
Proof. intros H. eapply Forall2_impl; [exact H|]. apply sure_retains. Qed.
Lemma allocate_retains kind data data' : kind = MarketActivity \/ kind = MarketGroup ->
  allocate_all_market_suppliers kind data = Ok data' -> Forall2 retains data data'.
Proof.
  intros Hk H. apply mapR_Ok in H. eapply Forall2_impl; [exact H|]. cbn beta. intros d d' E. destruct (is_type kind d) eqn:Et.
  - split; [by apply allocate_keeps|]. intros Ht. unfold is_type in Et. apply bool_decide_eq_true in Et. destruct Ht. unfold is_market. rewrite Et. tauto.
  - apply Ok_inj in E as <-. apply sure_retains, sure_refl.
Qed.
Lemma consumers_retain ln t data data' : (forall d, d ∈ data -> exists c, d_code d = Some c /\ c <> ""%string) ->
  link_consumers_to_markets ln t data = Ok data' -> Forall2 retains data data'.
Proof.
  intros Hc H. unfold link_consumers_to_markets in H. apply bind_Ok in H as (ks & Hks & H). cbv zeta in H.
  apply bind_Ok in H as (r & Hr & <-%Ok_inj).
  assert (forall l acc r, foldR (fun acc ds => let? r := link_dataset ln t (map (fun g => (g.1, map snd g.2)) (groupby ks)) data acc.1 ds in
                         Ok (r.1, acc.2 ++ [r.2])) acc l = Ok r ->
    exists new, r.2 = acc.2 ++ new /\ Forall2 retains l new) as Hgen.
  { clear Hr r. induction l as [|d l IH]; intros acc r H.
    - cbn [foldR] in H. apply Ok_inj in H as <-. exists []. rewrite app_nil_r. split; [done|constructor].
    - cbn [foldR] in H. apply bind_Ok in H as (a & Ha & H). apply bind_Ok in Ha as (x & Hx & <-%Ok_inj).
      assert (retains d x.2) as Hd.
      { split; [by eapply link_dataset_keeps|]. intros _. split; [by eapply link_dataset_names|].
        intros n Hn. by eapply (link_dataset_demand ln t data ks Hks Hc n Hn). }
      apply IH in H as (new & E & HF). exists (x.2 :: new). cbn [snd] in E. rewrite E, <- app_assoc. split; [done|]. by constructor. }
  destruct (Hgen data (None, []) r Hr) as (new & E & HF). cbn [snd app] in E. by rewrite E.
Qed.
Lemma log_delete_retains data : Forall (fun d => dataset_code_truthy d = true) data ->
  Forall2 retains data (log_and_delete_unlinked_exchanges data).
Proof.
  induction 1 as [|d data H _ IH]; [constructor|]. constructor; [|done]. rewrite H.
  apply sure_retains. split; [done|]. split; [|done]. cbn [d_exchanges set_d_exchanges]. f_equal.
  unfold filterb. induction (d_exchanges d) as [|e es IHe]; [done|]. cbn [List.filter]. by rewrite IHe.
Qed.
Lemma relabel_descends data data' : relabel_global_to_row data = Ok data' ->
  Forall2 (fun d d' => frame d' = frame d /\ map bare (d_exchanges d') = map bare (d_exchanges d) /\
    (d_location d' = d_location d \/ (d_location d = "GLO" /\ d_location d' = "RoW"))%string) data data'.
Proof.
  intros H. eapply update_groups_Forall2; [| |exact H].
  - intros d _. split; [done|]. split; [done|by left].
  - intros k ups i d' Hf Hin. unfold relabel_group in Hf.
    destruct (match members row_key k data with p :: _ => is_type MarketGroup p.2 | [] => false end); [apply Ok_inj in Hf as <-; set_solver|].
    destruct (members row_key k data) as [|p1 [|p2 ps]] eqn:Em; [apply Ok_inj in Hf as <-; set_solver|apply Ok_inj in Hf as <-; set_solver|].
    rewrite <- Em in Hf. destruct (filterb is_glo _) as [|[j glo] [|? ?]] eqn:Eg; [apply Ok_inj in Hf as <-; set_solver| |discriminate].
    cbv zeta in Hf. apply bind_Ok in Hf as (rp & _ & Hf). apply bind_Ok in Hf as (v & _ & <-%Ok_inj).
    apply elem_of_list_singleton in Hin. injection Hin as -> ->.
    assert ((j, glo) ∈ [(j, glo)]) as Hj by set_solver. rewrite <- Eg in Hj. apply filterb_In in Hj as [Hj Hglo].
    apply elem_of_members in Hj as [Hj _]. exists glo. split; [done|].
    match goal with |- context [set_rp_pv ?f glo] => pose proof (sure_rp_pv f glo) as (A & B & C & _) end.
    split; [exact A|]. split; [exact B|]. right. split; [|done].
    unfold is_glo in Hglo. by apply String.eqb_eq in Hglo.
Qed.

Lemma retains_map (f : dataset -> dataset) data : (forall d, retains d (f d)) -> Forall2 retains data (map f data).
Proof. intros H. induction data; cbn [map]; by constructor. Qed.

(** *** All passes together *)
Notation stemming := (Untouched_proofs.from descends).
Lemma stem_retains data cur next : stemming data cur -> Forall2 retains cur next -> stemming data next.
Proof. apply step_by. exact descends_retains. Qed.
Lemma stem_refl data : stemming data data.
Proof.
  exists data. split; [done|]. split; [|done]. induction data as [|d data IH]; constructor; [|done].
  split; [apply keeps_linked_from, keeps_refl|by apply bare_also].
Qed.
Lemma stem_early data d1 d3 : label_reference_product data = Ok d1 ->
  assign_fake_pv_to_confidential_datasets (delete_whitelisted_zero_pv_market_datsets d1) = Ok d3 ->
  Untouched_proofs.from (fun d d' => keeps d d' /\ also d d') data d3.
Proof.
  intros H1 H3. apply label_sure, all_retain in H1. apply fake_sure, all_retain in H3.
  assert (Untouched_proofs.from retains data data) as H0.
  { exists data. split; [done|]. split; [|done]. clear. induction data as [|d data IH]; constructor; [apply sure_retains, sure_refl|done]. }
  assert (forall a b c, retains a b -> retains b c -> retains a c) as Htr.
  { intros a b c [K1 A1] [K2 A2]. split; [by eapply keeps_trans|]. eapply also_trans; [|exact A1|exact A2].
    apply frame_type. by destruct K1. }
  eapply (step_by retains retains); [exact Htr| |exact H3].
  apply step_filter.
  - intros d d' _ [(_ & _ & E & _) _] [Hl _]. rewrite E. destruct (String.eqb_spec (d_location d) "GLO"); [done|]. by rewrite andb_false_r.
  - eapply (step_by retains retains); [exact Htr|exact H0|exact H1].
Qed.
Lemma stem_gas data cur : Untouched_proofs.from (fun d d' => keeps d d' /\ also d d') data cur ->
  stemming data (correct_natural_gas_pipeline_location cur).
Proof.
  intros H. eapply (step_by retains (fun d d' => linked_from d d' /\ map bare (d_exchanges d') = map bare (d_exchanges d)
    /\ frame d' = frame d)); [|exact H|].
  - intros a b c [K A] (L & B & F). split; [by eapply keeps_linked|]. eapply also_trans; [|exact A|by apply bare_also].
    apply frame_type. by destruct K.
  - clear H. unfold correct_natural_gas_pipeline_location. induction cur as [|d cur IH]; cbn [map]; constructor; [|done].
    split; [by apply gas_location|]. by destruct (_ && _ && _).
Qed.
Lemma stem_kept data cur : Untouched_proofs.from (fun d d' => keeps d d' /\ also d d') data cur -> stemming data cur.
Proof.
  intros (base & Hs & HF & HL). exists base. split; [done|]. split; [|done]. eapply Forall2_impl; [exact HF|].
  intros d d' [K A]. split; [by apply keeps_linked_from|done].
Qed.
Lemma stem_relabel data cur next : stemming data cur -> relabel_global_to_row cur = Ok next -> stemming data next.
Proof.
  intros HF H. apply relabel_descends in H. eapply step_by; [|exact HF|exact H]. cbn beta.
  intros d d' d'' [(A & B & C) D] (A' & B' & C'). split.
  - split; [congruence|]. split.
    + rewrite <- B. rewrite !others_bares. apply bares_alike. clear -B'. revert B'.
      generalize (d_exchanges d') as es, (d_exchanges d'') as es'. intros es.
      induction es as [|e es IH]; intros [|e' es'] B; try discriminate; [constructor|].
      cbn [map] in B. apply both_parts in B as [B1 B2]. constructor; [by right|by apply IH].
    + destruct C' as [E|[E1 E2]]; [by rewrite E|]. destruct C as [C|[[C1 C2]|[C1 C2]]].
      * right. left. rewrite <- C. done.
      * rewrite E1 in C2. discriminate.
      * rewrite E1 in C2. discriminate.
  - eapply also_trans; [|exact D|by apply bare_also]. by apply frame_type.
Qed.
Lemma stem_codes data cur next : stemming data cur ->
  Forall2 (fun d d' => d' = set_d_code (d_code d') d) cur next -> stemming data next.
Proof. apply step_by. intros d d' d'' [(A & B & C) D] ->. split; [done|exact D]. Qed.

Section nonempty.
Context (md5 : string -> string) (Hmd5 : forall s, md5 s <> ""%string).
Definition stem_inv (data cur : list dataset) : Prop := stemming data cur /\ Forall (coded_by md5) cur.
Lemma stem_inv_keeps data cur next : stem_inv data cur -> Forall2 retains cur next -> stem_inv data next.
Proof.
  intros [I1 I2] HK. split; [by eapply stem_retains|]. clear I1. induction HK as [|d d' cur next [(_ & _ & _ & E) _] _ IH]; [constructor|].
  apply Forall_cons in I2 as [[s Hs] I2]. constructor; [|by apply IH]. exists s. congruence.
Qed.
Lemma stem_inv_sure data cur next : stem_inv data cur -> Forall2 sure cur next -> stem_inv data next.
Proof. intros I H. eapply stem_inv_keeps; [exact I|by apply all_retain]. Qed.
Lemma stem_inv_delete data cur next kind : stem_inv data cur ->
  delete_global_with_zero_pv_when_regional_present kind cur = Ok next -> stem_inv data next.
Proof.
  intros [I1 I2] H. apply bind_Ok in H as (ks & Hks & <-%Ok_inj). split.
  - apply step_filter; [|exact I1]. intros d d' Hd [(_ & _ & HR) _] [L1 L2]. apply bool_decide_eq_true. intros Hin.
    apply (purged_row kind cur ks d' Hks) in Hin. rewrite Hin in HR. destruct HR as [HR|[[HR _]|[_ HR]]]; congruence.
  - rewrite Forall_forall in *. intros d Hd. apply filterb_In in Hd as [Hd _]. by apply I2.
Qed.
Lemma stem_inv_end data cur : stem_inv data cur -> stemming data (log_and_delete_unlinked_exchanges cur).
Proof.
  intros [I1 I2]. eapply stem_retains; [exact I1|]. apply log_delete_retains. eapply Forall_impl; [exact I2|].
  by apply coded_truthy.
Qed.
Lemma stem_consumers ln t data cur next : stem_inv data cur -> link_consumers_to_markets ln t cur = Ok next -> stem_inv data next.
Proof.
  intros I H. eapply stem_inv_keeps; [exact I|]. eapply consumers_retain; [|exact H]. intros d Hd. destruct I as [_ I].
  rewrite Forall_forall in I. destruct (I d Hd) as [s ->]. by exists (md5 s).
Qed.

Lemma pv_stem ln ord t data out : link_markets_by_pv md5 ln ord t data = Ok out -> stemming data out.
Proof.
  intros H. unfold link_markets_by_pv in H. apply bind_Ok in H as (d1 & E1 & H). cbv zeta in H.
  apply bind_Ok in H as (d3 & E3 & H). apply bind_Ok in H as (d5 & E5 & H). apply bind_Ok in H as (d6 & E6 & H).
  apply bind_Ok in H as (d7 & E7 & H).
  assert (stem_inv data d7) as I.
  { apply codes_keeps in E7 as [E7 C7]. split; [|exact C7]. eapply stem_codes; [|exact E7].
    unfold check_no_row_market_groups in E6. apply bind_Ok in E6 as (? & _ & <-%Ok_inj).
    eapply stem_relabel; [|exact E5].
    apply stem_gas. by eapply stem_early. }
  apply bind_Ok in H as (d8 & E8 & H). apply actualize_sure in E8. eapply stem_inv_sure in I; [|exact E8].
  apply bind_Ok in H as (d9 & E9 & H). apply rc_suppliers_sure in E9. eapply stem_inv_sure in I; [|exact E9].
  apply bind_Ok in H as (d10 & E10 & H). apply add_suppliers_sure in E10. eapply stem_inv_sure in I; [|exact E10].
  apply bind_Ok in H as (d11 & E11 & H). apply update_market_volumes_sure in E11. eapply stem_inv_sure in I; [|exact E11].
  apply bind_Ok in H as (d12 & E12 & H). eapply stem_inv_delete in I; [|exact E12].
  apply bind_Ok in H as (d13 & E13 & H). eapply stem_inv_delete in I; [|exact E13].
  apply bind_Ok in H as (d14 & E14 & H). apply allocate_retains in E14; [|by left]. eapply stem_inv_keeps in I; [|exact E14].
  apply bind_Ok in H as (d15 & E15 & H). apply group_link_sure in E15. eapply stem_inv_sure in I; [|exact E15].
  apply bind_Ok in H as (d16 & E16 & H). apply update_market_volumes_sure in E16. eapply stem_inv_sure in I; [|exact E16].
  apply bind_Ok in H as (d17 & E17 & H). apply allocate_retains in E17; [|by right]. eapply stem_inv_keeps in I; [|exact E17].
  apply bind_Ok in H as (d18 & E18 & H). apply rc_consumers_sure in E18. eapply stem_inv_sure in I; [|exact E18].
  apply bind_Ok in H as (d19 & E19 & H). eapply stem_consumers in I; [|exact E19].
  apply bind_Ok in H as (d20 & E20 & H). apply rp_codes_sure in E20. eapply stem_inv_sure in I; [|exact E20].
  apply Ok_inj in H as <-. by apply stem_inv_end.
Qed.
Lemma tech_stem ln ord t data out : link_markets_by_technology_level md5 ln ord t data = Ok out -> stemming data out.
Proof.
  intros H. unfold link_markets_by_technology_level in H.
  apply bind_Ok in H as (d1 & E1 & H). cbv zeta in H. apply bind_Ok in H as (d3 & E3 & H).
  apply bind_Ok in H as (d5 & E5 & H). apply bind_Ok in H as (d7 & E7 & H).
  assert (stem_inv data d7) as I.
  { apply codes_keeps in E7 as [E7 C7]. split; [|exact C7]. eapply stem_codes; [|exact E7].
    eapply stem_relabel; [|exact E5]. apply stem_kept. by eapply stem_early. }
  apply bind_Ok in H as (d8 & E8 & H). apply actualize_sure in E8. eapply stem_inv_sure in I; [|exact E8].
  apply bind_Ok in H as (d10 & E10 & H). apply add_suppliers_sure in E10. eapply stem_inv_sure in I; [|exact E10].
  apply bind_Ok in H as (d11 & E11 & H). apply prune_sure in E11. eapply stem_inv_sure in I; [|exact E11].
  apply bind_Ok in H as (d12 & E12 & H). apply update_market_volumes_sure in E12. eapply stem_inv_sure in I; [|exact E12].
  apply bind_Ok in H as (d13 & E13 & H). apply add_suppliers_sure in E13. eapply stem_inv_sure in I; [|exact E13].
  apply bind_Ok in H as (d14 & E14 & H). apply update_market_volumes_sure in E14. eapply stem_inv_sure in I; [|exact E14].
  apply bind_Ok in H as (d15 & E15 & H). apply allocate_retains in E15; [|by left]. eapply stem_inv_keeps in I; [|exact E15].
  eapply stem_inv_keeps in I; [|apply (retains_map (set_d_suppliers None)); intros d; apply sure_retains, sure_suppliers].
  apply bind_Ok in H as (d19 & E19 & H). eapply stem_consumers in I; [|exact E19].
  apply Ok_inj in H as <-. by apply stem_inv_end.
Qed.
End nonempty.

(** *** The end of the model *)
Definition outs (n : string) (es : list exchange) : Qc :=
  Qcsum (map e_amount (filter (fun e => is_output e /\ e_name e = n) es)).
Lemma net_parts n ds : net n ds = (outs n (d_exchanges ds) - demand n (d_exchanges ds))%Qc.
Proof. done. Qed.
Lemma bare_filter (P : exchange -> Prop) `{forall e, Decision (P e)} es :
  (forall e, P (bare e) <-> P e) -> (forall e, P e -> e_type e <> FromTechnosphere) ->
  map bare (filter P es) = filter P (bares es).
Proof.
  intros HB HT. unfold bares. induction es as [|e es IH]; [done|]. rewrite !filter_cons.
  destruct (decide (P e)) as [He|He].
  - rewrite (decide_True (P := e_type e <> FromTechnosphere)) by by apply HT. cbn [map]. rewrite filter_cons_True by by apply HB. by rewrite IH.
  - destruct (decide (e_type e <> FromTechnosphere)); [|done]. cbn [map]. rewrite filter_cons_False by by rewrite HB. done.
Qed.
Lemma others_filter (P : exchange -> Prop) `{forall e, Decision (P e)} d d' :
  (forall e, P (bare e) <-> P e) -> (forall e, P e -> e_type e <> FromTechnosphere) -> others d' = others d ->
  map bare (filter P (d_exchanges d')) = map bare (filter P (d_exchanges d)).
Proof. intros HB HT E. rewrite !others_bares in E. by rewrite !bare_filter, E. Qed.
Lemma bare_amounts es es' : map bare es' = map bare es -> map e_amount es' = map e_amount es.
Proof. intros E. apply (f_equal (map e_amount)) in E. by rewrite !map_map in E. Qed.
Lemma others_outs n d d' : others d' = others d -> outs n (d_exchanges d') = outs n (d_exchanges d).
Proof.
  intros E. unfold outs. f_equal. apply bare_amounts. apply others_filter; [done| |done].
  intros e [[Ht|Ht] _]; by rewrite Ht.
Qed.

Lemma sum_either (P A B : exchange -> Prop) `{forall e, Decision (P e)} `{forall e, Decision (A e)} `{forall e, Decision (B e)} es :
  (forall e, A e -> B e -> False) -> (forall e, P e <-> A e \/ B e) ->
  Qcsum (map e_amount (filter P es)) = (Qcsum (map e_amount (filter A es)) + Qcsum (map e_amount (filter B es)))%Qc.
Proof.
  intros HAB HP. induction es as [|e es IH]; [rewrite !filter_nil; cbn; ring|]. rewrite !filter_cons.
  destruct (decide (P e)) as [D|D], (decide (A e)) as [D1|D1], (decide (B e)) as [D2|D2];
    try (exfalso; pose proof (HP e); pose proof (HAB e); tauto); cbn [map]; unfold Qcsum in *; cbn [foldr]; rewrite IH; ring.
Qed.
Lemma marker_apart n : n <> (n ++ marker)%string.
Proof. intros E. apply (f_equal String.length) in E. rewrite str_app_length in E. cbn in E. lia. Qed.
Lemma called_parts n ds : net_called n ds =
  (outs n (d_exchanges ds) + outs (n ++ marker)%string (d_exchanges ds)
   - (demand n (d_exchanges ds) + demand (n ++ marker)%string (d_exchanges ds)))%Qc.
Proof.
  assert (forall e : exchange, e_name e = n -> e_name e = (n ++ marker)%string -> False) as Hd.
  { intros e E1 E2. apply (marker_apart n). congruence. }
  unfold net_called, outs, demand.
  rewrite (sum_either (fun e => is_output e /\ called n e) (fun e => is_output e /\ e_name e = n)
    (fun e => is_output e /\ e_name e = (n ++ marker)%string)).
  2:{ intros e [_ E1] [_ E2]. by apply (Hd e). }
  2:{ intros e. unfold called. tauto. }
  rewrite (sum_either (fun e => e_type e = FromTechnosphere /\ called n e) (fun e => e_type e = FromTechnosphere /\ e_name e = n)
    (fun e => e_type e = FromTechnosphere /\ e_name e = (n ++ marker)%string)).
  2:{ intros e [_ E1] [_ E2]. by apply (Hd e). }
  2:{ intros e. unfold called. tauto. }
  done.
Qed.
Lemma marked_not_gas n : (n ++ marker)%string <> "refinery gas"%string.
Proof. intros E. apply (f_equal String.length) in E. rewrite str_app_length in E. cbn in E. lia. Qed.
Lemma descends_called a d n : descends a d -> ~ is_market a -> n <> "refinery gas"%string -> net_called n d = net_called n a.
Proof.
  intros [(_ & H1 & _) H2] Ht Hn. destruct (H2 Ht) as [_ H3]. rewrite !called_parts, !H3 by (done || apply marked_not_gas).
  by rewrite !(others_outs _ a d H1).
Qed.
Lemma descends_net a d n : descends a d -> ~ is_market a -> n <> "refinery gas"%string -> net n d = net n a.
Proof.
  intros [(_ & H1 & _) H2] Ht Hn. destruct (H2 Ht) as [_ H3]. rewrite !net_parts, !H3 by done.
  by rewrite !(others_outs _ a d H1).
Qed.
Lemma descends_once a d : descends a d -> ~ is_market a -> marked_once a -> marked_once d.
Proof.
  intros [_ H] Ht HM. destruct (H Ht) as [HN _]. unfold marked_once, within_names in *. rewrite Forall_forall in *. intros e He x E.
  destruct (elem_of_list_fmap_2 _ _ _ (HN e He)) as (e0 & E0 & He0). eapply (HM e0 He0). congruence.
Qed.
Lemma strip_called n e : ~ occurs_in marker n -> (forall a, e_name e = (a ++ marker)%string -> ~ occurs_in marker a) ->
  strip_marker (e_name e) = n <-> called n e.
Proof.
  intros Hn He. unfold called. split.
  - intros E. destruct (str_endswith marker (e_name e)) eqn:Em.
    + apply endswith_spec in Em as (a & Ea). right. rewrite Ea in E |- *. rewrite strip_marked in E by by apply He. by rewrite E.
    + left. rewrite <- E. symmetry. apply strip_unmarked. intros a Ea.
      assert (str_endswith marker (e_name e) = true) by (apply endswith_spec; eauto). congruence.
  - intros [->|E]; [by apply strip_free|]. rewrite E. by apply strip_marked.
Qed.
Lemma renamed_net n d : ~ occurs_in marker n -> marked_once d -> net n (renamed d) = net_called n d.
Proof.
  intros Hn HM. unfold net, net_called. cbn [d_exchanges renamed set_d_refprod set_d_exchanges].
  assert (forall P : exchange -> Prop, forall HD : (forall e, Decision (P e)), (forall e s, P (set_e_name s e) <-> P e) ->
    map e_amount (filter (fun e => P e /\ e_name e = n) (map (fun e => set_e_name (strip_marker (e_name e)) e) (d_exchanges d))) =
    map e_amount (filter (fun e => P e /\ called n e) (d_exchanges d))) as H.
  { intros P HD HP. unfold marked_once in HM. induction (d_exchanges d) as [|e es IH]; [done|].
    apply Forall_cons in HM as [He HM]. cbn [map]. rewrite !filter_cons.
    pose proof (strip_called n e Hn He) as Hs. pose proof (HP e (strip_marker (e_name e))) as Hp. cbn [e_name set_e_name].
    destruct (decide (P (set_e_name _ e) /\ _)) as [D|D], (decide (P e /\ _)) as [D'|D']; try (exfalso; tauto).
    - cbn [map]. by rewrite IH.
    - by apply IH. }
  by rewrite !H.
Qed.
Lemma scaled_net k n es es' d : Forall2 (scaled_by k) es es' ->
  net n (set_d_exchanges es' d) = (net n (set_d_exchanges es d) * k)%Qc.
Proof.
  intros HF. unfold net. cbn [d_exchanges set_d_exchanges].
  assert (forall P : exchange -> Prop, forall HD : (forall e, Decision (P e)), (forall e e', e_type e' = e_type e -> e_name e' = e_name e -> P e' <-> P e) ->
    Qcsum (map e_amount (filter P es')) = (Qcsum (map e_amount (filter P es)) * k)%Qc) as H.
  { intros P HD HP. induction HF as [|e e' es es' [Ha Hs] _ IH]; [rewrite !filter_nil; cbn; ring|].
    pose proof (sameb_fields _ _ Hs) as (Hn & _ & _ & _ & _ & _ & Ht & _). pose proof (HP e e' Ht Hn) as Hp.
    rewrite !filter_cons. destruct (decide (P e)), (decide (P e')); try (exfalso; tauto); [|exact IH].
    cbn [map]. unfold Qcsum in *. cbn [foldr]. rewrite IH, Ha. ring. }
  rewrite !H; [ring|..].
  - intros e e' -> ->. done.
  - intros e e' Ht Hn. unfold is_output. by rewrite Ht, Hn.
Qed.

(** One exchange after the end of the model. *)
Definition ended (f : string -> string) (k : Qc) (e e' : exchange) : Prop :=
  exists e1, flipped (set_e_name (f (e_name e)) e) e1 /\ scaled_by k e1 e'.
Lemma flipped_type (P : etype -> Prop) e e1 : ~ P Byproduct -> ~ P FromTechnosphere -> flipped e e1 ->
  P (e_type e) <-> P (e_type e1).
Proof.
  intros H1 H2 [[(Hb & _) (Ht & _)]|[_ ->]]; [|done]. rewrite Hb, Ht. tauto.
Qed.
Lemma ended_type (P : etype -> Prop) f k e e' : ~ P Byproduct -> ~ P FromTechnosphere -> ended f k e e' ->
  P (e_type e) <-> P (e_type e').
Proof.
  intros H1 H2 (e1 & Hf & _ & Hs). pose proof (sameb_fields _ _ Hs) as (_ & _ & _ & _ & _ & _ & -> & _).
  apply (flipped_type P) in Hf; [|done|done]. exact Hf.
Qed.
Lemma ended_kept f k e e' : e_type e <> Byproduct -> ended f k e e' ->
  e_type e' = e_type e /\ e_id e' = e_id e /\ e_unit e' = e_unit e /\ e_compartment e' = e_compartment e /\
  e_subcompartment e' = e_subcompartment e /\ e_name e' = f (e_name e) /\ e_amount e' = (e_amount e * k)%Qc.
Proof.
  intros Hb (e1 & [[(Hc & _) _]|[_ ->]] & Ha & Hs); [by destruct (Hb Hc)|].
  pose proof (sameb_fields _ _ Hs) as (A1 & _ & A2 & A3 & A4 & A5 & A6 & _).
  rewrite A1, A2, A3, A4, A5, A6, Ha. by repeat split.
Qed.
Lemma bare_kept es es' : map bare es' = map bare es -> Forall2 (fun e e' => bare e' = bare e) es es'.
Proof.
  revert es'. induction es as [|e es IH]; intros [|e' es'] B; try discriminate; [constructor|].
  cbn [map] in B. apply both_parts in B as [B1 B2]. constructor; [done|by apply IH].
Qed.
Lemma elementary_ended f k a d es :
  others d = others a -> Forall2 (ended f k) (d_exchanges d) es ->
  (forall s, (forall x, s <> (x ++ marker)%string) -> f s = s) ->
  Forall2 (times k) (filter elementary (d_exchanges a)) (filter elementary es).
Proof.
  intros HO HE Hf.
  assert (map bare (filter elementary (d_exchanges d)) = map bare (filter elementary (d_exchanges a))) as HB.
  { apply others_filter; [done| |done]. intros e [Ht|Ht]; by rewrite Ht. }
  apply (filter_Forall2 elementary) in HE.
  2:{ intros e e' He. symmetry. apply (ended_type (fun t => t = FromEnvironment \/ t = ToEnvironment) f k); [naive_solver..|done]. }
  assert (Forall elementary (filter elementary (d_exchanges d))) as Hel.
  { apply Forall_forall. intros e He. by apply elem_of_list_filter in He as [? _]. }
  apply bare_kept in HB. revert HB HE Hel. generalize (filter elementary (d_exchanges a)) as l1.
  generalize (filter elementary (d_exchanges d)) as l2. generalize (filter elementary es) as l3. clear -Hf.
  intros l3 l2 l1 HB. revert l3. induction HB as [|e e1 l1 l2 H _ IH]; intros l3 HE Hel.
  - apply Forall2_nil_inv_l in HE as ->. constructor.
  - apply Forall2_cons_inv_l in HE as (e' & l & E & HE & ->). apply Forall_cons in Hel as [He Hel]. constructor; [|by apply IH].
    apply ended_kept in E as (A1 & A2 & A3 & A4 & A5 & A6 & A7); [|destruct He as [He|He]; rewrite He; done].
    assert (forall X (g : exchange -> X), (forall x, g (bare x) = g x) -> g e1 = g e) as Hg.
    { intros X g Hx. rewrite <- Hx, H. apply Hx. }
    unfold times. rewrite A1, A2, A3, A4, A5, A6, A7. rewrite (Hg _ e_type), (Hg _ e_id), (Hg _ e_unit), (Hg _ e_compartment), (Hg _ e_subcompartment),
      (Hg _ e_name), (Hg _ e_amount) by done. repeat split. apply Hf.
Qed.
Lemma reference_ended f k a d es rp' :
  others d = others a -> Forall2 (ended f k) (d_exchanges d) es -> filter is_refproduct es = [rp'] ->
  (forall s, (forall x, s <> (x ++ marker)%string) -> f s = s) ->
  exists rp, filter is_refproduct (d_exchanges a) = [rp] /\ times k rp rp'.
Proof.
  intros HO HE Hrp Hf.
  assert (map bare (filter is_refproduct (d_exchanges d)) = map bare (filter is_refproduct (d_exchanges a))) as HB.
  { apply others_filter; [done| |done]. intros e Ht. unfold is_refproduct in Ht. by rewrite Ht. }
  apply (filter_Forall2 is_refproduct) in HE.
  2:{ intros e e' He. symmetry. apply (ended_type (fun t => t = RefProduct) f k); done. }
  rewrite Hrp in HE. apply Forall2_cons_inv_r in HE as (rp1 & l & E & HE & El). apply Forall2_nil_inv_r in HE as ->.
  rewrite El in HB. apply bare_kept in HB. apply Forall2_cons_inv_r in HB as (rp & l & Eb & HB & ->). apply Forall2_nil_inv_r in HB as ->.
  exists rp. split; [done|]. assert (rp1 ∈ filter is_refproduct (d_exchanges d)) as Hin by (rewrite El; by left).
  apply elem_of_list_filter in Hin as [Hin _]. unfold is_refproduct in Hin.
  apply ended_kept in E as (A1 & A2 & A3 & A4 & A5 & A6 & A7); [|by rewrite Hin].
  assert (forall X (g : exchange -> X), (forall x, g (bare x) = g x) -> g rp1 = g rp) as Hg.
  { intros X g Hx. rewrite <- Hx, Eb. apply Hx. }
  unfold times. rewrite A1, A2, A3, A4, A5, A6, A7. rewrite (Hg _ e_type), (Hg _ e_id), (Hg _ e_unit), (Hg _ e_compartment), (Hg _ e_subcompartment),
    (Hg _ e_name), (Hg _ e_amount) by done. repeat split. apply Hf.
Qed.
Lemma steps_balance w a d ds : descends a d -> ~ is_market a -> marked_once a -> steps_of w d ds ->
  frame ds = frame a /\ d_code ds = d_code d /\ per_unit net_called a ds.
Proof.
  intros HD Ht HM (d1 & d2 & H1 & H2 & H3). pose proof HD as [(HF & HO & _) _].
  assert (~ is_market d) as Htd by (unfold is_market; rewrite (frame_type a d HF); exact Ht).
  pose proof H1 as H1'. apply flip_spec in H1 as (es1 & -> & H1).
  apply normalize_spec in H2 as (rp1 & k & es2 & Hrp & _ & Hk & -> & HS & _).
  apply adjust_spec in H3 as [[_ ->]|[(rp & Hm & _)|(rp & es & (Hm & _) & _)]].
  2,3: (exfalso; change (d_type d = MarketActivity) in Hm; apply Htd; by left).
  split; [exact HF|]. split; [done|].
  cbn [d_exchanges set_d_exchanges renamed set_d_refprod] in H1, Hrp, HS.
  assert (forall k es2, Forall2 (scaled_by k) es1 es2 -> Forall2 (ended strip_marker k) (d_exchanges d) es2) as HE.
  { clear -H1. intros k es2 HS. revert es1 es2 H1 HS. induction (d_exchanges d) as [|e es IH]; intros es1 es2 H1 HS.
    - apply Forall2_nil_inv_l in H1 as ->. apply Forall2_nil_inv_l in HS as ->. constructor.
    - cbn [map] in H1. apply Forall2_cons_inv_l in H1 as (e1 & l1 & E1 & H1 & ->).
      apply Forall2_cons_inv_l in HS as (e2 & l2 & E2 & HS & ->). constructor; [by exists e1|by eapply IH]. }
  assert (Forall2 (scaled_by 1) es1 es1) as Hone.
  { clear. induction es1 as [|e es IH]; constructor; [|done]. split; [ring|apply same_besides_refl]. }
  assert (forall s, (forall x, s <> (x ++ marker)%string) -> strip_marker s = s) as Hstrip.
  { intros s Hs. by apply strip_unmarked. }
  destruct (reference_ended _ _ a d _ _ HO (HE 1%Qc es1 Hone) Hrp Hstrip) as (rp & Hrpa & (_ & _ & _ & _ & _ & _ & Ea)).
  assert (exists rp', filter is_refproduct es2 = [rp']) as (rp' & Hrp').
  { pose proof HS as HS'. apply (filter_Forall2 is_refproduct) in HS'.
    2:{ intros e e' [_ He]. pose proof (sameb_fields _ _ He) as (_ & _ & _ & _ & _ & _ & Hty & _). unfold is_refproduct. by rewrite Hty. }
    rewrite Hrp in HS'. apply Forall2_cons_inv_l in HS' as (rp' & l & _ & HS' & E). apply Forall2_nil_inv_l in HS' as ->. eauto. }
  destruct (reference_ended _ _ a d _ _ HO (HE k es2 HS) Hrp' Hstrip) as (rp0 & Hrp0 & HT).
  rewrite Hrpa in Hrp0. apply both_parts in Hrp0 as [<- _].
  exists rp, rp', k. split; [exact Hrpa|]. split; [exact Hrp'|]. split; [exact HT|]. split.
  - assert (e_amount rp = e_amount rp1) as -> by (rewrite Ea; ring). exact Hk.
  - split.
    + cbn [d_exchanges set_d_exchanges renamed set_d_refprod]. eapply elementary_ended; [exact HO|by apply HE|].
      intros s Hs. by apply strip_unmarked.
    + intros n Hn Hg.
      change (net n (set_d_exchanges es2 (renamed d)) = (net_called n a * k)%Qc).
      rewrite (scaled_net k n es1 es2 (renamed d) HS). f_equal.
      change (set_d_exchanges es1 (renamed d)) with (set_d_exchanges es1 (renamed d)) in H1'.
      rewrite (flip_net _ _ n H1'). rewrite renamed_net; [|done|by eapply descends_once].
      by apply descends_called.
Qed.
Lemma Forall_sublist (P : dataset -> Prop) l k : sublist l k -> Forall P k -> Forall P l.
Proof.
  induction 1 as [|x l k _ IH|x l k _ IH]; intros H; [constructor|..]; apply Forall_cons in H as [H1 H2]; [constructor; auto|auto].
Qed.
Lemma cutoff_balance w data out prepared allocated : (forall s, w_md5 w s <> ""%string) ->
  cutoff_prepared w data = Ok prepared -> cutoff_allocated w prepared = Ok allocated -> Forall marked_once allocated ->
  cutoff_model w data = Ok out ->
  exists base, sublist base allocated /\ filter local base = filter local allocated /\
    Forall2 (fun a ds => frame ds = frame a /\ (~ is_market ds -> per_unit net_called a ds)) base out.
Proof.
  intros Hmd Hp Ha HM H. apply cutoff_model_parts in H as (p & a & linked & Hp' & Ha' & HL & HF).
  rewrite Hp in Hp'. apply Ok_inj in Hp' as <-. rewrite Ha in Ha'. apply Ok_inj in Ha' as <-.
  apply pv_stem in HL as (base & HS & HB & Hloc); [|done]. exists base. split; [done|]. split; [done|].
  assert (Forall marked_once base) as HMb.
  { by eapply Forall_sublist. }
  clear -HB HF HMb. revert out HF. induction HB as [|a d base linked HD _ IH]; intros out HF.
  - apply Forall2_nil_inv_l in HF as ->. constructor.
  - apply Forall2_cons_inv_l in HF as (ds & l & HS & HF & ->). apply Forall_cons in HMb as [Hm HMb]. constructor; [|by apply IH].
    assert (frame ds = frame a) as Hf.
    { pose proof HD as [(Hf & _) _]. rewrite <- Hf. destruct HS as (d1 & d2 & H1 & H2 & H3). apply flip_spec in H1 as (es1 & -> & _).
      apply normalize_same in H2 as (es2 & -> & _). apply adjust_same in H3 as (es3 & -> & _). done. }
    split; [done|]. intros Ht. eapply steps_balance; [exact HD| |done|exact HS]. unfold is_market. rewrite <- (frame_type _ _ Hf). exact Ht.
Qed.
Lemma consequential_balance w data out prepared : (forall s, w_md5 w s <> ""%string) ->
  consequential_prepared w data = Ok prepared -> consequential_model w data = Ok out ->
  exists base, sublist base prepared /\ filter local base = filter local prepared /\
    Forall2 (fun a ds => frame ds = frame a /\ (~ is_market ds -> per_unit net a ds)) base out.
Proof.
  intros Hmd Hp H. apply consequential_parts in H as (p & linked & Hp' & HL & HF).
  rewrite Hp in Hp'. apply Ok_inj in Hp' as <-.
  apply tech_stem in HL as (base & HS & HB & Hloc); [|done]. exists base. split; [done|]. split; [done|].
  clear -HB HF. revert out HF. induction HB as [|a d base linked HD _ IH]; intros out HF.
  - apply Forall2_nil_inv_l in HF as ->. constructor.
  - apply Forall2_cons_inv_l in HF as (ds & l & HN & HF & ->). constructor; [|by apply IH].
    apply normalize_spec in HN as (rp1 & k & es2 & Hrp & _ & Hk & -> & HS & _).
    pose proof HD as [(Hf & HO & _) _]. split; [exact Hf|]. intros Ht.
    assert (~ is_market a) as Hta by (unfold is_market; rewrite <- (frame_type _ _ Hf); exact Ht).
    assert (map bare (filter is_refproduct (d_exchanges d)) = map bare (filter is_refproduct (d_exchanges a))) as HBr.
    { apply others_filter; [done| |done]. intros e Hr. unfold is_refproduct in Hr. by rewrite Hr. }
    rewrite Hrp in HBr. apply bare_kept in HBr. apply Forall2_cons_inv_r in HBr as (rp & l' & Eb & HBr & Er). apply Forall2_nil_inv_r in HBr as ->.
    pose proof HS as HS'. apply (filter_Forall2 is_refproduct) in HS'.
    2:{ intros e e' [_ He]. pose proof (sameb_fields _ _ He) as (_ & _ & _ & _ & _ & _ & Hty & _). unfold is_refproduct. by rewrite Hty. }
    rewrite Hrp in HS'. apply Forall2_cons_inv_l in HS' as (rp' & l2 & [Ha' Hs'] & HS' & E). apply Forall2_nil_inv_l in HS' as ->.
    assert (forall X (g : exchange -> X), (forall x, g (bare x) = g x) -> g rp1 = g rp) as Hg1.
    { intros X g Hx. rewrite <- Hx, Eb. apply Hx. }
    exists rp, rp', k. split; [done|]. split; [exact E|]. split.
    { pose proof (sameb_fields _ _ Hs') as (A1 & _ & A2 & A3 & A4 & A5 & A6 & _).
      unfold times. rewrite A1, A2, A3, A4, A5, A6, Ha'. rewrite (Hg1 _ e_type), (Hg1 _ e_id), (Hg1 _ e_unit), (Hg1 _ e_compartment),
          (Hg1 _ e_subcompartment), (Hg1 _ e_name), (Hg1 _ e_amount) by done. by repeat split. }
    split; [by rewrite <- (Hg1 _ e_amount)|]. split.
    + cbn [d_exchanges set_d_exchanges].
      assert (map bare (filter elementary (d_exchanges d)) = map bare (filter elementary (d_exchanges a))) as HBe.
      { apply others_filter; [done| |done]. intros e [He|He]; by rewrite He. }
      apply (filter_Forall2 elementary) in HS.
      2:{ intros e e' [_ He]. pose proof (sameb_fields _ _ He) as (_ & _ & _ & _ & _ & _ & Hty & _). unfold elementary. by rewrite Hty. }
      apply bare_kept in HBe. clear -HBe HS. revert HS. generalize (filter elementary es2) as l3. 
      induction HBe as [|e e1 l1 l2 H _ IH]; intros l3 HS.
      * apply Forall2_nil_inv_l in HS as ->. constructor.
      * apply Forall2_cons_inv_l in HS as (e' & l & [Ea Es] & HS & ->). constructor; [|by apply IH].
        assert (forall X (g : exchange -> X), (forall x, g (bare x) = g x) -> g e1 = g e) as Hg.
        { intros X g Hx. rewrite <- Hx, H. apply Hx. }
        pose proof (sameb_fields _ _ Es) as (A1 & _ & A2 & A3 & A4 & A5 & A6 & _).
        unfold times. rewrite A1, A2, A3, A4, A5, A6, Ea. rewrite (Hg _ e_type), (Hg _ e_id), (Hg _ e_unit), (Hg _ e_compartment),
          (Hg _ e_subcompartment), (Hg _ e_name), (Hg _ e_amount) by done. by repeat split.
    + intros n _ Hg. rewrite (scaled_net k n (d_exchanges d) es2 d HS). f_equal.
      assert (set_d_exchanges (d_exchanges d) d = d) as -> by by destruct d. by apply descends_net.
Qed.
