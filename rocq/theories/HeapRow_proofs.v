From stdpp Require Import gmap.
From Verif Require Import Configuration_proofs Base Types Utils Grouping GroupUpdate ActivityLinks Cutoff Topology Locations Heap Spec_Heap Heap_proofs HeapLinks HeapLinks_proofs HeapHard HeapHard_proofs
  HeapMarkets HeapMarkets_proofs HeapGroups Spec_HeapGroups HeapGroups_proofs HeapLinking HeapLinking_proofs HeapRow.

(** ** One dataset *)
Lemma set_pv_spec up h F a ds : wf h -> stands h F a ds -> NoDup F ->
  does (next h) F (set_pv_h up a) (let? rp := get_single_reference_product ds in let? _ := getkey "production volume" (e_pv rp) in Ok (set_rp_pv up ds))
    (fun h' _ ds' => stands h' F a ds') h.
Proof.
  intros Hw H Hnd. destruct (getD_eq _ _ _ _ H) as (exs & -> & Hg & He). unfold set_pv_h.
  eapply does_bind; [by eapply single_spec|done|nilF|]. intros x rp ? _ (-> & Hx & Hxin & _ & Huniq).
  eapply does_read; [by apply getE_eq|]. apply does_lift; [done|]. intros v _.
  apply NoDup_cons in Hnd as [Ha Hnd]. destruct H as (exs' & [= <-] & Hc & _).
  pose proof (mod_one (fun e => Ok (set_e_pv (option_map up (e_pv e)) e)) (fun e => bool_decide (e_type e = RefProduct)) h exs (d_exchanges ds) x Hw He Hnd Hxin) as Hm.
  assert (mapR (fun e => if bool_decide (e_type e = RefProduct) then Ok (set_e_pv (option_map up (e_pv e)) e) else Ok e) (d_exchanges ds)
    = Ok (map (fun e => if bool_decide (e_type e = RefProduct) then set_e_pv (option_map up (e_pv e)) e else e) (d_exchanges ds))) as Em.
  { rewrite <- mapR_pure. apply mapR_ext. intros e _. by destruct (bool_decide _). }
  cbv beta in Hm. rewrite Em in Hm. eapply does_as; [apply Hm|done| |].
  - intros z e Hz Hze. rewrite bool_decide_eq_true. by apply Huniq.
  - intros z ->%elem_of_list_singleton. left. by right.
  - intros h' [] (_ & _ & O) [HF _]. exists exs. split; [done|]. split; [|unfold set_rp_pv; by destruct ds].
    rewrite O; [rewrite Hc; unfold set_rp_pv; by destruct ds|by apply Hw; eexists|]. intros ->%elem_of_list_singleton. done.
Qed.
Lemma label_proof h Fs xs dss : wf h -> separate h Fs xs dss ->
  does (next h) (concat Fs) (label_h xs) (label_reference_product dss) (fun h' _ dss' => separate h' Fs xs dss') h.
Proof.
  intros Hw Hs. apply (iter_spec _ _ (modD_spec (fun ds => let? rp := get_single_reference_product ds in Ok (set_d_refprod (Some (e_name rp)) ds))
    ltac:(intros ds ds' H; apply bind_Ok in H as (? & _ & H); injection H as <-; by destruct ds)) h Fs xs dss Hw Hs).
Qed.
Lemma fake_proof h Fs xs dss : wf h -> separate h Fs xs dss ->
  does (next h) (concat Fs) (fake_pv_h xs) (assign_fake_pv_to_confidential_datasets dss) (fun h' _ dss' => separate h' Fs xs dss') h.
Proof.
  intros Hw Hs. unfold fake_pv_h, assign_fake_pv_to_confidential_datasets. apply iter_spec; [|done|done]. clear. intros h F a ds Hw H Hnd.
  eapply does_read; [by eapply readD_eq|]. destruct (is_type Transforming ds && _); [by apply set_pv_spec|by apply does_ret].
Qed.
Lemma pipeline_proof h Fs xs dss : wf h -> separate h Fs xs dss ->
  does (next h) (concat Fs) (pipeline_h xs) (Ok (correct_natural_gas_pipeline_location dss)) (fun h' _ dss' => separate h' Fs xs dss') h.
Proof.
  intros Hw Hs. unfold correct_natural_gas_pipeline_location. rewrite <- mapR_pure.
  apply (iter_spec _ _ (modD_spec (fun ds => Ok (if is_type Transforming ds && (d_name ds =? "transport, pipeline, long distance, natural gas")%string
                                && (d_location ds =? "RER w/o DE+NL+NO")%string
                             then set_d_location "RER w/o DE+NL+NO+RU" ds else ds))
    ltac:(intros ds ds' [= <-]; destruct (_ && _); by destruct ds)) h Fs xs dss Hw Hs).
Qed.
Lemma check_read h Fs xs dss : separate h Fs xs dss ->
  check_groups_h xs h = (iterR (fun ds => assertR (negb (is_type MarketGroup ds && (d_location ds =? "RoW")%string)) MarketGroupError) dss, h).
Proof.
  intros [H _]. unfold check_groups_h. induction H as [|F a ds Fs xs dss Ha _ IH]; [done|]. cbn [iterM iterR].
  match goal with |- bindM ?m _ h = _ => assert (m h = (assertR (negb (is_type MarketGroup ds && (d_location ds =? "RoW")%string)) MarketGroupError, h)) as E end.
  { by rewrite (bindM_read _ _ _ _ (readD_eq _ _ _ _ Ha)). }
  rewrite (bindM_eq _ _ _ _ _ E). by destruct (assertR _ _).
Qed.
Lemma codes_from md5 Fs xs : forall n k seen h cur, n = (length xs - k)%nat -> wf h -> separate h Fs xs cur ->
  does (next h) (concat Fs) (codes_h md5 seen (drop k xs)) (let? r := add_unique_codes_from md5 seen (drop k cur) in Ok (take k cur ++ r))
    (fun h' _ dss' => separate h' Fs xs dss') h.
Proof.
  induction n as [|n IH]; intros k seen h cur Hn Hw Hs; pose proof (separate_length _ _ _ _ Hs) as Hl.
  { rewrite !drop_ge by lia. cbn. rewrite app_nil_r, take_ge by lia. by apply does_ret. }
  destruct (lookup_lt_is_Some_2 cur k ltac:(lia)) as [d Hd]. destruct (lookup_lt_is_Some_2 xs k ltac:(lia)) as [a Ha].
  rewrite (drop_S _ _ _ Hd), (drop_S _ _ _ Ha). cbn [codes_h add_unique_codes_from].
  destruct (separate_at _ _ _ _ _ _ Hs Ha) as (F & c & _ & Hc & Hst & _). assert (c = d) as -> by congruence.
  eapply does_read; [by eapply readD_eq|]. cbv zeta. destruct (bool_decide _); [by apply does_err|].
  set (code := activity_hash md5 d).
  pose proof (at_index _ _ (modD_spec (fun d0 => Ok (set_d_code (Some code) d0)) ltac:(intros e e' [= <-]; by destruct e)) h Fs xs cur k a d Hw Hs Ha Hd) as Hm.
  eapply does_step; [exact Hm|done|by left|]. intros [] h1 O1 Hs1. assert (wf h1) as Hw1 by by eapply only_wf. assert (next h <= next h1)%nat by by eapply only_next.
  pose proof (IH (S k) (code :: seen) h1 _ ltac:(lia) Hw1 Hs1) as Hrest. cbv beta in Hrest. rewrite drop_insert_gt in Hrest by lia.
  rewrite (take_S_r _ _ (set_d_code (Some code) d)) in Hrest by (apply list_lookup_insert; lia). rewrite take_insert in Hrest by lia.
  destruct (add_unique_codes_from md5 (code :: seen) (drop (S k) cur)) as [r|e]; cbn [bind] in *.
  - rewrite <- app_assoc in Hrest. eapply does_weaken; [exact Hrest|done|by left|done].
  - eapply does_weaken; [exact Hrest|done|by left|done].
Qed.
Lemma codes_proof md5 h Fs xs dss : wf h -> separate h Fs xs dss ->
  does (next h) (concat Fs) (codes_h md5 [] xs) (add_unique_codes md5 dss) (fun h' _ dss' => separate h' Fs xs dss') h.
Proof.
  intros Hw Hs. pose proof (codes_from md5 Fs xs _ 0%nat [] h dss eq_refl Hw Hs) as H. rewrite !drop_0 in H. cbn [take app] in H.
  unfold add_unique_codes. by destruct (add_unique_codes_from md5 [] dss).
Qed.

Lemma refcode_spec h F a ds : wf h -> stands h F a ds -> NoDup F ->
  does (next h) F (refcode_h a) (let? _ := assertR (bool_decide (is_Some (d_code ds))) AssertionError in
    let? rp := get_single_reference_product ds in
    Ok (set_d_exchanges (map (fun e => if bool_decide (e_type e = RefProduct) then set_e_code (d_code ds) e else e) (d_exchanges ds)) ds))
    (fun h' _ ds' => stands h' F a ds') h.
Proof.
  intros Hw H Hnd. unfold refcode_h. eapply does_read; [by eapply readD_eq|]. apply does_lift; [done|]. intros [] _.
  destruct (getD_eq _ _ _ _ H) as (exs & -> & Hg & He).
  eapply does_bind; [by eapply single_spec|done|nilF|]. intros x rp ? _ (-> & Hx & Hxin & _ & Huniq).
  apply NoDup_cons in Hnd as [Ha Hnd]. destruct H as (exs' & [= <-] & Hc & _).
  pose proof (mod_one (fun e => Ok (set_e_code (d_code ds) e)) (fun e => bool_decide (e_type e = RefProduct)) h exs (d_exchanges ds) x Hw He Hnd Hxin) as Hm.
  assert (mapR (fun e => if bool_decide (e_type e = RefProduct) then Ok (set_e_code (d_code ds) e) else Ok e) (d_exchanges ds)
    = Ok (map (fun e => if bool_decide (e_type e = RefProduct) then set_e_code (d_code ds) e else e) (d_exchanges ds))) as Em.
  { rewrite <- mapR_pure. apply mapR_ext. intros e _. by destruct (bool_decide _). }
  cbv beta in Hm. rewrite Em in Hm. eapply does_as; [apply Hm|done| |].
  - intros z e Hz Hze. rewrite bool_decide_eq_true. by apply Huniq.
  - intros z ->%elem_of_list_singleton. left. by right.
  - intros h' [] (_ & _ & O) [HF _]. exists exs. split; [done|]. split; [|by destruct ds].
    rewrite O; [rewrite Hc; by destruct ds|by apply Hw; eexists|]. intros ->%elem_of_list_singleton. done.
Qed.
Lemma refcodes_proof h Fs xs dss : wf h -> separate h Fs xs dss ->
  does (next h) (concat Fs) (refcodes_h xs) (add_reference_product_codes dss) (fun h' _ dss' => separate h' Fs xs dss') h.
Proof. intros Hw Hs. apply (iter_spec _ _ refcode_spec h Fs xs dss Hw Hs). Qed.

(** ** Rest of the world *)
Section row.
Context (Fs : list (list nat)) (xs : list nat).
Notation addr_of := (addr_of xs).
Lemma exact_groups {K} (body : K * list nat -> M unit) (f : K -> list (nat * dataset) -> result (list (nat * dataset))) (G : list (K * list (nat * dataset))) :
  (forall g h cur, g ∈ G -> wf h -> separate h Fs xs cur -> (forall p, p ∈ g.2 -> cur !! p.1 = Some p.2) ->
    does (next h) (concat Fs) (body (g.1, map addr_of g.2)) (f g.1 g.2)
      (fun h' _ ups => separate h' Fs xs (update_all ups cur) /\ forall i, i ∈ map fst ups -> i ∈ map fst g.2) h) ->
  NoDup (concat (map (fun g => map fst g.2) G)) -> forall h cur, wf h -> separate h Fs xs cur ->
  (forall g p, g ∈ G -> p ∈ g.2 -> cur !! p.1 = Some p.2) ->
  does (next h) (concat Fs) (iterM body (map (fun g => (g.1, map addr_of g.2)) G)) (mapR (fun g => f g.1 g.2) G)
    (fun h' _ upss => separate h' Fs xs (update_all (concat upss) cur)) h.
Proof.
  induction G as [|g G IH]; intros Hb Hnd h cur Hw Hst Hcur; cbn [map iterM mapR].
  { by apply does_ret. }
  cbn [map concat] in Hnd. apply NoDup_app in Hnd as (_ & Hd & Hnd).
  eapply does_bind; [apply (Hb g h cur); [by left|done|done|intros p Hp; apply (Hcur g); [by left|done]]|done|by left|].
  intros [] ups h1 O1 [Hst1 Hin]. assert (wf h1) as Hw1 by by eapply only_wf. assert (next h <= next h1)%nat as L1 by by eapply only_next.
  eapply does_map; [eapply does_weaken; [apply (IH ltac:(intros; apply Hb; [by right|done..]) Hnd h1 _ Hw1 Hst1)|done|by left|by intros h2 a b _ H2; exact H2]|].
  - intros g' p Hg' Hp. rewrite update_all_other; [apply (Hcur g'); [by right|done]|]. intros Hi. apply (Hd p.1 (Hin _ Hi)).
    apply elem_of_concat. exists (map fst g'.2). split; [apply elem_of_list_fmap; by exists p|]. apply elem_of_list_fmap. by exists g'.
  - intros h2 [] upss _ H2. cbn [concat]. by rewrite update_all_app.
Qed.
Lemma relabel_glo_spec S h cur i d : wf h -> separate h Fs xs cur -> (forall p, p ∈ S -> cur !! p.1 = Some p.2) -> cur !! i = Some d ->
  does (next h) (concat Fs) (relabel_glo_h (map addr_of S) (addr_of (i, d)))
    (let region_specific := Qcsum (map (fun p => default 0%Qc (original_production_volume p.2)) (filterb (fun p : nat * dataset => bool_decide (p.2 <> d)) S)) in
     let? rp := get_single_reference_product d in
     let? v := getkey "production volume" (e_pv rp) in
     let glo' := set_rp_pv (fun v => set_v_amount (Qcmax (v_amount v - region_specific) 0) (set_v_global (Some (v_amount v)) v)) d in
     Ok [(i, set_d_location "RoW" glo')])
    (fun h' _ ups => separate h' Fs xs (update_all ups cur) /\ forall j, j ∈ map fst ups -> j = i) h.
Proof.
  intros Hw Hs HS Hi. pose proof (start Fs xs cur h Hs) as Hst. unfold relabel_glo_h.
  eapply does_read; [by apply (exact_read Fs xs cur h cur (i, d))|]. cbn [snd].
  assert (mapM readD (map addr_of S) h = (Ok (map snd S), h)) as Hr.
  { clear -HS Hst. induction S as [|p S IH]; [done|]. cbn [map mapM]. rewrite (bindM_read _ _ _ _ (exact_read Fs xs cur h cur p Hst (HS p ltac:(by left)))).
    by rewrite (bindM_read _ _ _ _ (IH ltac:(intros q Hq; apply HS; by right))). }
  eapply does_read; [exact Hr|]. cbv zeta. rewrite filterb_map, map_map.
  set (up := fun v => set_v_amount _ _).
  assert (xs !! i = Some (addr_of (i, d))) as Ha by by eapply (state_addr Fs xs cur h cur).
  assert (i < length cur)%nat as Li by by eapply lookup_lt_Some.
  pose proof (at_index (set_pv_h up) _ (set_pv_spec up) h Fs xs cur i (addr_of (i, d)) d Hw Hs Ha Hi) as Hm. cbv beta in Hm.
  destruct (get_single_reference_product d) as [rp|e]; cbn [bind] in Hm |- *.
  2: { destruct Hm as (r & h' & E & O & ->). exists (Err e), h'. split; [by rewrite (bindM_eq _ _ _ _ _ E)|]. split; [done|done]. }
  destruct (getkey "production volume" (e_pv rp)) as [v|e]; cbn [bind] in Hm |- *.
  2: { destruct Hm as (r & h' & E & O & ->). exists (Err e), h'. split; [by rewrite (bindM_eq _ _ _ _ _ E)|]. split; [done|done]. }
  eapply does_step; [exact Hm|done|by left|]. intros [] h1 O1 Hs1. assert (wf h1) as Hw1 by by eapply only_wf. assert (next h <= next h1)%nat by by eapply only_next.
  pose proof (at_index _ _ (modD_spec (fun d0 => Ok (set_d_location "RoW" d0)) ltac:(intros e e' [= <-]; by destruct e)) h1 Fs xs _ i (addr_of (i, d)) _ Hw1 Hs1 Ha ltac:(by apply list_lookup_insert)) as Hm2.
  cbv beta in Hm2. eapply does_as; [exact Hm2|done|by left|]. intros h2 [] _ H2. rewrite list_insert_insert in H2. split; [exact H2|].
  intros j Hj. by apply elem_of_list_singleton in Hj.
Qed.
Lemma relabel_group_spec k S h cur : wf h -> separate h Fs xs cur -> (forall p, p ∈ S -> cur !! p.1 = Some p.2) ->
  does (next h) (concat Fs) (relabel_group_h (map addr_of S)) (relabel_group k S)
    (fun h' _ ups => separate h' Fs xs (update_all ups cur) /\ forall i, i ∈ map fst ups -> i ∈ map fst S) h.
Proof.
  intros Hw Hs HS. pose proof (start Fs xs cur h Hs) as Hst.
  assert (does (next h) (concat Fs) (retM tt) (Ok []) (fun h' (_ : unit) ups => separate h' Fs xs (update_all ups cur) /\ forall i, i ∈ map fst ups -> i ∈ map fst S) h) as Hnone.
  { apply does_ret; [done|]. split; [done|]. intros i Hi. by apply elem_of_nil in Hi. }
  unfold relabel_group. destruct S as [|p S]; [exact Hnone|]. set (T := p :: S) in *.
  unfold relabel_group_h. change (map addr_of T) with (addr_of p :: map addr_of S) at 1. cbv iota.
  eapply does_read; [apply (exact_read Fs xs cur h cur p Hst); apply HS; by left|]. destruct (is_type MarketGroup p.2); [exact Hnone|].
  destruct S as [|q S]; [exact Hnone|]. change (map addr_of T) with (addr_of p :: addr_of q :: map addr_of S) at 1. cbv iota.
  assert (those_h (fun d => (d_location d =? "GLO")%string) (map addr_of T) h = (Ok (map addr_of (filterb is_glo T)), h)) as Ht
    by exact (those_exact Fs xs cur (fun d => (d_location d =? "GLO")%string) h cur T Hst HS).
  assert (T = p :: q :: S) as HT by done. clearbody T. clear HT.
  eapply does_read; [exact Ht|]. destruct (filterb is_glo T) as [|[i d] [|r R]] eqn:E; cbn [map]; [exact Hnone| |by apply does_err].
  assert ((i, d) ∈ T) as Hin by (assert ((i, d) ∈ filterb is_glo T) as H by (rewrite E; by left); by apply filterb_In in H as [H _]).
  eapply does_weaken; [apply (relabel_glo_spec T h cur i d Hw Hs HS); by apply (HS (i, d))|done|by left|].
  intros h' [] ups _ [H1 H2]. split; [done|]. intros j Hj. rewrite (H2 j Hj). apply elem_of_list_fmap. by exists (i, d).
Qed.
Lemma relabel_spec h dss : wf h -> separate h Fs xs dss ->
  does (next h) (concat Fs) (relabel_h xs) (relabel_global_to_row dss) (fun h' _ dss' => separate h' Fs xs dss') h.
Proof.
  intros Hw Hs. unfold relabel_h, relabel_global_to_row, update_groups. pose proof (start Fs xs dss h Hs) as Hst.
  assert (row_keys_h xs h = (fmapR (map (fun p => (p.1, addr_of p.2))) (keyed row_key dss), h)) as Hk.
  { unfold row_keys_h. rewrite <- (indexed_addr Fs xs dss h Hs) at 1.
    rewrite (concat_mapM_read _ (fun p : nat * dataset => let? k := row_key p.2 in Ok (match k with Some k => [(k, addr_of p)] | None => [] end)) h _ (indexed dss)).
    - f_equal. unfold keyed. generalize (indexed dss). intros l. induction l as [|p l IH]; [done|]. rewrite !concat_mapR_cons, IH. clear IH.
      destruct (row_key p.2) as [k|]; [|done]. cbn [bind]. destruct (concat_mapR _ l) as [zs|]; [|reflexivity]. cbn [bind fmapR]. rewrite map_app. by destruct k.
    - assert (forall p, p ∈ indexed dss -> dss !! p.1 = Some p.2) as Hi by (intros [i d] Hp; by apply elem_of_indexed).
      revert Hi. generalize (indexed dss). intros l Hi. induction l as [|p l IH]; [constructor|]. cbn [map]. constructor; [|apply IH; intros; apply Hi; by right].
      rewrite (bindM_read _ _ _ _ (exact_read _ _ _ _ _ _ Hst (Hi p ltac:(by left)))). unfold bindM, lift. by destruct (row_key p.2). }
  destruct (keyed row_key dss) as [ks|e] eqn:E; cbn [fmapR] in Hk.
  2: { exists (Err e), h. split; [by rewrite (bindM_eq _ _ _ _ _ Hk)|]. split; [by apply only_refl|done]. }
  eapply does_read; [exact Hk|]. cbn [bind]. rewrite groupby_map. destruct (keyed_given dss _ _ E) as [Hg Hnd].
  assert (NoDup (concat (map (fun g => map fst g.2) (groupby ks)))) as Hnd2.
  { assert (concat (map (fun g : (string * list string) * list (nat * dataset) => map fst g.2) (groupby ks)) = map fst (concat (map snd (groupby ks)))) as ->.
    { rewrite concat_map, map_map. done. }
    rewrite groupby_perm, map_map. exact Hnd. }
  eapply does_map; [apply (exact_groups (fun g => relabel_group_h g.2) relabel_group (groupby ks)); [|done|done|done|]|].
  - intros g h' cur Hgi Hw' Hs' Hcur. by apply relabel_group_spec.
  - intros g p Hgi Hp. apply Hg. rewrite <- groupby_perm. apply elem_of_concat. exists g.2. split; [done|]. apply elem_of_list_fmap. by exists g.
  - intros h' [] upss _ H'. exact H'.
Qed.
End row.
Lemma relabel_proof h Fs xs dss : wf h -> separate h Fs xs dss ->
  does (next h) (concat Fs) (relabel_h xs) (relabel_global_to_row dss) (fun h' _ dss' => separate h' Fs xs dss') h.
Proof. exact (relabel_spec Fs xs h dss). Qed.


(** ** The collection *)
Lemma filterb_const {A} (b : bool) (l : list A) : filterb (fun _ => b) l = if b then l else [].
Proof. unfold filterb. induction l as [|x l IH]; [by destruct b|]. cbn. destruct b; [by rewrite IH|done]. Qed.
Lemma unlinked_refines : refines unlinked_h (fun ds => Ok [set_d_exchanges (filterb (fun _ => dataset_code_truthy ds) (d_exchanges ds)) ds]).
Proof.
  intros h F a ds Hw H Hnd. unfold unlinked_h. eapply does_read; [by eapply readD_eq|].
  destruct (getD_eq _ _ _ _ H) as (exs & -> & Hg & He). eapply does_read; [exact Hg|]. cbn [snd].
  assert (a < next h)%nat as La by (eapply stands_lt; [done|exact H|by left]).
  destruct H as (exs' & [= <-] & Hc & _). apply NoDup_cons in Hnd as [Ha Hnd].
  eapply does_step; [by eapply set_exs_spec|done|intros z ->%elem_of_list_singleton; left; by left|]. intros [] h1 O1 Hc1.
  assert (wf h1) as Hw1 by by eapply only_wf. apply does_ret; [done|].
  assert (Forall2 (holds h1) exs (d_exchanges ds)) as He1.
  { eapply Forall2_holds_only; [exact O1| |exact He]. intros z Hz. split; [|by intros ->%elem_of_list_singleton].
    apply elem_of_list_lookup in Hz as [i Hi]. destruct (Forall2_lookup_l _ _ _ _ _ He Hi) as (e & _ & Hh). apply Hw. by eexists. }
  exists [a :: filterb (fun _ => dataset_code_truthy ds) exs]. split.
  - split; [constructor; [|constructor]|].
    + exists (filterb (fun _ => dataset_code_truthy ds) exs). split; [done|]. split; [rewrite Hc1; by destruct ds|].
      replace (d_exchanges (set_d_exchanges (filterb (fun _ => dataset_code_truthy ds) (d_exchanges ds)) ds)) with (filterb (fun _ => dataset_code_truthy ds) (d_exchanges ds)) by by destruct ds.
      rewrite !filterb_const. destruct (dataset_code_truthy ds); [done|constructor].
    + cbn [concat]. rewrite app_nil_r, filterb_const. destruct (dataset_code_truthy ds); [by constructor|constructor; [by intros ?%elem_of_nil|constructor]].
  - intros x Hx. left. cbn [concat] in Hx. rewrite app_nil_r in Hx. apply elem_of_cons in Hx as [->|Hx]; [by left|]. right. by apply filterb_In in Hx as [Hx _].
Qed.
Definition linking_values (ln : Qc -> Qc) (ord : gset string -> list string) (t : topo) (dss : list dataset) : result (list dataset) :=
  let? data := actualize_activity_links dss in
  let? data := add_recycled_content_suppliers_to_markets ord t data in
  let? data := add_suppliers_to_markets ord t Transforming MarketActivity data in
  let? data := update_market_production_volumes t MarketActivity data in
  let? data := delete_global_with_zero_pv_when_regional_present MarketActivity data in
  let? data := delete_global_with_zero_pv_when_regional_present Transforming data in
  let? data := allocate_all_market_suppliers MarketActivity data in
  let? data := link_market_group_suppliers t data in
  let? data := update_market_production_volumes t MarketGroup data in
  let? data := allocate_all_market_suppliers MarketGroup data in
  let? data := link_consumers_to_recycled_content_activities data in
  link_consumers_to_markets ln t data.
Lemma in_parts md5 ln ord t dss : link_markets_by_pv md5 ln ord t dss =
  let? data := label_reference_product dss in
  let? data := Ok (delete_whitelisted_zero_pv_market_datsets data) in
  let? data := assign_fake_pv_to_confidential_datasets data in
  let? data := Ok (correct_natural_gas_pipeline_location data) in
  let? data := relabel_global_to_row data in
  let? data := check_no_row_market_groups data in
  let? data := add_unique_codes md5 data in
  let? data := linking_values ln ord t data in
  let? data := add_reference_product_codes data in
  Ok (log_and_delete_unlinked_exchanges data).
Proof. unfold link_markets_by_pv, linking_values. in_order. Qed.
Lemma link_all_ends md5 ln ord t h xs dss : wf h -> apart h xs dss ->
  ends apart (link_all_h md5 ln ord t xs) (link_markets_by_pv md5 ln ord t dss) h.
Proof.
  intros Hw Ha. rewrite in_parts. unfold link_all_h.
  assert (forall (m : M unit) (v : list dataset -> result (list dataset)) xs,
    (forall h Fs dss, wf h -> separate h Fs xs dss -> does (next h) (concat Fs) m (v dss) (fun h' _ dss' => separate h' Fs xs dss') h) ->
    forall h dss, wf h -> apart h xs dss -> ends (fun h' _ => apart h' xs) m (v dss) h) as Hsep.
  { intros m v ys Hm h' d Hw' [Fs Hs]. eapply ends_does; [done|by apply (Hm h' Fs d)|]. intros h'' a b H. by exists Fs. }
  eapply ends_bind; [apply (Hsep _ _ xs); [intros; by apply label_proof|done|done]|]. clear h Hw Ha dss. intros h [] dss Hw Ha.
  eapply ends_bind with (Q := apart).
  { destruct Ha as [Fs Hs].
    destruct (those_separate (fun ds => negb (is_type MarketActivity ds && bool_decide (d_name ds ∈ deletable_markets) && (d_location ds =? "GLO")%string)) h Fs xs dss Hs)
      as (Fs' & ys & E & Hs' & _). exists (Ok ys), h. split; [exact E|]. split; [done|]. by exists Fs'. }
  clear h Hw Ha dss xs. intros h xs dss Hw Ha.
  eapply ends_bind; [apply (Hsep _ _ xs); [intros; by apply fake_proof|done|done]|]. clear h Hw Ha dss. intros h [] dss Hw Ha.
  eapply ends_bind; [apply (Hsep _ (fun d => Ok (correct_natural_gas_pipeline_location d)) xs); [intros; by apply pipeline_proof|done|done]|]. clear h Hw Ha dss. intros h [] dss Hw Ha.
  eapply ends_bind; [apply (Hsep _ _ xs); [intros; by apply relabel_proof|done|done]|]. clear h Hw Ha dss. intros h [] dss Hw Ha.
  eapply (ends_bind (fun h' _ => apart h' xs)).
  { pose proof Ha as [Fs Hs]. unfold check_no_row_market_groups.
    exists (iterR (fun ds => assertR (negb (is_type MarketGroup ds && (d_location ds =? "RoW")%string)) MarketGroupError) dss), h.
    split; [by eapply check_read|]. split; [done|]. by destruct (iterR _ dss). }
  clear h Hw Ha dss. intros h [] dss Hw Ha.
  eapply ends_bind; [apply (Hsep _ _ xs); [intros; by apply codes_proof|done|done]|]. clear h Hw Ha dss. intros h [] dss Hw Ha.
  eapply ends_bind; [by apply linking_ends|]. clear h Hw Ha dss xs. intros h xs dss Hw Ha.
  eapply ends_bind; [apply (Hsep _ _ xs); [intros; by apply refcodes_proof|done|done]|]. clear h Hw Ha dss. intros h [] dss Hw Ha.
  destruct Ha as [Fs Hs].
  assert (concat_mapR (fun ds => Ok [set_d_exchanges (filterb (fun _ => dataset_code_truthy ds) (d_exchanges ds)) ds]) dss = Ok (log_and_delete_unlinked_exchanges dss)) as <-.
  { clear. induction dss as [|ds dss IH]; [done|]. by rewrite concat_mapR_cons, IH. }
  eapply ends_does; [done|apply (concat_map_spec _ _ unlinked_refines h Fs xs dss Hw Hs)|]. intros h' ys b (Fs' & H & _). by exists Fs'.
Qed.
Lemma link_all_run_proof md5 ln ord t dss :
  same_outcome ((let! xs := mapM store dss in let! ys := link_all_h md5 ln ord t xs in mapM readD ys) nothing).1 (link_markets_by_pv md5 ln ord t dss).
Proof.
  destruct (stores_proof nothing dss wf_nothing) as (r & h1 & E & O1 & xs & -> & Fs & Hs & _). rewrite (bindM_eq _ _ _ _ _ E).
  assert (wf h1) as Hw1 by by eapply only_wf. destruct (link_all_ends md5 ln ord t h1 xs dss Hw1 ltac:(by exists Fs)) as (r2 & h2 & E2 & Hw2 & H2).
  rewrite (bindM_eq _ _ _ _ _ E2). clear E2. revert H2. generalize (link_markets_by_pv md5 ln ord t dss). intros v H2.
  destruct r2 as [ys|e], v as [d|e']; try done. destruct H2 as [Fs2 Hs2]. by rewrite (reads_spec _ _ _ _ Hs2).
Qed.
