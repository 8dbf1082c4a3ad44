(** Proofs for C35: what becomes of the inputs of consumers. *)
From Verif Require Import Base Types Uncertainty Uncertainty_proofs Utils Spec_Utils Utils_proofs Grouping GroupUpdate
  Topology Spec_Topology Topology_proofs Locations Spec_RestOfWorld RestOfWorld_proofs
  Spec_Markets Markets_proofs Spec_Mix Mix_proofs Spec_Consumers Consumers_proofs SingleOutput_proofs Waste_proofs.

(** *** Candidates *)
Lemma candidates_spec data ks before name c :
  keyed (typed_refprod [MarketActivity; MarketGroup]) data = Ok ks ->
  (name = "refinery gas"%string -> sold data name) ->
  candidates_for (map (fun g => (g.1, map snd g.2)) (groupby ks)) before name = Ok c ->
  c = filter (sells name) data.
Proof.
  intros Hks Hrg H. unfold candidates_for in H.
  destruct (keyed_Ok _ _ _ Hks) as (_ & Hkeys & Hwith).
  destruct (groupby_spec ks) as (_ & Hgk & Hgx).
  assert (forall k d, key_of (typed_refprod [MarketActivity; MarketGroup]) d = Some k <-> sells k d) as Hsell.
  { intros k d. rewrite typed_refprod_key. unfold sells. set_solver. }
  destruct (List.find _ _) as [g|] eqn:E.
  - apply Ok_inj in H as <-. apply List.find_some in E as [E1 E2].
    apply String.eqb_eq in E2. apply elem_of_list_In, elem_of_list_fmap in E1 as ([k xs] & -> & E1).
    cbn in E2. subst k. cbn [fst snd]. apply Hgx in E1 as [_ ->]. rewrite Hwith, members_snd.
    apply list_filter_iff. intros d. apply Hsell.
  - exfalso. assert (~ sold data name) as Hno.
    { intros Hs. apply Exists_exists in Hs as (m & Hm & Hs).
      assert (name ∈ map fst ks) as Hin.
      { apply Hkeys. exists m. split; [done|]. apply typed_refprod_Ok. left.
        destruct Hs as [Hs1 Hs2]. rewrite Hs2. split; [set_solver|]. split; [by eexists|done]. }
      apply Hgk, elem_of_list_fmap in Hin as ([k xs] & -> & Hin).
      eapply List.find_none in E; [|apply elem_of_list_In, elem_of_list_fmap; exists (k, xs); split; [reflexivity|exact Hin]].
      cbn in E. by rewrite String.eqb_refl in E. }
    destruct (String.eqb_spec name "refinery gas") as [Hn|Hn]; [|discriminate]. by apply Hno, Hrg.
Qed.

Lemma sellers_filter kind product data : kind = MarketActivity \/ kind = MarketGroup ->
  filterb (is_type kind) (filter (sells product) data) = sellers kind product data.
Proof.
  intros Hk. rewrite (filterb_filter (fun d => d_type d = kind)) by done.
  rewrite list_filter_filter. unfold sellers. apply list_filter_iff. intros d. unfold sells. 
  destruct Hk as [-> | ->]; naive_solver.
Qed.

Lemma choose_markets_spec t loc crow data product f ms :
  Forall (fun d => known t (d_location d)) data ->
  (forall d, d ∈ data -> d_type d = MarketGroup -> d_location d <> "RoW"%string) ->
  consumer_row_fits t loc crow f ->
  choose_markets t loc crow (filter (sells product) data) = Ok ms ->
  exists found,
    chosen_places t (map d_location (sellers MarketActivity product data))
                    (map d_location (sellers MarketGroup product data)) loc f found /\
    Forall2 (seller_at product data) found ms.
Proof.
  intros Hk Hg Hf H. unfold choose_markets in H.
  rewrite !sellers_filter in H by tauto. apply bind_Ok in H as (found & Hfound & H).
  exists found. split.
  - eapply choose_locations_spec; [..|exact Hfound]; [| |exact Hf].
    + rewrite Forall_forall in Hk. apply Forall_app. split; apply Forall_forall; intros c Hc;
        apply elem_of_list_fmap in Hc as (d & -> & Hd); apply elem_of_list_filter in Hd as [_ Hd]; by apply Hk.
    + intros Hc. apply elem_of_list_fmap in Hc as (d & E & Hd). apply elem_of_list_filter in Hd as [[Ht _] Hd].
      by apply (Hg d Hd Ht).
  - apply mapR_Ok in H. eapply Forall2_impl; [exact H|]. cbn beta. intros c m Hm.
    unfold seller_at. destruct (by_location c (sellers MarketActivity product data)) as [d|] eqn:E.
    + apply by_location_Some in E as [_ E]. apply Ok_inj in Hm as ->. by left.
    + right. split.
      * unfold by_location in E. rewrite (filterb_filter (fun x => d_location x = c)) in E by (intros; apply eqb_decide).
        by apply last_None in E.
      * destruct (by_location c (sellers MarketGroup product data)) as [d|] eqn:E'; [|discriminate].
        apply by_location_Some in E' as [_ E']. by apply Ok_inj in Hm as ->.
Qed.

Lemma seller_at_in product data c m : seller_at product data c m ->
  m ∈ data /\ sells product m /\ d_location m = c.
Proof.
  intros [H|[_ H]]; apply last_Some_elem_of, elem_of_list_filter in H as [Hl H];
    apply elem_of_list_filter in H as [[Ht Hp] H]; unfold sells; tauto.
Qed.

Lemma consumer_row_spec t data ds row :
  known t (d_location ds) -> consumer_row_of t data ds = Ok row ->
  exists f, consumer_area t data ds f /\ consumer_row_fits t (d_location ds) row f.
Proof.
  unfold consumer_row_of, consumer_area. intros Hk H. destruct (String.eqb_spec (d_location ds) "RoW") as [E|E].
  - set (ty := if is_type Transforming ds then Transforming else MarketActivity) in H.
    assert (filterb (fun d => is_type ty d && (d_name d =? d_name ds)%string) data = filter (peer ds) data) as Hp.
    { apply filterb_filter. intros d _. apply eq_bool_prop_intro. rewrite !Is_true_true, bool_decide_eq_true.
      rewrite andb_true_iff, String.eqb_eq. unfold is_type at 1. rewrite bool_decide_eq_true. unfold peer, ty, is_type.
      destruct (decide (d_type ds = Transforming)) as [Ht|Ht].
      - rewrite bool_decide_eq_true_2 by done. tauto.
      - rewrite bool_decide_eq_false_2 by done. tauto. }
    rewrite Hp in H. destruct (map d_location (filter (peer ds) data)) as [|l ls] eqn:El; [discriminate|].
    apply bind_Ok in H as (r & Hr & <-%Ok_inj). exists r. split.
    + right. split; [done|]. by apply resolve_rest.
    + right. by split.
  - apply Ok_inj in H as <-. destruct Hk as [?|[f Hf]]; [done|]. exists f. split; [by left|by left].
Qed.

(** *** The decision *)
Definition stays_of (d : decision) (e : exchange) : list exchange :=
  match d with Keep => [e] | One c => [set_e_code (Some c) e] | Many _ => [] end.
Definition new_of (d : decision) : list exchange :=
  match d with Many new => new | _ => [] end.

Lemma market_volume_annotated e m : volume_of (annotate_supplier e m) = market_volume m.
Proof.
  unfold volume_of, annotate_supplier, market_volume, output_volume, production_volume.
  rewrite reference_products_filter. cbn [e_pv set_e_pv v_amount set_v_amount].
  destruct (filter is_refproduct (d_exchanges m)) as [|rp [|? ?]]; [done| |done].
  by destruct (e_pv rp).
Qed.

Lemma decide_input_spec ln e ms d :
  Forall (fun m => is_Some (d_code m)) ms ->
  decide_input ln e ms = Ok d -> linked_input ms e (stays_of d e) (new_of d).
Proof.
  intros Hc H. unfold decide_input in H. unfold linked_input.
  destruct ms as [|m [|m2 ms]].
  - by apply Ok_inj in H as <-.
  - apply bind_Ok in H as (c & Hcm & <-%Ok_inj). destruct (d_code m) as [c'|]; [|discriminate].
    apply Ok_inj in Hcm as ->. split; [by eexists|done].
  - set (l := m :: m2 :: ms) in *.
    assert (map volume_of (map (annotate_supplier e) l) = map market_volume l) as Hv.
    { rewrite map_map. apply map_ext. apply market_volume_annotated. }
    assert (Forall (fun s => is_Some (e_pv s)) (map (annotate_supplier e) l)) as Hp.
    { apply Forall_forall. intros s Hs. apply elem_of_list_fmap in Hs as (x & -> & _). by eexists. }
    apply bind_Ok in H as (vs & Hvs & H). unfold volumes in Hvs.
    rewrite (proj2 (mapR_volumes _ _) (conj Hp eq_refl)) in Hvs. cbn [bind] in Hvs. rewrite Hv in Hvs.
    unfold Qctruthy, Qceqb in Hvs. case_bool_decide as E; cbn [negb] in Hvs.
    + left. assert (vs = None) as -> by by (unfold l in Hvs; apply Ok_inj in Hvs).
      by apply Ok_inj in H as <-.
    + right. apply Ok_inj in Hvs as <-. apply bind_Ok in H as (new & Hnew & <-%Ok_inj). split; [done|].
      split; [done|]. cbn [new_of]. apply inputs_spec in Hnew as [_ HF]; [|done].
      set (total := Qcsum (map market_volume l)) in *. clearbody total l. clear Hp Hv.
      assert (sharing (map (annotate_supplier e) l)
              = map (annotate_supplier e) (filter (fun m => market_volume m <> 0%Qc) l)) as Hs.
      { unfold sharing. clear -l. induction l as [|x l IH]; [done|]. cbn [map]. rewrite !filter_cons.
        rewrite market_volume_annotated. destruct (decide _); cbn [map]; by rewrite IH. }
      rewrite Hs in HF. clear Hs. rewrite Forall_forall in Hc.
      assert (forall x, x ∈ filter (fun m => market_volume m <> 0%Qc) l -> is_Some (d_code x)) as Hc'.
      { intros x Hx. apply elem_of_list_filter in Hx as [_ Hx]. by apply Hc. }
      clear Hc. revert new HF. induction (filter _ l) as [|x xs IH]; intros new HF.
      * inversion HF. constructor.
      * cbn [map] in HF. apply Forall2_cons_inv_l in HF as (y & new' & Hy & HF & ->).
        constructor; [|apply IH; [intros z Hz; apply Hc'; set_solver|done]].
        rewrite market_volume_annotated in Hy. unfold consumer_input in Hy.
        apply bind_Ok in Hy as (e' & He' & Hy). apply scale_exchange_spec in He'.
        apply bind_Ok in Hy as (c & Hcx & <-%Ok_inj). exists e'. split; [exact He'|].
        destruct (Hc' x) as [cx Hcx']; [set_solver|]. split; [by eexists|].
        change (e_code (annotate_supplier e x)) with (match d_code x with Some c => Some c | None => e_code e end) in Hcx.
        rewrite Hcx' in Hcx |- *. apply Ok_inj in Hcx as ->. done.
Qed.

(** *** The loop over inputs *)
Lemma unlinked_iff e : unlinked e = true <-> open_exchange e.
Proof.
  unfold unlinked, open_exchange, code_truthy. rewrite andb_true_iff, bool_decide_eq_true.
  apply and_iff_compat_l. destruct (e_code e) as [c|]; [|naive_solver].
  destruct (String.eqb_spec c ""); naive_solver.
Qed.

Section loop.
  Context (D : exchange -> decision).
  Context (HD : forall e e', e' ∈ new_of (D e) -> unlinked e' = false).
  Context (HO : forall e c, D e = One c -> unlinked (set_e_code (Some c) e) = false).

  Definition current (done : list (nat * exchange)) (p : nat * exchange) : list (option nat * exchange) :=
    if unlinked p.2 then
      match D p.2 with
      | Keep => [(Some p.1, p.2)]
      | One c => if decide (p.1 ∈ map fst done) then [(Some p.1, set_e_code (Some c) p.2)] else [(Some p.1, p.2)]
      | Many _ => if decide (p.2 ∈ map snd done) then [] else [(Some p.1, p.2)]
      end
    else [(Some p.1, p.2)].
  Definition added (done : list (nat * exchange)) : list (option nat * exchange) :=
    map (fun e => (None, e)) (concat (map (fun p => new_of (D p.2)) done)).
  Definition state (orig done : list (nat * exchange)) : list (option nat * exchange) :=
    concat (map (current done) orig) ++ added done.

  Lemma added_snoc done p : added (done ++ [p]) = added done ++ map (fun e => (None, e)) (new_of (D p.2)).
  Proof. unfold added. rewrite map_app, concat_app, map_app. cbn [map concat]. by rewrite app_nil_r. Qed.

  Lemma state_step orig done p st :
    NoDup (map fst orig) -> p ∈ orig -> unlinked p.2 = true -> (forall q, q ∈ done -> q ∈ orig) -> p ∉ done ->
    st.1 = state orig done ->
    (apply_decision p.1 p.2 st (D p.2)).1 = state orig (done ++ [p]).
  Proof.
    intros Hnd Hp Hu Hdone Hnp Hst. unfold apply_decision, state. rewrite added_snoc.
    assert (forall q, q ∈ orig -> q.1 = p.1 -> q = p) as Hinj.
    { intros q Hq E. apply elem_of_list_lookup in Hq as [i Hi]. apply elem_of_list_lookup in Hp as [j Hj].
      assert (i = j) as ->; [|congruence].
      eapply (proj1 (NoDup_alt (map fst orig)) Hnd i j p.1); apply list_lookup_fmap_Some; eexists; (split; [eassumption|done]). }
    assert (p.1 ∉ map fst done) as Hfst.
    { intros Hin. apply elem_of_list_fmap in Hin as (q & E & Hq). apply Hnp. rewrite <- (Hinj q); [done|by apply Hdone|done]. }
    destruct (D p.2) as [|c|new] eqn:ED; cbn [new_of map app fst].
    - rewrite app_nil_r, Hst. unfold state. f_equal. f_equal. apply map_ext_in. intros q Hq%elem_of_list_In.
      unfold current. destruct (unlinked q.2); [|done]. destruct (D q.2) as [|c|new] eqn:Eq; [done|..].
      + rewrite map_app. cbn [map]. destruct (decide (q.1 ∈ map fst done)) as [Hi|Hi].
        * rewrite decide_True by set_solver. done.
        * rewrite decide_False; [done|]. intros Hc. apply elem_of_app in Hc as [?|Hc%elem_of_list_singleton]; [done|].
          rewrite (Hinj q Hq Hc) in Eq. congruence.
      + rewrite map_app. cbn [map]. destruct (decide (q.2 ∈ map snd done)) as [Hi|Hi].
        * rewrite decide_True by set_solver. done.
        * rewrite decide_False; [done|]. intros Hc. apply elem_of_app in Hc as [?|Hc%elem_of_list_singleton]; [done|].
          rewrite Hc in Eq. congruence.
    - rewrite app_nil_r, Hst. unfold state. rewrite map_app. f_equal.
      + rewrite concat_map, map_map. f_equal. apply map_ext_in. intros q Hq%elem_of_list_In.
        unfold current. rewrite !map_app. cbn [map].
        destruct (unlinked q.2) eqn:Euq.
        2:{ cbn [map fst snd]. rewrite bool_decide_eq_false_2; [done|]. intros E. injection E as E.
            rewrite (Hinj q Hq E) in Euq. congruence. }
        destruct (D q.2) as [|c'|new] eqn:Eq.
        * cbn [map fst snd]. rewrite bool_decide_eq_false_2; [done|]. intros E. injection E as E.
          rewrite (Hinj q Hq E) in Eq. congruence.
        * destruct (decide (q.1 = p.1)) as [E|E].
          -- rewrite (Hinj q Hq E) in Eq |- *. assert (c' = c) as -> by congruence.
             rewrite decide_False by done. rewrite decide_True by set_solver.
             cbn [map fst snd]. by rewrite bool_decide_eq_true_2.
          -- destruct (decide (q.1 ∈ map fst done)).
             ++ rewrite decide_True by set_solver. cbn [map fst snd]. rewrite bool_decide_eq_false_2; [done|]. congruence.
             ++ rewrite decide_False by set_solver. cbn [map fst snd]. rewrite bool_decide_eq_false_2; [done|]. congruence.
        * destruct (decide (q.2 ∈ map snd done)) as [Hi|Hi].
          -- rewrite decide_True by set_solver. done.
          -- rewrite decide_False.
             ++ cbn [map fst snd]. rewrite bool_decide_eq_false_2; [done|]. intros E. injection E as E.
                rewrite (Hinj q Hq E) in Eq. congruence.
             ++ intros Hc. apply elem_of_app in Hc as [?|Hc%elem_of_list_singleton]; [done|].
                rewrite Hc in Eq. congruence.
      + unfold added. rewrite map_map. apply map_ext. intros e. cbn [fst]. by rewrite bool_decide_eq_false_2.
    - rewrite Hst. unfold state. rewrite <- app_assoc.
      rewrite (filterb_filter (fun ox : option nat * exchange => ox.2 <> p.2)) by done.
      rewrite !filter_app. f_equal; [|f_equal].
      + clear Hst Hp. assert (forall q, q ∈ orig ->
          filter (fun ox : option nat * exchange => ox.2 <> p.2) (current done q) = current (done ++ [p]) q) as Hq.
        { intros q Hq. unfold current. rewrite !map_app. cbn [map].
          destruct (unlinked q.2) eqn:Euq.
          2:{ rewrite filter_cons_True; [done|]. cbn. intros E. rewrite E in Euq. congruence. }
          destruct (D q.2) as [|c'|new'] eqn:Eq.
          - rewrite filter_cons_True; [done|]. cbn. intros E. rewrite E in Eq. congruence.
          - assert (q.2 <> p.2) as Hne by (intros E; rewrite E in Eq; congruence).
            destruct (decide (q.1 ∈ map fst done)) as [Hi|Hi].
            + rewrite decide_True by set_solver. rewrite filter_cons_True; [done|]. cbn.
              intros E. pose proof (HO _ _ Eq) as Hl. rewrite E in Hl. congruence.
            + rewrite decide_False.
              * rewrite filter_cons_True; [done|]. done.
              * intros Hc. apply elem_of_app in Hc as [?|Hc%elem_of_list_singleton]; [done|].
                by rewrite (Hinj q Hq Hc) in Hne.
          - destruct (decide (q.2 ∈ map snd done)) as [Hi|Hi].
            + rewrite decide_True by set_solver. done.
            + destruct (decide (q.2 = p.2)) as [E|E].
              * rewrite decide_True by set_solver. rewrite filter_cons_False; [done|]. cbn. tauto.
              * rewrite decide_False by set_solver. rewrite filter_cons_True; [done|]. done. }
        clear -Hq. induction orig as [|q orig IH]; [done|]. cbn [map concat]. rewrite filter_app, Hq by set_solver.
        f_equal. apply IH. intros r Hr. apply Hq. set_solver.
      + apply Combined2_proofs.filter_all. apply Forall_forall. intros [o x] Hx. unfold added in Hx.
        apply elem_of_list_fmap in Hx as (e & [= -> ->] & He). cbn. intros ->.
        apply elem_of_list_In, in_concat in He as (l & Hl & He).
        apply elem_of_list_In in Hl, He. apply elem_of_list_fmap in Hl as (q & -> & _).
        apply HD in He. congruence.
      + apply Combined2_proofs.filter_all. apply Forall_forall. intros [o x] Hx.
        apply elem_of_list_fmap in Hx as (e & [= -> ->] & He). cbn. intros ->.
        assert (p.2 ∈ new_of (D p.2)) as He' by (rewrite ED; exact He).
        apply HD in He'. congruence.
  Qed.

  Lemma state_nil orig : state orig [] = map (fun p => (Some p.1, p.2)) orig.
  Proof.
    unfold state, added. cbn. rewrite app_nil_r. induction orig as [|p orig IH]; [done|]. cbn [map concat].
    rewrite IH. unfold current. destruct (unlinked p.2); [|done]. cbn [map]. destruct (D p.2); done.
  Qed.
  Lemma state_final orig : NoDup (map fst orig) ->
    map snd (state orig (filterb (fun p => unlinked p.2) orig)) =
    concat (map (fun e => if unlinked e then stays_of (D e) e else [e]) (map snd orig)) ++
    concat (map (fun e => if unlinked e then new_of (D e) else []) (map snd orig)).
  Proof.
    intros Hnd. unfold state. rewrite map_app. f_equal.
    - rewrite concat_map, !map_map. f_equal. apply map_ext_in. intros p Hp%elem_of_list_In. unfold current.
      destruct (unlinked p.2) eqn:E; [|done].
      assert (p ∈ filterb (fun p => unlinked p.2) orig) as Hin by by apply filterb_In.
      destruct (D p.2); cbn [stays_of]; [done|..].
      + rewrite decide_True; [done|]. apply elem_of_list_fmap. by exists p.
      + rewrite decide_True; [done|]. apply elem_of_list_fmap. by exists p.
    - unfold added. rewrite map_map. cbn [snd]. rewrite map_id. clear Hnd.
      induction orig as [|p orig IH]; [done|]. 
      change (filterb (fun p : nat * exchange => unlinked p.2) (p :: orig)) with
        (if unlinked p.2 then p :: filterb (fun p : nat * exchange => unlinked p.2) orig
         else filterb (fun p : nat * exchange => unlinked p.2) orig).
      cbn [map concat]. destruct (unlinked p.2); cbn [map concat app]; by rewrite IH.
  Qed.
End loop.

(** *** One dataset *)
Lemma part_amounts e total ms new : total <> 0%Qc ->
  Forall2 (part_of e total) (filter (fun m => market_volume m <> 0%Qc) ms) new ->
  Qcsum (map e_amount new) = (e_amount e * (Qcsum (map market_volume ms) / total))%Qc.
Proof.
  intros Ht HF.
  assert (Qcsum (map e_amount new) =
    Qcsum (map (fun m => (e_amount e * (market_volume m / total))%Qc) (filter (fun m => market_volume m <> 0%Qc) ms))) as ->.
  { f_equal. induction HF as [|m x xs new (e' & [Ha _] & _ & ->) _ IH]; [done|]. cbn [map]. rewrite <- IH.
    f_equal. exact Ha. }
  clear HF. induction ms as [|m ms IH].
  - cbn. field. done.
  - rewrite filter_cons. cbn [map]. unfold Qcsum in *. cbn [foldr]. destruct (decide (market_volume m <> 0%Qc)) as [Hm|Hm].
    + cbn [map foldr]. rewrite IH. field. done.
    + rewrite IH. assert (market_volume m = 0%Qc) as -> by (destruct (decide (market_volume m = 0%Qc)); tauto). field. done.
Qed.

Lemma part_names e total ms new :
  Forall2 (part_of e total) ms new -> Forall (fun x => e_type x = FromTechnosphere /\ e_name x = e_name e) new.
Proof.
  intros HF. induction HF as [|m x ms new (e' & (_ & Hs) & _ & ->) _ IH]; constructor; [|exact IH].
  split; [done|]. destruct Hs as (_ & Hs & _). exact Hs.
Qed.

Definition choice_of (ln : Qc -> Qc) (t : topo) (data : list dataset) (ds : dataset) (row : option faces)
    (e : exchange) : result decision :=
  let? chosen := choose_markets t (d_location ds) row (filter (sells (e_name e)) data) in
  decide_input ln e chosen.
Definition choice (ln : Qc -> Qc) (t : topo) (data : list dataset) (ds : dataset) (row : option faces)
    (e : exchange) : decision :=
  match choice_of ln t data ds row e with Ok d => d | Err _ => Keep end.

Section dataset.
  Context (ln : Qc -> Qc) (t : topo) (data : list dataset) (ks : list (string * (nat * dataset))).
  Context (Hks : keyed (typed_refprod [MarketActivity; MarketGroup]) data = Ok ks).
  Context (Hknown : Forall (fun d => known t (d_location d)) data).
  Context (Hgroups : forall d, d ∈ data -> d_type d = MarketGroup -> d_location d <> "RoW"%string).
  Context (Hcodes : forall d, d ∈ data -> exists c, d_code d = Some c /\ c <> ""%string).

  Lemma choice_spec ds row f e d : consumer_row_fits t (d_location ds) row f ->
    choice_of ln t data ds row e = Ok d ->
    exists found ms,
      chosen_places t (map d_location (sellers MarketActivity (e_name e) data))
                    (map d_location (sellers MarketGroup (e_name e) data)) (d_location ds) f found /\
      Forall2 (seller_at (e_name e) data) found ms /\
      linked_input ms e (stays_of d e) (new_of d).
  Proof.
    intros Hf H. apply bind_Ok in H as (ms & Hms & H).
    destruct (choose_markets_spec t _ _ _ _ _ _ Hknown Hgroups Hf Hms) as (found & Hfound & HF).
    exists found, ms. split; [done|]. split; [done|]. eapply decide_input_spec; [|exact H].
    apply Forall_forall. intros m Hm. apply elem_of_list_lookup in Hm as [i Hi].
    destruct (Forall2_lookup_r _ _ _ _ _ HF Hi) as (c & _ & Hc). apply seller_at_in in Hc as (Hc & _).
    destruct (Hcodes m Hc) as (cc & -> & _). by eexists.
  Qed.

  Lemma choice_new ds row f e e' : consumer_row_fits t (d_location ds) row f ->
    e' ∈ new_of (choice ln t data ds row e) -> unlinked e' = false.
  Proof.
    unfold choice. intros Hf He'. destruct (choice_of ln t data ds row e) as [d|] eqn:E; [|set_solver].
    destruct (choice_spec ds row f e d Hf E) as (found & ms & _ & HF & HL).
    unfold linked_input in HL. destruct ms as [|m [|m2 ms]].
    - destruct HL as [_ HL]. rewrite HL in He'. set_solver.
    - destruct HL as (_ & _ & HL). rewrite HL in He'. set_solver.
    - destruct HL as [(_ & _ & HL)|(_ & _ & HL)]; [rewrite HL in He'; set_solver|].
      apply elem_of_list_lookup in He' as [i Hi]. destruct (Forall2_lookup_r _ _ _ _ _ HL Hi) as (m' & Hm' & Hp).
      apply elem_of_list_lookup_2, elem_of_list_filter in Hm' as [_ Hm'].
      apply elem_of_list_lookup in Hm' as [j Hj]. destruct (Forall2_lookup_r _ _ _ _ _ HF Hj) as (c & _ & Hc).
      apply seller_at_in in Hc as (Hc & _). destruct (Hcodes m' Hc) as (cc & Hcc & Hne).
      destruct Hp as (x & _ & _ & ->). apply not_true_iff_false. rewrite unlinked_iff. unfold open_exchange.
      cbn [e_code set_e_code]. rewrite Hcc. intros [_ [?|?]]; congruence.
  Qed.
  Lemma choice_one ds row f e c : consumer_row_fits t (d_location ds) row f ->
    choice ln t data ds row e = One c -> unlinked (set_e_code (Some c) e) = false.
  Proof.
    unfold choice. intros Hf He'. destruct (choice_of ln t data ds row e) as [d|] eqn:E; [|discriminate]. subst d.
    unfold choice_of in E. apply bind_Ok in E as (ms & Hms & E).
    destruct (choose_markets_spec t _ _ _ _ _ _ Hknown Hgroups Hf Hms) as (found & _ & HF).
    unfold decide_input in E. destruct ms as [|m [|m2 ms]]; [discriminate| |].
    - destruct (Forall2_lookup_r _ _ _ 0%nat m HF eq_refl) as (l & _ & Hc). apply seller_at_in in Hc as (Hc & _).
      destruct (Hcodes m Hc) as (cc & Hcc & Hne). rewrite Hcc in E. cbn in E. apply Ok_inj in E. injection E as ->.
      apply not_true_iff_false. rewrite unlinked_iff. unfold open_exchange.
      cbn [e_code set_e_code]. intros [_ [?|Hx]]; congruence.
    - apply bind_Ok in E as ([[? ?]|] & _ & E); [|discriminate]. apply bind_Ok in E as (? & _ & E). discriminate.
  Qed.

  Lemma inputs_fold ds row f orig todo : consumer_row_fits t (d_location ds) row f ->
    NoDup (map fst orig) ->
    (forall p, p ∈ orig -> unlinked p.2 = true -> e_name p.2 = "refinery gas"%string -> sold data "refinery gas") ->
    forall done before st r,
    (forall p, p ∈ done ++ todo -> p ∈ orig /\ unlinked p.2 = true) -> NoDup (done ++ todo) ->
    st.1 = state (choice ln t data ds row) orig done ->
    foldR (link_inputs_step ln t (map (fun g => (g.1, map snd g.2)) (groupby ks)) (d_location ds) row)
      (before, st) todo = Ok r ->
    r.2.1 = state (choice ln t data ds row) orig (done ++ todo) /\
    (forall p, p ∈ todo -> exists d, choice_of ln t data ds row p.2 = Ok d) .
  Proof.
    intros Hf Hnd Hrg. induction todo as [|p todo IH]; intros done before st r Hin Hndt Hst H; cbn [foldR] in H.
    - apply Ok_inj in H as <-. rewrite app_nil_r. split; [done|]. intros p Hp. set_solver.
    - apply bind_Ok in H as ([before' st'] & Hstep & H). unfold link_inputs_step in Hstep.
      apply bind_Ok in Hstep as (cs & Hcs & Hstep). apply bind_Ok in Hstep as (chosen & Hch & Hstep).
      apply bind_Ok in Hstep as (d & Hd & Hstep). apply Ok_inj in Hstep. injection Hstep as <- <-.
      destruct (Hin p) as [Hpo Hpu]; [set_solver|].
      apply (candidates_spec data ks) in Hcs as ->; [|done|].
      2:{ intros E. rewrite E. by apply (Hrg p). }
      assert (choice_of ln t data ds row p.2 = Ok d) as Ed.
      { unfold choice_of. rewrite Hch. exact Hd. }
      destruct (IH (done ++ [p]) (Some (filter (sells (e_name p.2)) data)) (apply_decision p.1 p.2 st d) r) as [Hr Hall].
      + rewrite <- app_assoc. exact Hin.
      + rewrite <- app_assoc. exact Hndt.
      + assert (d = choice ln t data ds row p.2) as -> by (unfold choice; by rewrite Ed).
        apply state_step; try done.
        * intros e e'. by apply (choice_new ds row f).
        * intros e c. by apply (choice_one ds row f).
        * intros q Hq. apply Hin. set_solver.
        * intros Hq. apply NoDup_app in Hndt as (_ & Hx & _). apply (Hx p Hq). set_solver.
      + exact H.
      + rewrite <- app_assoc in Hr. split; [exact Hr|].
        intros q Hq. apply elem_of_cons in Hq as [->|Hq]; [by exists d|by apply Hall].
  Qed.

  Lemma link_dataset_spec before ds r : ds ∈ data -> d_type ds <> MarketGroup ->
    (forall e, e ∈ d_exchanges ds -> open_exchange e -> e_name e = "refinery gas"%string -> sold data "refinery gas") ->
    link_dataset ln t (map (fun g => (g.1, map snd g.2)) (groupby ks)) data before ds = Ok r ->
    exists rs s, Forall2 (relinked t data ds) (d_exchanges ds) rs /\
      r.2 = set_d_suppliers s (set_d_exchanges (concat (map fst rs) ++ concat (map snd rs)) ds) /\
      (s = d_suppliers ds \/ s = None).
  Proof.
    intros Hds Hty Hrg H. unfold link_dataset in H. unfold is_type in H.
    rewrite bool_decide_eq_false_2 in H by done. apply bind_Ok in H as (row & Hrow & H).
    apply consumer_row_spec in Hrow as (f & Hca & Hf); [|by apply (proj1 (Forall_forall _ _) Hknown ds)].
    apply bind_Ok in H as (res & Hres & H).
    eapply (inputs_fold ds row f (indexed (d_exchanges ds)) _ Hf (indexed_fst _) _ []) in Hres as [Hst Hall].
    2:{ cbn [app]. intros p Hp. by apply filterb_In in Hp. }
    2:{ cbn [app]. apply (NoDup_fmap_1 fst). change (NoDup (map fst (filterb (fun p : nat * exchange => unlinked p.2) (indexed (d_exchanges ds))))).
        rewrite (filterb_filter (fun p : nat * exchange => unlinked p.2 = true)).
        - apply NoDup_map_filter, indexed_fst.
        - intros x _. destruct (unlinked x.2); [by rewrite bool_decide_eq_true_2|by rewrite bool_decide_eq_false_2]. }
    2:{ rewrite state_nil. reflexivity. }
    cbn [app] in Hst.
    set (rs := map (fun e => if unlinked e then (stays_of (choice ln t data ds row e) e, new_of (choice ln t data ds row e))
                             else ([e], [])) (d_exchanges ds)).
    apply Ok_inj in H. exists rs, (if res.2.2 then None else d_suppliers ds). split; [|split].
    - unfold rs. apply Forall2_fmap_r, Forall_Forall2_diag. apply Forall_forall. intros e He.
      unfold compose, relinked. cbn beta. destruct (unlinked e) eqn:Eu; cbn beta iota.
      + right. apply unlinked_iff in Eu. split; [done|]. cbn [fst snd].
        apply elem_of_list_lookup in He as [i Hi].
        destruct (Hall (i, e)) as [d Hd].
        { apply filterb_In. split; [by apply elem_of_indexed|]. by apply unlinked_iff. }
        cbn [snd] in Hd. unfold choice. rewrite Hd.
        destruct (choice_spec ds row f e d Hf Hd) as (found & ms & Hfound & HF & HL).
        exists ms. split; [|exact HL]. by exists f, found.
      + left. split; [|done]. rewrite <- unlinked_iff. congruence.
    - rewrite <- H. cbn [snd].
      assert (map snd res.2.1 = concat (map fst rs) ++ concat (map snd rs)) as ->.
      { rewrite Hst, state_final by apply indexed_fst. rewrite indexed_snd. unfold rs. rewrite !map_map.
        f_equal; f_equal; apply map_ext; intros e; by destruct (unlinked e). }
      destruct (res.2.2); [done|]. destruct ds; done.
    - destruct (res.2.2); tauto.
  Unshelve.
    intros p Hp Hu Hn. destruct p as [i e]. apply elem_of_indexed in Hp. apply (Hrg e); [|by apply unlinked_iff|done].
    by eapply elem_of_list_lookup_2.
  Qed.
End dataset.

Lemma link_consumers_spec ln t data data' :
  Forall (fun d => known t (d_location d)) data ->
  (forall d, d ∈ data -> d_type d = MarketGroup -> d_location d <> "RoW"%string) ->
  (forall d, d ∈ data -> exists c, d_code d = Some c /\ c <> ""%string) ->
  (forall ds e, ds ∈ data -> e ∈ d_exchanges ds -> open_exchange e -> e_name e = "refinery gas"%string ->
     sold data "refinery gas") ->
  link_consumers_to_markets ln t data = Ok data' ->
  Forall2 (fun ds ds' => (d_type ds = MarketGroup -> ds' = ds) /\
    (d_type ds <> MarketGroup -> consumer_linked t data ds ds')) data data'.
Proof.
  intros Hk Hg Hc Hrg H. unfold link_consumers_to_markets in H. apply bind_Ok in H as (ks & Hks & H).
  apply bind_Ok in H as (r & Hr & <-%Ok_inj).
  assert (forall l before out r, (forall d, d ∈ l -> d ∈ data) ->
    foldR (fun acc ds => let? r := link_dataset ln t (map (fun g => (g.1, map snd g.2)) (groupby ks)) data acc.1 ds in
             Ok (r.1, acc.2 ++ [r.2])) (before, out) l = Ok r ->
    exists l', r.2 = out ++ l' /\ Forall2 (fun ds ds' => (d_type ds = MarketGroup -> ds' = ds) /\
      (d_type ds <> MarketGroup -> consumer_linked t data ds ds')) l l') as Hgen.
  { clear Hr r. intros l. induction l as [|ds l IH]; intros before out r Hin Hr; cbn [foldR] in Hr.
    - apply Ok_inj in Hr as <-. exists []. rewrite app_nil_r. split; [done|constructor].
    - apply bind_Ok in Hr as ([b' out'] & Hstep & Hr). apply bind_Ok in Hstep as (x & Hx & Hstep).
      apply Ok_inj in Hstep. injection Hstep as <- <-. cbn [fst snd] in Hx.
      apply IH in Hr as (l' & -> & HF); [|intros d Hd; apply Hin; set_solver].
      exists (x.2 :: l'). rewrite <- app_assoc. split; [done|]. constructor; [|exact HF].
      destruct (decide (d_type ds = MarketGroup)) as [Ht|Ht].
      + split; [|done]. intros _. unfold link_dataset, is_type in Hx. rewrite bool_decide_eq_true_2 in Hx by done.
        by apply Ok_inj in Hx as <-.
      + split; [done|]. intros _. apply (link_dataset_spec ln t data ks Hks Hk Hg Hc before); [apply Hin; set_solver|done| |done].
        intros e He. apply (Hrg ds); [apply Hin; set_solver|done]. }
  apply Hgen in Hr as (l' & -> & HF); [|done]. exact HF.
Qed.

(** *** Demand *)
Lemma demand_app n a b : demand n (a ++ b) = (demand n a + demand n b)%Qc.
Proof. unfold demand. by rewrite filter_app, map_app, Qcsum_app. Qed.
Lemma linked_demand n ms e stays new : open_exchange e -> linked_input ms e stays new ->
  demand n (stays ++ new) = demand n [e].
Proof.
  intros [Ht _] H. unfold linked_input in H. rewrite demand_app. 
  assert (demand n [] = 0%Qc) as H0 by done.
  destruct ms as [|m [|m2 ms]].
  - destruct H as [-> ->]. rewrite H0. ring.
  - destruct H as (_ & -> & ->). rewrite H0.
    assert (demand n [set_e_code (d_code m) e] = demand n [e]) as ->; [|ring].
    unfold demand. rewrite !filter_cons. cbn [e_type e_name set_e_code]. destruct (decide _); done.
  - destruct H as [(_ & -> & ->)|(Hz & -> & HF)]; [rewrite H0; ring|].
    pose proof (part_amounts _ _ _ _ Hz HF) as Hsum. pose proof (part_names _ _ _ _ HF) as Hn. rewrite H0.
    unfold demand. rewrite filter_cons, filter_nil. destruct (decide (e_type e = FromTechnosphere /\ e_name e = n)) as [[_ <-]|Hno].
    + rewrite Combined2_proofs.filter_all by exact Hn. rewrite Hsum. cbn [map Qcsum foldr]. unfold Qcsum. cbn [foldr]. field. done.
    + rewrite Cutoff_proofs.filter_none; [done|]. eapply Forall_impl; [exact Hn|]. cbn. intros x [_ Hx] [_ Hx']. apply Hno. by split; [|congruence].
Qed.
Lemma linked_demands t data ds rs n : Forall2 (relinked t data ds) (d_exchanges ds) rs ->
  demand n (concat (map fst rs) ++ concat (map snd rs)) = demand n (d_exchanges ds).
Proof.
  generalize (d_exchanges ds) as es. intros es HF. rewrite demand_app.
  induction HF as [|e r es rs Hr _ IH]; [done|]. cbn [map concat]. rewrite !demand_app.
  change (e :: es) with ([e] ++ es). rewrite demand_app, <- IH.
  assert (demand n [e] = (demand n r.1 + demand n r.2)%Qc) as ->; [|ring].
  destruct Hr as [[_ ->]|[Ho (ms & _ & HL)]].
  - cbn [fst snd]. change (demand n []) with 0%Qc. ring.
  - rewrite <- demand_app. symmetry. by eapply linked_demand.
Qed.
Lemma linked_conserved t data ds ds' product : consumer_linked t data ds ds' ->
  demand product (d_exchanges ds') = demand product (d_exchanges ds).
Proof. intros (rs & s & HF & -> & _). cbn [d_exchanges set_d_suppliers set_d_exchanges]. by eapply linked_demands. Qed.

Lemma linked_parts ms e stays new : open_exchange e -> linked_input ms e stays new ->
  Qcsum (map e_amount (stays ++ new)) = e_amount e /\
  Forall (fun x => e_name x = e_name e /\ e_type x = FromTechnosphere /\
            (e_code x = e_code e \/ exists m, m ∈ ms /\ e_code x = d_code m)) (stays ++ new).
Proof.
  intros [Ht _] H. unfold linked_input in H. unfold Qcsum. destruct ms as [|m [|m2 ms]].
  - destruct H as [-> ->]. cbn [app map foldr]. split; [ring|]. constructor; [|constructor]. tauto.
  - destruct H as (_ & -> & ->). cbn [app map foldr]. split; [cbn; ring|]. constructor; [|constructor].
    split; [done|]. split; [done|]. right. exists m. split; [set_solver|done].
  - destruct H as [(_ & -> & ->)|(Hz & -> & HF)].
    + cbn [app map foldr]. split; [ring|]. constructor; [|constructor]. tauto.
    + cbn [app]. split; [fold (Qcsum (map e_amount new)); rewrite (part_amounts _ _ _ _ Hz HF); field; done|].
      apply Forall_forall. intros x Hx. apply elem_of_list_lookup in Hx as [i Hi].
      destruct (Forall2_lookup_r _ _ _ _ _ HF Hi) as (y & Hy & (e' & (_ & _ & Hn & _) & _ & ->)).
      apply elem_of_list_lookup_2, elem_of_list_filter in Hy as [_ Hy].
      split; [exact Hn|]. split; [done|]. right. by exists y.
Qed.
