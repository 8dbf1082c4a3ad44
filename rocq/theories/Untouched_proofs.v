(** Proofs for C62: linking changes inputs from technosphere and labels only. *)
From Verif Require Import Base Types Uncertainty Uncertainty_proofs Utils Spec_Utils Utils_proofs Grouping GroupUpdate
  Topology Cutoff Locations Spec_RestOfWorld RestOfWorld_proofs Spec_Markets Markets_proofs SingleOutput_proofs Waste_proofs
  Consequential Spec_Codes Codes_proofs Linked_proofs Spec_Untouched.

Definition bare (e : exchange) : exchange := set_e_code None (set_e_pv None e).
Definition bares (es : list exchange) : list exchange :=
  map bare (filter (fun e => e_type e <> FromTechnosphere) es).
Lemma others_bares d : others d = bares (d_exchanges d).
Proof. done. Qed.
Definition alike (e e' : exchange) : Prop :=
  (e_type e = FromTechnosphere /\ e_type e' = FromTechnosphere) \/ bare e' = bare e.
Lemma bare_type e : e_type (bare e) = e_type e.
Proof. done. Qed.
Lemma bares_alike es es' : Forall2 alike es es' -> bares es' = bares es.
Proof.
  unfold bares. induction 1 as [|e e' es es' H _ IH]; [done|]. destruct H as [[H1 H2]|H].
  - rewrite !filter_cons_False by (rewrite ?H1, ?H2; auto). done.
  - assert (e_type e' = e_type e) as Ht by (by rewrite <- (bare_type e'), H). rewrite !filter_cons, Ht.
    destruct (decide _); [|done]. cbn [map]. by rewrite H, IH.
Qed.
Lemma bares_app a b : bares (a ++ b) = bares a ++ bares b.
Proof. unfold bares. by rewrite filter_app, map_app. Qed.
Lemma bares_inputs es : Forall (fun e => e_type e = FromTechnosphere) es -> bares es = [].
Proof.
  unfold bares. induction 1 as [|e es H _ IH]; [done|]. by rewrite filter_cons_False by (rewrite H; auto).
Qed.
Lemma bares_drop (p : exchange -> bool) es : (forall e, e ∈ es -> p e = false -> e_type e = FromTechnosphere) ->
  bares (filterb p es) = bares es.
Proof.
  unfold bares, filterb. induction es as [|e es IH]; intros H; [done|]. cbn [List.filter]. destruct (p e) eqn:E.
  - rewrite !filter_cons. destruct (decide _); cbn [map]; rewrite IH by (intros x Hx; apply H; by right); done.
  - rewrite (filter_cons_False _ e es) by (rewrite (H e) by (done || by left); auto).
    apply IH. intros x Hx. apply H. by right.
Qed.

Definition keeps (d d' : dataset) : Prop :=
  frame d' = frame d /\ others d' = others d /\ d_location d' = d_location d /\ d_code d' = d_code d.
Lemma keeps_refl d : keeps d d.
Proof. done. Qed.
Lemma keeps_trans d1 d2 d3 : keeps d1 d2 -> keeps d2 d3 -> keeps d1 d3.
Proof. intros (A & B & C & D) (A' & B' & C' & D'). split_and!; congruence. Qed.
Lemma keeps_exchanges d es : Forall2 alike (d_exchanges d) es -> keeps d (set_d_exchanges es d).
Proof. intros H. split; [done|]. split; [|done]. rewrite !others_bares. by apply bares_alike. Qed.
Lemma keeps_suppliers d s : keeps d (set_d_suppliers s d).
Proof. done. Qed.
Lemma keeps_all_refl data : Forall2 keeps data data.
Proof. induction data; by constructor. Qed.
Lemma keeps_map (f : dataset -> dataset) data : (forall d, keeps d (f d)) -> Forall2 keeps data (map f data).
Proof. intros H. induction data; cbn [map]; by constructor. Qed.
Lemma keeps_mapR f data data' : (forall d d', f d = Ok d' -> keeps d d') -> mapR f data = Ok data' -> Forall2 keeps data data'.
Proof. intros H HM. apply mapR_Ok in HM. eapply Forall2_impl; [exact HM|]. cbn beta. auto. Qed.
Lemma alike_refl e : alike e e.
Proof. by right. Qed.
Lemma alike_map f es : (forall e, alike e (f e)) -> Forall2 alike es (map f es).
Proof. intros H. induction es; cbn [map]; by constructor. Qed.

Lemma keeps_rp_pv f d : keeps d (set_rp_pv f d).
Proof.
  unfold set_rp_pv. apply keeps_exchanges, alike_map. intros e. destruct (bool_decide _); by right.
Qed.

(** *** The passes *)
Lemma actualize_keeps data data' : actualize_activity_links data = Ok data' -> Forall2 keeps data data'.
Proof.
  apply keeps_mapR. intros d d' H. apply bind_Ok in H as (es & Hes & <-%Ok_inj). apply keeps_exchanges.
  apply mapR_Ok in Hes. eapply Forall2_impl; [exact Hes|]. cbn beta. intros e e' He. unfold actualize_link in He.
  destruct (e_link e) as [i|]; [|apply Ok_inj in He as <-; apply alike_refl].
  destruct (String.eqb i ""); [apply Ok_inj in He as <-; apply alike_refl|].
  destruct (filterb _ data) as [|g0 g]; [discriminate|]. apply bind_Ok in He as (refs & _ & He).
  destruct refs as [|p [|? ?]]; [apply Ok_inj in He as <-; apply alike_refl| |apply Ok_inj in He as <-; apply alike_refl].
  apply bind_Ok in He as (c & _ & <-%Ok_inj). by right.
Qed.
Lemma apportion_keeps ord t consumers suppliers ups i d' :
  apportion ord t consumers suppliers = Ok ups -> (i, d') ∈ ups -> exists d, (i, d) ∈ consumers /\ keeps d d'.
Proof.
  intros H Hin. unfold apportion in H. apply bind_Ok in H as (? & _ & H). apply bind_Ok in H as (row & _ & H).
  apply mapR_Ok in H. apply elem_of_list_lookup in Hin as [m Hm].
  destruct (Forall2_lookup_r _ _ _ _ _ H Hm) as ([j d] & Hg & Hd). apply elem_of_list_lookup_2 in Hg. cbv zeta in Hd.
  apply bind_Ok in Hd as (new & Hnew & E). apply Ok_inj in E. injection E as <- <-. cbn [fst snd] in *.
  exists d. split; [done|]. apply keeps_suppliers.
Qed.
Lemma rc_suppliers_keeps ord t data data' :
  add_recycled_content_suppliers_to_markets ord t data = Ok data' -> Forall2 keeps data data'.
Proof.
  intros H. unfold add_recycled_content_suppliers_to_markets in H.
  apply bind_Ok in H as (? & _ & H). apply bind_Ok in H as (rcs & Hrcs & H).
  eapply update_groups_Forall2; [| |exact H]; [intros y _; apply keeps_refl|].
  intros k ups i d' Hf Hin. cbv beta zeta in Hf. apply bind_Ok in Hf as (? & _ & Hf).
  destruct (filterb _ rcs) as [|s0 ss]; [apply Ok_inj in Hf as <-; set_solver|].
  eapply apportion_keeps in Hf as (d & Hd & Hk); [|exact Hin]. exists d. split; [|done].
  by apply elem_of_members in Hd as [Hd _].
Qed.
Lemma add_suppliers_keeps ord t a b data data' :
  add_suppliers_to_markets ord t a b data = Ok data' -> Forall2 keeps data data'.
Proof.
  intros H. unfold add_suppliers_to_markets in H.
  eapply update_groups_Forall2; [| |exact H]; [intros y _; apply keeps_refl|].
  intros k ups i d' Hf Hin. cbv beta zeta in Hf.
  destruct (filterb _ (members _ k data)) as [|c0 cs] eqn:E; [apply Ok_inj in Hf as <-; set_solver|].
  apply bind_Ok in Hf as (? & _ & Hf). eapply apportion_keeps in Hf as (d & Hd & Hk); [|exact Hin]. exists d. split; [|done].
  rewrite <- E in Hd. apply filterb_In in Hd as [Hd _]. by apply elem_of_members in Hd as [Hd _].
Qed.
Lemma update_volume_keeps d d' : update_volume d = Ok d' -> keeps d d'.
Proof.
  intros H. unfold update_volume in H. apply bind_Ok in H as (pv & _ & H). apply bind_Ok in H as (l & _ & H).
  apply bind_Ok in H as (o & _ & <-%Ok_inj). apply keeps_rp_pv.
Qed.
Lemma propagate_keeps ds pv d d' : propagate ds pv d = Ok d' -> keeps d d'.
Proof.
  intros H. unfold propagate in H. destruct (bool_decide _); [apply Ok_inj in H as <-; apply keeps_refl|].
  apply bind_Ok in H as (l & _ & H). destruct l as [|s0 l]; [apply Ok_inj in H as <-; apply keeps_refl|].
  apply bind_Ok in H as (? & _ & H). apply bind_Ok in H as (code & _ & <-%Ok_inj). apply keeps_suppliers.
Qed.
Lemma update_market_volumes_keeps t kind data data' :
  update_market_production_volumes t kind data = Ok data' -> Forall2 keeps data data'.
Proof.
  intros H. unfold update_market_production_volumes in H. destruct (bool_decide _).
  - apply bind_Ok in H as (order & _ & H). revert data H. induction order as [|i order IH]; intros data H.
    + cbn [foldR] in H. apply Ok_inj in H as <-. apply keeps_all_refl.
    + cbn [foldR] in H. apply bind_Ok in H as (d1 & Hd1 & H). eapply Forall2_transitive; [exact keeps_trans| |by apply IH].
      unfold update_group_step in Hd1. apply bind_Ok in Hd1 as (ds & Hds & Hd1). apply bind_Ok in Hd1 as (ds' & Hds' & Hd1).
      apply bind_Ok in Hd1 as (pv & _ & Hd1). cbv zeta in Hd1.
      destruct (data !! i) as [ds0|] eqn:Ei; [|discriminate]. apply Ok_inj in Hds as ->. apply update_volume_keeps in Hds'.
      eapply Forall2_transitive; [exact keeps_trans| |].
      * rewrite <- (list_insert_id data i ds Ei) at 1. apply Forall2_insert; [apply keeps_all_refl|exact Hds'].
      * eapply keeps_mapR; [|exact Hd1]. intros d d' Hp. cbn beta in Hp. destruct (is_type kind d); [by eapply propagate_keeps|].
        apply Ok_inj in Hp as <-. apply keeps_refl.
  - eapply keeps_mapR; [|exact H]. intros d d' Hp. cbn beta in Hp. destruct (is_type kind d).
    + by apply update_volume_keeps.
    + apply Ok_inj in Hp as <-. apply keeps_refl.
Qed.
Lemma input_of_inputs make total s new : (forall f e, make f s = Ok e -> e_type e = FromTechnosphere) ->
  input_of make total s = Ok new -> Forall (fun e => e_type e = FromTechnosphere) new.
Proof.
  intros Hm H. unfold input_of in H. apply bind_Ok in H as (pv & _ & H). apply bind_Ok in H as (f & _ & H).
  destruct (Qctruthy f); [|by apply Ok_inj in H as <-]. apply bind_Ok in H as (e & He & <-%Ok_inj).
  constructor; [by eapply Hm|done].
Qed.
Lemma inputs_of make total suppliers new : (forall f s e, make f s = Ok e -> e_type e = FromTechnosphere) ->
  concat_mapR (input_of make total) suppliers = Ok new -> Forall (fun e => e_type e = FromTechnosphere) new.
Proof.
  intros Hm H. apply concat_mapR_Ok in H as (rs & HF & ->). apply Forall_concat.
  induction HF as [|s r ss rs Hr _ IH]; [constructor|]. constructor; [|done]. eapply input_of_inputs; [|exact Hr]. intros f e. apply Hm.
Qed.
Lemma market_input_type a s e : market_input a s = Ok e -> e_type e = FromTechnosphere.
Proof. intros H. apply bind_Ok in H as (c & _ & <-%Ok_inj). done. Qed.
Lemma consumer_input_type ln exc f s e : consumer_input ln exc f s = Ok e -> e_type e = FromTechnosphere.
Proof. intros H. apply bind_Ok in H as (n & _ & H). apply bind_Ok in H as (c & _ & <-%Ok_inj). done. Qed.
Lemma allocate_keeps d d' : allocate_suppliers d = Ok d' -> keeps d d'.
Proof.
  intros H. unfold allocate_suppliers in H. apply bind_Ok in H as (exc & _ & H). apply bind_Ok in H as (l & _ & H).
  apply bind_Ok in H as (vs & _ & H). destruct vs as [[suppliers total]|]; [|apply Ok_inj in H as <-; apply keeps_refl].
  apply bind_Ok in H as (new & Hnew & <-%Ok_inj). eapply keeps_trans; [|apply keeps_suppliers].
  split; [done|]. split; [|done]. rewrite !others_bares. cbn [d_exchanges set_d_exchanges]. rewrite bares_app, (bares_inputs new).
  - apply app_nil_r.
  - eapply inputs_of; [|exact Hnew]. intros f s e. apply market_input_type.
Qed.
Lemma allocate_all_keeps kind data data' :
  allocate_all_market_suppliers kind data = Ok data' -> Forall2 keeps data data'.
Proof.
  apply keeps_mapR. intros d d' H. destruct (is_type kind d).
  - by apply allocate_keeps.
  - apply Ok_inj in H as <-. apply keeps_refl.
Qed.
Lemma group_link_keeps t data data' : link_market_group_suppliers t data = Ok data' -> Forall2 keeps data data'.
Proof.
  intros H. unfold link_market_group_suppliers in H. apply bind_Ok in H as (ks & _ & H). apply bind_Ok in H as (? & _ & H).
  eapply update_groups_Forall2; [| |exact H]; [intros y _; apply keeps_refl|].
  intros k ups i d' Hf Hin. cbv beta in Hf. apply bind_Ok in Hf as (markets & Hm & Hf). unfold link_group in Hf. cbv zeta in Hf.
  apply bind_Ok in Hf as (row & _ & Hf). apply bind_Ok in Hf as (ordered & _ & Hf). apply mapR_Ok in Hf.
  apply elem_of_list_lookup in Hin as [m Hmm].
  destruct (Forall2_lookup_r _ _ _ _ _ Hf Hmm) as ([j d] & Hg & Hd). apply elem_of_list_lookup_2, filterb_In in Hg as [Hg _].
  apply bind_Ok in Hd as (sup & Hsup & E). apply Ok_inj in E. injection E as <- <-. cbn [fst snd] in *.
  apply elem_of_members in Hg as [Hg _]. exists d. split; [done|]. apply keeps_suppliers.
Qed.
Lemma rc_consumers_keeps data data' :
  link_consumers_to_recycled_content_activities data = Ok data' -> Forall2 keeps data data'.
Proof.
  intros H. unfold link_consumers_to_recycled_content_activities in H. apply bind_Ok in H as (producers & _ & H).
  revert H. apply keeps_mapR. intros d d' H. apply bind_Ok in H as (es & Hes & <-%Ok_inj). apply keeps_exchanges.
  apply mapR_Ok in Hes. eapply Forall2_impl; [exact Hes|]. cbn beta. intros e e' He. unfold link_rc in He.
  destruct (unlinked e); [|apply Ok_inj in He as <-; apply alike_refl].
  destruct (filterb _ producers) as [|p [|? ?]]; [apply Ok_inj in He as <-; apply alike_refl| |apply Ok_inj in He as <-; apply alike_refl].
  apply bind_Ok in He as (c & _ & <-%Ok_inj). by right.
Qed.
Lemma rp_codes_keeps data data' : add_reference_product_codes data = Ok data' -> Forall2 keeps data data'.
Proof.
  apply keeps_mapR. intros d d' H. apply bind_Ok in H as (? & _ & H). apply bind_Ok in H as (rp & _ & <-%Ok_inj).
  apply keeps_exchanges, alike_map. intros e. destruct (bool_decide _); by right.
Qed.
Lemma decide_inputs ln exc chosen new : decide_input ln exc chosen = Ok (Many new) ->
  Forall (fun e => e_type e = FromTechnosphere) new.
Proof.
  intros H. unfold decide_input in H. destruct chosen as [|d1 [|d2 ds]]; [discriminate|by apply bind_Ok in H as (c & _ & H)|].
  apply bind_Ok in H as (vs & _ & H). destruct vs as [[suppliers total]|]; [|discriminate].
  apply bind_Ok in H as (new' & Hnew & H). apply Ok_inj in H. injection H as ->.
  eapply inputs_of; [|exact Hnew]. intros f s e. apply consumer_input_type.
Qed.
Lemma fold_bares ln t mapping loc row todo acc r :
  (forall p, p ∈ todo -> e_type p.2 = FromTechnosphere) ->
  foldR (link_inputs_step ln t mapping loc row) acc todo = Ok r ->
  bares (map snd r.2.1) = bares (map snd acc.2.1).
Proof.
  revert acc. induction todo as [|[i exc] todo IH]; intros acc Ht H.
  - cbn [foldR] in H. by apply Ok_inj in H as <-.
  - cbn [foldR] in H. apply bind_Ok in H as (a & Ha & H). unfold link_inputs_step in Ha. cbn [fst snd] in Ha.
    apply bind_Ok in Ha as (cs & _ & Ha). apply bind_Ok in Ha as (chosen & _ & Ha). apply bind_Ok in Ha as (dec & Hdec & <-%Ok_inj).
    rewrite (IH _ (fun p Hp => Ht p (elem_of_list_further _ _ _ Hp)) H). cbn [snd].
    assert (e_type exc = FromTechnosphere) as He by (apply (Ht (i, exc)); by left).
    destruct dec as [|c|new]; cbn [apply_decision fst]; [done| |].
    + apply bares_alike. generalize acc.2.1 as l. clear. induction l as [|[o x] l IH]; cbn [map]; [constructor|].
      constructor; [|done]. cbn [fst snd]. destruct (bool_decide _); by right.
    + apply decide_inputs in Hdec. rewrite <- (app_nil_r (bares (map snd acc.2.1))), <- (bares_inputs new Hdec), <- bares_app.
      assert (map snd (acc.2.1 ++ map (fun e => (@None nat, e)) new) = map snd acc.2.1 ++ new) as <-.
      { rewrite map_app, map_map. cbn [snd]. by rewrite map_id. }
      generalize (acc.2.1 ++ map (fun e => (@None nat, e)) new) as l. intros l.
      assert (map snd (filterb (fun ox : option nat * exchange => bool_decide (ox.2 <> exc)) l) =
              filterb (fun e => bool_decide (e <> exc)) (map snd l)) as ->.
      { unfold filterb. induction l as [|[o x] l IHl]; [done|]. cbn [List.filter map snd].
        destruct (bool_decide (x <> exc)); cbn [map snd]; by rewrite IHl. }
      apply bares_drop. intros e _ E. apply bool_decide_eq_false, dec_stable in E. by rewrite E.
Qed.
Lemma link_dataset_keeps ln t mapping data before d r :
  link_dataset ln t mapping data before d = Ok r -> keeps d r.2.
Proof.
  intros H. unfold link_dataset in H. destruct (is_type MarketGroup d); [apply Ok_inj in H as <-; apply keeps_refl|].
  apply bind_Ok in H as (row & _ & H). cbv zeta in H. apply bind_Ok in H as (a & Ha & <-%Ok_inj). cbn [snd].
  apply fold_bares in Ha.
  - cbn [fst snd] in Ha. rewrite map_map in Ha. cbn [snd] in Ha.
    assert (map (fun x : nat * exchange => x.2) (indexed (d_exchanges d)) = d_exchanges d) as Ei by apply indexed_snd.
    rewrite Ei in Ha.
    assert (keeps d (set_d_exchanges (map snd a.2.1) d)) as Hk.
    { split; [done|]. split; [|done]. rewrite !others_bares. exact Ha. }
    destruct a.2.2; [|done]. eapply keeps_trans; [exact Hk|apply keeps_suppliers].
  - intros p Hp. apply filterb_In in Hp as [_ Hp]. unfold unlinked in Hp. apply andb_prop in Hp as [Hp _].
    by apply bool_decide_eq_true in Hp.
Qed.
Lemma consumers_keeps ln t data data' : link_consumers_to_markets ln t data = Ok data' -> Forall2 keeps data data'.
Proof.
  intros H. unfold link_consumers_to_markets in H. apply bind_Ok in H as (ks & _ & H). cbv zeta in H.
  apply bind_Ok in H as (r & Hr & <-%Ok_inj). revert Hr. generalize (map (fun g => (g.1, map snd g.2)) (groupby ks)) as mapping.
  intros mapping Hr.
  assert (forall l acc r, foldR (fun acc ds => let? r := link_dataset ln t mapping data acc.1 ds in
                         Ok (r.1, acc.2 ++ [r.2])) acc l = Ok r ->
    exists new, r.2 = acc.2 ++ new /\ Forall2 keeps l new) as Hgen.
  { clear. induction l as [|d l IH]; intros acc r H.
    - cbn [foldR] in H. apply Ok_inj in H as <-. exists []. by rewrite app_nil_r.
    - cbn [foldR] in H. apply bind_Ok in H as (a & Ha & H). apply bind_Ok in Ha as (x & Hx & <-%Ok_inj).
      apply link_dataset_keeps in Hx. apply IH in H as (new & E & HF).
      exists (x.2 :: new). cbn [snd] in E. rewrite E, <- app_assoc. split; [done|]. by constructor. }
  destruct (Hgen data (None, []) r Hr) as (new & E & HF). cbn [snd app] in E. by rewrite E.
Qed.
Lemma prune_keeps data data' : prune_suppliers_by_technology_level data = Ok data' -> Forall2 keeps data data'.
Proof.
  apply keeps_mapR. intros d d' H. unfold prune_dataset in H.
  destruct (_ || _); [|apply Ok_inj in H as <-; apply keeps_refl].
  destruct (d_suppliers d) as [[|s0 l]|]; [apply Ok_inj in H as <-; apply keeps_refl| |apply Ok_inj in H as <-; apply keeps_refl].
  apply bind_Ok in H as (best & _ & H). destruct best; [discriminate|]. apply Ok_inj in H as <-. apply keeps_suppliers.
Qed.
Lemma log_delete_keeps data : Forall (fun d => dataset_code_truthy d = true) data ->
  Forall2 keeps data (log_and_delete_unlinked_exchanges data).
Proof.
  induction 1 as [|d data H _ IH]; [constructor|]. constructor; [|done]. split; [done|]. split; [|done].
  rewrite !others_bares. cbn [d_exchanges set_d_exchanges]. apply bares_drop. intros e _ E. congruence.
Qed.
Lemma label_keeps data data' : label_reference_product data = Ok data' -> Forall2 keeps data data'.
Proof. apply keeps_mapR. intros d d' H. by apply bind_Ok in H as (rp & _ & <-%Ok_inj). Qed.
Lemma fake_keeps data data' : assign_fake_pv_to_confidential_datasets data = Ok data' -> Forall2 keeps data data'.
Proof.
  apply keeps_mapR. intros d d' H. destruct (_ && _).
  - apply bind_Ok in H as (rp & _ & H). apply bind_Ok in H as (? & _ & <-%Ok_inj). apply keeps_rp_pv.
  - by apply Ok_inj in H as <-.
Qed.
Lemma codes_keeps md5 data coded : add_unique_codes md5 data = Ok coded ->
  Forall2 (fun d d' => d' = set_d_code (d_code d') d) data coded /\ Forall (fun d => exists s, d_code d = Some (md5 s)) coded.
Proof.
  intros H. destruct (add_unique_codes_spec md5 data) as [Hs _]. destruct (Hs coded H) as [-> _]. split.
  - clear. induction data; cbn [map]; by constructor.
  - apply Forall_fmap, Forall_forall. intros d _. unfold compose. by eexists.
Qed.

(** *** The location *)
Lemma linked_keeps_r d1 d2 d3 : linked_from d1 d2 -> keeps d2 d3 -> linked_from d1 d3.
Proof. intros (A & B & C) (A' & B' & C' & _). split; [congruence|]. split; [congruence|]. by rewrite C'. Qed.
Lemma keeps_linked d1 d2 d3 : keeps d1 d2 -> linked_from d2 d3 -> linked_from d1 d3.
Proof. intros (A & B & C & _) (A' & B' & C'). split; [congruence|]. split; [congruence|]. by rewrite <- C. Qed.
Lemma keeps_linked_from d d' : keeps d d' -> linked_from d d'.
Proof. intros (A & B & C & _). split; [done|]. split; [done|]. by left. Qed.
Lemma gas_location d d' : d' = (if is_type Transforming d
       && (d_name d =? "transport, pipeline, long distance, natural gas")%string
       && (d_location d =? "RER w/o DE+NL+NO")%string
    then set_d_location "RER w/o DE+NL+NO+RU" d else d) -> linked_from d d'.
Proof.
  intros ->. destruct (is_type _ _ && _ && _) eqn:E; [|by apply keeps_linked_from].
  apply andb_prop in E as [_ E]. apply String.eqb_eq in E. split; [done|]. split; [done|]. right. by right.
Qed.
Lemma relabel_linked data data' : relabel_global_to_row data = Ok data' ->
  Forall2 (fun d d' => frame d' = frame d /\ others d' = others d /\
    (d_location d' = d_location d \/ (d_location d = "GLO" /\ d_location d' = "RoW"))%string) data data'.
Proof.
  intros H. eapply update_groups_Forall2; [| |exact H].
  - intros d _. split; [done|]. split; [done|by left].
  - intros k ups i d' Hf Hin. unfold relabel_group in Hf.
    destruct (match members row_key k data with p :: _ => is_type MarketGroup p.2 | [] => false end); [apply Ok_inj in Hf as <-; set_solver|].
    destruct (members row_key k data) as [|p1 [|p2 ps]] eqn:Em; [apply Ok_inj in Hf as <-; set_solver|apply Ok_inj in Hf as <-; set_solver|].
    rewrite <- Em in Hf. destruct (filterb is_glo _) as [|[j glo] [|? ?]] eqn:Eg; [apply Ok_inj in Hf as <-; set_solver| |discriminate].
    cbv zeta in Hf. apply bind_Ok in Hf as (rp & _ & Hf). apply bind_Ok in Hf as (v & _ & <-%Ok_inj).
    apply elem_of_list_singleton in Hin. injection Hin as -> ->.
    assert ((j, glo) ∈ [(j, glo)]) as Hj by set_solver. rewrite <- Eg in Hj. apply filterb_In in Hj as [Hj Hglo].
    apply elem_of_members in Hj as [Hj _]. exists glo. split; [done|].
    match goal with |- context [set_rp_pv ?f glo] => pose proof (keeps_rp_pv f glo) as (A & B & C & _) end.
    split; [exact A|]. split; [exact B|]. right. split; [|done].
    unfold is_glo in Hglo. by apply String.eqb_eq in Hglo.
Qed.

(** *** Everything, up to the codes and from the codes on *)
Definition from (R : dataset -> dataset -> Prop) (data out : list dataset) : Prop :=
  exists base, sublist base data /\ Forall2 R base out /\ filter local base = filter local data.
Notation from_sublist := (from linked_from).
Lemma step_by (R S T : dataset -> dataset -> Prop) data cur next : (forall a b c, R a b -> S b c -> T a c) ->
  from R data cur -> Forall2 S cur next -> from T data next.
Proof.
  intros Ht (base & Hs & HF & HL) HK. exists base. split; [done|]. split; [|done]. clear Hs HL. revert next HK.
  induction HF as [|d d' base cur H _ IH]; intros next HK; inversion HK as [|? d'' ? next' H' HK']; subst; [constructor|].
  constructor; [by eapply Ht|by apply IH].
Qed.
Lemma step_keeps data cur next : from_sublist data cur -> Forall2 keeps cur next -> from_sublist data next.
Proof. apply step_by. exact linked_keeps_r. Qed.
Lemma sublist_filterb {A} (p : A -> bool) l : sublist (filterb p l) l.
Proof. unfold filterb. induction l as [|x l IH]; [constructor|]. cbn [List.filter]. destruct (p x); by constructor. Qed.
Lemma step_filter (R : dataset -> dataset -> Prop) data cur p :
  (forall d d', d' ∈ cur -> R d d' -> local d -> p d' = true) -> from R data cur -> from R data (filterb p cur).
Proof.
  intros Hp (base & Hs & HF & HL).
  assert (exists base', sublist base' base /\ Forall2 R base' (filterb p cur) /\ filter local base' = filter local base)
    as (base' & Hs' & HF' & HL').
  { clear Hs HL. unfold filterb. induction HF as [|d d' base cur H _ IH]; [exists []; split_and!; [constructor..|done]|].
    destruct IH as (b & H1 & H2 & H3); [intros x x' Hx; apply Hp; by right|]. cbn [List.filter]. destruct (p d') eqn:E.
    - exists (d :: b). split; [by constructor|]. split; [by constructor|]. rewrite !filter_cons. destruct (decide (local d)); congruence.
    - exists b. split; [by constructor|]. split; [done|]. rewrite filter_cons. destruct (decide (local d)) as [Hl|Hl]; [|done].
      rewrite (Hp d d') in E; [discriminate|by left|done|done]. }
  exists base'. split; [by etransitivity|]. split; [done|]. congruence.
Qed.
Lemma from_refl data : from keeps data data.
Proof. exists data. split; [done|]. split; [apply keeps_all_refl|done]. Qed.
Lemma step_gas data cur : from keeps data cur -> from_sublist data (correct_natural_gas_pipeline_location cur).
Proof.
  intros H. eapply (step_by keeps linked_from); [exact keeps_linked|exact H|]. clear H. unfold correct_natural_gas_pipeline_location.
  induction cur as [|d cur IH]; cbn [map]; constructor; [by apply gas_location|done].
Qed.
Lemma step_relabel data cur next : from_sublist data cur -> relabel_global_to_row cur = Ok next -> from_sublist data next.
Proof.
  intros HF H. apply relabel_linked in H. eapply step_by; [|exact HF|exact H]. cbn beta.
  intros d d' d'' (A & B & C) (A' & B' & C'). split; [congruence|]. split; [congruence|].
  destruct C' as [E|[E1 E2]]; [by rewrite E|]. destruct C as [C|[[C1 C2]|[C1 C2]]].
  - right. left. rewrite <- C. done.
  - rewrite E1 in C2. discriminate.
  - rewrite E1 in C2. discriminate.
Qed.
Lemma step_codes data cur next : from_sublist data cur ->
  Forall2 (fun d d' => d' = set_d_code (d_code d') d) cur next -> from_sublist data next.
Proof. apply step_by. intros d d' d'' (A & B & C) ->. done. Qed.

(** Before the labels change the location. *)
Lemma early data d1 d3 : label_reference_product data = Ok d1 ->
  assign_fake_pv_to_confidential_datasets (delete_whitelisted_zero_pv_market_datsets d1) = Ok d3 -> from keeps data d3.
Proof.
  intros H1 H3. apply label_keeps in H1. apply fake_keeps in H3. eapply (step_by keeps keeps); [exact keeps_trans| |exact H3].
  apply step_filter.
  - intros d d' _ (_ & _ & E & _) [Hl _]. rewrite E. destruct (String.eqb_spec (d_location d) "GLO"); [done|]. by rewrite andb_false_r.
  - eapply (step_by keeps keeps); [exact keeps_trans|apply from_refl|exact H1].
Qed.
Lemma kept_from data cur : from keeps data cur -> from_sublist data cur.
Proof. intros (base & Hs & HF & HL). exists base. split; [done|]. split; [|done]. eapply Forall2_impl; [exact HF|]. apply keeps_linked_from. Qed.
Lemma purged_row kind data ks d : keyed (typed_refprod [kind]) data = Ok ks ->
  d ∈ concat (map (fun g => idle_row (map snd g.2)) (groupby ks)) -> d_location d = "RoW"%string.
Proof.
  intros Hks H. apply elem_of_list_In, in_concat in H as (r & Hr & Hin).
  apply elem_of_list_In, elem_of_list_fmap in Hr as ([k xs] & -> & Hg). apply elem_of_list_In in Hin. cbn [snd] in Hin.
  unfold idle_row in Hin. destruct (map snd xs) as [|a [|b l]]; [set_solver|set_solver|].
  destruct (List.find _ _) as [row|] eqn:Ef; [|set_solver].
  assert (d = row) as ->.
  { destruct (original_production_volume row) as [v|]; [destruct (Qctruthy v)|]; set_solver. }
  apply List.find_some in Ef as [_ El]. by apply String.eqb_eq in El.
Qed.

Section nonempty.
Context (md5 : string -> string) (Hmd5 : forall s, md5 s <> ""%string).
Definition coded_by (d : dataset) : Prop := exists s, d_code d = Some (md5 s).
Lemma coded_truthy d : coded_by d -> dataset_code_truthy d = true.
Proof. intros [s E]. unfold dataset_code_truthy. rewrite E. destruct (String.eqb_spec (md5 s) "") as [E'|]; [by apply Hmd5 in E'|done]. Qed.
Definition inv (data cur : list dataset) : Prop := from_sublist data cur /\ Forall coded_by cur.
Lemma inv_keeps data cur next : inv data cur -> Forall2 keeps cur next -> inv data next.
Proof.
  intros [I1 I2] HK. split; [by eapply step_keeps|]. clear I1. induction HK as [|d d' cur next (_ & _ & _ & E) _ IH]; [constructor|].
  apply Forall_cons in I2 as [[s Hs] I2]. constructor; [|by apply IH]. exists s. congruence.
Qed.
Lemma inv_delete data cur next kind : inv data cur ->
  delete_global_with_zero_pv_when_regional_present kind cur = Ok next -> inv data next.
Proof.
  intros [I1 I2] H. apply bind_Ok in H as (ks & Hks & <-%Ok_inj). split.
  - apply step_filter; [|exact I1]. intros d d' Hd (_ & _ & HR) [L1 L2]. apply bool_decide_eq_true. intros Hin.
    apply (purged_row kind cur ks d' Hks) in Hin. rewrite Hin in HR. destruct HR as [HR|[[HR _]|[_ HR]]]; congruence.
  - rewrite Forall_forall in *. intros d Hd. apply filterb_In in Hd as [Hd _]. by apply I2.
Qed.
Lemma inv_end data cur : inv data cur -> from_sublist data (log_and_delete_unlinked_exchanges cur).
Proof.
  intros [I1 I2]. eapply step_keeps; [exact I1|]. apply log_delete_keeps. eapply Forall_impl; [exact I2|]. apply coded_truthy.
Qed.

Lemma pv_untouched ln ord t data out : link_markets_by_pv md5 ln ord t data = Ok out ->
  exists base, sublist base data /\ Forall2 linked_from base out /\ filter local base = filter local data.
Proof.
  intros H. unfold link_markets_by_pv in H. apply bind_Ok in H as (d1 & E1 & H). cbv zeta in H.
  apply bind_Ok in H as (d3 & E3 & H). apply bind_Ok in H as (d5 & E5 & H). apply bind_Ok in H as (d6 & E6 & H).
  apply bind_Ok in H as (d7 & E7 & H).
  assert (inv data d7) as I.
  { apply codes_keeps in E7 as [E7 C7]. split; [|exact C7]. eapply step_codes; [|exact E7].
    unfold check_no_row_market_groups in E6. apply bind_Ok in E6 as (? & _ & <-%Ok_inj).
    eapply step_relabel; [|exact E5].
    apply step_gas. by eapply early. }
  apply bind_Ok in H as (d8 & E8 & H). apply actualize_keeps in E8. eapply inv_keeps in I; [|exact E8].
  apply bind_Ok in H as (d9 & E9 & H). apply rc_suppliers_keeps in E9. eapply inv_keeps in I; [|exact E9].
  apply bind_Ok in H as (d10 & E10 & H). apply add_suppliers_keeps in E10. eapply inv_keeps in I; [|exact E10].
  apply bind_Ok in H as (d11 & E11 & H). apply update_market_volumes_keeps in E11. eapply inv_keeps in I; [|exact E11].
  apply bind_Ok in H as (d12 & E12 & H). eapply inv_delete in I; [|exact E12].
  apply bind_Ok in H as (d13 & E13 & H). eapply inv_delete in I; [|exact E13].
  apply bind_Ok in H as (d14 & E14 & H). apply allocate_all_keeps in E14. eapply inv_keeps in I; [|exact E14].
  apply bind_Ok in H as (d15 & E15 & H). apply group_link_keeps in E15. eapply inv_keeps in I; [|exact E15].
  apply bind_Ok in H as (d16 & E16 & H). apply update_market_volumes_keeps in E16. eapply inv_keeps in I; [|exact E16].
  apply bind_Ok in H as (d17 & E17 & H). apply allocate_all_keeps in E17. eapply inv_keeps in I; [|exact E17].
  apply bind_Ok in H as (d18 & E18 & H). apply rc_consumers_keeps in E18. eapply inv_keeps in I; [|exact E18].
  apply bind_Ok in H as (d19 & E19 & H). apply consumers_keeps in E19. eapply inv_keeps in I; [|exact E19].
  apply bind_Ok in H as (d20 & E20 & H). apply rp_codes_keeps in E20. eapply inv_keeps in I; [|exact E20].
  apply Ok_inj in H as <-. by apply inv_end.
Qed.
Lemma tech_untouched ln ord t data out : link_markets_by_technology_level md5 ln ord t data = Ok out ->
  exists base, sublist base data /\ Forall2 linked_from base out /\ filter local base = filter local data.
Proof.
  intros H. unfold link_markets_by_technology_level in H.
  apply bind_Ok in H as (d1 & E1 & H). cbv zeta in H. apply bind_Ok in H as (d3 & E3 & H).
  apply bind_Ok in H as (d5 & E5 & H). apply bind_Ok in H as (d7 & E7 & H).
  assert (inv data d7) as I.
  { apply codes_keeps in E7 as [E7 C7]. split; [|exact C7]. eapply step_codes; [|exact E7].
    eapply step_relabel; [|exact E5]. apply kept_from. by eapply early. }
  apply bind_Ok in H as (d8 & E8 & H). apply actualize_keeps in E8. eapply inv_keeps in I; [|exact E8].
  apply bind_Ok in H as (d10 & E10 & H). apply add_suppliers_keeps in E10. eapply inv_keeps in I; [|exact E10].
  apply bind_Ok in H as (d11 & E11 & H). apply prune_keeps in E11. eapply inv_keeps in I; [|exact E11].
  apply bind_Ok in H as (d12 & E12 & H). apply update_market_volumes_keeps in E12. eapply inv_keeps in I; [|exact E12].
  apply bind_Ok in H as (d13 & E13 & H). apply add_suppliers_keeps in E13. eapply inv_keeps in I; [|exact E13].
  apply bind_Ok in H as (d14 & E14 & H). apply update_market_volumes_keeps in E14. eapply inv_keeps in I; [|exact E14].
  apply bind_Ok in H as (d15 & E15 & H). apply allocate_all_keeps in E15. eapply inv_keeps in I; [|exact E15].
  eapply inv_keeps in I; [|apply (keeps_map (set_d_suppliers None)); intros d; apply keeps_suppliers].
  apply bind_Ok in H as (d19 & E19 & H). apply consumers_keeps in E19. eapply inv_keeps in I; [|exact E19].
  apply Ok_inj in H as <-. by apply inv_end.
Qed.
End nonempty.
