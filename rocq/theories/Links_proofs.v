From Verif Require Import Base Types Uncertainty Utils Spec_Utils Utils_proofs Strings StringFacts
  Cutoff GroupUpdate Locations Spec_Links Cutoff_proofs SingleOutput_proofs RestOfWorld_proofs.


Lemma refprod_filter data n l :
  filterR (fun ds => let? rp := refprod ds in Ok (rp =? n)%string) data = Ok l <->
  Forall (fun ds => is_Some (d_refprod ds)) data /\ l = filter (fun ds => d_refprod ds = Some n) data.
Proof.
  rewrite filterR_Ok. unfold refprod.
  assert (forall ds, is_ok (let? rp := getkey "reference product" (d_refprod ds) in Ok (rp =? n)%string) = true
     <-> is_Some (d_refprod ds)) as E.
  { intros ds. destruct (d_refprod ds) as [rp|]; cbn.
    - split; [by eexists|done].
    - split; [done|]. by intros [? ?]. }
  setoid_rewrite E. apply and_iff_compat_l.
  assert (filterb (okb (fun ds => let? rp := getkey "reference product" (d_refprod ds) in Ok (rp =? n)%string)) data
    = filter (fun ds => d_refprod ds = Some n) data) as ->; [|done].
  apply filterb_filter. intros ds _. unfold okb. destruct (d_refprod ds) as [rp|]; cbn; [|done].
  destruct (String.eqb_spec rp n); symmetry; [by apply bool_decide_eq_true_2; congruence|].
  apply bool_decide_eq_false_2. congruence.
Qed.

Lemma targets_none data e : (forall i, ~ links_to e i) -> targets data e = [].
Proof.
  intros H. unfold targets. apply filter_none. apply Forall_forall. intros ds _ [Hl _]. by eapply H.
Qed.
Lemma targets_link data e i : links_to e i ->
  targets data e = filter (fun ds => d_refprod ds = Some (e_name e)) (filter (fun ds => d_id ds = i) data).
Proof.
  intros [Hl Hi]. unfold targets. rewrite list_filter_filter. apply list_filter_iff.
  intros ds. unfold links_to. rewrite Hl. naive_solver.
Qed.

Lemma actualize_link_spec data e e' :
  actualize_link data e = Ok e' ->
  coded_by (targets data e) e e' /\
  (forall i, links_to e i -> exists ds, ds ∈ data /\ d_id ds = i).
Proof.
  unfold actualize_link. intros H. destruct (e_link e) as [i|] eqn:El.
  2:{ apply Ok_inj in H as <-. rewrite targets_none; [|intros i [? _]; congruence].
      split; [done|]. intros i [? _]. congruence. }
  destruct (String.eqb_spec i "") as [->|Hi].
  { apply Ok_inj in H as <-. rewrite targets_none; [|intros i [? ?]; congruence].
    split; [done|]. intros i [? ?]. congruence. }
  assert (links_to e i) as Hl by done.
  rewrite (targets_link _ _ _ Hl). rewrite (filterb_filter (fun ds => d_id ds = i)) in H.
  2:{ intros ds _. destruct (String.eqb_spec (d_id ds) i); symmetry;
      [by apply bool_decide_eq_true_2|by apply bool_decide_eq_false_2]. }
  assert (filter (fun ds => d_id ds = i) data <> [] /\
    (let? refs := filterR (fun ds => let? rp := refprod ds in Ok (rp =? e_name e)%string)
       (filter (fun ds => d_id ds = i) data) in
     match refs with
     | [ds] => let? c := getkey "code" (d_code ds) in Ok (set_e_code (Some c) e)
     | _ => Ok e
     end) = Ok e') as [Hne H'].
  { destruct (filter _ data); [done|]. split; [done|exact H]. }
  clear H. apply bind_Ok in H' as (refs & Hr & H). apply refprod_filter in Hr as [_ ->].
  split.
  - unfold coded_by. destruct (filter _ (filter _ data)) as [|ds [|? ?]].
    + by apply Ok_inj in H as <-.
    + destruct (d_code ds) as [c|]; [|done]. cbn in H. apply Ok_inj in H as <-.
      split; [by eexists|done].
    + by apply Ok_inj in H as <-.
  - intros i' [Hi' _]. rewrite El in Hi'. injection Hi' as <-.
    destruct (filter _ data) as [|ds l] eqn:E; [done|].
    assert (ds ∈ filter (fun ds => d_id ds = i) data) as Hin by (rewrite E; by left).
    apply elem_of_list_filter in Hin as [? ?]. by exists ds.
Qed.

Lemma actualize_link_total data e :
  Forall (fun ds => is_Some (d_refprod ds) /\ is_Some (d_code ds)) data ->
  (exists e', actualize_link data e = Ok e') \/
  (exists i, actualize_link data e = Err (KeyError i) /\ links_to e i /\ forall ds, ds ∈ data -> d_id ds <> i).
Proof.
  intros Hall. unfold actualize_link. destruct (e_link e) as [i|] eqn:El; [|left; eexists; reflexivity].
  destruct (String.eqb_spec i "") as [->|Hi]; [left; eexists; reflexivity|].
  rewrite (filterb_filter (fun ds => d_id ds = i)).
  2:{ intros ds _. destruct (String.eqb_spec (d_id ds) i); symmetry;
      [by apply bool_decide_eq_true_2|by apply bool_decide_eq_false_2]. }
  assert (Forall (fun ds => is_Some (d_refprod ds) /\ is_Some (d_code ds)) (filter (fun ds => d_id ds = i) data)) as Hg.
  { apply Forall_forall. intros ds [_ Hin]%elem_of_list_filter. rewrite Forall_forall in Hall. by apply Hall. }
  destruct (filter (fun ds => d_id ds = i) data) as [|d0 l0] eqn:E.
  - right. exists i. split; [done|]. split; [done|]. intros ds Hin Hd.
    assert (ds ∈ filter (fun ds => d_id ds = i) data) as Hc by by apply elem_of_list_filter.
    rewrite E in Hc. by apply elem_of_nil in Hc.
  - left. assert (Forall (fun ds => is_Some (d_refprod ds)) (d0 :: l0)) as Hg1.
    { eapply Forall_impl; [exact Hg|]. by intros ? [? ?]. }
    rewrite (proj2 (refprod_filter (d0 :: l0) (e_name e) _) (conj Hg1 eq_refl)).
    cbn [bind]. destruct (filter _ (d0 :: l0)) as [|ds [|? ?]] eqn:E2; [eexists; reflexivity| |eexists; reflexivity].
    assert (ds ∈ filter (fun ds => d_refprod ds = Some (e_name e)) (d0 :: l0)) as Hc by (rewrite E2; by left).
    apply elem_of_list_filter in Hc as [_ Hc]. rewrite Forall_forall in Hg. apply Hg in Hc as [_ [c Hc]].
    rewrite Hc. cbn. eexists; reflexivity.
Qed.

Lemma actualize_spec data data' : actualize_activity_links data = Ok data' ->
  Forall2 (exchanges_by (fun e e' => coded_by (targets data e) e e')) data data' /\
  forall i, ~ dangling data i.
Proof.
  unfold actualize_activity_links. intros H. apply mapR_Ok in H. split.
  - eapply Forall2_impl; [exact H|]. intros ds ds' (es & Hes & <-%Ok_inj)%bind_Ok.
    exists es. split; [done|]. apply mapR_Ok in Hes. eapply Forall2_impl; [exact Hes|].
    intros e e' He. by apply actualize_link_spec in He as [? _].
  - intros i [(ds & e & Hds & He & Hl) Hno].
    apply elem_of_list_lookup in Hds as [k Hk]. destruct (Forall2_lookup_l _ _ _ _ _ H Hk) as (ds' & _ & Hd).
    apply bind_Ok in Hd as (es & Hes & _). apply mapR_Ok in Hes.
    apply elem_of_list_lookup in He as [m Hm]. destruct (Forall2_lookup_l _ _ _ _ _ Hes Hm) as (e' & _ & He).
    apply actualize_link_spec in He as [_ He]. destruct (He _ Hl) as (d & Hd & Hi). by apply (Hno d).
Qed.

Lemma actualize_total data :
  Forall (fun ds => is_Some (d_refprod ds) /\ is_Some (d_code ds)) data ->
  (exists data', actualize_activity_links data = Ok data') \/
  (exists i, actualize_activity_links data = Err (KeyError i) /\ dangling data i).
Proof.
  intros Hall. destruct (actualize_activity_links data) as [data'|x] eqn:E; [left; by eexists|right].
  unfold actualize_activity_links in E. apply mapR_Err in E as (l1 & ds & l2 & Hl & Hds & _).
  destruct (mapR (actualize_link data) (d_exchanges ds)) as [es|y] eqn:Ee; [done|].
  cbn in Hds. injection Hds as <-. apply mapR_Err in Ee as (e1 & e & e2 & He & Hx & _).
  destruct (actualize_link_total data e Hall) as [[e' He']|(i & Hi & Hl' & Hno)]; [congruence|].
  exists i. split; [congruence|]. split; [|done]. exists ds, e.
  split; [rewrite Hl; set_solver|]. split; [rewrite He; set_solver|done].
Qed.

(** *** Recycled content *)
Lemma unlinked_open e : unlinked e = bool_decide (open_input e).
Proof.
  symmetry. destruct (unlinked e) eqn:E.
  - apply bool_decide_eq_true_2. unfold unlinked, code_truthy in E. apply andb_true_iff in E as [E1 E2].
    apply bool_decide_eq_true in E1. split; [done|]. destruct (e_code e) as [c|]; [|by left].
    destruct (String.eqb_spec c "") as [Ec|Ec]; [rewrite Ec; by right|done].
  - apply bool_decide_eq_false_2. intros [Ht Hc]. unfold unlinked, code_truthy in E.
    rewrite bool_decide_eq_true_2 in E by done. destruct Hc as [Hc|Hc]; rewrite Hc in E; done.
Qed.

Lemma rc_producers_spec data ps : rc_producers data = Ok ps ->
  Forall (fun ds => is_Some (d_refprod ds)) data /\
  forall n, map snd (filterb (fun p : string * dataset => (p.1 =? n)%string) ps)
    = filter (fun ds => d_type ds = Transforming /\ d_refprod ds = Some n /\ occurs RC_STRING n) data.
Proof.
  unfold rc_producers, concat_mapR. intros (rs & Hrs & <-%Ok_inj)%bind_Ok. apply mapR_Ok in Hrs.
  induction Hrs as [|ds r data rs Hr _ [IH1 IH2]]; [done|].
  apply bind_Ok in Hr as (rp & Hrp & <-%Ok_inj). unfold refprod in Hrp.
  destruct (d_refprod ds) as [rp'|] eqn:E; [|done]. cbn in Hrp. apply Ok_inj in Hrp as ->.
  split; [constructor; [rewrite E; by eexists|done]|]. intros n. cbn [concat].
  rewrite filterb_app, map_app, IH2, filter_cons, E.
  assert (str_contains RC_STRING rp = bool_decide (occurs RC_STRING rp)) as ->.
  { destruct (str_contains RC_STRING rp) eqn:Ec; symmetry.
    - by apply bool_decide_eq_true_2, contains_iff.
    - apply bool_decide_eq_false_2. intros H%contains_iff. congruence. }
  unfold is_type. rewrite <- bool_decide_and.
  destruct (decide (occurs RC_STRING rp /\ d_type ds = Transforming)) as [Hc|Hc].
  - rewrite (bool_decide_eq_true_2 _ Hc). cbn [filterb fst].
    destruct (String.eqb_spec rp n) as [->|Hn].
    + rewrite decide_True by naive_solver. unfold filterb. cbn. by rewrite String.eqb_refl.
    + rewrite decide_False by naive_solver. unfold filterb. cbn.
      rewrite (proj2 (String.eqb_neq rp n) Hn). done.
  - rewrite (bool_decide_eq_false_2 _ Hc). rewrite decide_False by naive_solver. done.
Qed.

Lemma link_rc_spec data ps e e' : rc_producers data = Ok ps -> link_rc ps e = Ok e' ->
  coded_by (recycled_producers RC_STRING data e) e e'.
Proof.
  intros Hps H. apply rc_producers_spec in Hps as [_ Hps]. unfold link_rc in H.
  rewrite unlinked_open in H. unfold recycled_producers, coded_by.
  destruct (decide (open_input e)) as [Ho|Ho].
  - rewrite bool_decide_eq_true_2 in H by done. specialize (Hps (e_name e)).
    assert (filter (fun ds => d_type ds = Transforming /\ d_refprod ds = Some (e_name e) /\ open_input e /\
        occurs RC_STRING (e_name e)) data
      = map snd (filterb (fun p : string * dataset => (p.1 =? e_name e)%string) ps)) as ->.
    { rewrite Hps. apply list_filter_iff. intros ds. tauto. }
    destruct (filterb _ ps) as [|p [|? ?]]; cbn [map].
    + by apply Ok_inj in H as <-.
    + destruct (d_code p.2) as [c|]; [|done]. cbn in H. apply Ok_inj in H as <-. split; [by eexists|done].
    + by apply Ok_inj in H as <-.
  - rewrite bool_decide_eq_false_2 in H by done. apply Ok_inj in H as <-.
    rewrite filter_none; [done|]. apply Forall_forall. intros ds _ Hd. naive_solver.
Qed.

Lemma link_rc_all_spec data data' : link_consumers_to_recycled_content_activities data = Ok data' ->
  Forall2 (exchanges_by (fun e e' => coded_by (recycled_producers RC_STRING data e) e e')) data data'.
Proof.
  unfold link_consumers_to_recycled_content_activities. intros (ps & Hps & H)%bind_Ok.
  apply mapR_Ok in H. eapply Forall2_impl; [exact H|]. intros ds ds' (es & Hes & <-%Ok_inj)%bind_Ok.
  exists es. split; [done|]. apply mapR_Ok in Hes. eapply Forall2_impl; [exact Hes|].
  intros e e' He. by eapply link_rc_spec.
Qed.

(** *** Codes of reference products *)
Lemma refproduct_split l rp : filter is_refproduct l = [rp] ->
  exists before after, l = before ++ rp :: after /\ is_refproduct rp /\
    Forall (fun e => ~ is_refproduct e) (before ++ after).
Proof.
  intros H. assert (filter is_refproduct l = [] ++ rp :: []) as Hs by done.
  apply filter_split in Hs as (b & a & -> & Hb & Ha). exists b, a. split; [done|].
  assert (rp ∈ filter is_refproduct (b ++ rp :: a)) as Hin by (rewrite H; by left).
  apply elem_of_list_filter in Hin as [Hrp _]. split; [done|].
  apply Forall_app. split; apply Forall_forall; intros e He Hc.
  - assert (e ∈ filter is_refproduct b) as He' by by apply elem_of_list_filter.
    rewrite Hb in He'. by apply elem_of_nil in He'.
  - assert (e ∈ filter is_refproduct a) as He' by by apply elem_of_list_filter.
    rewrite Ha in He'. by apply elem_of_nil in He'.
Qed.
Lemma map_refproduct (f : exchange -> exchange) before rp after :
  is_refproduct rp -> Forall (fun e => ~ is_refproduct e) (before ++ after) ->
  map (fun e => if bool_decide (e_type e = RefProduct) then f e else e) (before ++ rp :: after)
  = before ++ f rp :: after.
Proof.
  intros Hrp [Hb Ha]%Forall_app. unfold is_refproduct in *. rewrite map_app. cbn [map].
  rewrite bool_decide_eq_true_2 by done.
  assert (forall l, Forall (fun e => e_type e <> RefProduct) l ->
    map (fun e => if bool_decide (e_type e = RefProduct) then f e else e) l = l) as Hid.
  { induction 1 as [|e l He _ IH]; [done|]. cbn [map]. by rewrite bool_decide_eq_false_2, IH. }
  by rewrite (Hid before), (Hid after).
Qed.

Lemma product_codes_spec data data' : add_reference_product_codes data = Ok data' ->
  Forall2 product_coded data data'.
Proof.
  unfold add_reference_product_codes. intros H. apply mapR_Ok in H.
  eapply Forall2_impl; [exact H|]. clear. intros ds ds' H.
  apply bind_Ok in H as (u & Hu & H). apply bind_Ok in H as (rp & Hrp & <-%Ok_inj).
  unfold assertR in Hu. case_bool_decide as Hc; [|done]. destruct Hc as [c Hc].
  apply get_single_ok in Hrp. apply refproduct_split in Hrp as (b & a & Hs & Hr & Hall).
  exists c, rp, b, a. split; [done|]. split; [done|]. split; [done|]. split; [done|].
  rewrite Hs, Hc. by rewrite map_refproduct.
Qed.
Lemma product_codes_iff data : (exists data', add_reference_product_codes data = Ok data') <->
  Forall (fun ds => is_Some (d_code ds) /\ exists rp, filter is_refproduct (d_exchanges ds) = [rp]) data.
Proof.
  split.
  - intros [data' H]. unfold add_reference_product_codes in H. apply mapR_Ok in H.
    eapply Forall_forall. intros ds [i Hi]%elem_of_list_lookup.
    destruct (Forall2_lookup_l _ _ _ _ _ H Hi) as (ds' & _ & Hd).
    apply bind_Ok in Hd as (u & Hu & Hd). apply bind_Ok in Hd as (rp & Hrp & _).
    unfold assertR in Hu. case_bool_decide as Hc; [|done]. split; [done|]. exists rp.
    by apply get_single_ok.
  - intros H. apply mapR_ok_all. intros ds Hds. rewrite Forall_forall in H.
    apply H in Hds as [[c Hc] [rp Hrp]]. rewrite Hc. cbn.
    rewrite (proj2 (get_single_ok ds rp) Hrp). cbn. eexists; reflexivity.
Qed.

(** *** Deleting unlinked exchanges *)
Lemma delete_unlinked_spec data :
  log_and_delete_unlinked_exchanges data
  = map (fun ds => match d_code ds with
                   | None | Some ""%string => set_d_exchanges [] ds
                   | Some (String _ _) => ds
                   end) data.
Proof.
  unfold log_and_delete_unlinked_exchanges, dataset_code_truthy. apply map_ext. intros ds.
  assert (forall l : list exchange, filterb (fun _ => true) l = l) as H1 by
    (intros l; unfold filterb; induction l as [|? ? IH]; cbn; [done|]; by rewrite IH).
  assert (forall l : list exchange, filterb (fun _ => false) l = []) as H2 by
    (intros l; unfold filterb; induction l as [|? ? IH]; cbn; done).
  destruct (d_code ds) as [[|c s]|] eqn:E; cbn.
  - by rewrite H2.
  - rewrite H1. by destruct ds.
  - by rewrite H2.
Qed.
