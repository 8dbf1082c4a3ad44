(** Proofs for C37. *)
From Verif Require Import Base Types Uncertainty Utils Spec_Utils Utils_proofs Grouping GroupUpdate
  Topology Spec_Topology Topology_proofs Locations Spec_RestOfWorld RestOfWorld_proofs
  Spec_Markets Markets_proofs Spec_Mix Mix_proofs Spec_Consumers Consumers_proofs ConsumerInputs_proofs
  Spec_Groups SingleOutput_proofs Waste_proofs.

Lemma Forall2_impl_l {A B} (P Q : A -> B -> Prop) l k :
  Forall2 P l k -> (forall x y, x ∈ l -> P x y -> Q x y) -> Forall2 Q l k.
Proof. induction 1; intros HQ; constructor; [apply HQ; set_solver|]. apply IHForall2. set_solver. Qed.

Lemma inner_spec t mlocs glocs row order loc found is_market :
  Forall (known t) (mlocs ++ glocs) -> "RoW"%string ∉ glocs -> loc ∈ glocs ->
  (forall c, is_market c = true <-> c ∈ mlocs) ->
  markets_row t mlocs = Ok row ->
  ordered_dependencies t (mlocs ++ glocs) (Some row) = Ok order ->
  collect (fun c found => contains t (PName loc) (PName c) found (Some row))
    (fun c => is_market c || negb (c =? loc)%string) [] order = Ok found ->
  inner_places t mlocs glocs loc found.
Proof.
  intros Hk Hg Hloc Hm Hrow Ho H.
  assert (larger_first t mlocs glocs order) as HL by by eapply larger_first_spec.
  rewrite Forall_forall in Hk.
  assert (loc <> "RoW"%string) as Hlr by (intros ->; done).
  destruct (Hk loc) as [?|[f Hf]]; [set_solver|done|].
  exists order. split; [done|]. apply collect_spec in H as (l & -> & Hsub & Hl); [|apply HL]. cbn [app].
  split; [done|]. intros before c after E. destruct (Hl before c after E) as (b & Hb & ->). clear Hl.
  cbn [app] in Hb. rewrite andb_true_iff, orb_true_iff, Hm, negb_true_iff, String.eqb_neq.
  assert (forall d, d ∈ order -> known t d) as Hord.
  { intros d Hd. apply Hk. rewrite elem_of_app. by apply HL. }
  assert (b = true <-> ((c <> "RoW"%string /\ exists f g, t !! loc = Some f /\ t !! c = Some g /\ g ⊆ f /\
            forall d h, d ∈ before -> d ∈ l -> d <> "RoW"%string -> t !! d = Some h -> g ## h) \/
         (c = "RoW"%string /\ loc = "GLO"%string /\ forall d, d ∈ before -> d ∉ l))) as ->; [|tauto].
  destruct (decide (c = "RoW"%string)) as [->|Hc].
  - rewrite contains_row in Hb. apply Ok_inj in Hb as <-. rewrite bool_decide_eq_true. split.
    + intros [E1 E2]. injection E1 as ->. right. split; [done|]. split; [done|].
      intros d Hd Hdl. assert (d ∈ filter (fun d => d ∈ l) before) as Hin by by apply elem_of_list_filter.
      rewrite E2 in Hin. by apply elem_of_nil in Hin.
    + intros [[? _]|(_ & -> & Hno)]; [done|]. split; [done|].
      destruct (filter (fun d => d ∈ l) before) as [|d r] eqn:Ef; [done|].
      assert (d ∈ filter (fun d => d ∈ l) before) as Hin by (rewrite Ef; set_solver).
      apply elem_of_list_filter in Hin as [H1 H2]. by destruct (Hno d H2).
  - destruct (Hord c) as [?|[g Hg']]; [rewrite E; set_solver|done|].
    edestruct (contains_name t (PName loc) f c g (filter (fun d => d ∈ l) before) (Some row)) as (b' & Hb' & Hiff).
    { by constructor. }
    { intros E'. by injection E' as ->. }
    { done. } { done. }
    { apply Forall_forall. intros d Hd. apply elem_of_list_filter in Hd as [_ Hd]. apply Hord. rewrite E. set_solver. }
    rewrite Hb in Hb'. apply Ok_inj in Hb' as <-. rewrite Hiff. split.
    + intros Hx. left. split; [done|]. exists f, g. split; [done|]. split; [done|]. split; [intros x Hxg; by apply Hx|].
      intros d h Hd Hdl Hdn Hh x Hxg Hxh. apply (Hx x Hxg). apply covered_filter. by exists d, h.
    + intros [(_ & f' & g' & Ef & Eg & Hs & Hdis)|[? _]]; [|done]. rewrite Hf in Ef. apply Some_inj in Ef as <-.
      rewrite Hg' in Eg. apply Some_inj in Eg as <-. intros x Hxg. split; [by apply Hs|].
      intros Hcov. apply covered_filter in Hcov as (d & h & Hd & Hdl & Hdn & Hh & Hxh).
      by apply (Hdis d h Hd Hdl Hdn Hh x).
Qed.

Lemma isort_strongly {A} (leb : A -> A -> bool) l :
  (forall a b, leb a b = true \/ leb b a = true) -> (forall a b c, leb a b = true -> leb b c = true -> leb a c = true) ->
  StronglySorted (fun a b => leb a b = true) (isort leb l).
Proof. intros. by apply isort_sorted. Qed.

Lemma supply_annotate sup s : (let? rp := get_single_reference_product sup in Ok (annotate_exchange rp sup)) = Ok s ->
  supply_of sup s.
Proof. intros (rp & Hrp & <-%Ok_inj)%bind_Ok. by eapply annotate_supply. Qed.

Lemma by_location_is c group : (match by_location c group with Some _ => true | None => false end = true) <->
  c ∈ map d_location group.
Proof.
  unfold by_location. rewrite (filterb_filter (fun x => d_location x = c)) by (intros; apply eqb_decide).
  destruct (last _) as [d|] eqn:E.
  - split; [|done]. intros _. apply last_Some_elem_of, elem_of_list_filter in E as [E1 E2].
    apply elem_of_list_fmap. by exists d.
  - split; [done|]. intros (d & -> & Hd)%elem_of_list_fmap. apply last_None in E.
    assert (d ∈ filter (fun x => d_location x = d_location d) group) as Hin by by apply elem_of_list_filter.
    rewrite E in Hin. by apply elem_of_nil in Hin.
Qed.
Lemma seller_at_lookup product data c m :
  getkey c (match by_location c (sellers MarketActivity product data) with
            | Some d => Some d
            | None => by_location c (sellers MarketGroup product data)
            end) = Ok m -> seller_at product data c m.
Proof.
  intros Hm. unfold seller_at. destruct (by_location c (sellers MarketActivity product data)) as [d|] eqn:E.
  - apply by_location_Some in E as [_ E]. apply Ok_inj in Hm as ->. by left.
  - right. split.
    + unfold by_location in E. rewrite (filterb_filter (fun x => d_location x = c)) in E by (intros; apply eqb_decide).
      by apply last_None in E.
    + destruct (by_location c (sellers MarketGroup product data)) as [d|] eqn:E'; [|discriminate].
      apply by_location_Some in E' as [_ E']. by apply Ok_inj in Hm as ->.
Qed.

Lemma group_suppliers_spec t product data row order loc l :
  let markets := sellers MarketActivity product data in
  let groups := sellers MarketGroup product data in
  Forall (known t) (map d_location markets ++ map d_location groups) ->
  "RoW"%string ∉ map d_location groups -> loc ∈ map d_location groups ->
  markets_row t (map d_location markets) = Ok row ->
  ordered_dependencies t (map d_location markets ++ map d_location groups) (Some row) = Ok order ->
  group_suppliers t markets groups row order loc = Ok l ->
  group_supplied t product data loc l.
Proof.
  intros markets groups Hk Hg Hloc Hrow Ho H. unfold group_suppliers in H.
  apply bind_Ok in H as (found & Hfound & H). apply bind_Ok in H as (objs & Hobjs & H).
  apply bind_Ok in H as (coded & Hcoded & H).
  exists found, (map snd (isort code_leb coded)).
  apply mapR_Ok in Hobjs, Hcoded, H.
  assert (Forall2 (seller_at product data) found objs) as HS.
  { eapply Forall2_impl; [exact Hobjs|]. intros c m. apply seller_at_lookup. }
  assert (Forall2 (fun d cd => d_code d = Some cd.1 /\ cd.2 = d) objs coded) as HC.
  { eapply Forall2_impl; [exact Hcoded|]. cbn beta. intros d cd (c & Hc & <-%Ok_inj)%bind_Ok.
    unfold getkey in Hc. destruct (d_code d) as [c'|]; [|discriminate]. apply Ok_inj in Hc as ->. done. }
  assert (map snd coded = objs) as Hsnd.
  { clear -HC. induction HC as [|d cd ds cds [_ E] _ IH]; [done|]. cbn [map]. by rewrite E, IH. }
  assert (isort code_leb coded ≡ₚ coded) as HP by (apply isort_perm).
  assert (map snd (isort code_leb coded) ≡ₚ objs) as HP2 by (rewrite <- Hsnd; by rewrite HP).
  split_and!.
  - eapply inner_spec; [exact Hk|exact Hg|exact Hloc| |exact Hrow|exact Ho|exact Hfound].
    intros c. apply by_location_is.
  - apply Forall_forall. intros m Hm. rewrite HP2 in Hm. apply elem_of_list_lookup in Hm as [i Hi].
    destruct (Forall2_lookup_r _ _ _ _ _ HS Hi) as (c & Hc & Hs). exists c. split; [|done].
    by eapply elem_of_list_lookup_2.
  - rewrite HP2. clear -HS. induction HS as [|c m cs ms Hs _ IH]; [done|]. cbn [map].
    apply seller_at_in in Hs as (_ & _ & ->). by rewrite IH.
  - assert (Forall (fun cd : string * dataset => d_code cd.2 = Some cd.1) (isort code_leb coded)) as HF.
    { rewrite HP. clear -HC. induction HC as [|d cd ds cds [H E] _ IH]; constructor; [by rewrite E|done]. }
    assert (StronglySorted (fun a b => code_leb a b = true) (isort code_leb coded)) as HSo.
    { apply isort_strongly; unfold code_leb.
      - intros a b. apply str_leb_total.
      - intros a b c. apply str_leb_trans. }
    revert HF HSo. generalize (isort code_leb coded) as r. intros r HF HSo.
    induction HSo as [|a r HSo IH Ha]; [constructor|]. apply Forall_cons in HF as [Hfa HF].
    cbn [map]. constructor; [by apply IH|]. apply Forall_fmap. apply Forall_forall. intros b Hb.
    rewrite Forall_forall in Ha, HF. exists a.1, b.1. split; [done|]. split; [by apply HF|]. by apply Ha.
  - apply Forall2_fmap_l. eapply Forall2_impl; [exact H|]. cbn beta. intros cd s. apply supply_annotate.
Qed.

Lemma filterb_markets product data markets :
  filterR (fun ds => if is_type MarketActivity ds
        then let? r := refprod ds in Ok (r =? product)%string else Ok false) data = Ok markets ->
  markets = sellers MarketActivity product data.
Proof.
  unfold sellers. revert markets. induction data as [|d data IH]; intros markets H; cbn [filterR] in H.
  - by apply Ok_inj in H as <-.
  - apply bind_Ok in H as (b & Hb & H). apply bind_Ok in H as (r & Hr & H).
    apply IH in Hr as ->. apply Ok_inj in H as <-. rewrite filter_cons. unfold is_type in Hb.
    destruct (decide (d_type d = MarketActivity)) as [Ht|Ht].
    + rewrite bool_decide_eq_true_2 in Hb by done. apply bind_Ok in Hb as (r & Hr & <-%Ok_inj).
      unfold refprod, getkey in Hr. destruct (d_refprod d) as [r'|] eqn:Er; [|discriminate]. apply Ok_inj in Hr as ->.
      destruct (String.eqb_spec r product) as [->|Hne].
      * by rewrite decide_True.
      * rewrite decide_False; [done|]. naive_solver.
    + rewrite bool_decide_eq_false_2 in Hb by done. apply Ok_inj in Hb as <-. rewrite decide_False; [done|tauto].
Qed.

Lemma members_groups product data :
  members (typed_refprod [MarketGroup]) product data
  = filter (fun q : nat * dataset => d_type q.2 = MarketGroup /\ d_refprod q.2 = Some product) (indexed data).
Proof. unfold members. apply list_filter_iff. intros q. rewrite typed_refprod_key, elem_of_list_singleton. done. Qed.

Lemma last_there_spec product data p : p ∈ members (typed_refprod [MarketGroup]) product data ->
  match last (filterb (fun q => (d_location q.2 =? d_location p.2)%string)
               (members (typed_refprod [MarketGroup]) product data)) with
  | Some q => (q.1 =? p.1)%nat
  | None => false
  end = true <-> last_there product data p.1 p.2.
Proof.
  intros Hp. unfold last_there.
  rewrite (filterb_filter (fun q : nat * dataset => d_location q.2 = d_location p.2)) by (intros; apply eqb_decide).
  rewrite members_groups, list_filter_filter.
  rewrite (list_filter_iff (fun q : nat * dataset => d_location q.2 = d_location p.2 /\ d_type q.2 = MarketGroup /\ d_refprod q.2 = Some product)
    (fun q => d_type q.2 = MarketGroup /\ d_refprod q.2 = Some product /\ d_location q.2 = d_location p.2)) by (intros; tauto).
  destruct (last _) as [q|] eqn:E; [|done].
  rewrite Nat.eqb_eq. apply last_Some_elem_of, elem_of_list_filter in E as [_ E].
  destruct p as [i d], q as [j d']. apply elem_of_members in Hp as [Hp _]. apply elem_of_indexed in E.
  cbn [fst snd]. split; [intros ->; f_equal; f_equal; congruence|]. intros H. by injection H as -> ->.
Qed.

Lemma link_groups_spec t data data' :
  Forall (fun d => known t (d_location d)) data ->
  (forall d, d ∈ data -> d_type d = MarketGroup -> d_location d <> "RoW"%string) ->
  link_market_group_suppliers t data = Ok data' ->
  length data' = length data /\
  forall i ds, data !! i = Some ds -> exists ds', data' !! i = Some ds' /\
    (d_type ds <> MarketGroup -> ds' = ds) /\
    forall p, d_type ds = MarketGroup -> d_refprod ds = Some p ->
      (~ last_there p data i ds -> ds' = ds) /\
      (last_there p data i ds -> exists l, group_supplied t p data (d_location ds) l /\
         ds' = set_d_suppliers (match l with [] => None | _ => Some l end) ds).
Proof.
  intros Hk Hrow H. unfold link_market_group_suppliers in H.
  apply bind_Ok in H as (ks & Hks & H). apply bind_Ok in H as (u & _ & H).
  set (f := fun (rp : string) (group : list (nat * dataset)) => _) in H.
  rewrite Forall_forall in Hk.
  assert (forall k ups, f k (members (typed_refprod [MarketGroup]) k data) = Ok ups ->
    Forall2 (fun p u => u.1 = p.1 /\ exists l, group_supplied t k data (d_location p.2) l /\
         u.2 = set_d_suppliers (match l with [] => None | _ => Some l end) p.2)
      (filter (fun p : nat * dataset => last_there k data p.1 p.2) (members (typed_refprod [MarketGroup]) k data)) ups) as Hf.
  { intros k ups Hups. unfold f in Hups. apply bind_Ok in Hups as (markets & Hm & Hups).
    apply filterb_markets in Hm as ->. unfold link_group in Hups.
    assert (map snd (members (typed_refprod [MarketGroup]) k data) = sellers MarketGroup k data) as Hgs.
    { rewrite members_snd. unfold sellers. apply list_filter_iff. intros d. rewrite typed_refprod_key, elem_of_list_singleton. done. }
    rewrite Hgs in Hups. apply bind_Ok in Hups as (row & Hr & Hups). apply bind_Ok in Hups as (order & Ho & Hups).
    rewrite (filterb_filter (fun p : nat * dataset => last_there k data p.1 p.2)) in Hups.
    2:{ intros p Hp. apply eq_bool_prop_intro. rewrite !Is_true_true, bool_decide_eq_true. by apply last_there_spec. }
    apply mapR_Ok in Hups. 
    assert (forall kind c, c ∈ map d_location (sellers kind k data) -> exists d, d ∈ data /\ d_type d = kind /\ d_location d = c) as Hin.
    { intros kind c (d & -> & Hd)%elem_of_list_fmap. apply elem_of_list_filter in Hd as [[? _] Hd]. by exists d. }
    assert (Forall (known t) (map d_location (sellers MarketActivity k data) ++ map d_location (sellers MarketGroup k data))) as Hkn.
    { apply Forall_forall. intros c Hc. apply elem_of_app in Hc as [Hc|Hc]; destruct (Hin _ _ Hc) as (d & Hd & _ & <-); by apply Hk. }
    assert ("RoW"%string ∉ map d_location (sellers MarketGroup k data)) as Hnr.
    { intros Hc. destruct (Hin _ _ Hc) as (d & Hd & Ht & E). by apply (Hrow d). }
    eapply Forall2_impl_l; [exact Hups|]. cbn beta. intros p u' Hp Hu.
    apply bind_Ok in Hu as (l & Hl & <-%Ok_inj). split; [done|]. exists l. split; [|done].
      eapply group_suppliers_spec; [exact Hkn|exact Hnr| |exact Hr|exact Ho|exact Hl].
      apply elem_of_list_filter in Hp as [_ Hp]. rewrite <- Hgs. rewrite map_map.
      apply elem_of_list_fmap. by exists p. }
  assert (forall (cs : list (nat * dataset)) (ups : list (nat * dataset)) (R : nat * dataset -> nat * dataset -> Prop),
    Forall2 (fun p u => u.1 = p.1 /\ R p u) cs ups -> map fst ups = map fst cs) as Hfst.
  { clear. intros cs ups R. induction 1 as [|p u cs ups [H _] _ IH]; [done|]. cbn. by rewrite H, IH. }
  pose proof (update_groups_spec _ f data data' H) as [Hlen Hall].
  { intros k ups Hups. apply Hf, Hfst in Hups. rewrite Hups. split; [apply NoDup_map_filter, members_fst|].
    intros i (q & -> & Hq)%elem_of_list_fmap. apply elem_of_list_filter in Hq as [_ Hq]. apply elem_of_list_fmap. by exists q. }
  split; [done|]. intros i ds Hi. destruct (Hall i ds Hi) as [[Hkey Hd]|(k & ups & Hkey & Hfk & Hd)].
  - exists ds. split; [done|]. split; [done|]. intros p Ht Hp. exfalso.
    apply typed_refprod_Ok in Hkey as [(_ & [? ?] & ?)|[Hn _]]; [congruence|]. set_solver.
  - apply Hf in Hfk.
    apply typed_refprod_Ok in Hkey as [(Ht & _ & Hkey)|[_ Hkey]]; [|congruence].
    apply elem_of_list_singleton in Ht.
    assert (d_refprod ds = Some k) as Hrk by congruence.
    assert ((i, ds) ∈ members (typed_refprod [MarketGroup]) k data) as Hmem.
    { apply elem_of_members. split; [done|]. apply typed_refprod_key. rewrite elem_of_list_singleton. done. }
    destruct Hd as [[Hn Hd]|(ds' & Hin & Hd)].
    + exists ds. split; [done|]. split; [done|]. intros p _ Hp. rewrite Hrk in Hp. apply Some_inj in Hp as <-.
      split; [done|]. intros Hlast. exfalso. apply Hn. rewrite (Hfst _ _ _ Hfk).
      apply elem_of_list_fmap. exists (i, ds). split; [done|]. by apply elem_of_list_filter.
    + exists ds'. split; [done|]. split; [done|]. intros p _ Hp. rewrite Hrk in Hp. apply Some_inj in Hp as <-.
      apply elem_of_list_lookup in Hin as [m Hm].
      destruct (Forall2_lookup_r _ _ _ _ _ Hfk Hm) as ([j d] & Hj & Hij & l & Hl & Hs).
      cbn [fst snd] in *. subst j. apply elem_of_list_lookup_2, elem_of_list_filter in Hj as [Hlast Hj].
      apply elem_of_members in Hj as [Hj _]. rewrite Hi in Hj. apply Some_inj in Hj as <-.
      cbn [fst snd] in Hlast. split; [done|]. intros _. by exists l.
Qed.

Lemma group_names t data data' a b : link_market_group_suppliers t data = Ok data' ->
  a ∈ data -> b ∈ data -> d_type a = MarketGroup -> d_type b = MarketGroup ->
  d_refprod a = d_refprod b -> d_name a = d_name b.
Proof.
  intros H Ha Hb Hta Htb Hr. unfold link_market_group_suppliers in H.
  apply bind_Ok in H as (ks & Hks & H). apply bind_Ok in H as (u & Hu & _).
  destruct (keyed_Ok _ _ _ Hks) as (Hall & Hkeys & Hwith).
  rewrite Forall_forall in Hall. destruct (Hall a Ha) as [o Ho].
  apply typed_refprod_Ok in Ho as [(_ & [k Hk] & _)|[Hn _]]; [|exfalso; set_solver].
  destruct (groupby_spec ks) as (_ & Hgk & Hgx).
  assert (k ∈ map fst ks) as Hin.
  { apply Hkeys. exists a. split; [done|]. apply typed_refprod_Ok. left. rewrite Hk. split; [set_solver|]. by split; [eexists|]. }
  apply Hgk, elem_of_list_fmap in Hin as ([k' xs] & -> & Hin). cbn [fst] in *.
  pose proof (proj1 (iterR_Ok _ _ _) Hu) as Hc. 
  rewrite Forall_forall in Hc. specialize (Hc _ Hin). cbn [snd] in Hc.
  apply Hgx in Hin as [_ ->]. rewrite Hwith in Hc.
  assert (forall d, d ∈ data -> d_type d = MarketGroup -> d_refprod d = Some k' ->
    d ∈ map snd (members (typed_refprod [MarketGroup]) k' data)) as Hmem.
  { intros d Hd Ht Hp. rewrite members_snd. apply elem_of_list_filter. split; [|done]. apply typed_refprod_key. set_solver. }
  assert (a ∈ map snd (members (typed_refprod [MarketGroup]) k' data)) as Hma by by apply Hmem.
  assert (b ∈ map snd (members (typed_refprod [MarketGroup]) k' data)) as Hmb by (apply Hmem; congruence).
  unfold assertR in Hc. destruct (consistent_names _) eqn:E; [|discriminate].
  unfold consistent_names in E. destruct (members _ _ _) as [|p l]; [by apply elem_of_nil in Hma|].
  rewrite forallb_forall in E.
  assert (forall d, d ∈ map snd (p :: l) -> d_name d = d_name p.2) as Hn.
  { intros d (q & -> & Hq)%elem_of_list_fmap. apply String.eqb_eq, E. by apply elem_of_list_In. }
  rewrite (Hn a Hma). by rewrite (Hn b Hmb).
Qed.

(** *** Geometry *)
Lemma inner_in t mlocs glocs loc found c : inner_places t mlocs glocs loc found -> c ∈ found ->
  (c ∈ mlocs \/ c ∈ glocs) /\ (c ∈ mlocs \/ c <> loc) /\
  ((c <> "RoW"%string /\ exists f g, t !! loc = Some f /\ t !! c = Some g /\ g ⊆ f) \/
   (c = "RoW"%string /\ loc = "GLO"%string)).
Proof.
  intros (order & HL & Hsub & HT) Hc.
  assert (c ∈ order) as Ho.
  { eapply sublist_submseteq, elem_of_submseteq in Hsub; [exact Hsub|exact Hc]. }
  destruct (elem_of_list_split order c Ho) as (before & after & E).
  destruct (proj1 (HT before c after E) Hc) as [H1 H2]. split; [by apply HL|]. split; [done|].
  destruct H2 as [(? & f & g & ? & ? & ? & _)|(? & ? & _)]; [left|by right]. split; [done|]. by exists f, g.
Qed.

Lemma inner_disjoint t mlocs glocs loc found a b g h : inner_places t mlocs glocs loc found ->
  a ∈ found -> b ∈ found -> a <> b -> a <> "RoW"%string -> b <> "RoW"%string ->
  t !! a = Some g -> t !! b = Some h -> g ## h.
Proof.
  intros (order & HL & Hsub & HT) Ha Hb Hab Han Hbn Hg Hh.
  assert (forall x, x ∈ found -> x ∈ order) as Hin.
  { intros x Hx. eapply sublist_submseteq, elem_of_submseteq in Hsub; [exact Hsub|exact Hx]. }
  assert (forall a b g h, a ∈ found -> b ∈ found -> a <> "RoW"%string -> b <> "RoW"%string ->
    t !! a = Some g -> t !! b = Some h -> (exists before after, order = before ++ b :: after /\ a ∈ before) -> g ## h)
    as Hpair.
  { clear -HT. intros a b g h Ha Hb Han Hbn Hg Hh (before & after & E & Hab).
    destruct (proj1 (HT before b after E) Hb) as [_ [(_ & f & h' & _ & Hh' & _ & Hdis)|[? _]]]; [|done].
    rewrite Hh in Hh'. apply Some_inj in Hh' as <-.
    intros x Hx Hx'. by apply (Hdis a g Hab Ha Han Hg x). }
  destruct (elem_of_list_split order b (Hin b Hb)) as (before & after & E).
  assert (a ∈ before \/ a ∈ after) as [Hpos|Hpos].
  { pose proof (Hin a Ha) as H. rewrite E in H. set_solver. }
  - eapply (Hpair a b); try done. by exists before, after.
  - intros x Hx Hx'. eapply (Hpair b a h g Hb Ha Hbn Han Hh Hg); [|exact Hx'|exact Hx].
    apply elem_of_list_split in Hpos as (l1 & l2 & ->). exists (before ++ b :: l1), l2.
    split; [rewrite E, <- app_assoc; done|]. set_solver.
Qed.

Lemma route_inside t mlocs glocs sup m g a l f :
  "RoW"%string ∉ glocs ->
  (forall a, a ∈ glocs -> inner_places t mlocs glocs a (sup a)) ->
  a ∈ glocs -> m <> "RoW"%string -> t !! m = Some g -> t !! a = Some f ->
  route sup mlocs m a l -> g ⊆ f.
Proof.
  intros Hrow Hsup Ha Hm Hg Hf HR. revert f Hf Ha. induction HR as [a HR|a b l Hb Hnb HR IH]; intros f Hf Ha.
  - destruct (inner_in _ _ _ _ _ _ (Hsup a Ha) HR) as (_ & _ & [(_ & f' & g' & Hf' & Hg' & Hs)|[? _]]); [|done].
    rewrite Hf in Hf'. rewrite Hg in Hg'. apply Some_inj in Hf' as <-, Hg' as <-. done.
  - destruct (inner_in _ _ _ _ _ _ (Hsup a Ha) Hb) as (Hin & _ & [(_ & f' & g' & Hf' & Hg' & Hs)|[-> Hglo]]).
    + rewrite Hf in Hf'. apply Some_inj in Hf' as <-. transitivity g'; [|done]. apply IH; [done|]. tauto.
    + destruct Hin as [?|Hin]; done.
Qed.

Lemma route_unique t mlocs glocs sup m g a l1 l2 :
  "RoW"%string ∉ glocs ->
  (forall a, a ∈ glocs -> inner_places t mlocs glocs a (sup a)) ->
  a ∈ glocs -> m ∈ mlocs -> m <> "RoW"%string -> t !! m = Some g -> g <> ∅ ->
  route sup mlocs m a l1 -> route sup mlocs m a l2 -> l1 = l2.
Proof.
  intros Hrow Hsup Ha Hmm Hm Hg Hne H1. revert l2 Ha.
  assert (forall a b, a ∈ glocs -> b ∈ sup a -> b ∉ mlocs ->
    b <> "RoW"%string /\ b ∈ glocs /\ exists h, t !! b = Some h) as Hstep.
  { intros x y Hx Hy Hym. destruct (inner_in _ _ _ _ _ _ (Hsup x Hx) Hy) as ([?|Hin] & _ & HH); [done|].
    destruct HH as [(Hn & f' & g' & Hf' & Hg' & Hs)|[-> _]]; [|done]. split; [done|]. split; [done|]. by exists g'. }
  assert (forall x y h, x ∈ glocs -> y ∈ sup x -> m ∈ sup x -> y ∉ mlocs -> t !! y = Some h -> ~ g ⊆ h) as Hno.
  { intros x y h Hx Hy Hmx Hym Hh Hs. destruct (Hstep x y Hx Hy Hym) as (Hyr & _).
    assert (g ## h) as Hd.
    { eapply (inner_disjoint t mlocs glocs x (sup x) m y); eauto. by intros ->. }
    apply Hne. set_solver. }
  induction H1 as [a H1|a b l Hb Hnb HR IH]; intros l2 Ha H2.
  - inversion H2 as [a' Hd|a' b l' Hb Hnb HR]; subst; [done|]. exfalso.
    destruct (Hstep a b Ha Hb Hnb) as (Hbr & Hbg & h & Hh).
    apply (Hno a b h Ha Hb H1 Hnb Hh). by apply (route_inside t mlocs glocs sup m g b l' h).
  - destruct (Hstep a b Ha Hb Hnb) as (Hbr & Hbg & h & Hh).
    assert (g ⊆ h) as Hs by by apply (route_inside t mlocs glocs sup m g b l h).
    inversion H2 as [a' Hd|a' b' l' Hb' Hnb' HR']; subst.
    + exfalso. by apply (Hno a b h Ha Hb Hd Hnb Hh).
    + destruct (Hstep a b' Ha Hb' Hnb') as (Hbr' & Hbg' & h' & Hh').
      assert (g ⊆ h') as Hs' by by apply (route_inside t mlocs glocs sup m g b' l' h').
      destruct (decide (b = b')) as [->|Hbb].
      * f_equal. by apply IH.
      * exfalso. assert (h ## h') as Hd by (eapply (inner_disjoint t mlocs glocs a (sup a) b b'); eauto).
        apply Hne. set_solver.
Qed.

(** No two suppliers of a group overlap, and none is the group itself. *)
Lemma group_supplied_inside t product data loc l :
  group_supplied t product data loc l ->
  forall s, s ∈ l -> exists m, m ∈ data /\ sells product m /\ supply_of m s /\
    (d_type m = MarketActivity \/ d_location m <> loc) /\
    ((exists f g, t !! loc = Some f /\ t !! d_location m = Some g /\ g ⊆ f) \/
     (d_location m = "RoW"%string /\ loc = "GLO"%string)).
Proof.
  intros (found & ms & Hin & HS & _ & _ & HF) s Hs. apply elem_of_list_lookup in Hs as [i Hi].
  destruct (Forall2_lookup_r _ _ _ _ _ HF Hi) as (m & Hm & Hsup). apply elem_of_list_lookup_2 in Hm.
  rewrite Forall_forall in HS. destruct (HS m Hm) as (c & Hc & Hat). destruct (seller_at_in _ _ _ _ Hat) as (Hd & Hsell & <-).
  destruct (inner_in _ _ _ _ _ _ Hin Hc) as (_ & Hself & Hwhere). exists m. do 3 (split; [done|]). split.
  - destruct Hself as [Hself|?]; [|by right]. left.
    unfold product_places in Hself. destruct Hat as [Hat|[Hat _]].
    + apply last_Some_elem_of, elem_of_list_filter in Hat as [_ Hat]. by apply elem_of_list_filter in Hat as [[? _] _].
    + exfalso. apply elem_of_list_fmap in Hself as (d & Ed & Hself).
      assert (d ∈ filter (fun d => d_location d = d_location m) (sellers MarketActivity product data)) as Hx
        by by apply elem_of_list_filter. rewrite Hat in Hx. by apply elem_of_nil in Hx.
  - destruct Hwhere as [(_ & H)|H]; [by left|by right].
Qed.
Lemma group_supplied_disjoint t product data loc l i j s s' m m' :
  group_supplied t product data loc l -> i <> j -> l !! i = Some s -> l !! j = Some s' ->
  supply_of m s -> supply_of m' s' -> d_location m <> "RoW"%string -> d_location m' <> "RoW"%string ->
  forall g h, t !! d_location m = Some g -> t !! d_location m' = Some h -> g ## h.
Proof.
  intros (found & ms & Hin & HS & HP & _ & HF) Hij Hi Hj Hm Hm' Hr Hr' g h Hg Hh.
  destruct (Forall2_lookup_r _ _ _ _ _ HF Hi) as (m0 & Hm0 & Hsup).
  destruct (Forall2_lookup_r _ _ _ _ _ HF Hj) as (m1 & Hm1 & Hsup').
  assert (forall a b s, supply_of a s -> supply_of b s -> d_location a = d_location b) as Hloc.
  { clear. intros a b s (rp & _ & ->) (rp' & _ & E). apply (f_equal e_location) in E.
    cbn [e_location set_e_activity set_e_tech set_e_code set_e_location] in E. by apply Some_inj in E. }
  rewrite (Hloc _ _ _ Hm Hsup) in *. rewrite (Hloc _ _ _ Hm' Hsup') in *.
  assert (NoDup found) as Hnd.
  { destruct Hin as (order & (Hnd & _) & Hsub & _). clear -Hnd Hsub. induction Hsub as [|x l1 l2 Hs IH|x l1 l2 Hs IH]; [done| |].
    - apply NoDup_cons in Hnd as [Hx Hnd]. apply NoDup_cons. split; [|by apply IH].
      intros Hc. apply Hx. eapply sublist_submseteq, elem_of_submseteq in Hs; [exact Hs|exact Hc].
    - apply NoDup_cons in Hnd as [_ Hnd]. by apply IH. }
  assert (NoDup (map d_location ms)) as Hnd' by by rewrite HP.
  assert (d_location m0 <> d_location m1) as Hne.
  { intros E. apply Hij. eapply (NoDup_lookup (map d_location ms)); [done|..].
    - change (map d_location ms) with (d_location <$> ms). rewrite list_lookup_fmap, Hm0. reflexivity.
    - change (map d_location ms) with (d_location <$> ms). rewrite list_lookup_fmap, Hm1, E. reflexivity. }
  assert (forall k x, ms !! k = Some x -> d_location x ∈ found) as Hf.
  { intros k x Hx. rewrite <- HP. apply elem_of_list_fmap. exists x. split; [done|]. by eapply elem_of_list_lookup_2. }
  eapply (inner_disjoint t _ _ loc found (d_location m0) (d_location m1)); eauto.
Qed.
