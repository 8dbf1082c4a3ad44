(** Production volumes of market groups, which may supply each other. *)
From Verif Require Import Base Types Uncertainty Utils Spec_Utils Utils_proofs Grouping GroupUpdate
  Topology Spec_Topology Topology_proofs Locations Spec_Mix
  RestOfWorld_proofs Links_proofs Mix_proofs.

Definition reval (val : gmap string Qc) (s : exchange) : exchange :=
  match e_code s with
  | Some c => match val !! c with
              | Some pv => set_e_pv (Some (set_v_amount pv pvol0)) s
              | None => s
              end
  | None => s
  end.

Lemma reval_code val s : e_code (reval val s) = e_code s.
Proof.
  unfold reval. destruct (e_code s) as [c|] eqn:E; [|by rewrite E].
  destruct (val !! c); [|by rewrite E]. rewrite <- E. reflexivity.
Qed.
Lemma reval_insert val c pv s : val !! c = None ->
  set_supplier_volume (Some c) pv (reval val s) = reval (<[c := pv]> val) s.
Proof.
  intros Hc. unfold set_supplier_volume. rewrite reval_code.
  destruct (decide (e_code s = Some c)) as [E|E].
  - rewrite bool_decide_eq_true_2 by done. unfold reval. rewrite E, Hc, lookup_insert. done.
  - rewrite bool_decide_eq_false_2 by done. unfold reval. destruct (e_code s) as [c'|]; [|done].
    rewrite lookup_insert_ne by congruence. done.
Qed.
Lemma reval_other val c pv s : e_code s <> Some c -> reval (<[c := pv]> val) s = reval val s.
Proof.
  intros E. unfold reval. destruct (e_code s) as [c'|]; [|done].
  rewrite lookup_insert_ne by congruence. done.
Qed.
Lemma set_suppliers_same l ds : d_suppliers ds = Some l -> set_d_suppliers (Some l) ds = ds.
Proof. destruct ds; cbn. by intros ->. Qed.

Lemma revalued_other a b ds ds' : revalued a b ds ds' ->
  d_suppliers ds' = d_suppliers ds /\ d_code ds' = d_code ds /\ d_type ds' = d_type ds /\
  d_location ds' = d_location ds /\ output_volume ds' = Some a /\ taken ds' = taken ds.
Proof.
  intros (rp & v & b' & a' & Hs & Hr & Hv & Hall & ->).
  split; [done|]. split; [done|]. split; [done|]. split; [done|].
  apply Forall_app in Hall as [Hb Ha].
  assert (forall e', is_refproduct e' -> filter is_refproduct (b' ++ e' :: a') = [e']) as Hf.
  { intros e' He. rewrite filter_app, filter_cons_True by done.
    rewrite (Cutoff_proofs.filter_none _ b'), (Cutoff_proofs.filter_none _ a') by done. done. }
  unfold output_volume, taken. cbn [d_exchanges set_d_exchanges]. rewrite Hs, (Hf rp Hr).
  rewrite Hf by exact Hr. cbn [e_pv set_e_pv]. rewrite Hv. done.
Qed.

(** *** The order in which groups are treated *)
Lemma position_lookup l x k : position l x = Ok k -> l !! k = Some x.
Proof.
  unfold position. destruct (list_find _ l) as [[i y]|] eqn:E; [|discriminate].
  intros <-%Ok_inj. apply list_find_Some in E as (E & -> & _). done.
Qed.

Lemma group_order_spec t data order :
  (forall i d, is_group data i d -> exists f, d_location d <> "RoW"%string /\ t !! d_location d = Some f) ->
  group_order t (filterb (fun p => is_type MarketGroup p.2) (indexed data)) = Ok order ->
  NoDup order /\ (forall i, i ∈ order <-> exists d, is_group data i d) /\
  forall pre i post k di dk fi fk, order = pre ++ i :: post -> k ∈ pre ->
    is_group data i di -> is_group data k dk ->
    t !! d_location di = Some fi -> t !! d_location dk = Some fk -> ~ fi ⊂ fk.
Proof.
  intros Hloc H. unfold group_order in H.
  set (gs := filterb _ _) in H.
  assert (forall i d, (i, d) ∈ gs <-> is_group data i d) as Hgs.
  { intros i d. unfold gs, is_group. rewrite filterb_In, elem_of_indexed. unfold is_type. cbn.
    by rewrite bool_decide_eq_true. }
  assert (NoDup (map fst gs)) as Hnd.
  { unfold gs. rewrite (filterb_filter (fun p : nat * dataset => d_type p.2 = MarketGroup)) by done.
    apply NoDup_map_filter, indexed_fst. }
  apply bind_Ok in H as (ordered & Hord & H). apply bind_Ok in H as (ks & Hks & H).
  apply Ok_inj in H as <-. apply mapR_Ok in Hks.
  assert (map snd ks = map fst gs) as Hsnd.
  { clear -Hks. induction Hks as [|p k gs ks Hk _ IH]; [done|].
    apply bind_Ok in Hk as (n & _ & <-%Ok_inj). cbn. by rewrite IH. }
  assert (map snd (isort (fun a b : nat * nat => (b.1 <=? a.1)%nat) ks) ≡ₚ map fst gs) as Hperm.
  { rewrite <- Hsnd. change (snd <$> isort (fun a b : nat * nat => (b.1 <=? a.1)%nat) ks ≡ₚ snd <$> ks).
    apply fmap_Permutation, isort_perm. }
  split; [by rewrite Hperm|]. split.
  { intros i. rewrite Hperm, elem_of_list_fmap. split.
    - intros ([j d] & -> & Hin). exists d. by apply Hgs.
    - intros [d Hd]. exists (i, d). split; [done|]. by apply Hgs. }
  intros pre i post k di dk fi fk Hsplit Hk Hi Hdk Hfi Hfk Hsub.
  set (srt := isort _ ks) in *.
  assert (StronglySorted (fun a b : nat * nat => (b.1 <=? a.1)%nat = true) srt) as HS.
  { apply isort_sorted.
    - intros a b. rewrite !Nat.leb_le. lia.
    - intros a b c. rewrite !Nat.leb_le. lia. }
  apply elem_of_list_lookup in Hk as [m Hm].
  assert (map snd srt !! m = Some k) as Hm' by (rewrite Hsplit; by apply lookup_app_l_Some).
  assert (map snd srt !! length pre = Some i) as Hi' by (rewrite Hsplit; by apply list_lookup_middle).
  apply list_lookup_fmap_Some in Hm' as ([pk k'] & Hmk & E). cbn in E. subst k'.
  apply list_lookup_fmap_Some in Hi' as ([pi i'] & Hii & E). cbn in E. subst i'.
  assert (m < length pre)%nat as Hlt by by eapply lookup_lt_Some.
  assert (pi <= pk)%nat as Hle.
  { revert Hmk Hii Hlt. clear -HS. generalize (length pre) as n. revert m.
    induction HS as [|x l HS IH Hall]; intros m n Hm Hn Hlt; [done|].
    destruct n as [|n]; [lia|]. destruct m as [|m].
    - cbn in Hm. injection Hm as ->. eapply Forall_lookup_1 in Hall; [|exact Hn].
      apply Nat.leb_le in Hall. exact Hall.
    - eapply (IH m n); [exact Hm|exact Hn|lia]. }
  assert (forall p j d, (p, j) ∈ srt -> is_group data j d -> ordered !! p = Some (d_location d)) as Hpos.
  { intros p j d Hin Hd. unfold srt in Hin. apply elem_of_isort in Hin.
    apply elem_of_list_lookup in Hin as [q Hq].
    destruct (Forall2_lookup_r _ _ _ _ _ Hks Hq) as ([j' d'] & Hj & Hb). cbn [fst snd] in Hb.
    apply bind_Ok in Hb as (n & Hn & Hb). apply Ok_inj in Hb. injection Hb as -> ->.
    apply elem_of_list_lookup_2 in Hj. apply Hgs in Hj as [Hj _]. destruct Hd as [Hd _].
    rewrite Hd in Hj. apply Some_inj in Hj as ->. by apply position_lookup. }
  destruct (Hloc i di Hi) as (fi' & Hri & Hfi'). destruct (Hloc k dk Hdk) as (fk' & Hrk & Hfk').
  assert (fi' = fi) as -> by congruence. assert (fk' = fk) as -> by congruence.
  assert (pk < pi)%nat; [|lia].
  eapply (ordered_containing_first t None); [exact Hord|..].
  - apply Forall_forall. intros n Hn. apply elem_of_list_fmap in Hn as ([j d] & -> & Hin).
    apply Hgs in Hin. destruct (Hloc j d Hin) as (f & Hr & Hf). exists f. by constructor.
  - apply (Hpos pk k dk); [|done]. by eapply elem_of_list_lookup_2.
  - apply (Hpos pi i di); [|done]. by eapply elem_of_list_lookup_2.
  - by constructor.
  - by constructor.
  - exact Hsub.
Qed.

(** *** One step *)
Section groups.
  Context (t : topo) (data : list dataset).
  Context (Hcode : forall i d, is_group data i d -> is_Some (d_code d)).
  Context (Hcodes : forall i j di dj, is_group data i di -> is_group data j dj ->
             d_code di = d_code dj -> i = j).
  Context (Hloc : forall i d, is_group data i d ->
             exists f, d_location d <> "RoW"%string /\ t !! d_location d = Some f).
  Context (Hinside : forall i di j dj l s, is_group data i di -> is_group data j dj ->
             d_suppliers di = Some l -> s ∈ l -> e_code s = d_code dj ->
             exists fi fj, t !! d_location di = Some fi /\ t !! d_location dj = Some fj /\ fj ⊂ fi).

  Definition finished (val : gmap string Qc) (d d' : dataset) : Prop :=
    exists l c pv, d_suppliers d = Some l /\ d_code d = Some c /\ val !! c = Some pv /\
      Forall (fun s => is_Some (e_pv s)) (map (reval val) l) /\
      pv = Qcmax (total_volume (map (reval val) l) - taken d) 0 /\
      revalued pv (Qcsum (map first_volume_of (map (reval val) l)))
        (set_d_suppliers (Some (map (reval val) l)) d) d'.

  Record group_inv (done : list nat) (val : gmap string Qc) (cur : list dataset) : Prop := {
    gi_len : length cur = length data;
    gi_other : forall i d, data !! i = Some d -> d_type d <> MarketGroup -> cur !! i = Some d;
    gi_todo : forall i d, is_group data i d -> i ∉ done ->
      cur !! i = Some (set_d_suppliers (map (reval val) <$> d_suppliers d) d);
    gi_done : forall i d, is_group data i d -> i ∈ done ->
      exists d', cur !! i = Some d' /\ finished val d d';
    gi_val : forall c, is_Some (val !! c) -> exists i d, i ∈ done /\ is_group data i d /\ d_code d = Some c
  }.

  Lemma reval_fresh val c pv l : (forall s, s ∈ l -> e_code s <> Some c) ->
    map (reval (<[c := pv]> val)) l = map (reval val) l.
  Proof.
    intros H. apply map_ext_in. intros s Hs%elem_of_list_In. by apply reval_other, H.
  Qed.

  Lemma inside_other i di l s c : is_group data i di -> d_code di = Some c -> d_suppliers di = Some l ->
    s ∈ l -> e_code s <> Some c.
  Proof.
    intros Hi Hc Hl Hs Hsc. destruct (Hinside i di i di l s) as (fi & fj & H1 & H2 & H3); try done.
    { by rewrite Hc. }
    rewrite H1 in H2. injection H2 as ->. destruct H3 as [_ H3]. by apply H3.
  Qed.

  Lemma propagate_Ok ds' pv other r c : other <> ds' -> d_code ds' = Some c ->
    propagate ds' pv other = Ok r -> exists l, d_suppliers other = Some l /\
      r = set_d_suppliers (Some (map (set_supplier_volume (Some c) pv) l)) other.
  Proof.
    intros Hne Hc H. unfold propagate in H. rewrite bool_decide_eq_false_2 in H by done.
    apply bind_Ok in H as (l & Hl & H). destruct (d_suppliers other) as [l'|] eqn:E; [|discriminate].
    apply Ok_inj in Hl as ->. exists l. split; [done|].
    destruct l as [|s l]; [apply Ok_inj in H as <-; by rewrite set_suppliers_same|].
    apply bind_Ok in H as (cs & _ & H). apply bind_Ok in H as (c' & Hc' & H).
    rewrite Hc in Hc'. apply Ok_inj in Hc' as ->. by apply Ok_inj in H as <-.
  Qed.

  Lemma group_step done val cur i d cur' : group_inv done val cur -> is_group data i d -> i ∉ done ->
    (forall k dk fi fk, k ∈ done -> is_group data k dk -> t !! d_location d = Some fi ->
       t !! d_location dk = Some fk -> ~ fi ⊂ fk) ->
    update_group_step MarketGroup cur i = Ok cur' ->
    exists c pv, d_code d = Some c /\ group_inv (i :: done) (<[c := pv]> val) cur'.
  Proof.
    intros [Hlen Hother Htodo Hdone Hval] Hi Hid Hsmall H.
    destruct (Hcode i d Hi) as [c Hc].
    assert (val !! c = None) as Hfresh.
    { destruct (val !! c) eqn:E; [|done]. destruct (Hval c) as (j & dj & Hj & Hdj & Hcj); [by eexists|].
      exfalso. apply Hid. rewrite (Hcodes i j d dj) by (done || by rewrite Hc). done. }
    unfold update_group_step in H. rewrite (Htodo i d Hi Hid) in H. cbn [getkey bind] in H.
    set (ds := set_d_suppliers _ d) in H.
    apply bind_Ok in H as (ds' & Hds' & H). apply bind_Ok in H as (pv & Hpv & H).
    apply updated_volume_spec in Hpv as (rp & v & l0 & Hrp & Hv & Hl0 & Hp & Hpv).
    apply update_volume_spec in Hds' as (l1 & Hl1 & _ & Hrev). rewrite Hl0 in Hl1.
    apply Some_inj in Hl1 as <-. rewrite <- Hpv in Hrev.
    assert (exists l, d_suppliers d = Some l /\ l0 = map (reval val) l) as (l & Hl & ->).
    { unfold ds in Hl0. change (map (reval val) <$> d_suppliers d = Some l0) in Hl0.
      apply fmap_Some in Hl0 as (l & Hl & ->). by exists l. }
    assert (forall s, s ∈ l -> e_code s <> Some c) as Hown by (intros s; by eapply inside_other).
    assert (d_code ds' = Some c) as Hc' by (destruct (revalued_other _ _ _ _ Hrev) as (_ & E & _); rewrite E; exact Hc).
    exists c, pv. split; [done|]. apply mapR_Ok in H.
    assert (i < length cur)%nat as Hlt by (rewrite Hlen; apply lookup_lt_Some with d; apply Hi).
    assert (forall j x, <[i := ds']> cur !! j = Some x -> exists y, cur' !! j = Some y /\
       (if is_type MarketGroup x then propagate ds' pv x else Ok x) = Ok y) as Hstep.
    { intros j x Hj. destruct (Forall2_lookup_l _ _ _ _ _ H Hj) as (y & Hy & E). by exists y. }
    assert (is_type MarketGroup ds' = true) as Hty.
    { unfold is_type. apply bool_decide_eq_true. destruct (revalued_other _ _ _ _ Hrev) as (_ & _ & E & _).
      rewrite E. apply Hi. }
    split.
    - rewrite <- (Forall2_length _ _ _ H), insert_length. done.
    - intros j dj Hj Ht. destruct (Hstep j dj) as (y & Hy & E).
      { rewrite list_lookup_insert_ne; [by apply Hother|]. intros <-. destruct Hi as [Hi1 Hi2]. congruence. }
      unfold is_type in E. rewrite bool_decide_eq_false_2 in E by done. apply Ok_inj in E as <-. done.
    - intros j dj Hj Hjd. apply not_elem_of_cons in Hjd as [Hji Hjd].
      destruct (Hstep j (set_d_suppliers (map (reval val) <$> d_suppliers dj) dj)) as (y & Hy & E).
      { rewrite list_lookup_insert_ne by done. by apply Htodo. }
      unfold is_type in E. rewrite bool_decide_eq_true_2 in E by apply Hj.
      apply propagate_Ok with (c := c) in E as (lj & Hlj & ->); [|..|done].
      + rewrite Hy. f_equal. cbn [d_suppliers set_d_suppliers] in Hlj.
        change (map (reval val) <$> d_suppliers dj = Some lj) in Hlj.
        apply fmap_Some in Hlj as (l2 & Hl2 & ->). rewrite Hl2.
        change (set_d_suppliers (Some (map (set_supplier_volume (Some c) pv) (map (reval val) l2))) dj
                = set_d_suppliers (Some (map (reval (<[c:=pv]> val)) l2)) dj).
        f_equal. f_equal. rewrite map_map. apply map_ext. intros s. by apply reval_insert.
      + intros E'. apply Hji. apply (Hcodes j i dj d); [done..|]. rewrite Hc, <- Hc', <- E'. done.
    - intros j dj Hj Hjd. destruct (decide (j = i)) as [->|Hji].
      + assert (dj = d) as -> by (destruct Hi, Hj; congruence). clear Hj.
        destruct (Hstep i ds') as (y & Hy & E). { by apply list_lookup_insert. }
        rewrite Hty in E. unfold propagate in E. rewrite bool_decide_eq_true_2 in E by done.
        apply Ok_inj in E as <-. exists ds'. split; [done|].
        exists l, c, pv. split; [done|]. split; [done|]. split; [by rewrite lookup_insert|].
        rewrite (reval_fresh _ _ _ _ Hown). split; [done|]. split.
        * rewrite Hpv. done.
        * unfold ds in Hrev. rewrite Hl in Hrev. exact Hrev.
      + assert (j ∈ done) as Hjd' by set_solver. clear Hjd.
        destruct (Hdone j dj Hj Hjd') as (d' & Hd' & lj & cj & pvj & Hlj & Hcj & Hvj & Hpj & Epv & Hrj).
        destruct (Hstep j d') as (y & Hy & E). { by rewrite list_lookup_insert_ne. }
        destruct (revalued_other _ _ _ _ Hrj) as (Es & Ec & Et & _).
        unfold is_type in E. rewrite bool_decide_eq_true_2 in E by (rewrite Et; apply Hj).
        apply propagate_Ok with (c := c) in E as (lj' & Hlj' & ->); [|..|done].
        * assert (lj' = map (reval val) lj) as ->.
          { rewrite Es in Hlj'. apply Some_inj in Hlj'. by rewrite <- Hlj'. }
          assert (forall s, s ∈ lj -> e_code s <> Some c) as Hnot.
          { intros s Hs Hsc. destruct (Hinside j dj i d lj s) as (fj & fi & H1 & H2 & H3); try done.
            { by rewrite Hc. }
            by eapply (Hsmall j dj fi fj). }
          exists d'. split.
          -- rewrite Hy. f_equal. apply set_suppliers_same. rewrite Es.
             change (Some (map (reval val) lj) = Some (map (set_supplier_volume (Some c) pv) (map (reval val) lj))).
             f_equal. rewrite map_map. apply map_ext_in. intros s Hs%elem_of_list_In.
             rewrite reval_insert by done. symmetry. by apply reval_other, Hnot.
          -- exists lj, cj, pvj. rewrite (reval_fresh _ _ _ _ Hnot). split; [done|]. split; [done|].
             split; [|done]. rewrite lookup_insert_ne; [done|]. intros ->. apply Hji.
             apply (Hcodes j i dj d); [done..|congruence].
        * intros E'. apply Hji. apply (Hcodes j i dj d); [done..|].
          rewrite Hc, <- Hc', <- E', Ec. done.
    - intros c0 Hc0. destruct (decide (c0 = c)) as [->|Hne].
      + exists i, d. split; [set_solver|done].
      + rewrite lookup_insert_ne in Hc0 by done. destruct (Hval c0 Hc0) as (j & dj & ? & ?).
        exists j, dj. split; [set_solver|done].
  Qed.

  Lemma groups_fold todo : forall done val cur data', group_inv done val cur ->
    NoDup (rev done ++ todo) -> (forall i, i ∈ todo -> exists d, is_group data i d) ->
    (forall pre i post k di dk fi fk, rev done ++ todo = pre ++ i :: post -> k ∈ pre ->
      is_group data i di -> is_group data k dk ->
      t !! d_location di = Some fi -> t !! d_location dk = Some fk -> ~ fi ⊂ fk) ->
    foldR (update_group_step MarketGroup) cur todo = Ok data' ->
    exists val', group_inv (rev todo ++ done) val' data'.
  Proof.
    induction todo as [|i todo IH]; intros done val cur data' Hinv Hnd Hall Hord H.
    - apply Ok_inj in H as <-. by exists val.
    - cbn [foldR] in H. apply bind_Ok in H as (cur' & Hcur' & H).
      destruct (Hall i) as [d Hd]; [set_solver|].
      destruct (group_step done val cur i d cur') as (c & pv & Hc & Hinv'); try done.
      { intros Hin. apply NoDup_app in Hnd as (_ & Hnd & _). apply (Hnd i); [|set_solver].
        by rewrite elem_of_reverse' || (apply elem_of_list_In; rewrite <- in_rev; by apply elem_of_list_In). }
      { intros k dk fi fk Hk Hdk Hfi Hfk. eapply (Hord (rev done) i todo k d dk); try done.
        apply elem_of_list_In. rewrite <- in_rev. by apply elem_of_list_In. }
      destruct (IH (i :: done) _ cur' data' Hinv') as (val' & Hv'); [..|by exists val'; cbn [rev]; rewrite <- app_assoc].
      + cbn [rev]. rewrite <- app_assoc. exact Hnd.
      + intros j Hj. apply Hall. set_solver.
      + cbn [rev]. rewrite <- app_assoc. exact Hord.
      + exact H.
  Qed.

  Lemma reval_empty s : reval ∅ s = s.
  Proof. unfold reval. destruct (e_code s); [|done]. by rewrite lookup_empty. Qed.

  Lemma update_groups_volumes data' :
    update_market_production_volumes t MarketGroup data = Ok data' ->
    length data' = length data /\
    (forall i d, data !! i = Some d -> d_type d <> MarketGroup -> data' !! i = Some d) /\
    forall i d, is_group data i d -> exists l l' d',
      d_suppliers d = Some l /\ Forall2 (supplier_revalued data data') l l' /\
      data' !! i = Some d' /\
      revalued (Qcmax (total_volume l' - taken d) 0) (Qcsum (map first_volume_of l'))
        (set_d_suppliers (Some l') d) d'.
  Proof.
    intros H. unfold update_market_production_volumes in H. rewrite bool_decide_eq_true_2 in H by done.
    apply bind_Ok in H as (order & Ho & H).
    apply group_order_spec in Ho as (Hnd & Hin & Hord); [|done].
    destruct (groups_fold order [] ∅ data data') as (val & [Hlen Hother _ Hdone Hval]); try done.
    { split; [done|done|..].
      - intros i d [Hi _] _. rewrite Hi. f_equal. destruct (d_suppliers d) as [l|] eqn:E; cbn.
        + rewrite (map_ext (reval ∅) id reval_empty), map_id. by rewrite set_suppliers_same.
        + destruct d; cbn in *. by subst.
      - intros i d _ Hc. set_solver.
      - intros c [? Hc]. by rewrite lookup_empty in Hc. }
    { intros i Hi. by apply Hin. }
    split; [done|]. split; [done|]. rewrite app_nil_r in Hdone, Hval.
    assert (forall i d, is_group data i d -> exists d', data' !! i = Some d' /\ finished val d d') as Hfin.
    { intros i d Hi. apply Hdone; [done|]. apply elem_of_list_In. rewrite <- in_rev. apply elem_of_list_In.
      apply Hin. by exists d. }
    intros i d Hi. destruct (Hfin i d Hi) as (d' & Hd' & l & c & pv & Hl & Hc & Hv & Hp & Epv & Hrev).
    exists l, (map (reval val) l), d'. split; [done|]. split; [|split; [done|by rewrite <- Epv]].
    clear Hp Epv Hrev Hl. induction l as [|s l IH]; constructor; [|exact IH].
    unfold supplier_revalued. unfold reval. destruct (e_code s) as [cs|] eqn:Ecs.
    - destruct (val !! cs) as [pvs|] eqn:Evs.
      + left. destruct (Hval cs) as (j & dj & _ & Hj & Hcj); [by eexists|].
        destruct (Hfin j dj Hj) as (dj' & Hdj' & lj & cj & pvj & Hlj & Hcj' & Hvj & _ & _ & Hrj).
        exists j, dj, dj', pvs. split; [done|]. split; [by rewrite Hcj|]. split; [done|].
        assert (pvj = pvs) as -> by congruence.
        destruct (revalued_other _ _ _ _ Hrj) as (_ & _ & _ & _ & E & _). done.
      + right. split; [|done]. intros j dj Hj E.
        destruct (Hfin j dj Hj) as (dj' & _ & lj & cj & pvj & _ & Hcj' & Hvj & _). congruence.
    - right. split; [|done]. intros j dj Hj E. destruct (Hcode j dj Hj). congruence.
  Qed.
End groups.
