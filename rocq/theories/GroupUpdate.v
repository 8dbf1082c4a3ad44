(** Functions which group the database, then change some datasets of each
    group in place.  The groups are disjoint, so what one group reads is not
    changed by another; the changes are collected as a list of positions and
    new datasets and applied at the end. *)
From Verif Require Import Base Types Grouping.

Definition indexed {A} (l : list A) : list (nat * A) := imap (fun i x => (i, x)) l.

Definition update_all {A} (ups : list (nat * A)) (l : list A) : list A :=
  foldl (fun l u => <[u.1 := u.2]> l) l ups.

(** [for key, group in toolz.groupby(key, data).items(): ...]; datasets
    without key ([None]) are filtered out before grouping. *)
Definition keyed {K} (key : dataset -> result (option K)) (data : list dataset)
  : result (list (K * (nat * dataset))) :=
  concat_mapR (fun p => let? k := key p.2 in
                        Ok (match k with Some k => [(k, p)] | None => [] end)) (indexed data).
Definition update_groups {K} `{EqDecision K} (key : dataset -> result (option K))
    (f : K -> list (nat * dataset) -> result (list (nat * dataset)))
    (data : list dataset) : result (list dataset) :=
  let? ks := keyed key data in
  let? ups := mapR (fun g => f g.1 g.2) (groupby ks) in
  Ok (update_all (concat ups) data).

Global Arguments update_groups : simpl never.
Global Arguments keyed : simpl never.

(** ** Lemmas *)
Lemma indexed_lookup {A} (l : list A) i : indexed l !! i = (fun x => (i, x)) <$> l !! i.
Proof. unfold indexed. by rewrite list_lookup_imap. Qed.
Lemma elem_of_indexed {A} (l : list A) i x : (i, x) ∈ indexed l <-> l !! i = Some x.
Proof.
  rewrite elem_of_list_lookup. split.
  - intros [j Hj]. rewrite indexed_lookup in Hj. destruct (l !! j) eqn:E; cbn in Hj; [|done].
    injection Hj as -> ->. done.
  - intros H. exists i. rewrite indexed_lookup, H. done.
Qed.
Lemma indexed_fst {A} (l : list A) : NoDup (map fst (indexed l)).
Proof.
  apply NoDup_alt. intros i j k Hi Hj. apply list_lookup_fmap_Some in Hi as ([a x] & Hi & ->).
  apply list_lookup_fmap_Some in Hj as ([b y] & Hj & E). rewrite indexed_lookup in Hi, Hj. cbn in E. subst b.
  destruct (l !! i), (l !! j); cbn in *; try done. congruence.
Qed.
Lemma indexed_snd {A} (l : list A) : map snd (indexed l) = l.
Proof.
  apply list_eq. intros i. change (map snd (indexed l)) with (snd <$> indexed l).
  rewrite list_lookup_fmap, indexed_lookup. by destruct (l !! i).
Qed.

Lemma update_all_length {A} (ups : list (nat * A)) l : length (update_all ups l) = length l.
Proof.
  revert l. induction ups as [|u ups IH]; intros l; [done|]. cbn.
  change (foldl _ (<[u.1:=u.2]> l) ups) with (update_all ups (<[u.1:=u.2]> l)).
  by rewrite IH, insert_length.
Qed.
Lemma update_all_other {A} (ups : list (nat * A)) l i :
  i ∉ map fst ups -> update_all ups l !! i = l !! i.
Proof.
  revert l. induction ups as [|[j x] ups IH]; intros l Hi; [done|]. cbn in Hi |- *.
  apply not_elem_of_cons in Hi as [Hij Hi].
  change (foldl _ (<[j:=x]> l) ups) with (update_all ups (<[j:=x]> l)).
  rewrite IH by done. by rewrite list_lookup_insert_ne.
Qed.
Lemma update_all_in {A} (ups : list (nat * A)) l i x :
  NoDup (map fst ups) -> (i, x) ∈ ups -> (i < length l)%nat -> update_all ups l !! i = Some x.
Proof.
  revert l. induction ups as [|[j y] ups IH]; intros l Hnd Hin Hlt; [set_solver|].
  cbn in Hnd. apply NoDup_cons in Hnd as [Hj Hnd]. cbn.
  change (foldl _ (<[j:=y]> l) ups) with (update_all ups (<[j:=y]> l)).
  apply elem_of_cons in Hin as [[= -> ->]|Hin].
  - rewrite update_all_other by done. by apply list_lookup_insert.
  - apply IH; [done|done|]. by rewrite insert_length.
Qed.

Lemma concat_mapR_Ok {A B} (f : A -> result (list B)) l r :
  concat_mapR f l = Ok r -> exists rs, Forall2 (fun x y => f x = Ok y) l rs /\ r = concat rs.
Proof.
  unfold concat_mapR. intros (rs & H & <-%Ok_inj)%bind_Ok. exists rs.
  split; [by apply mapR_Ok|done].
Qed.

Definition key_of {K} (key : dataset -> result (option K)) (d : dataset) : option K :=
  match key d with Ok o => o | Err _ => None end.
(** The group of a key, with positions. *)
Definition members {K} `{EqDecision K} (key : dataset -> result (option K)) (k : K)
    (data : list dataset) : list (nat * dataset) :=
  filter (fun p => key_of key p.2 = Some k) (indexed data).
Global Arguments members : simpl never.

Lemma elem_of_members {K} `{EqDecision K} (key : dataset -> result (option K)) k data i d :
  (i, d) ∈ members key k data <-> data !! i = Some d /\ key_of key d = Some k.
Proof. unfold members. rewrite elem_of_list_filter, elem_of_indexed. cbn. tauto. Qed.
Lemma NoDup_map_filter {A B} (f : A -> B) (P : A -> Prop) `{forall x, Decision (P x)} l :
  NoDup (map f l) -> NoDup (map f (filter P l)).
Proof.
  induction l as [|x l IH]; intros Hnd; [constructor|]. cbn [map] in Hnd.
  apply NoDup_cons in Hnd as [Hx Hnd]. rewrite filter_cons. destruct (decide (P x)); [|by apply IH].
  cbn [map]. apply NoDup_cons. split; [|by apply IH]. intros Hc. apply Hx.
  apply elem_of_list_fmap in Hc as (y & Hy & Hc). apply elem_of_list_filter in Hc as [_ Hc].
  apply elem_of_list_fmap. by exists y.
Qed.
Lemma members_fst {K} `{EqDecision K} (key : dataset -> result (option K)) k data :
  NoDup (map fst (members key k data)).
Proof.
  unfold members. apply NoDup_map_filter, indexed_fst.
Qed.
Lemma members_snd {K} `{EqDecision K} (key : dataset -> result (option K)) k data :
  map snd (members key k data) = filter (fun d => key_of key d = Some k) data.
Proof.
  rewrite <- (indexed_snd data) at 2. unfold members. generalize (indexed data) as l.
  induction l as [|p l IH]; [done|]. rewrite filter_cons. cbn [map]. rewrite filter_cons.
  destruct (decide _); cbn [map]; by rewrite IH.
Qed.

Lemma keyed_Ok {K} `{EqDecision K} (key : dataset -> result (option K)) data ks :
  keyed key data = Ok ks ->
  Forall (fun d => exists o, key d = Ok o) data /\
  (forall k, k ∈ map fst ks <-> exists d, d ∈ data /\ key d = Ok (Some k)) /\
  (forall k, with_key k ks = members key k data).
Proof.
  unfold keyed, members. intros H.
  assert (forall l r, concat_mapR (fun p => let? k := key p.2 in
      Ok (match k with Some k => [(k, p)] | None => [] end)) l = Ok r ->
    Forall (fun d => exists o, key d = Ok o) (map snd l) /\
    (forall k, k ∈ map fst r <-> exists d, d ∈ map snd l /\ key d = Ok (Some k)) /\
    (forall k, with_key k r = filter (fun p : nat * dataset => key_of key p.2 = Some k) l)) as Hgen.
  { clear. intros l. induction l as [|[i d] l IH]; intros r H.
    - apply Ok_inj in H as <-. split; [constructor|]. split; [|done].
      intros k. cbn. split; [set_solver|]. intros (d & Hd & _). set_solver.
    - apply concat_mapR_Ok in H as (rs & HF & ->).
      apply Forall2_cons_inv_l in HF as (y & rs' & Hy & HF & ->).
      destruct (IH (concat rs')) as (I1 & I2 & I3).
      { unfold concat_mapR.
        assert (mapR (fun p => let? k := key p.2 in
          Ok (match k with Some k => [(k, p)] | None => [] end)) l = Ok rs') as ->; [by apply mapR_Ok|done]. }
      apply bind_Ok in Hy as (o & Ho & <-%Ok_inj). cbn [snd] in Ho.
      split_and!.
      + cbn [map snd]. constructor; [by exists o|done].
      + intros k. cbn [concat map snd]. rewrite map_app, elem_of_app, I2. setoid_rewrite elem_of_cons.
        split.
        * intros [Hk|(d' & Hd' & Hk)]; [|by exists d'; auto].
          destruct o as [k'|]; cbn in Hk; [|set_solver]. apply elem_of_list_singleton in Hk as ->.
          exists d. auto.
        * intros (d' & [->|Hd'] & Hk); [|right; eauto]. left. rewrite Ho in Hk.
          apply Ok_inj in Hk as ->. cbn. by left.
      + intros k. cbn [concat]. rewrite with_key_app, I3. rewrite filter_cons. cbn [snd].
        assert (key_of key d = o) as -> by (unfold key_of; by rewrite Ho). unfold with_key. destruct o as [k'|].
        * rewrite filter_cons, filter_nil. cbn [fst]. repeat case_decide; try done; congruence.
        * rewrite decide_False by done. done. }
  apply Hgen in H as (H1 & H2 & H3). rewrite indexed_snd in H1, H2. done.
Qed.

(** What happens to the dataset at position [i]. *)
Lemma update_groups_spec {K} `{EqDecision K} (key : dataset -> result (option K)) f data data' :
  update_groups key f data = Ok data' ->
  (forall k ups, f k (members key k data) = Ok ups ->
     NoDup (map fst ups) /\ forall i, i ∈ map fst ups -> i ∈ map fst (members key k data)) ->
  length data' = length data /\
  forall i d, data !! i = Some d ->
    (key d = Ok None /\ data' !! i = Some d) \/
    exists k ups, key d = Ok (Some k) /\ f k (members key k data) = Ok ups /\
      ((i ∉ map fst ups /\ data' !! i = Some d) \/
       exists d', (i, d') ∈ ups /\ data' !! i = Some d').
Proof.
  unfold update_groups. intros H Hf. apply bind_Ok in H as (ks & Hks & H).
  apply bind_Ok in H as (ups & Hups & <-%Ok_inj). split; [apply update_all_length|].
  apply keyed_Ok in Hks as (Hall & Hkeys & Hwith).
  destruct (groupby_spec ks) as (Hnd & Hgk & Hgx).
  apply mapR_Ok in Hups.
  assert (forall g, g ∈ groupby ks -> g.2 = members key g.1 data) as Hg.
  { intros [k xs] Hg. apply Hgx in Hg as [_ ->]. by rewrite Hwith. }
  assert (forall i d k, data !! i = Some d -> i ∈ map fst (members key k data) -> key_of key d = Some k) as Hpos.
  { intros i d k Hi Hm. apply elem_of_list_fmap in Hm as ([j d'] & Hij & Hm). cbn in Hij. subst j.
    apply elem_of_members in Hm as [Hj Hk]. congruence. }
  assert (Forall2 (fun g u => f g.1 (members key g.1 data) = Ok u) (groupby ks) ups) as Hups2.
  { assert (forall l u, Forall2 (fun x y => f x.1 x.2 = Ok y) l u -> (forall g, g ∈ l -> g.2 = members key g.1 data) ->
      Forall2 (fun g u => f g.1 (members key g.1 data) = Ok u) l u) as Hi.
    { clear. induction 1 as [|g u l us Hgu _ IH]; intros Hg; constructor.
      - rewrite <- Hg by by left. done.
      - apply IH. intros g' Hg'. apply Hg. by right. }
    by apply Hi. }
  assert (NoDup (map fst (concat ups))) as HndU.
  { revert Hnd Hups2. generalize (groupby ks) as l. clear Hups Hg Hgk Hgx. intros l Hnd Hups.
    induction Hups as [|g u l us Hgu HF IH]; [constructor|].
    cbn [map] in Hnd. apply NoDup_cons in Hnd as [Hng Hnd]. cbn [concat]. rewrite map_app.
    apply NoDup_app. split_and!; [by apply (Hf _ _ Hgu)| |by apply IH].
    intros i Hi Hi2. apply (Hf _ _ Hgu) in Hi.
    apply elem_of_list_fmap in Hi2 as ([j d'] & Hij & Hi2). cbn in Hij. subst j.
    apply elem_of_list_In, in_concat in Hi2 as (u' & Hu' & Hi2).
    apply elem_of_list_In in Hu', Hi2. apply elem_of_list_lookup in Hu' as [m Hm].
    destruct (Forall2_lookup_r _ _ _ _ _ HF Hm) as (g' & Hg' & Hgu').
    assert (i ∈ map fst (members key g'.1 data)) as Hi3.
    { apply (Hf _ _ Hgu'). apply elem_of_list_fmap. exists (i, d'). done. }
    apply elem_of_list_fmap in Hi as ([i1 d1] & Hi1 & Hi). cbn in Hi1. subst i1.
    apply elem_of_members in Hi as [Hd1 Hk1].
    pose proof (Hpos _ _ _ Hd1 Hi3) as Hk2. apply Hng.
    apply elem_of_list_fmap. exists g'. split; [congruence|by eapply elem_of_list_lookup_2]. }
  intros i d Hi.
  assert (i < length data)%nat as Hlt by by eapply lookup_lt_Some.
  pose proof (elem_of_list_lookup_2 _ _ _ Hi) as Hin.
  eapply Forall_forall in Hall as [o Ho]; [|exact Hin]. destruct o as [k|].
  - right. assert (k ∈ map fst ks) as Hk by (apply Hkeys; eauto).
    assert ((k, with_key k ks) ∈ groupby ks) as Hgr by by apply Hgx.
    apply elem_of_list_lookup in Hgr as [m Hm].
    destruct (Forall2_lookup_l _ _ _ _ _ Hups2 Hm) as (u & Hu & Hfu). cbn [fst] in Hfu.
    exists k, u. split; [done|]. split; [done|].
    destruct (decide (i ∈ map fst u)) as [Hiu|Hiu].
    + right. apply elem_of_list_fmap in Hiu as ([i' d'] & Hii & Hiu). cbn in Hii. subst i'.
      exists d'. split; [done|]. apply update_all_in; [done| |done].
      apply elem_of_list_In, in_concat. exists u. rewrite <- !elem_of_list_In.
      split; [by eapply elem_of_list_lookup_2|done].
    + left. split; [done|]. rewrite update_all_other; [done|].
      intros Hc. apply elem_of_list_fmap in Hc as ([i' d'] & Hii & Hc). cbn in Hii. subst i'.
      apply elem_of_list_In, in_concat in Hc as (u' & Hu' & Hc).
      apply elem_of_list_In in Hu', Hc. apply elem_of_list_lookup in Hu' as [m' Hm'].
      destruct (Forall2_lookup_r _ _ _ _ _ Hups2 Hm') as (g' & Hg' & Hgu').
      assert (i ∈ map fst (members key g'.1 data)) as Hi3.
      { apply (Hf _ _ Hgu'). apply elem_of_list_fmap. exists (i, d'). done. }
      pose proof (Hpos _ _ _ Hi Hi3) as Hk2. unfold key_of in Hk2. rewrite Ho in Hk2.
      injection Hk2 as ->.
      assert (m = m') as ->.
      { eapply NoDup_lookup; [exact Hnd| |].
        - change (map fst (groupby ks)) with (fst <$> groupby ks). rewrite list_lookup_fmap, Hm. reflexivity.
        - change (map fst (groupby ks)) with (fst <$> groupby ks). rewrite list_lookup_fmap, Hg'. done. }
      rewrite Hu in Hm'. injection Hm' as ->. apply Hiu. apply elem_of_list_fmap. by exists (i, d').
  - left. split; [done|]. rewrite update_all_other; [done|].
    intros Hc. apply elem_of_list_fmap in Hc as ([i' d'] & Hii & Hc). cbn in Hii. subst i'.
    apply elem_of_list_In, in_concat in Hc as (u' & Hu' & Hc).
    apply elem_of_list_In in Hu', Hc. apply elem_of_list_lookup in Hu' as [m' Hm'].
    destruct (Forall2_lookup_r _ _ _ _ _ Hups2 Hm') as (g' & Hg' & Hgu').
    assert (i ∈ map fst (members key g'.1 data)) as Hi3.
    { apply (Hf _ _ Hgu'). apply elem_of_list_fmap. exists (i, d'). done. }
    pose proof (Hpos _ _ _ Hi Hi3) as Hk2. unfold key_of in Hk2. rewrite Ho in Hk2. done.
Qed.

(** It succeeds when the key and every group do. *)
Lemma update_groups_total {K} `{EqDecision K} (key : dataset -> result (option K)) f data :
  Forall (fun d => exists o, key d = Ok o) data ->
  (forall k, members key k data <> [] -> exists ups, f k (members key k data) = Ok ups) ->
  exists data', update_groups key f data = Ok data'.
Proof.
  intros Hall Hf. unfold update_groups.
  assert (exists ks, keyed key data = Ok ks) as [ks Hks].
  { unfold keyed, concat_mapR.
    destruct (mapR_ok_all (fun p => let? k := key p.2 in
      Ok (match k with Some k => [(k, p)] | None => [] end)) (indexed data)) as [r Hr].
    - intros [i d] Hd. apply elem_of_indexed in Hd.
      apply elem_of_list_lookup_2 in Hd. eapply Forall_forall in Hall as [o Ho]; [|exact Hd].
      cbn. rewrite Ho. eexists; reflexivity.
    - rewrite Hr. eexists; reflexivity. }
  rewrite Hks. cbn [bind]. apply keyed_Ok in Hks as (_ & Hkeys & Hwith).
  destruct (groupby_spec ks) as (Hnd & Hgk & Hgx).
  destruct (mapR_ok_all (fun g => f g.1 g.2) (groupby ks)) as [r Hr].
  - intros [k xs] Hg. apply Hgx in Hg as [Hk ->]. cbn. rewrite Hwith. apply Hf.
    rewrite <- Hwith. by apply with_key_nonempty.
  - rewrite Hr. eexists; reflexivity.
Qed.

(** A failing group makes it fail. *)
Lemma update_groups_fails {K} `{EqDecision K} (key : dataset -> result (option K)) f data k x :
  members key k data <> [] -> f k (members key k data) = Err x ->
  exists y, update_groups key f data = Err y.
Proof.
  intros Hm Hf. destruct (update_groups key f data) as [data'|y] eqn:E; [|by exists y].
  exfalso. unfold update_groups in E. apply bind_Ok in E as (ks & Hks & E).
  apply bind_Ok in E as (ups & Hups & _). apply keyed_Ok in Hks as (_ & Hkeys & Hwith).
  destruct (groupby_spec ks) as (_ & _ & Hgx).
  destruct (members key k data) as [|[i d] l] eqn:Em; [done|].
  assert ((i, d) ∈ members key k data) as Hin by (rewrite Em; by left).
  apply elem_of_members in Hin as [Hi Hk]. unfold key_of in Hk.
  destruct (key d) as [o|] eqn:Ek; [subst o|done].
  assert ((k, with_key k ks) ∈ groupby ks) as Hgr.
  { apply Hgx. split; [|done]. apply Hkeys. exists d. split; [by eapply elem_of_list_lookup_2|done]. }
  apply mapR_Ok in Hups. apply elem_of_list_lookup in Hgr as [m Hmm].
  destruct (Forall2_lookup_l _ _ _ _ _ Hups Hmm) as (u & _ & Hu). cbn in Hu.
  rewrite Hwith, Em in Hu. congruence.
Qed.
