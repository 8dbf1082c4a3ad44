From Verif Require Import Base Types Utils Spec_Utils Utils_proofs Grouping GroupUpdate
  Validation Strings Cutoff Cutoff_proofs SingleOutput_proofs Topology Locations Spec_RestOfWorld.

Lemma same_activity_refl a : same_activity a a.
Proof. split; done. Qed.
Lemma same_activity_sym a b : same_activity a b -> same_activity b a.
Proof. intros [H1 H2]. split; [done|]. by symmetry. Qed.
Lemma same_activity_trans a b c : same_activity a b -> same_activity b c -> same_activity a c.
Proof. intros [H1 H2] [H3 H4]. split; [congruence|]. by etransitivity. Qed.

Lemma row_key_Ok ds o :
  row_key ds = Ok o <-> classified ds /\ o = Some (d_name ds, isort str_leb (products_of ds)).
Proof.
  assert (map e_name (filterb (fun e => Qctruthy (e_amount e)) (filter alloc_output (d_exchanges ds)))
          = products_of ds) as E.
  { unfold products_of. f_equal. rewrite (filterb_filter (fun e => e_amount e <> 0%Qc)).
    + rewrite list_filter_filter. apply list_filter_iff. intros e. tauto.
    + intros e _. unfold Qctruthy, Qceqb. by rewrite <- bool_decide_not. }
  unfold row_key. split.
  - intros (es & Hes & <-%Ok_inj)%bind_Ok. apply allocatable_production_ok in Hes as [Hc ->].
    by rewrite E.
  - intros [Hc ->]. assert (allocatable_production ds = Ok (filter alloc_output (d_exchanges ds))) as ->.
    { by apply allocatable_production_ok. }
    cbn [bind]. by rewrite E.
Qed.
Lemma row_key_same a b ka : classified a -> classified b -> key_of row_key a = Some ka ->
  key_of row_key b = Some ka <-> same_activity b a.
Proof.
  intros Ha Hb Hk. unfold key_of in *.
  rewrite (proj2 (row_key_Ok a _) (conj Ha eq_refl)) in Hk.
  rewrite (proj2 (row_key_Ok b _) (conj Hb eq_refl)). injection Hk as <-. unfold same_activity.
  split.
  - intros [= H1 H2]. split; [done|]. by rewrite <- (isort_perm str_leb (products_of b)), H2, isort_perm.
  - intros [H1 H2]. do 2 f_equal; [done|].
    apply (sorted_perm_eq str_leb);
      [apply str_leb_antisym|apply isort_sorted; [apply str_leb_total|apply str_leb_trans]..|].
    by rewrite !isort_perm.
Qed.

Lemma relabel_classified data data' : relabel_global_to_row data = Ok data' -> Forall classified data.
Proof.
  unfold relabel_global_to_row, update_groups. intros (ks & Hks & _)%bind_Ok.
  apply keyed_Ok in Hks as (H & _). eapply Forall_impl; [exact H|]. intros d [o Ho].
  by apply row_key_Ok in Ho as [? _].
Qed.

Lemma members_activity data i ds k : Forall classified data -> data !! i = Some ds ->
  key_of row_key ds = Some k ->
  members row_key k data = filter (fun p => same_activity p.2 ds) (indexed data).
Proof.
  intros Hc Hi Hk. unfold members. apply list_filter_iff'. intros [j d] Hj. cbn.
  apply elem_of_indexed in Hj. rewrite Forall_lookup in Hc. apply row_key_same; eauto.
Qed.

Lemma set_rp_pv_single f ds rp v :
  get_single_reference_product ds = Ok rp -> e_pv rp = Some v ->
  exists before after, d_exchanges ds = before ++ rp :: after /\
    Forall (fun e => ~ is_refproduct e) (before ++ after) /\ is_refproduct rp /\
    set_rp_pv f ds = set_d_exchanges (before ++ set_e_pv (Some (f v)) rp :: after) ds.
Proof.
  intros Hrp Hv. apply get_single_ok in Hrp.
  assert (rp ∈ d_exchanges ds /\ is_refproduct rp) as [Hin Href].
  { assert (rp ∈ filter is_refproduct (d_exchanges ds)) as H by (rewrite Hrp; by left).
    apply elem_of_list_filter in H. tauto. }
  apply elem_of_list_split in Hin as (before & after & E). exists before, after.
  split; [done|]. rewrite E in Hrp. rewrite filter_app, filter_cons_True in Hrp by done.
  destruct (filter is_refproduct before) as [|x l] eqn:Eb.
  2:{ cbn in Hrp. injection Hrp as -> Hrp. destruct l; discriminate. }
  cbn in Hrp. injection Hrp as Ea.
  assert (forall l, filter is_refproduct l = [] -> Forall (fun e => ~ is_refproduct e) l) as Hnone.
  { clear. induction l as [|e l IH]; [constructor|]. rewrite filter_cons.
    destruct (decide (is_refproduct e)); [done|]. intros. constructor; auto. }
  apply Hnone in Eb, Ea. split; [by apply Forall_app|]. split; [done|].
  unfold set_rp_pv. f_equal. rewrite E, map_app. cbn [map].
  assert (forall l, Forall (fun e => ~ is_refproduct e) l ->
    map (fun e => if bool_decide (e_type e = RefProduct) then set_e_pv (option_map f (e_pv e)) e else e) l = l) as Hid.
  { clear. induction 1 as [|e l He _ IH]; [done|]. cbn [map]. rewrite IH.
    rewrite bool_decide_eq_false_2 by done. done. }
  rewrite !Hid by done. rewrite bool_decide_eq_true_2 by done. by rewrite Hv.
Qed.

Lemma original_recorded ds : default 0%Qc (original_production_volume ds) = recorded_volume ds.
Proof.
  unfold original_production_volume, recorded_volume. rewrite reference_products_filter.
  destruct (filter is_refproduct _) as [|e [|? ?]]; [done| |done].
  destruct (e_pv e) as [w|]; [|done]. cbn. by destruct (v_original w).
Qed.

Lemma relabel_group_spec k g ups : relabel_group k g = Ok ups ->
  (ups = [] /\ ((exists p l, g = p :: l /\ d_type p.2 = MarketGroup) \/ (length g < 2)%nat \/
     Forall (fun p => d_location p.2 <> "GLO"%string) g)) \/
  (exists i glo rp v, ~ (exists p l, g = p :: l /\ d_type p.2 = MarketGroup) /\
     (2 <= length g)%nat /\ filter (fun p => d_location p.2 = "GLO"%string) g = [(i, glo)] /\
     get_single_reference_product glo = Ok rp /\ e_pv rp = Some v /\
     ups = [(i, set_d_location "RoW" (set_rp_pv (fun v => set_v_amount
       (Qcmax (v_amount v - Qcsum (map (fun p => recorded_volume p.2) (filter (fun p => p.2 <> glo) g))) 0)
       (set_v_global (Some (v_amount v)) v)) glo))]).
Proof.
  unfold relabel_group. intros H.
  assert (forall p : nat * dataset, is_type MarketGroup p.2 = bool_decide (d_type p.2 = MarketGroup)) as Ht by done.
  destruct g as [|p0 [|p1 g]].
  { apply Ok_inj in H as <-. left. split; [done|]. right. left. cbn. lia. }
  { destruct (is_type _ _); apply Ok_inj in H as <-; left; (split; [done|]); right; left; cbn; lia. }
  destruct (is_type MarketGroup p0.2) eqn:E0.
  { apply Ok_inj in H as <-. left. split; [done|]. left. exists p0, (p1 :: g). split; [done|].
    rewrite Ht in E0. by apply bool_decide_eq_true in E0. }
  set (gg := p0 :: p1 :: g) in *.
  assert (filterb is_glo gg = filter (fun p => d_location p.2 = "GLO"%string) gg) as Eg.
  { apply filterb_filter. intros p _. unfold is_glo.
    destruct (String.eqb_spec (d_location p.2) "GLO"); symmetry;
      [by apply bool_decide_eq_true|by apply bool_decide_eq_false]. }
  rewrite Eg in H. destruct (filter _ gg) as [|[i glo] [|? ?]] eqn:Ef; [| |discriminate].
  - apply Ok_inj in H as <-. left. split; [done|]. right. right.
    apply Forall_forall. intros p Hp Hl. eapply filter_nil_not_elem_of; [exact Ef| |exact Hp]. done.
  - right. apply bind_Ok in H as (rp & Hrp & H). apply bind_Ok in H as (v & Hv & H).
    destruct (e_pv rp) as [v'|] eqn:Ev; cbn in Hv; [|discriminate]. apply Ok_inj in Hv as ->.
    apply Ok_inj in H as <-. exists i, glo, rp, v. split.
    { intros (p & l & [= <- <-] & Hp). rewrite Ht in E0. by apply bool_decide_eq_false in E0. }
    split; [unfold gg; cbn; lia|]. split; [done|]. split; [done|]. split; [done|].
    rewrite (filterb_filter (fun p => p.2 <> glo)) by done.
    rewrite (map_ext (fun p : nat * dataset => default (Q2Qc 0) (original_production_volume p.2))
               (fun p => recorded_volume p.2)); [done|].
    intros p. apply original_recorded.
Qed.

Lemma members_others data i ds k : Forall classified data -> data !! i = Some ds ->
  key_of row_key ds = Some k ->
  others data i ds = filter (fun p => p.1 <> i) (members row_key k data) /\
  (i, ds) ∈ members row_key k data.
Proof.
  intros Hc Hi Hk. rewrite (members_activity data i ds k Hc Hi Hk). split.
  - unfold others. by rewrite list_filter_filter.
  - apply elem_of_list_filter. split; [apply same_activity_refl|]. by apply elem_of_indexed.
Qed.
Lemma members_leader data i ds k : Forall classified data -> data !! i = Some ds ->
  key_of row_key ds = Some k ->
  led_by_group data ds <->
  exists p l, members row_key k data = p :: l /\ d_type p.2 = MarketGroup.
Proof.
  intros Hc Hi Hk. rewrite (members_activity data i ds k Hc Hi Hk).
  assert (filter (fun d => same_activity d ds) data
    = map snd (filter (fun p => same_activity p.2 ds) (indexed data))) as E.
  { rewrite <- (indexed_snd data) at 1. generalize (indexed data) as l.
    induction l as [|p l IH]; [done|]. cbn [map]. rewrite !filter_cons.
    destruct (decide (same_activity p.2 ds)); cbn [map]; by rewrite IH. }
  unfold led_by_group. rewrite E. clear E. destruct (filter _ (indexed data)) as [|p l]; cbn [map].
  - split; [intros (a & b & H & _); done|intros (a & b & H & _); done].
  - split.
    + intros (a & b & [= <- <-] & H). by exists p, l.
    + intros (a & b & [= <- <-] & H). eexists _, _. split; [reflexivity|done].
Qed.

Lemma filter_single_pos {A} (P : nat * A -> Prop) `{forall x, Decision (P x)} (l : list (nat * A)) i x :
  NoDup (map fst l) -> (i, x) ∈ l -> (2 <= length l)%nat <-> filter (fun p => p.1 <> i) l <> [].
Proof.
  intros Hnd Hin. apply elem_of_list_split in Hin as (a & b & ->).
  rewrite map_app in Hnd. cbn [map fst] in Hnd.
  apply NoDup_app in Hnd as (_ & Hd & Hnd). apply NoDup_cons in Hnd as [Hb _].
  assert (forall l', i ∉ map fst l' -> filter (fun p : nat * A => p.1 <> i) l' = l') as Hid.
  { clear. induction l' as [|p l' IH]; intros Hi; [done|]. cbn [map] in Hi.
    apply not_elem_of_cons in Hi as [H1 H2]. rewrite filter_cons_True by congruence. by rewrite IH. }
  rewrite filter_app, filter_cons_False by (cbn; tauto). rewrite Hid, (Hid b).
  - rewrite app_length. cbn. destruct a, b; cbn; split; intros; try lia; try done.
  - done.
  - intros Hi. apply (Hd i Hi). by left.
Qed.

Lemma relabel_spec data data' : relabel_global_to_row data = Ok data' ->
  length data' = length data /\
  forall i ds, data !! i = Some ds ->
    exists ds', data' !! i = Some ds' /\
      (needs_row data i ds ->
         as_rest_of_world (Qcsum (map (fun p => recorded_volume p.2) (others data i ds))) ds ds') /\
      (~ needs_row data i ds -> ds' = ds).
Proof.
  intros H. pose proof (relabel_classified _ _ H) as Hc. unfold relabel_global_to_row in H.
  apply update_groups_spec in H as [Hlen H].
  2:{ intros k ups Hk. apply relabel_group_spec in Hk as [[-> _]|(i & glo & rp & v & _ & _ & Hf & _ & _ & ->)].
      - split; [constructor|]. intros i Hi. by apply elem_of_nil in Hi.
      - cbn [map fst]. split; [apply NoDup_singleton|]. intros j ->%elem_of_list_singleton.
        apply elem_of_list_fmap. exists (i, glo). split; [done|].
        assert ((i, glo) ∈ filter (fun p => d_location p.2 = "GLO"%string) (members row_key k data)) as Hin
          by (rewrite Hf; by left).
        apply elem_of_list_filter in Hin. tauto. }
  split; [done|]. intros i ds Hi.
  assert (classified ds) as Hcd by (rewrite Forall_lookup in Hc; eauto).
  destruct (H i ds Hi) as [[Hn _]|(k & ups & Hk & Hups & Hres)].
  { apply row_key_Ok in Hn as [_ ?]. discriminate. }
  assert (key_of row_key ds = Some k) as Hko by (unfold key_of; by rewrite Hk).
  pose proof (members_others data i ds k Hc Hi Hko) as [Hoth Hmem].
  pose proof (members_leader data i ds k Hc Hi Hko) as Hlead.
  pose proof (members_fst row_key k data) as Hnd.
  pose proof (filter_single_pos (fun _ => True) _ i ds Hnd Hmem) as Htwo.
  apply relabel_group_spec in Hups as [[-> Hwhy]|(j & glo & rp & v & Hnl & Hlen2 & Hf & Hrp & Hv & ->)].
  - destruct Hres as [[_ Hres]|(d' & Hd' & _)]; [|by apply elem_of_nil in Hd'].
    exists ds. split; [done|]. split; [|done]. intros (Hglo & Ho & Hl). exfalso.
    destruct Hwhy as [Hw|[Hw|Hw]].
    + apply Hl. by apply Hlead.
    + rewrite Hoth in Ho. apply Htwo in Ho. lia.
    + rewrite Forall_forall in Hw. by apply (Hw _ Hmem).
  - assert ((j, glo) ∈ members row_key k data /\ d_location glo = "GLO"%string) as [Hj Hjg].
    { assert ((j, glo) ∈ filter (fun p => d_location p.2 = "GLO"%string) (members row_key k data)) as Hin
          by (rewrite Hf; by left). apply elem_of_list_filter in Hin. cbn in Hin. tauto. }
    destruct (decide (i = j)) as [<-|Hij].
    + assert (glo = ds) as ->.
      { apply elem_of_members in Hj as [Hj _]. congruence. }
      destruct Hres as [[Hres _]|(d' & Hd' & Hres)]; [exfalso; apply Hres; by left|].
      apply elem_of_list_singleton in Hd'. injection Hd' as ->.
      eexists. split; [exact Hres|]. split.
      * intros _. unfold as_rest_of_world.
        destruct (set_rp_pv_single (fun v => set_v_amount
          (Qcmax (v_amount v - Qcsum (map (fun p => recorded_volume p.2)
             (filter (fun p => p.2 <> ds) (members row_key k data)))) 0)
          (set_v_global (Some (v_amount v)) v)) ds rp v Hrp Hv) as (before & after & He & Hn & Hr & ->).
        exists rp, v, before, after. split; [done|]. split; [done|]. split; [done|]. split; [done|].
        assert (filter (fun p => p.2 <> ds) (members row_key k data) = others data i ds) as ->; [|done].
        rewrite Hoth. apply list_filter_iff'. intros [m d] Hm. cbn. split.
        -- intros Hne ->. apply elem_of_members in Hm as [Hm _]. congruence.
        -- intros Hne ->. assert ((m, ds) ∈ [(i, ds)]) as Hc2.
           { rewrite <- Hf. apply elem_of_list_filter. done. }
           apply elem_of_list_singleton in Hc2. congruence.
      * intros Hno. exfalso. apply Hno. split; [done|]. split.
        -- rewrite Hoth. by apply Htwo.
        -- by rewrite Hlead.
    + destruct Hres as [[_ Hres]|(d' & Hd' & _)].
      2:{ apply elem_of_list_singleton in Hd'. congruence. }
      exists ds. split; [done|]. split; [|done]. intros (Hg & _ & _). exfalso.
      assert ((i, ds) ∈ [(j, glo)]) as Hc2.
      { rewrite <- Hf. apply elem_of_list_filter. done. }
      apply elem_of_list_singleton in Hc2. congruence.
Qed.

(** When it fails *)
Lemma relabel_group_result k g :
  Forall (fun p => d_location p.2 = "GLO"%string -> has_volume p.2) g ->
  (exists ups, relabel_group k g = Ok ups) \/
  (relabel_group k g = Err MultipleGlobalDatasets /\
   ~ (exists p l, g = p :: l /\ d_type p.2 = MarketGroup) /\
   (exists p q l, filter (fun p => d_location p.2 = "GLO"%string) g = p :: q :: l)).
Proof.
  intros Hg. unfold relabel_group.
  destruct g as [|p0 [|p1 g]]; [left; eexists; reflexivity|destruct (is_type _ _); left; eexists; reflexivity|].
  destruct (is_type MarketGroup p0.2) eqn:E0; [left; eexists; reflexivity|].
  set (gg := p0 :: p1 :: g) in *.
  assert (filterb is_glo gg = filter (fun p => d_location p.2 = "GLO"%string) gg) as Eg.
  { apply filterb_filter. intros p _. unfold is_glo.
    destruct (String.eqb_spec (d_location p.2) "GLO"); symmetry;
      [by apply bool_decide_eq_true|by apply bool_decide_eq_false]. }
  rewrite Eg. destruct (filter _ gg) as [|[i glo] [|q l]] eqn:Ef.
  - left. eexists; reflexivity.
  - left. assert ((i, glo) ∈ filter (fun p => d_location p.2 = "GLO"%string) gg) as Hin by (rewrite Ef; by left).
    apply elem_of_list_filter in Hin as [Hl Hin]. rewrite Forall_forall in Hg.
    destruct (Hg _ Hin Hl) as (rp & v & Hrp & Hv). cbn in Hrp. apply get_single_ok in Hrp. rewrite Hrp.
    cbn [bind]. rewrite Hv. eexists; reflexivity.
  - right. split; [done|]. split; [|by exists (i, glo), q, l].
    intros (p & l' & [= <- <-] & Hp). unfold is_type in E0. by apply bool_decide_eq_false in E0.
Qed.
Lemma relabel_errors data :
  Forall classified data ->
  (forall ds, ds ∈ data -> d_location ds = "GLO"%string -> has_volume ds) ->
  (two_global data /\ relabel_global_to_row data = Err MultipleGlobalDatasets) \/
  (~ two_global data /\ exists data', relabel_global_to_row data = Ok data').
Proof.
  intros Hc Hv.
  assert (forall k, Forall (fun p => d_location p.2 = "GLO"%string -> has_volume p.2) (members row_key k data)) as Hm.
  { intros k. apply Forall_forall. intros [i d] Hd. apply elem_of_members in Hd as [Hd _].
    cbn. apply Hv. by eapply elem_of_list_lookup_2. }
  assert (forall k, relabel_group k (members row_key k data) = Err MultipleGlobalDatasets -> two_global data) as Htwo.
  { intros k Hk. destruct (relabel_group_result k _ (Hm k)) as [[ups Hu]|(_ & Hl & ([i a] & [j b] & l & Hf))]; [congruence|].
    assert (NoDup (map fst (filter (fun p => d_location p.2 = "GLO"%string) (members row_key k data)))) as Hnd.
    { apply NoDup_map_filter, members_fst. }
    rewrite Hf in Hnd. cbn in Hnd. apply NoDup_cons in Hnd as [Hij _].
    assert ((i, a) ∈ members row_key k data /\ d_location a = "GLO"%string) as [Ha Hla].
    { assert ((i, a) ∈ filter (fun p => d_location p.2 = "GLO"%string) (members row_key k data)) as Hin
        by (rewrite Hf; by left). apply elem_of_list_filter in Hin. cbn in Hin. tauto. }
    assert ((j, b) ∈ members row_key k data /\ d_location b = "GLO"%string) as [Hb Hlb].
    { assert ((j, b) ∈ filter (fun p => d_location p.2 = "GLO"%string) (members row_key k data)) as Hin
        by (rewrite Hf; by right; left). apply elem_of_list_filter in Hin. cbn in Hin. tauto. }
    apply elem_of_members in Ha as [Ha Hka]. apply elem_of_members in Hb as [Hb Hkb].
    rewrite Forall_lookup in Hc.
    exists i, j, a, b. split; [intros ->; apply Hij; by left|]. split; [done|]. split; [done|]. split.
    { apply same_activity_sym. eapply row_key_same; eauto. }
    split; [done|]. split; [done|]. rewrite (members_leader data i a k); [done| |done|done].
    by apply Forall_lookup. }
  destruct (relabel_global_to_row data) as [data'|x] eqn:E.
  - right. split; [|by exists data']. intros (i & j & a & b & Hij & Ha & Hb & Hab & Hla & Hlb & Hl).
    assert (exists k, key_of row_key a = Some k) as [k Hk].
    { rewrite Forall_lookup in Hc. eexists. unfold key_of.
      by rewrite (proj2 (row_key_Ok a _) (conj (Hc _ _ Ha) eq_refl)). }
    destruct (relabel_group_result k _ (Hm k)) as [[ups Hu]|(He & _)].
    + apply relabel_group_spec in Hu as [[_ Hw]|(m & glo & _ & _ & _ & _ & Hf & _)].
      * assert ((i, a) ∈ members row_key k data) as Hma by by apply elem_of_members.
        assert ((j, b) ∈ members row_key k data) as Hmb.
        { apply elem_of_members. split; [done|]. rewrite Forall_lookup in Hc.
          eapply (row_key_same a b); eauto using same_activity_sym. }
        destruct Hw as [Hw|[Hw|Hw]].
        -- apply Hl. by eapply members_leader.
        -- apply (filter_single_pos (fun _ => True) _ i a (members_fst _ _ _)) in Hma.
           assert (filter (fun p => p.1 <> i) (members row_key k data) <> []) as Hne; [|apply Hma in Hne; lia].
           intros Hnil. eapply filter_nil_not_elem_of; [exact Hnil| |exact Hmb]. cbn. congruence.
        -- rewrite Forall_forall in Hw. by apply (Hw _ Hma).
      * assert (forall m' d, data !! m' = Some d -> key_of row_key d = Some k -> d_location d = "GLO"%string -> m' = m) as Hu.
        { intros m' d Hd Hkd Hld. assert ((m', d) ∈ [(m, glo)]) as Hin.
          { rewrite <- Hf. apply elem_of_list_filter. split; [done|]. by apply elem_of_members. }
          apply elem_of_list_singleton in Hin. congruence. }
        apply Hij. rewrite (Hu i a), (Hu j b); [done|done| |done|done|done|done].
        rewrite Forall_lookup in Hc. eapply (row_key_same a b); eauto using same_activity_sym.
    + assert (members row_key k data <> []) as Hne.
      { intros Hnil. assert ((i, a) ∈ members row_key k data) as Hma by by apply elem_of_members.
        rewrite Hnil in Hma. by apply elem_of_nil in Hma. }
      destruct (update_groups_fails row_key relabel_group data k _ Hne He) as [y Hy].
      unfold relabel_global_to_row in E. congruence.
  - left. unfold relabel_global_to_row, update_groups in E.
    destruct (keyed row_key data) as [ks|y] eqn:Ek.
    + cbn [bind] in E. apply keyed_Ok in Ek as (_ & _ & Hw).
      destruct (mapR _ (groupby ks)) as [ups|y] eqn:Em; cbn [bind] in E; [discriminate|].
      injection E as <-. apply mapR_Err in Em as (l1 & [k xs] & l2 & Hl & Hx & _).
      assert ((k, xs) ∈ groupby ks) as Hin by (rewrite Hl; set_solver).
      apply (groupby_spec ks) in Hin as [_ ->]. cbn in Hx. rewrite Hw in Hx.
      destruct (relabel_group_result k _ (Hm k)) as [[u Hu]|(He & _)]; [congruence|].
      split; [by eapply Htwo|]. congruence.
    + exfalso. unfold keyed, concat_mapR in Ek.
      destruct (mapR_ok_all (fun p : nat * dataset => let? k := row_key p.2 in
        Ok (match k with Some k => [(k, p)] | None => [] end)) (indexed data)) as [r Hr].
      * intros [i d] Hd. apply elem_of_indexed in Hd. rewrite Forall_lookup in Hc.
        cbn [snd]. rewrite (proj2 (row_key_Ok d _) (conj (Hc _ _ Hd) eq_refl)). eexists; reflexivity.
      * rewrite Hr in Ek. discriminate.
Qed.

(** Idle rest-of-world datasets *)
Lemma drop_zero_pv_spec data :
  drop_zero_pv_row_datasets data
  = filter (fun ds => ~ (d_location ds = "RoW"%string /\ d_type ds = MarketActivity /\
                         production_volume ds = Some 0%Qc)) data.
Proof.
  apply filterb_filter. intros ds _. symmetry. unfold is_type.
  destruct (String.eqb_spec (d_location ds) "RoW") as [E|E]; cbn [negb orb].
  - rewrite <- !bool_decide_not, <- bool_decide_or. apply bool_decide_ext.
    destruct (decide (production_volume ds = Some 0%Qc)), (decide (d_type ds = MarketActivity)); naive_solver.
  - apply bool_decide_eq_true. naive_solver.
Qed.

Lemma typed_refprod_Ok tys ds o : typed_refprod tys ds = Ok o <->
  (d_type ds ∈ tys /\ is_Some (d_refprod ds) /\ o = d_refprod ds) \/ (d_type ds ∉ tys /\ o = None).
Proof.
  unfold typed_refprod, refprod. case_bool_decide as E.
  - destruct (d_refprod ds) as [rp|]; cbn.
    + split.
      * intros <-%Ok_inj. left. split; [done|]. split; [|done]. by eexists.
      * intros [(_ & _ & ->)|[? _]]; done.
    + split; [discriminate|]. intros [(_ & [? ?] & _)|[? _]]; done.
  - split.
    + intros <-%Ok_inj. right. done.
    + intros [[? _]|[_ ->]]; done.
Qed.
Lemma typed_refprod_key tys ds k : key_of (typed_refprod tys) ds = Some k <->
  d_type ds ∈ tys /\ d_refprod ds = Some k.
Proof.
  unfold key_of. destruct (typed_refprod tys ds) as [o|] eqn:E.
  - apply typed_refprod_Ok in E as [(H1 & H2 & ->)|[H1 ->]]; naive_solver.
  - split; [done|]. intros [H1 H2]. assert (typed_refprod tys ds = Ok (Some k)); [|congruence].
    apply typed_refprod_Ok. left. split; [done|]. rewrite H2. split; [by eexists|done].
Qed.

Lemma idle_row_spec group d : d ∈ idle_row group <->
  (2 <= length group)%nat /\ d_location d = "RoW"%string /\
  (original_production_volume d = None \/ original_production_volume d = Some 0%Qc) /\
  exists before after, group = before ++ d :: after /\
    Forall (fun x => d_location x <> "RoW"%string) before.
Proof.
  unfold idle_row.
  assert (forall l : list dataset, match List.find (fun ds => (d_location ds =? "RoW")%string) l with
    | Some r => exists b a, l = b ++ r :: a /\ d_location r = "RoW"%string /\
        Forall (fun x => d_location x <> "RoW"%string) b
    | None => Forall (fun x => d_location x <> "RoW"%string) l end) as Hfind.
  { clear. induction l as [|x l IH]; cbn; [constructor|].
    destruct (String.eqb_spec (d_location x) "RoW") as [E|E].
    - exists [], l. split; [done|]. split; [done|constructor].
    - destruct (List.find _ l) as [r|].
      + destruct IH as (b & a & -> & Hr & Hb). exists (x :: b), a. split; [done|].
        split; [done|]. by constructor.
      + by constructor. }
  destruct group as [|x [|y l]].
  { cbn. split; [intros H; by apply elem_of_nil in H|]. intros [H _]. lia. }
  { split; [intros H; by apply elem_of_nil in H|]. cbn. intros [H _]. lia. }
  set (g := x :: y :: l) in *. specialize (Hfind g).
  assert (2 <= length g)%nat as Hlen by (unfold g; cbn; lia).
  assert (forall b1 a1 r1 b2 a2 r2, g = b1 ++ r1 :: a1 -> g = b2 ++ r2 :: a2 ->
    d_location r1 = "RoW"%string -> d_location r2 = "RoW"%string ->
    Forall (fun x => d_location x <> "RoW"%string) b1 ->
    Forall (fun x => d_location x <> "RoW"%string) b2 -> r1 = r2) as Huniq.
  { clear. intros b1 a1 r1 b2 a2 r2 -> H Hr1 Hr2. revert b2 H.
    induction b1 as [|z b1 IH]; intros [|w b2] H H1 H2; cbn in H.
    - by injection H.
    - injection H as <- _. apply Forall_cons in H2 as [H2 _]. done.
    - injection H as -> _. apply Forall_cons in H1 as [H1 _]. done.
    - apply Forall_cons in H1 as [_ H1]. apply Forall_cons in H2 as [_ H2].
      injection H as _ H. by eapply IH. }
  destruct (List.find _ g) as [r|].
  - destruct Hfind as (b & a & Hg & Hr & Hb).
    assert (d ∈ (match original_production_volume r with
      | Some v => if Qctruthy v then [] else [r] | None => [r] end) <->
      d = r /\ (original_production_volume r = None \/ original_production_volume r = Some 0%Qc)) as ->.
    { destruct (original_production_volume r) as [v|].
      - unfold Qctruthy, Qceqb. case_bool_decide; cbn; subst; set_solver.
      - set_solver. }
    split.
    + intros [-> Ho]. split; [done|]. split; [done|]. split; [done|]. by exists b, a.
    + intros (_ & Hd & Ho & b' & a' & Hg' & Hb'). assert (d = r) as -> by by eapply Huniq.
      done.
  - split; [intros H; by apply elem_of_nil in H|]. intros (_ & Hd & _ & b & a & Hg & _).
    rewrite Forall_forall in Hfind. exfalso. apply (Hfind d); [rewrite Hg; set_solver|done].
Qed.

Lemma idle_volume d : recorded_volume d = 0%Qc <->
  original_production_volume d = None \/ original_production_volume d = Some 0%Qc.
Proof.
  rewrite <- original_recorded. destruct (original_production_volume d) as [v|]; cbn; naive_solver.
Qed.

Lemma filter_split {A} (P : A -> Prop) `{forall x, Decision (P x)} (l b a : list A) (x : A) :
  filter P l = b ++ x :: a ->
  exists lb la, l = lb ++ x :: la /\ filter P lb = b /\ filter P la = a.
Proof.
  revert b. induction l as [|y l IH]; intros b E.
  - rewrite filter_nil in E. by destruct b.
  - rewrite filter_cons in E. destruct (decide (P y)) as [Hy|Hy].
    + destruct b as [|z b]; cbn in E.
      * injection E as -> <-. by exists [], l.
      * injection E as -> E. apply IH in E as (lb & la & -> & <- & <-).
        exists (z :: lb), la. split; [done|]. rewrite filter_cons_True by done. done.
    + apply IH in E as (lb & la & -> & <- & <-). exists (y :: lb), la. split; [done|].
      rewrite filter_cons_False by done. done.
Qed.

Lemma delete_global_spec kind data data' :
  delete_global_with_zero_pv_when_regional_present kind data = Ok data' ->
  exists keep : dataset -> bool, data' = List.filter keep data /\
    forall ds, ds ∈ data -> keep ds = false <-> idle_first kind data ds.
Proof.
  unfold delete_global_with_zero_pv_when_regional_present. intros (ks & Hks & <-%Ok_inj)%bind_Ok.
  set (purge := concat _).
  exists (fun ds => bool_decide (ds ∉ purge)). split; [done|].
  pose proof Hks as Hks'. apply keyed_Ok in Hks as (Hall & Hkeys & Hwith).
  destruct (groupby_spec ks) as (Hnd & Hgk & Hgx).
  intros ds Hds. rewrite bool_decide_eq_false.
  assert ((~ (ds ∉ purge)) <-> ds ∈ purge) as ->.
  { split; [|tauto]. destruct (decide (ds ∈ purge)); tauto. }
  unfold purge. rewrite elem_of_list_In, in_concat. setoid_rewrite <- elem_of_list_In.
  assert (forall k, map snd (members (typed_refprod [kind]) k data)
      = filter (fun d => competes kind (Some k) d) data) as Hm.
  { intros k. rewrite members_snd. apply list_filter_iff. intros d. rewrite typed_refprod_key.
    unfold competes. rewrite elem_of_list_singleton. done. }
 split.
  - intros (l & Hl & Hin). apply elem_of_list_fmap in Hl as ([k xs] & -> & Hg). cbn in Hin.
    apply Hgx in Hg as [_ ->]. rewrite Hwith, Hm in Hin.
    apply idle_row_spec in Hin as (Hlen & Hrow & Hv & b & a & Hsplit & Hb).
    assert (competes kind (Some k) ds) as [Hty Hrp].
    { assert (ds ∈ filter (fun d => competes kind (Some k) d) data) as H by (rewrite Hsplit; set_solver).
      by apply elem_of_list_filter in H as [? _]. }
    split; [done|]. split; [done|]. split; [by apply idle_volume|].
    pose proof Hsplit as Hs2. apply filter_split in Hs2 as (lb & la & -> & <- & <-).
    exists lb, la. split; [done|]. rewrite Hrp. split.
    + intros x Hx Hc. rewrite Forall_forall in Hb. apply Hb. apply elem_of_list_filter. done.
    + rewrite Hsplit, app_length in Hlen. cbn in Hlen.
      destruct (filter _ lb) as [|x ?] eqn:E1.
      * destruct (filter (fun d => competes kind (Some k) d) la) as [|x ?] eqn:E2; [cbn in Hlen; lia|].
        assert (x ∈ filter (fun d => competes kind (Some k) d) la) as Hx by (rewrite E2; by left).
        apply elem_of_list_filter in Hx as [? ?]. exists x. split; [set_solver|done].
      * assert (x ∈ filter (fun d => competes kind (Some k) d) lb) as Hx by (rewrite E1; by left).
        apply elem_of_list_filter in Hx as [? ?]. exists x. split; [set_solver|done].
  - intros (Hty & Hrow & Hv & b & a & Hsplit & Hb & x & Hx & Hxc).
    assert (exists k, d_refprod ds = Some k) as [k Hk].
    { eapply Forall_forall in Hall as [o Ho]; [|exact Hds].
      apply typed_refprod_Ok in Ho as [(_ & [k ?] & _)|[H _]]; [by exists k|]. set_solver. }
    exists (idle_row (map snd (with_key k ks))). split.
    + apply elem_of_list_fmap. exists (k, with_key k ks). split; [done|]. apply Hgx. split; [|done].
      apply Hkeys. exists ds. split; [done|]. apply typed_refprod_Ok. left.
      split; [set_solver|]. rewrite Hk. split; [by eexists|done].
    + rewrite Hwith, Hm. apply idle_row_spec. rewrite Hsplit, filter_app, Hk in *.
      rewrite filter_cons_True by done. split_and!.
      * rewrite app_length. cbn [length].
        apply elem_of_app in Hx as [Hx|Hx].
        -- assert (x ∈ filter (fun d => competes kind (Some k) d) b) as H by by apply elem_of_list_filter.
           destruct (filter _ b); [by apply elem_of_nil in H|]. cbn. lia.
        -- assert (x ∈ filter (fun d => competes kind (Some k) d) a) as H by by apply elem_of_list_filter.
           destruct (filter _ a); [by apply elem_of_nil in H|]. cbn. lia.
      * done.
      * by apply idle_volume.
      * eexists _, _. split; [done|]. apply Forall_forall. intros y Hy.
        apply elem_of_list_filter in Hy as [? ?]. by apply Hb.
Qed.

Lemma delete_global_last kind data data' ds :
  NoDup data -> delete_global_with_zero_pv_when_regional_present kind data = Ok data' ->
  ds ∈ data -> ds ∉ data' ->
  d_type ds = kind /\ d_location ds = "RoW"%string /\ recorded_volume ds = 0%Qc /\
  exists other, other ∈ data' /\ competes kind (d_refprod ds) other.
Proof.
  intros Hnd H Hds Hnot. apply delete_global_spec in H as (keep & -> & Hk).
  assert (forall x, x ∈ List.filter keep data <-> x ∈ data /\ keep x = true) as Hf.
  { intros x. rewrite elem_of_list_In, filter_In, <- elem_of_list_In. done. }
  assert (idle_first kind data ds) as Hid.
  { apply Hk; [done|]. apply not_true_iff_false. intros Hc. apply Hnot. by apply Hf. }
  pose proof Hid as (Hty & Hrow & Hv & b & a & Hs & Hb & x & Hx & Hxc).
  split_and!; [done..|]. exists x. split; [|done]. apply Hf. split; [rewrite Hs; set_solver|].
  destruct (keep x) eqn:Ex; [done|]. exfalso.
  assert (x ∈ data) as Hxd by (rewrite Hs; set_solver). apply Hk in Ex; [|done].
  destruct Ex as (_ & Hxrow & _ & b' & a' & Hs' & Hb' & _).
  destruct Hxc as [Hxt Hxr]. rewrite Hxr in Hb'.
  assert (ds ∉ b') as Hdb.
  { intros Hc. by apply (Hb' ds Hc). }
  assert (x ∉ b) as Hxb. { intros Hc. apply (Hb x Hc); done. }
  assert (x <> ds) as Hne.
  { intros ->. rewrite Hs in Hnd. apply NoDup_app in Hnd as (_ & H1 & H2).
    apply NoDup_cons in H2 as [H2 _]. set_solver. }
  assert (x ∈ a) as Hxa by set_solver. clear Hx.
  rewrite Hs in Hs'. clear -Hs' Hdb Hxb Hne. revert b' Hs' Hdb.
  induction b as [|y b IH]; intros [|z b'] Hs' Hdb; cbn in Hs'.
  - injection Hs' as -> _. done.
  - injection Hs' as -> _. set_solver.
  - injection Hs' as -> _. set_solver.
  - injection Hs' as -> Hs'. apply (IH ltac:(set_solver) b' Hs'). set_solver.
Qed.

Lemma delete_global_total kind data :
  (forall ds, ds ∈ data -> d_type ds = kind -> is_Some (d_refprod ds)) ->
  exists data', delete_global_with_zero_pv_when_regional_present kind data = Ok data'.
Proof.
  intros H. unfold delete_global_with_zero_pv_when_regional_present.
  assert (exists ks, keyed (typed_refprod [kind]) data = Ok ks) as [ks ->]; [|eexists; reflexivity].
  unfold keyed, concat_mapR.
  destruct (mapR_ok_all (fun p => let? k := typed_refprod [kind] p.2 in
    Ok (match k with Some k => [(k, p)] | None => [] end)) (indexed data)) as [r ->]; [|eexists; reflexivity].
  intros [i d] Hd. apply elem_of_indexed, elem_of_list_lookup_2 in Hd. cbn.
  destruct (decide (d_type d = kind)) as [E|E].
  - rewrite (proj2 (typed_refprod_Ok [kind] d (d_refprod d))); [eexists; reflexivity|].
    left. split; [set_solver|]. split; [by apply H|done].
  - rewrite (proj2 (typed_refprod_Ok [kind] d None)); [eexists; reflexivity|]. right.
    split; [set_solver|done].
Qed.
