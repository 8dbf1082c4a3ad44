(** Proofs for C19-C23. *)
From Verif Require Import Base Types Uncertainty Spec_Uncertainty Uncertainty_proofs
  Utils Spec_Utils Utils_proofs Validation Validation_proofs Strings Grouping
  Cutoff Spec_Cutoff Cutoff_proofs Recalculation_proofs Combined_proofs Combined2_proofs SingleOutput_proofs Spec_Waste.

(** ** C19 *)
Lemma flip_exchange_spec e e' : flip_exchange e = Ok e' -> flipped e e'.
Proof.
  unfold flip_exchange, flipped, nonalloc_byproduct, turned. case_bool_decide as Ht.
  - intros H. apply bind_Ok in H as (c & Hc & H). destruct (e_class e) as [c'|] eqn:Ec; [|done].
    cbn in Hc. injection Hc as ->. case_bool_decide as Ha; apply Ok_inj in H as <-.
    + right. subst c. split; [|done]. intros [_ Hn]. done.
    + left. split; [split; [done|congruence]|]. split_and!; reflexivity.
  - intros [= <-]. right. tauto.
Qed.
Lemma flip_exchange_total e :
  (e_type e = Byproduct -> e_class e <> None) -> exists e', flip_exchange e = Ok e'.
Proof.
  intros H. unfold flip_exchange. case_bool_decide as Ht; [|eauto].
  specialize (H Ht). destruct (e_class e); [|done]. cbn. case_bool_decide; eauto.
Qed.

Lemma flip_spec ds ds' :
  flip_non_allocatable_byproducts ds = Ok ds' ->
  exists es', ds' = set_d_exchanges es' ds /\ Forall2 flipped (d_exchanges ds) es'.
Proof.
  unfold flip_non_allocatable_byproducts. intros H. apply bind_Ok in H as (es & Hes & H).
  apply Ok_inj in H as <-. exists es. split; [done|]. apply mapR_Ok in Hes.
  eapply Forall2_impl; [exact Hes|]. apply flip_exchange_spec.
Qed.
Lemma flip_total ds : classified ds -> exists ds', flip_non_allocatable_byproducts ds = Ok ds'.
Proof.
  intros H. unfold flip_non_allocatable_byproducts.
  destruct (mapR_ok_all flip_exchange (d_exchanges ds)) as (es & ->); [|cbn; eauto].
  intros e He. apply flip_exchange_total. unfold classified in H. rewrite Forall_forall in H. by apply H.
Qed.

Lemma flip_net ds ds' n :
  flip_non_allocatable_byproducts ds = Ok ds' -> net n ds' = net n ds.
Proof.
  intros H. apply flip_spec in H as (es' & -> & HF). unfold net.
  cbn [d_exchanges set_d_exchanges]. induction HF as [|e e' es es' He _ IH]; [done|].
  rewrite !filter_cons.
  destruct He as [[[Ht Hc] (T1 & T2 & _ & _ & T5)]|[_ ->]].
  - assert (Hn : e_name e' = e_name e) by (rewrite T5; done).
    destruct (decide (is_output e' /\ e_name e' = n)) as [[[Ho|Ho] _]|_]; [congruence|congruence|].
    destruct (decide (e_type e = FromTechnosphere /\ e_name e = n)) as [[Ho _]|_]; [congruence|].
    destruct (decide (is_output e /\ e_name e = n)) as [[_ Hen]|Hen].
    + rewrite decide_True by (split; [done|congruence]). unfold Qcsum in *. cbn [map foldr].
      rewrite T2. qclra.
    + rewrite decide_False; [done|]. intros [_ E]. apply Hen. split; [by right|congruence].
  - destruct (decide (is_output e /\ e_name e = n)), (decide (e_type e = FromTechnosphere /\ e_name e = n));
      unfold Qcsum in *; cbn [map foldr]; qclra.
Qed.

Lemma flip_none_left ds ds' :
  flip_non_allocatable_byproducts ds = Ok ds' ->
  Forall (fun e => ~ nonalloc_byproduct e) (d_exchanges ds').
Proof.
  intros H. apply flip_spec in H as (es' & -> & HF). cbn [d_exchanges set_d_exchanges].
  eapply Forall2_Forall_r; [exact HF|]. intros e e' _ [[_ (T & _)]|[Hn ->]]; [|done].
  intros [Hb _]. congruence.
Qed.

Lemma flip_idem ds ds' :
  flip_non_allocatable_byproducts ds = Ok ds' -> flip_non_allocatable_byproducts ds' = Ok ds'.
Proof.
  intros H. pose proof (flip_none_left _ _ H) as Hn.
  assert (Hc : classified ds').
  { pose proof H as H'. unfold flip_non_allocatable_byproducts in H'.
    apply bind_Ok in H' as (es & Hes & H'). apply Ok_inj in H' as <-. apply mapR_Ok in Hes.
    unfold classified. cbn [d_exchanges set_d_exchanges].
    eapply Forall2_Forall_r; [exact Hes|]. intros e e' _ He Ht Hcl.
    unfold flip_exchange in He. case_bool_decide; [|congruence].
    apply bind_Ok in He as (c & Hc & He). case_bool_decide; apply Ok_inj in He as <-; [|done].
    rewrite Hcl in Hc. done. }
  destruct (flip_total ds' Hc) as (ds'' & H2). rewrite H2. f_equal.
  apply flip_spec in H2 as (es & -> & HF).
  assert (es = d_exchanges ds') as ->; [|by destruct ds'].
  symmetry. clear -HF Hn. induction HF as [|e e' l k He _ IH]; [done|].
  apply Forall_cons in Hn as [Hn1 Hn]. destruct He as [[? _]|[_ ->]]; [done|]. f_equal. by apply IH.
Qed.

(** ** C20 *)
Lemma negate_spec ln e e' : negate_exchange ln e = Ok e' -> scaled_by (- (1)) e e'.
Proof. unfold negate_exchange. intros H. apply scale_exchange_spec in H. done. Qed.

Lemma get_single_filter ds rp :
  get_single_reference_product ds = Ok rp -> filter is_refproduct (d_exchanges ds) = [rp].
Proof.
  unfold get_single_reference_product. rewrite reference_products_filter.
  destruct (filter is_refproduct (d_exchanges ds)) as [|e [|]]; try done. by intros [= ->].
Qed.

Lemma adjust_spec ln ds ds' : adjust_market_sign ln ds = Ok ds' -> signs_adjusted ds ds'.
Proof.
  unfold adjust_market_sign, signs_adjusted. case_bool_decide as Ht.
  2:{ intros [= <-]. by left. }
  intros H. apply bind_Ok in H as (rp & Hrp & H). apply get_single_filter in Hrp.
  apply bind_Ok in H as (c & Hc & H). destruct (e_class rp) as [c'|] eqn:Ec; [|done].
  cbn in Hc. injection Hc as ->. case_bool_decide as Hw.
  { injection H as <-. right. left. exists rp. subst c. done. }
  right. right. exists rp.
  assert (Hm : nonwaste_market ds rp) by (unfold nonwaste_market; rewrite Ec; split_and!; congruence).
  destruct (forallb _ _) eqn:Ef.
  - apply bind_Ok in H as (es & Hes & H). apply Ok_inj in H as <-. exists es. split; [done|].
    split; [done|]. left. split.
    + apply Forall_forall. intros e He. rewrite forallb_forall in Ef. apply elem_of_list_In in He.
      apply Ef in He. by qc_bool.
    + apply mapR_Ok in Hes. eapply Forall2_impl; [exact Hes|]. intros e e' He. left. split; [done|].
      by apply negate_spec in He.
  - assert (HE : Exists (fun e => 0 < e_amount e)%Qc (d_exchanges ds)).
    { clear -Ef. induction (d_exchanges ds) as [|e l IH]; [done|]. cbn in Ef.
      apply andb_false_iff in Ef as [Ef|Ef]; [left; by qc_bool|right; by apply IH]. }
    destruct (Qcltb (e_amount rp) 0) eqn:El; qc_bool.
    + apply bind_Ok in H as (es & Hes & H). apply Ok_inj in H as <-. exists es. split; [done|].
      split; [done|]. right. left. split; [done|]. split; [done|].
      apply mapR_Ok in Hes. eapply Forall2_impl; [exact Hes|]. cbn. intros e e' He.
      destruct (e_name e =? e_name rp)%string eqn:En.
      * left. apply String.eqb_eq in En. split; [done|]. by apply negate_spec in He.
      * right. apply String.eqb_neq in En. by injection He as <-.
    + injection H as <-. exists (d_exchanges ds). split; [done|]. split; [by destruct ds|].
      right. right. done.
Qed.

Lemma adjust_positive ln ds ds' rp :
  adjust_market_sign ln ds = Ok ds' -> nonwaste_market ds rp ->
  exists rp', filter is_refproduct (d_exchanges ds') = [rp'] /\
    same_besides_amount_uncertainty rp rp' /\ e_amount rp' = Qcabs (e_amount rp).
Proof.
  intros H (Ht & Hf & Hc & Hw). apply adjust_spec in H as [[? _]|[(rp0 & _ & Hf0 & Hc0 & _)|(rp0 & es' & (_ & Hf0 & _) & -> & H)]].
  - done.
  - rewrite Hf in Hf0. injection Hf0 as <-. done.
  - rewrite Hf in Hf0. injection Hf0 as <-. cbn [d_exchanges set_d_exchanges].
    assert (Hin : rp ∈ d_exchanges ds).
    { assert (Hx : rp ∈ filter is_refproduct (d_exchanges ds)) by (rewrite Hf; by left).
      by apply elem_of_list_filter in Hx as [_ ?]. }
    assert (Hneg : forall P, Forall2 (negated_where P) (d_exchanges ds) es' ->
      exists rp', filter is_refproduct es' = [rp'] /\ negated_where P rp rp').
    { intros P HF. apply (filter_Forall2 is_refproduct) in HF.
      - rewrite Hf in HF. apply Forall2_cons_inv_l in HF as (rp' & l & Hs & Hl & E).
        apply Forall2_nil_inv_l in Hl as ->. eauto.
      - intros e e' [[_ [_ Hs]]|[_ ->]]; [|done]. symmetry. by apply is_refproduct_same. }
    destruct H as [[Hall HF]|[(_ & Hlt & HF)|(_ & Hge & ->)]].
    + destruct (Hneg _ HF) as (rp' & Hfr & [[_ [Ha Hs]]|[Hn _]]); [|tauto].
      exists rp'. split; [done|]. split; [done|]. rewrite Ha. rewrite Forall_forall in Hall.
      specialize (Hall _ Hin). rewrite Qcabs_neg by done. ring.
    + destruct (Hneg _ HF) as (rp' & Hfr & [[_ [Ha Hs]]|[Hn _]]); [|tauto].
      exists rp'. split; [done|]. split; [done|]. rewrite Ha. rewrite Qcabs_neg by (by apply Qclt_le_weak). ring.
    + exists rp. split; [done|]. split; [apply same_besides_refl|]. by rewrite Qcabs_pos.
Qed.

Lemma adjust_total ln ds :
  (d_type ds = MarketActivity -> exists rp, filter is_refproduct (d_exchanges ds) = [rp] /\ e_class rp <> None) ->
  Forall (fun e => wf_dist ln (e_amount e) (e_unc e)) (d_exchanges ds) ->
  exists ds', adjust_market_sign ln ds = Ok ds'.
Proof.
  intros Hm Hwf. unfold adjust_market_sign. case_bool_decide as Ht; [|eauto].
  destruct (Hm Ht) as (rp & Hf & Hc). unfold get_single_reference_product.
  rewrite reference_products_filter, Hf. cbn [bind].
  destruct (e_class rp) as [c|] eqn:Ec; [|done]. cbn [getkey bind].
  assert (Hneg : forall e, e ∈ d_exchanges ds -> exists e', negate_exchange ln e = Ok e').
  { intros e He. rewrite Forall_forall in Hwf. specialize (Hwf e He).
    destruct (scale_obj_wf ln (e_amount e) (e_unc e) (e_ped e) (- (1))) as (o' & Ho & _); [done|done|].
    unfold negate_exchange, scale_exchange, e_view. rewrite Ho. cbn [bind]. eauto. }
  case_bool_decide; [eauto|]. destruct (forallb _ _).
  - destruct (mapR_ok_all (negate_exchange ln) (d_exchanges ds)) as (es & ->); [done|cbn; eauto].
  - destruct (Qcltb _ _); [|eauto].
    destruct (mapR_ok_all (fun e => if (e_name e =? e_name rp)%string then negate_exchange ln e else Ok e)
                (d_exchanges ds)) as (es & ->); [|cbn; eauto].
    intros e He. destruct (_ =? _)%string; [by apply Hneg|eauto].
Qed.

(** ** C22: Python's endswith and replace *)
Lemma str_app_nil (s : string) : (s ++ "" = s)%string.
Proof. induction s as [|c s IH]; [done|]. change (String c (s ++ "") = String c s). by rewrite IH. Qed.
Lemma startswith_spec p s : str_startswith p s = true <-> exists r, s = (p ++ r)%string.
Proof.
  revert s. induction p as [|a p IH]; intros s; cbn [str_startswith].
  - split; [eauto|done].
  - destruct s as [|b s].
    + split; [done|]. intros (r & H). done.
    + rewrite andb_true_iff, IH. split.
      * intros [H (r & ->)]. apply Ascii.eqb_eq in H as ->. by exists r.
      * intros (r & H). cbn in H. injection H as -> ->. split; [by apply Ascii.eqb_eq|eauto].
Qed.
Lemma startswith_app p s : str_startswith p (p ++ s) = true.
Proof. apply startswith_spec. eauto. Qed.
Lemma endswith_spec m s : str_endswith m s = true <-> exists a, s = (a ++ m)%string.
Proof.
  induction s as [|c s IH]; cbn [str_endswith].
  - rewrite orb_false_r, String.eqb_eq. split.
    + intros <-. by exists ""%string.
    + intros ([|? a] & H); [exact H|discriminate H].
  - rewrite orb_true_iff, IH, String.eqb_eq. split.
    + intros [<-|(a & ->)]; [by exists ""%string|by exists (String c a)].
    + intros ([|c' a] & H); cbn in H; [by left|]. injection H as -> ->. right. eauto.
Qed.
Fixpoint has_char (c : Ascii.ascii) (s : string) : bool :=
  match s with
  | EmptyString => false
  | String c' s => Ascii.eqb c c' || has_char c s
  end.
Lemma startswith_cut p t c r :
  has_char c p = false -> str_startswith p (t ++ String c r) = true -> str_startswith p t = true.
Proof.
  revert t. induction p as [|a p IH]; intros t Hc H; [done|]. cbn in Hc.
  apply orb_false_iff in Hc as [Hc1 Hc]. destruct t as [|b t]; cbn in *.
  - apply andb_true_iff in H as [H _]. apply Ascii.eqb_eq in H as ->.
    rewrite Ascii.eqb_refl in Hc1. done.
  - apply andb_true_iff in H as [H1 H]. rewrite H1. cbn. by apply IH.
Qed.
Lemma replace_skip old new t s :
  replace_from old new (String.length t) (t ++ s) = replace_from old new 0 s.
Proof. induction t as [|c t IH]; [done|]. exact IH. Qed.
Lemma replace_marker n c m' :
  has_char c m' = false -> ~ occurs_in (String c m') n ->
  str_replace (String c m') "" (n ++ String c m') = n.
Proof.
  intros Hc. unfold str_replace. induction n as [|x n IH]; intros Ho.
  - change ("" ++ String c m')%string with (String c m'). cbn [replace_from].
    assert (str_startswith (String c m') (String c m') = true) as ->.
    { apply startswith_spec. exists ""%string. by rewrite str_app_nil. }
    cbn [String.length].
    replace (S (String.length m') - 1) with (String.length m') by lia.
    pose proof (replace_skip (String c m') "" m' "") as E. rewrite str_app_nil in E. rewrite E. done.
  - change (String x n ++ String c m')%string with (String x (n ++ String c m')%string).
    cbn [replace_from].
    destruct (str_startswith (String c m') (String x (n ++ String c m'))) eqn:Es.
    + exfalso. cbn in Es. apply andb_true_iff in Es as [E1 Es]. apply Ascii.eqb_eq in E1 as ->.
      apply startswith_cut in Es; [|done]. apply startswith_spec in Es as (r & ->).
      apply Ho. by exists ""%string, r.
    + f_equal. apply IH. intros (a & b & ->). apply Ho. by exists (String x a), b.
Qed.

Lemma strip_marked n : ~ occurs_in marker n -> strip_marker (n ++ marker) = n.
Proof.
  intros Ho. unfold strip_marker. change RC_STRING with marker.
  assert (str_endswith marker (n ++ marker) = true) as -> by (apply endswith_spec; eauto).
  by apply replace_marker.
Qed.
Lemma strip_unmarked n : (forall a, n <> (a ++ marker)%string) -> strip_marker n = n.
Proof.
  intros Ho. unfold strip_marker. change RC_STRING with marker.
  destruct (str_endswith marker n) eqn:E; [|done]. apply endswith_spec in E as (a & ->).
  exfalso. by eapply Ho.
Qed.
Lemma strip_free n : ~ occurs_in marker n -> strip_marker n = n.
Proof.
  intros Ho. apply strip_unmarked. intros a ->. apply Ho. exists a, ""%string.
  by rewrite str_app_nil.
Qed.

(** ** C21 *)
Lemma is_recyclable_ok e b :
  is_recyclable_byproduct e = Ok b -> b = bool_decide (recyclable_byproduct e).
Proof.
  unfold is_recyclable_byproduct. case_bool_decide as Ht.
  - intros H. apply bind_Ok in H as (c & Hc & H). destruct (e_class e) as [c'|] eqn:Ec; [|done].
    cbn in Hc. injection Hc as ->. apply Ok_inj in H as <-. apply bool_decide_ext.
    unfold recyclable_byproduct. rewrite Ec. naive_solver.
  - intros [= <-]. symmetry. apply bool_decide_eq_false. unfold recyclable_byproduct. tauto.
Qed.
Lemma is_recyclable_total e :
  (e_type e = Byproduct -> e_class e <> None) ->
  is_recyclable_byproduct e = Ok (bool_decide (recyclable_byproduct e)).
Proof.
  intros H. assert (exists b, is_recyclable_byproduct e = Ok b) as (b & Hb).
  { unfold is_recyclable_byproduct. case_bool_decide as Ht; [|eauto].
    specialize (H Ht). destruct (e_class e); [cbn; eauto|done]. }
  rewrite Hb. f_equal. by apply is_recyclable_ok.
Qed.
Lemma rename_spec data data' :
  rename_recyclable_content_exchanges data = Ok data' ->
  Forall2 (on_exchanges (Forall2 marked)) data data'.
Proof.
  unfold rename_recyclable_content_exchanges. intros H. apply mapR_Ok in H.
  eapply Forall2_impl; [exact H|]. cbn. intros ds ds' Hd. apply bind_Ok in Hd as (es & Hes & Hd).
  apply Ok_inj in Hd as <-. exists es. split; [done|]. apply mapR_Ok in Hes.
  eapply Forall2_impl; [exact Hes|]. cbn. intros e e' He. unfold rename_recyclable in He.
  apply bind_Ok in He as (b & Hb & He). apply Ok_inj in He as <-. apply is_recyclable_ok in Hb as ->.
  unfold marked. case_bool_decide; [left|right]; done.
Qed.

(** Every (dataset, exchange) pair of the database, in order. *)
Lemma foldR_app {A B} (f : B -> A -> result B) acc l1 l2 :
  foldR f acc (l1 ++ l2) = (let? acc := foldR f acc l1 in foldR f acc l2).
Proof.
  revert acc. induction l1 as [|x l1 IH]; intros acc; [done|]. cbn [app foldR].
  destruct (f acc x); cbn [bind]; [apply IH|done].
Qed.
Lemma foldR_map {A B C} (f : B -> C -> result B) (g : A -> C) acc l :
  foldR f acc (map g l) = foldR (fun acc x => f acc (g x)) acc l.
Proof.
  revert acc. induction l as [|x l IH]; intros acc; [done|]. cbn [map foldR].
  destruct (f acc (g x)); cbn [bind]; [apply IH|done].
Qed.
Lemma foldR_nested {A B C} (f : B -> A -> C -> result B) (g : A -> list C) acc l :
  foldR (fun acc x => foldR (fun acc y => f acc x y) acc (g x)) acc l =
  foldR (fun acc p => f acc (fst p) (snd p)) acc (concat (map (fun x => map (pair x) (g x)) l)).
Proof.
  revert acc. induction l as [|x l IH]; intros acc; [done|]. cbn [map concat foldR].
  rewrite foldR_app, foldR_map. cbn [fst snd].
  destruct (foldR _ acc (g x)); cbn [bind]; [apply IH|done].
Qed.

Lemma assoc_set_in {A} k (v : A) l n x :
  NoDup (map fst l) ->
  (n, x) ∈ assoc_set k v l <-> (n = k /\ x = v) \/ (n <> k /\ (n, x) ∈ l).
Proof.
  induction l as [|[k' v'] l IH]; intros Hnd; cbn [assoc_set].
  - rewrite elem_of_list_singleton. split; [intros [= -> ->]; auto|].
    intros [[-> ->]|[_ H]]; [done|]. by apply elem_of_nil in H.
  - cbn [map fst] in Hnd. apply NoDup_cons in Hnd as [Hk Hnd]. specialize (IH Hnd).
    destruct (k =? k')%string eqn:E.
    + apply String.eqb_eq in E as ->. rewrite !elem_of_cons. split.
      * intros [[= -> ->]|H]; [auto|]. right. split; [|auto]. intros ->.
        apply Hk. apply elem_of_list_fmap. by exists (k', x).
      * intros [[-> ->]|[Hn [[= -> ->]|H]]]; [auto|done|auto].
    + apply String.eqb_neq in E. rewrite !elem_of_cons, IH. split.
      * intros [[= -> ->]|[H|H]]; [right; split; [congruence|auto]|auto|].
        right. split; [tauto|]. right. tauto.
      * intros [[-> ->]|[Hn [H|H]]]; [auto|auto|]. right. right. done.
Qed.
Lemma assoc_set_keys_nodup {A} k (v : A) l :
  NoDup (map fst l) -> NoDup (map fst (assoc_set k v l)).
Proof.
  induction l as [|[k' v'] l IH]; intros Hnd; cbn [assoc_set].
  - apply NoDup_singleton.
  - cbn [map fst] in Hnd. apply NoDup_cons in Hnd as [Hk Hnd].
    destruct (k =? k')%string eqn:E; cbn [map fst]; apply NoDup_cons; [done|].
    split; [|auto]. intros H. apply elem_of_list_fmap in H as ([n x] & -> & H). cbn in *.
    apply assoc_set_in in H as [[-> ->]|[_ H]]; [|apply Hk, elem_of_list_fmap; by exists (n, x)|done].
    by rewrite String.eqb_refl in E.
Qed.

Lemma sites_in data ds e : (ds, e) ∈ sites data <-> ds ∈ data /\ e ∈ d_exchanges ds.
Proof.
  unfold sites. induction data as [|d data IH]; cbn [map concat].
  - split; [intros H; by apply elem_of_nil in H|intros [H _]; by apply elem_of_nil in H].
  - rewrite elem_of_app, IH, elem_of_cons, elem_of_list_fmap. split.
    + intros [(e' & [= -> ->] & H)|[H1 H2]]; auto.
    + intros [[->|H1] H2]; [left; eauto|auto].
Qed.

Lemma create_supplies ds e rc :
  create_new_recycled_content_dataset ds e = Ok rc -> supplies_recycled (e_name e) ds e rc.
Proof.
  unfold create_new_recycled_content_dataset. intros H. apply bind_Ok in H as (i & Hi & H).
  apply Ok_inj in H as <-. destruct (e_id e) as [i'|] eqn:Ei; [|done]. cbn in Hi. injection Hi as ->.
  unfold supplies_recycled. split_and!; try reflexivity.
  eexists _, _. split; [reflexivity|]. rewrite Ei. split_and!; reflexivity.
Qed.

(** What the dictionary holds after looking at [l]. *)
Definition recycled_table (l : list (dataset * exchange)) (new : list (string * dataset)) : Prop :=
  NoDup (map fst new) /\
  (forall n rc, (n, rc) ∈ new ->
     exists l1 ds e l2, l = l1 ++ (ds, e) :: l2 /\ recyclable_byproduct e /\ e_name e = n /\
       supplies_recycled n ds e rc /\
       Forall (fun p => recyclable_byproduct (snd p) -> e_name (snd p) <> n) l2) /\
  (forall ds e, (ds, e) ∈ l -> recyclable_byproduct e -> e_name e ∈ map fst new).

Lemma recycled_table_spec l new :
  foldR (fun acc p => add_recycled_content (fst p) acc (snd p)) [] l = Ok new ->
  recycled_table l new.
Proof.
  revert new. induction l as [|[ds e] l IH] using rev_ind; intros new H.
  - injection H as <-. split; [constructor|]. split.
    + intros n rc H. by apply elem_of_nil in H.
    + intros ds e H. by apply elem_of_nil in H.
  - rewrite foldR_app in H. apply bind_Ok in H as (acc & Hacc & H). cbn [foldR fst snd] in H.
    apply bind_Ok in H as (new' & H & Hn). apply Ok_inj in Hn as ->.
    apply IH in Hacc as (Hnd & Hin & Hall). clear IH.
    unfold add_recycled_content in H. apply bind_Ok in H as (b & Hb & H).
    apply is_recyclable_ok in Hb as ->. case_bool_decide as Hr.
    + apply bind_Ok in H as (rc & Hrc & H). apply Ok_inj in H as <-.
      apply create_supplies in Hrc. assert (d_name rc = e_name e) as -> by apply Hrc.
      split; [by apply assoc_set_keys_nodup|]. split.
      * intros n x Hx. apply assoc_set_in in Hx as [[-> ->]|[Hne Hx]]; [| |done].
        -- exists l, ds, e, []. split; [done|]. split; [done|]. split; [done|]. split; [done|]. constructor.
        -- apply Hin in Hx as (l1 & ds1 & e1 & l2 & -> & H1 & H2 & H3 & H4).
           exists l1, ds1, e1, (l2 ++ [(ds, e)]). split; [by rewrite <- app_assoc|].
           split; [done|]. split; [done|]. split; [done|]. apply Forall_app. split; [done|].
           apply Forall_singleton. cbn. congruence.
      * intros ds1 e1 Hi Hr1. apply elem_of_list_fmap. apply elem_of_app in Hi as [Hi|Hi].
        -- specialize (Hall _ _ Hi Hr1). apply elem_of_list_fmap in Hall as ([n x] & E & Hx). cbn in E.
           destruct (decide (n = e_name e)) as [->|Hne].
           ++ exists (e_name e, rc). split; [done|]. apply assoc_set_in; auto.
           ++ exists (n, x). split; [done|]. apply assoc_set_in; auto.
        -- apply elem_of_list_singleton in Hi. injection Hi as -> ->.
           exists (e_name e, rc). split; [done|]. apply assoc_set_in; auto.
    + injection H as <-. split; [done|]. split.
      * intros n x Hx. apply Hin in Hx as (l1 & ds1 & e1 & l2 & -> & H1 & H2 & H3 & H4).
        exists l1, ds1, e1, (l2 ++ [(ds, e)]). split; [by rewrite <- app_assoc|].
        split; [done|]. split; [done|]. split; [done|]. apply Forall_app. split; [done|].
        apply Forall_singleton. cbn. tauto.
      * intros ds1 e1 Hi Hr1. apply elem_of_app in Hi as [Hi|Hi]; [by eapply Hall|].
        apply elem_of_list_singleton in Hi. injection Hi as -> ->. done.
Qed.

Lemma create_spec data data' :
  create_recycled_content_datasets data = Ok data' ->
  exists new, data' = data ++ map snd new /\ recycled_table (sites data) new.
Proof.
  unfold create_recycled_content_datasets. intros H. apply bind_Ok in H as (new & Hnew & H).
  apply Ok_inj in H as <-. exists new. split; [done|].
  rewrite (foldR_nested (fun acc x y => add_recycled_content x acc y) d_exchanges) in Hnew.
  by apply recycled_table_spec.
Qed.

Lemma mapR_total_ex {A B} (f : A -> result B) l :
  Forall (fun x => exists y, f x = Ok y) l -> exists ys, mapR f l = Ok ys.
Proof. intros H. apply mapR_ok_all. by apply Forall_forall. Qed.

Lemma handle_total data :
  Forall classified data ->
  Forall (fun ds => Forall (fun e => recyclable_byproduct e -> e_id e <> None) (d_exchanges ds)) data ->
  exists data', handle_waste_outputs data = Ok data'.
Proof.
  intros Hc Hi. unfold handle_waste_outputs.
  assert (exists d1, rename_recyclable_content_exchanges data = Ok d1) as (d1 & H1).
  { apply mapR_ok_all. intros ds Hds. rewrite Forall_forall in Hc. apply Hc in Hds.
    destruct (mapR_ok_all rename_recyclable (d_exchanges ds)) as (es & Hes); [|rewrite Hes; eexists; reflexivity].
    intros e He. unfold classified in Hds. rewrite Forall_forall in Hds. specialize (Hds e He).
    unfold rename_recyclable. rewrite is_recyclable_total by done. cbn [bind]. eexists. reflexivity. }
  rewrite H1. cbn [bind]. apply rename_spec in H1.
  unfold create_recycled_content_datasets.
  rewrite (foldR_nested (fun acc x y => add_recycled_content x acc y) d_exchanges).
  assert (HF : Forall (fun p : dataset * exchange => (e_type (snd p) = Byproduct -> e_class (snd p) <> None) /\
            (recyclable_byproduct (snd p) -> e_id (snd p) <> None)) (sites d1)).
  { apply Forall_forall. intros [ds e] Hin. apply sites_in in Hin as [Hds He]. cbn.
    apply elem_of_list_lookup in Hds as (k & Hds).
    destruct (Forall2_lookup_r _ _ _ _ _ H1 Hds) as (ds0 & Hds0 & es' & -> & HF).
    cbn in He. apply elem_of_list_lookup in He as (j & He).
    destruct (Forall2_lookup_r _ _ _ _ _ HF He) as (e0 & He0 & Hm).
    rewrite Forall_forall in Hc. rewrite Forall_forall in Hi.
    specialize (Hc ds0 (elem_of_list_lookup_2 _ _ _ Hds0)).
    specialize (Hi ds0 (elem_of_list_lookup_2 _ _ _ Hds0)).
    unfold classified in Hc. rewrite Forall_forall in Hc, Hi.
    specialize (Hc e0 (elem_of_list_lookup_2 _ _ _ He0)).
    specialize (Hi e0 (elem_of_list_lookup_2 _ _ _ He0)).
    destruct Hm as [[_ ->]|[_ ->]]; done. }
  fold (sites d1). 
  assert (Hgo : forall l acc, Forall (fun p : dataset * exchange => (e_type (snd p) = Byproduct -> e_class (snd p) <> None) /\
            (recyclable_byproduct (snd p) -> e_id (snd p) <> None)) l ->
     exists new, foldR (fun acc p => add_recycled_content (fst p) acc (snd p)) acc l = Ok new).
  { clear. intros l. induction l as [|[ds e] l IH]; intros acc HF; [cbn; eauto|].
    apply Forall_cons in HF as [[H1 H2] HF]. cbn [foldR fst snd] in *.
    unfold add_recycled_content at 1. rewrite is_recyclable_total by done. cbn [bind].
    case_bool_decide as Hr; [|cbn [bind]; by apply IH].
    specialize (H2 Hr). unfold create_new_recycled_content_dataset.
    destruct (e_id e); [|done]. cbn [getkey bind]. by apply IH. }
  destruct (Hgo (sites d1) [] HF) as (new & E). unfold sites in *. rewrite E. cbn. eauto.
Qed.

(** ** C22, the database *)
Lemma round_trip data data' :
  Forall (fun ds => (forall r, d_refprod ds = Some r -> ~ occurs_in marker r) /\
            Forall (fun e => ~ occurs_in marker (e_name e)) (d_exchanges ds)) data ->
  rename_recyclable_content_exchanges data = Ok data' ->
  rename_recycled_content_products_after_linking data' = data.
Proof.
  intros HF H. apply rename_spec in H. unfold rename_recycled_content_products_after_linking.
  induction H as [|ds ds' data data' (es' & -> & He) _ IH]; [done|].
  apply Forall_cons in HF as [[Hr Hn] HF]. cbn [map]. f_equal; [|by apply IH].
  cbn [d_refprod d_exchanges set_d_exchanges].
  assert (option_map strip_marker (d_refprod ds) = d_refprod ds) as ->.
  { destruct (d_refprod ds) as [r|]; [|done]. cbn. by rewrite strip_free by (by apply Hr). }
  assert (map (fun e => set_e_name (strip_marker (e_name e)) e) es' = d_exchanges ds) as ->.
  { clear -Hn He. induction He as [|e e' es es' Hm _ IH]; [done|].
    apply Forall_cons in Hn as [H1 Hn]. cbn [map]. f_equal; [|by apply IH].
    destruct Hm as [[_ ->]|[_ ->]].
    - cbn. rewrite strip_marked by done. by destruct e.
    - rewrite strip_free by done. by destruct e. }
  by destruct ds.
Qed.

Lemma strip_only_names data :
  Forall2 (fun ds ds' => exists es' r', ds' = set_d_refprod r' (set_d_exchanges es' ds) /\
      r' = option_map strip_marker (d_refprod ds) /\
      Forall2 (fun e e' => exists n, e' = set_e_name n e /\ n = strip_marker (e_name e)) (d_exchanges ds) es')
    data (rename_recycled_content_products_after_linking data).
Proof.
  unfold rename_recycled_content_products_after_linking. apply Forall2_fmap_r.
  apply Forall_Forall2_diag, Forall_forall. intros ds _. cbn.
  eexists _, _. split; [reflexivity|]. split; [done|]. apply Forall2_fmap_r.
  apply Forall_Forall2_diag, Forall_forall. intros e _. cbn. eauto.
Qed.

(** ** C23 *)
Lemma link_truthy_linked e : link_truthy e = true <-> linked e.
Proof.
  unfold link_truthy, linked. destruct (e_link e) as [i|].
  - rewrite negb_true_iff, String.eqb_neq. split; [eauto|]. intros (j & [= <-] & H). done.
  - split; [done|]. intros (j & H & _). done.
Qed.
Lemma drop_zero_spec data :
  Forall2 (on_exchanges (Forall2 (unlinked_where (fun e => e_amount e = 0%Qc /\ linked e))))
    data (drop_zero_amount_activity_links data).
Proof.
  unfold drop_zero_amount_activity_links. apply Forall2_fmap_r.
  apply Forall_Forall2_diag, Forall_forall. intros ds _. eexists. split; [reflexivity|].
  apply Forall2_fmap_r, Forall_Forall2_diag, Forall_forall. intros e _. cbn beta. unfold unlinked_where.
  destruct (negb (Qctruthy (e_amount e)) && link_truthy e) eqn:E.
  - left. rewrite E. apply andb_true_iff in E as [E1 E2]. apply link_truthy_linked in E2.
    split; [|done]. split; [|done]. apply negb_true_iff in E1. by qc_bool.
  - right. rewrite E. split; [|done]. intros [H1 H2]. apply link_truthy_linked in H2.
    rewrite H1, H2 in E. done.
Qed.
Lemma drop_rp_one e :
  unlinked_where (fun e => (e_type e = RefProduct \/ e_type e = DroppedProduct) /\ linked e) e
    (if (bool_decide (e_type e = RefProduct) || bool_decide (e_type e = DroppedProduct))
         && link_truthy e then set_e_link None e else e).
Proof.
  unfold unlinked_where. rewrite <- bool_decide_or, <- link_truthy_linked.
  destruct (bool_decide _ && link_truthy e) eqn:E.
  - left. apply andb_true_iff in E as [E1 E2]. apply bool_decide_eq_true in E1. done.
  - right. split; [|done]. intros [H1 H2]. rewrite H2, bool_decide_eq_true_2 in E; done.
Qed.
Lemma drop_rp_spec data :
  Forall2 (on_exchanges (Forall2 (unlinked_where
      (fun e => (e_type e = RefProduct \/ e_type e = DroppedProduct) /\ linked e))))
    data (drop_rp_activity_links data).
Proof.
  unfold drop_rp_activity_links. apply Forall2_fmap_r.
  apply Forall_Forall2_diag, Forall_forall. intros ds _. eexists. split; [reflexivity|].
  apply Forall2_fmap_r, Forall_Forall2_diag, Forall_forall. intros e _. apply drop_rp_one.
Qed.
(** Dropping links twice changes nothing more. *)
Lemma unlinked_idem (P : exchange -> Prop) l l' l'' :
  (forall e, ~ P (set_e_link None e)) ->
  Forall2 (unlinked_where P) l l' -> Forall2 (unlinked_where P) l' l'' -> l'' = l'.
Proof.
  intros HP H. revert l''. induction H as [|e e' l l' He _ IH]; intros l'' H2.
  - by apply Forall2_nil_inv_l in H2 as ->.
  - apply Forall2_cons_inv_l in H2 as (e'' & k & He' & Hk & ->). f_equal; [|by apply IH].
    destruct He' as [[Hp ->]|[_ ->]]; [|done].
    destruct He as [[_ ->]|[Hn ->]]; [by apply HP in Hp|done].
Qed.
Lemma unlinked_data_idem (P : exchange -> Prop) data data' data'' :
  (forall e, ~ P (set_e_link None e)) ->
  Forall2 (on_exchanges (Forall2 (unlinked_where P))) data data' ->
  Forall2 (on_exchanges (Forall2 (unlinked_where P))) data' data'' -> data'' = data'.
Proof.
  intros HP H. revert data''. induction H as [|d d' l l' Hd _ IH]; intros l'' H2.
  - by apply Forall2_nil_inv_l in H2 as ->.
  - apply Forall2_cons_inv_l in H2 as (d'' & k & Hd' & Hk & ->). f_equal; [|by apply IH].
    destruct Hd as (es & -> & He), Hd' as (es' & -> & He').
    cbn [d_exchanges set_d_exchanges] in He'. rewrite (unlinked_idem P _ _ _ HP He He').
    by destruct d.
Qed.
Lemma not_linked_unlinked e : ~ linked (set_e_link None e).
Proof. intros (i & H & _). done. Qed.
Lemma drop_zero_idem data :
  drop_zero_amount_activity_links (drop_zero_amount_activity_links data) =
  drop_zero_amount_activity_links data.
Proof.
  eapply unlinked_data_idem; [|apply drop_zero_spec|apply drop_zero_spec].
  intros e [_ H]. by apply not_linked_unlinked in H.
Qed.
Lemma drop_rp_idem data :
  drop_rp_activity_links (drop_rp_activity_links data) = drop_rp_activity_links data.
Proof.
  eapply unlinked_data_idem; [|apply drop_rp_spec|apply drop_rp_spec].
  intros e [_ H]. by apply not_linked_unlinked in H.
Qed.

Lemma has_consequential_spec e : has_consequential_property e = true <-> consequential e.
Proof.
  unfold has_consequential_property, consequential. rewrite existsb_exists, Exists_exists.
  split; intros (p & Hp & H); exists p; (split; [by apply elem_of_list_In|]).
  - apply andb_true_iff in H as [H1 H2]. apply String.eqb_eq in H1. by qc_bool.
  - destruct H as [-> ->]. done.
Qed.
Lemma remove_consequential_spec data :
  Forall2 (on_exchanges (fun es es' => es' = filter (fun e => ~ consequential e) es))
    data (remove_consequential_exchanges data).
Proof.
  unfold remove_consequential_exchanges. apply Forall2_fmap_r.
  apply Forall_Forall2_diag, Forall_forall. intros ds _. eexists. split; [reflexivity|].
  apply filterb_filter. intros e _. destruct (has_consequential_property e) eqn:E; cbn [negb]; symmetry.
  - apply bool_decide_eq_false. apply has_consequential_spec in E. tauto.
  - apply bool_decide_eq_true. intros H. apply has_consequential_spec in H. congruence.
Qed.
Lemma remove_consequential_idem data :
  remove_consequential_exchanges (remove_consequential_exchanges data) =
  remove_consequential_exchanges data.
Proof.
  unfold remove_consequential_exchanges. rewrite map_map. apply map_ext. intros ds.
  cbn [d_exchanges set_d_exchanges]. rewrite filterb_idem. by destruct ds.
Qed.

(** ** C20 and C21, the database *)
Lemma adjust_data ln data data' :
  adjust_market_signs_for_allocatable_products ln data = Ok data' ->
  Forall2 signs_adjusted data data'.
Proof.
  intros H. apply mapR_Ok in H. eapply Forall2_impl; [exact H|]. apply adjust_spec.
Qed.
Lemma adjust_data_positive ln data data' :
  adjust_market_signs_for_allocatable_products ln data = Ok data' ->
  Forall2 (fun ds ds' => forall rp, nonwaste_market ds rp ->
      exists rp', filter is_refproduct (d_exchanges ds') = [rp'] /\
        same_besides_amount_uncertainty rp rp' /\ e_amount rp' = Qcabs (e_amount rp)) data data'.
Proof.
  intros H. apply mapR_Ok in H. eapply Forall2_impl; [exact H|].
  intros ds ds' Hd rp Hrp. eapply adjust_positive; [exact Hd|done].
Qed.
Lemma adjust_data_total ln data :
  Forall (fun ds => (d_type ds = MarketActivity -> exists rp,
                       filter is_refproduct (d_exchanges ds) = [rp] /\ e_class rp <> None) /\
            Forall (fun e => wf_dist ln (e_amount e) (e_unc e)) (d_exchanges ds)) data ->
  exists data', adjust_market_signs_for_allocatable_products ln data = Ok data'.
Proof.
  intros H. apply mapR_ok_all. rewrite Forall_forall in H. intros ds Hds.
  destruct (H ds Hds) as [H1 H2]. by apply adjust_total.
Qed.

Lemma marked_recyclable e e' :
  marked e e' -> recyclable_byproduct e' -> recyclable_byproduct e /\ e_name e' = (e_name e ++ marker)%string /\
    e_unit e' = e_unit e /\ e_id e' = e_id e.
Proof. intros [[H ->]|[H ->]]; [|done]. done. Qed.
Lemma table_names l new :
  recycled_table l new -> map d_name (map snd new) = map fst new.
Proof.
  intros (_ & H & _). rewrite map_map. apply map_ext_in. intros [n rc] Hin. apply elem_of_list_In in Hin.
  apply H in Hin as (l1 & ds & e & l2 & _ & _ & _ & Hs & _). apply Hs.
Qed.
Lemma create_last data data' :
  create_recycled_content_datasets data = Ok data' ->
  exists new, data' = data ++ new /\ NoDup (map d_name new) /\
    forall rc, rc ∈ new ->
      exists l1 ds e l2, sites data = l1 ++ (ds, e) :: l2 /\ recyclable_byproduct e /\
        supplies_recycled (e_name e) ds e rc /\
        Forall (fun p => recyclable_byproduct (snd p) -> e_name (snd p) <> e_name e) l2.
Proof.
  intros H. apply create_spec in H as (new & -> & Ht). exists (map snd new). split; [done|].
  split; [rewrite (table_names _ _ Ht); apply Ht|].
  intros rc Hin. apply elem_of_list_fmap in Hin as ([n x] & -> & Hin).
  destruct Ht as (_ & Ht & _). apply Ht in Hin as (l1 & ds & e & l2 & -> & Hr & <- & Hs & Hl).
  exists l1, ds, e, l2. done.
Qed.
Lemma handle_spec data data' :
  handle_waste_outputs data = Ok data' ->
  exists renamed new,
    data' = renamed ++ new /\
    Forall2 (on_exchanges (Forall2 marked)) data renamed /\
    NoDup (map d_name new) /\
    (forall ds e, ds ∈ data -> e ∈ d_exchanges ds -> recyclable_byproduct e ->
       (e_name e ++ marker)%string ∈ map d_name new) /\
    (forall rc, rc ∈ new -> exists ds e, ds ∈ data /\ e ∈ d_exchanges ds /\
       recyclable_byproduct e /\ supplies_recycled (e_name e ++ marker) ds e rc).
Proof.
  unfold handle_waste_outputs. intros H. apply bind_Ok in H as (renamed & Hr & H).
  apply rename_spec in Hr. apply create_spec in H as (new & -> & Ht).
  exists renamed, (map snd new). split; [done|]. split; [done|].
  rewrite (table_names _ _ Ht). destruct Ht as (Hnd & Hin & Hall). split; [done|]. split.
  - intros ds e Hds He Hrec. apply elem_of_list_lookup in Hds as (k & Hds).
    destruct (Forall2_lookup_l _ _ _ _ _ Hr Hds) as (ds1 & Hds1 & es' & -> & HF).
    apply elem_of_list_lookup in He as (j & He).
    destruct (Forall2_lookup_l _ _ _ _ _ HF He) as (e1 & He1 & Hm).
    destruct Hm as [[_ ->]|[Hn _]]; [|done].
    eapply (Hall _ (set_e_name (e_name e ++ marker)%string e)); [|done].
    apply sites_in. split; [by eapply elem_of_list_lookup_2|]. by eapply elem_of_list_lookup_2.
  - intros rc Hrc. apply elem_of_list_fmap in Hrc as ([n x] & -> & Hrc).
    apply Hin in Hrc as (l1 & ds1 & e1 & l2 & E & Hrec & <- & Hs & _).
    assert (Hsite : (ds1, e1) ∈ sites renamed) by (rewrite E; apply elem_of_app; right; by left).
    apply sites_in in Hsite as [Hds He]. apply elem_of_list_lookup in Hds as (k & Hds).
    destruct (Forall2_lookup_r _ _ _ _ _ Hr Hds) as (ds & Hds0 & es' & -> & HF).
    apply elem_of_list_lookup in He as (j & He).
    destruct (Forall2_lookup_r _ _ _ _ _ HF He) as (e & He0 & Hm).
    exists ds, e. split; [by eapply elem_of_list_lookup_2|]. split; [by eapply elem_of_list_lookup_2|].
    destruct (marked_recyclable _ _ Hm Hrec) as (H1 & H2 & H3 & H4).
    split; [done|]. rewrite H2 in Hs. unfold supplies_recycled in *. rewrite H3, H4 in Hs. exact Hs.
Qed.
