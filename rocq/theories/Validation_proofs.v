(** Proofs about the validation functions (C59). *)
From Verif Require Import Base Types Uncertainty Utils Spec_Utils Utils_proofs Validation.

Lemma remove_dups_length {A} `{EqDecision A} (l : list A) :
  length (remove_dups l) <= length l /\
  (length (remove_dups l) = length l -> NoDup l).
Proof.
  induction l as [|x l [IH1 IH2]]; cbn; [split; [lia|constructor]|].
  destruct (decide_rel _ x l) as [Hin|Hin]; cbn.
  - split; lia.
  - split; [lia|]. intros H. constructor; [done|]. apply IH2. lia.
Qed.
Lemma remove_dups_nodup {A} `{EqDecision A} (l : list A) :
  NoDup l -> remove_dups l = l.
Proof.
  induction 1 as [|x l Hx Hl IH]; cbn; [done|].
  destruct (decide_rel _ x l); [done|]. by rewrite IH.
Qed.

Lemma ensure_ids_spec data :
  (NoDup (map d_id data) -> ensure_ids_are_unique data = Ok data) /\
  (~ NoDup (map d_id data) -> ensure_ids_are_unique data = Err IdenticalDatasets).
Proof.
  unfold ensure_ids_are_unique. split; intros H.
  - rewrite bool_decide_eq_true_2; [done|]. rewrite remove_dups_nodup by done.
    apply map_length.
  - rewrite bool_decide_eq_false_2; [done|]. intros E. apply H.
    rewrite <- (map_length d_id data) in E. by apply remove_dups_length in E.
Qed.

Lemma check_single_output_spec ds :
  classified ds ->
  ((length (filter is_refproduct (d_exchanges ds)) = 1 /\
    Forall (fun e => ~ alloc_byproduct e) (d_exchanges ds)) ->
   check_single_output_activity ds = Ok ds) /\
  (~ (length (filter is_refproduct (d_exchanges ds)) = 1 /\
    Forall (fun e => ~ alloc_byproduct e) (d_exchanges ds)) ->
   check_single_output_activity ds = Err InvalidMultioutputDataset).
Proof.
  intros Hcl. unfold check_single_output_activity. rewrite reference_products_filter.
  assert (Hany : exists b, anyR is_allocatable_byproduct (d_exchanges ds) = Ok b /\
    (b = false <-> Forall (fun e => ~ alloc_byproduct e) (d_exchanges ds))).
  { unfold classified in Hcl. induction Hcl as [|e es He Hes IH].
    - exists false. split; [done|]. split; [constructor|done].
    - cbn [anyR].
      assert (is_allocatable_byproduct e = Ok (bool_decide (alloc_byproduct e))) as ->
        by (by apply is_allocatable_byproduct_ok).
      cbn [bind]. case_bool_decide as Hb.
      + exists true. split; [done|]. split; [done|]. intros H. inversion H. done.
      + destruct IH as (b & -> & Hb'). exists b. split; [done|]. rewrite Hb'.
        split; [by constructor|]. by inversion 1. }
  destruct Hany as (b & -> & Hb). cbn [bind]. split; intros H.
  - destruct H as [H1 H2]. rewrite bool_decide_eq_true_2 by done. cbn.
    apply Hb in H2. by rewrite H2.
  - case_bool_decide as H1; cbn; [|done]. destruct b; [done|]. exfalso. apply H.
    split; [done|]. by apply Hb.
Qed.

(** A market consumes its own product only through activity links. *)
Definition market_valid (ds : dataset) : Prop :=
  exists rp, filter is_refproduct (d_exchanges ds) = [rp] /\
    forall e, e ∈ d_exchanges ds -> ~ is_refproduct e -> e_name e = e_name rp ->
      exists l, e_link e = Some l /\ l <> ""%string.

Lemma refs_one ds : length (filter is_refproduct (d_exchanges ds)) = 1 <->
  exists rp, filter is_refproduct (d_exchanges ds) = [rp].
Proof.
  destruct (filter _ _) as [|a [|b l]]; cbn; split; try lia; try done.
  - intros [? [=]].
  - eauto.
  - intros [? [=]].
Qed.

Lemma market_check_one ds rp :
  filter is_refproduct (d_exchanges ds) = [rp] ->
  existsb (fun e => (e_name e =? e_name rp)%string && bool_decide (e <> rp)
              && negb (link_truthy e)) (d_exchanges ds) = false <-> market_valid ds.
Proof.
  intros Hrp.
  assert (Hone : forall e, e ∈ d_exchanges ds -> is_refproduct e <-> e = rp).
  { intros e He. split.
    - intros Hr. assert (Hin : e ∈ filter is_refproduct (d_exchanges ds)).
      { by apply elem_of_list_filter. }
      rewrite Hrp in Hin. by apply elem_of_list_singleton in Hin.
    - intros ->. assert (Hin : rp ∈ filter is_refproduct (d_exchanges ds))
        by (rewrite Hrp; left).
      apply elem_of_list_filter in Hin. tauto. }
  split.
  - intros H. exists rp. split; [done|]. intros e He Hnr Hname.
    assert (Hb : ((e_name e =? e_name rp)%string && bool_decide (e <> rp)
              && negb (link_truthy e)) = false).
    { destruct (_ && _) eqn:E; [|done]. rewrite <- H. symmetry.
      apply existsb_exists. exists e. split; [by apply elem_of_list_In|done]. }
    rewrite Hname, String.eqb_refl in Hb. rewrite bool_decide_eq_true_2 in Hb.
    2: { rewrite <- (Hone e He). done. }
    cbn in Hb. apply negb_false_iff in Hb. unfold link_truthy in Hb.
    destruct (e_link e) as [l|]; [|done]. exists l. split; [done|].
    intros ->. done.
  - intros (rp' & Hrp' & H). rewrite Hrp in Hrp'. injection Hrp' as <-.
    destruct (existsb _ _) eqn:E; [|done]. exfalso.
    apply existsb_exists in E as (e & He & Hb). apply elem_of_list_In in He.
    apply andb_true_iff in Hb as [Hb Hl]. apply andb_true_iff in Hb as [Hn Hne].
    apply String.eqb_eq in Hn. apply bool_decide_eq_true in Hne.
    destruct (H e He) as (l & Hlk & Hle); [by rewrite Hone|done|].
    unfold link_truthy in Hl. rewrite Hlk in Hl.
    destruct (l =? "")%string eqn:El; [|done]. apply String.eqb_eq in El. done.
Qed.

Lemma iterR_Err {A} (f : A -> result unit) l e :
  iterR f l = Err e ->
  exists x, x ∈ l /\ f x = Err e.
Proof.
  induction l as [|x l IH]; cbn; [done|].
  destruct (f x) as [[]|e'] eqn:E; cbn.
  - intros H. destruct (IH H) as (y & Hy & Hf). exists y. split; [by right|done].
  - intros [= ->]. exists x. split; [left|done].
Qed.

Lemma market_activities_in data ds :
  ds ∈ market_activities data <-> ds ∈ data /\ d_type ds = MarketActivity.
Proof.
  unfold market_activities. rewrite filterb_In. by rewrite bool_decide_eq_true.
Qed.

Lemma validate_markets_spec data :
  (forall data', validate_markets data = Ok data' -> data' = data) /\
  (is_ok (validate_markets data) = true <->
   forall ds, ds ∈ data -> d_type ds = MarketActivity -> market_valid ds).
Proof.
  unfold validate_markets, ensure_markets_only_have_one_reference_product,
    ensure_markets_dont_consume_their_ref_product.
  split.
  - intros data' H. inv_ok. congruence.
  - split.
    + intros H ds Hin Ht.
      destruct (bind _ _) as [d'|] eqn:E; [|done]. clear H.
      apply bind_Ok in E as (d1 & E1 & E2). apply bind_Ok in E1 as (u1 & Hok0 & E1).
      apply bind_Ok in E2 as (u2 & Hok & E2). inv_ok. subst.
      apply iterR_Ok in Hok, Hok0. rewrite Forall_forall in Hok, Hok0.
      assert (Hm : ds ∈ market_activities d') by (by apply market_activities_in).
      specialize (Hok0 ds Hm). specialize (Hok ds Hm). inv_ok.
      apply bool_decide_eq_true in Hok0.
      rewrite reference_products_filter in Hok0.
      apply refs_one in Hok0 as [rp Hrp]. cbn beta in Hok.
      rewrite reference_products_filter, Hrp in Hok. inv_ok. apply negb_true_iff in Hok.
      by apply (market_check_one ds rp).
    + intros H.
      assert (H1 : iterR (fun ds => assertR (bool_decide (length (reference_products ds) = 1)) InvalidMarket)
                (market_activities data) = Ok tt).
      { apply iterR_Ok. apply Forall_forall. intros ds Hds.
        apply market_activities_in in Hds as [Hin Ht]. apply assertR_Ok.
        apply bool_decide_eq_true. rewrite reference_products_filter. apply refs_one.
        destruct (H ds Hin Ht) as (rp & Hrp & _). eauto. }
      rewrite H1. cbn [bind].
      match goal with |- context [iterR ?f ?l] =>
        assert (H2 : iterR f l = Ok tt); [|by rewrite H2] end.
      apply iterR_Ok. apply Forall_forall. intros ds Hds.
      apply market_activities_in in Hds as [Hin Ht].
      destruct (H ds Hin Ht) as (rp & Hrp & Hv).
      rewrite reference_products_filter, Hrp. apply assertR_Ok. apply negb_true_iff.
      apply market_check_one; [done|]. by exists rp.
Qed.

Lemma production_volume_check_spec data :
  (forall data', ensure_production_exchanges_have_production_volume data = Ok data' ->
     data' = data) /\
  (is_ok (ensure_production_exchanges_have_production_volume data) = true <->
   forall ds, ds ∈ data -> classified ds /\
     forall e, e ∈ d_exchanges ds -> alloc_output e -> e_pv e <> None).
Proof.
  unfold ensure_production_exchanges_have_production_volume. split.
  - intros data' H. inv_ok. congruence.
  - destruct (iterR _ data) as [[]|err] eqn:E; cbn [bind is_ok].
    + split; [|done]. intros _ ds Hds. apply iterR_Ok in E. rewrite Forall_forall in E.
      specialize (E ds Hds). cbn beta in E. apply iterR_Ok in E. rewrite Forall_forall in E.
      split.
      * apply Forall_forall. intros e He. specialize (E e He). cbn beta in E. inv_ok.
        { apply production_exchange_ok in Hok. tauto. }
        { apply production_exchange_ok in Hok. tauto. }
      * intros e He Ho. specialize (E e He). cbn beta in E. inv_ok.
        { by apply bool_decide_eq_true in E. }
        apply production_exchange_ok in Hok as [_ Hb]. symmetry in Hb.
        by apply bool_decide_eq_false in Hb.
    + split; [done|]. intros H. exfalso.
      apply iterR_Err in E as (ds & Hds & E). destruct (H ds Hds) as [Hcl Hpv].
      apply iterR_Err in E as (e & He & E).
      assert (production_exchange e = Ok (bool_decide (alloc_output e))) as Hp.
      { apply production_exchange_ok. split; [|done].
        unfold classified in Hcl. rewrite Forall_forall in Hcl. auto. }
      rewrite Hp in E. cbn [bind] in E. case_bool_decide as Ho; [|done].
      unfold assertR in E. rewrite bool_decide_eq_true_2 in E by auto. done.
Qed.
