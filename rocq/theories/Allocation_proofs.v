(** Proofs about choosing and applying allocation methods (C14-C16). *)
From Verif Require Import Base Types Uncertainty Spec_Uncertainty Uncertainty_proofs
  Utils Spec_Utils Utils_proofs Validation Validation_proofs Strings Grouping
  Cutoff Spec_Cutoff Cutoff_proofs Spec_Allocation.

(** ** C14 *)
Lemma nonzero_refs ds :
  nonzero_reference_product_exchanges ds = filter produces (d_exchanges ds).
Proof.
  unfold nonzero_reference_product_exchanges, reference_products.
  generalize (d_exchanges ds). intros es. induction es as [|e es IH]; [done|].
  rewrite filterb_cons. rewrite filter_cons. unfold produces at 1.
  case_bool_decide as H.
  - rewrite filterb_cons. unfold Qctruthy, Qceqb. case_bool_decide as H2.
    + destruct (decide _) as [[_ ?]|]; [done|]. cbn [negb]. exact IH.
    + destruct (decide _) as [|Hn]; [|by destruct Hn]. cbn [negb]. f_equal. exact IH.
  - destruct (decide _) as [[? _]|]; [done|]. exact IH.
Qed.

Lemma negative_refs ds :
  existsb (fun e => Qcltb (e_amount e) 0) (reference_products ds) = true <->
  Exists (fun e => (e_amount e < 0)%Qc) (filter produces (d_exchanges ds)).
Proof.
  rewrite <- nonzero_refs. unfold nonzero_reference_product_exchanges.
  generalize (reference_products ds). intros es. induction es as [|e es IH].
  - split; [done|]. inversion 1.
  - cbn [existsb]. rewrite filterb_cons, orb_true_iff, IH.
    unfold Qcltb at 1. rewrite bool_decide_eq_true.
    unfold Qctruthy at 2, Qceqb. case_bool_decide as Hz; cbn [negb].
    + split; [|tauto]. intros [H|H]; [|done]. rewrite Hz in H. by apply Qclt_not_eq in H.
    + rewrite Exists_cons. done.
Qed.

Lemma anyR_sound {A} (p : A -> result bool) (P : A -> Prop) l b :
  (forall x b, p x = Ok b -> (b = true <-> P x)) ->
  anyR p l = Ok b -> (b = true <-> Exists P l).
Proof.
  intros Hp. revert b. induction l as [|x l IH]; intros b H; cbn in H.
  - injection H as <-. split; [done|]. inversion 1.
  - apply bind_Ok in H as (b1 & H1 & H). specialize (Hp _ _ H1) as Hp1. rewrite Exists_cons.
    destruct b1.
    + injection H as <-. split; [|done]. intros _. left. by apply Hp1.
    + rewrite (IH _ H). split; [tauto|]. intros [Hx|]; [|done].
      by apply Hp1 in Hx.
Qed.
Lemma anyR_defined {A} (p : A -> result bool) l :
  Forall (fun x => exists b, p x = Ok b) l -> exists b, anyR p l = Ok b.
Proof.
  induction 1 as [|x l (b & Hb) _ IH]; cbn; [eauto|]. rewrite Hb. cbn. destruct b; eauto.
Qed.

Lemma production_exchange_cases e b :
  production_exchange e = Ok b -> (b = true <-> alloc_output e).
Proof.
  unfold production_exchange, alloc_output, is_refproduct, alloc_byproduct.
  case_bool_decide as H1; [intros [= <-]; tauto|].
  case_bool_decide as H2; [|intros [= <-]; split; [done|tauto]].
  destruct (e_class e) as [c|]; cbn; [|done]. intros [= <-].
  rewrite bool_decide_eq_true. split; [intros ->; by right|].
  intros [?|[_ [= ?]]]; done.
Qed.
Lemma production_exchange_errors e x :
  production_exchange e = Err x ->
  x = KeyError "byproduct classification" /\ e_type e = Byproduct /\ e_class e = None.
Proof.
  unfold production_exchange. case_bool_decide; [done|]. case_bool_decide; [|done].
  destruct (e_class e); cbn; [done|]. by intros [= <-].
Qed.

Lemma byproduct_test_spec e b :
  byproduct_test e = Ok b -> (b = true <-> alloc_byproduct e /\ e_amount e <> 0%Qc).
Proof.
  unfold byproduct_test. intros H. apply bind_Ok in H as (b1 & H1 & [= <-]).
  apply production_exchange_cases in H1. unfold Qctruthy, Qceqb.
  rewrite !andb_true_iff, negb_true_iff, bool_decide_eq_true, bool_decide_eq_false, H1.
  unfold alloc_output, alloc_byproduct, is_refproduct. split.
  - intros [[[H|H] Ht] Ha]; [congruence|tauto].
  - tauto.
Qed.
Lemma product_test_spec e b :
  product_test e = Ok b -> (b = true <-> is_refproduct e /\ e_class e = Some Allocatable).
Proof.
  unfold product_test. intros H. apply bind_Ok in H as (b1 & H1 & [= <-]).
  apply production_exchange_cases in H1.
  rewrite !andb_true_iff, !bool_decide_eq_true, H1.
  unfold alloc_output, alloc_byproduct, is_refproduct. tauto.
Qed.

Lemma conditional_spec es :
  existsb cond_truthy es = true <-> Exists (fun e => e_cond e = Some true) es.
Proof.
  induction es as [|e es IH]; [split; [done|inversion 1]|]. cbn [existsb].
  rewrite orb_true_iff, IH, Exists_cons. unfold cond_truthy.
  destruct (e_cond e) as [[]|]; naive_solver.
Qed.

Lemma bool_prop (b : bool) P : (b = true <-> P) -> {b = true /\ P} + {b = false /\ ~ P}.
Proof. destruct b; [left|right]; intuition congruence. Qed.

Ltac by_label := first [apply M_single|apply M_group|apply M_constrained|apply M_unconstrained
  |apply M_without|apply M_with|apply M_special|apply M_combined]; first [assumption|tauto|lia].

Lemma choose_method ds l : choose_allocation_method ds = Ok l -> method_of ds l.
Proof.
  unfold choose_allocation_method. rewrite map_length. intros H.
  apply bind_Ok in H as (bp & Hbp & H). apply bind_Ok in H as (pr & Hpr & H).
  apply (anyR_sound byproduct_test _ _ _ byproduct_test_spec) in Hbp.
  apply (anyR_sound product_test _ _ _ product_test_spec) in Hpr.
  pose proof (negative_refs ds) as Hneg. pose proof (conditional_spec (d_exchanges ds)) as Hco.
  rewrite nonzero_refs in H. fold (n_products ds) in H.
  set (neg := existsb _ (reference_products ds)) in *. clearbody neg.
  set (co := existsb _ (d_exchanges ds)) in *. clearbody co.
  fold (has_byproduct ds) in Hbp. fold (has_allocatable_product ds) in Hpr.
  fold (has_conditional ds) in Hco.
  destruct (bool_prop _ _ Hbp) as [[-> Hb]|[-> Hb]], (bool_prop _ _ Hpr) as [[-> Hp]|[-> Hp]],
    (bool_prop _ _ Hco) as [[-> Hc]|[-> Hc]]; clear Hbp Hpr Hco; cbn [negb] in H;
  rewrite ?andb_true_r, ?andb_false_r in H;
  try (destruct (Nat.eqb_spec (n_products ds) 1) as [H1|H1];
    [injection H as <-; apply M_single; assumption|]);
  (destruct (bool_decide (d_type ds = MarketGroup)) eqn:Hg;
    [apply bool_decide_eq_true in Hg; injection H as <-; by_label|
     apply bool_decide_eq_false in Hg]);
  (destruct (bool_decide (d_type ds = MarketActivity)) eqn:Hm;
    [apply bool_decide_eq_true in Hm; injection H as <-; by_label|
     apply bool_decide_eq_false in Hm]);
  (destruct (Nat.ltb_spec 1 (n_products ds)) as [Hn|Hn];
    [try (destruct (String.eqb_spec (d_name ds) special_name) as [Hs|Hs]);
     injection H as <-; by_label|]);
  (destruct neg;
   [assert (Hne := proj1 Hneg eq_refl);
    apply bind_Ok in H as (u & Hu & H); apply bind_Ok in H as (c & Hcc & [= <-]);
    destruct (filter produces (d_exchanges ds)) as [|rp [|rp2 rest]] eqn:Ef;
    [by inversion Hne
    |apply Exists_cons in Hne as [Hne|Hne]; [|by inversion Hne];
     cbn in Hcc; injection Hcc as <-;
     assert (n_products ds = 1) by (unfold n_products; by rewrite Ef);
     clear Hu; first [done|
     case_bool_decide; [apply M_waste|apply M_recycling]; try done; exists rp; done]
    |unfold n_products in Hn; rewrite Ef in Hn; cbn in Hn; lia]
   |injection H as <-; apply M_economic; [assumption|assumption|assumption|tauto|];
    intros (rp & Hrp & Ha & _); assert (false = true); [|done];
    apply Hneg; rewrite Hrp; apply Exists_cons; left; exact Ha]).
Qed.

Lemma choose_total_classified ds :
  classified ds -> exists l, choose_allocation_method ds = Ok l.
Proof.
  intros Hcl. unfold choose_allocation_method.
  assert (Hpe : Forall (fun e => exists b, production_exchange e = Ok b) (d_exchanges ds)).
  { eapply Forall_impl; [exact Hcl|]. intros e He.
    destruct (production_exchange e) as [b|x] eqn:E; [eauto|].
    apply production_exchange_errors in E as (_ & Ht & Hc). by destruct (He Ht). }
  destruct (anyR_defined byproduct_test (d_exchanges ds)) as (bp & Hbp).
  { eapply Forall_impl; [exact Hpe|]. intros e (b & Hb). unfold byproduct_test. rewrite Hb. cbn. eauto. }
  destruct (anyR_defined product_test (d_exchanges ds)) as (pr & Hpr).
  { eapply Forall_impl; [exact Hpe|]. intros e (b & Hb). unfold product_test. rewrite Hb. cbn. eauto. }
  rewrite Hbp, Hpr. cbn [bind]. rewrite map_length.
  destruct (_ && _); [eauto|]. case_bool_decide; [eauto|]. case_bool_decide; [eauto|].
  pose proof (negative_refs ds) as Hneg. rewrite nonzero_refs in *.
  destruct (Nat.ltb_spec 1 (length (filter produces (d_exchanges ds)))) as [Hn|Hn].
  { destruct pr, bp; cbn; try (destruct (_ =? _)%string); eauto. }
  destruct (existsb _ (reference_products ds)); [|eauto].
  assert (Hne := proj1 Hneg eq_refl).
  destruct (filter produces (d_exchanges ds)) as [|rp [|rp2 rest]];
    [by inversion Hne| |cbn in Hn; lia].
  cbn. eauto.
Qed.

(** The outcome is never an assertion failure. *)
Lemma choose_errors_only_key ds x :
  choose_allocation_method ds = Err x ->
  x = KeyError "byproduct classification" /\ ~ classified ds.
Proof.
  intros H. split.
  2:{ intros Hc. apply choose_total_classified in Hc as (l & Hl). congruence. }
  assert (Hany : forall (p : exchange -> result bool) es y,
    (forall e z, p e = Err z -> z = KeyError "byproduct classification") ->
    anyR p es = Err y -> y = KeyError "byproduct classification").
  { intros p es y Hp. induction es as [|e es IH]; cbn; [done|].
    destruct (p e) as [[]|z] eqn:E; cbn; [done|exact IH|]. intros [= <-]. by eapply Hp. }
  unfold choose_allocation_method in H.
  destruct (anyR byproduct_test _) as [bp|z] eqn:E1 in H; cbn [bind] in H.
  2:{ injection H as ->. eapply Hany; [|exact E1]. intros e z Hz. unfold byproduct_test, product_test in Hz. cbn in Hz.
      destruct (production_exchange e) eqn:E; cbn in Hz; [done|]. injection Hz as ->.
      by apply production_exchange_errors in E as [-> _]. }
  destruct (anyR product_test _) as [pr|z] eqn:E2 in H; cbn [bind] in H.
  2:{ injection H as ->. eapply Hany; [|exact E2]. intros e z Hz. unfold byproduct_test, product_test in Hz. cbn in Hz.
      destruct (production_exchange e) eqn:E; cbn in Hz; [done|]. injection Hz as ->.
      by apply production_exchange_errors in E as [-> _]. }
  exfalso. revert H. rewrite map_length.
  destruct (_ && _); [done|]. case_bool_decide; [done|]. case_bool_decide; [done|].
  pose proof (negative_refs ds) as Hneg. rewrite nonzero_refs in *.
  destruct (Nat.ltb_spec 1 (length (filter produces (d_exchanges ds)))) as [Hn|Hn].
  { destruct pr, bp; cbn; try (destruct (_ =? _)%string); done. }
  destruct (existsb _ (reference_products ds)); [|done].
  assert (Hne := proj1 Hneg eq_refl).
  destruct (filter produces (d_exchanges ds)) as [|rp [|rp2 rest]];
    [by inversion Hne| |cbn in Hn; lia].
  cbn. done.
Qed.

Lemma treats_n P ds : treats P ds -> n_products ds = 1.
Proof. intros (rp & H & _). unfold n_products. by rewrite H. Qed.

Lemma method_unique ds l1 l2 : method_of ds l1 -> method_of ds l2 -> l1 = l2.
Proof.
  intros H1 H2.
  assert (HT : forall P, treats P ds -> treats (fun _ => True) ds)
    by (intros P (rp & ? & ? & _); by exists rp).
  assert (HX : treats (fun c => c = Some Waste) ds -> ~ treats (fun c => c <> Some Waste) ds).
  { intros (r1 & E1 & _ & H3) (r2 & E2 & _ & H4). congruence. }
  destruct H1, H2; try reflexivity; exfalso;
    repeat match goal with H : treats ?P ds |- _ =>
      generalize (treats_n _ _ H), (HT _ H); revert H end; intros;
    first [congruence|lia|tauto].
Qed.

Lemma choose_method_iff ds l :
  classified ds -> choose_allocation_method ds = Ok l <-> method_of ds l.
Proof.
  intros Hc. split; [apply choose_method|]. intros Hm.
  destruct (choose_total_classified ds Hc) as (l' & Hl'). rewrite Hl'. f_equal.
  eapply method_unique; [by apply choose_method|done].
Qed.

Lemma method_labels ds l : method_of ds l -> l <> "single product"%string ->
  forall ln recalc, l ∈ map fst (allocation_functions ln recalc).
Proof.
  intros Hm Hl ln recalc. unfold allocation_functions.
  destruct Hm; try done; cbn; repeat (first [left; reflexivity | right]).
Qed.

Lemma same_features_filter es es' :
  Forall2 same_features es es' ->
  Forall2 same_features (filter produces es) (filter produces es').
Proof.
  induction 1 as [|e e' l k H _ IH]; [constructor|].
  rewrite !filter_cons. pose proof H as (Ht & _ & _ & Hz & _).
  destruct (decide (produces e)) as [Hp|Hp], (decide (produces e')) as [Hp'|Hp'];
    try (constructor; done); try done; unfold produces, is_refproduct in *; exfalso.
  - apply Hp'. destruct Hp. split; [congruence|tauto].
  - apply Hp. destruct Hp'. split; [congruence|tauto].
Qed.
Lemma same_features_Exists (P : exchange -> Prop) es es' :
  (forall e e', same_features e e' -> P e -> P e') ->
  Forall2 same_features es es' -> Exists P es -> Exists P es'.
Proof.
  intros HP. induction 1 as [|e e' l k H _ IH]; [inversion 1|].
  rewrite !Exists_cons. intros [He|He]; [left; by eapply HP|right; by apply IH].
Qed.

Lemma same_features_sym e e' : same_features e e' -> same_features e' e.
Proof. unfold same_features. intuition congruence. Qed.

Lemma method_of_features ds ds' l :
  d_type ds' = d_type ds -> d_name ds' = d_name ds ->
  Forall2 same_features (d_exchanges ds) (d_exchanges ds') ->
  method_of ds l -> method_of ds' l.
Proof.
  intros Ht Hn HF.
  assert (HF' : Forall2 same_features (d_exchanges ds') (d_exchanges ds)).
  { apply Forall2_flip. eapply Forall2_impl; [exact HF|]. apply same_features_sym. }
  assert (Hnp : n_products ds' = n_products ds)
    by (unfold n_products; symmetry; eapply Forall2_length; by apply same_features_filter).
  assert (Hbp : has_byproduct ds' <-> has_byproduct ds).
  { unfold has_byproduct. split; eapply same_features_Exists; try done;
      unfold same_features, alloc_byproduct; intros; intuition congruence. }
  assert (Hap : has_allocatable_product ds' <-> has_allocatable_product ds).
  { unfold has_allocatable_product. split; eapply same_features_Exists; try done;
      unfold same_features, is_refproduct; intros; intuition congruence. }
  assert (Hco : has_conditional ds' <-> has_conditional ds).
  { unfold has_conditional. split; eapply same_features_Exists; try done;
      unfold same_features; intros; intuition congruence. }
  assert (Htr : forall P, treats P ds' <-> treats P ds).
  { assert (Hone : forall P d d', Forall2 same_features (d_exchanges d) (d_exchanges d') ->
      treats P d -> treats P d').
    { clear. intros P d d' HF (rp & Hrp & Ha & HP).
      apply same_features_filter in HF. rewrite Hrp in HF.
      apply Forall2_cons_inv_l in HF as (rp' & l & Hs & Hnil & Hrp').
      apply Forall2_nil_inv_l in Hnil as ->. exists rp'. split; [done|].
      destruct Hs as (_ & Hc & _ & _ & Hneg). rewrite Hc. tauto. }
    intros P. split; by apply Hone. }
  intros H; destruct H;
    [apply M_single|apply M_group|apply M_constrained|apply M_unconstrained|apply M_without
    |apply M_with|apply M_special|apply M_combined|apply M_waste|apply M_recycling|apply M_economic];
    rewrite ?Hnp, ?Ht, ?Hn, ?Hbp, ?Hap, ?Hco, ?Htr; done.
Qed.
