(** Proofs for C43: constrained markets. *)
From Verif Require Import Base Types Uncertainty Utils Spec_Utils Utils_proofs Grouping GroupUpdate
  Topology Cutoff Locations Consequential Spec_Consequential SingleOutput_proofs Waste_proofs Combined2_proofs
  Cutoff_proofs Consequential_proofs Recalculation_proofs RestOfWorld_proofs Markets_proofs.

(** *** Positions *)
Lemma flip_opposite e : flip_constrained e = opposite e.
Proof.
  unfold flip_constrained, opposite. replace (- (1) * e_amount e)%Qc with (- e_amount e)%Qc by ring.
  by destruct (e_formula e).
Qed.
Lemma exchange_at_Some i j data e :
  exchange_at i j data = Some e <-> exists ds, data !! i = Some ds /\ d_exchanges ds !! j = Some e.
Proof. unfold exchange_at. destruct (data !! i) as [ds|]; naive_solver. Qed.
Lemma on_exchange_same i j f data ds : data !! i = Some ds ->
  on_exchange i j f data !! i = Some (set_d_exchanges (alter f j (d_exchanges ds)) ds).
Proof. intros H. unfold on_exchange. rewrite list_lookup_alter, H. done. Qed.
Lemma on_exchange_other i j f data k : k <> i -> on_exchange i j f data !! k = data !! k.
Proof. intros H. unfold on_exchange. by rewrite list_lookup_alter_ne. Qed.
Lemma on_exchange_length i j f data : length (on_exchange i j f data) = length data.
Proof. unfold on_exchange. by rewrite alter_length. Qed.
Lemma exchange_on i j f data i' j' :
  exchange_at i' j' (on_exchange i j f data) =
  if decide (i' = i /\ j' = j) then f <$> exchange_at i' j' data else exchange_at i' j' data.
Proof.
  unfold exchange_at. destruct (decide (i' = i)) as [->|Hi].
  - destruct (data !! i) as [ds|] eqn:E.
    + rewrite (on_exchange_same _ _ _ _ _ E). cbn [d_exchanges set_d_exchanges].
      destruct (decide (j' = j)) as [->|Hj].
      * rewrite list_lookup_alter. by rewrite decide_True.
      * rewrite list_lookup_alter_ne by done. by rewrite decide_False by tauto.
    + unfold on_exchange. rewrite list_lookup_alter, E. by destruct (decide _).
  - rewrite on_exchange_other by done. by rewrite decide_False by tauto.
Qed.
Lemma positions_spec p es j : j ∈ positions p es <-> exists e, es !! j = Some e /\ p e = true.
Proof.
  unfold positions. rewrite elem_of_list_fmap. split.
  - intros ([j' e] & -> & H). apply filterb_In in H as [H Hp]. apply elem_of_indexed in H. by exists e.
  - intros (e & He & Hp). exists (j, e). split; [done|]. apply filterb_In. split; [by apply elem_of_indexed|done].
Qed.
Lemma positions_NoDup p es : NoDup (positions p es).
Proof.
  unfold positions. rewrite (filterb_filter (fun q : nat * exchange => p q.2 = true)) by (intros; by destruct (p _)).
  apply NoDup_map_filter, indexed_fst.
Qed.
Lemma positions_single p es j : positions p es = [j] ->
  exists e, es !! j = Some e /\ p e = true /\ forall j' e', es !! j' = Some e' -> p e' = true -> j' = j.
Proof.
  intros H. assert (j ∈ positions p es) as Hj by (rewrite H; set_solver).
  apply positions_spec in Hj as (e & He & Hp). exists e. split; [done|]. split; [done|].
  intros j' e' He' Hp'. assert (j' ∈ positions p es) as Hin by (apply positions_spec; by exists e').
  rewrite H in Hin. by apply elem_of_list_singleton in Hin.
Qed.
Lemma conditional_positions_spec data i j :
  (i, j) ∈ conditional_positions data <-> exists e, exchange_at i j data = Some e /\ conditional e.
Proof.
  unfold conditional_positions. rewrite elem_of_list_In, in_concat. 
  assert (forall e, cond_truthy e = true <-> conditional e) as Hc.
  { intros e. unfold cond_truthy, conditional. destruct (e_cond e) as [[]|]; naive_solver. }
  split.
  - intros (l & Hl & Hin). apply elem_of_list_In, elem_of_list_fmap in Hl as ([i' ds] & -> & Hds).
    apply elem_of_list_In, elem_of_list_fmap in Hin as (j' & E & Hj). injection E as -> ->. cbn [fst snd] in *.
    apply elem_of_indexed in Hds. apply positions_spec in Hj as (e & He & Hp). exists e.
    split; [apply exchange_at_Some; by exists ds|by apply Hc].
  - intros (e & He & Hp). apply exchange_at_Some in He as (ds & Hds & He). eexists. split.
    + apply elem_of_list_In, elem_of_list_fmap. exists (i, ds). split; [done|by apply elem_of_indexed].
    + apply elem_of_list_In, elem_of_list_fmap. exists j. split; [done|]. apply positions_spec. exists e. split; [done|by apply Hc].
Qed.
Lemma conditional_positions_NoDup data : NoDup (conditional_positions data).
Proof.
  unfold conditional_positions. pose proof (indexed_fst data) as H. revert H. generalize (indexed data) as l.
  induction l as [|[i ds] l IH]; intros H; [constructor|]. cbn [map concat fst snd] in *.
  apply NoDup_cons in H as [Hi H]. apply NoDup_app. split_and!.
  - apply NoDup_fmap; [intros ? ? E; by injection E|]. apply positions_NoDup.
  - intros x Hx Hx'. apply elem_of_list_fmap in Hx as (j & -> & _).
    apply elem_of_list_In, in_concat in Hx' as (r & Hr & Hx'). apply elem_of_list_In, elem_of_list_fmap in Hr as ([i' ds'] & -> & Hr).
    apply elem_of_list_In, elem_of_list_fmap in Hx' as (j' & E & _). injection E as -> ->. apply Hi.
    apply elem_of_list_fmap. by exists (i', ds').
  - by apply IH.
Qed.
Lemma position_of_id_spec data i k : position_of_id data i = Some k ->
  exists ds, data !! k = Some ds /\ d_id ds = i.
Proof.
  unfold position_of_id. destruct (last _) as [[k' ds]|] eqn:E; [|discriminate]. intros H. injection H as <-.
  apply last_Some_elem_of, filterb_In in E as [E Ei]. apply elem_of_indexed in E. apply String.eqb_eq in Ei. by exists ds.
Qed.


Lemma alter_ext {A} (f g : A -> A) j (l : list A) : (forall x, f x = g x) -> alter f j l = alter g j l.
Proof.
  intros H. apply list_eq. intros i. destruct (decide (i = j)) as [->|Hne].
  - rewrite !list_lookup_alter. destruct (l !! j); [|done]. cbn. by rewrite H.
  - by rewrite !list_lookup_alter_ne.
Qed.
Lemma on_exchange_ext i j f g data : (forall e, f e = g e) -> on_exchange i j f data = on_exchange i j g data.
Proof. intros H. unfold on_exchange. apply alter_ext. intros ds. by rewrite (alter_ext f g). Qed.

Lemma exchanges_at_lookup k data j : exchanges_at k data !! j = exchange_at k j data.
Proof. unfold exchanges_at, exchange_at. by destruct (data !! k). Qed.

(** *** One step *)
Lemma step_inv data i j data' :
  handle_constrained_exchange data (i, j) = Ok data' ->
  exists exc link k r q e1 e2,
    exchange_at i j data = Some exc /\ e_link exc = Some link /\ position_of_id data link = Some k /\
    exchange_at k r (on_exchange i j into_input data) = Some e1 /\ e_type e1 = RefProduct /\
    exchange_at k q (on_exchange k r into_input (on_exchange i j into_input data)) = Some e2 /\
    e_type e2 = FromTechnosphere /\ e_name e2 = e_name exc /\
    data' = on_exchange k q into_product (on_exchange k r into_input (on_exchange i j into_input data)).
Proof.
  intros H. unfold handle_constrained_exchange in H. cbn [fst snd] in H.
  apply bind_Ok in H as (exc & Hexc & H). apply bind_Ok in H as (link & Hlink & H).
  apply bind_Ok in H as (k & Hk & H). cbv zeta in H.
  assert (forall e, flip_constrained (set_e_type FromTechnosphere e) = into_input e) as Hin by (intros e; apply flip_opposite).
  rewrite !(on_exchange_ext i j _ into_input) in H by done.
  apply bind_Ok in H as (d2 & Hd2 & H).
  destruct (positions (fun e => bool_decide (e_type e = RefProduct)) _) as [|r [|? ?]] eqn:Er; [discriminate| |discriminate].
  apply Ok_inj in Hd2 as <-. rewrite !(on_exchange_ext k r _ into_input) in H by done.
  destruct (positions (fun e => (e_name e =? e_name exc)%string) _) as [|q [|? ?]] eqn:Eq; [discriminate| |discriminate].
  apply bind_Ok in H as (e2 & He2 & H). apply bind_Ok in H as (u & Hu & H). apply Ok_inj in H as <-.
  apply positions_single in Er as (e1 & He1 & Ht1 & _). apply positions_single in Eq as (e2' & He2' & Hn2 & _).
  rewrite exchanges_at_lookup in He1, He2'. unfold getkey in Hexc, Hlink, Hk, He2.
  destruct (exchange_at i j data) as [exc'|] eqn:E1; [|discriminate]. apply Ok_inj in Hexc as ->.
  destruct (e_link exc) as [link'|] eqn:E2; [|discriminate]. apply Ok_inj in Hlink as ->.
  destruct (position_of_id data link) as [k'|] eqn:E3; [|discriminate]. apply Ok_inj in Hk as ->.
  rewrite He2' in He2. apply Ok_inj in He2 as <-. unfold assertR in Hu.
  destruct (bool_decide (e_type e2' = FromTechnosphere)) eqn:E4; [|discriminate].
  exists exc, link, k, r, q, e1, e2'. apply bool_decide_eq_true in Ht1, E4. apply String.eqb_eq in Hn2.
  do 8 (split; [done|]). apply on_exchange_ext. intros e. apply flip_opposite.
Qed.

(** *** Balance *)
Definition rebalanced (e e' : exchange) : Prop :=
  (exists t c a f, e' = set_e_type t (set_e_class c (set_e_amount a (set_e_formula f e)))) /\
  contribution e' = contribution e /\ (e' = e \/ (traded e /\ traded e')).
Lemma rebalanced_refl e : rebalanced e e.
Proof. split; [|split; [done|by left]]. exists (e_type e), (e_class e), (e_amount e), (e_formula e). by destruct e. Qed.
Lemma rebalanced_input e0 e : rebalanced e0 e -> e_type e = RefProduct \/ e_type e = Byproduct ->
  rebalanced e0 (into_input e).
Proof.
  intros [(t & c & a & f & E) [Hc Hd]] Ht. split; [|split].
  - rewrite E. unfold into_input, opposite. eexists FromTechnosphere, c, _, _. destruct e0; reflexivity.
  - rewrite <- Hc. unfold contribution, into_input, opposite.
    cbn [e_type set_e_type set_e_formula set_e_amount set_e_class e_amount] in *. destruct Ht as [-> | ->]; ring.
  - right. split; [|by right; right]. destruct Hd as [->|[? _]]; [|done]. unfold traded. tauto.
Qed.
Lemma rebalanced_product e0 e : rebalanced e0 e -> e_type e = FromTechnosphere -> rebalanced e0 (into_product e).
Proof.
  intros [(t & c & a & f & E) [Hc Hd]] Ht. split; [|split].
  - rewrite E. unfold into_product, opposite. eexists RefProduct, (Some Allocatable), _, _. destruct e0; reflexivity.
  - rewrite <- Hc. unfold contribution, into_product, opposite.
    cbn [e_type set_e_type set_e_formula set_e_amount set_e_class e_amount] in *. rewrite Ht. ring.
  - right. split; [|by left]. destruct Hd as [->|[? _]]; [|done]. unfold traded. tauto.
Qed.

Definition tracks (R : nat -> nat -> exchange -> exchange -> Prop) (data0 data : list dataset) : Prop :=
  length data = length data0 /\
  forall i ds0, data0 !! i = Some ds0 -> exists es, data !! i = Some (set_d_exchanges es ds0) /\
    length es = length (d_exchanges ds0) /\
    forall j e0 e, d_exchanges ds0 !! j = Some e0 -> es !! j = Some e -> R i j e0 e.
Lemma tracks_refl (R : nat -> nat -> exchange -> exchange -> Prop) data : (forall i j e, exchange_at i j data = Some e -> R i j e e) -> tracks R data data.
Proof.
  intros HR. split; [done|]. intros i ds Hi. exists (d_exchanges ds). split; [rewrite Hi; f_equal; by destruct ds|].
  split; [done|]. intros j e0 e H0 He. rewrite H0 in He. apply Some_inj in He as <-. apply HR, exchange_at_Some. by exists ds.
Qed.
Lemma tracks_on (R R' : nat -> nat -> exchange -> exchange -> Prop) data0 data i j f :
  tracks R data0 data ->
  (forall i' j' e0 e, (i', j') <> (i, j) -> R i' j' e0 e -> R' i' j' e0 e) ->
  (forall e0 e, exchange_at i j data = Some e -> R i j e0 e -> R' i j e0 (f e)) ->
  tracks R' data0 (on_exchange i j f data).
Proof.
  intros [Hlen HT] Hother Hat. split; [by rewrite on_exchange_length|]. intros k ds0 Hk.
  destruct (HT k ds0 Hk) as (es & Hes & Hl & HR). destruct (decide (k = i)) as [->|Hne].
  - rewrite (on_exchange_same _ _ _ _ _ Hes). cbn [d_exchanges set_d_exchanges].
    exists (alter f j es). split; [by destruct ds0|]. split; [by rewrite alter_length|].
    intros j' e0 e H0 He. destruct (decide (j' = j)) as [->|Hj].
    + rewrite list_lookup_alter in He. destruct (es !! j) as [e1|] eqn:E1; [|done]. apply Some_inj in He as <-.
      apply Hat; [|by apply HR]. apply exchange_at_Some. eexists. split; [exact Hes|done].
    + rewrite list_lookup_alter_ne in He by done. apply Hother; [congruence|]. by apply HR.
  - rewrite on_exchange_other by done. exists es. split; [done|]. split; [done|].
    intros j' e0 e H0 He. apply Hother; [congruence|]. by apply HR.
Qed.
Lemma tracks_at R data0 data i j e : tracks R data0 data -> exchange_at i j data = Some e ->
  exists e0, exchange_at i j data0 = Some e0 /\ R i j e0 e.
Proof.
  intros [Hlen HT] He. apply exchange_at_Some in He as (ds & Hi & Hj).
  destruct (data0 !! i) as [ds0|] eqn:E0.
  - destruct (HT i ds0 E0) as (es & Hes & Hl & HR). rewrite Hi in Hes. apply Some_inj in Hes as ->.
    cbn [d_exchanges set_d_exchanges] in Hj. destruct (d_exchanges ds0 !! j) as [e0|] eqn:Ej.
    + exists e0. split; [apply exchange_at_Some; by exists ds0|]. by apply HR.
    + apply lookup_ge_None in Ej. apply lookup_lt_Some in Hj. lia.
  - apply lookup_ge_None in E0. apply lookup_lt_Some in Hi. lia.
Qed.

Lemma balance_fold todo data0 data data' :
  NoDup todo ->
  tracks (fun i j e0 e => rebalanced e0 e /\ ((i, j) ∈ todo -> e_type e = Byproduct)) data0 data ->
  foldR handle_constrained_exchange data todo = Ok data' ->
  tracks (fun _ _ => rebalanced) data0 data'.
Proof.
  revert data. induction todo as [|[i j] todo IH]; intros data Hnd HT H.
  - cbn [foldR] in H. apply Ok_inj in H as <-. destruct HT as [Hl HT]. split; [done|]. intros i ds0 Hi.
    destruct (HT i ds0 Hi) as (es & H1 & H2 & H3). exists es. do 2 (split; [done|]). intros j e0 e He0 He. by apply (H3 j).
  - cbn [foldR] in H. apply bind_Ok in H as (d & Hd & H). apply NoDup_cons in Hnd as [Hij Hnd].
    eapply IH; [done| |exact H].
    apply step_inv in Hd as (exc & link & k & r & q & e1 & e2 & Hexc & _ & _ & He1 & Ht1 & He2 & Ht2 & _ & ->).
    set (d1 := on_exchange i j into_input data) in *. set (d2 := on_exchange k r into_input d1) in *.
    assert (tracks (fun i j e0 e => rebalanced e0 e /\ ((i, j) ∈ todo -> e_type e = Byproduct)) data0 d1) as T1.
    { eapply tracks_on; [exact HT|..].
      - intros i' j' e0 e Hne [HR HB]. split; [done|]. intros Hin. apply HB. set_solver.
      - intros e0 e _ [HR HB]. split; [|done]. apply rebalanced_input; [done|]. right. apply HB. set_solver. }
    assert (tracks (fun i j e0 e => rebalanced e0 e /\ ((i, j) ∈ todo -> e_type e = Byproduct)) data0 d2) as T2.
    { eapply tracks_on; [exact T1|by intros ? ? ? ? _ ?|]. intros e0 e He [HR HB]. rewrite He1 in He. apply Some_inj in He as <-. split.
      - apply rebalanced_input; [done|by left].
      - intros Hin. apply HB in Hin. congruence. }
    eapply tracks_on; [exact T2|by intros ? ? ? ? _ ?|]. intros e0 e He [HR HB]. rewrite He2 in He. apply Some_inj in He as <-. split.
    + by apply rebalanced_product.
    + intros Hin. apply HB in Hin. congruence.
Qed.

Lemma handle_balance data data' :
  (forall ds e, ds ∈ data -> e ∈ d_exchanges ds -> conditional e -> e_type e = Byproduct) ->
  handle_constrained_markets data = Ok data' ->
  Forall2 (fun ds ds' => exists es, ds' = set_d_exchanges es ds /\ Forall2 rebalanced (d_exchanges ds) es /\
    forall product, net_output product ds' = net_output product ds) data data'.
Proof.
  intros HB H. apply (balance_fold _ data data) in H.
  - destruct H as [Hlen HT]. apply Forall2_same_length_lookup_2; [done|]. intros i ds ds' Hi Hi'.
    destruct (HT i ds Hi) as (es & Hes & Hl & HR). rewrite Hi' in Hes. apply Some_inj in Hes as ->.
    exists es. split; [done|].
    assert (Forall2 rebalanced (d_exchanges ds) es) as HF.
    { apply Forall2_same_length_lookup_2; [done|]. intros j e0 e H0 He. by apply (HR j). }
    split; [done|]. intros product. unfold net_output. cbn [d_exchanges set_d_exchanges].
    clear -HF. induction HF as [|e0 e es0 es [(t & c & a & f & ->) [Hc _]] _ IH]; [done|].
    rewrite !filter_cons. cbn [e_name set_e_type set_e_class set_e_amount set_e_formula].
    destruct (decide (e_name e0 = product)); [|done]. unfold Qcsum in *. cbn [map foldr]. by rewrite Hc, IH.
  - apply conditional_positions_NoDup.
  - apply tracks_refl. intros i j e He. split; [apply rebalanced_refl|]. intros Hin.
    apply conditional_positions_spec in Hin as (e' & He' & Hc). rewrite He in He'. apply Some_inj in He' as <-.
    apply exchange_at_Some in He as (ds & Hds & He). eapply HB; [by eapply elem_of_list_lookup_2|by eapply elem_of_list_lookup_2|done].
Qed.

(** *** Exactly which datasets are changed *)
Lemma positions_single_iff p es q : positions p es = [q] <->
  exists e, es !! q = Some e /\ p e = true /\ forall j' e', es !! j' = Some e' -> p e' = true -> j' = q.
Proof.
  split; [apply positions_single|]. intros (e & He & Hp & Hu).
  assert (q ∈ positions p es) as Hq by (apply positions_spec; by exists e).
  pose proof (positions_NoDup p es) as Hnd.
  assert (forall j, j ∈ positions p es -> j = q) as Hall.
  { intros j Hj. apply positions_spec in Hj as (e' & He' & Hp'). by eapply Hu. }
  destruct (positions p es) as [|a [|b l]]; [set_solver| |].
  - f_equal. apply Hall. set_solver.
  - apply NoDup_cons in Hnd as [Hn _]. assert (a = b); [|set_solver]. rewrite (Hall a), (Hall b); set_solver.
Qed.
Lemma positions_middle p es : exists l, positions p es = map fst l /\ filterb p es = map snd l /\
  Forall (fun q => es !! q.1 = Some q.2) l.
Proof.
  exists (filterb (fun q => p q.2) (indexed es)). split; [done|]. split.
  - rewrite <- (indexed_snd es) at 1. generalize (indexed es). intros l. unfold filterb.
    induction l as [|[j e] l IH]; [done|]. cbn [map List.filter snd]. destruct (p e); cbn [map snd]; by rewrite IH.
  - apply Forall_forall. intros [j e] H. apply filterb_In in H as [H _]. by apply elem_of_indexed in H.
Qed.
Lemma positions_filter p es e : filterb p es = [e] <-> exists q, positions p es = [q] /\ es !! q = Some e.
Proof.
  destruct (positions_middle p es) as (l & -> & -> & HF). split.
  - intros H. destruct l as [|[q e'] [|? ?]]; [done| |done]. cbn in H. injection H as ->.
    apply Forall_cons in HF as [H _]. by exists q.
  - intros (q & H & Hq). destruct l as [|[q' e'] [|? ?]]; [done| |done]. cbn in H. injection H as ->.
    apply Forall_cons in HF as [H _]. cbn [fst snd] in H. rewrite Hq in H. apply Some_inj in H as <-. done.
Qed.

Definition subst_exchange (product : string) (e : exchange) : exchange :=
  let e1 := if decide (e_type e = RefProduct) then into_input e else e in
  if decide (e_name e = product) then into_product e1 else e1.
Lemma into_input_name e : e_name (into_input e) = e_name e.
Proof. done. Qed.
Lemma into_input_type e : e_type (into_input e) = FromTechnosphere.
Proof. done. Qed.

Definition retargeted (product : string) (es es' : list exchange) : Prop :=
  exists r q e2, positions (fun e => bool_decide (e_type e = RefProduct)) es = [r] /\
    positions (fun e => (e_name e =? product)%string) (alter into_input r es) = [q] /\
    alter into_input r es !! q = Some e2 /\ e_type e2 = FromTechnosphere /\
    es' = alter into_product q (alter into_input r es).

Lemma retargeted_spec product es es' : retargeted product es es' ->
  es' = map (subst_exchange product) es /\ length (filter is_refproduct es) = 1%nat /\
  exists e, filter (fun e => e_name e = product) es = [e] /\ (e_type e = FromTechnosphere \/ e_type e = RefProduct).
Proof.
  intros (r & q & e2 & Hr & Hq & He2 & Ht & ->).
  pose proof (proj1 (positions_single_iff _ _ _) Hr) as (er & Her & Htr & Hur).
  pose proof (proj1 (positions_single_iff _ _ _) Hq) as (eq & Heq & Hnq & Huq).
  rewrite He2 in Heq. apply Some_inj in Heq as <-. apply bool_decide_eq_true in Htr. apply String.eqb_eq in Hnq.
  assert (forall j e, es !! j = Some e -> e_type e = RefProduct <-> j = r) as Hur'.
  { intros j e He. split; [intros H; eapply Hur; [done|]; by apply bool_decide_eq_true|].
    intros ->. rewrite Her in He. by apply Some_inj in He as <-. }
  assert (forall j e, es !! j = Some e -> e_name e = product <-> j = q) as Huq'.
  { intros j e He. destruct (decide (j = r)) as [->|Hj].
    - assert (alter into_input r es !! r = Some (into_input e)) as Ha by (rewrite list_lookup_alter, He; done).
      split; [intros H; eapply Huq; [done|]; by apply String.eqb_eq|].
      intros <-. rewrite He2 in Ha. apply Some_inj in Ha as ->. done.
    - assert (alter into_input r es !! j = Some e) as Ha by (by rewrite list_lookup_alter_ne).
      split; [intros H; eapply Huq; [done|]; by apply String.eqb_eq|].
      intros <-. rewrite He2 in Ha. by apply Some_inj in Ha as ->. }
  assert (exists e, es !! q = Some e) as [e0 He0].
  { apply lookup_lt_is_Some. apply lookup_lt_Some in He2. by rewrite alter_length in He2. }
  split; [|split].
  - apply list_eq. intros j. rewrite list_lookup_fmap. destruct (es !! j) as [e|] eqn:Ej.
    + cbn [fmap option_fmap option_map]. unfold subst_exchange. cbv zeta.
      assert (alter into_input r es !! j = Some (if decide (e_type e = RefProduct) then into_input e else e)) as H1.
      { destruct (decide (e_type e = RefProduct)) as [H|H].
        - apply (Hur' j e Ej) in H as ->. by rewrite list_lookup_alter, Ej.
        - rewrite list_lookup_alter_ne; [done|]. intros ->. by apply H, (Hur' j e Ej). }
      destruct (decide (e_name e = product)) as [H|H].
      * apply (Huq' j e Ej) in H as ->. by rewrite list_lookup_alter, H1.
      * rewrite list_lookup_alter_ne; [done|]. intros ->. by apply H, (Huq' j e Ej).
    + cbn. apply lookup_ge_None. apply lookup_ge_None in Ej. by rewrite !alter_length.
  - rewrite <- (filterb_filter is_refproduct (fun e => bool_decide (e_type e = RefProduct))).
    + assert (filterb (fun e => bool_decide (e_type e = RefProduct)) es = [er]) as ->; [|done].
      apply positions_filter. by exists r.
    + intros e _. unfold is_refproduct. by apply bool_decide_ext.
  - exists e0. split.
    + rewrite <- (filterb_filter (fun e => e_name e = product) (fun e => (e_name e =? product)%string)).
      * apply positions_filter. exists q. split; [|done]. apply positions_single_iff. exists e0.
        split; [done|]. split; [apply String.eqb_eq; by apply (Huq' q e0 He0)|].
        intros j' e' He' Hp. apply String.eqb_eq in Hp. by apply (Huq' j' e' He').
      * intros e _. apply eqb_decide.
    + destruct (decide (q = r)) as [->|Hne].
      * right. by apply (Hur' r e0 He0).
      * left. rewrite list_lookup_alter_ne, He0 in He2 by done. by apply Some_inj in He2 as <-.
Qed.
Lemma retargeted_total product es : length (filter is_refproduct es) = 1%nat ->
  (exists e, filter (fun e => e_name e = product) es = [e] /\ (e_type e = FromTechnosphere \/ e_type e = RefProduct)) ->
  exists es', retargeted product es es'.
Proof.
  intros H1 (e & H2 & Ht).
  rewrite <- (filterb_filter is_refproduct (fun e => bool_decide (e_type e = RefProduct))) in H1
    by (intros x _; unfold is_refproduct; by apply bool_decide_ext).
  rewrite <- (filterb_filter (fun e => e_name e = product) (fun e => (e_name e =? product)%string)) in H2
    by (intros x _; apply eqb_decide).
  destruct (filterb (fun e => bool_decide (e_type e = RefProduct)) es) as [|er [|? ?]] eqn:Er; [done| |done].
  apply positions_filter in Er as (r & Hr & Her). apply positions_filter in H2 as (q & Hq & He).
  pose proof (proj1 (positions_single_iff _ _ _) Hr) as (er' & Her' & Htr & Hur). rewrite Her in Her'. apply Some_inj in Her' as <-.
  pose proof (proj1 (positions_single_iff _ _ _) Hq) as (e' & He' & Hn & Huq). rewrite He in He'. apply Some_inj in He' as <-.
  assert (exists e2, alter into_input r es !! q = Some e2 /\ e_name e2 = product /\ e_type e2 = FromTechnosphere) as (e2 & He2 & Hn2 & Ht2).
  { apply String.eqb_eq in Hn. destruct (decide (q = r)) as [->|Hne].
    - exists (into_input e). rewrite list_lookup_alter, He. done.
    - exists e. rewrite list_lookup_alter_ne by done. split; [done|]. split; [done|]. destruct Ht as [Ht|Ht]; [done|].
      destruct Hne. eapply Hur; [done|by apply bool_decide_eq_true]. }
  eexists. exists r, q, e2. split; [done|]. split.
  - apply positions_single_iff. exists e2. split; [done|]. split; [by apply String.eqb_eq|].
    intros j' e' H Hp. destruct (decide (j' = r)) as [->|Hj].
    + rewrite list_lookup_alter, Her in H. apply Some_inj in H as <-. eapply Huq; [exact Her|done].
    + rewrite list_lookup_alter_ne in H by done. by eapply Huq.
  - done.
Qed.

(** A step whose source dataset is not its target. *)
Lemma step_iff data i j data' exc link k target :
  exchange_at i j data = Some exc -> e_link exc = Some link -> position_of_id data link = Some k ->
  k <> i -> data !! k = Some target ->
  handle_constrained_exchange data (i, j) = Ok data' <->
  exists es, retargeted (e_name exc) (d_exchanges target) es /\
    data' = <[k := set_d_exchanges es target]> (on_exchange i j into_input data).
Proof.
  intros Hexc Hlink Hk Hne Ht. unfold handle_constrained_exchange. cbn [fst snd].
  rewrite Hexc. cbn [getkey bind]. rewrite Hlink. cbn [getkey bind]. rewrite Hk. cbn [getkey bind]. cbv zeta.
  assert (forall e, flip_constrained (set_e_type FromTechnosphere e) = into_input e) as Hin by (intros e; apply flip_opposite).
  rewrite !(on_exchange_ext i j _ into_input) by done. set (d1 := on_exchange i j into_input data).
  assert (d1 !! k = Some target) as Hk1 by (unfold d1; by rewrite on_exchange_other).
  assert (exchanges_at k d1 = d_exchanges target) as E1 by (unfold exchanges_at; by rewrite Hk1). rewrite E1.
  assert (forall r, exchanges_at k (on_exchange k r into_input d1) = alter into_input r (d_exchanges target)) as E2.
  { intros r. unfold exchanges_at. by rewrite (on_exchange_same _ _ _ _ _ Hk1). }
  assert (forall r q, on_exchange k q into_product (on_exchange k r into_input d1) =
    <[k := set_d_exchanges (alter into_product q (alter into_input r (d_exchanges target))) target]> d1) as E3.
  { intros r q. apply list_eq. intros m. destruct (decide (m = k)) as [->|Hm].
    - rewrite (on_exchange_same _ _ _ _ (set_d_exchanges (alter into_input r (d_exchanges target)) target))
        by (by apply on_exchange_same).
      rewrite list_lookup_insert by (by apply lookup_lt_Some in Hk1). by destruct target.
    - rewrite !on_exchange_other by done. by rewrite list_lookup_insert_ne. }
  split.
  - intros H. apply bind_Ok in H as (d2 & Hd2 & H).
    destruct (positions (fun e => bool_decide (e_type e = RefProduct)) _) as [|r [|? ?]] eqn:Er; [discriminate| |discriminate].
    apply Ok_inj in Hd2 as <-. rewrite !(on_exchange_ext k r _ into_input) in H by done. rewrite E2 in H.
    destruct (positions (fun e => (e_name e =? e_name exc)%string) _) as [|q [|? ?]] eqn:Eq; [discriminate| |discriminate].
    apply bind_Ok in H as (e2 & He2 & H). apply bind_Ok in H as (u & Hu & H). apply Ok_inj in H as <-.
    rewrite <- exchanges_at_lookup, E2 in He2. destruct (alter into_input r (d_exchanges target) !! q) as [e2'|] eqn:E4; [|discriminate].
    apply Ok_inj in He2 as ->. unfold assertR in Hu. destruct (bool_decide (e_type e2 = FromTechnosphere)) eqn:E5; [|discriminate].
    apply bool_decide_eq_true in E5. eexists. split.
    + exists r, q, e2. do 4 (split; [done|]). reflexivity.
    + rewrite (on_exchange_ext k q _ into_product) by (intros e; apply flip_opposite). apply E3.
  - intros (es & (r & q & e2 & Hr & Hq & He2 & Ht2 & ->) & ->). 
    match goal with |- context [positions ?p (d_exchanges target)] =>
      assert (positions p (d_exchanges target) = [r]) as -> by exact Hr end. cbn [bind].
    rewrite !(on_exchange_ext k r _ into_input) by done. rewrite E2, Hq.
    rewrite <- exchanges_at_lookup, E2, He2. cbn [getkey bind]. rewrite bool_decide_true by done. cbn [assertR bind].
    f_equal. rewrite (on_exchange_ext k q _ into_product) by (intros e; apply flip_opposite). apply E3.
Qed.

Lemma position_of_id_unique data k ds : NoDup (map d_id data) -> data !! k = Some ds ->
  position_of_id data (d_id ds) = Some k.
Proof.
  intros Hnd Hk. unfold position_of_id. destruct (last _) as [[k' ds']|] eqn:E.
  - apply last_Some_elem_of, filterb_In in E as [E Ei]. apply elem_of_indexed in E. apply String.eqb_eq in Ei.
    cbn [fst snd] in *. f_equal. apply (NoDup_lookup (map d_id data) k' k (d_id ds)); [done|..].
    + rewrite list_lookup_fmap, E. cbn. by f_equal.
    + by rewrite list_lookup_fmap, Hk.
  - exfalso. apply last_None in E. assert ((k, ds) ∈ filterb (fun q => (d_id q.2 =? d_id ds)%string) (indexed data)) as H.
    { apply filterb_In. split; [by apply elem_of_indexed|apply String.eqb_refl]. }
    rewrite E in H. set_solver.
Qed.

(** What the datasets look like once the exchanges [done] are handled. *)
Definition handled (data cur : list dataset) (done : list (nat * nat)) : Prop :=
  map d_id cur = map d_id data /\
  forall i ds, data !! i = Some ds ->
    (forall i' j' e, (i', j') ∈ done -> constrains data i' j' e i ds -> cur !! i = Some (substituted (e_name e) ds)) /\
    ((forall i' j' e, (i', j') ∈ done -> ~ constrains data i' j' e i ds) ->
     exists es, cur !! i = Some (set_d_exchanges es ds) /\ length es = length (d_exchanges ds) /\
       forall j e, d_exchanges ds !! j = Some e -> es !! j = Some (if decide ((i, j) ∈ done) then into_input e else e)).

Section Exact.
  Context (data : list dataset).
  Context (Hid : NoDup (map d_id data)).
  Context (Hclean : forall i j e k target, constrains data i j e k target ->
    Forall (fun e' => ~ conditional e') (d_exchanges target)).
  Context (Hone : forall i j e i' j' e' k target, constrains data i j e k target ->
    constrains data i' j' e' k target -> (i, j) = (i', j')).

  Lemma source_clean i j e ds : data !! i = Some ds -> d_exchanges ds !! j = Some e -> conditional e ->
    forall i' j' e', ~ constrains data i' j' e' i ds.
  Proof.
    intros Hi Hj Hc i' j' e' H. apply Hclean in H. rewrite Forall_forall in H. apply (H e); [|done].
    by eapply elem_of_list_lookup_2.
  Qed.
  Lemma constrains_unique i j e k t e' k' t' : constrains data i j e k t -> constrains data i j e' k' t' ->
    e' = e /\ k' = k /\ t' = t.
  Proof.
    intros (ds & H1 & H2 & H3 & H4 & H5) (ds' & H1' & H2' & H3' & H4' & H5').
    rewrite H1 in H1'. apply Some_inj in H1' as <-. rewrite H2 in H2'. apply Some_inj in H2' as <-.
    rewrite H5 in H5'. apply Some_inj in H5'. split; [done|].
    assert (k' = k) as ->; [|rewrite H4 in H4'; by apply Some_inj in H4' as <-].
    apply (NoDup_lookup (map d_id data) k' k (d_id t)); [done|..]; rewrite list_lookup_fmap.
    - rewrite H4'. cbn. by f_equal.
    - by rewrite H4.
  Qed.

  Lemma handled_nil : handled data data [].
  Proof.
    split; [done|]. intros i ds Hi. split; [set_solver|]. intros _. exists (d_exchanges ds).
    split; [rewrite Hi; f_equal; by destruct ds|]. split; [done|]. intros j e He. rewrite decide_False; [done|set_solver].
  Qed.
  Lemma handled_clean cur done k target :
    handled data cur done -> data !! k = Some target ->
    (forall i j, (i, j) ∈ done -> (i, j) ∈ conditional_positions data) ->
    Forall (fun e' => ~ conditional e') (d_exchanges target) ->
    (forall i' j' e, (i', j') ∈ done -> ~ constrains data i' j' e k target) ->
    cur !! k = Some target.
  Proof.
    intros [_ H] Hk Hdone Hc Hn. destruct (H k target Hk) as [_ H2]. destruct (H2 Hn) as (es & -> & Hl & He).
    f_equal. replace es with (d_exchanges target); [by destruct target|]. apply list_eq. intros j.
    destruct (d_exchanges target !! j) as [e|] eqn:Ej.
    - rewrite (He j e Ej), decide_False; [done|]. intros Hin. apply Hdone, conditional_positions_spec in Hin as (e' & He' & Hc').
      apply exchange_at_Some in He' as (ds & Hds & He'). rewrite Hk in Hds. apply Some_inj in Hds as <-.
      rewrite Ej in He'. apply Some_inj in He' as <-. rewrite Forall_forall in Hc. apply (Hc e); [|done]. by eapply elem_of_list_lookup_2.
    - symmetry. apply lookup_ge_None. apply lookup_ge_None in Ej. lia.
  Qed.
  Lemma handled_source cur done i j ds e :
    handled data cur done -> data !! i = Some ds -> d_exchanges ds !! j = Some e -> conditional e -> (i, j) ∉ done ->
    exchange_at i j cur = Some e.
  Proof.
    intros [_ H] Hi Hj Hc Hn. destruct (H i ds Hi) as [_ H2].
    destruct H2 as (es & Hes & Hl & He); [intros i' j' e' _; by apply (source_clean _ _ _ _ Hi Hj Hc)|].
    apply exchange_at_Some. eexists. split; [exact Hes|]. cbn [d_exchanges set_d_exchanges]. rewrite (He j e Hj).
    by rewrite decide_False.
  Qed.
  Lemma handled_position cur done link k : handled data cur done -> position_of_id cur link = Some k ->
    exists target, data !! k = Some target /\ d_id target = link.
  Proof.
    intros [H _] Hk. apply position_of_id_spec in Hk as (ds & Hds & <-).
    assert (map d_id data !! k = Some (d_id ds)) as E by (rewrite <- H, list_lookup_fmap, Hds; done).
    rewrite list_lookup_fmap in E. destruct (data !! k) as [target|]; [|done]. apply Some_inj in E. by exists target.
  Qed.

  Lemma substituted_list product target es : es = map (subst_exchange product) (d_exchanges target) ->
    set_d_exchanges es target = substituted product target.
  Proof. intros ->. reflexivity. Qed.

  Lemma handled_after cur done i j ds e k target :
    handled data cur done -> (i, j) ∉ done ->
    data !! i = Some ds -> d_exchanges ds !! j = Some e -> constrains data i j e k target -> k <> i ->
    cur !! k = Some target ->
    handled data (<[k := substituted (e_name e) target]> (on_exchange i j into_input cur)) (done ++ [(i, j)]).
  Proof.
    intros Hh Hn Hi Hj Hcon Hne Hkc. pose proof Hh as [Hids H].
    assert (data !! k = Some target) as Hk by (destruct Hcon as (? & _ & _ & _ & ? & _); done).
    assert (conditional e) as Hc.
    { destruct Hcon as (ds' & H1 & H2 & H3 & _). done. }
    split.
    - rewrite <- Hids. apply list_eq. intros m. rewrite !list_lookup_fmap. destruct (decide (m = k)) as [->|Hm].
      + rewrite list_lookup_insert, Hkc; [done|]. rewrite on_exchange_length. by apply lookup_lt_Some in Hkc.
      + rewrite list_lookup_insert_ne by done. unfold on_exchange. destruct (decide (m = i)) as [->|Hm'].
        * rewrite list_lookup_alter. by destruct (cur !! i).
        * by rewrite list_lookup_alter_ne.
    - intros m d Hm. destruct (decide (m = k)) as [->|Hmk].
      + rewrite Hk in Hm. apply Some_inj in Hm as <-. split.
        * intros i' j' e' _ Hcon'. pose proof (Hone _ _ _ _ _ _ _ _ Hcon Hcon') as E. injection E as <- <-.
          destruct (constrains_unique _ _ _ _ _ _ _ _ Hcon Hcon') as (-> & _ & _).
          apply list_lookup_insert. rewrite on_exchange_length. by apply lookup_lt_Some in Hkc.
        * intros Hno. exfalso. eapply (Hno i j); [set_solver|exact Hcon].
      + rewrite list_lookup_insert_ne by done. destruct (H m d Hm) as [H1 H2]. destruct (decide (m = i)) as [->|Hmi].
        * rewrite Hi in Hm. apply Some_inj in Hm as <-. split.
          -- intros i' j' e' _ Hcon'. exfalso. by apply (source_clean _ _ _ _ Hi Hj Hc _ _ _ Hcon').
          -- intros _. destruct H2 as (es & Hes & Hl & He); [intros i' j' e' _; by apply (source_clean _ _ _ _ Hi Hj Hc)|].
             exists (alter into_input j es). split; [rewrite (on_exchange_same _ _ _ _ _ Hes); by destruct ds|].
             split; [by rewrite alter_length|]. intros j' e' Hj'. destruct (decide (j' = j)) as [->|Hjj].
             ++ rewrite list_lookup_alter, (He j e' Hj'), decide_False by done. rewrite decide_True; [done|set_solver].
             ++ rewrite list_lookup_alter_ne, (He j' e' Hj') by done. do 2 f_equal.
                destruct (decide ((i, j') ∈ done)) as [Hd|Hd].
                ** rewrite decide_True; [done|set_solver].
                ** rewrite decide_False; [done|]. rewrite elem_of_app, elem_of_list_singleton. intros [?|E]; [done|]. injection E as ->. done.
        * rewrite on_exchange_other by done. split.
          -- intros i' j' e' Hin Hcon'. apply elem_of_app in Hin as [Hin|Hin]; [by eapply H1|].
             apply elem_of_list_singleton in Hin. injection Hin as -> ->.
             destruct (constrains_unique _ _ _ _ _ _ _ _ Hcon Hcon') as (_ & -> & _). done.
          -- intros Hno. destruct H2 as (es & Hes & Hl & He); [intros i' j' e' Hin; apply Hno; set_solver|].
             exists es. do 2 (split; [done|]). intros j' e' Hj'. rewrite (He j' e' Hj'). do 2 f_equal.
             destruct (decide ((m, j') ∈ done)) as [Hd|Hd].
             ++ rewrite decide_True; [done|set_solver].
             ++ rewrite decide_False; [done|]. rewrite elem_of_app, elem_of_list_singleton. intros [?|E]; [done|]. by injection E as -> ->.
  Qed.

  Lemma constrains_self i j e k target : constrains data i j e k target -> k <> i.
  Proof.
    intros Hcon ->. pose proof Hcon as (ds & H1 & H2 & H3 & H4 & _). rewrite H1 in H4. apply Some_inj in H4 as <-.
    by apply (source_clean _ _ _ _ H1 H2 H3 _ _ _ Hcon).
  Qed.

  Definition possible (i j : nat) : Prop :=
    exists e k target, constrains data i j e k target /\ substitutable (e_name e) target.

  Lemma handled_step cur done i j :
    handled data cur done -> (i, j) ∉ done -> (i, j) ∈ conditional_positions data ->
    (forall i j, (i, j) ∈ done -> (i, j) ∈ conditional_positions data) ->
    (forall cur', handle_constrained_exchange cur (i, j) = Ok cur' ->
       handled data cur' (done ++ [(i, j)]) /\ possible i j) /\
    (possible i j -> is_ok (handle_constrained_exchange cur (i, j)) = true).
  Proof.
    intros Hh Hn Hpos Hdone. apply conditional_positions_spec in Hpos as (e & He & Hc).
    apply exchange_at_Some in He as (ds & Hi & Hj). pose proof (handled_source _ _ _ _ _ _ Hh Hi Hj Hc Hn) as Hcur.
    assert (forall k target, constrains data i j e k target -> cur !! k = Some target) as Hclean'.
    { intros k target Hcon. apply (handled_clean _ _ _ _ Hh); [by destruct Hcon as (? & _ & _ & _ & ? & _)|done|by eapply Hclean|].
      intros i' j' e' Hin Hcon'. pose proof (Hone _ _ _ _ _ _ _ _ Hcon Hcon') as E. injection E as <- <-. done. }
    split.
    - intros cur' H. pose proof H as Hs. apply step_inv in H as (exc & link & k & r & q & e1 & e2 & Hexc & Hlink & Hk & _).
      rewrite Hcur in Hexc. apply Some_inj in Hexc as <-.
      destruct (handled_position _ _ _ _ Hh Hk) as (target & Ht & Hid').
      assert (constrains data i j e k target) as Hcon by (exists ds; split_and!; try done; by rewrite Hlink, Hid').
      pose proof (constrains_self _ _ _ _ _ Hcon) as Hne.
      destruct (proj1 (step_iff cur i j cur' e link k target Hcur Hlink Hk Hne (Hclean' _ _ Hcon)) Hs) as (es & Hr & ->).
      apply retargeted_spec in Hr as (-> & Hr1 & Hr2). split.
      + rewrite (substituted_list (e_name e)) by done. eapply handled_after; [done..|by apply Hclean'].
      + exists e, k, target. split; [done|]. by split.
    - intros (e' & k & target & Hcon & Hs1 & Hs2). pose proof Hcon as (ds' & H1 & H2 & _ & H4 & H5).
      rewrite Hi in H1. apply Some_inj in H1 as <-. rewrite Hj in H2. apply Some_inj in H2 as <-.
      destruct (retargeted_total _ _ Hs1 Hs2) as (es & Hr).
      assert (position_of_id cur (d_id target) = Some k) as Hk.
      { apply position_of_id_unique; [destruct Hh as [-> _]; done|by apply Hclean']. }
      pose proof (proj2 (step_iff cur i j _ e (d_id target) k target Hcur H5 Hk
        (constrains_self _ _ _ _ _ Hcon) (Hclean' _ _ Hcon)) (ex_intro _ es (conj Hr eq_refl))) as E.
      by rewrite E.
  Qed.

  Lemma handled_fold todo cur done :
    handled data cur done -> NoDup (done ++ todo) ->
    (forall i j, (i, j) ∈ done ++ todo -> (i, j) ∈ conditional_positions data) ->
    (forall cur', foldR handle_constrained_exchange cur todo = Ok cur' ->
       handled data cur' (done ++ todo) /\ forall i j, (i, j) ∈ todo -> possible i j) /\
    ((forall i j, (i, j) ∈ todo -> possible i j) -> is_ok (foldR handle_constrained_exchange cur todo) = true).
  Proof.
    revert cur done. induction todo as [|[i j] todo IH]; intros cur done Hh Hnd Hpos.
    - cbn [foldR]. split; [|done]. intros cur' E. apply Ok_inj in E as <-. rewrite app_nil_r. split; [done|set_solver].
    - cbn [foldR].
      destruct (handled_step cur done i j) as [Hs Ht]; [done| |apply Hpos; set_solver|intros; apply Hpos; set_solver|].
      { apply NoDup_app in Hnd as (_ & Hnd & _). intros Hin. apply (Hnd (i, j) Hin). set_solver. }
      split.
      + intros cur' H. apply bind_Ok in H as (d & Hd & H). destruct (Hs d Hd) as [Hh' Hp].
        destruct (IH d (done ++ [(i, j)])) as [HI _]; [done|by rewrite <- app_assoc|by rewrite <- app_assoc|].
        destruct (HI cur' H) as [HA HB]. rewrite <- app_assoc in HA. split; [done|].
        intros i' j' Hin. apply elem_of_cons in Hin as [E|Hin]; [by injection E as -> ->|by apply HB].
      + intros Hp. destruct (handle_constrained_exchange cur (i, j)) as [d|] eqn:Ed.
        * cbn [bind]. destruct (Hs d eq_refl) as [Hh' _].
          destruct (IH d (done ++ [(i, j)])) as [_ HI]; [done|by rewrite <- app_assoc|by rewrite <- app_assoc|].
          apply HI. intros i' j' Hin. apply Hp. set_solver.
        * exfalso. assert (possible i j) as Hpo by (apply Hp; set_solver). by apply Ht in Hpo.
  Qed.

  Lemma handle_exact data' : handle_constrained_markets data = Ok data' ->
    length data' = length data /\
    forall k ds, data !! k = Some ds ->
      (forall i j e, constrains data i j e k ds -> data' !! k = Some (substituted (e_name e) ds)) /\
      ((forall i j e, ~ constrains data i j e k ds) -> data' !! k = Some (unconstrained ds)).
  Proof.
    intros H. destruct (handled_fold (conditional_positions data) data []) as [HI _];
      [apply handled_nil|apply conditional_positions_NoDup|done|].
    destruct (HI data' H) as [[Hids HA] _]. split.
    - apply (f_equal length) in Hids. by rewrite !map_length in Hids.
    - intros k ds Hk. destruct (HA k ds Hk) as [H1 H2]. split.
      + intros i j e Hcon. eapply H1; [|exact Hcon]. apply conditional_positions_spec.
        destruct Hcon as (ds' & Hi & Hj & Hc & _). exists e. split; [apply exchange_at_Some; by exists ds'|done].
      + intros Hno. destruct H2 as (es & -> & Hl & He); [intros i j e _; apply Hno|]. unfold unconstrained. do 2 f_equal.
        apply list_eq. intros j. rewrite list_lookup_fmap. destruct (d_exchanges ds !! j) as [e|] eqn:Ej.
        * rewrite (He j e Ej). cbn [fmap option_fmap option_map]. f_equal. destruct (decide (conditional e)) as [Hc|Hc].
          -- rewrite decide_True; [done|]. apply conditional_positions_spec. exists e. split; [apply exchange_at_Some; by exists ds|done].
          -- rewrite decide_False; [done|]. intros Hin. apply conditional_positions_spec in Hin as (e' & He' & Hc').
             apply exchange_at_Some in He' as (ds' & Hds & He'). rewrite Hk in Hds. apply Some_inj in Hds as <-.
             rewrite Ej in He'. by apply Some_inj in He' as <-.
        * cbn. apply lookup_ge_None. apply lookup_ge_None in Ej. lia.
  Qed.
  Lemma handle_exact_ok : is_ok (handle_constrained_markets data) = true <->
    forall i j ds e, data !! i = Some ds -> d_exchanges ds !! j = Some e -> conditional e ->
      exists k target, data !! k = Some target /\ e_link e = Some (d_id target) /\ substitutable (e_name e) target.
  Proof.
    destruct (handled_fold (conditional_positions data) data []) as [HI HT];
      [apply handled_nil|apply conditional_positions_NoDup|done|]. split.
    - intros H i j ds e Hi Hj Hc. destruct (handle_constrained_markets data) as [data'|] eqn:E; [|done].
      destruct (HI data' E) as [_ Hp]. destruct (Hp i j) as (e' & k & target & (ds' & H1 & H2 & H3 & H4 & H5) & Hs).
      { apply conditional_positions_spec. exists e. split; [apply exchange_at_Some; by exists ds|done]. }
      rewrite Hi in H1. apply Some_inj in H1 as <-. rewrite Hj in H2. apply Some_inj in H2 as <-. by exists k, target.
    - intros H. apply HT. intros i j Hin. apply conditional_positions_spec in Hin as (e & He & Hc).
      apply exchange_at_Some in He as (ds & Hi & Hj). destruct (H i j ds e Hi Hj Hc) as (k & target & H1 & H2 & H3).
      exists e, k, target. split; [|done]. by exists ds.
  Qed.
End Exact.
