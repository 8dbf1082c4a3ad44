(** Proofs for C84: from the input to the result nothing is lost. *)
From stdpp Require Import gmap.
From Verif Require Import Base Strings Types Uncertainty Spec_Uncertainty Uncertainty_proofs Utils Spec_Utils Utils_proofs Grouping
  Validation Cutoff Spec_Cutoff Cutoff_proofs Spec_Allocation Allocation_proofs Allocation2_proofs SingleOutput_proofs Spec_Consequential
  Combined_proofs Locations Spec_Waste Waste_proofs Spec_Consumers Spec_Untouched Pipeline Spec_Pipeline Pipeline_proofs Spec_Balance Balance_proofs
  Supply4_proofs Spec_Marks Names_proofs Marks_proofs Spec_Whole Kept_proofs Shares_proofs.

(** *** Weights *)
Definition emission (i : option string) (f : string * etype * option string * option string) : weight :=
  fun '(t, i', n, x, y) => if decide ((t = FromEnvironment \/ t = ToEnvironment) /\ i' = i /\ (n, t, x, y) = f) then 1%Qc else 0%Qc.
Definition product (P : string -> Prop) `{forall n, Decision (P n)} : weight :=
  fun '(t, _, n, _, _) => if decide (P n) then
    match t with RefProduct | Byproduct => 1%Qc | FromTechnosphere => (- (1))%Qc | _ => 0%Qc end else 0%Qc.
Lemma emission_fair i f : fair (fun _ _ => 0%Qc) (emission i f).
Proof. intros i' n x y. unfold emission. rewrite !decide_False by naive_solver. repeat split; ring. Qed.
Lemma product_fair (P : string -> Prop) `{forall n, Decision (P n)} : fair (fun _ n => if decide (P n) then 1%Qc else 0%Qc) (product P).
Proof. intros i n x y. unfold product. destruct (decide (P n)); repeat split; ring. Qed.
Lemma emitted_total i f ds : emitted i f ds = total_of (emission i f) (d_exchanges ds).
Proof.
  unfold emitted. induction (d_exchanges ds) as [|e es IH]; [done|]. rewrite total_cons, filter_cons, <- IH. unfold worth_of, key, emission, elementary, flow.
  repeat case_decide; try tauto; cbn [map]; try change (Qcsum (?x :: ?l)) with (x + Qcsum l)%Qc; ring.
Qed.
Lemma net_weight (P : string -> Prop) `{forall n, Decision (P n)} es :
  (Qcsum (map e_amount (filter (fun e => is_output e /\ P (e_name e)) es))
   - Qcsum (map e_amount (filter (fun e => e_type e = FromTechnosphere /\ P (e_name e)) es)))%Qc = total_of (product P) es.
Proof.
  induction es as [|e es IH]; [done|]. rewrite total_cons, !filter_cons, <- IH. unfold worth_of, key, product, is_output.
  destruct (decide (P (e_name e))) as [Hp|Hp].
  - destruct (decide ((e_type e = RefProduct \/ e_type e = Byproduct) /\ P (e_name e))) as [Ho|Ho];
      destruct (decide (e_type e = FromTechnosphere /\ P (e_name e))) as [Hi|Hi]; cbn [map];
      try change (Qcsum (?x :: ?l)) with (x + Qcsum l)%Qc.
    + destruct Hi as [Hi _], Ho as [[Ho|Ho] _]; congruence.
    + destruct Ho as [[Ho|Ho] _]; rewrite Ho; ring.
    + destruct Hi as [Hi _]. rewrite Hi. ring.
    + destruct (e_type e); try ring; tauto.
  - rewrite !decide_False by tauto. ring.
Qed.
Lemma net_total n ds : net n ds = total_of (product (fun m => m = n)) (d_exchanges ds).
Proof. rewrite <- net_weight. unfold net. done. Qed.
Global Instance called_name_dec n m : Decision (m = n \/ m = (n ++ marker)%string).
Proof. apply _. Defined.
Lemma net_called_total n ds : net_called n ds = total_of (product (fun m => m = n \/ m = (n ++ marker)%string)) (d_exchanges ds).
Proof.
  rewrite <- net_weight. unfold net_called, called. done.
Qed.

(** *** Before allocation *)
(** [e'] is [e] before allocation. *)
Definition ready (e e' : exchange) : Prop := exists e1, same e e1 /\ rename_recyclable e1 = Ok e'.
Definition ready_dataset (d d' : dataset) : Prop :=
  shell d d' /\ Forall2 ready (filter (stays (d_name d)) (d_exchanges d)) (d_exchanges d').
Lemma prepared_ready w data prepared : cutoff_prepared w data = Ok prepared -> exists first new,
  prepared = first ++ new /\ Forall2 ready_dataset data first /\
  Forall (fun rc => d_alloc rc = None /\ (exists d, d ∈ data /\ d_id rc = d_id d) /\ d_type rc = Transforming /\
    (exists x, d_name rc = (x ++ marker)%string) /\ exists rp, d_exchanges rc = [rp] /\ is_refproduct rp) new.
Proof.
  intros H. apply prepared_parts in H as (data1 & H1 & H). apply cutoff_unmarked_kept in H1.
  unfold handle_waste_outputs in H. apply bind_Ok in H as (first & H2 & H). apply mapR_Ok in H2.
  unfold create_recycled_content_datasets in H. apply bind_Ok in H as (new & H & <-%Ok_inj). exists first, (map snd new).
  split; [done|].
  assert (Forall2 ready_dataset data first) as HR.
  { clear H. revert first H2. induction H1 as [|d d1 data data1 [HS HK] _ IH]; intros first H2; [by apply Forall2_nil_inv_l in H2 as ->|].
    apply Forall2_cons_inv_l in H2 as (d2 & first' & E & H2 & ->). constructor; [|by apply IH].
    apply bind_Ok in E as (es & E & <-%Ok_inj). apply mapR_Ok in E. split; [exact HS|]. cbn [d_exchanges set_d_exchanges].
    clear -HK E. revert es E. induction HK as [|e e1 es1 es2 H _ IH]; intros es E; [by apply Forall2_nil_inv_l in E as ->|].
    apply Forall2_cons_inv_l in E as (e' & es' & E1 & E & ->). constructor; [by exists e1|by apply IH]. }
  split; [done|].
  eapply new_content; [|exact H| |constructor]; [done|]. intros ds e rc Hds He Hb Hrc.
  unfold create_new_recycled_content_dataset in Hrc. apply bind_Ok in Hrc as (k & _ & <-%Ok_inj).
  apply elem_of_list_lookup_1 in Hds as [j Hj]. destruct (Forall2_lookup_r _ _ _ _ _ HR Hj) as (d & Hd & (Hi & _) & HX).
  split; [done|]. split; [exists d; split; [by eapply elem_of_list_lookup_2|done]|]. split; [done|]. split; [|eexists; done].
  apply elem_of_list_lookup_1 in He as [i He]. destruct (Forall2_lookup_r _ _ _ _ _ HX He) as (e0 & _ & e1 & _ & Hren).
  unfold rename_recyclable in Hren. apply bind_Ok in Hren as (b & Hb1 & <-%Ok_inj). destruct b; [by eexists|congruence].
Qed.

Lemma ready_fields e e' : ready e e' -> e_type e' = e_type e /\ e_id e' = e_id e /\ e_unit e' = e_unit e /\ e_amount e' = e_amount e /\
  e_class e' = e_class e /\ e_compartment e' = e_compartment e /\ e_subcompartment e' = e_subcompartment e /\
  (e_name e' = e_name e \/ (e_type e = Byproduct /\ e_class e = Some Recyclable /\ e_name e' = (e_name e ++ marker)%string)).
Proof.
  intros (e1 & [Hc _] & H). unfold core in Hc. injection Hc as C1 C2 C3 C4 C5 C6 C7 C8 _. unfold rename_recyclable in H.
  apply bind_Ok in H as (b & Hb & <-%Ok_inj). destruct b.
  - cbn. rewrite C1, C2, C3, C4, C5, C6, C7, C8. repeat (split; [done|]). right.
    unfold is_recyclable_byproduct in Hb. rewrite C1 in Hb. case_bool_decide as Ht; [|done]. split; [done|].
    apply bind_Ok in Hb as (cl & Hcl & Hb). apply Ok_inj in Hb. apply bool_decide_eq_true in Hb as ->. rewrite C6 in Hcl.
    destruct (e_class e); [|done]. apply Ok_inj in Hcl as ->. done.
  - rewrite C1, C2, C3, C4, C5, C6, C7, C8. repeat (split; [done|]). by left.
Qed.
Lemma ready_total (P Q : string -> Prop) `{forall n, Decision (P n)} `{forall n, Decision (Q n)} es es' :
  Forall2 ready es es' -> Forall (fun e => forall m, (m = e_name e \/ m = (e_name e ++ marker)%string) -> Q m <-> P (e_name e)) es ->
  total_of (product Q) es' = total_of (product P) es.
Proof.
  induction 1 as [|e e' es es' HR _ IH]; intros HA; [done|]. apply Forall_cons in HA as [HA1 HA]. rewrite !total_cons, (IH HA). f_equal.
  apply ready_fields in HR as (F1 & _ & _ & F4 & _ & _ & _ & F8). unfold worth_of, key, product. rewrite F1, F4.
  assert (Q (e_name e') <-> P (e_name e)) as HE by (apply HA1; destruct F8 as [F8|(_ & _ & F8)]; auto).
  destruct (decide (Q (e_name e'))), (decide (P (e_name e))); try tauto; reflexivity.
Qed.
Lemma ready_emission i f es es' : Forall2 ready es es' -> total_of (emission i f) es' = total_of (emission i f) es.
Proof.
  induction 1 as [|e e' es es' H _ IH]; [done|]. rewrite !total_cons, IH. f_equal.
  apply ready_fields in H as (F1 & F2 & _ & F4 & _ & F6 & F7 & F8). unfold worth_of, key. rewrite F1, F2, F4, F6, F7. f_equal.
  destruct F8 as [->|(Ht & _)]; [done|]. unfold emission. rewrite Ht, !decide_False by naive_solver. done.
Qed.
(** Refinery gas of amount zero does not count. *)
Lemma stays_total c name es : total_of c (filter (stays name) es) = total_of c (filter (fun e => ~ consequential_only e) es).
Proof.
  induction es as [|e es IH]; [done|]. rewrite !filter_cons.
  destruct (decide (stays name e)) as [[Hc Hw]|Hs], (decide (~ consequential_only e)) as [Hc'|Hc']; try tauto; rewrite ?total_cons, IH; try done.
  unfold worth_of. assert (e_amount e = 0%Qc) as ->; [|ring]. destruct (decide (e_amount e = 0%Qc)) as [?|Hz]; [done|]. exfalso. apply Hs. split; [done|].
  by right; right.
Qed.
Lemma ready_emitted i f d d' : ready_dataset d d' -> emitted i f d' = emitted i f (counted d).
Proof.
  intros [_ H]. rewrite !emitted_total, (ready_emission i f _ _ H), stays_total. done.
Qed.
Lemma ready_net n d d' : ready_dataset d d' -> Forall (fun e => ~ occurs_in marker (e_name e)) (d_exchanges d) -> ~ occurs_in marker n ->
  net_called n d' = net n (counted d).
Proof.
  intros [_ H] HU Hn. rewrite net_called_total, net_total.
  rewrite (ready_total (fun m => m = n) (fun m => m = n \/ m = (n ++ marker)%string) _ _ H).
  - by rewrite stays_total.
  - apply Forall_forall. intros e He m Hm. apply elem_of_list_filter in He as [_ He]. rewrite Forall_forall in HU. specialize (HU e He).
    split.
    + intros HE. destruct HE as [E|E], Hm as [E'|E']; subst m; try congruence.
      * exfalso. apply Hn. rewrite <- E. apply Supply4_proofs.occurs_end.
      * exfalso. apply HU. rewrite E. apply Supply4_proofs.occurs_end.
      * apply Supply4_proofs.app_marker in E. congruence.
    + intros <-. destruct Hm as [-> | ->]; [by left|by right].
Qed.
Lemma ready_products d d' : ready_dataset d d' -> n_products d' = n_products (counted d).
Proof.
  intros [_ H]. unfold n_products.
  assert (length (filter produces (d_exchanges d')) = length (filter produces (filter (stays (d_name d)) (d_exchanges d)))) as ->.
  { symmetry. eapply Forall2_length. apply (filter_Forall2 produces) in H; [exact H|]. intros e e' Hr. apply ready_fields in Hr as (F1 & _ & _ & F4 & _).
    unfold produces, is_refproduct. by rewrite F1, F4. }
  unfold counted. cbn [d_exchanges set_d_exchanges].
  clear H. induction (d_exchanges d) as [|e es IH]; [done|]. rewrite !(filter_cons (stays _)), !(filter_cons (fun e => ~ consequential_only e)).
  destruct (decide (stays (d_name d) e)) as [[Hc Hw]|Hs], (decide (~ consequential_only e)) as [Hc'|Hc']; try tauto; rewrite ?(filter_cons produces).
  - destruct (decide (produces e)); cbn [length]; lia.
  - rewrite (decide_False (P := produces e)); [exact IH|]. intros [_ Hp]. apply Hs. split; [done|]. by right; right.
Qed.

(** *** Products *)
Lemma Forall2_perm {A B} (R : A -> B -> Prop) l' m' : l' ≡ₚ m' -> forall l, Forall2 R l l' -> exists m, l ≡ₚ m /\ Forall2 R m m'.
Proof.
  induction 1 as [|x l' m' _ IH|x y l'|l1 l2 l3 _ IH1 _ IH2]; intros l HF.
  - apply Forall2_nil_inv_r in HF as ->. by exists [].
  - apply Forall2_cons_inv_r in HF as (a & k & Ha & HF & ->). destruct (IH k HF) as (m & Hp & Hm). exists (a :: m). split; [by constructor|by constructor].
  - apply Forall2_cons_inv_r in HF as (a & k & Ha & HF & ->). apply Forall2_cons_inv_r in HF as (b & k' & Hb & HF & ->).
    exists (b :: a :: k'). split; [constructor|]. by repeat constructor.
  - destruct (IH1 l HF) as (m & Hp & Hm). destruct (IH2 m Hm) as (m2 & Hp2 & Hm2). exists m2. split; [by etrans|done].
Qed.
Lemma Forall2_sub {A B} (R : A -> B -> Prop) l l' k' : Forall2 R l l' -> k' ⊆+ l' -> exists k, k ⊆+ l /\ Forall2 R k k'.
Proof.
  intros HF Hs. apply submseteq_Permutation in Hs as [r Hr]. destruct (Forall2_perm R _ _ Hr l HF) as (m & Hp & Hm).
  apply Forall2_app_inv_r in Hm as (k & r' & Hk & _ & ->). exists k. split; [|done]. rewrite Hp. apply submseteq_inserts_r. done.
Qed.
Definition bought (p p' : exchange) : Prop :=
  e_id p' = e_id p /\ e_name p' = e_name p /\ e_unit p' = e_unit p /\ e_amount p' = e_amount p.
Lemma products_input d d' products : ready_dataset d d' -> products ⊆+ filter alloc_output (d_exchanges d') ->
  exists originals, originals ⊆+ filter is_output (d_exchanges d) /\ Forall2 bought originals products.
Proof.
  intros [_ H] Hs.
  assert (Forall2 bought (filter alloc_output (filter (stays (d_name d)) (d_exchanges d))) (filter alloc_output (d_exchanges d'))) as HB.
  { assert (Forall2 (fun e e' => ready e e' /\ alloc_output e) (filter alloc_output (filter (stays (d_name d)) (d_exchanges d))) (filter alloc_output (d_exchanges d'))) as HB.
    { apply (filter_Forall2 alloc_output) in H.
      - pose proof (filter_Forall alloc_output (filter (stays (d_name d)) (d_exchanges d))) as HA. revert H HA.
        generalize (filter alloc_output (filter (stays (d_name d)) (d_exchanges d))), (filter alloc_output (d_exchanges d')). clear.
        induction 1 as [|e e' es es' H _ IH]; intros HA; [constructor|]. apply Forall_cons in HA as [? ?]. constructor; auto.
      - intros e e' Hr. apply ready_fields in Hr as (F1 & _ & _ & _ & F5 & _). unfold alloc_output, alloc_byproduct, is_refproduct. by rewrite F1, F5. }
    eapply Forall2_impl; [exact HB|]. cbv beta. intros e e' [Hr Ha]. apply ready_fields in Hr as (F1 & F2 & F3 & F4 & F5 & _ & _ & F8).
    split; [done|]. split; [|done]. destruct F8 as [F8|(Ht & Hc & _)]; [done|]. destruct Ha as [Ha|[_ Ha]]; [unfold is_refproduct in Ha|]; congruence. }
  destruct (Forall2_sub _ _ _ _ HB Hs) as (originals & Ho & HF). exists originals. split; [|done].
  etrans; [exact Ho|]. clear. apply sublist_submseteq. induction (d_exchanges d) as [|e es IH]; [done|]. rewrite (filter_cons (stays _)), (filter_cons is_output).
  destruct (decide (stays (d_name d) e)), (decide (is_output e)) as [Hi|Hi]; rewrite ?filter_cons; try (case_decide as Ha); try (by constructor); try done.
  exfalso. apply Hi. destruct Ha as [Ha|[Ha _]]; [by left|by right].
Qed.

(** *** From allocation to the result *)
Lemma drop_total c es : total_of c (map (fun e => if (bool_decide (e_type e = RefProduct) || bool_decide (e_type e = DroppedProduct)) && link_truthy e then set_e_link None e else e) es) = total_of c es.
Proof. unfold total_of. f_equal. rewrite map_map. apply map_ext. intros e. by destruct (_ && _). Qed.

(** [d'] with reference product activity links dropped. *)
Definition unlinked (d d' : dataset) : Prop :=
  d' = set_d_exchanges (d_exchanges d') d /\ (forall c, total_of c (d_exchanges d') = total_of c (d_exchanges d)) /\
  made d' = made d /\
  Forall2 (fun e e' => e_type e' = e_type e /\ e_id e' = e_id e /\ e_name e' = e_name e /\ e_unit e' = e_unit e /\ e_amount e' = e_amount e)
    (d_exchanges d) (d_exchanges d').
Lemma drop_unlinked data : Forall2 unlinked data (drop_rp_activity_links data).
Proof.
  unfold drop_rp_activity_links. induction data as [|d data IH]; constructor; [|exact IH]. split; [done|]. split; [intros c; apply drop_total|]. split.
  - unfold made. cbn [d_exchanges set_d_exchanges]. induction (d_exchanges d) as [|e es IHe]; [done|]. cbn [map].
    rewrite !filter_cons. unfold is_refproduct in *. destruct (_ && _); cbn [e_type set_e_link]; (destruct (decide _); [cbn [map]|done];
      change (Qcsum (?x :: ?l)) with (x + Qcsum l)%Qc; by rewrite IHe).
  - cbn [d_exchanges set_d_exchanges]. induction (d_exchanges d) as [|e es IHe]; constructor; [|exact IHe]. by destruct (_ && _).
Qed.

(** *** From allocation to the result *)
Lemma times_emission k i f es es' : Forall2 (times k) es es' -> Forall (fun e => forall a, e_name e <> (a ++ marker)%string) es ->
  total_of (emission i f) es' = (total_of (emission i f) es * k)%Qc.
Proof.
  induction 1 as [|e e' es es' HT _ IH]; intros HA; [rewrite total_nil; ring|]. apply Forall_cons in HA as [HA1 HA]. rewrite !total_cons, (IH HA).
  destruct HT as (T1 & T2 & _ & T4 & T5 & T6 & T7). unfold worth_of, key. rewrite T1, T2, T4, T5, (T6 HA1), T7. ring.
Qed.
Lemma emission_filter i f es : total_of (emission i f) (filter elementary es) = total_of (emission i f) es.
Proof.
  rewrite (total_parts (emission i f) elementary es). enough (total_of (emission i f) (filter (fun e => ~ elementary e) es) = 0%Qc) as -> by ring.
  pose proof (filter_Forall (fun e => ~ elementary e) es) as H. revert H. generalize (filter (fun e => ~ elementary e) es). clear.
  induction 1 as [|e es He _ IH]; [done|]. rewrite total_cons, IH. unfold worth_of, key, emission. rewrite decide_False; [ring|].
  intros [? _]. by apply He.
Qed.
Lemma per_unit_ratio a ds : per_unit net_called a ds -> Forall (fun e => elementary e -> forall x, e_name e <> (x ++ marker)%string) (d_exchanges a) ->
  exists k, k <> 0%Qc /\ made ds = (made a * k)%Qc /\ (forall i f, emitted i f ds = (emitted i f a * k)%Qc) /\
    forall n, ~ occurs_in marker n -> n <> "refinery gas"%string -> net n ds = (net_called n a * k)%Qc.
Proof.
  intros (rp & rp' & k & E & E' & HT & Hk & HE & HN) HA. exists k. split; [|split; [|split]].
  - intros ->. apply normalising_nonzero in Hk. apply Hk. ring.
  - unfold made. rewrite E, E'. destruct HT as (_ & _ & _ & _ & _ & _ & HT). unfold Qcsum. cbn. rewrite HT. ring.
  - intros i f. rewrite !emitted_total, <- (emission_filter i f (d_exchanges ds)), <- (emission_filter i f (d_exchanges a)).
    apply times_emission; [exact HE|]. apply Forall_forall. intros e He. apply elem_of_list_filter in He as [He Hin]. rewrite Forall_forall in HA. by apply HA.
  - done.
Qed.
Lemma ratio_same (x m k : Qc) : k <> 0%Qc -> m <> 0%Qc -> (x * k / (m * k) = x / m)%Qc.
Proof. intros Hk Hm. field. done. Qed.
Lemma together_ext (f g : dataset -> Qc) products : forall products' outs parts,
  Forall2 bought products products' ->
  Forall2 (fun a ds => made a <> 0%Qc /\ (f ds / made ds = g a / made a)%Qc) outs parts ->
  length products' = length outs ->
  together f products parts = together g products' outs.
Proof.
  unfold together. induction products as [|p products IH]; intros products' outs parts HB HF Hl.
  - apply Forall2_nil_inv_l in HB as ->. cbn in *. done.
  - apply Forall2_cons_inv_l in HB as (p' & prods & (_ & _ & _ & Hp) & HB & ->). destruct HF as [|a ds outs parts [_ E] HF]; [done|].
    cbn [zip_with]. change (Qcsum (?x :: ?l)) with (x + Qcsum l)%Qc. rewrite (IH prods outs parts HB HF); [|cbn in Hl; lia].
    by rewrite E, Hp.
Qed.

(** *** A run *)
Lemma concat_in {A} (ls : list (list A)) l : l ∈ ls -> forall x, x ∈ l -> x ∈ concat ls.
Proof. intros Hl x Hx. apply elem_of_list_In, in_concat. exists l. split; by apply elem_of_list_In. Qed.
Lemma allocated_parts w prepared allocated : Forall (fun d => d_alloc d = None) prepared -> cutoff_allocated w prepared = Ok allocated ->
  exists outss, allocated = concat (map drop_rp_activity_links outss) /\ Forall2 (Allocation2_proofs.allocated (w_ln w) (w_recalc w)) prepared outss.
Proof.
  intros HN H. unfold cutoff_allocated in H. apply bind_Ok in H as (outs & H & <-%Ok_inj).
  apply cutoff_allocation_spec in H as (outss & -> & H); [|apply recalculate_blind|done]. exists outss. split; [|done].
  clear. induction outss as [|l ls IH]; [done|]. cbn [concat map]. rewrite <- IH. unfold drop_rp_activity_links. by rewrite map_app.
Qed.
Lemma ready_elementary d d' : ready_dataset d d' -> Forall (fun e => ~ occurs_in marker (e_name e)) (d_exchanges d) ->
  forall e, e ∈ d_exchanges d' -> elementary e -> forall x, e_name e <> (x ++ marker)%string.
Proof.
  intros [_ H] HU e He Hel x E. apply elem_of_list_lookup_1 in He as [j Hj]. destruct (Forall2_lookup_r _ _ _ _ _ H Hj) as (e0 & Hj0 & Hr).
  apply ready_fields in Hr as (F1 & _ & _ & _ & _ & _ & _ & F8). apply elem_of_list_lookup_2, elem_of_list_filter in Hj0 as [_ Hin].
  rewrite Forall_forall in HU. destruct F8 as [F8|(Ht & _)].
  - apply (HU e0 Hin). rewrite <- F8, E. apply Supply4_proofs.occurs_end.
  - destruct Hel; congruence.
Qed.
Lemma Forall2_choose {A B} (P : A -> Prop) (R : A -> B -> Prop) l : Forall P l -> (forall x, P x -> exists y, R x y) -> exists l', Forall2 R l l'.
Proof.
  induction 1 as [|x l Hx _ IH]; intros H; [by exists []|]. destruct (IH H) as [l' Hl]. destruct (H x Hx) as [y Hy]. exists (y :: l'). by constructor.
Qed.
Lemma part_unlinked d p o a : makes_part d p o -> unlinked o a -> makes_part d p a.
Proof.
  intros (E & HE & rp & Hin & Hr & R1 & R2 & R3 & R4 & R5) (U1 & U2 & U3 & U4). split; [by rewrite U1, E|]. split.
  - apply Forall_forall. intros e' He' Hel. apply elem_of_list_lookup_1 in He' as [j Hj]. destruct (Forall2_lookup_r _ _ _ _ _ U4 Hj) as (e & Hj0 & F1 & _ & F3 & _).
    unfold elementary_from in HE. rewrite Forall_forall in HE. destruct (HE e) as (e0 & ? & ? & ?); [by eapply elem_of_list_lookup_2| |].
    + unfold elementary in *. by rewrite <- F1.
    + exists e0. split; [done|]. split; [done|]. congruence.
  - apply elem_of_list_lookup_1 in Hin as [j Hj]. destruct (Forall2_lookup_l _ _ _ _ _ U4 Hj) as (rp' & Hj' & F1 & F2 & F3 & F4 & F5).
    exists rp'. unfold is_refproduct in *. split; [by eapply elem_of_list_lookup_2|]. rewrite U3. repeat split; congruence.
Qed.
Lemma fair_unlinked d products outs outs' : allocated_fairly d products outs -> Forall2 unlinked outs outs' -> allocated_fairly d products outs'.
Proof.
  intros (H1 & H2 & H3 & H4) HU. split; [done|]. split; [|split].
  - clear -H2 HU. revert outs' HU. induction H2 as [|p o products outs H _ IH]; intros outs' HU; [by apply Forall2_nil_inv_l in HU as ->|].
    apply Forall2_cons_inv_l in HU as (a & outs2 & Ha & HU & ->). constructor; [by eapply part_unlinked|by apply IH].
  - clear -H3 HU. induction HU as [|o a outs outs' (_ & U & _) _ IH]; [constructor|]. apply Forall_cons in H3 as [[k Hk] H3]. constructor; [|by apply IH].
    exists k. intros c Hc. by rewrite U, Hk.
  - intros o c Hc. rewrite <- (H4 o c Hc). unfold shares, together. f_equal. clear -HU. revert products.
    induction HU as [|x a outs outs' (_ & U & M & _) _ IH]; intros products; [by destruct products|]. destruct products as [|p products]; [done|]. cbn [zip_with].
    by rewrite U, M, IH.
Qed.

Definition ends (out : list dataset) (a ds : dataset) : Prop := ds ∈ out /\ frame ds = frame a /\ per_unit net_called a ds.
Lemma makes_end out d d2 p p2 a ds : shell d d2 -> bought p p2 -> makes_part d2 p2 a -> ends out a ds ->
  (forall x, e_name p2 <> (x ++ marker)%string) -> makes d p ds.
Proof.
  intros (S1 & S2 & S3 & _) (B1 & B2 & B3 & _) (E & _ & rp & Hin & Hr & R1 & R2 & R3 & R4 & _) (_ & Hf & rp0 & rp' & k & E0 & E1 & HT & Hk & _) Hu.
  assert (rp ∈ filter is_refproduct (d_exchanges a)) as Hi by (by apply elem_of_list_filter). rewrite E0 in Hi. apply elem_of_list_singleton in Hi as <-.
  assert (d_id ds = d_id a /\ d_type ds = d_type a /\ d_name ds = d_name a) as (F1 & F2 & F3).
  { split; [exact (f_equal d_id Hf)|]. split; [exact (f_equal d_type Hf)|exact (f_equal d_name Hf)]. }
  split; [rewrite F1, E; exact S1|]. split; [rewrite F2, E; exact S2|]. split; [rewrite F3, E; exact S3|].
  exists rp'. destruct HT as (T1 & T2 & T3 & _ & _ & T6 & T7). split; [done|]. split; [congruence|]. split; [rewrite T6; [congruence|by rewrite R2]|].
  split; [congruence|]. rewrite T7. by apply normalising_nonzero.
Qed.
Lemma allocated_from w ds outs : Allocation2_proofs.allocated (w_ln w) (w_recalc w) ds outs -> Forall (Names_proofs.from ds) outs.
Proof.
  assert (forall d d', w_recalc w d = Ok d' -> Names_proofs.from d d') as Hr by (unfold w_recalc; intros d d'; apply Names_proofs.recalc_from).
  intros (l & _ & [[_ ->]|(f & Hf & H)]); [constructor; [apply Names_proofs.from_refl|constructor]|].
  unfold allocation_functions in Hf. set_unfold in Hf.
  destruct Hf as [E|[E|[E|[E|[E|[E|[E|[E|[E|[]]]]]]]]]]; injection E as _ ->.
  - by eapply Names_proofs.none_from.
  - by eapply Names_proofs.none_from.
  - by eapply Names_proofs.economic_from.
  - done.
  - by eapply Names_proofs.recycling_from.
  - by eapply Names_proofs.waste_from.
  - by eapply Names_proofs.without_from.
  - by eapply Names_proofs.combined_from.
  - by eapply Names_proofs.with_from.
Qed.
Lemma common_ids w data out : common_part w data = Ok out -> NoDup (map d_id data).
Proof.
  unfold common_part. intros H. apply bind_Ok in H as (d1 & H1 & _). unfold ensure_ids_are_unique in H1. case_bool_decide as Hl; [|done].
  rewrite <- (map_length d_id data) in Hl. clear -Hl. revert Hl. generalize (map d_id data). clear. induction l as [|x l IH]; intros Hl; [constructor|].
  assert (forall k : list string, length (remove_dups k) <= length k) as Hle.
  { clear. induction k as [|y k IH]; cbn; [lia|]. destruct (decide_rel _ y k); cbn; lia. }
  cbn in Hl. destruct (decide_rel _ x l) as [Hx|Hx]; cbn in Hl.
  - specialize (Hle l). lia.
  - constructor; [done|]. apply IH. lia.
Qed.
Lemma prepared_ids w data out : cutoff_prepared w data = Ok out -> NoDup (map d_id data).
Proof. unfold cutoff_prepared. intros H. apply bind_Ok in H as (d1 & H & _). by eapply common_ids. Qed.
Lemma concat_filter {A} (P : A -> Prop) `{forall x, Decision (P x)} ls : filter P (concat ls) = concat (map (filter P) ls).
Proof. induction ls as [|l ls IH]; [done|]. cbn [concat map]. by rewrite filter_app, IH. Qed.
Lemma filter_none {A} (P : A -> Prop) `{forall x, Decision (P x)} l : Forall (fun x => ~ P x) l -> filter P l = [].
Proof. induction 1 as [|x l Hx _ IH]; [done|]. by rewrite filter_cons_False. Qed.
Lemma filter_everything {A} (P : A -> Prop) `{forall x, Decision (P x)} l : Forall P l -> filter P l = l.
Proof. induction 1 as [|x l Hx _ IH]; [done|]. by rewrite filter_cons_True, IH. Qed.
(** Datasets that come from others. *)
Lemma others_parts w (P : dataset -> Prop) `{forall x, Decision (P x)} l outss :
  Forall2 (Allocation2_proofs.allocated (w_ln w) (w_recalc w)) l outss ->
  (forall x outs, x ∈ l -> Allocation2_proofs.allocated (w_ln w) (w_recalc w) x outs -> Forall (fun a => ~ P a) (drop_rp_activity_links outs)) ->
  filter P (concat (map drop_rp_activity_links outss)) = [].
Proof.
  intros HF. induction HF as [|x outs l outss HX _ IH]; intros HP; [done|]. cbn [map concat]. rewrite filter_app, IH.
  - rewrite (filter_none P); [done|]. eapply HP; [by left|done].
  - intros y o Hy. apply HP. by right.
Qed.
Lemma other_id w (d x : dataset) outs : d_id x <> d_id d -> Allocation2_proofs.allocated (w_ln w) (w_recalc w) x outs ->
  Forall (fun a => ~ (d_id a = d_id d /\ d_name a = d_name d)) (drop_rp_activity_links outs).
Proof.
  intros Hne HA. apply allocated_from in HA. unfold drop_rp_activity_links. apply Forall_map. eapply Forall_impl; [exact HA|]. cbv beta.
  intros o [[E _] _] [E' _]. cbn [d_id set_d_exchanges] in E'. congruence.
Qed.
Lemma cutoff_whole w data out : (forall s, w_md5 w s <> ""%string) -> Forall (fun d => d_alloc d = None) data -> unmarked_data data ->
  cutoff_model w data = Ok out ->
  forall d, d ∈ data -> ~ is_market d -> local d -> ~ occurs_in marker (d_name d) -> n_products (counted d) <= 1 ->
  exists products, products ⊆+ filter is_output (d_exchanges d) /\ Forall2 (makes d) products (made_from d out) /\
    (forall i f, together (emitted i f) products (made_from d out) = emitted i f (counted d)) /\
    (forall n, ~ occurs_in marker n -> n <> "refinery gas"%string -> together (net n) products (made_from d out) = net n (counted d)).
Proof.
  intros Hmd HN HU H d Hd Hm Hl Hdn Hn. pose proof H as H0. apply cutoff_model_parts in H0 as (prepared & allocated & linked & Hp & Ha & _ & _).
  pose proof (unmarked_once _ _ _ _ HU Hp Ha) as HM. destruct (cutoff_balance _ _ _ _ _ Hmd Hp Ha HM H) as (base & Hsub0 & Hloc & HB).
  pose proof (prepared_ids _ _ _ Hp) as HD. apply prepared_ready in Hp as (first & new & -> & HR & Hnew).
  assert (Forall (fun d => d_alloc d = None) (first ++ new)) as HN2.
  { apply Forall_app. split; [|eapply Forall_impl; [exact Hnew|]; by intros x [? _]]. clear -HN HR.
    induction HR as [|x y l l' [(_ & _ & _ & _ & Hs) _] _ IH]; [constructor|]. apply Forall_cons in HN as [? ?]. constructor; [congruence|auto]. }
  apply allocated_parts in Ha as (outss & -> & HA); [|done]. apply Forall2_app_inv_l in HA as (outss1 & outss2 & HA & HA2 & ->).
  unfold unmarked_data in HU. rewrite Forall_forall in HU. specialize (HU d Hd).
  apply elem_of_list_split in Hd as (l1 & l2 & ->). rewrite map_app in HD. cbn [map] in HD.
  apply Forall2_app_inv_l in HR as (f1 & f2' & HR1 & HR2' & ->). apply Forall2_cons_inv_l in HR2' as (d2 & f2 & Hr & HR2 & ->).
  apply Forall2_app_inv_l in HA as (o1 & o2' & HO1 & HO2' & ->). apply Forall2_cons_inv_l in HO2' as (outs & o2 & Hal & HO2 & ->).
  pose proof Hr as [(S1 & S2 & S3 & S4 & S5) _].
  apply allocated_share in Hal as [products2 Hfair].
  2: { unfold is_market in *. by rewrite S2. }
  2: { by rewrite (ready_products _ _ Hr). }
  apply (fair_unlinked _ _ _ (drop_rp_activity_links outs)) in Hfair; [|apply drop_unlinked].
  set (outs' := drop_rp_activity_links outs) in *. destruct Hfair as (Hsub & Hparts & _ & Hshare).
  destruct (products_input _ _ _ Hr Hsub) as (products & Hps & Hbought).
  set (Q := fun a : dataset => d_id a = d_id d /\ d_name a = d_name d).
  assert (Forall (fun a => Q a /\ local a /\ d_type a = d_type d) outs') as HQs.
  { apply Forall_forall. intros a Hin. apply elem_of_list_lookup_1 in Hin as [i Hi]. destruct (Forall2_lookup_r _ _ _ _ _ Hparts Hi) as (p2 & _ & E & _).
    rewrite E. unfold Q, local in *. cbn [d_id d_name d_location d_type set_d_exchanges]. rewrite S1, S2, S3, S4. done. }
  assert (filter Q (concat (map drop_rp_activity_links ((o1 ++ outs :: o2) ++ outss2))) = outs') as HQ.
  { rewrite !map_app, !concat_app, !filter_app. cbn [map concat]. rewrite filter_app.
    rewrite (others_parts w Q f1 o1 HO1), (others_parts w Q f2 o2 HO2), (others_parts w Q new outss2 HA2).
    - rewrite (filter_everything Q); [cbn [app]; by rewrite !app_nil_r|]. eapply Forall_impl; [exact HQs|]. by intros a [? _].
    - intros x o Hx Hxo. rewrite Forall_forall in Hnew. destruct (Hnew x Hx) as (_ & _ & Ht & (y & Hy) & rp & E & _).
      apply allocated_share in Hxo as [ps Hfx]; [|unfold is_market; rewrite Ht; by intros [?|?]|].
      + apply (fair_unlinked _ _ _ (drop_rp_activity_links o)) in Hfx as (_ & Hpx & _); [|apply drop_unlinked].
        apply Forall_forall. intros a Hin [_ En]. apply elem_of_list_lookup_1 in Hin as [i Hi]. destruct (Forall2_lookup_r _ _ _ _ _ Hpx Hi) as (p2 & _ & Ea & _).
        rewrite Ea in En. cbn [d_name set_d_exchanges] in En. apply Hdn. rewrite <- En, Hy. apply Supply4_proofs.occurs_end.
      + unfold n_products. rewrite E, filter_cons. destruct (decide _); cbn; lia.
    - intros x o Hx Hxo. eapply other_id; [|exact Hxo]. apply elem_of_list_lookup_1 in Hx as [i Hi]. destruct (Forall2_lookup_r _ _ _ _ _ HR2 Hi) as (x0 & Hx0 & [(Ei & _) _]).
      rewrite Ei. apply NoDup_app in HD as (_ & _ & HD). apply NoDup_cons in HD as [HD _]. intros Eq. apply HD. rewrite <- Eq.
      apply elem_of_list_fmap. exists x0. split; [done|by eapply elem_of_list_lookup_2].
    - intros x o Hx Hxo. eapply other_id; [|exact Hxo]. apply elem_of_list_lookup_1 in Hx as [i Hi]. destruct (Forall2_lookup_r _ _ _ _ _ HR1 Hi) as (x0 & Hx0 & [(Ei & _) _]).
      rewrite Ei. apply NoDup_app in HD as (_ & HD & _). intros Eq. apply (HD (d_id d)); [|by left]. rewrite <- Eq.
      apply elem_of_list_fmap. exists x0. split; [done|by eapply elem_of_list_lookup_2]. }
  set (whole := concat (map drop_rp_activity_links ((o1 ++ outs :: o2) ++ outss2))) in *.
  assert (filter Q base = outs') as HQb.
  { assert (forall l : list dataset, Forall (fun a => Q a -> local a) l -> filter Q (filter local l) = filter Q l) as HF.
    { clear. induction 1 as [|a base Ha _ IH]; [done|]. rewrite (filter_cons local). destruct (decide (local a)) as [Hl|Hl].
      + rewrite !(filter_cons Q). by destruct (decide (Q a)); rewrite IH.
      + rewrite (filter_cons Q), decide_False; [exact IH|]. intros Hq. by apply Hl, Ha. }
    assert (Forall (fun a => Q a -> local a) whole) as HLw.
    { apply Forall_forall. intros a Hin Hq. assert (a ∈ outs') as Hin' by (rewrite <- HQ; by apply elem_of_list_filter).
      rewrite Forall_forall in HQs. by destruct (HQs a Hin') as (_ & ? & _). }
    rewrite <- HQ, <- (HF whole HLw), <- Hloc. symmetry. apply HF. by eapply Forall_sublist. }
  assert (Forall2 (ends out) outs' (made_from d out)) as Hpa.
  { assert (Forall2 (fun a ds => (frame ds = frame a /\ (~ is_market ds -> per_unit net_called a ds)) /\ ds ∈ out) base out) as HB'.
    { apply Forall2_same_length_lookup. split; [by eapply Forall2_length|]. intros i a ds Hi Hi'. split; [|by eapply elem_of_list_lookup_2].
      destruct (Forall2_lookup_l _ _ _ _ _ HB Hi) as (ds' & Hi2 & HX). congruence. }
    apply (filter_Forall2 Q) in HB'.
    2: { intros a ds [[Hf _] _]. unfold Q. by rewrite (frame_id _ _ Hf), (f_equal d_name Hf : d_name ds = d_name a). }
    rewrite HQb in HB'. change (filter Q out) with (made_from d out) in HB'.
    revert HB' HQs Hm. clear. generalize (made_from d out). intros parts HB'. induction HB' as [|a ds outs' parts [[Hf Hpu] Hin] _ IH]; intros HQs Hm; [constructor|].
    apply Forall_cons in HQs as [(_ & _ & Ht) HQs]. constructor; [|by apply IH]. split; [done|]. split; [done|]. apply Hpu.
    unfold is_market in *. by rewrite (frame_type _ _ Hf), Ht. }
  set (parts := made_from d out) in *. clear HQ HQb HQs. clearbody parts outs'.
  exists products. split; [done|].
  split.
  { assert (Forall (fun p => forall x, e_name p <> (x ++ marker)%string) products) as Hun.
    { apply Forall_forall. intros p Hpin x E. rewrite Forall_forall in HU. apply (HU p).
      - assert (p ∈ filter is_output (d_exchanges d)) as Hin by (by eapply elem_of_submseteq). by apply elem_of_list_filter in Hin as [_ Hin].
      - rewrite E. apply Supply4_proofs.occurs_end. }
    clear -Hbought Hparts Hpa Hun Hr. pose proof Hr as [HS _]. clear Hr. revert outs' parts Hparts Hpa. induction Hbought as [|p p2 products products2 HB _ IH]; intros outs' parts Hparts Hpa.
    - apply Forall2_nil_inv_l in Hparts as ->. by apply Forall2_nil_inv_l in Hpa as ->.
    - apply Forall2_cons_inv_l in Hparts as (a & outs2 & Ha & Hparts & ->). apply Forall2_cons_inv_l in Hpa as (ds & parts2 & Hds & Hpa & ->).
      apply Forall_cons in Hun as [Hu Hun]. constructor; [|exact (IH Hun outs2 parts2 Hparts Hpa)]. eapply makes_end; try done. destruct HB as (_ & -> & _). done. }
  assert (Forall2 (fun a ds => made a <> 0%Qc /\ exists k, k <> 0%Qc /\ made ds = (made a * k)%Qc /\ (forall i f, emitted i f ds = (emitted i f a * k)%Qc) /\
    forall n, ~ occurs_in marker n -> n <> "refinery gas"%string -> net n ds = (net_called n a * k)%Qc) outs' parts) as HQ.
  { assert (forall a, a ∈ outs' -> made a <> 0%Qc /\ Forall (fun e => elementary e -> forall x, e_name e <> (x ++ marker)%string) (d_exchanges a)) as HQ.
    { intros a Hin. apply elem_of_list_lookup_1 in Hin as [i Hi]. destruct (Forall2_lookup_r _ _ _ _ _ Hparts Hi) as (p2 & _ & _ & HE & rp & _ & _ & _ & _ & _ & Hz & ->).
      split; [done|]. eapply Forall_impl; [exact HE|]. cbv beta. intros e He Hel. destruct (He Hel) as (e0 & Hin & Hel0 & <-). by eapply ready_elementary. }
    clear -Hpa HQ. induction Hpa as [|a ds outs' parts (_ & _ & Hpu) _ IH]; [constructor|]. constructor.
    - destruct (HQ a) as [Hz He]; [by left|]. split; [done|]. by apply per_unit_ratio.
    - apply IH. intros x Hx. apply HQ. by right. }
  assert (length products2 = length outs') as Hlen by (by eapply Forall2_length).
  split.
  - intros i f. rewrite <- (ready_emitted i f _ _ Hr), emitted_total, <- (Hshare _ _ (emission_fair i f)). unfold shares.
    rewrite (together_ext (emitted i f) (emitted i f) products products2 outs' parts Hbought); [|eapply Forall2_impl; [exact HQ|]|done].
    + unfold together. f_equal. clear. revert outs'. induction products2 as [|p l IH]; intros [|a outs]; try done. cbn [zip_with]. by rewrite IH, emitted_total.
    + cbv beta. intros a ds (Hz & k & Hk & -> & He & _). split; [done|]. rewrite He. by apply ratio_same.
  - intros n Hmn Hg. rewrite <- (ready_net n _ _ Hr HU Hmn), net_called_total, <- (Hshare _ _ (product_fair _)). unfold shares.
    rewrite (together_ext (net n) (net_called n) products products2 outs' parts Hbought); [|eapply Forall2_impl; [exact HQ|]|done].
    + unfold together. f_equal. clear. revert outs'. induction products2 as [|p l IH]; intros [|a outs]; try done. cbn [zip_with]. by rewrite IH, net_called_total.
    + cbv beta. intros a ds (Hz & k & Hk & -> & _ & He). split; [done|]. rewrite He by done. by apply ratio_same.
Qed.

(** *** Every dataset of the result *)
Lemma cutoff_shared w data out : (forall s, w_md5 w s <> ""%string) -> Forall (fun d => d_alloc d = None) data -> unmarked_data data ->
  cutoff_model w data = Ok out ->
  forall ds, ds ∈ out -> ~ is_market ds -> exists d, d ∈ data /\ d_id ds = d_id d /\
    (n_products (counted d) <= 1 -> exists k, forall i f, emitted i f ds = (k * emitted i f (counted d))%Qc).
Proof.
  intros Hmd HN HU H ds Hds Hm. pose proof H as H0. apply cutoff_model_parts in H0 as (prepared & allocated & linked & Hp & Ha & _ & _).
  pose proof (unmarked_once _ _ _ _ HU Hp Ha) as HM. destruct (cutoff_balance _ _ _ _ _ Hmd Hp Ha HM H) as (base & Hsub & _ & HB).
  apply prepared_ready in Hp as (first & new & -> & HR & Hnew).
  assert (Forall (fun d => d_alloc d = None) (first ++ new)) as HN2.
  { apply Forall_app. split; [|eapply Forall_impl; [exact Hnew|]; by intros x [? _]]. clear -HN HR.
    induction HR as [|x y l l' [(_ & _ & _ & _ & Hs) _] _ IH]; [constructor|]. apply Forall_cons in HN as [? ?]. constructor; [congruence|auto]. }
  apply allocated_parts in Ha as (outss & -> & HA); [|done].
  apply elem_of_list_lookup_1 in Hds as [j Hj]. destruct (Forall2_lookup_r _ _ _ _ _ HB Hj) as (a & Hja & Hf & Hpu). specialize (Hpu Hm).
  assert (a ∈ concat (map drop_rp_activity_links outss)) as Hin.
  { eapply elem_of_submseteq; [by eapply elem_of_list_lookup_2|by apply sublist_submseteq]. }
  apply elem_of_list_In, in_concat in Hin as (outs' & Hin' & Hin). apply elem_of_list_In in Hin, Hin'. apply elem_of_list_fmap in Hin' as (outs & -> & Hin').
  apply elem_of_list_lookup_1 in Hin' as [b Hb]. destruct (Forall2_lookup_r _ _ _ _ _ HA Hb) as (d2 & Hd2 & Hal).
  assert (~ is_market d2) as Hm2.
  { pose proof (allocated_from _ _ _ Hal) as HF. unfold is_market in *. rewrite (frame_type _ _ Hf) in Hm.
    apply elem_of_list_fmap in Hin as (o & -> & Ho). cbn [d_type set_d_exchanges] in Hm. rewrite Forall_forall in HF. destruct (HF o Ho) as [[_ E] _]. by rewrite <- E. }
  assert (d_id a = d_id d2) as Hid.
  { pose proof (allocated_from _ _ _ Hal) as HF. apply elem_of_list_fmap in Hin as (o & -> & Ho). cbn [d_id set_d_exchanges]. rewrite Forall_forall in HF.
    by destruct (HF o Ho) as [[E _] _]. }
  apply elem_of_list_lookup_2 in Hd2. apply elem_of_app in Hd2 as [Hd2|Hd2].
  - apply elem_of_list_lookup_1 in Hd2 as [i Hi]. destruct (Forall2_lookup_r _ _ _ _ _ HR Hi) as (d & Hd & Hr). apply elem_of_list_lookup_2 in Hd. exists d. split; [done|].
    pose proof Hr as [(S1 & _) _]. split; [rewrite (frame_id _ _ Hf); congruence|]. intros Hn.
    apply allocated_share in Hal as [products Hfair]; [|done|by rewrite (ready_products _ _ Hr)].
    apply (fair_unlinked _ _ _ (drop_rp_activity_links outs)) in Hfair; [|apply drop_unlinked]. destruct Hfair as (_ & Hparts & Hem & _).
    rewrite Forall_forall in Hem. destruct (Hem a Hin) as [k Hk].
    unfold unmarked_data in HU. rewrite Forall_forall in HU. specialize (HU d Hd).
    apply elem_of_list_lookup_1 in Hin as [c Hc]. destruct (Forall2_lookup_r _ _ _ _ _ Hparts Hc) as (p2 & _ & _ & HE & _).
    apply per_unit_ratio in Hpu as (k' & _ & _ & He & _).
    2: { eapply Forall_impl; [exact HE|]. cbv beta. intros e H1 Hel. destruct (H1 Hel) as (e0 & Hin0 & Hel0 & <-). by eapply ready_elementary. }
    exists (k * k')%Qc. intros i' f. rewrite He, <- (ready_emitted i' f _ _ Hr), !emitted_total, (Hk _ (emission_fair i' f)). ring.
  - rewrite Forall_forall in Hnew. destruct (Hnew d2 Hd2) as (_ & (d & Hd & Ei) & _ & _ & rp & E & Hrp). exists d. split; [done|].
    split; [rewrite (frame_id _ _ Hf); congruence|]. intros _. exists 0%Qc. intros i f.
    apply allocated_share in Hal as [products Hfair]; [|done|].
    2: { unfold n_products. rewrite E, filter_cons. destruct (decide _); cbn; lia. }
    apply (fair_unlinked _ _ _ (drop_rp_activity_links outs)) in Hfair; [|apply drop_unlinked]. destruct Hfair as (_ & Hparts & Hem & _).
    rewrite Forall_forall in Hem. destruct (Hem a Hin) as [k Hk].
    apply elem_of_list_lookup_1 in Hin as [c Hc]. destruct (Forall2_lookup_r _ _ _ _ _ Hparts Hc) as (p2 & _ & _ & HE & _).
    apply per_unit_ratio in Hpu as (k' & _ & _ & He & _).
    2: { eapply Forall_impl; [exact HE|]. cbv beta. intros e H1 Hel. destruct (H1 Hel) as (e0 & Hin0 & Hel0 & _). rewrite E in Hin0.
      apply elem_of_list_singleton in Hin0 as ->. unfold is_refproduct in Hrp. destruct Hel0; congruence. }
    rewrite He, emitted_total, (Hk _ (emission_fair i f)), <- emitted_total. unfold emitted. rewrite E, filter_cons, decide_False, filter_nil.
    + unfold Qcsum. cbn. ring.
    + intros [[Ht|Ht] _]; unfold is_refproduct in Hrp; congruence.
Qed.
