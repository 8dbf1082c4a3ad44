(** Proofs for C84: allocation shares out everything. *)
From stdpp Require Import gmap.
From Verif Require Import Base Types Uncertainty Spec_Uncertainty Uncertainty_proofs Utils Spec_Utils Utils_proofs
  Cutoff Spec_Cutoff Cutoff_proofs Spec_Allocation Allocation_proofs Allocation2_proofs Spec_Consequential Spec_Waste Spec_Balance Spec_Pipeline Spec_Whole.

(** What is counted of an exchange, per amount. *)
Definition key (e : exchange) : etype * option string * string * option string * option string :=
  (e_type e, e_id e, e_name e, e_compartment e, e_subcompartment e).
Definition weight := (etype * option string * string * option string * option string -> Qc)%type.
Definition worth_of (c : weight) (e : exchange) : Qc := (c (key e) * e_amount e)%Qc.
Definition total_of (c : weight) (es : list exchange) : Qc := Qcsum (map (worth_of c) es).
(** Outputs are counted by id and name, and inputs as negative outputs. *)
Definition fair (o : option string -> string -> Qc) (c : weight) : Prop :=
  forall i n x y, c (RefProduct, i, n, x, y) = o i n /\ c (Byproduct, i, n, x, y) = o i n /\ c (FromTechnosphere, i, n, x, y) = (- o i n)%Qc.

Lemma total_nil c : total_of c [] = 0%Qc.
Proof. done. Qed.
Lemma total_cons c e es : total_of c (e :: es) = (worth_of c e + total_of c es)%Qc.
Proof. done. Qed.
Lemma total_app c es es' : total_of c (es ++ es') = (total_of c es + total_of c es')%Qc.
Proof. unfold total_of. by rewrite map_app, Qcsum_app. Qed.
Lemma total_parts c (P : exchange -> Prop) `{forall e, Decision (P e)} es :
  total_of c es = (total_of c (filter P es) + total_of c (filter (fun e => ~ P e) es))%Qc.
Proof.
  induction es as [|e es IH]; [rewrite !filter_nil, total_nil; ring|]. rewrite total_cons, !filter_cons, IH.
  destruct (decide (P e)), (decide (~ P e)); try tauto; rewrite ?total_cons; ring.
Qed.
Lemma key_same e e' : same_besides_amount_uncertainty e e' -> key e' = key e.
Proof.
  unfold same_besides_amount_uncertainty. intros (H1 & H2 & _ & H4 & _ & _ & _ & _ & _ & _ & _ & _ & _ & _ & _ & _ & _ & H5 & H6 & _).
  unfold key. by rewrite H1, H2, H4, H5, H6.
Qed.
Lemma total_scaled c k es es' : Forall2 (scaled_by k) es es' -> total_of c es' = (total_of c es * k)%Qc.
Proof.
  induction 1 as [|e e' es es' [Ha Hs] _ IH]; [rewrite total_nil; ring|]. rewrite !total_cons, IH.
  unfold worth_of. rewrite Ha, (key_same e e' Hs). ring.
Qed.
Lemma total_dropped c es es' : Forall2 dropped_from es es' -> total_of c es' = 0%Qc.
Proof.
  induction 1 as [|e e' es es' (_ & Ha & _) _ IH]; [done|]. rewrite total_cons, IH. unfold worth_of. rewrite Ha. ring.
Qed.
Lemma worth_output o c e : fair o c -> alloc_output e -> worth_of c e = (o (e_id e) (e_name e) * e_amount e)%Qc.
Proof.
  intros Hc He. unfold worth_of, key. destruct (Hc (e_id e) (e_name e) (e_compartment e) (e_subcompartment e)) as (H1 & H2 & _).
  destruct He as [He|[He _]]; [unfold is_refproduct in He|]; rewrite He; by rewrite ?H1, ?H2.
Qed.
Lemma worth_made o c k p rp : fair o c -> alloc_output p -> made_reference k p rp -> worth_of c rp = (worth_of c p * k)%Qc.
Proof.
  intros Hc Hp (Ht & Ha & _ & _ & Hi & Hn & _). rewrite (worth_output o c p Hc Hp). rewrite (worth_output o c rp Hc); [|by left].
  rewrite Ha, Hi, Hn. ring.
Qed.
Lemma total_turned o c es es' : fair o c -> Forall2 turned_into_input es es' -> total_of c es' = total_of c es.
Proof.
  intros Hc. induction 1 as [|e e' es es' H _ IH]; [done|]. rewrite !total_cons, IH. f_equal.
  destruct H as [[_ ->]|[He [Ha Hs]]]; [done|]. rewrite (worth_output o c e Hc); [|by left]. unfold worth_of. rewrite (key_same _ _ Hs), Ha.
  unfold key. cbn. destruct (Hc (e_id e) (e_name e) (e_compartment e) (e_subcompartment e)) as (_ & _ & ->). ring.
Qed.
Lemma normalising_nonzero a k : normalising_factor a k -> (a * k <> 0)%Qc.
Proof.
  intros [Hk [[->| ->]|[-> H]]]; [done|done|]. intros E. assert (a = 0%Qc) as -> by (rewrite <- E; ring). revert H. by vm_compute.
Qed.

(** *** One part *)
Definition elementary_from (d d' : dataset) : Prop :=
  Forall (fun e' => elementary e' -> exists e, e ∈ d_exchanges d /\ elementary e /\ e_name e = e_name e') (d_exchanges d').
Lemma elementary_self d : elementary_from d d.
Proof. apply Forall_forall. intros e He Hel. by exists e. Qed.
Definition makes_part (ds : dataset) (p : exchange) (out : dataset) : Prop :=
  out = set_d_exchanges (d_exchanges out) ds /\ elementary_from ds out /\ exists rp, rp ∈ d_exchanges out /\ is_refproduct rp /\
    e_id rp = e_id p /\ e_name rp = e_name p /\ e_unit rp = e_unit p /\ e_amount rp <> 0%Qc /\ made out = e_amount rp.

Lemma alloc_elementary e : elementary e -> ~ alloc_output e.
Proof. intros [He|He] [Hr|[Hr _]]; unfold is_refproduct in *; congruence. Qed.
Lemma scaled_elementary k es es' : Forall2 (scaled_by k) es es' ->
  Forall (fun e' => elementary e' -> exists e, e ∈ es /\ elementary e /\ e_name e = e_name e') es'.
Proof.
  induction 1 as [|e e' es es' [_ Hs] _ IH]; [constructor|]. pose proof (key_same _ _ Hs) as Hk. unfold key in Hk. injection Hk as Ht _ Hn _ _. constructor.
  - intros Hel. exists e. split; [by left|]. split; [|done]. unfold elementary in *. by rewrite <- Ht.
  - eapply Forall_impl; [exact IH|]. cbv beta. intros x Hx Hel. destruct (Hx Hel) as (y & Hy & H). exists y. split; [by right|done].
Qed.
Lemma single_made ds p f out : single_output_of ds p f out ->
  exists k, normalising_factor (e_amount p) k /\ made out = (e_amount p * k)%Qc /\ makes_part ds p out /\
    forall o c, fair o c -> alloc_output p ->
    total_of c (d_exchanges out) = (worth_of c p * k + total_of c (filter (fun e => ~ alloc_output e) (d_exchanges ds)) * (f * k))%Qc.
Proof.
  intros (k & rp' & dropped & others & Hk & Eo & Hrp & Hd & Ho & Hal). exists k. split; [done|].
  assert (made out = e_amount rp') as Hm.
  { unfold made. assert (filter is_refproduct (d_exchanges out) = filter is_refproduct (filter alloc_output (d_exchanges out))) as ->.
    { symmetry. apply filter_filter_imp. by left. }
    rewrite Hal. destruct Hrp as (Ht & _). rewrite filter_cons_True by done. unfold Qcsum. cbn. ring. }
  pose proof Hrp as (Ht & Ha & _ & _ & Hi & Hn & Hu & _). split; [by rewrite Hm|]. split.
  - split; [by rewrite Eo; destruct ds|]. split.
    + unfold elementary_from. rewrite Eo. cbn [d_exchanges set_d_exchanges]. constructor; [intros [E|E]; congruence|]. apply Forall_app. split.
      * apply Forall_forall. intros e' He'. apply elem_of_list_lookup_1 in He' as [j Hj].
        destruct (Forall2_lookup_r _ _ _ _ _ Hd Hj) as (e0 & _ & Hdt & _). intros [E|E]; congruence.
      * eapply Forall_impl; [exact (scaled_elementary _ _ _ Ho)|]. cbv beta. intros x Hx Hel. destruct (Hx Hel) as (y & Hy & H).
        exists y. split; [by apply elem_of_list_filter in Hy as [_ Hy]|done].
    + exists rp'. split; [rewrite Eo; by left|]. split; [done|]. split; [done|]. split; [done|]. split; [done|]. split; [|done].
      rewrite Ha. by apply normalising_nonzero.
  - intros o c Hc Hp. rewrite Eo. cbn [d_exchanges set_d_exchanges]. rewrite total_cons, total_app.
    rewrite (total_dropped c _ _ Hd), (total_scaled c _ _ _ Ho), (worth_made o c k p rp' Hc Hp Hrp). ring.
Qed.
Lemma single_share ds p f out o c : single_output_of ds p f out -> fair o c -> alloc_output p ->
  (total_of c (d_exchanges out) / made out * e_amount p
   = worth_of c p + total_of c (filter (fun e => ~ alloc_output e) (d_exchanges ds)) * f)%Qc.
Proof.
  intros H Hc Hp. apply single_made in H as (k & Hk & -> & _ & H). rewrite (H o c Hc Hp). apply normalising_nonzero in Hk.
  field. split; intros E; rewrite E in Hk; apply Hk; ring.
Qed.
Lemma free_made ds p out : free_supply ds p out -> exists k, normalising_factor (e_amount p) k /\ made out = (e_amount p * k)%Qc /\
  makes_part ds p out /\ forall o c, fair o c -> alloc_output p -> total_of c (d_exchanges out) = (worth_of c p * k)%Qc.
Proof.
  intros (k & rp' & Hk & Hrp & Eo). exists k. split; [done|]. pose proof Hrp as (Ht & Ha & _ & _ & Hi & Hn & Hu & _).
  assert (made out = e_amount rp') as Hm.
  { unfold made. rewrite Eo. cbn [d_exchanges set_d_exchanges]. rewrite filter_cons_True by done. unfold Qcsum. cbn. ring. }
  split; [by rewrite Hm|]. split.
  - split; [by rewrite Eo|]. split; [rewrite Eo; constructor; [intros [E|E]; congruence|constructor]|].
    exists rp'. split; [rewrite Eo; by left|]. split; [done|]. split; [done|]. split; [done|]. split; [done|]. split; [|done].
    rewrite Ha. by apply normalising_nonzero.
  - intros o c Hc Hp. rewrite Eo. cbn [d_exchanges set_d_exchanges]. rewrite total_cons, total_nil, (worth_made o c k p rp' Hc Hp Hrp). ring.
Qed.

Lemma filter_sublist {A} (P : A -> Prop) `{forall x, Decision (P x)} (l : list A) : sublist (filter P l) l.
Proof. induction l as [|x l IH]; [done|]. rewrite filter_cons. destruct (decide (P x)); by constructor. Qed.

(** *** All parts *)
Definition shares (c : weight) (products : list exchange) (outs : list dataset) : Qc :=
  together (fun ds => total_of c (d_exchanges ds)) products outs.
Lemma shares_economic ds prods fs outs o c : fair o c -> Forall alloc_output prods ->
  Forall3 (fun p f out => single_output_of ds p f out) prods fs outs ->
  shares c prods outs = (total_of c prods + total_of c (filter (fun e => ~ alloc_output e) (d_exchanges ds)) * Qcsum fs)%Qc.
Proof.
  intros Hc HP. unfold shares, together. induction 1 as [|p f out prods fs outs H _ IH]; [rewrite total_nil; unfold Qcsum; cbn; ring|].
  apply Forall_cons in HP as [Hp HP]. specialize (IH HP). cbn [zip_with].
  change (Qcsum (?x :: ?l)) with (x + Qcsum l)%Qc. rewrite total_cons, IH, (single_share _ _ _ _ o c H Hc Hp).
  ring.
Qed.
Lemma shares_free ds prods outs o c : fair o c -> Forall alloc_output prods ->
  Forall2 (free_supply ds) prods outs -> shares c prods outs = total_of c prods.
Proof.
  intros Hc HP. unfold shares, together. induction 1 as [|p out prods outs H _ IH]; [done|].
  apply Forall_cons in HP as [Hp HP]. specialize (IH HP). cbn [zip_with].
  change (Qcsum (?x :: ?l)) with (x + Qcsum l)%Qc. rewrite total_cons, IH. f_equal.
  apply free_made in H as (k & Hk & -> & _ & H). rewrite (H o c Hc Hp). apply normalising_nonzero in Hk.
  field. split; intros E; rewrite E in Hk; apply Hk; ring.
Qed.

(** Elementary flows of [d'] are those of [d] times one factor. *)
Definition emits_share (d d' : dataset) : Prop :=
  exists k, forall c, fair (fun _ _ => 0%Qc) c -> total_of c (d_exchanges d') = (k * total_of c (d_exchanges d))%Qc.
Lemma nothing_made c es : fair (fun _ _ => 0%Qc) c -> Forall alloc_output es -> total_of c es = 0%Qc.
Proof.
  intros Hc. induction 1 as [|e es He _ IH]; [done|]. rewrite total_cons, IH, (worth_output _ c e Hc He). ring.
Qed.
Lemma filter_Forall {A} (P : A -> Prop) `{forall x, Decision (P x)} l : Forall P (filter P l).
Proof. apply Forall_forall. intros x Hx. by apply elem_of_list_filter in Hx as [Hx _]. Qed.
Lemma single_emits ds p f out : single_output_of ds p f out -> alloc_output p -> emits_share ds out.
Proof.
  intros H Hp. apply single_made in H as (k & _ & _ & _ & H). exists (f * k)%Qc. intros c Hc. rewrite (H _ c Hc Hp).
  rewrite (worth_output _ c p Hc Hp). rewrite (total_parts c alloc_output (d_exchanges ds)).
  rewrite (nothing_made c (filter alloc_output _) Hc) by apply filter_Forall. ring.
Qed.

Definition allocated_fairly (ds : dataset) (products : list exchange) (outs : list dataset) : Prop :=
  products ⊆+ filter alloc_output (d_exchanges ds) /\ Forall2 (makes_part ds) products outs /\ Forall (emits_share ds) outs /\
  forall o c, fair o c -> shares c products outs = total_of c (d_exchanges ds).

Lemma economic_fair ln ds outs : economic_allocation ln ds = Ok outs ->
  allocated_fairly ds (filter alloc_output (d_exchanges ds)) outs.
Proof.
  intros H. apply economic_allocation_spec in H as (_ & _ & _ & fs & Hs & H).
  pose proof (filter_Forall alloc_output (d_exchanges ds)) as HA.
  assert (Forall3 (fun p f out => single_output_of ds p f out) (filter alloc_output (d_exchanges ds)) fs outs) as HF.
  { eapply Forall3_impl; [exact H|]. by intros x y z [_ ?]. }
  clear H. split; [done|]. split.
  { clear -HF. induction HF as [|p f out prods fs outs H _ IH]; constructor; [|done]. by apply single_made in H as (k & _ & _ & H & _). }
  split.
  { clear -HF HA. induction HF as [|p f out prods fs outs H _ IH]; [constructor|]. apply Forall_cons in HA as [Hp HA]. constructor; [by eapply single_emits|auto]. }
  intros o c Hc. rewrite (shares_economic _ _ _ _ o c Hc HA HF), Hs. rewrite (total_parts c alloc_output (d_exchanges ds)). ring.
Qed.
Lemma makes_turned es ds p out : (forall e, e ∈ es -> elementary e -> exists e0, e0 ∈ d_exchanges ds /\ elementary e0 /\ e_name e0 = e_name e) ->
  makes_part (set_d_exchanges es ds) p out -> makes_part ds p out.
Proof.
  intros He (E & HE & H). split; [by rewrite E|]. split; [|done]. eapply Forall_impl; [exact HE|]. cbv beta. intros e' H' Hel.
  destruct (H' Hel) as (e & Hin & Hel2 & En). destruct (He e Hin Hel2) as (e0 & Hin0 & Hel0 & En0). exists e0. split; [done|]. split; [done|]. congruence.
Qed.
Lemma recycling_fair ln ds outs : recycling_allocation ln ds = Ok outs ->
  allocated_fairly ds (filter alloc_byproduct (d_exchanges ds)) outs.
Proof.
  intros H. apply recycling_outputs in H as (rp & es & _ & _ & HT & Hal & fs & Hs & H).
  pose proof (filter_Forall alloc_byproduct (d_exchanges ds)) as HA0.
  assert (Forall alloc_output (filter alloc_byproduct (d_exchanges ds))) as HA by (eapply Forall_impl; [exact HA0|]; intros; by right).
  assert (Forall3 (fun p f out => single_output_of (set_d_exchanges es ds) p f out) (filter alloc_byproduct (d_exchanges ds)) fs outs) as HF.
  { eapply Forall3_impl; [exact H|]. by intros x y z [_ ?]. }
  clear H HA0. split.
  { assert (filter alloc_byproduct (d_exchanges ds) = filter alloc_byproduct (filter alloc_output (d_exchanges ds))) as ->.
    { symmetry. apply filter_filter_imp. intros. by right. }
    apply sublist_submseteq, filter_sublist. }
  assert (forall e, e ∈ es -> elementary e -> exists e0, e0 ∈ d_exchanges ds /\ elementary e0 /\ e_name e0 = e_name e) as He.
  { intros e He Hel. apply elem_of_list_lookup_1 in He as [j Hj]. destruct (Forall2_lookup_r _ _ _ _ _ HT Hj) as (e0 & Hj0 & [[_ ->]|[_ [_ Hs0]]]).
    - exists e0. split; [by eapply elem_of_list_lookup_2|done].
    - apply key_same in Hs0. unfold key in Hs0. cbn in Hs0. injection Hs0 as Ht _ _ _ _. destruct Hel; congruence. }
  split.
  { clear -HF He. induction HF as [|p f out prods fs outs H _ IH]; constructor; [|done]. apply single_made in H as (k & _ & _ & H & _).
    by eapply makes_turned. }
  split.
  { clear -HF HA HT. induction HF as [|p f out prods fs outs H _ IH]; [constructor|]. apply Forall_cons in HA as [Hp HA]. constructor; [|auto].
    apply single_emits in H as [k H]; [|done]. exists k. intros c Hc. rewrite (H c Hc). cbn [d_exchanges set_d_exchanges].
    by rewrite (total_turned _ c _ _ Hc HT). }
  intros o c Hc. rewrite (shares_economic _ _ _ _ o c Hc HA HF), Hs. cbn [d_exchanges set_d_exchanges].
  rewrite <- (total_turned o c _ _ Hc HT). rewrite (total_parts c alloc_output es), Hal. ring.
Qed.
Lemma waste_fair ln ds outs : waste_treatment_allocation ln ds = Ok outs ->
  exists rp, allocated_fairly ds (rp :: filter alloc_byproduct (d_exchanges ds)) outs.
Proof.
  intros H. apply waste_treatment_spec in H as (rp & treatment & free & -> & Hrp & _ & _ & _ & HS & HF).
  exists rp. pose proof (filter_Forall alloc_byproduct (d_exchanges ds)) as HA0.
  assert (Forall alloc_output (filter alloc_byproduct (d_exchanges ds))) as HA by (eapply Forall_impl; [exact HA0|]; intros; by right).
  assert (alloc_output rp) as Hp.
  { assert (rp ∈ filter is_refproduct (d_exchanges ds)) as Hin by (rewrite Hrp; by left). apply elem_of_list_filter in Hin as [Hin _]. by left. }
  assert (filter alloc_output (d_exchanges ds) ≡ₚ rp :: filter alloc_byproduct (d_exchanges ds)) as HP.
  { change (rp :: filter alloc_byproduct (d_exchanges ds)) with ([rp] ++ filter alloc_byproduct (d_exchanges ds)). rewrite <- Hrp. clear.
    induction (d_exchanges ds) as [|e es IH]; [done|]. rewrite !filter_cons. unfold alloc_output at 1.
    destruct (decide (is_refproduct e)) as [Hr|Hr], (decide (alloc_byproduct e)) as [Hb|Hb].
    - destruct Hb as [Hb _]. unfold is_refproduct in Hr. congruence.
    - rewrite decide_True by (by left). cbn [app]. by rewrite IH.
    - rewrite decide_True by (by right). rewrite IH. apply Permutation_middle.
    - rewrite decide_False by (intros [?|?]; done). exact IH. }
  split; [by apply Permutation_submseteq|]. split.
  { constructor; [by apply single_made in HS as (k & _ & _ & HS & _)|]. eapply Forall2_impl; [exact HF|]. cbv beta. intros p out H.
    by apply free_made in H as (k & _ & _ & H & _). }
  split.
  { constructor; [by eapply single_emits|]. clear -HF HA. induction HF as [|p out prods outs H _ IH]; [constructor|].
    apply Forall_cons in HA as [Hp HA]. constructor; [|auto]. apply free_made in H as (k & _ & _ & _ & H). exists 0%Qc. intros c Hc.
    rewrite (H _ c Hc Hp), (worth_output _ c p Hc Hp). ring. }
  intros o c Hc. unfold shares, together. cbn [zip_with]. change (Qcsum (?x :: ?l)) with (x + Qcsum l)%Qc.
  change (Qcsum (zip_with _ (filter alloc_byproduct (d_exchanges ds)) free)) with (shares c (filter alloc_byproduct (d_exchanges ds)) free).
  rewrite (shares_free ds _ _ o c Hc HA HF), (single_share _ _ _ _ o c HS Hc Hp).
  rewrite (total_parts c alloc_output (d_exchanges ds)).
  assert (total_of c (filter alloc_output (d_exchanges ds)) = total_of c (rp :: filter alloc_byproduct (d_exchanges ds))) as ->.
  { unfold total_of. apply Qcsum_perm. by rewrite HP. }
  rewrite total_cons. ring.
Qed.
Lemma same_fair ds : n_products ds = 1 -> exists rp, allocated_fairly ds [rp] [ds].
Proof.
  unfold n_products. intros Hn. destruct (filter produces (d_exchanges ds)) as [|rp [|]] eqn:E; try done. exists rp.
  assert (rp ∈ filter produces (d_exchanges ds)) as Hin by (rewrite E; by left).
  apply elem_of_list_filter in Hin as [[Hr Ha] Hin].
  assert (made ds = e_amount rp) as Hm.
  { unfold made. clear -E. assert (forall es, Qcsum (map e_amount (filter is_refproduct es)) = Qcsum (map e_amount (filter produces es))) as H.
    { induction es as [|e es IH]; [done|]. rewrite !filter_cons.
      destruct (decide (is_refproduct e)) as [Hr|Hr], (decide (produces e)) as [Hp|Hp]; cbn [map]; try change (Qcsum (?x :: ?l)) with (x + Qcsum l)%Qc; rewrite ?IH; try done.
      - assert (e_amount e = 0%Qc) as ->; [|ring]. destruct (decide (e_amount e = 0%Qc)) as [?|Hz]; [done|]. destruct Hp. done.
      - destruct Hp. done. }
    rewrite H, E. unfold Qcsum. cbn. ring. }
  split; [|split; [|split]].
  - assert (filter produces (filter alloc_output (d_exchanges ds)) = filter produces (d_exchanges ds)) as Hf.
    { apply filter_filter_imp. intros e [He _]. by left. }
    rewrite <- E, <- Hf. apply sublist_submseteq, filter_sublist.
  - constructor; [|constructor]. split; [by destruct ds|]. split; [apply elementary_self|]. exists rp. done.
  - constructor; [|constructor]. exists 1%Qc. intros c _. ring.
  - intros o c _. unfold shares, together. cbn [zip_with]. unfold Qcsum. cbn [foldr]. rewrite Hm. field. done.
Qed.

(** *** The chosen method *)
Lemma allocated_share ln recalc ds outs : allocated ln recalc ds outs -> ~ is_market ds -> n_products ds <= 1 ->
  exists products, allocated_fairly ds products outs.
Proof.
  intros (l & Hl & H) Hm Hn. apply choose_method in Hl. unfold is_market in Hm.
  assert (forall f, (l, f) ∈ allocation_functions ln recalc -> forall g, (l, g) ∈ allocation_functions ln recalc -> f = g) as Hu.
  { intros f Hf g Hg. pose proof (functions_nodup ln recalc) as HN. clear -Hf Hg HN.
    induction (allocation_functions ln recalc) as [|[l' h] fs IH]; [by apply elem_of_nil in Hf|]. cbn [map fst] in HN. apply NoDup_cons in HN as [HN1 HN2].
    apply elem_of_cons in Hf as [Hf|Hf], Hg as [Hg|Hg].
    - congruence.
    - injection Hf as -> ->. destruct HN1. apply elem_of_list_fmap. by exists (l', g).
    - injection Hg as -> ->. destruct HN1. apply elem_of_list_fmap. by exists (l', f).
    - by apply IH. }
  destruct Hl as [Hn1 _|_ Ht|_ Ht|_ Ht|_ _ Hn2 _|_ _ Hn2 _|_ _ Hn2 _|_ _ Hn2 _|_ _ _ _|_ _ _ _|_ _ _ _ _];
    try (exfalso; apply Hm; tauto); try lia.
  - destruct H as [[_ ->]|(f & Hin & _)].
    + destruct (same_fair ds Hn1) as [rp Hrp]. by exists [rp].
    + exfalso. revert Hin. unfold allocation_functions. rewrite !elem_of_cons, elem_of_nil. intuition congruence.
  - destruct H as [[? _]|(f & Hin & H)]; [done|].
    rewrite (Hu f Hin (waste_treatment_allocation ln)) in H by (unfold allocation_functions; rewrite !elem_of_cons; tauto).
    destruct (waste_fair _ _ _ H) as [rp Hrp]. eexists. exact Hrp.
  - destruct H as [[? _]|(f & Hin & H)]; [done|].
    rewrite (Hu f Hin (recycling_allocation ln)) in H by (unfold allocation_functions; rewrite !elem_of_cons; tauto).
    eexists. by eapply recycling_fair.
  - destruct H as [[? _]|(f & Hin & H)]; [done|].
    rewrite (Hu f Hin (economic_allocation ln)) in H by (unfold allocation_functions; rewrite !elem_of_cons; tauto).
    eexists. by eapply economic_fair.
Qed.
