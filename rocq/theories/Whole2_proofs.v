(** Proofs for C85: what becomes of the flows of the input of the consequential model. *)
From stdpp Require Import gmap.
From Verif Require Import Base Strings Types Uncertainty Spec_Uncertainty Uncertainty_proofs Utils Spec_Utils Utils_proofs Grouping
  Validation Cutoff Spec_Cutoff Cutoff_proofs Spec_Allocation Allocation_proofs Allocation2_proofs Recalculation Formulas Parameters Consequential Spec_Consequential Consequential_proofs Constrained_proofs
  Combined_proofs Locations Spec_Waste Spec_Consumers Spec_Untouched Untouched_proofs Pipeline Spec_Pipeline Pipeline_proofs Spec_Balance Balance_proofs
  Marks_proofs Spec_Whole Kept_proofs Shares_proofs Whole_proofs.

(** [d'] is [d] as far as is counted here. *)
Definition alike (d d' : dataset) : Prop :=
  d_id d' = d_id d /\ d_type d' = d_type d /\ d_name d' = d_name d /\ d_location d' = d_location d.
Definition equal_flows (d d' : dataset) : Prop :=
  (forall i f, emitted i f d' = emitted i f d) /\ forall n, net n d' = net n d.
Definition orderly (ds : dataset) : Prop := Forall (fun e => conditional e -> e_type e = Byproduct) (d_exchanges ds).

Lemma alike_refl d : alike d d.
Proof. done. Qed.
Lemma alike_trans d1 d2 d3 : alike d1 d2 -> alike d2 d3 -> alike d1 d3.
Proof. unfold alike. intros (A1 & A2 & A3 & A4) (B1 & B2 & B3 & B4). repeat split; congruence. Qed.
Lemma flows_refl d : equal_flows d d.
Proof. done. Qed.
Lemma flows_trans d1 d2 d3 : equal_flows d1 d2 -> equal_flows d2 d3 -> equal_flows d1 d3.
Proof. intros [A1 A2] [B1 B2]. split; intros; [by rewrite B1, A1|by rewrite B2, A2]. Qed.

Lemma same_fields e e' : same e e' -> key e' = key e /\ e_amount e' = e_amount e /\ e_type e' = e_type e /\ e_cond e' = e_cond e.
Proof. intros [H _]. unfold core in H. injection H as C1 C2 C3 C4 C5 C6 C7 C8 C9. unfold key. by rewrite C1, C2, C3, C5, C7, C8, C9. Qed.
Lemma same_total c es es' : Forall2 same es es' -> total_of c es' = total_of c es.
Proof.
  induction 1 as [|e e' es es' H _ IH]; [done|]. apply same_fields in H as (H1 & H2 & _). rewrite !total_cons, IH. unfold worth_of. by rewrite H1, H2.
Qed.
Lemma totals_flows d d' : (forall c, total_of c (d_exchanges d') = total_of c (d_exchanges d)) -> equal_flows d d'.
Proof. intros H. split; intros; [by rewrite !emitted_total, H|by rewrite !net_total, H]. Qed.
Lemma same_orderly d d' : Forall2 same (d_exchanges d) (d_exchanges d') -> orderly d -> orderly d'.
Proof.
  unfold orderly. induction 1 as [|e e' es es' H _ IH]; intros HO; [constructor|]. apply Forall_cons in HO as [H1 HO].
  apply same_fields in H as (_ & _ & Ht & Hc). constructor; [|by apply IH]. unfold conditional. by rewrite Ht, Hc.
Qed.
Definition references (d : dataset) : nat := length (filter is_refproduct (d_exchanges d)).
Lemma same_references d d' : Forall2 same (d_exchanges d) (d_exchanges d') -> references d' = references d.
Proof.
  intros H. unfold references. symmetry. eapply Forall2_length. apply (filter_Forall2 is_refproduct); [|exact H].
  intros e e' He. apply same_fields in He as (_ & _ & Ht & _). unfold is_refproduct. by rewrite Ht.
Qed.
(** Everything that is preserved at first. *)
Definition as_before (d d' : dataset) : Prop :=
  alike d d' /\ equal_flows d d' /\ (orderly d -> orderly d') /\ references d' <= references d.
Lemma before_trans d1 d2 d3 : as_before d1 d2 -> as_before d2 d3 -> as_before d1 d3.
Proof.
  intros (A1 & A2 & A3 & A4) (B1 & B2 & B3 & B4). split; [by eapply alike_trans|]. split; [by eapply flows_trans|]. split; [auto|lia].
Qed.
Lemma kept_before d d' : kept d d' -> as_before d d'.
Proof.
  intros [(S1 & S2 & S3 & S4 & _) H]. split; [done|]. split; [apply totals_flows; intros c; by apply same_total|].
  split; [by apply same_orderly|]. by rewrite (same_references _ _ H).
Qed.
Lemma worthwhile_total c name es : total_of c (filter (worthwhile name) es) = total_of c es.
Proof.
  induction es as [|e es IH]; [done|]. rewrite filter_cons. destruct (decide (worthwhile name e)) as [Hw|Hw]; rewrite !total_cons, IH; [done|].
  unfold worth_of. assert (e_amount e = 0%Qc) as ->; [|ring]. destruct (decide (e_amount e = 0%Qc)) as [?|Hz]; [done|]. exfalso. apply Hw.
  by right; right.
Qed.
Definition fix_one (d : dataset) : dataset :=
  if (d_name d =? "petroleum refinery operation")%string
  then set_d_exchanges (filterb (fun e => negb (e_name e =? "refinery gas")%string || Qctruthy (e_amount e)) (d_exchanges d)) d
  else d.
Lemma fix_before d : as_before d (fix_one d).
Proof.
  pose proof (fix_exchanges d : d_exchanges (fix_one d) = _) as HE. split; [|split; [|split]].
  - unfold fix_one. by destruct (_ =? _)%string.
  - apply totals_flows. intros c. by rewrite HE, worthwhile_total.
  - unfold orderly. rewrite HE. rewrite !Forall_forall. intros HO e He. apply elem_of_list_filter in He as [_ He]. by apply HO.
  - unfold references. rewrite HE. clear. induction (d_exchanges d) as [|e es IH]; [done|]. rewrite (filter_cons (worthwhile _)).
    destruct (decide (worthwhile (d_name d) e)); rewrite !(filter_cons is_refproduct); destruct (decide (is_refproduct e)); cbn [length]; lia.
Qed.
Lemma all_before_trans l1 l2 l3 : Forall2 as_before l1 l2 -> Forall2 as_before l2 l3 -> Forall2 as_before l1 l3.
Proof.
  intros H. revert l3. induction H as [|e1 e2 l1 l2 H _ IH]; intros l3 H2; [by apply Forall2_nil_inv_l in H2 as ->|].
  apply Forall2_cons_inv_l in H2 as (e3 & l & H3 & H4 & ->). constructor; [by eapply before_trans|by apply IH].
Qed.
Lemma all_kept_before data out : all_kept data out -> Forall2 as_before data out.
Proof. intros H. eapply Forall2_impl; [exact H|]. intros d d'. apply kept_before. Qed.
Lemma common_before w data out : common_part w data = Ok out -> Forall2 as_before data out.
Proof.
  intros H. apply common_kept in H as (d1 & K1 & K2). eapply all_before_trans; [by apply all_kept_before|].
  eapply all_before_trans; [|by apply all_kept_before]. clear. unfold fix_specific_ecoinvent_issues.
  induction d1 as [|d d1 IH]; [constructor|]. cbn [map]. constructor; [apply fix_before|exact IH].
Qed.

(** *** Combined production *)
Lemma recalc_orderly ln euler order eval d d' : recalculate ln euler order eval d = Ok d' -> alike d d' /\ (orderly d -> orderly d').
Proof.
  unfold recalculate. intros H. apply bind_Ok in H as (m & _ & H). apply bind_Ok in H as (d1 & H1 & H). apply repair_kept, kept_before in H as (A & _ & O & _).
  assert (alike d d1 /\ (orderly d -> orderly d1)) as [A1 O1]; [|split; [by eapply alike_trans|auto]].
  unfold recalc_amounts in H1. apply bind_Ok in H1 as (es & He & H1). apply bind_Ok in H1 as (qs & _ & <-%Ok_inj). split; [done|].
  unfold orderly. cbn [d_exchanges set_d_params set_d_exchanges]. apply mapR_Ok in He. clear -He.
  induction He as [|e e' l l' H _ IH]; intros HO; [constructor|]. apply Forall_cons in HO as [H1 HO]. constructor; [|by apply IH].
  unfold recalc_exchange in H. apply bind_Ok in H as (x & _ & H). apply bind_Ok in H as (v & _ & H). apply bind_Ok in H as (ps & _ & <-%Ok_inj). exact H1.
Qed.
Lemma subdivide_orderly d e : e ∈ reference_products d -> orderly d -> orderly (subdivide d e).
Proof.
  intros He HO. unfold orderly in *. rewrite Forall_forall in HO. unfold subdivide. cbn [d_exchanges set_d_exchanges].
  assert (forall x, x ∈ reference_products d -> ~ conditional x) as HR.
  { intros x Hx Hc. apply filterb_In in Hx as [Hx Ht]. apply bool_decide_eq_true in Ht. specialize (HO x Hx Hc). congruence. }
  constructor.
  - intros Hc. exfalso. by apply (HR e He).
  - apply Forall_app. split; apply Forall_forall; intros x Hx.
    + apply elem_of_list_fmap in Hx as (y & -> & Hy). apply filterb_In in Hy as [Hy _]. intros Hc. exfalso. by apply (HR y Hy).
    + apply filterb_In in Hx as [Hx _]. by apply HO.
Qed.
Lemma combined_orderly w d l : combined_production (w_recalc w) d = Ok l -> Forall (fun d' => alike d d' /\ (orderly d -> orderly d')) l.
Proof.
  unfold combined_production. intros H. apply mapR_Ok in H. apply Forall_forall. intros d' Hd.
  apply elem_of_list_lookup_1 in Hd as [i Hi]. destruct (Forall2_lookup_r _ _ _ _ _ H Hi) as (e & He & Hc).
  apply recalc_orderly in Hc as [A O]. split; [exact A|]. intros HO. apply O, subdivide_orderly; [|done].
  apply elem_of_list_lookup_2 in He. by apply filterb_In in He as [He _].
Qed.
Lemma multi_references d : references d <= 1 -> multi_rp d = false.
Proof.
  unfold references, multi_rp. intros H. apply Nat.ltb_ge.
  match goal with |- length ?l <= 1 => assert (l = filter is_refproduct (d_exchanges d)) as ->; [|done] end.
  apply filterb_filter. intros e _. apply bool_decide_ext. done.
Qed.
(** What is left of one dataset. *)
Definition parts_of (d : dataset) (l : list dataset) : Prop :=
  Forall (fun a => alike d a /\ (orderly d -> orderly a)) l /\ (references d <= 1 -> exists a, l = [a] /\ equal_flows d a).
Lemma split_parts w data out : split_combined_production (w_recalc w) data = Ok out ->
  exists ls, out = concat ls /\ Forall2 parts_of data ls.
Proof.
  unfold split_combined_production. intros H. apply concat_mapR_Ok in H as (ls & -> & H). exists ls. split; [done|].
  eapply Forall2_impl; [exact H|]. cbv beta. intros d l E. split.
  - destruct (multi_rp d); [by eapply combined_orderly|]. apply Ok_inj in E as <-. by constructor.
  - intros Hr. rewrite (multi_references d Hr) in E. apply Ok_inj in E as <-. by exists d.
Qed.

(** *** Constrained markets *)
Lemma delete_flows data data' : delete_activity_links_to_constrained_markets data = Ok data' -> Forall2 as_before data data'.
Proof.
  unfold delete_activity_links_to_constrained_markets. intros H. apply bind_Ok in H as (? & _ & <-%Ok_inj). apply all_kept_before, all_kept_map.
  intros d. apply kept_set, same_map. intros e. unfold delete_link. by destruct (_ && _).
Qed.
Lemma rebalanced_flows d es : Forall2 rebalanced (d_exchanges d) es -> equal_flows d (set_d_exchanges es d).
Proof.
  intros H. split; intros; rewrite ?emitted_total, ?net_total; cbn [d_exchanges set_d_exchanges];
    (induction H as [|e e' l l' [(t & c & a & g & E) [Hc HT]] _ IH]; [done|]; rewrite !total_cons, IH; f_equal; destruct HT as [->|[T1 T2]]; [done|]).
  - unfold worth_of, key, emission. rewrite !decide_False; [ring|..].
    + intros [[Ht|Ht] _]; unfold traded in T1; intuition congruence.
    + intros [[Ht|Ht] _]; unfold traded in T2; intuition congruence.
  - assert (e_name e' = e_name e) as Hn by (by rewrite E). unfold worth_of, key, product. rewrite Hn. unfold contribution in Hc.
    destruct (decide (e_name e = n)); [|ring].
    destruct T1 as [T1|[T1|T1]], T2 as [T2|[T2|T2]]; rewrite T1, T2; rewrite T1, T2 in Hc; clear -Hc; qclra.
Qed.

(** *** Before linking *)
(** [a] comes from [d] and, with one reference product, has its flows. *)
Lemma prepared_flows w data prepared : Forall orderly data -> consequential_prepared w data = Ok prepared ->
  exists ls, prepared = concat ls /\ Forall2 (fun d l => Forall (alike d) l /\ (references d <= 1 -> exists a, l = [a] /\ equal_flows d a)) data ls.
Proof.
  intros HO H. unfold consequential_prepared in H. apply bind_Ok in H as (d1 & H1 & H). apply bind_Ok in H as (d2 & H2 & H).
  apply bind_Ok in H as (d3 & H3 & H). apply bind_Ok in H as (d4 & H4 & H).
  assert (prepared = d4) as -> by (unfold ensure_byproducts_have_alternative_production in H; case_bool_decide; [done|]; by apply Ok_inj in H).
  clear H. apply common_before in H1.
  assert (Forall2 as_before data (drop_zero_amount_activity_links d1)) as H.
  { eapply all_before_trans; [exact H1|]. apply all_kept_before, drop_zero_kept. }
  clear H1. apply split_parts in H2 as (ls & -> & H2).
  assert (Forall2 (fun d l => Forall (fun a => alike d a /\ orderly a) l /\ (references d <= 1 -> exists a, l = [a] /\ equal_flows d a)) data ls) as HP.
  { clear -H H2 HO. revert ls H2. induction H as [|d d' data data' (A & F & O & R) _ IH]; intros ls H2.
    - apply Forall2_nil_inv_l in H2 as ->. constructor.
    - apply Forall2_cons_inv_l in H2 as (l & ls' & [P1 P2] & H2 & ->). apply Forall_cons in HO as [Ho HO]. constructor; [|by apply IH]. split.
      + eapply Forall_impl; [exact P1|]. intros a [Aa Oa]. split; [by eapply alike_trans|auto].
      + intros Hr. destruct P2 as (a & -> & Fa); [lia|]. exists a. split; [done|]. by eapply flows_trans. }
  clear H H2. apply delete_flows in H3.
  assert (Forall2 (fun a b => alike a b /\ equal_flows a b) (concat ls) d4) as HF.
  { apply handle_balance in H4.
    - clear -H3 H4. revert d4 H4. induction H3 as [|a b la lb (A & F & _) _ IH]; intros d4 H4; [by apply Forall2_nil_inv_l in H4 as ->|].
      apply Forall2_cons_inv_l in H4 as (c & l & (es & -> & HR & _) & H4 & ->). constructor; [|by apply IH].
      split; [eapply alike_trans; [exact A|done]|]. eapply flows_trans; [exact F|by apply rebalanced_flows].
    - intros ds e Hds He Hc. apply elem_of_list_lookup_1 in Hds as [i Hi]. destruct (Forall2_lookup_r _ _ _ _ _ H3 Hi) as (a & Ha & _ & _ & Ho & _).
      assert (orderly a) as Hoa.
      { apply elem_of_list_lookup_2 in Ha. apply elem_of_list_In, in_concat in Ha as (l & Hl & Ha). apply elem_of_list_In in Hl, Ha.
        apply elem_of_list_lookup_1 in Hl as [j Hj]. destruct (Forall2_lookup_r _ _ _ _ _ HP Hj) as (d & _ & HA & _). rewrite Forall_forall in HA. by destruct (HA a Ha). }
      specialize (Ho Hoa). unfold orderly in Ho. rewrite Forall_forall in Ho. by apply Ho. }
  clear H3 H4. revert d4 HF. induction HP as [|d l data ls [P1 P2] _ IH]; intros d4 HF.
  - apply Forall2_nil_inv_l in HF as ->. by exists [].
  - apply Forall_cons in HO as [_ HO]. cbn [concat] in HF. apply Forall2_app_inv_l in HF as (l' & r & HF1 & HF & ->). destruct (IH HO r HF) as (ls' & -> & HL).
    exists (l' :: ls'). split; [done|]. constructor; [|done]. split.
    + clear -P1 HF1. induction HF1 as [|a b l l' [A _] _ IH]; [constructor|]. apply Forall_cons in P1 as [[P _] P1]. constructor; [by eapply alike_trans|by apply IH].
    + intros Hr. destruct (P2 Hr) as (a & -> & Fa). apply Forall2_cons_inv_l in HF1 as (b & l & [_ Fb] & HF1 & ->). apply Forall2_nil_inv_l in HF1 as ->.
      exists b. split; [done|by eapply flows_trans].
Qed.

(** *** Linking and normalising *)
Lemma bare_total c es es' : map bare es' = map bare es -> total_of c es' = total_of c es.
Proof.
  intros H. apply bare_kept in H. induction H as [|e e' es es' H _ IH]; [done|]. rewrite !total_cons, IH. f_equal.
  assert (forall X (g : exchange -> X), (forall x, g (bare x) = g x) -> g e' = g e) as Hg.
  { intros X g Hx. rewrite <- Hx, H. apply Hx. }
  apply (Hg _ (worth_of c)). done.
Qed.
Definition unit_flows (a ds : dataset) : Prop := exists k, (0 < k)%Qc /\ (k = 1 \/ made ds = 1 \/ made ds = - (1))%Qc /\
  (forall i f, emitted i f ds = (emitted i f a * k)%Qc) /\ (forall n, n <> "refinery gas"%string -> net n ds = (net n a * k)%Qc).
Lemma consequential_units w data out prepared : (forall s, w_md5 w s <> ""%string) ->
  consequential_prepared w data = Ok prepared -> consequential_model w data = Ok out ->
  exists base, sublist base prepared /\ filter local base = filter local prepared /\
    Forall2 (fun a ds => frame ds = frame a /\ (~ is_market ds -> unit_flows a ds)) base out.
Proof.
  intros Hmd Hp H. apply consequential_parts in H as (p & linked & Hp' & HL & HF).
  rewrite Hp in Hp'. apply Ok_inj in Hp' as <-.
  apply tech_stem in HL as (base & HS & HB & Hloc); [|done]. exists base. split; [done|]. split; [done|].
  clear -HB HF. revert out HF. induction HB as [|a d base linked HD _ IH]; intros out HF.
  - apply Forall2_nil_inv_l in HF as ->. constructor.
  - apply Forall2_cons_inv_l in HF as (ds & l & HN & HF & ->). constructor; [|by apply IH].
    apply normalize_spec in HN as (rp1 & k & es2 & Hrp & _ & Hk & -> & HS & _).
    pose proof HD as [(Hf & HO & _) _]. split; [exact Hf|]. intros Ht.
    assert (~ is_market a) as Hta by (unfold is_market; rewrite <- (frame_type _ _ Hf); exact Ht).
    exists k. split; [by destruct Hk|]. split; [|split].
    + destruct Hk as [_ [Hk|[-> _]]]; [|by left]. right.
      assert (made (set_d_exchanges es2 d) = (e_amount rp1 * k)%Qc) as ->; [|exact Hk].
      unfold made. cbn [d_exchanges set_d_exchanges]. apply (filter_Forall2 is_refproduct) in HS.
      2:{ intros e e' [_ He]. pose proof (sameb_fields _ _ He) as (_ & _ & _ & _ & _ & _ & Hty & _). unfold is_refproduct. by rewrite Hty. }
      rewrite Hrp in HS. apply Forall2_cons_inv_l in HS as (rp' & l2 & [Ha' Hs'] & HS & E). apply Forall2_nil_inv_l in HS as ->. rewrite E.
      unfold Qcsum. cbn. rewrite Ha'. ring.
    + intros i f. rewrite !emitted_total. cbn [d_exchanges set_d_exchanges]. rewrite (total_scaled _ _ _ _ HS). f_equal.
      rewrite <- (emission_filter i f (d_exchanges d)), <- (emission_filter i f (d_exchanges a)). apply bare_total.
      apply others_filter; [done| |done]. intros e [He|He]; by rewrite He.
    + intros n Hg. rewrite (scaled_net k n (d_exchanges d) es2 d HS). f_equal.
      assert (set_d_exchanges (d_exchanges d) d = d) as -> by by destruct d. by apply descends_net.
Qed.

(** *** The whole *)
Lemma consequential_whole w data out : (forall s, w_md5 w s <> ""%string) ->
  (forall ds e, ds ∈ data -> e ∈ d_exchanges ds -> conditional e -> e_type e = Byproduct) ->
  consequential_model w data = Ok out ->
  forall ds, ds ∈ out -> ~ is_market ds ->
  exists d, d ∈ data /\ d_id ds = d_id d /\ d_name ds = d_name d /\ d_type ds = d_type d /\
    (length (filter is_refproduct (d_exchanges d)) <= 1 ->
     exists k, (0 < k)%Qc /\ (k = 1 \/ made ds = 1 \/ made ds = - (1))%Qc /\
       (forall i f, emitted i f ds = (emitted i f d * k)%Qc) /\
       (forall n, n <> "refinery gas"%string -> net n ds = (net n d * k)%Qc)).
Proof.
  intros Hmd HO H ds Hds Hm. pose proof H as H0. apply consequential_parts in H0 as (prepared & _ & Hp & _).
  destruct (consequential_units _ _ _ _ Hmd Hp H) as (base & Hsub & _ & HB). apply prepared_flows in Hp as (ls & -> & HL).
  2:{ apply Forall_forall. intros d Hd. apply Forall_forall. intros e He. by eapply HO. }
  apply elem_of_list_lookup_1 in Hds as [j Hj]. destruct (Forall2_lookup_r _ _ _ _ _ HB Hj) as (a & Hja & Hf & Hu). specialize (Hu Hm).
  assert (a ∈ concat ls) as Hin.
  { eapply elem_of_submseteq; [by eapply elem_of_list_lookup_2|by apply sublist_submseteq]. }
  apply elem_of_list_In, in_concat in Hin as (l & Hl & Hin). apply elem_of_list_In in Hl, Hin.
  apply elem_of_list_lookup_1 in Hl as [b Hb]. destruct (Forall2_lookup_r _ _ _ _ _ HL Hb) as (d & Hd & HA & HE). apply elem_of_list_lookup_2 in Hd.
  exists d. split; [done|]. rewrite Forall_forall in HA. destruct (HA a Hin) as (A1 & A2 & A3 & _).
  split; [by rewrite (frame_id _ _ Hf)|]. split; [by rewrite (f_equal d_name Hf : d_name ds = d_name a)|]. split; [by rewrite (frame_type _ _ Hf)|].
  intros Hr. destruct (HE Hr) as (x & -> & Fe & Fn). apply elem_of_list_singleton in Hin as <-.
  destruct Hu as (k & Hk & Hone & He & Hn). exists k. split; [done|]. split; [done|]. split; intros; [by rewrite He, Fe|by rewrite Hn, Fn].
Qed.
Lemma consequential_once w data out : (forall s, w_md5 w s <> ""%string) ->
  (forall ds e, ds ∈ data -> e ∈ d_exchanges ds -> conditional e -> e_type e = Byproduct) ->
  consequential_model w data = Ok out ->
  forall d, d ∈ data -> local d -> length (filter is_refproduct (d_exchanges d)) <= 1 ->
  exists ds, filter (fun ds => d_id ds = d_id d) out = [ds].
Proof.
  intros Hmd HO H d Hd Hl Hr. pose proof H as H0. apply consequential_parts in H0 as (prepared & _ & Hp & _).
  destruct (consequential_units _ _ _ _ Hmd Hp H) as (base & Hsub & Hloc & HB).
  assert (NoDup (map d_id data)) as HD.
  { unfold consequential_prepared in Hp. apply bind_Ok in Hp as (d1 & Hp & _). by eapply common_ids. }
  apply prepared_flows in Hp as (ls & -> & HL).
  2:{ apply Forall_forall. intros x Hx. apply Forall_forall. intros e He. by eapply HO. }
  set (Q := fun ds => d_id ds = d_id d).
  assert (exists a, filter Q (concat ls) = [a] /\ alike d a) as (a & HQ & HA).
  { apply elem_of_list_split in Hd as (data1 & data2 & ->). apply Forall2_app_inv_l in HL as (ls1 & ls' & HL1 & HL & ->).
    apply Forall2_cons_inv_l in HL as (l & ls2 & [HA HE] & HL2 & ->). destruct (HE Hr) as (a & -> & _). exists a.
    apply Forall_cons in HA as [HA _]. split; [|done]. rewrite concat_app, filter_app. cbn [concat app]. rewrite filter_cons, decide_True by apply HA.
    assert (forall data0 ls0, Forall2 (fun x l => Forall (alike x) l /\ (references x <= 1 -> exists a, l = [a] /\ equal_flows x a)) data0 ls0 ->
      d_id d ∉ map d_id data0 -> filter Q (concat ls0) = []) as HN.
    { clear. induction 1 as [|x l data0 ls0 [HA _] _ IH]; intros Hn; [done|]. cbn [concat]. rewrite filter_app, IH; [|set_solver]. rewrite app_nil_r.
      assert (d_id x <> d_id d) as Hx by set_solver. clear -HA Hx. induction HA as [|a l (Ha & _) _ IH]; [done|]. rewrite filter_cons, decide_False; [done|].
      unfold Q. by rewrite Ha. }
    rewrite map_app in HD. cbn [map] in HD. apply NoDup_app in HD as (_ & HD1 & HD2). apply NoDup_cons in HD2 as [HD2 _].
    rewrite (HN _ _ HL1), (HN _ _ HL2); [done|done|]. intros Hin. apply (HD1 _ Hin). by left. }
  assert (filter Q base = [a]) as HQb.
  { assert (forall l : list dataset, Forall (fun a => Q a -> local a) l -> filter Q (filter local l) = filter Q l) as HF.
    { clear. induction 1 as [|a base Ha _ IH]; [done|]. rewrite (filter_cons local). destruct (decide (local a)) as [Hl|Hl].
      + rewrite !(filter_cons Q). by destruct (decide (Q a)); rewrite IH.
      + rewrite (filter_cons Q), decide_False; [exact IH|]. intros Hq. by apply Hl, Ha. }
    assert (Forall (fun a => Q a -> local a) (concat ls)) as HLw.
    { apply Forall_forall. intros x Hin Hq. assert (x ∈ [a]) as Hin' by (rewrite <- HQ; by apply elem_of_list_filter).
      apply elem_of_list_singleton in Hin' as ->. destruct HA as (_ & _ & _ & E). unfold local. by rewrite E. }
    rewrite <- HQ, <- (HF _ HLw), <- Hloc. symmetry. apply HF. by eapply Forall_sublist. }
  apply (filter_Forall2 Q) in HB.
  2:{ intros x ds [Hf _]. unfold Q. by rewrite (frame_id _ _ Hf). }
  rewrite HQb in HB. apply Forall2_cons_inv_l in HB as (ds & l & _ & HB & E). apply Forall2_nil_inv_l in HB as ->. by exists ds.
Qed.
