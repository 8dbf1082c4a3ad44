(** Proofs for C70 and C71. *)
From Verif Require Import Base Types Utils Spec_Utils Utils_proofs Waste_proofs Cutoff Locations Consequential Recalculation Spec_Recalculation
  Spec_Allocation Spec_Combined Allocation_proofs Spec_Lists.
From Verif Require Allocation2_proofs Combined_proofs.

Lemma bool_type k ds : is_type k ds = bool_decide (d_type ds = k).
Proof. reflexivity. Qed.
Lemma bool_eqb s t : (s =? t)%string = bool_decide (s = t).
Proof. destruct (String.eqb_spec s t) as [->|N]; [by rewrite bool_decide_eq_true_2|by rewrite bool_decide_eq_false_2]. Qed.

Lemma withdrawn_spec data : delete_whitelisted_zero_pv_market_datsets data = filter (fun ds => ~ withdrawn ds) data.
Proof.
  apply filterb_filter. intros ds _. change deletable_markets with withdrawn_markets.
  rewrite bool_type, bool_eqb, <- !bool_decide_and, <- bool_decide_not. apply bool_decide_ext. unfold withdrawn. tauto.
Qed.

Lemma confidential_same : confidential_names = zip_with (fun a k => a ++ " production" ++ k)%string secret_activities secret_kinds.
Proof. reflexivity. Qed.
Lemma split_single (es : list exchange) rp : filter is_refproduct es = [rp] ->
  exists pre post, es = pre ++ rp :: post /\ is_refproduct rp /\ Forall (fun e => ~ is_refproduct e) (pre ++ post).
Proof.
  intros H. assert (rp ∈ filter is_refproduct es) as [Hp Hin]%elem_of_list_filter by (rewrite H; left).
  apply elem_of_list_split in Hin as (pre & post & ->). exists pre, post. split; [done|]. split; [done|].
  rewrite filter_app, filter_cons_True in H by done.
  assert (filter is_refproduct pre = [] /\ filter is_refproduct post = []) as [E1 E2].
  { apply (f_equal length) in H. rewrite app_length in H. cbn in H.
    destruct (filter is_refproduct pre), (filter is_refproduct post); cbn in H; try lia. done. }
  apply Forall_app. split; apply Forall_forall; intros e He Hr.
  - assert (e ∈ filter is_refproduct pre) as Hx by (by apply elem_of_list_filter). rewrite E1 in Hx. by apply elem_of_nil in Hx.
  - assert (e ∈ filter is_refproduct post) as Hx by (by apply elem_of_list_filter). rewrite E2 in Hx. by apply elem_of_nil in Hx.
Qed.
Lemma single_split (pre post : list exchange) rp : is_refproduct rp -> Forall (fun e => ~ is_refproduct e) (pre ++ post) ->
  filter is_refproduct (pre ++ rp :: post) = [rp].
Proof.
  intros Hr [H1 H2]%Forall_app. rewrite filter_app, filter_cons_True by done.
  assert (forall l : list exchange, Forall (fun e => ~ is_refproduct e) l -> filter is_refproduct l = []) as E.
  { induction 1 as [|e l He _ IH]; [done|]. by rewrite filter_cons_False. }
  by rewrite !E.
Qed.
Lemma map_others f (l : list exchange) : Forall (fun e => ~ is_refproduct e) l ->
  map (fun e => if bool_decide (e_type e = RefProduct) then f e else e) l = l.
Proof.
  induction 1 as [|e l He _ IH]; [done|]. cbn [map]. rewrite IH, bool_decide_eq_false_2; [done|exact He].
Qed.
Lemma equalled_iff ds ds' :
  (let? rp := get_single_reference_product ds in let? _ := getkey "production volume" (e_pv rp) in
   Ok (set_rp_pv (set_v_amount 1%Qc) ds)) = Ok ds' <-> equalled ds ds'.
Proof.
  unfold equalled. split.
  - intros H. apply bind_Ok in H as (rp & Hrp%get_single_filter & H). apply bind_Ok in H as (v & Hv & <-%Ok_inj).
    apply split_single in Hrp as (pre & post & E & Hr & Hn). unfold getkey in Hv. destruct (e_pv rp) as [v'|] eqn:Ev; [|done].
    exists pre, rp, v', post. split; [done|]. split; [done|]. split; [done|]. split; [done|].
    unfold set_rp_pv. rewrite E, map_app. cbn [map]. apply Forall_app in Hn as [H1 H2]. rewrite !map_others by done.
    rewrite bool_decide_eq_true_2 by exact Hr. by rewrite Ev.
  - intros (pre & rp & v & post & E & Hr & Hn & Ev & ->).
    assert (get_single_reference_product ds = Ok rp) as -> by (apply get_single_ok; rewrite E; by apply single_split).
    cbn [bind]. rewrite Ev. cbn [getkey from_option bind]. unfold set_rp_pv. rewrite E, map_app. cbn [map].
    apply Forall_app in Hn as [H1 H2]. rewrite !map_others by done. rewrite bool_decide_eq_true_2 by exact Hr. by rewrite Ev.
Qed.
Lemma Forall2_same {A B} (P Q : A -> B -> Prop) l k : (forall x y, P x y <-> Q x y) -> Forall2 P l k <-> Forall2 Q l k.
Proof. intros H. split; intros HF; (eapply Forall2_impl; [exact HF|]); intros x y; apply H. Qed.
Lemma secret_spec data data' : assign_fake_pv_to_confidential_datasets data = Ok data' <->
  Forall2 (fun ds ds' => if decide (secret ds) then equalled ds ds' else ds' = ds) data data'.
Proof.
  unfold assign_fake_pv_to_confidential_datasets. rewrite mapR_Ok. apply Forall2_same. intros ds ds'.
  rewrite bool_type, <- bool_decide_and, confidential_same. destruct (decide (secret ds)) as [Hs|Hs].
  - rewrite bool_decide_eq_true_2 by exact Hs. apply equalled_iff.
  - rewrite bool_decide_eq_false_2 by exact Hs. split; [by intros <-%Ok_inj|by intros ->].
Qed.

Lemma misplaced_spec data : correct_natural_gas_pipeline_location data =
  map (fun ds => if decide (misplaced ds) then set_d_location "RER w/o DE+NL+NO+RU" ds else ds) data.
Proof.
  unfold correct_natural_gas_pipeline_location. apply map_ext. intros ds.
  rewrite bool_type, !bool_eqb, <- !bool_decide_and. destruct (decide (misplaced ds)) as [H|H].
  - rewrite bool_decide_eq_true_2; [done|]. unfold misplaced in H. tauto.
  - rewrite bool_decide_eq_false_2; [done|]. unfold misplaced in H. tauto.
Qed.

Lemma no_row_spec data data' : check_no_row_market_groups data = Ok data' <->
  data' = data /\ Forall (fun ds => d_type ds = MarketGroup -> d_location ds <> "RoW"%string) data.
Proof.
  unfold check_no_row_market_groups. 
  assert (forall l : list dataset, iterR (fun ds => assertR (negb (is_type MarketGroup ds && (d_location ds =? "RoW")%string)) MarketGroupError) l = Ok tt <->
    Forall (fun ds => d_type ds = MarketGroup -> d_location ds <> "RoW"%string) l) as E.
  { induction l as [|ds l IH]; cbn [iterR]; [split; [constructor|done]|]. rewrite Forall_cons, <- IH.
    rewrite bool_type, bool_eqb, <- bool_decide_and. unfold assertR.
    destruct (decide (d_type ds = MarketGroup /\ d_location ds = "RoW"%string)) as [H|H].
    - rewrite bool_decide_eq_true_2 by done. cbn. split; [done|]. intros [H1 _]. destruct H as [H H2]. by destruct (H1 H).
    - rewrite bool_decide_eq_false_2 by done. cbn. split; [|tauto]. intros H1. split; [|done]. tauto. }
  rewrite <- E. split.
  - intros H. apply bind_Ok in H as ([] & H & <-%Ok_inj). done.
  - intros [-> ->]. done.
Qed.
Lemma no_row_fails data : check_no_row_market_groups data = Err MarketGroupError <->
  Exists (fun ds => d_type ds = MarketGroup /\ d_location ds = "RoW"%string) data.
Proof.
  destruct (decide (Exists (fun ds => d_type ds = MarketGroup /\ d_location ds = "RoW"%string) data)) as [H|H].
  - split; [done|]. intros _. destruct (check_no_row_market_groups data) as [d'|e] eqn:E.
    + apply no_row_spec in E as [_ E]. rewrite Forall_forall in E. apply Exists_exists in H as (ds & Hin & H1 & H2). by destruct (E ds Hin H1).
    + f_equal. revert E. clear. unfold check_no_row_market_groups. intros E.
      assert (iterR (fun ds => assertR (negb (is_type MarketGroup ds && (d_location ds =? "RoW")%string)) MarketGroupError) data = Err e) as H.
      { destruct (iterR _ _); [done|]. cbn in E. congruence. }
      clear E. induction data as [|ds l IH]; cbn [iterR] in H; [done|]. unfold assertR in H at 1. destruct (negb _); cbn in H; [by apply IH|congruence].
  - split; [|done]. intros E. exfalso. assert (check_no_row_market_groups data = Ok data) as E2; [|congruence].
    apply no_row_spec. split; [done|]. apply Forall_forall. intros ds Hin Ht Hl. apply H, Exists_exists. by exists ds.
Qed.
Lemma switch_spec data : switch_undefined_to_current data =
  map (fun ds => if decide (d_type ds = Transforming /\ d_tech ds = "undefined"%string) then set_d_tech "current" ds else ds) data.
Proof.
  unfold switch_undefined_to_current. apply map_ext. intros ds. rewrite bool_type, bool_eqb, <- bool_decide_and.
  destruct (decide _) as [H|H]; [by rewrite bool_decide_eq_true_2|by rewrite bool_decide_eq_false_2].
Qed.

(** ** Splitting *)
Lemma multi_iff ds : multi_rp ds = bool_decide (1 < n_refproducts ds)%nat.
Proof.
  unfold multi_rp, n_refproducts. rewrite (filterb_filter is_refproduct) by done. destruct (Nat.ltb_spec 1 (length (filter is_refproduct (d_exchanges ds)))) as [H|H].
  - by rewrite bool_decide_eq_true_2.
  - rewrite bool_decide_eq_false_2; [done|]. unfold lt in *. lia.
Qed.
Lemma split_spec recalc data out : split_combined_production recalc data = Ok out <->
  exists parts, out = concat parts /\
    Forall2 (fun ds outs => if decide (1 < n_refproducts ds)%nat then combined_production recalc ds = Ok outs else outs = [ds]) data parts.
Proof.
  unfold split_combined_production. rewrite Allocation2_proofs.concat_mapR_Ok.
  assert (forall ds outs, (if multi_rp ds then combined_production recalc ds else Ok [ds]) = Ok outs <->
    if decide (1 < n_refproducts ds)%nat then combined_production recalc ds = Ok outs else outs = [ds]) as E.
  { intros ds outs. rewrite multi_iff. destruct (decide _) as [H|H].
    - by rewrite bool_decide_eq_true_2.
    - rewrite bool_decide_eq_false_2 by done. split; [by intros <-%Ok_inj|by intros ->]. }
  split; intros (parts & -> & H); exists parts; (split; [done|]); (eapply Forall2_impl; [exact H|]); intros ds outs; apply E.
Qed.
Lemma split_single_products ln euler order eval data out : Forall unique_variables data ->
  split_combined_production (recalculate ln euler order eval) data = Ok out -> Forall (fun ds => (n_refproducts ds <= 1)%nat) out.
Proof.
  intros Hu (parts & -> & H)%split_spec. apply Forall_concat.
  revert Hu. induction H as [|ds outs data parts Hd _ IH]; intros Hu; [constructor|].
  apply Forall_cons in Hu as [Hu1 Hu]. constructor; [|by apply IH]. destruct (decide _) as [Hn|Hn].
  - apply Combined_proofs.combined_production_spec in Hd; [|done]. clear -Hd.
    induction Hd as [|p o ps outs Ho _ IH]; [constructor|]. constructor; [|done].
    destruct Ho as (part & m & _ & _ & _ & (rp & E & _) & _). unfold n_refproducts. by rewrite E.
  - subst outs. constructor; [|constructor]. lia.
Qed.
Lemma split_parts ln euler order eval data out : Forall unique_variables data ->
  split_combined_production (recalculate ln euler order eval) data = Ok out -> exists parts, out = concat parts /\
    Forall2 (fun ds outs => ((n_refproducts ds <= 1)%nat -> outs = [ds]) /\
      ((1 < n_refproducts ds)%nat ->
         Forall2 (fun p o => exists rp, filter is_refproduct (d_exchanges o) = [rp] /\ e_id rp = e_id p /\ e_name rp = e_name p /\
                               e_amount rp = e_amount p)
           (filter produces (d_exchanges ds)) outs)) data parts.
Proof.
  intros Hu (parts & -> & H)%split_spec. exists parts. split; [done|].
  revert Hu. induction H as [|ds outs data parts Hd _ IH]; intros Hu; [constructor|].
  apply Forall_cons in Hu as [Hu1 Hu]. constructor; [|by apply IH]. destruct (decide _) as [Hn|Hn]; (split; [intros Hm|intros Hm]); try lia.
  - apply Combined_proofs.combined_production_spec in Hd; [|done]. eapply Forall2_impl; [exact Hd|].
    intros p o (part & m & _ & _ & _ & (rp & E & E1 & E2 & _ & E3) & _). by exists rp.
  - exact Hd.
Qed.
