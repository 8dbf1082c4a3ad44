(** Lemmas about cutoff allocation: economic, recycling, waste treatment. *)
From Verif Require Import Base Types Spec_Uncertainty Spec_Utils Spec_Cutoff Uncertainty
  Uncertainty_proofs Utils Utils_proofs Validation Validation_proofs ActivityLinks_proofs Cutoff.

Lemma get_numerical_lookup e n : get_numerical_property e n = lookup_prop n e.
Proof.
  unfold get_numerical_property, get_property_by_name, lookup_prop.
  induction (e_props e) as [|p ps IH]; [done|]. cbn [find].
  rewrite filter_cons. destruct (p_name p =? n)%string eqn:E.
  - apply String.eqb_eq in E. by rewrite decide_True by done.
  - apply String.eqb_neq in E. by rewrite decide_False by done.
Qed.
Lemma revenue_worth e : revenue e = worth e.
Proof. unfold revenue, worth, price. by rewrite get_numerical_lookup. Qed.
Lemma has_true_value_valued e : has_true_value e = bool_decide (valued e).
Proof.
  unfold has_true_value. apply bool_decide_ext. unfold valued.
  rewrite <- get_numerical_lookup. unfold get_numerical_property.
  destruct (get_property_by_name _ _); cbn; naive_solver.
Qed.
Lemma true_value_worth e : (true_value e * e_amount e)%Qc = true_worth e.
Proof. unfold true_value, true_worth. by rewrite get_numerical_lookup. Qed.
Lemma true_worth_unvalued e : ~ valued e -> true_worth e = 0%Qc.
Proof.
  unfold valued, true_worth. destruct (lookup_prop _ e); cbn; [|intros _; ring].
  intros H. exfalso. by apply H.
Qed.

Lemma Qcsum_filter_zero {A} (P : A -> Prop) `{forall x, Decision (P x)} (g : A -> Qc) l :
  (forall x, x ∈ l -> ~ P x -> g x = 0%Qc) ->
  Qcsum (map g (filter P l)) = Qcsum (map g l).
Proof.
  induction l as [|x l IH]; intros Hz; [done|]. rewrite filter_cons.
  destruct (decide (P x)) as [Hx|Hx].
  - change (g x + Qcsum (map g (filter P l)) = g x + Qcsum (map g l))%Qc.
    rewrite IH; [done|]. intros. apply Hz; [by right|done].
  - change (Qcsum (map g (filter P l)) = g x + Qcsum (map g l))%Qc.
    rewrite (Hz x), IH; [ring| | by left | done]. intros. apply Hz; [by right|done].
Qed.
Lemma Qcsum_filter_split {A} (P : A -> Prop) `{forall x, Decision (P x)} (g : A -> Qc) l :
  Qcsum (map g l) =
  (Qcsum (map g (filter P l)) + Qcsum (map g (filter (fun x => ~ P x) l)))%Qc.
Proof.
  induction l as [|x l IH]; [vm_compute; ring|]. rewrite !filter_cons.
  destruct (decide (P x)) as [Hx|Hx].
  - rewrite (decide_False (P := ~ P x)) by tauto. cbn [map Qcsum foldr]. fold (Qcsum (map g l)).
    fold (Qcsum (map g (filter P l))). rewrite IH. ring.
  - rewrite (decide_True (P := ~ P x)) by tauto. cbn [map Qcsum foldr]. fold (Qcsum (map g l)).
    fold (Qcsum (map g (filter (fun x => ~ P x) l))). rewrite IH. ring.
Qed.

Lemma Forall2_map_eq {A B} (R : A -> B -> Prop) (g : A -> B) l l' :
  (forall x y, x ∈ l -> R x y -> y = g x) -> Forall2 R l l' -> l' = map g l.
Proof.
  intros Hg HF. induction HF as [|x y l l' Hxy HF IH]; [done|]. cbn [map]. f_equal.
  - apply Hg; [by left|done].
  - apply IH. intros. apply Hg; [by right|done].
Qed.

(** ** Factors *)
Lemma economic_factors_ok prods fs :
  economic_factors prods = Ok fs <->
  prods <> [] /\ Qcsum (map worth prods) <> 0%Qc /\
  (filter valued prods <> [] -> Qcsum (map true_worth (filter valued prods)) <> 0%Qc) /\
  Forall2 (economic_share prods) prods fs.
Proof.
  unfold economic_factors.
  destruct (decide (prods = [])) as [->|Hne]; [split; [done|intros [H _]; done]|].
  set (F := match prods with [] => _ | _ => _ end).
  assert (F = let total := Qcsum (map worth prods) in
      let mask := filter valued prods in
      let tv_total := Qcsum (map true_worth mask) in
      let fraction := (Qcsum (map worth mask) / total)%Qc in
      if Qceqb total 0 then Err NotANumber
      else if negb (bool_decide (mask = [])) && Qceqb tv_total 0 then Err NotANumber
      else Ok (map (fun e => if bool_decide (valued e)
                             then (true_worth e / tv_total * fraction)%Qc
                             else (worth e / total)%Qc) prods)) as ->.
  { subst F. destruct prods as [|p0 ps]; [done|]. set (prods := p0 :: ps). cbv zeta.
    rewrite (filterb_filter valued) by (intros; apply has_true_value_valued).
    rewrite (Qcsum_filter_zero valued true_worth prods)
      by (intros; by apply true_worth_unvalued).
    assert (forall l, map revenue l = map worth l) as Hrev.
    { intros l. apply map_ext. intros. apply revenue_worth. }
    rewrite !Hrev.
    assert (map (fun e => (true_value e * e_amount e)%Qc) prods = map true_worth prods) as ->.
    { apply map_ext. intros. apply true_value_worth. }
    do 2 (destruct (_ : bool); [done|]). f_equal. apply map_ext. intros e.
    by rewrite has_true_value_valued, true_value_worth, revenue_worth. }
  cbv zeta. set (total := Qcsum (map worth prods)).
  set (tt' := Qcsum (map true_worth (filter valued prods))).
  destruct (Qceqb total 0) eqn:E1; qc_bool.
  { split; [done|]. by intros (_ & H & _). }
  assert (forall b, negb (bool_decide (filter valued prods = [])) && Qceqb tt' 0 = b ->
    (b = true <-> ~ (filter valued prods <> [] -> tt' <> 0%Qc))) as Hb.
  { intros b <-. destruct (decide (filter valued prods = [])) as [E|E].
    - rewrite bool_decide_true by done. cbn. split; [done|]. intros H. exfalso. apply H. done.
    - rewrite bool_decide_false by done. cbn. rewrite Qceqb_true. split.
      + intros H1 H2. by apply H2.
      + intros H. destruct (Qceqb tt' 0) eqn:E2; qc_bool; [done|]. exfalso. by apply H. }
  destruct (negb _ && _) eqn:E2; specialize (Hb _ eq_refl).
  { split; [done|]. intros (_ & _ & H & _). exfalso. by apply Hb. }
  assert (filter valued prods <> [] -> tt' <> 0%Qc) as Htt.
  { intros H1 H2. enough (false = true) by done. apply Hb. intros H3. by apply H3. }
  assert (forall e f, e ∈ prods ->
     f = (if bool_decide (valued e) then (true_worth e / tt' * (Qcsum (map worth (filter valued prods)) / total))%Qc
          else (worth e / total)%Qc) <-> economic_share prods e f) as Hshare.
  { clear E2 Hb. intros e f He. unfold economic_share. fold total tt'. case_bool_decide as Hv.
    - split.
      + intros ->. split; [done|]. split; [by intros Hn; destruct Hn|]. intros _. split; [|done]. apply Htt.
        intros E. assert (e ∈ filter valued prods) as Hin by (by apply elem_of_list_filter).
        rewrite E in Hin. by apply elem_of_nil in Hin.
      + intros (_ & _ & H). by apply H.
    - split.
      + intros ->. by split.
      + intros (_ & H & _). by apply H. }
  split.
  - intros [= <-]. split; [done|]. split; [done|]. split; [done|].
    apply Forall2_fmap_r, Forall_Forall2_diag, Forall_forall. intros e He.
    by apply Hshare.
  - intros (_ & _ & _ & HF). f_equal. symmetry. eapply Forall2_map_eq; [|exact HF].
    cbn. intros e f He Hf. by apply Hshare.
Qed.

Lemma economic_share_sum prods fs :
  Forall2 (economic_share prods) prods fs -> prods <> [] -> Qcsum fs = 1%Qc.
Proof.
  intros HF Hne.
  assert (Qcsum (map worth prods) <> 0%Qc) as Htot.
  { destruct prods; [done|]. apply Forall2_cons_inv_l in HF as (f & fs' & H & _). by destruct H. }
  set (total := Qcsum (map worth prods)) in *.
  set (total_t := Qcsum (map true_worth (filter valued prods))).
  set (worth_t := Qcsum (map worth (filter valued prods))).
  set (g := fun e => if decide (valued e) then (true_worth e / total_t * (worth_t / total))%Qc
                     else (worth e / total)%Qc).
  assert (fs = map g prods) as ->.
  { eapply Forall2_map_eq; [|exact HF]. intros e f He (_ & H1 & H2). unfold g.
    destruct (decide (valued e)) as [Hv|Hv]; [by apply H2|by apply H1]. }
  rewrite (Qcsum_filter_split valued g).
  assert (map g (filter (fun x => ~ valued x) prods) =
          map (fun x => / total * x)%Qc (map worth (filter (fun x => ~ valued x) prods))) as ->.
  { rewrite map_map. apply map_ext_in. intros e He%elem_of_list_In.
    apply elem_of_list_filter in He as [Hv _]. unfold g. rewrite decide_False by done.
    unfold Qcdiv. ring. }
  assert (map g (filter valued prods) =
          map (fun x => (/ total_t * (worth_t / total)) * x)%Qc
            (map true_worth (filter valued prods))) as ->.
  { rewrite map_map. apply map_ext_in. intros e He%elem_of_list_In.
    apply elem_of_list_filter in He as [Hv _]. unfold g. rewrite decide_True by done.
    unfold Qcdiv. ring. }
  rewrite !Qcsum_scale. fold total_t.
  pose proof (Qcsum_filter_split valued worth prods) as Hs. fold total worth_t in Hs.
  set (rest := Qcsum (map worth (filter (fun x => ~ valued x) prods))) in *.
  destruct (decide (filter valued prods = [])) as [E|E].
  - assert (total_t = 0%Qc) as -> by (unfold total_t; by rewrite E).
    assert (worth_t = 0%Qc) as Hw by (unfold worth_t; by rewrite E).
    rewrite Hw in Hs. assert (rest = total) as -> by (rewrite Hs; ring).
    generalize (/ 0 * (worth_t / total))%Qc. intros z. field. done.
  - assert (total_t <> 0%Qc).
    { destruct (filter valued prods) as [|e l] eqn:El; [done|].
      assert (e ∈ filter valued prods) as He by (rewrite El; by left).
      apply elem_of_list_filter in He as [Hv He].
      apply elem_of_list_lookup in He as [i Hi].
      destruct (Forall2_lookup_l _ _ _ _ _ HF Hi) as (f & _ & (_ & _ & H)).
      destruct (H Hv) as [H' _]. rewrite El in H'. done. }
    rewrite Hs in *. field. done.
Qed.

Lemma Qcsum_le_one {A} (g : A -> Qc) l x :
  (forall y, y ∈ l -> (0 <= g y)%Qc) -> x ∈ l -> (g x <= Qcsum (map g l))%Qc.
Proof.
  induction l as [|y l IH]; intros Hg Hx; [by apply elem_of_nil in Hx|].
  change (g x <= g y + Qcsum (map g l))%Qc.
  assert (0 <= Qcsum (map g l))%Qc.
  { apply Qcsum_nonneg, Forall_forall. intros z Hz. apply elem_of_list_fmap in Hz as (w & -> & Hw).
    apply Hg. by right. }
  apply elem_of_cons in Hx as [->|Hx]; [qclra|].
  assert (0 <= g y)%Qc by (apply Hg; by left).
  assert (g x <= Qcsum (map g l))%Qc by (apply IH; [intros; apply Hg; by right|done]). qclra.
Qed.

Lemma Qcdiv_range x y : (0 <= x)%Qc -> (x <= y)%Qc -> y <> 0%Qc -> (0 <= x / y /\ x / y <= 1)%Qc.
Proof.
  intros Hx Hxy Hy. assert (0 < y)%Qc as Hpos.
  { assert (0 <= y)%Qc as H by qclra. apply Qcle_lt_or_eq in H as [|H]; congruence. }
  assert ((x / y) * y = x)%Qc as E by (field; done).
  split; set (q := (x / y)%Qc) in *; clearbody q.
  - destruct (Qcltb q 0) eqn:Eq; qc_bool; [|done]. exfalso. revert Hx. apply Qclt_not_le. qcnra.
  - destruct (Qcltb 1 q) eqn:Eq; qc_bool; [|done]. exfalso. revert Hxy. apply Qclt_not_le. qcnra.
Qed.

Lemma Qcdiv_pos x y : (0 < x)%Qc -> (0 < y)%Qc -> (0 < x / y)%Qc.
Proof.
  intros Hx Hy. assert ((x / y) * y = x)%Qc as E.
  { field. intros ->. by apply Qclt_not_eq in Hy. }
  set (q := (x / y)%Qc) in *. clearbody q.
  destruct (Qcleb q 0) eqn:Eq; qc_bool; [|done]. exfalso. revert Hx. apply Qcle_not_lt. qcnra.
Qed.
Lemma Qcmult_pos x y : (0 < x)%Qc -> (0 < y)%Qc -> (0 < x * y)%Qc.
Proof. intros Hx Hy. qcnra. Qed.

Lemma economic_share_range prods e f :
  economic_share prods e f -> e ∈ prods ->
  Forall (fun p => 0 <= worth p /\ 0 <= true_worth p)%Qc prods -> (0 <= f /\ f <= 1)%Qc.
Proof.
  intros (Htot & H1 & H2) He HF. rewrite Forall_forall in HF.
  assert (forall p, p ∈ prods -> 0 <= worth p)%Qc as Hw by (intros p Hp; exact (proj1 (HF p Hp))).
  assert (forall p, p ∈ prods -> 0 <= true_worth p)%Qc as Ht' by (intros p Hp; exact (proj2 (HF p Hp))).
  clear HF.
  destruct (decide (valued e)) as [Hv|Hv].
  - destruct (H2 Hv) as [Ht ->].
    destruct (Qcdiv_range (true_worth e) (Qcsum (map true_worth (filter valued prods)))) as [A1 A2]; try done.
    { exact (Ht' _ He). }
    { apply Qcsum_le_one; [|by apply elem_of_list_filter].
      intros y [_ Hy]%elem_of_list_filter. exact (Ht' _ Hy). }
    destruct (Qcdiv_range (Qcsum (map worth (filter valued prods))) (Qcsum (map worth prods))) as [B1 B2]; try done.
    { apply Qcsum_nonneg, Forall_forall. intros z Hz. apply elem_of_list_fmap in Hz as (w & -> & Hz).
      apply elem_of_list_filter in Hz as [_ Hz]. exact (Hw _ Hz). }
    { rewrite (Qcsum_filter_split valued worth prods).
      assert (0 <= Qcsum (map worth (filter (fun x => ~ valued x) prods)))%Qc; [|qclra].
      apply Qcsum_nonneg, Forall_forall. intros z Hz. apply elem_of_list_fmap in Hz as (w & -> & Hz).
      apply elem_of_list_filter in Hz as [_ Hz]. exact (Hw _ Hz). }
    set (a := (true_worth e / _)%Qc) in *. set (b := (_ / Qcsum (map worth prods))%Qc) in *.
    clearbody a b. split; qcnra.
  - rewrite (H1 Hv). apply Qcdiv_range; [exact (Hw _ He)| |done]. by apply Qcsum_le_one.
Qed.

(** ** Economic allocation *)
Lemma choose_single_output ln ds p f out :
  choose_reference_product_exchange ln ds p f = Ok out ->
  e_amount p <> 0%Qc /\ classified ds /\ single_output_of ds p f out.
Proof. intros H. apply choose_spec in H as (H1 & H2 & H3). done. Qed.

Lemma valid_economic_ok ds u :
  valid_economic_activity ds = Ok u <->
  classified ds /\
  Forall (fun p => exists x, lookup_prop "price" p = Some x /\ 0 <= x /\ 0 <= e_amount p)%Qc
    (filter alloc_output (d_exchanges ds)).
Proof.
  unfold valid_economic_activity, classified. rewrite iterR_Ok.
  induction (d_exchanges ds) as [|e es IH].
  { split; [intros _; split; constructor|constructor]. }
  rewrite !Forall_cons, filter_cons, IH. clear IH.
  assert ((let? b := production_exchange e in if b then valid_economic_exchange e else Ok tt) = Ok tt <->
    (e_type e = Byproduct -> e_class e <> None) /\
    (alloc_output e -> exists x, lookup_prop "price" e = Some x /\ 0 <= x /\ 0 <= e_amount e)%Qc) as ->.
  { destruct (production_exchange e) as [b|err] eqn:E; cbn [bind].
    - apply production_exchange_ok in E as [Hc Hb]. destruct b.
      + symmetry in Hb. apply bool_decide_eq_true in Hb.
        unfold valid_economic_exchange. rewrite get_numerical_lookup.
        destruct (lookup_prop "price" e) as [x|].
        * destruct (Qcltb x 0) eqn:E1; [|destruct (Qcltb (e_amount e) 0) eqn:E2]; qc_bool.
          -- split; [done|]. intros [_ H]. destruct (H Hb) as (? & [= <-] & H1 & _).
             by apply Qcle_not_lt in H1.
          -- split; [done|]. intros [_ H]. destruct (H Hb) as (? & [= <-] & _ & H1).
             by apply Qcle_not_lt in H1.
          -- split; [|done]. intros _. split; [done|]. eauto.
        * split; [done|]. intros [_ H]. destruct (H Hb) as (? & ? & _). done.
      + symmetry in Hb. apply bool_decide_eq_false in Hb. split; done.
    - split; [done|]. intros [Hc _].
      assert (production_exchange e = Ok (bool_decide (alloc_output e))).
      { by apply production_exchange_ok. } congruence. }
  destruct (decide (alloc_output e)) as [Ha|Ha].
  - rewrite Forall_cons. tauto.
  - tauto.
Qed.

Lemma economic_allocation_spec ln ds outs :
  economic_allocation ln ds = Ok outs ->
  classified ds /\
  let prods := filter alloc_output (d_exchanges ds) in
  prods <> [] /\
  Forall (fun p => exists x, lookup_prop "price" p = Some x /\ 0 <= x /\ 0 < e_amount p)%Qc prods /\
  exists fs, Qcsum fs = 1%Qc /\
    Forall3 (fun p f out => economic_share prods p f /\ single_output_of ds p f out)
      prods fs outs.
Proof.
  unfold economic_allocation. intros H.
  apply bind_Ok in H as ([] & Hv & H). apply bind_Ok in H as (prods & Hp & H).
  apply bind_Ok in H as (fs & Hf & H).
  apply valid_economic_ok in Hv as [_ Hv].
  apply allocatable_production_ok in Hp as [Hcl ->]. split; [done|].
  set (prods := filter alloc_output (d_exchanges ds)) in *.
  apply economic_factors_ok in Hf as (Hne & Htot & Htt & HF).
  assert (Hsum : Qcsum fs = 1%Qc) by (by eapply economic_share_sum).
  cbv zeta. split; [done|].
  unfold apply_allocation_factors in H. apply mapR_Ok in H.
  assert (Forall3 (fun p f out => economic_share prods p f /\ e_amount p <> 0%Qc /\
                                  single_output_of ds p f out) prods fs outs) as H3.
  { clear Hne Htot Htt Hsum Hv. revert HF. generalize prods at 1 3. intros all HF.
    revert outs H. induction HF as [|p f ps fs Hpf HF IH]; intros outs H.
    - apply Forall2_nil_inv_l in H as ->. constructor.
    - cbn in H. apply Forall2_cons_inv_l in H as (out & outs' & H1 & H2 & ->).
      constructor; [|by apply IH]. cbn in H1.
      apply choose_single_output in H1 as (Hn & _ & Hs). done. }
  split.
  - apply Forall_forall. intros p Hp. rewrite Forall_forall in Hv.
    destruct (Hv p Hp) as (x & Hx & H0 & Ha). exists x. split; [done|]. split; [done|].
    apply Qcle_lt_or_eq in Ha as [Ha|Ha]; [done|]. exfalso.
    apply elem_of_list_lookup in Hp as [i Hi].
    destruct (Forall3_lookup_l _ _ _ _ _ _ H3 Hi) as (f & out & _ & _ & _ & Hn & _). congruence.
  - exists fs. split; [done|]. eapply Forall3_impl; [exact H3|]. naive_solver.
Qed.

Lemma burden_same_key i n t e e' :
  same_besides_amount_uncertainty e e' ->
  (~ alloc_output e /\ e_id e = i /\ e_name e = n /\ e_type e = t) <->
  (~ alloc_output e' /\ e_id e' = i /\ e_name e' = n /\ e_type e' = t).
Proof.
  intros Hs. rewrite (alloc_output_same _ _ Hs).
  destruct Hs as (-> & -> & _ & -> & _). done.
Qed.

Lemma Qcsum_scaled k es es' :
  Forall2 (scaled_by k) es es' -> Qcsum (map e_amount es') = (k * Qcsum (map e_amount es))%Qc.
Proof.
  induction 1 as [|e e' es es' [He _] HF IH]; [change (0 = k * 0)%Qc; ring|].
  change (e_amount e' + Qcsum (map e_amount es') = k * (e_amount e + Qcsum (map e_amount es)))%Qc.
  rewrite He, IH. ring.
Qed.

Lemma filter_none {A} (P : A -> Prop) `{forall x, Decision (P x)} l :
  Forall (fun x => ~ P x) l -> filter P l = [].
Proof.
  induction 1 as [|x l Hx HF IH]; [done|]. by rewrite filter_cons_False.
Qed.

Lemma filter_filter_imp {A} (P Q : A -> Prop) `{forall x, Decision (P x), forall x, Decision (Q x)} (l : list A) :
  (forall x, P x -> Q x) -> filter P (filter Q l) = filter P l.
Proof.
  intros HPQ. induction l as [|x l IH]; [done|]. rewrite (filter_cons Q).
  destruct (decide (Q x)) as [Hq|Hq].
  - rewrite !filter_cons, IH. done.
  - rewrite filter_cons_False by naive_solver. done.
Qed.

Lemma single_output_burden ds p f out i n t :
  single_output_of ds p f out -> e_amount p <> 0%Qc -> t <> DroppedProduct ->
  (burden i n t out / production out * e_amount p = f * burden i n t ds)%Qc.
Proof.
  intros (k & rp' & dropped & others & [Hk _] & -> & Hrp & Hd & Ho & Hout) Ha Ht.
  unfold burden, production. rewrite Hout. cbn [d_exchanges set_d_exchanges].
  destruct Hrp as (Hty & Ham & _).
  rewrite filter_cons_False by (unfold alloc_output, is_refproduct; tauto).
  rewrite filter_app, (filter_none _ dropped).
  2:{ apply Forall_forall. intros d Hin. apply elem_of_list_lookup in Hin as [j Hj].
      destruct (Forall2_lookup_r _ _ _ _ _ Hd Hj) as (e & _ & Hdt & _). intros (_ & _ & _ & E).
      congruence. }
  cbn [app].
  pose proof (scaled_filter (fun e => ~ alloc_output e /\ e_id e = i /\ e_name e = n /\ e_type e = t)
    _ _ _ (burden_same_key i n t) Ho) as Hsc.
  rewrite filter_filter_imp in Hsc by tauto.
  rewrite (Qcsum_scaled _ _ _ Hsc).
  assert (Qcsum (map e_amount [rp']) = e_amount p * k)%Qc as ->.
  { change (e_amount rp' + 0 = e_amount p * k)%Qc. rewrite Ham. ring. }
  field. split; [|done]. intros ->. by apply Qclt_not_eq in Hk.
Qed.

Lemma economic_allocation_conserves ln ds outs i n t :
  economic_allocation ln ds = Ok outs -> t <> DroppedProduct ->
  Qcsum (zip_with (fun p out => burden i n t out / production out * e_amount p)%Qc
           (filter alloc_output (d_exchanges ds)) outs) = burden i n t ds.
Proof.
  intros H Ht. apply economic_allocation_spec in H as (_ & _ & Hpos & fs & Hsum & H3).
  set (prods := filter alloc_output (d_exchanges ds)) in *.
  assert (zip_with (fun p out => burden i n t out / production out * e_amount p)%Qc prods outs
          = map (fun f => burden i n t ds * f)%Qc fs) as ->.
  { clear Hsum. assert (Forall3 (single_output_of ds) prods fs outs) as H3'.
    { eapply Forall3_impl; [exact H3|]. naive_solver. }
    clear H3. clearbody prods. revert Hpos.
    induction H3' as [|p f out ps fs outs H1 H3 IH]; intros Hpos; [done|].
    apply Forall_cons in Hpos as [(x & _ & _ & Hp) Hpos]. cbn. f_equal; [|by apply IH].
    rewrite (single_output_burden ds p f out); [ring|done| |done].
    intros E. rewrite E in Hp. by apply Qclt_not_eq in Hp. }
  rewrite Qcsum_scale, Hsum. ring.
Qed.

Lemma zip_with_map_l {A B C D} (g : A -> B) (h : B -> C -> D) l k :
  zip_with h (map g l) k = zip_with (fun x y => h (g x) y) l k.
Proof. revert k. induction l; intros [|? ?]; cbn; congruence. Qed.

(** When economic allocation succeeds. *)
Lemma economic_allocation_total ln ds :
  classified ds -> filter alloc_output (d_exchanges ds) <> [] ->
  Forall (fun p => (exists x, lookup_prop "price" p = Some x /\ 0 < x)%Qc /\
                   (forall y, lookup_prop "true value relation" p = Some y -> 0 < y)%Qc /\
                   (0 < e_amount p)%Qc) (filter alloc_output (d_exchanges ds)) ->
  Forall (fun e => wf_dist ln (e_amount e) (e_unc e)) (d_exchanges ds) ->
  exists outs, economic_allocation ln ds = Ok outs.
Proof.
  intros Hcl Hne Hpos Hwf. unfold economic_allocation.
  set (prods := filter alloc_output (d_exchanges ds)) in *.
  assert (valid_economic_activity ds = Ok tt) as ->.
  { apply valid_economic_ok. split; [done|]. eapply Forall_impl; [exact Hpos|]. cbn.
    intros p ((x & Hx & H1) & _ & H2). exists x. split; [done|]. split; by apply Qclt_le_weak. }
  assert (allocatable_production ds = Ok prods) as ->.
  { by apply allocatable_production_ok. }
  cbn [bind].
  assert (forall p, p ∈ prods -> 0 < worth p)%Qc as Hw.
  { intros p Hp. rewrite Forall_forall in Hpos. destruct (Hpos p Hp) as ((x & Hx & H1) & _ & H2).
    unfold worth. rewrite Hx. cbn. qcnra. }
  assert (forall p, p ∈ prods -> valued p -> 0 < true_worth p)%Qc as Htw.
  { intros p Hp Hv. rewrite Forall_forall in Hpos. destruct (Hpos p Hp) as (_ & Hy & H2).
    unfold true_worth, valued in *. destruct (lookup_prop "true value relation" p) as [y|] eqn:E; [|done].
    specialize (Hy y eq_refl). cbn. qcnra. }
  assert (forall (g : exchange -> Qc) l, l <> [] -> (forall p, p ∈ l -> 0 < g p)%Qc ->
            (0 < Qcsum (map g l))%Qc) as Hsum.
  { intros g l Hl. induction l as [|p l IH]; [done|]. intros Hg.
    change (0 < g p + Qcsum (map g l))%Qc.
    assert (0 < g p)%Qc by (apply Hg; by left).
    destruct l as [|q l]; [change (Qcsum (map g [])) with 0%Qc; qclra|].
    assert (0 < Qcsum (map g (q :: l)))%Qc.
    { apply IH; [done|]. intros. apply Hg. by right. } qclra. }
  assert (0 < Qcsum (map worth prods))%Qc as Htot by (by apply Hsum).
  assert (filter valued prods <> [] ->
          0 < Qcsum (map true_worth (filter valued prods)) /\
          0 < Qcsum (map worth (filter valued prods)))%Qc as Htt.
  { intros Hf. split; apply Hsum; try done; intros p [H1 H2]%elem_of_list_filter; auto. }
  set (total_t := Qcsum (map true_worth (filter valued prods))) in *.
  set (worth_t := Qcsum (map worth (filter valued prods))) in *.
  set (g := fun e => if decide (valued e) then (true_worth e / total_t * (worth_t / Qcsum (map worth prods)))%Qc
                     else (worth e / Qcsum (map worth prods))%Qc).
  assert (Hnz : forall x, (0 < x)%Qc -> x <> 0%Qc) by (intros x Hx ->; by apply Qclt_not_eq in Hx).
  assert (economic_factors prods = Ok (map g prods)) as ->.
  { apply economic_factors_ok. split; [done|]. split; [by apply Hnz|].
    split; [intros Hf; apply Hnz; by apply Htt|].
    apply Forall2_fmap_r, Forall_Forall2_diag, Forall_forall. intros e He.
    unfold economic_share. fold total_t worth_t. split; [by apply Hnz|]. unfold g.
    destruct (decide (valued e)) as [Hv|Hv]; split; try done. intros _. split; [|done].
    apply Hnz. apply Htt. intros E. assert (e ∈ filter valued prods) as Hin by (by apply elem_of_list_filter).
    rewrite E in Hin. by apply elem_of_nil in Hin. }
  cbn [bind]. unfold apply_allocation_factors. apply mapR_ok_all. intros [f p] Hin. cbn.
  assert (f = g p /\ p ∈ prods) as [-> Hp].
  { clear -Hin. clearbody g prods. induction prods as [|q l IH]; [by apply elem_of_nil in Hin|].
    cbn in Hin. apply elem_of_cons in Hin as [[= -> ->]|Hin].
    - split; [done|by left].
    - destruct (IH Hin). split; [done|by right]. }
  apply choose_total; try done.
  - rewrite Forall_forall in Hpos. destruct (Hpos p Hp) as (_ & _ & H2). by apply Hnz.
  - unfold g. destruct (decide (valued p)) as [Hv|Hv].
    + destruct Htt as [H1 H2].
      { intros E. assert (p ∈ filter valued prods) as Hin' by (by apply elem_of_list_filter).
        rewrite E in Hin'. by apply elem_of_nil in Hin'. }
      apply Hnz. apply Qcmult_pos; apply Qcdiv_pos; auto.
    + apply Hnz. apply Qcdiv_pos; auto.
Qed.

(** ** Waste treatment and recycling *)
Lemma filterb_cons {A} (p : A -> bool) x l :
  filterb p (x :: l) = if p x then x :: filterb p l else filterb p l.
Proof. done. Qed.

Lemma filter_not_ref_prods es :
  filterb (fun e => negb (bool_decide (e_type e = RefProduct))) (filter alloc_output es)
  = filter alloc_byproduct es.
Proof.
  induction es as [|e es IH]; [done|]. rewrite !filter_cons.
  destruct (decide (alloc_output e)) as [Ha|Ha], (decide (alloc_byproduct e)) as [Hb|Hb].
  - rewrite filterb_cons, bool_decide_false; [cbn [negb]; by rewrite IH|].
    destruct Hb as [Hb _]. congruence.
  - rewrite filterb_cons, bool_decide_true; [done|]. destruct Ha as [Ha|Ha]; done.
  - exfalso. apply Ha. by right.
  - done.
Qed.

Lemma free_byproduct_spec ln ds p out :
  free_byproduct ln ds p = Ok out -> alloc_output p -> e_amount p <> 0%Qc /\ free_supply ds p out.
Proof.
  unfold free_byproduct. intros H Hp. apply choose_spec in H as (Ha & _ & H). split; [done|].
  destruct H as (k & rp' & dropped & others & Hk & -> & Hrp & Hd & Ho & _).
  cbn [d_exchanges set_d_exchanges] in *.
  rewrite (filter_cons_True alloc_output) in Hd by done.
  rewrite (filter_cons_False (fun e => e <> p)) in Hd by (intros Hn; by apply Hn).
  rewrite filter_nil in Hd. apply Forall2_nil_inv_l in Hd as ->.
  rewrite filter_cons_False in Ho by (intros Hn; by apply Hn).
  apply Forall2_nil_inv_l in Ho as ->.
  exists k, rp'. split; [done|]. split; [done|]. reflexivity.
Qed.

Lemma waste_treatment_spec ln ds outs :
  waste_treatment_allocation ln ds = Ok outs ->
  exists rp treatment free,
    outs = treatment :: free /\
    filter is_refproduct (d_exchanges ds) = [rp] /\ e_class rp = Some Waste /\
    (e_amount rp < 0)%Qc /\ classified ds /\
    single_output_of ds rp 1 treatment /\
    Forall2 (free_supply ds) (filter alloc_byproduct (d_exchanges ds)) free.
Proof.
  unfold waste_treatment_allocation, valid_waste_treatment_activity. intros H.
  apply bind_Ok in H as ([] & Hv & H). apply bind_Ok in H as (rp & Hrp & H).
  apply bind_Ok in H as (tr & Htr & H). apply bind_Ok in H as (prods & Hp & H).
  apply bind_Ok in H as (free & Hfree & H). apply Ok_inj in H as <-.
  rewrite Hrp in Hv. cbn [bind] in Hv. apply bind_Ok in Hv as ([] & Hv1 & Hv2).
  apply assertR_Ok in Hv1, Hv2. apply bool_decide_eq_true in Hv1. apply Qcltb_true in Hv2.
  apply get_single_ok in Hrp. apply allocatable_production_ok in Hp as [Hcl ->].
  exists rp, tr, free. split; [done|]. split; [done|]. split; [done|]. split; [done|].
  split; [done|]. split; [by eapply choose_single_output|].
  rewrite filter_not_ref_prods in Hfree. apply mapR_Ok in Hfree.
  assert (Forall alloc_output (filter alloc_byproduct (d_exchanges ds))) as Hall.
  { apply Forall_forall. intros e [He _]%elem_of_list_filter. by right. }
  revert Hall. induction Hfree as [|p out ps os H HF IH]; intros Hall; [constructor|].
  apply Forall_cons in Hall as [H1 H2]. constructor; [|by apply IH].
  by eapply free_byproduct_spec.
Qed.

Lemma waste_treatment_total ln ds rp :
  filter is_refproduct (d_exchanges ds) = [rp] -> e_class rp = Some Waste ->
  (e_amount rp < 0)%Qc -> classified ds ->
  Forall (fun e => wf_dist ln (e_amount e) (e_unc e)) (d_exchanges ds) ->
  Forall (fun e => alloc_byproduct e -> e_amount e <> 0%Qc) (d_exchanges ds) ->
  exists outs, waste_treatment_allocation ln ds = Ok outs.
Proof.
  intros Hrp Hc Ha Hcl Hwf Hnz. unfold waste_treatment_allocation, valid_waste_treatment_activity.
  assert (get_single_reference_product ds = Ok rp) as -> by (by apply get_single_ok).
  cbn [bind]. rewrite bool_decide_true by done. cbn [assertR bind].
  assert (Qcltb (e_amount rp) 0 = true) as -> by (by apply Qcltb_true). cbn [assertR bind].
  assert (H1n0 : 1%Qc <> 0%Qc) by by_compute.
  destruct (choose_total ln ds rp 1) as [tr ->]; try done.
  { intros E. rewrite E in Ha. by apply Qclt_not_eq in Ha. }
  cbn [bind].
  assert (allocatable_production ds = Ok (filter alloc_output (d_exchanges ds))) as ->
    by (by apply allocatable_production_ok).
  cbn [bind]. rewrite filter_not_ref_prods.
  destruct (mapR_ok_all (free_byproduct ln ds) (filter alloc_byproduct (d_exchanges ds))) as [free ->].
  { intros p [Hp Hin]%elem_of_list_filter. unfold free_byproduct.
    rewrite Forall_forall in Hnz, Hwf. apply choose_total; [by apply Hnz| |done|].
    - unfold classified. cbn. constructor; [|constructor]. destruct Hp as [_ Hp]. by rewrite Hp.
    - cbn. constructor; [by apply Hwf|constructor]. }
  cbn. eauto.
Qed.

Lemma flip_reference_spec ln ds ds' :
  flip_reference_product ln ds = Ok ds' ->
  exists es, ds' = set_d_exchanges es ds /\ Forall2 turned_into_input (d_exchanges ds) es.
Proof.
  unfold flip_reference_product. intros H. apply bind_Ok in H as (es & Hes & H).
  apply Ok_inj in H as <-. exists es. split; [done|]. apply mapR_Ok in Hes.
  eapply Forall2_impl; [exact Hes|]. cbn. intros e e' H. unfold turned_into_input, is_refproduct.
  case_bool_decide as Ht.
  - right. split; [done|]. by apply scale_exchange_spec in H.
  - left. split; [done|]. by apply Ok_inj in H.
Qed.

Lemma turned_alloc es es' :
  Forall2 turned_into_input es es' ->
  filter alloc_output es' = filter alloc_byproduct es.
Proof.
  induction 1 as [|e e' es es' He HF IH]; [done|]. rewrite !filter_cons, IH.
  destruct He as [[Hn ->]|[Hr [Ha Hs]]].
  - destruct (decide (alloc_output e)) as [[?|?]|Ho], (decide (alloc_byproduct e)); try done.
    exfalso. apply Ho. by right.
  - rewrite decide_False.
    + rewrite decide_False; [done|]. intros [Hb _]. unfold is_refproduct in Hr. congruence.
    + rewrite <- (alloc_output_same _ _ Hs). unfold alloc_output, is_refproduct, alloc_byproduct.
      cbn. intros [|[? _]]; congruence.
Qed.

Lemma recycling_spec ln ds outs :
  recycling_allocation ln ds = Ok outs ->
  exists rp es,
    filter is_refproduct (d_exchanges ds) = [rp] /\ (e_amount rp < 0)%Qc /\
    Forall2 turned_into_input (d_exchanges ds) es /\
    filter alloc_byproduct (d_exchanges ds) <> [] /\
    economic_allocation ln (set_d_exchanges es ds) = Ok outs.
Proof.
  unfold recycling_allocation, valid_recycling_activity. intros H.
  apply bind_Ok in H as ([] & Hv & H). apply bind_Ok in H as (rp & Hrp & H).
  apply bind_Ok in H as (ds' & Hds & H).
  rewrite Hrp in Hv. cbn [bind] in Hv. apply bind_Ok in Hv as ([] & Hv1 & Hv).
  apply bind_Ok in Hv as (b & Hb & Hv2). apply assertR_Ok in Hv1, Hv2. subst b.
  apply Qcltb_true in Hv1. apply get_single_ok in Hrp.
  apply flip_reference_spec in Hds as (es & -> & HF).
  exists rp, es. split; [done|]. split; [done|]. split; [done|]. split; [|done].
  apply anyR_true in Hb as (l1 & x & l2 & Hes & Hx & _).
  apply is_allocatable_byproduct_ok in Hx as [_ Hx]. symmetry in Hx.
  apply bool_decide_eq_true in Hx. rewrite Hes, filter_app, filter_cons_True by done.
  by destruct (filter alloc_byproduct l1).
Qed.

(** ** Corollaries stated in Props_Cutoff.v *)
Lemma economic_factors_sum prods fs : economic_factors prods = Ok fs -> Qcsum fs = 1%Qc.
Proof.
  intros H. apply economic_factors_ok in H as (Hne & _ & _ & HF).
  by eapply economic_share_sum.
Qed.

Lemma Qcmult_nonneg x y : (0 <= x)%Qc -> (0 <= y)%Qc -> (0 <= x * y)%Qc.
Proof. intros. qcnra. Qed.

Lemma economic_factors_range prods fs :
  economic_factors prods = Ok fs ->
  Forall (fun p => 0 <= default 0 (lookup_prop "price" p) /\ 0 <= e_amount p /\
                   0 <= default 0 (lookup_prop "true value relation" p))%Qc prods ->
  Forall (fun f => 0 <= f /\ f <= 1)%Qc fs.
Proof.
  intros H HP. apply economic_factors_ok in H as (Hne & _ & _ & HF).
  apply Forall_lookup_2. intros i f Hi.
  destruct (Forall2_lookup_r _ _ _ _ _ HF Hi) as (p & Hp & Hs).
  apply (economic_share_range prods p f); [exact Hs|by eapply elem_of_list_lookup_2|].
  eapply Forall_impl; [exact HP|]. intros q (H1 & H2 & H3). unfold worth, true_worth.
  split; by apply Qcmult_nonneg.
Qed.

Lemma Forall3_Forall2_12 {A B C} (R : A -> B -> C -> Prop) (P : A -> B -> Prop) l k m :
  Forall3 R l k m -> (forall x y z, R x y z -> P x y) -> Forall2 P l k.
Proof. intros H HP. induction H; constructor; eauto. Qed.
Lemma Forall3_Forall2_13 {A B C} (R : A -> B -> C -> Prop) (P : A -> C -> Prop) l k m :
  Forall3 R l k m -> (forall x y z, R x y z -> P x z) -> Forall2 P l m.
Proof. intros H HP. induction H; constructor; eauto. Qed.
Lemma Forall3_Forall2_23 {A B C} (R : A -> B -> C -> Prop) (P : B -> C -> Prop) l k m :
  Forall3 R l k m -> (forall x y z, R x y z -> P y z) -> Forall2 P k m.
Proof. intros H HP. induction H; constructor; eauto. Qed.

Lemma economic_allocation_factors ln ds outs :
  economic_allocation ln ds = Ok outs ->
  exists fs,
    economic_factors (filter alloc_output (d_exchanges ds)) = Ok fs /\
    Qcsum fs = 1%Qc /\
    Forall3 (single_output_of ds) (filter alloc_output (d_exchanges ds)) fs outs.
Proof.
  intros H. pose proof (economic_allocation_spec _ _ _ H) as (_ & Hne & Hp & fs & Hs & HF).
  exists fs. split_and!; [|exact Hs|].
  - unfold economic_allocation in H. apply bind_Ok in H as (u & Hu & H).
    apply bind_Ok in H as (ps & Hps & H). apply bind_Ok in H as (fs' & Hfs & H).
    apply allocatable_production_ok in Hps as [_ ->].
    rewrite Hfs. f_equal. apply economic_factors_ok in Hfs as (_ & Ht & _ & HF').
    pose proof (Forall3_Forall2_12 _ (economic_share (filter alloc_output (d_exchanges ds))) _ _ _ HF
      (fun x y z Hx => proj1 Hx)) as HF2.
    clear -HF' HF2. revert fs' fs HF' HF2.
    generalize (filter alloc_output (d_exchanges ds)) at 2 4. intros l. 
    induction l as [|p l IH]; intros fs' fs H1 H2.
    + apply Forall2_nil_inv_l in H1 as ->. by apply Forall2_nil_inv_l in H2 as ->.
    + apply Forall2_cons_inv_l in H1 as (a & as_ & Ha & Has & ->).
      apply Forall2_cons_inv_l in H2 as (b & bs & Hb & Hbs & ->).
      f_equal; [|by apply IH].
      destruct Ha as (_ & Ha1 & Ha2), Hb as (_ & Hb1 & Hb2).
      destruct (decide (valued p)) as [Hv|Hv].
      * destruct (Ha2 Hv) as [_ ->], (Hb2 Hv) as [_ ->]. reflexivity.
      * rewrite (Ha1 Hv), (Hb1 Hv). reflexivity.
  - eapply Forall3_impl; [exact HF|]. by intros ??? [].
Qed.

Lemma filter_ref_of_alloc (es : list exchange) : filter is_refproduct (filter alloc_output es) = filter is_refproduct es.
Proof. apply filter_filter_imp. intros e. by left. Qed.

Lemma economic_one_per_product ln ds outs :
  economic_allocation ln ds = Ok outs ->
  Forall2 (fun p out =>
      exists rp', filter alloc_output (d_exchanges out) = [rp'] /\
        filter is_refproduct (d_exchanges out) = [rp'] /\
        e_id rp' = e_id p /\ e_name rp' = e_name p /\ (0 < e_amount rp')%Qc /\
        out = set_d_exchanges (d_exchanges out) ds)
    (filter alloc_output (d_exchanges ds)) outs.
Proof.
  intros H. apply economic_allocation_spec in H as (_ & _ & Hp & fs & _ & HF).
  assert (HF2 : Forall2 (fun p out => exists f, single_output_of ds p f out)
                  (filter alloc_output (d_exchanges ds)) outs)
    by (eapply Forall3_Forall2_13; [exact HF|]; intros p f out [_ Ho]; by exists f).
  clear HF. revert Hp HF2. generalize (filter alloc_output (d_exchanges ds)). intros l Hp HF.
  induction HF as [|p out l outs (f & Ho) HF IH]; [constructor|].
  apply Forall_cons in Hp as [(x & _ & _ & Ha) Hp]. constructor; [|by apply IH].
  destruct Ho as (k & rp' & dr & ot & (Hk & _) & -> & Hm & _ & _ & Hfa). exists rp'.
  destruct Hm as (Ht & Hamt & _ & _ & Hi & Hn & _). cbn [d_exchanges set_d_exchanges] in *.
  split_and!; try done.
  - rewrite <- filter_ref_of_alloc, Hfa. rewrite filter_cons_True by exact Ht. reflexivity.
  - rewrite Hamt. by apply Qcmult_pos.
Qed.

Lemma waste_treatment_burden ln ds treatment free rp i n t :
  waste_treatment_allocation ln ds = Ok (treatment :: free) ->
  filter is_refproduct (d_exchanges ds) = [rp] -> t <> DroppedProduct ->
  (burden i n t treatment / production treatment * e_amount rp = burden i n t ds)%Qc /\
  Forall (fun out => burden i n t out = 0%Qc) free.
Proof.
  intros H Hrp Ht. apply waste_treatment_spec in H as (rp' & t' & f' & Ho & Hrp' & _ & Ha & _ & Hs & HF).
  injection Ho as -> ->. rewrite Hrp in Hrp'. injection Hrp' as ->. split.
  - rewrite (single_output_burden _ _ _ _ _ _ _ Hs); [ring| |exact Ht].
    intros E. rewrite E in Ha. by apply Qclt_not_eq in Ha.
  - apply Forall_lookup_2. intros j out Hj.
    destruct (Forall2_lookup_r _ _ _ _ _ HF Hj) as (p & _ & k & r & _ & Hm & ->).
    unfold burden. cbn [d_exchanges set_d_exchanges]. rewrite filter_cons_False; [reflexivity|].
    intros [Hna _]. apply Hna. left. exact (proj1 Hm).
Qed.

Lemma recycling_outputs ln ds outs :
  recycling_allocation ln ds = Ok outs ->
  exists rp es,
    filter is_refproduct (d_exchanges ds) = [rp] /\ (e_amount rp < 0)%Qc /\
    Forall2 turned_into_input (d_exchanges ds) es /\
    filter alloc_output es = filter alloc_byproduct (d_exchanges ds) /\
    exists fs, Qcsum fs = 1%Qc /\
      Forall3 (fun p f out => economic_share (filter alloc_byproduct (d_exchanges ds)) p f /\
                              single_output_of (set_d_exchanges es ds) p f out)
        (filter alloc_byproduct (d_exchanges ds)) fs outs.
Proof.
  intros H. apply recycling_spec in H as (rp & es & Hrp & Ha & HF & _ & He).
  exists rp, es. pose proof (turned_alloc _ _ HF) as Hal. split_and!; try done.
  apply economic_allocation_spec in He as (_ & _ & _ & fs & Hs & HF3).
  cbn [d_exchanges set_d_exchanges] in HF3. rewrite Hal in HF3. by exists fs.
Qed.

Lemma recycling_input ln ds outs :
  recycling_allocation ln ds = Ok outs ->
  exists rp, filter is_refproduct (d_exchanges ds) = [rp] /\
    exists fs, Qcsum fs = 1%Qc /\ length fs = length outs /\
    Forall2 (fun f out => exists e k, e ∈ d_exchanges out /\
        e_type e = FromTechnosphere /\ e_name e = e_name rp /\ e_id e = e_id rp /\
        (0 < k)%Qc /\ e_amount e = (- e_amount rp * (f * k))%Qc) fs outs.
Proof.
  intros H. apply recycling_outputs in H as (rp & es & Hrp & Ha & HF & Hal & fs & Hs & HF3).
  exists rp. split; [exact Hrp|]. exists fs. split; [exact Hs|].
  assert (HF2 : Forall2 (fun f out => exists p, single_output_of (set_d_exchanges es ds) p f out) fs outs)
    by (eapply Forall3_Forall2_23; [exact HF3|]; intros p f out [_ Ho]; by exists p).
  split; [by eapply Forall2_length|].
  assert (Hin : rp ∈ d_exchanges ds /\ is_refproduct rp).
  { assert (rp ∈ filter is_refproduct (d_exchanges ds)) as Hi by (rewrite Hrp; left).
    apply elem_of_list_filter in Hi. tauto. }
  destruct Hin as [Hin Href]. apply elem_of_list_lookup in Hin as [j Hj].
  destruct (Forall2_lookup_l _ _ _ _ _ HF Hj) as (e1 & He1 & [[Hc _]|[_ Hsc]]); [done|].
  destruct Hsc as (Hamt & Hsame).
  assert (He1n : e1 ∈ filter (fun e => ~ alloc_output e) es).
  { apply elem_of_list_filter. split; [|by eapply elem_of_list_lookup_2].
    assert (e_type e1 = FromTechnosphere) as Ht.
    { unfold same_besides_amount_uncertainty in Hsame. cbn in Hsame. intuition congruence. }
    intros [Hr|[Hr _]]; unfold is_refproduct in *; congruence. }
  eapply Forall2_impl; [exact HF2|]. intros f out (p & k & r & dr & ot & (Hk & _) & -> & _ & _ & Hot & _).
  cbn [d_exchanges set_d_exchanges] in *.
  apply elem_of_list_lookup in He1n as [j2 Hj2].
  destruct (Forall2_lookup_l _ _ _ _ _ Hot Hj2) as (e2 & He2 & Hamt2 & Hsame2).
  exists e2, k. unfold same_besides_amount_uncertainty in *. cbn in Hsame, Hamt.
  split_and!; try (intuition congruence).
  - right. apply elem_of_app. right. by eapply elem_of_list_lookup_2.
  - rewrite Hamt2, Hamt. ring.
Qed.
