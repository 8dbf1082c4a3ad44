(** Sums, allocation factors and market shares under rounding. *)
From Coq Require Import Lqa.
From Verif Require Import Base Types Spec_Float Uncertainty Uncertainty_proofs Utils Spec_Utils Utils_proofs
  Cutoff Spec_Cutoff Cutoff_proofs Locations Spec_Mix Mix_proofs Float Float_proofs Float2_proofs.

(** [x'] is the non-negative [x] after at most [k] roundings. *)
Definition rel (k : nat) (x x' : Qc) : Prop := (0 <= x)%Qc /\ exists t, within k t /\ x' = (x * t)%Qc.
Lemma rel_bounds k x x' : rel k x x' <-> (0 <= x /\ vpow k * x <= x' /\ x' * vpow k <= x)%Qc.
Proof.
  split.
  - intros (H0 & t & [H1 H2] & ->). split; [done|]. set (p := vpow k) in *. clearbody p. split.
    + rewrite (Qcmult_comm x t). by apply Qcmult_le_compat_r.
    + assert (t * p * x <= 1 * x)%Qc by (by apply Qcmult_le_compat_r).
      replace (x * t * p)%Qc with (t * p * x)%Qc by ring. qclra.
  - intros (H0 & H1 & H2). split; [done|]. destruct (decide (x = 0%Qc)) as [->|Hx].
    + exists 1%Qc. split; [apply (within_mono 0); [apply within_one|lia]|]. pose proof (vpow_pos k) as P.
      rewrite Qcmult_0_r in H1. set (p := vpow k) in *. clearbody p.
      destruct (Qclt_le_dec 0 x') as [C|C]; [exfalso; qcnra|]. rewrite Qcmult_0_l. by apply Qcle_antisym.
    + assert (0 < x)%Qc as P. { destruct (Qclt_le_dec 0 x); [done|]. exfalso. apply Hx. by apply Qcle_antisym. }
      exists (x' / x)%Qc. split; [|field; done]. assert (x' = x' / x * x)%Qc as E by (field; done).
      set (t := (x' / x)%Qc) in *. clearbody t. subst x'. split.
      * by eapply Qcabs_lt_cancel.
      * apply (Qcabs_lt_cancel x); [done|]. replace (t * vpow k * x)%Qc with (t * x * vpow k)%Qc by ring. qclra.
Qed.
Lemma rel_mono k k' x x' : rel k x x' -> (k <= k')%nat -> rel k' x x'.
Proof. intros (H0 & t & Ht & E) L. split; [done|]. exists t. split; [by eapply within_mono|done]. Qed.
Lemma rel_refl k x : (0 <= x)%Qc -> rel k x x.
Proof. intros H. split; [done|]. exists 1%Qc. split; [apply (within_mono 0); [apply within_one|lia]|ring]. Qed.
Lemma rel_nonneg k x x' : rel k x x' -> (0 <= x')%Qc.
Proof. intros (H0 & t & Ht & ->). apply within_pos in Ht. qcnra. Qed.
Lemma rel_trans a b x y z : rel a x y -> rel b y z -> rel (a + b) x z.
Proof.
  intros (H0 & t & Ht & ->) (_ & s & Hs & ->). split; [done|]. exists (t * s)%Qc. split; [by apply within_mult|ring].
Qed.
Lemma rel_plus k x x' y y' : rel k x x' -> rel k y y' -> rel k (x + y) (x' + y').
Proof.
  rewrite !rel_bounds. intros (A0 & A1 & A2) (B0 & B1 & B2). set (p := vpow k) in *. clearbody p. split_and!.
  - qclra.
  - replace (p * (x + y))%Qc with (p * x + p * y)%Qc by ring. qclra.
  - replace ((x' + y') * p)%Qc with (x' * p + y' * p)%Qc by ring. qclra.
Qed.
Lemma rel_mult a b x x' y y' : rel a x x' -> rel b y y' -> rel (a + b) (x * y) (x' * y').
Proof.
  intros (A0 & t & Ht & ->) (B0 & s & Hs & ->). split; [qcnra|]. exists (t * s)%Qc. split; [by apply within_mult|ring].
Qed.
Lemma Qcinv_nonneg y : (0 <= y)%Qc -> (0 <= / y)%Qc.
Proof.
  intros H. destruct (decide (y = 0%Qc)) as [->|Hy]; [by_compute|].
  apply Qclt_le_weak. rewrite qc_lt, this_inv. apply Qinv_lt_0_compat. rewrite qc_le in H. apply Qle_lteq in H as [H|H]; [done|].
  exfalso. apply Hy. apply qc_eq. by rewrite <- H.
Qed.
Lemma rel_div a b x x' y y' : y <> 0%Qc -> rel a x x' -> rel b y y' -> rel (a + b) (x / y) (x' / y').
Proof.
  intros Hy (A0 & t & Ht & ->) (B0 & s & Hs & ->). split.
  - unfold Qcdiv. pose proof (Qcinv_nonneg y B0). qcnra.
  - exists (t / s)%Qc. split; [by apply within_div|]. field. split; [|done]. apply within_pos in Hs. intros ->. by apply Qclt_not_eq in Hs.
Qed.
Lemma rel_sum k l l' : Forall2 (rel k) l l' -> rel k (Qcsum l) (Qcsum l').
Proof. induction 1; cbn; [apply rel_refl, Qcle_refl|]. by apply rel_plus. Qed.
Lemma rel_zero k x x' : rel k x x' -> x' = 0%Qc <-> x = 0%Qc.
Proof.
  intros (H0 & t & Ht & ->). apply within_pos in Ht. split; [|intros ->; ring]. intros H.
  apply Qcmult_integral in H as [|H]; [done|]. rewrite H in Ht. by apply Qclt_not_eq in Ht.
Qed.
Lemma rel_zerob k x x' : rel k x x' -> Qceqb x' 0 = Qceqb x 0.
Proof. intros H. unfold Qceqb. apply bool_decide_ext. by eapply rel_zero. Qed.
Lemma rel_near k x x' : (Z.of_nat k <= 2 ^ 52)%Z -> rel k x x' -> near (slack k) x' x.
Proof.
  intros Hk (H0 & t & Ht & ->). unfold near. replace (x * t - x)%Qc with ((t - 1) * x)%Qc by ring. rewrite Qcabs_mult.
  apply Qcmult_le_compat_r; [by apply within_slack|apply Qcabs_nonneg].
Qed.

Section summing.
  Context (fl : Qc -> Qc) (Hfl : rounding fl) (add : list Qc -> Qc) (Hadd : adds_up fl add).

  Lemma fl_rel x : (0 <= x)%Qc -> rel 1 x (fl x).
  Proof using Hfl. intros H. split; [done|]. by apply fl_within. Qed.
  Lemma rel_fl k x x' : rel k x x' -> rel (S k) x (fl x').
  Proof using Hfl. intros H. replace (S k) with (k + 1)%nat by lia. eapply rel_trans; [exact H|]. apply fl_rel. by eapply rel_nonneg. Qed.
  Lemma outcome_rel t : Forall (fun x => 0 <= x)%Qc (summands t) -> rel (steps t) (Qcsum (summands t)) (outcome fl t).
  Proof using Hfl.
    induction t as [|x|l IHl r IHr]; cbn [summands steps outcome]; intros H.
    - apply rel_refl, Qcle_refl.
    - cbn. rewrite Qcplus_0_r. apply rel_refl. exact (proj1 (proj1 (Forall_cons _ _ _) H)).
    - apply Forall_app in H as [Hl Hr]. rewrite Qcsum_app. apply rel_fl. apply rel_plus.
      + eapply rel_mono; [by apply IHl|lia].
      + eapply rel_mono; [by apply IHr|lia].
  Qed.
  Lemma add_rel l : Forall (fun x => 0 <= x)%Qc l -> rel (length l) (Qcsum l) (add l).
  Proof using Hfl Hadd.
    intros H. destruct (Hadd l) as (t & Hp & Hs & ->). rewrite <- (Qcsum_perm _ _ Hp). eapply rel_mono; [|exact Hs].
    apply outcome_rel. by rewrite Hp.
  Qed.
  Lemma add_rel_list k l l' : Forall2 (rel k) l l' -> rel (k + length l) (Qcsum l) (add l').
  Proof using Hfl Hadd.
    intros H. eapply rel_trans; [by apply rel_sum|]. rewrite (Forall2_length _ _ _ H). apply add_rel.
    clear - H. induction H; constructor; [by eapply rel_nonneg|done].
  Qed.

  (** *** Allocation factors *)
  Definition ordinary (e : exchange) : Prop := (0 <= price e)%Qc /\ (0 <= e_amount e)%Qc /\ (0 <= true_value e)%Qc.
  Lemma revenue_rel e : ordinary e -> rel 1 (revenue e) (float_revenue fl e).
  Proof using Hfl. intros (H1 & H2 & _). apply (fl_rel _). by apply Qcmult_nonneg. Qed.
  Lemma true_value_rel e : ordinary e -> rel 1 (true_value e * e_amount e)%Qc (float_true_value fl e).
  Proof using Hfl. intros (_ & H2 & H1). apply (fl_rel _). by apply Qcmult_nonneg. Qed.
  Lemma map_rel k (f g : exchange -> Qc) l : (forall e, ordinary e -> rel k (f e) (g e)) ->
    Forall ordinary l -> Forall2 (rel k) (map f l) (map g l).
  Proof using. intros H HF. induction HF; cbn; constructor; auto. Qed.

  Definition roundings (n : nat) : nat := (3 * n + 7)%nat.
  Lemma factors_rel prods : Forall ordinary prods ->
    match float_factors fl add prods, economic_factors prods with
    | Ok fs', Ok fs => Forall2 (rel (roundings (length prods))) fs fs'
    | Err e', Err e => e' = e
    | _, _ => False
    end.
  Proof using Hfl Hadd.
    intros H. destruct prods as [|p0 prods0]; [done|]. set (prods := p0 :: prods0) in *. unfold float_factors, economic_factors.
    change (match prods with [] => _ | _ => ?x end) with x. cbv zeta.
    pose proof (add_rel_list 1 _ _ (map_rel 1 _ _ prods revenue_rel H)) as R. rewrite map_length in R.
    pose proof (add_rel_list 1 _ _ (map_rel 1 _ _ prods true_value_rel H)) as T. rewrite map_length in T.
    set (mask := filterb has_true_value prods).
    assert (Forall ordinary mask) as Hm.
    { apply Forall_forall. intros e He. rewrite Forall_forall in H. apply H. unfold mask in He. by apply filterb_In in He as [He _]. }
    assert (length mask <= length prods)%nat as Hlen.
    { unfold mask, filterb. clear. induction prods as [|a l IH]; cbn; [lia|]. destruct (has_true_value a); cbn; lia. }
    pose proof (add_rel_list 1 _ _ (map_rel 1 _ _ mask revenue_rel Hm)) as M. rewrite map_length in M.
    rewrite (rel_zerob _ _ _ R). destruct (Qceqb (Qcsum (map revenue prods)) 0) eqn:E1; [done|].
    rewrite (rel_zerob _ _ _ T). destruct (negb (bool_decide (mask = [])) && _) eqn:E2; [done|].
    qc_bool. set (n := length prods) in *.
    set (total := Qcsum (map revenue prods)) in *. set (total' := add (map (float_revenue fl) prods)) in *.
    set (tvt := Qcsum (map (fun e => true_value e * e_amount e)%Qc prods)) in *. set (tvt' := add (map (float_true_value fl) prods)) in *.
    set (mr := Qcsum (map revenue mask)) in *. set (mr' := add (map (float_revenue fl) mask)) in *.
    assert (rel (2 * n + 3) (mr / total) (fl (mr' / total'))) as F.
    { eapply rel_mono; [apply rel_fl; apply (rel_div _ _ _ _ _ _ E1 M R)|]. lia. }
    assert (forall e, e ∈ prods -> has_true_value e = true -> tvt <> 0%Qc) as Ht.
    { intros e He Hv. apply andb_false_iff in E2 as [E2|E2]; [|by apply Qceqb_false in E2].
      apply negb_false_iff, bool_decide_eq_true in E2. exfalso.
      assert (e ∈ mask) as Hin by (unfold mask; by apply filterb_In). rewrite E2 in Hin. by apply elem_of_nil in Hin. }
    assert (forall l, (forall e, e ∈ l -> e ∈ prods) -> Forall2 (rel (roundings n))
      (map (fun e => if has_true_value e then (true_value e * e_amount e / tvt * (mr / total))%Qc else (revenue e / total)%Qc) l)
      (map (fun e => if has_true_value e then fl (fl (float_true_value fl e / tvt') * fl (mr' / total'))%Qc
                     else fl (float_revenue fl e / total')%Qc) l)) as HF; [|by apply HF].
    rewrite Forall_forall in H.
    induction l as [|e l IH]; intros Hin; cbn [map]; constructor.
    - assert (e ∈ prods) as He by (apply Hin; apply elem_of_list_here). specialize (H e He).
      destruct (has_true_value e) eqn:Ev.
      + pose proof (rel_fl _ _ _ (rel_div _ _ _ _ _ _ (Ht e He Ev) (true_value_rel e H) T)) as Q.
        eapply rel_mono; [exact (rel_fl _ _ _ (rel_mult _ _ _ _ _ _ Q F))|]. unfold roundings. lia.
      + eapply rel_mono; [exact (rel_fl _ _ _ (rel_div _ _ _ _ _ _ E1 (revenue_rel e H) R))|]. unfold roundings. lia.
    - apply IH. intros e' He'. apply Hin. by apply elem_of_list_further.
  Qed.

  (** *** Burdens *)
  Lemma float_scale_rel a f : exists t, within 1 t /\ float_scale fl a f = (a * f * t)%Qc.
  Proof using Hfl.
    unfold float_scale. destruct (Qceqb f 1) eqn:E; [|apply fl_within; done]. qc_bool. subst f.
    exists 1%Qc. split; [by_compute|ring].
  Qed.
  Definition tolerance2 : Qc := frac 105 10000000000000000.
  Lemma product_close s t a b : (Qcabs (s - 1) <= a)%Qc -> (Qcabs (t - 1) <= b)%Qc -> (0 <= t)%Qc ->
    (Qcabs (s * t - 1) <= a * (1 + b) + b)%Qc.
  Proof using.
    intros Hs Ht Hp. replace (s * t - 1)%Qc with ((s - 1) * t + (t - 1))%Qc by ring.
    assert (Qcabs ((s - 1) * t + (t - 1)) <= Qcabs (s - 1) * t + Qcabs (t - 1))%Qc as L.
    { rewrite <- (Qcabs_pos t Hp) at 3. rewrite <- Qcabs_mult. set (x := ((s - 1) * t)%Qc). set (y := (t - 1)%Qc). clearbody x y.
      qcabs x; qcabs y; qcabs (x + y)%Qc; qclra. }
    eapply Qcle_trans; [exact L|]. assert (t <= 1 + b)%Qc by (qcabs (t - 1)%Qc; qclra).
    pose proof (Qcabs_nonneg (s - 1)). set (x := Qcabs (s - 1)) in *. set (y := Qcabs (t - 1)) in *. clearbody x y.
    assert (x * t <= x * (1 + b))%Qc by qcnra. assert (0 <= 1 + b)%Qc by qclra. assert (x * (1 + b) <= a * (1 + b))%Qc by (by apply Qcmult_le_compat_r). qclra.
  Qed.
  Lemma choose_other p f d others out j b : float_choose fl p f d others = Ok out -> others !! j = Some b ->
    exists x t, out !! (S d + j) = Some x /\ (x * Qcabs p = b * f * t)%Qc /\ (0 <= t)%Qc /\ (Qcabs (t - 1) <= tolerance2)%Qc.
  Proof using Hfl.
    unfold float_choose. destruct (Qctruthy p); [|discriminate]. cbn [negb]. intros H Hj.
    apply (normalised_any fl Hfl) in H.
    destruct (Forall2_lookup_l _ _ _ (S d + j) (float_scale fl b f) H) as (x & Hx & t & E & Ht & Hc).
    { change (S d + j)%nat with (S (d + j)). rewrite lookup_cons_ne_0 by done. cbn [pred]. rewrite lookup_app_r; rewrite repeat_length; [|lia].
      replace (d + j - d)%nat with j by lia. change (map ?g others) with (g <$> others). by rewrite list_lookup_fmap, Hj. }
    destruct (float_scale_rel b f) as (s & Hs & Es). exists x, (s * t)%Qc. split_and!; [done| | |].
    - rewrite E, Es. ring.
    - apply within_pos in Hs. clear - Hs Ht. qcnra.
    - assert (Z.of_nat 1 <= 2 ^ 52)%Z as L by lia. pose proof (within_slack 1 s L Hs) as Hd.
      eapply Qcle_trans; [exact (product_close _ _ _ _ Hd Hc Ht)|]. by_compute.
  Qed.

  Definition loss : Qc := frac 21 1000000000000000.
  Lemma weighted_close (fs ws : list Qc) d : Forall2 (fun f w => 0 <= f /\ Qcabs (w - 1) <= d)%Qc fs ws ->
    (Qcabs (Qcsum (zip_with Qcmult fs ws) - Qcsum fs) <= d * Qcsum fs)%Qc.
  Proof using.
    induction 1 as [|f w fs ws [Hf Hw] HF IH].
    - cbn. replace (0 - 0)%Qc with 0%Qc by ring. rewrite Qcmult_0_r. by_compute.
    - cbn [zip_with]. change (Qcsum (?x :: ?l)) with (x + Qcsum l)%Qc.
      set (S := Qcsum (zip_with Qcmult fs ws)) in *. set (F := Qcsum fs) in *. clearbody S F.
      replace (f * w + S - (f + F))%Qc with (f * (w - 1) + (S - F))%Qc by ring.
      assert (Qcabs (f * (w - 1)) <= f * d)%Qc as B.
      { rewrite Qcabs_mult, (Qcabs_pos f Hf), !(Qcmult_comm f). by apply Qcmult_le_compat_r. }
      replace (d * (f + F))%Qc with (f * d + d * F)%Qc by ring.
      set (x := (f * (w - 1))%Qc) in *. set (y := (S - F)%Qc) in *. set (fd := (f * d)%Qc) in *. set (dF := (d * F)%Qc) in *. clearbody x y fd dF.
      qcabs x; qcabs y; qcabs (x + y)%Qc; qclra.
  Qed.

  Lemma allocated prods fs' d others outs j b : Forall ordinary prods ->
    (Z.of_nat (roundings (length prods)) <= 2 ^ 52)%Z ->
    float_factors fl add prods = Ok fs' ->
    mapR (fun fp => float_choose fl fp.2 fp.1 d others) (zip fs' (map e_amount prods)) = Ok outs ->
    others !! j = Some b ->
    near (slack (roundings (length prods)) + loss) (Qcsum (zip_with (in_total (S d + j)) outs (map e_amount prods))) b.
  Proof using Hfl Hadd.
    intros Ho Hn Hf Hm Hj. pose proof (factors_rel prods Ho) as HR. rewrite Hf in HR.
    destruct (economic_factors prods) as [fs|] eqn:Ee; [|done]. pose proof (economic_factors_sum _ _ Ee) as Hs.
    assert (length fs = length prods) as Hl.
    { apply economic_factors_ok in Ee as (_ & _ & _ & HF). symmetry. by eapply Forall2_length. }
    set (k := roundings (length prods)) in *. clearbody k. pose proof (slack_le1 k Hn) as L1. pose proof (slack_nonneg k) as L0.
    rewrite <- (map_length e_amount) in Hl. set (ps := map e_amount prods) in *. clearbody ps. clear Hf Ee Ho.
    assert (exists ws, Forall2 (fun f w => 0 <= f /\ Qcabs (w - 1) <= slack k + loss)%Qc fs ws /\
      Qcsum (zip_with (in_total (S d + j)) outs ps) = (b * Qcsum (zip_with Qcmult fs ws))%Qc) as (ws & HW & E).
    { clear Hs. revert ps outs Hl Hm. induction HR as [|f f' fs fs' Hr HR IH]; intros [|p ps] outs Hl Hm; try discriminate Hl.
      - cbn in Hm. apply Ok_inj in Hm as <-. exists []. split; [constructor|]. cbn. ring.
      - cbn [zip zip_with mapR] in Hm. apply bind_Ok in Hm as (out & Hc & Hm). apply bind_Ok in Hm as (outs' & Hm & <-%Ok_inj).
        cbn in Hc. destruct (IH ps outs') as (ws & HW & E); [cbn in Hl; lia|done|].
        destruct (choose_other _ _ _ _ _ _ _ Hc Hj) as (x & t & Hx & Ex & Ht & Hd).
        destruct Hr as (H0 & s & Hs & ->). exists ((s * t)%Qc :: ws). split.
        + constructor; [|done]. split; [done|]. pose proof (within_slack k s Hn Hs) as Hk.
          eapply Qcle_trans; [exact (product_close _ _ _ _ Hk Hd Ht)|].
          assert (tolerance2 + tolerance2 = loss /\ 0 <= tolerance2)%Qc as [Hl2 Hp2] by by_compute.
          rewrite <- Hl2. set (a := slack k) in *. set (c := tolerance2) in *. clearbody a c. clear - L0 L1 Hp2. qcnra.
        + cbn [zip_with]. cbn [Qcsum foldr]. fold (Qcsum (zip_with (in_total (S d + j)) outs' ps)). fold (Qcsum (zip_with Qcmult fs ws)).
          rewrite E. unfold in_total. rewrite Hx. cbn [default]. cbn [from_option id]. rewrite Ex. ring. }
    unfold near. rewrite E. apply weighted_close in HW. rewrite Hs in HW. rewrite Qcmult_1_r in HW.
    set (S := Qcsum (zip_with Qcmult fs ws)) in *. replace (b * S - b)%Qc with ((S - 1) * b)%Qc by ring. rewrite Qcabs_mult.
    apply Qcmult_le_compat_r; [done|apply Qcabs_nonneg].
  Qed.

  (** *** Market shares *)
  Definition share_count (n : nat) : nat := (n + 2)%nat.
  Lemma input_rel is_market amount total total' n pv : total <> 0%Qc -> rel n total total' -> (0 <= pv)%Qc ->
    if Qceqb pv 0 then float_input fl is_market amount total' pv = []
    else exists t, within (share_count n) t /\ float_input fl is_market amount total' pv = [(amount * (pv / total) * t)%Qc].
  Proof using Hfl.
    intros Ht HR Hp. unfold float_input.
    assert (rel (S n) (pv / total) (fl (pv / total'))) as F.
    { apply rel_fl. apply (rel_div 0 n); [done|by apply rel_refl|done]. }
    assert (Qceqb (fl (pv / total')) 0 = Qceqb pv 0) as Ez.
    { rewrite (rel_zerob _ _ _ F). unfold Qceqb. apply bool_decide_ext. split; [|intros ->; field; done].
      intros E. replace pv with (pv / total * total)%Qc by (field; done). rewrite E. ring. }
    unfold Qctruthy. rewrite Ez. destruct (Qceqb pv 0); [done|]. cbn [negb].
    destruct F as (F0 & t & Hw & ->).
    destruct is_market.
    - destruct (fl_within fl Hfl (pv / total * t * amount)) as (s & Hs & ->). exists (t * s)%Qc. split; [|f_equal; ring].
      eapply within_mono; [by eapply within_mult|]. unfold share_count. lia.
    - destruct (float_scale_rel amount (pv / total * t)) as (s & Hs & ->). exists (t * s)%Qc. split; [|f_equal; ring].
      eapply within_mono; [by eapply within_mult|]. unfold share_count. lia.
  Qed.
  Lemma giving_sum pvs : Qcsum (giving pvs) = Qcsum pvs.
  Proof using.
    induction pvs as [|x l IH]; [done|]. unfold giving in *. cbn [filterb List.filter]. destruct (Qceqb x 0) eqn:E; cbn [negb].
    - qc_bool. subst. unfold filterb in IH. rewrite IH. change (Qcsum l = 0 + Qcsum l)%Qc. ring.
    - unfold filterb in IH. change (x + Qcsum (List.filter (fun x => negb (Qceqb x 0)) l) = x + Qcsum l)%Qc. by rewrite IH.
  Qed.
  Lemma giving_In x pvs : x ∈ giving pvs -> x ∈ pvs.
  Proof using. unfold giving. intros H%filterb_In. by destruct H. Qed.

  Lemma inputs_scaled is_market amount total total' n : total <> 0%Qc -> rel n total total' ->
    forall pvs, Forall (fun x => 0 <= x)%Qc pvs -> exists ts, Forall2 (fun _ t => within (share_count n) t) (giving pvs) ts /\
      concat (map (float_input fl is_market amount total') pvs) = zip_with (fun pv t => amount * (pv / total) * t)%Qc (giving pvs) ts.
  Proof using Hfl.
    intros Ht HR. induction 1 as [|x pvs Hx Hp (ts & HT & IH)]; [exists []; by split; [constructor|]|].
    pose proof (input_rel is_market amount total total' n x Ht HR Hx) as HI. unfold giving in *. cbn [map concat filterb List.filter].
    rewrite IH. destruct (Qceqb x 0); cbn [negb].
    - rewrite HI. exists ts. done.
    - destruct HI as (t & Hw & ->). exists (t :: ts). split; [by constructor|done].
  Qed.
  Lemma scaled_parts k total amount ps ts : total <> 0%Qc -> (Z.of_nat k <= 2 ^ 52)%Z ->
    Forall (fun x => 0 <= x)%Qc ps -> Forall2 (fun _ t => within k t) ps ts ->
    Forall2 (fun pv x => near (slack k) x (pv / total * amount)) ps (zip_with (fun pv t => amount * (pv / total) * t)%Qc ps ts) /\
    Qcsum (zip_with (fun pv t => amount * (pv / total) * t)%Qc ps ts) = (amount * Qcsum (zip_with (fun pv t => pv * t)%Qc ps ts) / total)%Qc /\
    rel k (Qcsum ps) (Qcsum (zip_with (fun pv t => pv * t)%Qc ps ts)).
  Proof using.
    intros Ht Hk Hp HT. induction HT as [|p t ps ts Hw HT IH]; cbn [zip_with].
    - split; [constructor|]. split; [cbn; field; done|]. apply rel_refl, Qcle_refl.
    - apply Forall_cons in Hp as [Hp1 Hp2]. destruct (IH Hp2) as (I1 & I2 & I3). split; [|split].
      + constructor; [|done]. unfold near. replace (amount * (p / total) * t - p / total * amount)%Qc with ((t - 1) * (p / total * amount))%Qc by ring.
        rewrite Qcabs_mult. apply Qcmult_le_compat_r; [by apply within_slack|apply Qcabs_nonneg].
      + cbn [Qcsum foldr]. fold (Qcsum (zip_with (fun pv t => amount * (pv / total) * t)%Qc ps ts)).
        fold (Qcsum (zip_with (fun pv t => pv * t)%Qc ps ts)). rewrite I2. field. done.
      + cbn [Qcsum foldr]. apply rel_plus; [|done]. split; [done|]. by exists t.
  Qed.
  Lemma inputs_whole is_market amount pvs l : Forall (fun x => 0 <= x)%Qc pvs ->
    (Z.of_nat (share_count (length pvs)) <= 2 ^ 52)%Z -> Qcsum pvs <> 0%Qc ->
    float_inputs fl add is_market amount pvs = Some l ->
    Forall2 (fun pv x => near (slack (share_count (length pvs))) x (pv / Qcsum pvs * amount)) (giving pvs) l /\
    near (slack (share_count (length pvs))) (Qcsum l) amount.
  Proof using Hfl Hadd.
    intros Hp Hn Ht H. pose proof (add_rel pvs Hp) as HR. unfold float_inputs in H.
    assert (Qctruthy (add pvs) = true) as E by (apply Qctruthy_true; intros E; by apply (rel_zero _ _ _ HR) in E).
    rewrite E in H. apply Some_inj in H as <-.
    destruct (inputs_scaled is_market amount _ _ _ Ht HR pvs Hp) as (ts & HT & ->).
    assert (Forall (fun x => 0 <= x)%Qc (giving pvs)) as Hg.
    { apply Forall_forall. intros x Hx. rewrite Forall_forall in Hp. apply Hp. by apply giving_In. }
    destruct (scaled_parts _ _ amount _ _ Ht Hn Hg HT) as (S1 & S2 & S3). split; [done|].
    rewrite S2. rewrite giving_sum in S3. destruct S3 as (_ & t & Hw & ->). unfold near.
    replace (amount * (Qcsum pvs * t) / Qcsum pvs - amount)%Qc with ((t - 1) * amount)%Qc by (field; done).
    rewrite Qcabs_mult. apply Qcmult_le_compat_r; [by apply within_slack|apply Qcabs_nonneg].
  Qed.
  Lemma inputs_single is_market amount pv : pv = 0%Qc ->
    exists x, float_inputs fl add is_market amount [pv] = Some [x] /\ near (slack 1) x amount.
  Proof using Hfl Hadd.
    intros ->. unfold float_inputs.
    assert (add [0%Qc] = 0%Qc) as E. { apply (rel_zero _ _ _ (add_rel [0%Qc] ltac:(repeat constructor; apply Qcle_refl))). by_compute. }
    rewrite E. assert (Qctruthy 0 = false) as -> by by_compute. unfold float_input.
    assert (Qcint 4321 / Qcint 4321 = 1)%Qc as -> by by_compute. rewrite fl_1 by done. assert (Qctruthy 1 = true) as -> by by_compute.
    assert (Z.of_nat 1 <= 2 ^ 52)%Z as L by lia. eexists. split; [done|]. unfold near.
    assert (exists t, within 1 t /\ (if is_market then fl (1 * amount)%Qc else float_scale fl amount 1) = (amount * t)%Qc) as (t & Hw & ->).
    { destruct is_market.
      - destruct (fl_within fl Hfl (1 * amount)) as (t & Hw & ->). exists t. split; [done|ring].
      - destruct (float_scale_rel amount 1) as (t & Hw & ->). exists t. split; [done|ring]. }
    replace (amount * t - amount)%Qc with ((t - 1) * amount)%Qc by ring. rewrite Qcabs_mult.
    apply Qcmult_le_compat_r; [by apply within_slack|apply Qcabs_nonneg].
  Qed.
  (** A market is skipped exactly when it is skipped in exact arithmetic. *)
  Lemma inputs_skipped is_market amount pvs : Forall (fun x => 0 <= x)%Qc pvs ->
    float_inputs fl add is_market amount pvs = None <-> Qcsum pvs = 0%Qc /\ length pvs <> 1%nat.
  Proof using Hfl Hadd.
    intros Hp. pose proof (add_rel pvs Hp) as HR. unfold float_inputs, Qctruthy. rewrite (rel_zerob _ _ _ HR).
    destruct (Qceqb (Qcsum pvs) 0) eqn:E; cbn [negb]; qc_bool.
    - destruct pvs as [|x [|y l]]; split; try done. intros [_ H]. by cbn in H.
    - split; [done|]. by intros [H _].
  Qed.
End summing.

(** ** Orders of addition *)
Fixpoint chain (t : additions) (l : list Qc) : additions := match l with [] => t | x :: l => chain (Plus t (Summand x)) l end.
Lemma chain_summands l : forall t, summands (chain t l) = summands t ++ l.
Proof. induction l as [|x l IH]; intros t; cbn; [by rewrite app_nil_r|]. rewrite IH. cbn. by rewrite <- app_assoc. Qed.
Lemma chain_steps l : forall t, steps (chain t l) = (steps t + length l)%nat.
Proof. induction l as [|x l IH]; intros t; cbn; [lia|]. rewrite IH. cbn. lia. Qed.
Lemma chain_outcome fl l : forall t, outcome fl (chain t l) = fold_left (fun s x => fl (s + x)%Qc) l (outcome fl t).
Proof. induction l as [|x l IH]; intros t; cbn; [done|]. by rewrite IH. Qed.
Lemma python_sum_adds fl : adds_up fl (python_sum fl).
Proof.
  intros l. exists (chain Zero l). rewrite chain_summands, chain_steps, chain_outcome. done.
Qed.
Fixpoint halve (n : nat) (l : list Qc) : additions :=
  match n, l with
  | O, _ | _, [] => Zero
  | S n, [x] => Summand x
  | S n, _ => Plus (halve n (take (length l / 2) l)) (halve n (drop (length l / 2) l))
  end.
Lemma halve_spec n : forall l, (length l <= n)%nat -> summands (halve n l) = l /\ (steps (halve n l) <= pred (length l))%nat.
Proof.
  induction n as [|n IH]; intros [|x [|y l]] H; cbn [halve]; try (split; [done|cbn; lia]); cbn [length] in H; [lia..|].
  set (l' := x :: y :: l). assert (length l' = S (S (length l))) as El by done. set (h := (length l' / 2)%nat).
  assert (1 <= h < length l')%nat as Hh.
  { unfold h. split; [apply Nat.div_le_lower_bound; lia|apply Nat.div_lt; lia]. }
  destruct (IH (take h l')) as [A1 A2]; [rewrite take_length; lia|].
  destruct (IH (drop h l')) as [B1 B2]; [rewrite drop_length; lia|].
  cbn [summands steps]. rewrite A1, B1, take_drop. split; [done|]. rewrite take_length in A2. rewrite drop_length in B2. lia.
Qed.
(** numpy's way: each half by itself. *)
Definition pairwise_sum (fl : Qc -> Qc) (l : list Qc) : Qc := outcome fl (halve (length l) l).
Lemma pairwise_sum_adds fl : adds_up fl (pairwise_sum fl).
Proof.
  intros l. exists (halve (length l) l). destruct (halve_spec (length l) l) as [H1 H2]; [done|]. rewrite H1. split; [done|]. split; [lia|done].
Qed.
