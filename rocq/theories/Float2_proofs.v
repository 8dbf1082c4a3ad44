(** The rounded programs against the exact ones. *)
From Coq Require Import Lqa.
From Verif Require Import Base Types Spec_Float Uncertainty Uncertainty_proofs Utils Spec_Utils Utils_proofs
  Cutoff Spec_Cutoff Cutoff_proofs Locations Spec_Mix Mix_proofs Float Float_proofs.

Notation u := unit_roundoff.
Notation v := (1 - unit_roundoff)%Qc.

(** ** Counting roundings *)
Fixpoint vpow (k : nat) : Qc := match k with O => 1%Qc | S k => (v * vpow k)%Qc end.
Definition within (k : nat) (t : Qc) : Prop := (vpow k <= t)%Qc /\ (t * vpow k <= 1)%Qc.

Lemma u_small : (0 < u /\ u < frac 1 1000)%Qc.
Proof. by_compute. Qed.
Lemma v_range : (0 < v /\ v < 1)%Qc.
Proof. by_compute. Qed.
Lemma vpow_pos k : (0 < vpow k)%Qc.
Proof. induction k as [|k IH]; [by_compute|]. cbn. pose proof v_range as [H _]. set (w := v) in *. qcnra. Qed.
Lemma vpow_le1 k : (vpow k <= 1)%Qc.
Proof.
  induction k as [|k IH]; [by_compute|]. cbn. pose proof v_range as [H1 H2]. pose proof (vpow_pos k).
  set (w := v) in *. qcnra.
Qed.
Lemma vpow_plus a b : vpow (a + b) = (vpow a * vpow b)%Qc.
Proof. induction a as [|a IH]; cbn; [ring|]. rewrite IH. ring. Qed.
Lemma Qcint_S k : Qcint (Z.of_nat (S k)) = (Qcint (Z.of_nat k) + 1)%Qc.
Proof. rewrite Nat2Z.inj_succ, <- Z.add_1_r, Qcint_plus. reflexivity. Qed.
Lemma vpow_bernoulli k : (1 - Qcint (Z.of_nat k) * u <= vpow k)%Qc.
Proof.
  induction k as [|k IH]; [by_compute|]. rewrite Qcint_S. cbn [vpow].
  assert (0 <= Qcint (Z.of_nat k))%Qc by (apply (Qcint_le 0); lia).
  pose proof v_range as [H1 H2]. pose proof u_small as [H3 _].
  set (n := Qcint (Z.of_nat k)) in *. set (p := vpow k) in *. set (x := u) in *.
  clearbody n p x. assert ((1 - x) * (1 - n * x) <= (1 - x) * p)%Qc by qcnra.
  assert (0 <= n * x * x)%Qc by qcnra. qclra.
Qed.

Lemma within_pos k t : within k t -> (0 < t)%Qc.
Proof. intros [H _]. eapply Qclt_le_trans; [apply (vpow_pos k)|done]. Qed.
Lemma within_one : within 0 1.
Proof. by_compute. Qed.
Lemma within_mono k k' t : within k t -> (k <= k')%nat -> within k' t.
Proof.
  intros Hw L. pose proof (within_pos _ _ Hw) as Hp. destruct Hw as [H1 H2].
  replace k' with (k + (k' - k))%nat by lia. set (d := (k' - k)%nat).
  pose proof (vpow_pos k) as Pk. pose proof (vpow_pos d) as Pd. pose proof (vpow_le1 d) as Ld.
  unfold within. rewrite vpow_plus. set (a := vpow k) in *. set (b := vpow d) in *. clearbody a b. split.
  - assert (a * b <= a)%Qc by qcnra. qclra.
  - assert (t * (a * b) <= t * a)%Qc; [|qclra]. assert (0 < t * a)%Qc by qcnra.
    replace (t * (a * b))%Qc with (t * a * b)%Qc by ring. set (c := (t * a)%Qc) in *. clearbody c. qcnra.
Qed.
Lemma within_mult a b s t : within a s -> within b t -> within (a + b) (s * t).
Proof.
  intros Hs Ht. pose proof (within_pos _ _ Hs). pose proof (within_pos _ _ Ht). destruct Hs as [H1 H2], Ht as [H3 H4].
  pose proof (vpow_pos a). pose proof (vpow_pos b). unfold within. rewrite vpow_plus.
  set (x := vpow a) in *. set (y := vpow b) in *. clearbody x y. split.
  - assert (x * y <= s * y)%Qc by qcnra. assert (s * y <= s * t)%Qc by qcnra. qclra.
  - replace (s * t * (x * y))%Qc with ((s * x) * (t * y))%Qc by ring.
    assert (0 < s * x)%Qc by qcnra. assert (0 < t * y)%Qc by qcnra.
    set (p := (s * x)%Qc) in *. set (q := (t * y)%Qc) in *. clearbody p q. qcnra.
Qed.
Lemma within_inv a s : within a s -> within a (/ s).
Proof.
  intros Hs. pose proof (within_pos _ _ Hs) as P. destruct Hs as [H1 H2]. pose proof (vpow_pos a) as Pa.
  assert (s <> 0%Qc) as Hn by (intros ->; by apply Qclt_not_eq in P).
  assert (s * / s = 1)%Qc as E by (field; done).
  assert (0 < / s)%Qc as Pi.
  { rewrite qc_lt in *. rewrite this_inv. by apply Qinv_lt_0_compat. }
  unfold within. set (x := vpow a) in *. set (r := (/ s)%Qc) in *. clearbody x r. split.
  - assert (x * 1 = x * (s * r))%Qc by (by rewrite E). 
    assert (x * s * r <= 1 * r)%Qc by (apply Qcmult_le_compat_r; [|by apply Qclt_le_weak]; qclra). 
    replace (x * (s * r))%Qc with (x * s * r)%Qc in * by ring. qclra.
  - assert (r * x <= r * s)%Qc by (rewrite !(Qcmult_comm r); apply Qcmult_le_compat_r; [done|by apply Qclt_le_weak]).
    rewrite (Qcmult_comm r s), E in *. done.
Qed.
Lemma within_div a b s t : within a s -> within b t -> within (a + b) (s / t).
Proof. intros. apply within_mult; [done|]. by apply within_inv. Qed.

(** From a count to a distance. *)
Definition slack (k : nat) : Qc := (Qcint (Z.of_nat k) * (u + u))%Qc.
Lemma slack_units k : slack k = units k.
Proof. unfold slack, units. assert (u + u = pow2 (-52))%Qc as -> by by_compute. done. Qed.
Lemma slack_nonneg k : (0 <= slack k)%Qc.
Proof. assert (0 <= Qcint (Z.of_nat k))%Qc by (apply (Qcint_le 0); lia). pose proof u_small as [H1 _]. unfold slack. set (n := Qcint _) in *. set (x := u) in *. qcnra. Qed.
Lemma slack_le1 k : (Z.of_nat k <= 2 ^ 52)%Z -> (slack k <= 1)%Qc.
Proof.
  intros H. apply Qcint_le in H. pose proof u_small as [H1 _]. unfold slack.
  assert (Qcint (2 ^ 52) * (u + u) = 1)%Qc as E by by_compute. rewrite <- E.
  apply Qcmult_le_compat_r; [done|]. set (x := u) in *. qclra.
Qed.
Lemma within_slack k t : (Z.of_nat k <= 2 ^ 52)%Z -> within k t -> (Qcabs (t - 1) <= slack k)%Qc.
Proof.
  intros Hk [H1 H2]. pose proof (vpow_bernoulli k) as B. pose proof (slack_le1 k Hk) as L. pose proof (slack_nonneg k) as N.
  unfold slack in *. replace (Qcint (Z.of_nat k) * (u + u))%Qc with (Qcint (Z.of_nat k) * u + Qcint (Z.of_nat k) * u)%Qc in * by ring.
  set (e := (Qcint (Z.of_nat k) * u)%Qc) in *. pose proof (vpow_pos k). set (p := vpow k) in *. clearbody e p.
  qcabs (t - 1)%Qc; [|qclra]. assert (t * (1 - e) <= 1)%Qc by qcnra.
  destruct (Qclt_le_dec (e + e) (t - 1)) as [C|]; [|done]. exfalso.
  assert (0 <= e)%Qc by qclra. assert (e + e <= 1)%Qc by qclra.
  assert ((1 + (e + e)) * (1 - e) <= t * (1 - e))%Qc by (apply Qcmult_le_compat_r; qclra).
  assert (0 <= e * (1 - (e + e)))%Qc by qcnra. 
  destruct (decide (e = 0%Qc)) as [->|Hne].
  - qclra.
  - assert (0 < e)%Qc. { destruct (Qclt_le_dec 0 e); [done|]. exfalso. apply Hne. by apply Qcle_antisym. }
    assert ((1 + (e + e)) * (1 - e) < t * (1 - e))%Qc by qcnra. qcnra.
Qed.

(** ** One rounding *)
Section rounded.
  Context (fl : Qc -> Qc) (Hfl : rounding fl).

  Lemma fl_exact x : binary64 x -> fl x = x.
  Proof using Hfl. intros H. by apply nearest_exact. Qed.
  Lemma fl_within x : exists t, within 1 t /\ fl x = (x * t)%Qc.
  Proof using Hfl.
    pose proof (nearest_error _ _ (Hfl x)) as H. destruct (decide (x = 0%Qc)) as [->|Hx].
    - exists 1%Qc. split; [by_compute|]. rewrite fl_exact by apply bits_0. ring.
    - exists (fl x / x)%Qc. split; [|field; done].
      assert (fl x = fl x / x * x)%Qc as E by (field; done). rewrite E in H at 1. set (t := (fl x / x)%Qc) in *.
      replace (t * x - x)%Qc with ((t - 1) * x)%Qc in H by ring. rewrite Qcabs_mult in H.
      assert (0 < Qcabs x)%Qc as P by (by apply Qcabs_pos_nonzero).
      assert (Qcabs (t - 1) <= u)%Qc as Ht by (by eapply Qcabs_lt_cancel).
      pose proof u_small as [U1 _]. pose proof v_range as [U2 _]. unfold within. cbn [vpow]. rewrite Qcmult_1_r.
      set (x' := u) in *. clearbody x'. split; [qcabs (t - 1)%Qc; qclra|].
      assert (t <= 1 + x')%Qc by (qcabs (t - 1)%Qc; qclra). clear - U1 U2 H0. clearbody t. 
      assert (t * (1 - x') <= (1 + x') * (1 - x'))%Qc by (apply Qcmult_le_compat_r; [done|by apply Qclt_le_weak]). qcnra.
  Qed.
  Lemma fl_0 : fl 0 = 0%Qc.
  Proof using Hfl. apply fl_exact, bits_0. Qed.
  Lemma fl_1 : fl 1 = 1%Qc.
  Proof using Hfl. apply fl_exact, bits_1. Qed.
  Lemma fl_zero x : fl x = 0%Qc <-> x = 0%Qc.
  Proof using Hfl.
    split; [|intros ->; apply fl_0]. destruct (fl_within x) as (t & Ht & ->). intros H.
    apply within_pos in Ht. apply Qcmult_integral in H as [|H]; [done|]. rewrite H in Ht. by apply Qclt_not_eq in Ht.
  Qed.
  Lemma fl_opp_nearest x : nearest x (- fl (- x)).
  Proof using Hfl. pose proof (nearest_opp _ _ (Hfl (- x)%Qc)) as H. by rewrite Qcopp_involutive in H. Qed.

  (** *** Normalisation *)
  Lemma sign_abs p : p = (sign p * Qcabs p)%Qc.
  Proof using. unfold sign, Qcabs. destruct (Qcltb p 0); ring. Qed.

  Lemma factor_times p : p <> 0%Qc -> (1 - u <= Qcabs p * fl (1 / Qcabs p) <= 1 + u)%Qc.
  Proof using Hfl.
    intros Hp. pose proof (Qcabs_pos_nonzero p Hp) as P. set (a := Qcabs p) in *.
    assert (a <> 0%Qc) as Ha by (intros E; rewrite E in P; by apply Qclt_not_eq in P).
    pose proof (nearest_error _ _ (Hfl (1 / a)%Qc)) as H.
    assert (0 < 1 / a)%Qc as Pa by (by apply Qc_div_pos).
    rewrite (Qcabs_pos (1 / a)) in H by (by apply Qclt_le_weak).
    assert (1 / a * a = 1)%Qc as E by (field; done). set (b := (1 / a)%Qc) in *. set (g := fl b) in *. pose proof u_small as [U _].
    set (x := u) in *. clearbody a b g x.
    assert (g <= b + x * b)%Qc by (qcabs (g - b)%Qc; qclra). assert (b - x * b <= g)%Qc by (qcabs (g - b)%Qc; qclra).
    split.
    - assert ((b - x * b) * a <= g * a)%Qc by (apply Qcmult_le_compat_r; [done|by apply Qclt_le_weak]).
      replace ((b - x * b) * a)%Qc with (b * a - x * (b * a))%Qc in * by ring. rewrite E in *. qclra.
    - assert (g * a <= (b + x * b) * a)%Qc by (apply Qcmult_le_compat_r; [done|by apply Qclt_le_weak]).
      replace ((b + x * b) * a)%Qc with (b * a + x * (b * a))%Qc in * by ring. rewrite E in *. qclra.
  Qed.
  Lemma normal_product p : p <> 0%Qc ->
    fl (p * fl (1 / Qcabs p)) = sign p \/ fl (p * fl (1 / Qcabs p)) = (sign p * (1 - u))%Qc.
  Proof using Hfl.
    intros Hp. pose proof (factor_times p Hp) as [H1 H2]. set (g := fl (1 / Qcabs p)) in *.
    rewrite (sign_abs p) at 1 3. unfold sign. destruct (Qcltb p 0).
    - pose proof (Hfl (- (1) * Qcabs p * g)%Qc) as N. apply nearest_opp in N.
      replace (- (- (1) * Qcabs p * g))%Qc with (Qcabs p * g)%Qc in N by ring.
      destruct (nearest_one _ _ N H1 H2) as [E|E]; [left|right].
      + rewrite <- (Qcopp_involutive (fl _)), E. ring.
      + rewrite <- (Qcopp_involutive (fl _)), E. ring.
    - replace (1 * Qcabs p * g)%Qc with (Qcabs p * g)%Qc by ring.
      destruct (nearest_one _ _ (Hfl _) H1 H2) as [E|E]; rewrite E; [left|right]; ring.
  Qed.

  (** One per cent and more above the threshold. *)
  Definition tolerance : Qc := frac 102 10000000000000000.
  Lemma unscaled_product p : p <> 0%Qc ->
    Qcltb (fl epsilon) (Qcabs (fl (fl (1 / Qcabs p) - 1))) = false -> (Qcabs (Qcabs p - 1) <= tolerance)%Qc.
  Proof using Hfl.
    intros Hp H. apply Qcltb_false in H. pose proof (factor_times p Hp) as [H1 H2].
    pose proof (Qcabs_pos_nonzero p Hp) as P. set (a := Qcabs p) in *. set (g := fl (1 / a)) in *.
    pose proof (nearest_error _ _ (Hfl epsilon)) as He. pose proof (nearest_error _ _ (Hfl (g - 1)%Qc)) as Hg.
    assert (0 < epsilon)%Qc as Pe by by_compute. rewrite (Qcabs_pos epsilon) in He by (by apply Qclt_le_weak).
    assert (fl epsilon <= epsilon + u * epsilon)%Qc as Fe by (qcabs (fl epsilon - epsilon)%Qc; qclra).
    assert (Qcabs (g - 1) - u * Qcabs (g - 1) <= epsilon + u * epsilon)%Qc as Fg.
    { qcabs (fl (g - 1) - (g - 1))%Qc; qcabs (g - 1)%Qc; qcabs (fl (g - 1))%Qc; qclra. }
    assert (Qcabs (g - 1) <= frac 1001 100000000000000000)%Qc as D.
    { assert (epsilon + u * epsilon < frac 1001 100000000000000000 * (1 - u))%Qc as L by by_compute.
      destruct (Qclt_le_dec (frac 1001 100000000000000000) (Qcabs (g - 1))) as [C|]; [|done]. exfalso.
      pose proof v_range as [V _]. set (w := v) in *. set (k := frac 1001 100000000000000000) in *.
      assert (Qcabs (g - 1) - u * Qcabs (g - 1) = Qcabs (g - 1) * w)%Qc as E by (unfold w; ring). rewrite E in Fg.
      set (d := Qcabs (g - 1)) in *. clearbody w d k. assert (k * w < d * w)%Qc by qcnra. qclra. }
    clear Fg Fe He Hg H. unfold tolerance. set (k := frac 1001 100000000000000000) in *. set (s := frac 102 10000000000000000).
    assert (1 + u < (1 + s) * (1 - k))%Qc as L1 by by_compute. assert ((1 - s) * (1 + k) < 1 - u)%Qc as L2 by by_compute.
    assert (0 < 1 - k /\ 0 < k /\ 0 < s)%Qc as (K1 & K2 & K3) by by_compute.
    set (x := u) in *. clearbody k s x a g.
    assert (1 - k <= g)%Qc as G1 by (qcabs (g - 1)%Qc; qclra). assert (g <= 1 + k)%Qc as G2 by (qcabs (g - 1)%Qc; qclra).
    qcabs (a - 1)%Qc.
    - destruct (Qclt_le_dec s (a - 1)) as [C|]; [|done]. exfalso.
      assert (a * (1 - k) <= a * g)%Qc by (rewrite !(Qcmult_comm a); apply Qcmult_le_compat_r; [done|by apply Qclt_le_weak]).
      assert ((1 + s) * (1 - k) <= a * (1 - k))%Qc by (apply Qcmult_le_compat_r; qclra). qclra.
    - destruct (Qclt_le_dec s (- (a - 1))) as [C|]; [|done]. exfalso.
      assert (a * g <= a * (1 + k))%Qc by (rewrite !(Qcmult_comm a); apply Qcmult_le_compat_r; [done|by apply Qclt_le_weak]).
      assert (a * (1 + k) <= (1 - s) * (1 + k))%Qc by (apply Qcmult_le_compat_r; qclra). qclra.
  Qed.

  Lemma fl_epsilon_ge : (u + u <= fl epsilon)%Qc.
  Proof using Hfl. apply (nearest_ge epsilon); [apply Hfl|apply two_u_bits|by_compute]. Qed.
  Lemma skip_when_one p : Qcabs p = 1%Qc \/ Qcabs p = (1 - u)%Qc ->
    Qcltb (fl epsilon) (Qcabs (fl (fl (1 / Qcabs p) - 1))) = false.
  Proof using Hfl.
    intros Hp. apply Qcltb_false. eapply Qcle_trans; [|apply fl_epsilon_ge].
    assert (1 <= 1 / Qcabs p /\ 1 / Qcabs p <= 1 + (u + u))%Qc as [B1 B2] by (destruct Hp as [-> | ->]; by_compute).
    pose proof (nearest_ge _ _ _ (Hfl (1 / Qcabs p)%Qc) bits_1 B1) as G1.
    pose proof (nearest_le _ _ _ (Hfl (1 / Qcabs p)%Qc) one_more_bits B2) as G2.
    set (g := fl (1 / Qcabs p)) in *. clearbody g.
    assert (0 <= fl (g - 1))%Qc as F1 by (apply (nearest_ge (g - 1)%Qc); [apply Hfl|apply bits_0|qclra]).
    assert (fl (g - 1) <= u + u)%Qc as F2 by (apply (nearest_le (g - 1)%Qc); [apply Hfl|apply two_u_bits|qclra]).
    by rewrite Qcabs_pos.
  Qed.
  Lemma factor_one_skipped p : fl (1 / Qcabs p) = 1%Qc -> Qcltb (fl epsilon) (Qcabs (fl (fl (1 / Qcabs p) - 1))) = false.
  Proof using Hfl.
    intros ->. apply Qcltb_false. replace (1 - 1)%Qc with 0%Qc by ring. rewrite fl_0. eapply Qcle_trans; [|apply fl_epsilon_ge]. by_compute.
  Qed.

  Lemma float_normalize_cases p l out : float_normalize fl p l = Ok out ->
    p <> 0%Qc /\
    ((Qcltb (fl epsilon) (Qcabs (fl (fl (1 / Qcabs p) - 1))) = true /\ out = map (fun a => fl (a * fl (1 / Qcabs p))) l) \/
     (Qcltb (fl epsilon) (Qcabs (fl (fl (1 / Qcabs p) - 1))) = false /\ out = l)).
  Proof using Hfl.
    unfold float_normalize. destruct (Qctruthy p) eqn:Ep; [|discriminate]. cbn [negb]. qc_bool. intros H. split; [done|].
    destruct (Qcltb _ _) eqn:E; apply Ok_inj in H as <-; [left|by right]. split; [done|].
    apply map_ext. intros a. unfold float_scale. destruct (Qceqb _ 1) eqn:E1; [|done]. apply Qceqb_true in E1.
    apply factor_one_skipped in E1. congruence.
  Qed.

  Lemma normalised_amount p l out i p' : float_normalize fl p l = Ok out -> l !! i = Some p -> out !! i = Some p' ->
    p' = sign p \/ p' = (sign p * (1 - u))%Qc \/ (out = l /\ p' = p /\ Qcabs (Qcabs p - 1) <= tolerance)%Qc.
  Proof using Hfl.
    intros H Hl Ho. apply float_normalize_cases in H as (Hp & [[E ->]|[E ->]]).
    - rewrite list_lookup_fmap, Hl in Ho. apply Some_inj in Ho as <-. destruct (normal_product p Hp) as [->| ->]; auto.
    - right. right. rewrite Hl in Ho. apply Some_inj in Ho as <-. split_and!; [done..|]. by apply unscaled_product.
  Qed.
  Lemma normalise_twice p l out i p' : float_normalize fl p l = Ok out -> l !! i = Some p -> out !! i = Some p' ->
    float_normalize fl p' out = Ok out.
  Proof using Hfl.
    intros H Hl Ho. pose proof H as H0. apply float_normalize_cases in H as (Hp & [[E ->]|[E ->]]).
    - rewrite list_lookup_fmap, Hl in Ho. apply Some_inj in Ho as Ep.
      assert (Qcabs p' = 1%Qc \/ Qcabs p' = (1 - u)%Qc) as Hq.
      { destruct (normal_product p Hp) as [E1|E1]; rewrite Ep in E1; rewrite E1; unfold sign; destruct (Qcltb p 0);
          [left|left|right|right]; by_compute. }
      unfold float_normalize. destruct (Qctruthy p') eqn:Et.
      + cbn [negb]. by rewrite skip_when_one.
      + exfalso. qc_bool. subst p'. destruct Hq as [Hq|Hq]; rewrite Et in Hq; revert Hq; by_compute.
    - rewrite Hl in Ho. apply Some_inj in Ho as <-. done.
  Qed.

  (** Every amount is divided by the amount of the product. *)
  Lemma normalised_any p l out : float_normalize fl p l = Ok out ->
    Forall2 (fun a a' => exists t, (a' * Qcabs p = a * t)%Qc /\ (0 <= t)%Qc /\ (Qcabs (t - 1) <= tolerance)%Qc) l out.
  Proof using Hfl.
    intros H. apply float_normalize_cases in H as (Hp & [[E ->]|[E ->]]).
    - apply Forall2_fmap_r, Forall_Forall2_diag, Forall_true. intros a.
      destruct (fl_within (a * fl (1 / Qcabs p))) as (t & Ht & Et). destruct (fl_within (1 / Qcabs p)) as (s & Hs & Es).
      exists (s * t)%Qc. pose proof (Qcabs_pos_nonzero p Hp) as P.
      assert (Qcabs p <> 0%Qc) as Hn by (intros X; rewrite X in P; by apply Qclt_not_eq in P).
      split; [rewrite Et, Es; field; done|]. pose proof (within_mult _ _ _ _ Hs Ht) as W. split; [apply Qclt_le_weak; by eapply within_pos|].
      assert (Z.of_nat 2 <= 2 ^ 52)%Z as L by lia. eapply Qcle_trans; [exact (within_slack 2 _ L W)|]. by_compute.
    - apply Forall_Forall2_diag, Forall_true. intros a. exists (Qcabs p). split; [done|].
      split; [apply Qcabs_nonneg|]. by apply unscaled_product.
  Qed.
End rounded.
