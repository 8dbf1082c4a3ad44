(** Binary64 numbers and their rounding. *)
From Coq Require Import QArith.Qround Lqa.
From Verif Require Import Base Spec_Float Types Uncertainty Utils Cutoff Float.

(** ** Integers among the rationals *)
Lemma Qcint_plus a b : Qcint (a + b) = (Qcint a + Qcint b)%Qc.
Proof. unfold Qcint. apply qc_eq. qc_push. by rewrite inject_Z_plus. Qed.
Lemma Qcint_mult a b : Qcint (a * b) = (Qcint a * Qcint b)%Qc.
Proof. unfold Qcint. apply qc_eq. qc_push. by rewrite inject_Z_mult. Qed.
Lemma Qcint_opp a : Qcint (- a) = (- Qcint a)%Qc.
Proof. unfold Qcint. apply qc_eq. qc_push. by rewrite inject_Z_opp. Qed.
Lemma Qcint_le a b : (Qcint a <= Qcint b)%Qc <-> (a <= b)%Z.
Proof. unfold Qcint. rewrite qc_le, !this_Q2Qc. by rewrite <- Zle_Qle. Qed.
Lemma Qcint_lt a b : (Qcint a < Qcint b)%Qc <-> (a < b)%Z.
Proof. unfold Qcint. rewrite qc_lt, !this_Q2Qc. by rewrite <- Zlt_Qlt. Qed.
Lemma Qcint_abs a : Qcabs (Qcint a) = Qcint (Z.abs a).
Proof.
  destruct (Z_le_gt_dec 0 a) as [L|L].
  - rewrite Z.abs_eq by done. apply Qcabs_pos. by apply (Qcint_le 0).
  - rewrite Z.abs_neq, Qcint_opp by lia. apply Qcabs_neg. apply (Qcint_le a 0). lia.
Qed.

Lemma Qcabs_cases x : (0 <= x /\ Qcabs x = x)%Qc \/ (x <= 0 /\ Qcabs x = - x)%Qc.
Proof.
  destruct (Qclt_le_dec x 0) as [L|L].
  - right. split; [by apply Qclt_le_weak|]. apply Qcabs_neg. by apply Qclt_le_weak.
  - left. split; [done|]. by apply Qcabs_pos.
Qed.
Ltac qcabs x := let H := fresh "Habs" in destruct (Qcabs_cases x) as [H|H]; destruct H as [? H]; rewrite ?H in *.

(** ** Powers of two *)
Lemma pow2_nonneg e : (0 <= e)%Z -> pow2 e = Qcint (2 ^ e).
Proof. intros H. unfold pow2. by rewrite (proj2 (Z.leb_le 0 e) H). Qed.
Lemma pow2_pos e : (0 < pow2 e)%Qc.
Proof.
  unfold pow2. destruct (0 <=? e)%Z eqn:E.
  - apply (Qcint_lt 0). apply Z.leb_le in E. by apply Z.pow_pos_nonneg.
  - apply Z.leb_gt in E. assert (0 < Qcint (2 ^ - e))%Qc as H.
    { apply (Qcint_lt 0). apply Z.pow_pos_nonneg; lia. }
    rewrite qc_lt in *. rewrite this_inv. by apply Qinv_lt_0_compat.
Qed.
Lemma pow2_ne e : pow2 e <> 0%Qc.
Proof. intros H. pose proof (pow2_pos e). rewrite H in *. by apply Qclt_not_eq in H0. Qed.
Lemma pow2_S e : pow2 (e + 1) = (Qcint 2 * pow2 e)%Qc.
Proof.
  destruct (Z_le_gt_dec 0 e) as [L|L].
  - rewrite !pow2_nonneg by lia. rewrite Z.pow_add_r, Z.pow_1_r, Qcint_mult by lia. ring.
  - destruct (decide (e = -1)%Z) as [->|N]; [by_compute|].
    unfold pow2. rewrite !(proj2 (Z.leb_gt _ _)) by lia.
    replace (- e)%Z with (- (e + 1) + 1)%Z by lia.
    rewrite Z.pow_add_r, Z.pow_1_r, Qcint_mult by lia. field. split; [discriminate|].
    intros E. assert (0 < Qcint (2 ^ (- (e + 1))))%Qc as H.
    { apply (Qcint_lt 0). apply Z.pow_pos_nonneg; lia. }
    rewrite E in H. by apply Qclt_not_eq in H.
Qed.
Lemma pow2_plus a b : pow2 (a + b) = (pow2 a * pow2 b)%Qc.
Proof.
  revert b. apply Z.bi_induction.
  - solve_proper.
  - rewrite Z.add_0_r. change (pow2 0) with 1%Qc. ring.
  - intros b. rewrite Z.add_succ_r. rewrite <- !Z.add_1_r, !pow2_S. split; intros H.
    + rewrite H. ring.
    + assert (Qcint 2 <> 0%Qc) by discriminate.
      replace (pow2 (a + b)) with (Qcint 2 * pow2 (a + b) / Qcint 2)%Qc by (field; done). rewrite H. field. done.
Qed.
Lemma pow2_le a b : (a <= b)%Z -> (pow2 a <= pow2 b)%Qc.
Proof.
  intros H. replace b with (a + (b - a))%Z by lia. rewrite pow2_plus.
  assert (1 <= pow2 (b - a))%Qc as H1.
  { rewrite pow2_nonneg by lia. apply (Qcint_le 1). assert (0 < 2 ^ (b - a))%Z by (apply Z.pow_pos_nonneg; lia). lia. }
  pose proof (pow2_pos a). qcnra.
Qed.
Lemma pow2_minus a b : pow2 (a - b) = (pow2 a / pow2 b)%Qc.
Proof.
  assert (pow2 a = pow2 (a - b) * pow2 b)%Qc as -> by (rewrite <- pow2_plus; f_equal; lia).
  field. apply pow2_ne.
Qed.

(** ** Numbers of so many bits lie on a grid *)
Lemma on_grid n m z : (1 <= n)%Z -> bits n z -> (pow2 m <= Qcabs z)%Qc ->
  exists j, z = (Qcint j * pow2 (m - n + 1))%Qc.
Proof.
  intros Hn (k & e & Hk & ->) Hm.
  destruct (Z_le_gt_dec (m - n + 1) e) as [L|L].
  - exists (k * 2 ^ (e - (m - n + 1)))%Z. rewrite Qcint_mult, <- pow2_nonneg by lia.
    rewrite <- Qcmult_assoc, <- pow2_plus. do 2 f_equal. lia.
  - rewrite Qcabs_mult, Qcint_abs, (Qcabs_pos (pow2 e)) in Hm by (apply Qclt_le_weak, pow2_pos).
    assert (pow2 e <= pow2 (m - n))%Qc as He by (apply pow2_le; lia).
    assert (Qcint (Z.abs k) <= pow2 n)%Qc as Hk' by (rewrite pow2_nonneg by lia; by apply Qcint_le).
    assert (pow2 m = pow2 n * pow2 (m - n))%Qc as Em by (rewrite <- pow2_plus; f_equal; lia).
    pose proof (pow2_pos e). pose proof (pow2_pos n). pose proof (pow2_pos (m - n)).
    assert (pow2 e = pow2 (m - n))%Qc as Ee.
    { apply Qcle_antisym; [done|]. destruct (Qclt_le_dec (pow2 e) (pow2 (m - n))) as [C|]; [|done].
      exfalso. assert (Qcint (Z.abs k) * pow2 e < pow2 n * pow2 (m - n))%Qc; [|qclra].
      assert (0 <= Qcint (Z.abs k))%Qc by (apply (Qcint_le 0); lia). qcnra. }
    assert (Qcint (Z.abs k) = pow2 n) as Ek.
    { apply Qcle_antisym; [done|]. rewrite Ee, Em in Hm. qcnra. }
    rewrite Ee. assert (pow2 (m - n + 1) = Qcint 2 * pow2 (m - n))%Qc as -> by apply pow2_S.
    assert (pow2 n = Qcint 2 * Qcint (2 ^ (n - 1)))%Qc as E2.
    { rewrite <- pow2_nonneg, <- pow2_S by lia. f_equal. lia. }
    destruct (Z_le_gt_dec 0 k) as [Lk|Lk].
    + exists (2 ^ (n - 1))%Z. rewrite Z.abs_eq in Ek by lia. rewrite Ek, E2. ring.
    + exists (- 2 ^ (n - 1))%Z. rewrite Z.abs_neq in Ek by lia. rewrite Qcint_opp in *.
      replace (Qcint k) with (- (- Qcint k))%Qc by ring. rewrite Ek, E2. ring.
Qed.

Lemma bits_opp n x : bits n x -> bits n (- x).
Proof. intros (k & e & Hk & ->). exists (- k)%Z, e. split; [by rewrite Z.abs_opp|]. rewrite Qcint_opp. ring. Qed.
Lemma bits_int k : (Z.abs k <= 2 ^ 53)%Z -> binary64 (Qcint k).
Proof. intros H. exists k, 0%Z. split; [done|]. change (pow2 0) with 1%Qc. ring. Qed.
Lemma bits_0 : binary64 0.
Proof. exists 0%Z, 0%Z. split; [by vm_compute|]. by_compute. Qed.
Lemma bits_1 : binary64 1.
Proof. exists 1%Z, 0%Z. split; [by vm_compute|]. by_compute. Qed.

(** ** Rounding to an integer *)
Lemma floor_bounds q : (Qcint (Qfloor (this q)) <= q /\ q < Qcint (Qfloor (this q)) + 1)%Qc.
Proof.
  pose proof (Qfloor_le (this q)) as H1. pose proof (Qlt_floor (this q)) as H2.
  rewrite inject_Z_plus in H2. split.
  - rewrite qc_le. unfold Qcint. rewrite this_Q2Qc. done.
  - rewrite qc_lt. qc_push. unfold Qcint. rewrite this_Q2Qc. done.
Qed.
Lemma near_int_dist q : exists f : Z, (Qcint f <= q /\ q < Qcint f + 1)%Qc /\
  ((near_int q = f /\ q - Qcint f < frac 1 2)%Qc \/ (near_int q = (f + 1)%Z /\ frac 1 2 < q - Qcint f)%Qc \/
   ((near_int q = f \/ near_int q = (f + 1)%Z) /\ Z.even (near_int q) = true /\ (q - Qcint f)%Qc = frac 1 2)).
Proof.
  exists (Qfloor (this q)). split; [apply floor_bounds|]. unfold near_int.
  set (f := Qfloor (this q)). destruct (Qcltb (q - Qcint f) (frac 1 2)) eqn:E1.
  - left. apply Qcltb_true in E1. done.
  - destruct (Qcltb (frac 1 2) (q - Qcint f)) eqn:E2.
    + right. left. apply Qcltb_true in E2. done.
    + right. right. apply Qcltb_false in E1, E2.
      assert (q - Qcint f = frac 1 2)%Qc by (by apply Qcle_antisym).
      destruct (Z.even f) eqn:Ev; split_and!; auto. rewrite Z.even_add, Ev. done.
Qed.
Lemma int_apart (a b : Z) : a <> b -> (Qcint a + 1 <= Qcint b \/ Qcint b + 1 <= Qcint a)%Qc.
Proof.
  intros H. change 1%Qc with (Qcint 1). rewrite <- !Qcint_plus, !Qcint_le. lia.
Qed.
Lemma half_frac : (Qcint 2 * frac 1 2 = 1)%Qc.
Proof. by_compute. Qed.
Lemma near_int_spec q z : (Qcabs (q - Qcint (near_int q)) <= Qcabs (q - Qcint z))%Qc.
Proof.
  destruct (near_int_dist q) as (f & Hf & Hc).
  assert (Qcint 2 = 1 + 1)%Qc as E2 by by_compute. pose proof half_frac as Hh. rewrite E2 in Hh.
  assert (Qcint (f + 1) = Qcint f + 1)%Qc as Ef by (rewrite Qcint_plus; reflexivity).
  assert (Qcint z <= Qcint f \/ Qcint f + 1 <= Qcint z)%Qc as Hz.
  { rewrite <- Ef, !Qcint_le. lia. }
  destruct Hc as [[-> H]|[[-> H]|([->| ->] & _ & H)]]; rewrite ?Ef;
    destruct Hz; destruct Hf;
    match goal with |- (Qcabs ?a <= Qcabs ?b)%Qc => qcabs a; qcabs b end; qclra.
Qed.
Lemma near_int_tie q z : z <> near_int q -> Qcabs (q - Qcint z) = Qcabs (q - Qcint (near_int q)) ->
  Z.even (near_int q) = true.
Proof.
  intros Hne He. destruct (near_int_dist q) as (f & Hf & Hc).
  assert (Qcint 2 = 1 + 1)%Qc as E2 by by_compute. pose proof half_frac as Hh. rewrite E2 in Hh.
  assert (Qcint (f + 1) = Qcint f + 1)%Qc as Ef by (rewrite Qcint_plus; reflexivity).
  destruct Hc as [[Hn H]|[[Hn H]|(_ & Hv & H)]]; [| |done]; exfalso; rewrite Hn in *.
  - assert (Qcint z <= Qcint f - 1 \/ Qcint f + 1 <= Qcint z)%Qc as Hz.
    { assert (Qcint (f - 1) = Qcint f - 1)%Qc as <- by (unfold Z.sub; rewrite Qcint_plus; reflexivity).
      rewrite <- Ef, !Qcint_le. lia. }
    destruct Hf. match type of He with Qcabs ?a = Qcabs ?b => qcabs a; qcabs b end; destruct Hz; qclra.
  - assert (Qcint z <= Qcint f \/ Qcint f + 1 + 1 <= Qcint z)%Qc as Hz.
    { assert (Qcint (f + 1 + 1) = Qcint f + 1 + 1)%Qc as <- by (rewrite !Qcint_plus; reflexivity).
      rewrite !Qcint_le. lia. }
    rewrite Ef in He. destruct Hf. match type of He with Qcabs ?a = Qcabs ?b => qcabs a; qcabs b end; destruct Hz; qclra.
Qed.

(** ** The leading bit *)
Lemma Qcabs_this x : (this (Qcabs x) == Z.abs (Qnum (this x)) # Qden (this x))%Q.
Proof.
  assert (Z.abs (Qnum (this x)) # Qden (this x) = Qabs.Qabs (this x)) as -> by (by destruct (this x)). qcabs x.
  - symmetry. by apply Qabs_pos.
  - rewrite this_opp. symmetry. by apply Qabs_neg.
Qed.
Lemma magnitude_spec x : x <> 0%Qc ->
  (pow2 (magnitude x) <= Qcabs x /\ Qcabs x < pow2 (magnitude x + 1))%Qc.
Proof.
  intros Hx. unfold magnitude. set (n := Z.abs (Qnum (this x))). set (d := Zpos (Qden (this x))).
  assert (0 < n)%Z as Hn.
  { destruct (decide (Qnum (this x) = 0)%Z) as [E|E]; [|lia]. exfalso. apply Hx. apply qc_eq.
    unfold Qeq. rewrite E. done. }
  assert (0 < d)%Z as Hd by done.
  pose proof (Z.log2_spec n Hn) as [Hn1 Hn2]. pose proof (Z.log2_spec d Hd) as [Hd1 Hd2].
  pose proof (Z.log2_nonneg n). pose proof (Z.log2_nonneg d).
  set (a := Z.log2 n) in *. set (b := Z.log2 d) in *.
  assert (Qcabs x * Qcint d = Qcint n)%Qc as Hnd.
  { apply qc_eq. rewrite this_mult, Qcabs_this. unfold Qcint. rewrite !this_Q2Qc. fold n. unfold d.
    unfold Qeq, inject_Z, Qmult. cbn. lia. }
  assert (0 <= Qcabs x)%Qc as Hy0 by apply Qcabs_nonneg. set (y := Qcabs x) in *.
  rewrite <- Z.add_1_r in Hn2, Hd2.
  apply Qcint_le in Hn1, Hd1. apply Qcint_lt in Hn2, Hd2. rewrite <- pow2_nonneg in * by lia.
  rewrite pow2_S in Hn2, Hd2. assert (Qcint 2 = 1 + 1)%Qc as E2 by by_compute. rewrite E2 in *.
  assert (y < pow2 (a - b + 1))%Qc as Hub.
  { rewrite pow2_S, E2. assert (pow2 a = pow2 (a - b) * pow2 b)%Qc as Ea by (rewrite <- pow2_plus; f_equal; lia).
    rewrite Ea in *. pose proof (pow2_pos b) as P1. pose proof (pow2_pos (a - b)) as P2.
    destruct (Qclt_le_dec y ((1 + 1) * pow2 (a - b))) as [|C]; [done|]. exfalso. clear - Hnd Hn2 Hd1 C P1 P2. qcnra. }
  assert (pow2 (a - b - 1) <= y)%Qc as Hlb.
  { assert (pow2 a = (1 + 1) * pow2 (a - b - 1) * pow2 b)%Qc as Ea.
    { rewrite <- E2, <- pow2_S, <- pow2_plus. f_equal. lia. }
    rewrite Ea in *. pose proof (pow2_pos b) as P1. pose proof (pow2_pos (a - b - 1)) as P2.
    destruct (Qclt_le_dec y (pow2 (a - b - 1))) as [C|]; [|done]. exfalso. clear - Hnd Hn1 Hd2 C P1 P2 Hy0. qcnra. }
  destruct (Qcltb y (pow2 (a - b))) eqn:E.
  - apply Qcltb_true in E. split; [done|]. by replace (a - b - 1 + 1)%Z with (a - b)%Z by lia.
  - apply Qcltb_false in E. done.
Qed.

(** ** The rounding there is *)
Lemma Qcabs_scale w a b : (0 < w)%Qc -> Qcabs (a * w - b * w) = (Qcabs (a - b) * w)%Qc.
Proof.
  intros H. replace (a * w - b * w)%Qc with ((a - b) * w)%Qc by ring. rewrite Qcabs_mult, (Qcabs_pos w); [done|].
  by apply Qclt_le_weak.
Qed.
Lemma Qcabs_lt_cancel w a b : (0 < w)%Qc -> (a * w <= b * w)%Qc -> (a <= b)%Qc.
Proof. intros. destruct (Qclt_le_dec b a); [|done]. exfalso. qcnra. Qed.
Lemma fl64_nearest x : nearest x (fl64 x).
Proof.
  unfold fl64. destruct (Qceqb x 0) eqn:E0; qc_bool.
  { subst x. split; [apply bits_0|]. split.
    - intros z _. replace (0 - 0)%Qc with 0%Qc by ring. apply Qcabs_nonneg.
    - intros z _ Hz He. exfalso. apply Hz. replace (0 - 0)%Qc with 0%Qc in He by ring.
      apply (proj1 (Qcabs_zero _)) in He. qclra. }
  pose proof (magnitude_spec x E0) as [Hlo Hhi]. set (m := magnitude x) in *.
  set (w := pow2 (m - 52)). assert (0 < w)%Qc as Hw by apply pow2_pos.
  assert (w <> 0%Qc) as Hw0 by apply pow2_ne.
  set (q := (x / w)%Qc). assert (x = q * w)%Qc as Hx by (unfold q; field; done).
  set (r := near_int q).
  assert (pow2 m = Qcint (2 ^ 52) * w)%Qc as Em.
  { unfold w. rewrite <- (pow2_nonneg 52), <- pow2_plus by done. f_equal. lia. }
  assert (pow2 (m + 1) = Qcint (2 ^ 53) * w)%Qc as Em1.
  { unfold w. rewrite <- (pow2_nonneg 53), <- pow2_plus by done. f_equal. lia. }
  assert (Qcabs x = Qcabs q * w)%Qc as Ax.
  { rewrite Hx, Qcabs_mult, (Qcabs_pos w); [done|]. by apply Qclt_le_weak. }
  rewrite Ax in *. rewrite Em in Hlo. rewrite Em1 in Hhi.
  assert (Qcint (2 ^ 52) <= Qcabs q)%Qc as Hq1 by (by eapply Qcabs_lt_cancel).
  assert (Qcabs q <= Qcint (2 ^ 53))%Qc as Hq2 by (eapply Qcabs_lt_cancel; [done|]; by apply Qclt_le_weak).
  assert (Z.abs r <= 2 ^ 53)%Z as Hr.
  { apply Qcint_le. rewrite <- Qcint_abs.
    destruct (Qcabs_cases q) as [[S1 S2]|[S1 S2]]; rewrite S2 in *.
    - pose proof (near_int_spec q (2 ^ 53)) as N. pose proof (near_int_spec q 0) as N0. fold r in N, N0.
      change (Qcint 0) with 0%Qc in *.
      assert (0 <= Qcint (2 ^ 53))%Qc by by_compute.
      set (B := Qcint (2 ^ 53)) in *. set (R := Qcint r) in *.
      qcabs (q - B)%Qc; qcabs (q - R)%Qc; qcabs R; qcabs (q - 0)%Qc; qclra.
    - pose proof (near_int_spec q (- 2 ^ 53)) as N. pose proof (near_int_spec q 0) as N0. fold r in N, N0.
      rewrite Qcint_opp in N. change (Qcint 0) with 0%Qc in *.
      assert (0 <= Qcint (2 ^ 53))%Qc by by_compute.
      set (B := Qcint (2 ^ 53)) in *. set (R := Qcint r) in *.
      qcabs (q - - B)%Qc; qcabs (q - R)%Qc; qcabs R; qcabs (q - 0)%Qc; qclra. }
  assert (forall z, binary64 z -> (exists j, z = Qcint j * w)%Qc \/ (Qcabs z < pow2 m)%Qc) as Hz.
  { intros z Bz. destruct (Qclt_le_dec (Qcabs z) (pow2 m)) as [L|L]; [by right|]. left.
    destruct (on_grid 53 m z) as [j ->]; [done..|]. exists j. unfold w. do 2 f_equal. lia. }
  assert (forall z, (Qcabs z < pow2 m)%Qc -> (Qcabs (x - Qcint r * w) < Qcabs (x - z))%Qc) as Hsmall.
  { intros z L. rewrite Hx at 1. rewrite Qcabs_scale by done.
    assert (Qcabs (q - Qcint r) <= Qcabs q - Qcint (2 ^ 52))%Qc as Hd.
    { destruct (Qcabs_cases q) as [[S1 S2]|[S1 S2]]; rewrite S2 in *.
      - pose proof (near_int_spec q (2 ^ 52)) as N. fold r in N. set (B := Qcint (2 ^ 52)) in *.
        qcabs (q - B)%Qc; qclra.
      - pose proof (near_int_spec q (- 2 ^ 52)) as N. fold r in N. rewrite Qcint_opp in N. set (B := Qcint (2 ^ 52)) in *.
        qcabs (q - - B)%Qc; qclra. }
    assert (Qcabs q * w - Qcabs z <= Qcabs (x - z))%Qc as Ht.
    { rewrite <- Ax. qcabs x; qcabs z; qcabs (x - z)%Qc; qclra. }
    rewrite Em in L. set (D := Qcabs (q - Qcint r)) in *. set (A := Qcabs q) in *. set (B := Qcint (2 ^ 52)) in *.
    assert (D * w <= (A - B) * w)%Qc by (clear - Hd Hw; qcnra).
    assert ((A - B) * w = A * w - B * w)%Qc by ring. qclra. }
  split_and!.
  - exists r, (m - 52)%Z. done.
  - intros z Bz. destruct (Hz z Bz) as [[j ->]|L]; [|by apply Qclt_le_weak, Hsmall].
    rewrite Hx at 1 2. rewrite !Qcabs_scale by done. apply Qcmult_le_compat_r; [|by apply Qclt_le_weak].
    apply near_int_spec.
  - intros z Bz Hne He. destruct (Hz z Bz) as [[j ->]|L].
    + rewrite Hx in He at 1 2. rewrite !Qcabs_scale in He by done.
      assert (Z.even r = true) as Hv.
      { apply (near_int_tie q j).
        - intros ->. done.
        - apply Qcle_antisym; apply (Qcabs_lt_cancel w); try done; rewrite He; apply Qcle_refl. }
      apply Z.even_spec in Hv as [h Hh].
      exists h, (m - 52 + 1)%Z. split; [clear - Hr Hh; lia|]. rewrite pow2_S. fold w. rewrite Hh, Qcint_mult. ring.
    + apply Hsmall in L. rewrite He in L. by apply Qclt_not_eq in L.
Qed.
Lemma fl64_rounding : rounding fl64.
Proof. exact fl64_nearest. Qed.

(** ** What nearness says *)
Lemma nearest_ge x y z : nearest x y -> binary64 z -> (z <= x)%Qc -> (z <= y)%Qc.
Proof.
  intros (_ & H & _) Hz L. specialize (H z Hz). destruct (Qclt_le_dec y z) as [C|]; [|done]. exfalso.
  qcabs (x - y)%Qc; qcabs (x - z)%Qc; qclra.
Qed.
Lemma nearest_le x y z : nearest x y -> binary64 z -> (x <= z)%Qc -> (y <= z)%Qc.
Proof.
  intros (_ & H & _) Hz L. specialize (H z Hz). destruct (Qclt_le_dec z y) as [C|]; [|done]. exfalso.
  qcabs (x - y)%Qc; qcabs (x - z)%Qc; qclra.
Qed.
Lemma nearest_exact x y : nearest x y -> binary64 x -> y = x.
Proof.
  intros H Hx. apply Qcle_antisym.
  - apply (nearest_le x y x H Hx). apply Qcle_refl.
  - apply (nearest_ge x y x H Hx). apply Qcle_refl.
Qed.
Lemma nearest_opp x y : nearest x y -> nearest (- x) (- y).
Proof.
  intros (Hy & Hn & Ht).
  assert (forall z, Qcabs (- x - z) = Qcabs (x - - z)) as E.
  { intros z. rewrite <- Qcabs_opp. f_equal. ring. }
  split_and!.
  - by apply bits_opp.
  - intros z Hz. rewrite !E, Qcopp_involutive. apply Hn. by apply bits_opp.
  - intros z Hz Hne He. rewrite !E, Qcopp_involutive in He. apply bits_opp. apply (Ht (- z)%Qc); [by apply bits_opp| |done].
    intros <-. apply Hne. ring.
Qed.
Lemma nearest_mono x x' y y' : nearest x y -> nearest x' y' -> (x < x')%Qc -> (y <= y')%Qc.
Proof.
  intros (Hy & Hn & _) (Hy' & Hn' & _) L. specialize (Hn y' Hy'). specialize (Hn' y Hy).
  destruct (Qclt_le_dec y' y) as [C|]; [|done]. exfalso.
  qcabs (x - y)%Qc; qcabs (x - y')%Qc; qcabs (x' - y)%Qc; qcabs (x' - y')%Qc; qclra.
Qed.

(** The relative error. *)
Lemma roundoff_pos : (0 < unit_roundoff)%Qc.
Proof. apply pow2_pos. Qed.
Lemma half_unit : (frac 1 2 * pow2 (-52) = unit_roundoff)%Qc.
Proof. by_compute. Qed.
Lemma near_int_half q : (Qcabs (q - Qcint (near_int q)) <= frac 1 2)%Qc.
Proof.
  destruct (near_int_dist q) as (f & [Hf1 Hf2] & Hc).
  assert (Qcint 2 = 1 + 1)%Qc as E2 by by_compute. pose proof half_frac as Hh. rewrite E2 in Hh.
  assert (Qcint (f + 1) = Qcint f + 1)%Qc as Ef by (rewrite Qcint_plus; reflexivity).
  destruct Hc as [[-> H]|[[-> H]|([->| ->] & _ & H)]]; rewrite ?Ef;
    match goal with |- (Qcabs ?a <= _)%Qc => qcabs a end; qclra.
Qed.
Lemma nearest_error x y : nearest x y -> (Qcabs (y - x) <= unit_roundoff * Qcabs x)%Qc.
Proof.
  intros H. assert (Qcabs (y - x) = Qcabs (x - y)) as ->.
  { rewrite <- Qcabs_opp. f_equal. ring. }
  destruct (decide (x = 0%Qc)) as [->|Hx].
  { rewrite (nearest_exact _ _ H bits_0). by_compute. }
  destruct H as (_ & Hn & _).
  eapply Qcle_trans; [apply (Hn (fl64 x)); apply fl64_nearest|].
  unfold fl64. rewrite (proj2 (Qceqb_false _ _) Hx).
  pose proof (magnitude_spec x Hx) as [Hlo _]. set (m := magnitude x) in *.
  set (w := pow2 (m - 52)). assert (0 < w)%Qc as Hw by apply pow2_pos.
  set (q := (x / w)%Qc). assert (x = q * w)%Qc as E by (unfold q; field; apply pow2_ne).
  rewrite E at 1. rewrite Qcabs_scale by done.
  eapply Qcle_trans; [apply Qcmult_le_compat_r; [apply near_int_half|by apply Qclt_le_weak]|].
  assert (frac 1 2 * w = unit_roundoff * pow2 m)%Qc as ->.
  { unfold w. replace (m - 52)%Z with (-52 + m)%Z by lia. rewrite pow2_plus, Qcmult_assoc, half_unit. done. }
  rewrite !(Qcmult_comm unit_roundoff). apply Qcmult_le_compat_r; [done|]. apply Qclt_le_weak, roundoff_pos.
Qed.

(** ** Around one *)
Notation u := unit_roundoff.
Lemma one_less_bits : binary64 (1 - u).
Proof. exists (2 ^ 53 - 1)%Z, (-53)%Z. split; [by vm_compute|]. by_compute. Qed.
Lemma one_more_bits : binary64 (1 + (u + u)).
Proof. exists (2 ^ 52 + 1)%Z, (-52)%Z. split; [by vm_compute|]. by_compute. Qed.
Lemma two_u_bits : binary64 (u + u).
Proof. exists 1%Z, (-52)%Z. split; [by vm_compute|]. by_compute. Qed.
Lemma next_above y : binary64 y -> (1 < y)%Qc -> (1 + (u + u) <= y)%Qc.
Proof.
  intros Hy H. destruct (on_grid 53 0 y) as [j ->]; [done|done| |].
  { change (pow2 0) with 1%Qc. rewrite Qcabs_pos; [by apply Qclt_le_weak|]. apply Qclt_le_weak. eapply Qclt_trans; [|exact H]. by_compute. }
  change (0 - 53 + 1)%Z with (-52)%Z in *.
  assert (1 = Qcint (2 ^ 52) * pow2 (-52))%Qc as E1 by by_compute.
  assert (1 + (u + u) = Qcint (2 ^ 52 + 1) * pow2 (-52))%Qc as -> by by_compute.
  apply Qcmult_le_compat_r; [|apply Qclt_le_weak, pow2_pos]. apply Qcint_le.
  destruct (Z_lt_ge_dec (2 ^ 52) j) as [|C]; [lia|]. exfalso.
  assert (Qcint j * pow2 (-52) <= Qcint (2 ^ 52) * pow2 (-52))%Qc.
  { apply Qcmult_le_compat_r; [|apply Qclt_le_weak, pow2_pos]. apply Qcint_le. lia. }
  rewrite <- E1 in H0. by apply Qcle_not_lt in H0.
Qed.
Lemma next_below y : binary64 y -> (y < 1)%Qc -> (y <= 1 - u)%Qc.
Proof.
  intros Hy H. destruct (Qclt_le_dec y (frac 1 2)) as [C|C].
  { apply Qclt_le_weak. eapply Qclt_trans; [exact C|]. by_compute. }
  destruct (on_grid 53 (-1) y) as [j ->]; [done|done| |].
  { assert (pow2 (-1) = frac 1 2) as -> by by_compute. rewrite Qcabs_pos; [done|]. eapply Qcle_trans; [|exact C]. by_compute. }
  change (-1 - 53 + 1)%Z with (-53)%Z in *.
  assert (1 = Qcint (2 ^ 53) * pow2 (-53))%Qc as E1 by by_compute.
  assert (1 - u = Qcint (2 ^ 53 - 1) * pow2 (-53))%Qc as -> by by_compute.
  apply Qcmult_le_compat_r; [|apply Qclt_le_weak, pow2_pos]. apply Qcint_le.
  destruct (Z_lt_ge_dec j (2 ^ 53)) as [|D]; [lia|]. exfalso.
  assert (Qcint (2 ^ 53) * pow2 (-53) <= Qcint j * pow2 (-53))%Qc.
  { apply Qcmult_le_compat_r; [|apply Qclt_le_weak, pow2_pos]. apply Qcint_le. lia. }
  rewrite <- E1 in H0. by apply Qcle_not_lt in H0.
Qed.
Lemma next_above_odd : ~ bits 52 (1 + (u + u)).
Proof.
  intros H. destruct (on_grid 52 0 _ ltac:(done) H) as [j Hj]; [by_compute|].
  change (0 - 52 + 1)%Z with (-51)%Z in *.
  assert (Qcint (2 ^ 52 + 1) = Qcint (2 * j)) as E.
  { rewrite Qcint_mult. assert (Qcint (2 ^ 52 + 1) = (1 + (u + u)) * pow2 52)%Qc as -> by by_compute.
    rewrite Hj. assert (pow2 (-51) * pow2 52 = Qcint 2)%Qc as E by by_compute. rewrite <- Qcmult_assoc, E. ring. }
  assert ((2 ^ 52 + 1)%Z = (2 * j)%Z).
  { apply Z.le_antisymm; apply Qcint_le; rewrite E; apply Qcle_refl. }
  lia.
Qed.
Lemma nearest_one x y : nearest x y -> (1 - u <= x)%Qc -> (x <= 1 + u)%Qc -> y = 1%Qc \/ y = (1 - u)%Qc.
Proof.
  intros H H1 H2. pose proof (nearest_ge _ _ _ H one_less_bits H1) as Hlo. destruct H as (Hy & Hn & Ht).
  destruct (Qclt_le_dec y 1) as [C|C].
  { right. apply Qcle_antisym; [|done]. by apply next_below. }
  left. apply Qcle_antisym; [|done]. destruct (Qclt_le_dec 1 y) as [D|]; [|done]. exfalso.
  apply next_above in D; [|done]. pose proof roundoff_pos. pose proof (Hn 1%Qc bits_1) as N.
  assert (y = 1 + (u + u))%Qc as -> by (qcabs (x - y)%Qc; qcabs (x - 1)%Qc; qclra).
  apply next_above_odd. apply (Ht 1%Qc bits_1).
  - qclra.
  - qcabs (x - (1 + (u + u)))%Qc; qcabs (x - 1)%Qc; qclra.
Qed.
