From Verif Require Import Base Types Uncertainty Spec_Uncertainty.

Ltac unf := unfold putunc, putamount, remove_uncertainty, getunc in *; cbn in *.

Lemma logR_Ok ln x y : logR ln x = Ok y <-> (0 < x)%Qc /\ y = ln x.
Proof.
  unfold logR. destruct (Qcleb x 0) eqn:E; qc_bool.
  - split; [discriminate|]. intros [H _]. qclra.
  - naive_solver.
Qed.

(** ** Amounts *)
Lemma triangular_repair_amount o o' :
  triangular_repair o = Ok o' -> o_amount o' = o_amount o /\ o_ped o' = o_ped o.
Proof. unfold triangular_repair. intros H. inv_ok; subst; done. Qed.
Lemma uniform_repair_amount o o' :
  uniform_repair o = Ok o' -> o_amount o' = o_amount o /\ o_ped o' = o_ped o.
Proof.
  unfold uniform_repair. intros H. inv_ok; subst; try done.
  apply triangular_repair_amount in H as [Ha Hp]. done.
Qed.
Lemma lognormal_rescale_pos_amount ln o f o' :
  lognormal_rescale_pos ln o f = Ok o' ->
  o_amount o' = (o_amount o * f)%Qc /\ o_ped o' = o_ped o.
Proof. unfold lognormal_rescale_pos. intros H. inv_ok; subst; done. Qed.

Lemma Qcmult_0_r' x : (x * 0)%Qc = 0%Qc.
Proof. ring. Qed.

Lemma rescale_amount ln o f o' :
  rescale ln o f = Ok o' ->
  o_amount o' = (o_amount o * f)%Qc /\ o_ped o' = o_ped o.
Proof.
  unfold rescale. intros H. inv_ok. destruct v; inv_ok.
  - subst; done.
  - unfold undefined_rescale in H. inv_ok. subst. done.
  - unfold lognormal_rescale in H. inv_ok; subst.
    + apply lognormal_rescale_pos_amount in H as [Ha Hp]. unf.
      split; [|done]. rewrite Ha. qc_bool. rewrite Qcabs_neg by qclra. ring.
    + qc_bool. subst. unf. split; [ring|done].
    + by apply lognormal_rescale_pos_amount in H.
  - unfold normal_rescale in H. inv_ok; subst; qc_bool; subst; unf; split; try done; ring.
  - unfold triangular_rescale in H. inv_ok. apply triangular_repair_amount in H. done.
  - unfold uniform_rescale in H. inv_ok. apply uniform_repair_amount in H. done.
Qed.

Lemma scale_obj_amount ln o f o' :
  scale_obj ln o f = Ok o' ->
  o_amount o' = (o_amount o * f)%Qc /\ o_ped o' = o_ped o.
Proof.
  unfold scale_obj. intros H. inv_ok.
  - qc_bool. subst. split; [ring|done].
  - by eapply rescale_amount.
Qed.

Lemma scale_exchange_spec ln e f e' :
  scale_exchange ln e f = Ok e' ->
  e_amount e' = (e_amount e * f)%Qc /\ same_besides_amount_uncertainty e e'.
Proof.
  unfold scale_exchange. intros H. inv_ok. subst.
  apply scale_obj_amount in Hok as [Ha _]. split; [exact Ha|].
  repeat split.
Qed.

Lemma scale_exchange_one ln e : scale_exchange ln e 1 = Ok e.
Proof.
  unfold scale_exchange, scale_obj. rewrite Qceqb_refl. cbn.
  by destruct e.
Qed.

(** ** Distributions *)
Lemma Qcmult_pos_lt f x y : (0 < f -> x < y -> x * f < y * f)%Qc.
Proof. intros. qcnra. Qed.
Lemma Qcmult_pos_le f x y : (0 < f -> x <= y -> x * f <= y * f)%Qc.
Proof. intros. qcnra. Qed.
Lemma Qcmult_neg_lt f x y : (f < 0 -> x < y -> y * f < x * f)%Qc.
Proof. intros. qcnra. Qed.
Lemma Qcmult_neg_le f x y : (f < 0 -> x <= y -> y * f <= x * f)%Qc.
Proof. intros. qcnra. Qed.

Lemma Qc_nonzero_cases f : f <> 0%Qc -> (0 < f \/ f < 0)%Qc.
Proof.
  intros H. destruct (Qcltb f 0) eqn:E; qc_bool; [by right|left].
  destruct (Qcle_lt_or_eq _ _ E); [done|congruence].
Qed.

(** Bounds in either order become ordered bounds. *)
Lemma triangular_repair_wf a u ped lo hi :
  (u_min u = Some lo /\ u_max u = Some hi \/ u_min u = Some hi /\ u_max u = Some lo) ->
  (lo < hi)%Qc -> (lo <= a)%Qc -> (a <= hi)%Qc ->
  triangular_repair (mkUobj a (Some u) ped) =
  Ok (mkUobj a (Some (set_u_max (Some hi) (set_u_min (Some lo) (set_u_mode (Some a) u)))) ped).
Proof.
  intros Hb H1 H2 H3. unfold triangular_repair. cbn.
  assert (Hl : Qcltb a lo = false) by (apply Qcltb_false; done).
  assert (Hh : Qcltb hi a = false) by (apply Qcltb_false; done).
  destruct Hb as [[Hm HM]|[Hm HM]]; rewrite Hm, HM; cbn.
  - assert (E1 : Qceqb lo hi = false) by (apply Qceqb_false; intros ->; qclra).
    assert (E2 : Qcltb hi lo = false) by (apply Qcltb_false; qclra).
    rewrite E1, E2, Hl, Hh. done.
  - assert (E1 : Qceqb hi lo = false) by (apply Qceqb_false; intros ->; qclra).
    assert (E2 : Qcltb lo hi = true) by (apply Qcltb_true; qclra).
    rewrite E1, E2, Hl, Hh. done.
Qed.

Lemma uniform_repair_wf a u ped lo hi :
  (u_min u = Some lo /\ u_max u = Some hi \/ u_min u = Some hi /\ u_max u = Some lo) ->
  (lo < hi)%Qc -> (lo <= a)%Qc -> (a <= hi)%Qc ->
  exists u', uniform_repair (mkUobj a (Some u) ped) = Ok (mkUobj a (Some u') ped) /\
    u_min u' = Some lo /\ u_max u' = Some hi /\
    u_pedigree u' = u_pedigree u /\
    (u_type u' = u_type u \/ u_type u' = Some UTriangular /\ u_mode u' = Some a).
Proof.
  intros Hb H1 H2 H3. unfold uniform_repair. cbn.
  assert (Hl : Qcltb a lo = false) by (apply Qcltb_false; done).
  assert (Hh : Qcltb hi a = false) by (apply Qcltb_false; done).
  destruct Hb as [[Hm HM]|[Hm HM]]; rewrite Hm, HM; cbn.
  - assert (E1 : Qceqb lo hi = false) by (apply Qceqb_false; intros ->; qclra).
    assert (E2 : Qcltb hi lo = false) by (apply Qcltb_false; qclra).
    rewrite E1, E2, Hl, Hh. cbn.
    destruct (allclose a _); cbn.
    + eexists. split; [reflexivity|]. cbn. auto.
    + unfold putunc. cbn. erewrite (triangular_repair_wf a _ ped lo hi); cbn; auto.
      eexists. split; [reflexivity|]. cbn. auto 10.
  - assert (E1 : Qceqb hi lo = false) by (apply Qceqb_false; intros ->; qclra).
    assert (E2 : Qcltb lo hi = true) by (apply Qcltb_true; qclra).
    rewrite E1, E2, Hl, Hh. cbn.
    destruct (allclose a _); cbn.
    + eexists. split; [reflexivity|]. cbn. auto.
    + unfold putunc. cbn. erewrite (triangular_repair_wf a _ ped lo hi); cbn; auto.
      eexists. split; [reflexivity|]. cbn. auto 10.
Qed.

Lemma Qcmult_eq_0 x y : (x * y)%Qc = 0%Qc -> x = 0%Qc \/ y = 0%Qc.
Proof. apply Qcmult_integral. Qed.

Lemma Qcabs_pos_nonzero x : x <> 0%Qc -> (0 < Qcabs x)%Qc.
Proof.
  intros H. destruct (Qc_nonzero_cases x H).
  - rewrite Qcabs_pos; qclra.
  - rewrite Qcabs_neg; qclra.
Qed.

Lemma lognormal_rescale_wf ln a u ped f :
  f <> 0%Qc -> wf_lognormal ln a u ->
  exists u', lognormal_rescale ln (mkUobj a (Some u) ped) f
             = Ok (mkUobj (a * f)%Qc (Some u') ped) /\
    u_type u' = u_type u /\ u_pedigree u' = u_pedigree u /\
    u_variance u' = u_variance u /\ u_vwpu u' = u_vwpu u /\
    wf_lognormal ln (a * f)%Qc u'.
Proof.
  intros Hf (Ha & Hmean & Hmu & Hneg).
  assert (Haf : (a * f)%Qc <> 0%Qc) by (intros E; apply Qcmult_eq_0 in E as [|]; auto).
  unfold lognormal_rescale. destruct (Qc_nonzero_cases f Hf) as [Hp|Hn].
  - assert (Qcltb f 0 = false) as -> by (apply Qcltb_false; qclra).
    assert (Qceqb f 0 = false) as -> by (apply Qceqb_false; done).
    unfold lognormal_rescale_pos. cbn.
    assert (logR ln (Qcabs (a * f)) = Ok (ln (Qcabs (a * f)))) as ->
      by (apply logR_Ok; split; [apply Qcabs_pos_nonzero|]; done).
    cbn. eexists. split; [reflexivity|]. unfold wf_lognormal. cbn.
    repeat split; auto.
    + intros H. apply Hneg in H. qcnra.
    + intros H. apply Hneg. qcnra.
  - assert (Qcltb f 0 = true) as -> by (apply Qcltb_true; done).
    cbn. unfold lognormal_rescale_pos. cbn.
    assert (E : (- a * Qcabs f = a * f)%Qc) by (rewrite Qcabs_neg by qclra; ring).
    rewrite E.
    assert (logR ln (Qcabs (a * f)) = Ok (ln (Qcabs (a * f)))) as ->
      by (apply logR_Ok; split; [apply Qcabs_pos_nonzero|]; done).
    cbn. eexists. split; [reflexivity|]. unfold wf_lognormal. cbn.
    repeat split; auto.
    + intros [= H]. destruct (Qc_nonzero_cases a Ha) as [Hp|Hn']; [qcnra|].
      apply Hneg in Hn'. rewrite Hn' in H. discriminate.
    + intros H. f_equal. destruct (u_negative u) as [[]|]; cbn; auto.
      assert (a < 0)%Qc by (apply Hneg; done). qcnra.
Qed.

Lemma scale_obj_wf ln a u ped f :
  f <> 0%Qc -> wf_dist ln a u ->
  exists o', scale_obj ln (mkUobj a u ped) f = Ok o' /\
    o_amount o' = (a * f)%Qc /\ o_ped o' = ped /\
    wf_dist ln (a * f)%Qc (o_unc o') /\
    match u with
    | None => o_unc o' = None
    | Some u => exists u', o_unc o' = Some u' /\ scaled_dist ln f a u u'
    end.
Proof.
  intros Hf Hwf. unfold scale_obj. destruct (Qceqb f 1) eqn:E1.
  { qc_bool. subst f. eexists. split; [reflexivity|]. cbn.
    assert (Ha : (a * 1 = a)%Qc) by ring. rewrite Ha.
    split; [ring|]. split; [done|]. split; [done|].
    destruct u as [u|]; [|done]. exists u. split; [done|].
    unfold scaled_dist, wf_dist in *. split; [done|].
    destruct (u_type u) as [[]|] eqn:Et; try done.
    - split; [done|]. destruct Hwf as (H1 & H2 & H3 & H4).
      rewrite Ha. repeat split; try done; apply H4.
    - split; [done|]. destruct Hwf as (H1 & v & H2). exists v. split; [done|].
      rewrite H2. f_equal. ring.
    - destruct Hwf as (lo & hi & H1 & H2 & H3 & H4 & H5 & H6).
      split; [done|]. rewrite Ha. split; [|done].
      exists lo, hi. rewrite H1, H2. repeat split; try (f_equal; ring);
      intros; exfalso; qclra.
    - split; [done|]. destruct Hwf as (lo & hi & H1 & H2).
      exists lo, hi. rewrite H1, H2. repeat split; f_equal; ring.
    - destruct Hwf as (lo & hi & H1 & H2 & H3 & H4 & H5).
      split; [|by left].
      exists lo, hi. rewrite H1, H2. repeat split; try (f_equal; ring);
      intros; exfalso; qclra. }
  clear E1. unfold rescale, get_uncertainty_class. cbn.
  destruct u as [u|]; cbn.
  2: { eexists. split; [reflexivity|]. done. }
  unfold scaled_dist. unfold wf_dist in Hwf.
  destruct (u_type u) as [[]|] eqn:Et; cbn.
  - (* lognormal *)
    destruct (lognormal_rescale_wf ln a u ped f Hf Hwf)
      as (u' & -> & Ht & Hp & Hv & Hw & Hwf').
    eexists. split; [reflexivity|]. cbn. rewrite Ht, Et.
    split; [done|]. split; [done|]. split; [done|].
    exists u'. split; [done|]. split; [done|].
    destruct Hwf' as (? & ? & ? & ?). split; [congruence|]. repeat split; try done; apply H2.
  - (* normal *)
    destruct Hwf as (Ha & v & Hv). unfold normal_rescale. cbn.
    assert (Qceqb f 0 = false) as -> by (by apply Qceqb_false).
    unfold divR. assert (Qceqb a 0 = false) as -> by (by apply Qceqb_false). cbn.
    rewrite Hv. cbn. eexists. split; [reflexivity|]. cbn.
    split; [done|]. split; [done|]. rewrite Et. split.
    + split; [|cbn; eauto]. intros E; apply Qcmult_eq_0 in E as [|]; auto.
    + eexists. split; [reflexivity|]. cbn. split; [done|]. split; [done|].
      exists v. split; [done|]. f_equal. field. done.
  - (* triangular *)
    destruct Hwf as (lo & hi & H1 & H2 & H3 & H4 & H5 & H6).
    unfold triangular_rescale. cbn. rewrite H1, H2, H3. cbn.
    destruct (Qc_nonzero_cases f Hf) as [Hp|Hn].
    + erewrite (triangular_repair_wf _ _ _ (lo * f)%Qc (hi * f)%Qc);
        cbn; [| left; done | by apply Qcmult_pos_lt | by apply Qcmult_pos_le
                | by apply Qcmult_pos_le].
      eexists. split; [reflexivity|]. cbn. split; [done|]. split; [done|].
      rewrite Et. split.
      * exists (lo * f)%Qc, (hi * f)%Qc. cbn.
        repeat split; auto using Qcmult_pos_lt, Qcmult_pos_le.
      * eexists. split; [reflexivity|]. cbn. split; [done|]. split; [done|].
        split; [|done]. exists lo, hi. cbn. repeat split; try done;
        intros; exfalso; qclra.
    + erewrite (triangular_repair_wf _ _ _ (hi * f)%Qc (lo * f)%Qc);
        cbn; [| right; done | by apply Qcmult_neg_lt | by apply Qcmult_neg_le
                | by apply Qcmult_neg_le].
      eexists. split; [reflexivity|]. cbn. split; [done|]. split; [done|].
      rewrite Et. split.
      * exists (hi * f)%Qc, (lo * f)%Qc. cbn.
        repeat split; auto using Qcmult_neg_lt, Qcmult_neg_le.
      * eexists. split; [reflexivity|]. cbn. split; [done|]. split; [done|].
        split; [|done]. exists lo, hi. cbn. repeat split; try done;
        intros; exfalso; qclra.
  - (* undefined *)
    destruct Hwf as (lo & hi & H1 & H2). unfold undefined_rescale. cbn.
    rewrite H1, H2. cbn. eexists. split; [reflexivity|]. cbn.
    split; [done|]. split; [done|]. rewrite Et. split.
    + eexists _, _. cbn. done.
    + eexists. split; [reflexivity|]. cbn. split; [done|]. split; [done|].
      exists lo, hi. done.
  - (* uniform *)
    destruct Hwf as (lo & hi & H1 & H2 & H3 & H4 & H5).
    unfold uniform_rescale. cbn. rewrite H1, H2. cbn.
    assert (exists u', uniform_repair
       (mkUobj (a * f) (Some (set_u_max (Some (hi * f)%Qc) (set_u_min (Some (lo * f)%Qc) u))) ped)
       = Ok (mkUobj (a * f) (Some u') ped) /\
       scaled_bounds f u u' /\ u_pedigree u' = u_pedigree u /\
       wf_uniform (a * f) u' /\
       (u_type u' = Some UUniform \/ u_type u' = Some UTriangular /\ u_mode u' = Some (a * f)%Qc))
      as (u' & -> & Hb & Hp & Hw & Ht).
    { destruct (Qc_nonzero_cases f Hf) as [Hp|Hn].
      - edestruct (uniform_repair_wf (a * f)
          (set_u_max (Some (hi * f)%Qc) (set_u_min (Some (lo * f)%Qc) u)) ped (lo * f) (hi * f))
          as (u' & -> & Hm & HM & Hpd & Ht);
          cbn; [left; done | by apply Qcmult_pos_lt | by apply Qcmult_pos_le
                | by apply Qcmult_pos_le | ].
        exists u'. split; [done|]. split; [|split; [done|split]].
        + exists lo, hi. repeat split; try done; intros; exfalso; qclra.
        + exists (lo * f)%Qc, (hi * f)%Qc.
          repeat split; auto using Qcmult_pos_lt, Qcmult_pos_le.
        + cbn in Ht. rewrite Et in Ht. done.
      - edestruct (uniform_repair_wf (a * f)
          (set_u_max (Some (hi * f)%Qc) (set_u_min (Some (lo * f)%Qc) u)) ped (hi * f) (lo * f))
          as (u' & -> & Hm & HM & Hpd & Ht);
          cbn; [right; done | by apply Qcmult_neg_lt | by apply Qcmult_neg_le
                | by apply Qcmult_neg_le | ].
        exists u'. split; [done|]. split; [|split; [done|split]].
        + exists lo, hi. repeat split; try done; intros; exfalso; qclra.
        + exists (hi * f)%Qc, (lo * f)%Qc.
          repeat split; auto using Qcmult_neg_lt, Qcmult_neg_le.
        + cbn in Ht. rewrite Et in Ht. done. }
    eexists. split; [reflexivity|]. cbn. split; [done|]. split; [done|]. split.
    + destruct Ht as [-> | [-> Hmode]]; [done|].
      destruct Hw as (l' & h' & ? & ? & ? & ? & ?). exists l', h'. done.
    + exists u'. done.
  - done.
  - (* no type *)
    eexists. split; [reflexivity|]. cbn. split; [done|]. split; [done|].
    rewrite Et. split; [done|]. exists u. done.
Qed.

(** ** Composition of scalings on the whole description *)

Lemma neg_pos_dec f : f <> 0%Qc ->
  (Qcltb f 0 = true /\ (f < 0)%Qc) \/ (Qcltb f 0 = false /\ (0 < f)%Qc).
Proof.
  intros H. destruct (Qc_nonzero_cases f H).
  - right. split; [|done]. apply Qcltb_false. qclra.
  - left. split; [|done]. by apply Qcltb_true.
Qed.

(** The closed form of the scaled description. *)
Definition scaled_closed (ln : Qc -> Qc) (f a : Qc) (u : uncert) : uncert :=
  match u_type u with
  | Some UUndefined =>
      set_u_max (option_map (fun x => x * f)%Qc (u_max u))
        (set_u_min (option_map (fun x => x * f)%Qc (u_min u)) u)
  | Some ULognormal =>
      set_u_negative (if Qcltb f 0 then option_map negb (u_negative u) else u_negative u)
        (set_u_mu (Some (ln (Qcabs (a * f)))) (set_u_mean (Some (Qcabs (a * f))) u))
  | Some UNormal =>
      set_u_variance (option_map (fun x => f * f * x)%Qc (u_variance u)) u
  | Some UTriangular =>
      let mn := option_map (fun x => x * f)%Qc (u_min u) in
      let mx := option_map (fun x => x * f)%Qc (u_max u) in
      set_u_mode (Some (a * f)%Qc)
        (if Qcltb f 0 then set_u_max mn (set_u_min mx u)
         else set_u_max mx (set_u_min mn u))
  | _ => u
  end.

Definition flagged (u : uncert) : Prop :=
  u_type u = Some ULognormal -> u_negative u <> None.

Lemma Qcmult_1_r' x : (x * 1)%Qc = x.
Proof. ring. Qed.

Lemma scaled_closed_one ln a u :
  wf_dist ln a (Some u) -> scaled_closed ln 1 a u = u.
Proof.
  intros Hwf. unfold scaled_closed. unfold wf_dist in Hwf.
  assert (E : Qcltb 1 0 = false) by (apply Qcltb_false; discriminate).
  destruct u as [t mn mx md me mu v vw sd ng pd]; cbn in *.
  destruct t as [[]|]; cbn in *; try done; try rewrite E.
  - destruct Hwf as (H1 & H2 & H3 & H4). cbn in *. subst.
    rewrite !Qcmult_1_r'. done.
  - destruct Hwf as (H1 & x & H2). cbn in *. subst. cbn.
    assert (1 * 1 * x = x)%Qc as -> by ring. done.
  - destruct Hwf as (lo & hi & H1 & H2 & H3 & H4 & H5 & H6). cbn in *. subst. cbn.
    rewrite !Qcmult_1_r'. done.
  - destruct Hwf as (lo & hi & H1 & H2). cbn in *. subst. cbn.
    rewrite !Qcmult_1_r'. done.
Qed.

Lemma scale_obj_closed ln a u ped f :
  f <> 0%Qc -> wf_dist ln a (Some u) -> u_type u <> Some UUniform -> flagged u ->
  scale_obj ln (mkUobj a (Some u) ped) f
  = Ok (mkUobj (a * f)%Qc (Some (scaled_closed ln f a u)) ped).
Proof.
  intros Hf Hwf Hu Hfl. unfold scale_obj. destruct (Qceqb f 1) eqn:E1.
  { qc_bool. subst f. rewrite scaled_closed_one by done.
    by rewrite Qcmult_1_r'. }
  clear E1. unfold rescale, get_uncertainty_class, scaled_closed. cbn.
  unfold wf_dist in Hwf. unfold flagged in Hfl.
  destruct (u_type u) as [[]|] eqn:Et; cbn; try done.
  - destruct Hwf as (Ha & Hmean & Hmu & Hneg).
    assert (Haf : (a * f)%Qc <> 0%Qc) by (intros E; apply Qcmult_eq_0 in E as [|]; auto).
    destruct (u_negative u) as [ng|] eqn:En; [|exfalso; by apply Hfl].
    assert (Hl : logR ln (Qcabs (a * f)) = Ok (ln (Qcabs (a * f))))
      by (apply logR_Ok; split; [apply Qcabs_pos_nonzero|]; done).
    unfold lognormal_rescale, lognormal_rescale_pos.
    destruct (neg_pos_dec f Hf) as [[-> Hs]|[-> Hs]]; cbn.
    + assert (E : (- a * Qcabs f = a * f)%Qc) by (rewrite Qcabs_neg by qclra; ring).
      rewrite E, Hl. cbn. rewrite En. cbn. do 3 f_equal.
    + assert (Qceqb f 0 = false) as -> by (apply Qceqb_false; done).
      rewrite Hl. cbn. do 3 f_equal. rewrite <- En. done.
  - destruct Hwf as (Ha & v & Hv). unfold normal_rescale. cbn.
    assert (Qceqb f 0 = false) as -> by (by apply Qceqb_false).
    unfold divR. assert (Qceqb a 0 = false) as -> by (by apply Qceqb_false). cbn.
    rewrite Hv. cbn.
    assert ((a * f / a) * (a * f / a) * v = f * f * v)%Qc as -> by (field; done). done.
  - destruct Hwf as (lo & hi & H1 & H2 & H3 & H4 & H5 & H6).
    unfold triangular_rescale. cbn. rewrite H1, H2, H3. cbn.
    destruct (neg_pos_dec f Hf) as [[-> Hs]|[-> Hs]].
    + erewrite (triangular_repair_wf _ _ _ (hi * f)%Qc (lo * f)%Qc);
        cbn; [done | right; done | by apply Qcmult_neg_lt | by apply Qcmult_neg_le
                | by apply Qcmult_neg_le].
    + erewrite (triangular_repair_wf _ _ _ (lo * f)%Qc (hi * f)%Qc);
        cbn; [done | left; done | by apply Qcmult_pos_lt | by apply Qcmult_pos_le
                | by apply Qcmult_pos_le].
  - destruct Hwf as (lo & hi & H1 & H2). unfold undefined_rescale. cbn.
    rewrite H1, H2. cbn. done.
Qed.

Lemma scaled_closed_type ln f a u : u_type (scaled_closed ln f a u) = u_type u.
Proof.
  unfold scaled_closed. destruct (u_type u) as [[]|] eqn:E; cbn; try done;
  destruct (Qcltb f 0); done.
Qed.

Lemma Qcltb_mult f g : f <> 0%Qc -> g <> 0%Qc ->
  Qcltb (f * g) 0 = xorb (Qcltb f 0) (Qcltb g 0).
Proof.
  intros Hf Hg.
  destruct (neg_pos_dec f Hf) as [[-> Hs]|[-> Hs]], (neg_pos_dec g Hg) as [[-> Ht]|[-> Ht]];
    cbn; first [apply Qcltb_false | apply Qcltb_true]; qcnra.
Qed.

Lemma scaled_closed_compose ln f g a u :
  f <> 0%Qc -> g <> 0%Qc -> wf_dist ln a (Some u) ->
  scaled_closed ln g (a * f) (scaled_closed ln f a u) = scaled_closed ln (f * g) a u.
Proof.
  intros Hf Hg Hwf. unfold scaled_closed at 1 3. rewrite scaled_closed_type.
  unfold scaled_closed, wf_dist in *.
  assert (Ea : (a * f * g = a * (f * g))%Qc) by ring.
  destruct u as [t mn mx md me mu v vw sd ng pd]; cbn in *.
  destruct t as [[]|]; cbn in *; try done.
  - rewrite Qcltb_mult by done. rewrite Ea.
    destruct (Qcltb f 0), (Qcltb g 0); cbn; try done.
    destruct ng as [[]|]; done.
  - destruct Hwf as (H1 & x & H2). cbn in *. subst. cbn.
    assert (g * g * (f * f * x) = f * g * (f * g) * x)%Qc as -> by ring. done.
  - destruct Hwf as (lo & hi & H1 & H2 & H3 & H4 & H5 & H6). cbn in *. subst. cbn.
    rewrite Qcltb_mult by done. rewrite Ea.
    assert (Eh : (hi * f * g = hi * (f * g))%Qc) by ring.
    assert (El : (lo * f * g = lo * (f * g))%Qc) by ring.
    destruct (Qcltb f 0), (Qcltb g 0); cbn; rewrite ?Eh, ?El; done.
  - destruct Hwf as (lo & hi & H1 & H2). cbn in *. subst. cbn.
    assert (Eh : (hi * f * g = hi * (f * g))%Qc) by ring.
    assert (El : (lo * f * g = lo * (f * g))%Qc) by ring.
    rewrite Eh, El. done.
Qed.

Lemma scaled_closed_flagged ln f a u : flagged u -> flagged (scaled_closed ln f a u).
Proof.
  unfold flagged. rewrite scaled_closed_type. intros H Ht. specialize (H Ht).
  unfold scaled_closed. rewrite Ht. cbn. destruct (Qcltb f 0); [|done].
  by destruct (u_negative u).
Qed.

Lemma scale_obj_compose ln a u ped f g :
  f <> 0%Qc -> g <> 0%Qc -> wf_dist ln a u ->
  (forall u0, u = Some u0 -> u_type u0 <> Some UUniform /\ flagged u0) ->
  (let? o := scale_obj ln (mkUobj a u ped) f in scale_obj ln o g)
  = scale_obj ln (mkUobj a u ped) (f * g)%Qc.
Proof.
  intros Hf Hg Hwf Hu.
  assert (Hfg : (f * g)%Qc <> 0%Qc) by (intros E; apply Qcmult_eq_0 in E as [|]; auto).
  destruct u as [u|].
  - destruct (Hu u eq_refl) as [Hu1 Hu2].
    rewrite (scale_obj_closed ln a u ped f) by done.
    rewrite (scale_obj_closed ln a u ped (f * g)) by done. cbn.
    destruct (scale_obj_wf ln a (Some u) ped f Hf Hwf)
      as (o' & Ho' & _ & _ & Hwf' & _).
    rewrite (scale_obj_closed ln a u ped f) in Ho' by done.
    apply Ok_inj in Ho'. subst o'. cbn in Hwf'.
    rewrite scale_obj_closed; [| done | done | by rewrite scaled_closed_type
                               | by apply scaled_closed_flagged ].
    rewrite scaled_closed_compose by done. do 2 f_equal. ring.
  - unfold scale_obj, rescale, get_uncertainty_class, none_rescale, putamount. cbn.
    destruct (Qceqb f 1) eqn:E1, (Qceqb g 1) eqn:E2, (Qceqb (f * g) 1) eqn:E3;
      cbn; rewrite ?E2; cbn; qc_bool; subst; try done; do 2 f_equal;
      rewrite <- ?Qcmult_assoc; try rewrite E3;
      first [ ring | exfalso; first [apply E1 | apply E2 | apply E3];
                     first [ rewrite <- E3; ring | ring ] ].
Qed.

Lemma scale_exchange_compose ln e f g :
  f <> 0%Qc -> g <> 0%Qc -> wf_dist ln (e_amount e) (e_unc e) ->
  (forall u, e_unc e = Some u -> u_type u <> Some UUniform /\ flagged u) ->
  (let? e1 := scale_exchange ln e f in scale_exchange ln e1 g)
  = scale_exchange ln e (f * g)%Qc.
Proof.
  intros Hf Hg Hwf Hu. unfold scale_exchange.
  assert (Hc := scale_obj_compose ln (e_amount e) (e_unc e) (e_ped e) f g Hf Hg Hwf Hu).
  change (mkUobj (e_amount e) (e_unc e) (e_ped e)) with (e_view e) in Hc.
  rewrite <- Hc.
  destruct (scale_obj ln (e_view e) f) as [o|] eqn:Ho; cbn; [|done].
  assert (Hv : e_view (e_put e o) = o).
  { apply scale_obj_amount in Ho as [_ Hp]. destruct o; cbn in *. subst. done. }
  rewrite Hv. destruct (scale_obj ln o g); cbn; done.
Qed.

(** ** Repair *)
Lemma lognormal_repair_frame ln euler o o' :
  lognormal_repair ln euler o = Ok o' -> o_amount o' = o_amount o /\ o_ped o' = o_ped o.
Proof. unfold lognormal_repair. intros H. inv_ok; subst; done. Qed.
Lemma normal_repair_frame o o' :
  normal_repair o = Ok o' -> o_amount o' = o_amount o /\ o_ped o' = o_ped o.
Proof. unfold normal_repair. intros H. inv_ok; subst; done. Qed.
Lemma repair_frame ln euler o o' :
  repair ln euler o = Ok o' -> o_amount o' = o_amount o /\ o_ped o' = o_ped o.
Proof.
  unfold repair. intros H. inv_ok. destruct v; inv_ok; subst; try done.
  - by eapply lognormal_repair_frame.
  - by eapply normal_repair_frame.
  - by eapply triangular_repair_amount.
  - by eapply uniform_repair_amount.
Qed.
Lemma repair_if_frame ln euler o o' :
  repair_if ln euler o = Ok o' -> o_amount o' = o_amount o /\ o_ped o' = o_ped o.
Proof.
  unfold repair_if. intros H. inv_ok; subst; try done. by eapply repair_frame.
Qed.

Lemma triangular_repair_repaired a u ped o' :
  u_type u = Some UTriangular ->
  triangular_repair (mkUobj a (Some u) ped) = Ok o' ->
  match o_unc o' with None => True
  | Some u' => u_type u' = Some UTriangular /\ wf_triangular a u' end.
Proof.
  intros Ht. unfold triangular_repair. cbn. intros H. inv_ok; subst; cbn; auto.
  - split; [done|].
    apply orb_false_iff in Heqb0 as [Hl Hh]. apply andb_false_iff in Heqb. qc_bool.
    eexists _, _. cbn. split; [done|]. split; [done|]. split; [done|].
    destruct (Qcltb v0 v) eqn:E; qc_bool.
    + auto.
    + split; [|auto]. destruct Heqb as [Hn|Hn]; qc_bool.
      * destruct (Qcle_lt_or_eq _ _ E); [done|congruence].
      * destruct (Qcle_lt_or_eq _ _ E); [done|]. subst. exfalso. apply Hn.
        apply Qcle_antisym; done.
Qed.

Lemma uniform_repair_repaired a u ped o' :
  u_type u = Some UUniform ->
  uniform_repair (mkUobj a (Some u) ped) = Ok o' ->
  match o_unc o' with None => True
  | Some u' => (u_type u' = Some UTriangular /\ wf_triangular a u') \/
               (u_type u' = Some UUniform /\ wf_uniform a u') end.
Proof.
  intros Ht. unfold uniform_repair. cbn. intros H. inv_ok; subst; cbn; auto.
  - unfold putunc in H. cbn in H. apply triangular_repair_repaired in H; [|done].
    destruct (o_unc o'); [by left|done].
  - right. split; [done|].
    apply orb_false_iff in Heqb0 as [Hl Hh]. apply andb_false_iff in Heqb. qc_bool.
    eexists _, _. cbn. split; [done|]. split; [done|].
    destruct (Qcltb v0 v) eqn:E; qc_bool.
    + auto.
    + split; [|auto]. destruct Heqb as [Hn|Hn]; qc_bool.
      * destruct (Qcle_lt_or_eq _ _ E); [done|congruence].
      * destruct (Qcle_lt_or_eq _ _ E); [done|]. subst. exfalso. apply Hn.
        apply Qcle_antisym; done.
Qed.

Lemma repair_repaired ln euler o o' :
  repair ln euler o = Ok o' ->
  match o_unc o' with None => True | Some u => repaired ln (o_amount o') u end.
Proof.
  intros H. destruct (repair_frame _ _ _ _ H) as [Hamt _]. rewrite Hamt. clear Hamt.
  destruct o as [a u ped]. cbn.
  unfold repair, get_uncertainty_class in H. cbn in H.
  destruct u as [u|]; cbn in H; [|by inv_ok; subst].
  destruct (u_type u) as [[]|] eqn:Et; cbn in H; inv_ok; subst; cbn;
    unfold repaired; rewrite ?Et; try done.
  - unfold lognormal_repair in H. cbn in H. inv_ok; subst; cbn; try done; rewrite Et;
    qc_bool; (split; [done|]); cbn; (split; [done|]);
    match goal with H : logR _ (Qcabs a) = Ok _ |- _ => apply logR_Ok in H as [_ ->] end;
    (split; [done|]);
    destruct (Qcltb a 0) eqn:E; qc_bool; split; try done; intros; exfalso; qclra.
  - unfold normal_repair in H. cbn in H. inv_ok; subst; cbn; try done.
    rewrite Et. qc_bool. eauto.
  - apply triangular_repair_repaired in H; [|done].
    destruct (o_unc o') as [u'|]; [|done]. by destruct H as [-> H].
  - apply uniform_repair_repaired in H; [|done].
    destruct (o_unc o') as [u'|]; [|done]. by destruct H as [[-> H]|[-> H]].
Qed.

Definition repaired_opt ln (a : Qc) (u : option uncert) : Prop :=
  match u with None => True | Some u => repaired ln a u end.

Lemma repair_if_repaired ln euler o o' :
  repair_if ln euler o = Ok o' -> repaired_opt ln (o_amount o') (o_unc o').
Proof.
  unfold repair_if. intros H. destruct (unc_truthy (o_unc o)) eqn:E.
  - by apply repair_repaired in H.
  - inv_ok. subst o'. unfold unc_truthy, repaired_opt in *.
    destruct (o_unc o) as [u|]; [|done].
    apply negb_false_iff, bool_decide_eq_true in E. subst u. done.
Qed.

(** ** Idempotence of repair *)
Lemma triangular_repair_idem a u ped o' :
  u_type u = Some UTriangular ->
  triangular_repair (mkUobj a (Some u) ped) = Ok o' ->
  o_unc o' = None \/ triangular_repair o' = Ok o'.
Proof.
  intros Ht H. destruct (triangular_repair_amount _ _ H) as [Ha Hp].
  assert (Hw := triangular_repair_repaired _ _ _ _ Ht H).
  destruct o' as [a' [u'|] p']; cbn in *; [|by left]. subst. right.
  destruct Hw as [Ht' (lo & hi & H1 & H2 & H3 & H4 & H5 & H6)].
  erewrite (triangular_repair_wf _ _ _ lo hi) by auto.
  destruct u'; cbn in *. subst. done.
Qed.

Lemma uniform_repair_idem a u ped o' :
  u_type u = Some UUniform ->
  uniform_repair (mkUobj a (Some u) ped) = Ok o' ->
  o_unc o' = None \/
  (option_map u_type (o_unc o') = Some (Some UUniform) /\ uniform_repair o' = Ok o') \/
  (option_map u_type (o_unc o') = Some (Some UTriangular) /\ triangular_repair o' = Ok o').
Proof.
  intros Ht H. destruct (uniform_repair_amount _ _ H) as [Ha Hp].
  assert (Hw := uniform_repair_repaired _ _ _ _ Ht H).
  destruct o' as [a' [u'|] p']; cbn in *; [|by left]. subst. right.
  destruct Hw as [[Ht' (lo & hi & H1 & H2 & H3 & H4 & H5 & H6)]
                 |[Ht' (lo & hi & H1 & H2 & H3 & H4 & H5)]].
  - right. rewrite Ht'. split; [done|].
    erewrite (triangular_repair_wf _ _ _ lo hi) by auto.
    destruct u'; cbn in *. subst. done.
  - left. rewrite Ht'. split; [done|].
    unfold uniform_repair in *. cbn in *. inv_ok.
    + subst. cbn in *. discriminate.
    + exfalso. unfold putunc in H. cbn in H.
      apply triangular_repair_repaired in H; [|done]. cbn in H. destruct H. congruence.
    + injection H as <-. cbn in H1, H2. injection H1 as El. injection H2 as Eh.
      rewrite El, Eh in *. cbn.
      assert (E1 : Qceqb lo hi = false) by (apply Qceqb_false; intros ->; qclra).
      assert (E2 : Qcltb hi lo = false) by (apply Qcltb_false; qclra).
      rewrite E1, E2. cbn. rewrite Heqb0, Heqb1. done.
Qed.

Lemma py_index_in {A} (l : list A) i x : py_index l i = Ok x -> x ∈ l.
Proof.
  unfold py_index. intros H. inv_ok.
  destruct (l !! _) eqn:E; inv_ok. subst. by eapply elem_of_list_lookup_2.
Qed.

Lemma pedigree_row_nonneg k row :
  pedigree_row k = Some row -> Forall (fun x => (0 <= x)%Qc) row.
Proof.
  unfold pedigree_row. intros H.
  repeat match type of H with
  | (if ?b then _ else _) = _ => destruct b
  end; try discriminate H; injection H as <-;
  repeat constructor; unfold frac; try qclra.
Qed.

Lemma pedigree_variance_nonneg pm v :
  get_pedigree_variance pm = Ok v -> (0 <= v)%Qc.
Proof.
  unfold get_pedigree_variance. intros H. inv_ok. subst.
  apply Qcsum_nonneg. apply mapR_Ok in Hok.
  induction Hok as [|kv y pm ys Hy Hys IH]; constructor; [|done].
  inv_ok. apply pedigree_row_nonneg in Hok. apply py_index_in in Hy.
  rewrite Forall_forall in Hok. by apply Hok.
Qed.

Lemma set_vwpu_id u v : u_vwpu u = Some v -> set_u_vwpu (Some v) u = u.
Proof. destruct u; cbn. by intros ->. Qed.

(** The third condition excludes exactly the interval on which Ocelot replaces
    the variance by its logarithm. *)
Lemma lognormal_repair_idem ln euler a u ped o' vw pv :
  (1 <= euler)%Qc ->
  u_type u = Some ULognormal -> u_vwpu u = Some vw ->
  get_pedigree_variance (default [] ped) = Ok pv ->
  ~ (1 <= vw - pv /\ vw - pv <= euler)%Qc ->
  lognormal_repair ln euler (mkUobj a (Some u) ped) = Ok o' ->
  o_unc o' = None \/ lognormal_repair ln euler o' = Ok o'.
Proof.
  intros He Ht Hvw Hpv Hnot H. unfold lognormal_repair in H. cbn in H.
  rewrite Hvw, Hpv in H. cbn in H.
  destruct (Qceqb a 0) eqn:Ea; [inv_ok; subst; by left|].
  destruct (Qceqb vw 0) eqn:Ev; [inv_ok; subst; by left|].
  assert (Hpos := pedigree_variance_nonneg _ _ Hpv).
  inv_ok; subst; right.
  - exfalso. apply Hnot. apply andb_true_iff in Heqb as [H1%Qcleb_true H2%Qcleb_true]. done.
  - unfold lognormal_repair. cbn. rewrite Ea. cbn.
    assert (Qceqb (frac 1 4 + pv) 0 = false) as ->.
    { apply Qceqb_false. unfold frac. intros E. qclra. }
    rewrite Hok. cbn. rewrite Hpv. cbn.
    assert (frac 1 4 + pv - pv = frac 1 4)%Qc as -> by ring.
    assert (Qcleb 1 (frac 1 4) = false) as -> by (vm_compute; done). cbn.
    assert (Qcltb euler (frac 1 4) = false) as ->
      by (apply Qcltb_false; unfold frac; qclra).
    do 3 f_equal.
  - unfold lognormal_repair. cbn. rewrite Ea. cbn. rewrite Hvw. cbn. rewrite Ev.
    rewrite Hok. cbn. rewrite Hpv. cbn. rewrite Heqb, Heqb0. done.
Qed.

(** ** Whole datasets *)
Lemma repair_pv_spec ln euler v v' :
  repair_pv ln euler v = Ok v' ->
  set_v_unc None v' = set_v_unc None v /\ repaired_opt ln (v_amount v') (v_unc v').
Proof.
  unfold repair_pv. intros H. inv_ok. subst v'.
  destruct (repair_if_frame _ _ _ _ Hok) as [Ha _].
  apply repair_if_repaired in Hok. cbn in *. rewrite Ha in *. split; [|done].
  by destruct v.
Qed.
Lemma repair_prop_spec ln euler v v' :
  repair_prop ln euler v = Ok v' ->
  set_p_unc None v' = set_p_unc None v /\ repaired_opt ln (p_amount v') (p_unc v').
Proof.
  unfold repair_prop. intros H. inv_ok. subst v'.
  destruct (repair_if_frame _ _ _ _ Hok) as [Ha _].
  apply repair_if_repaired in Hok. cbn in *. rewrite Ha in *. split; [|done].
  by destruct v.
Qed.
Lemma repair_param_spec ln euler v v' :
  repair_param ln euler v = Ok v' ->
  set_q_unc None v' = set_q_unc None v /\ repaired_opt ln (q_amount v') (q_unc v').
Proof.
  unfold repair_param. intros H. inv_ok. subst v'.
  destruct (repair_if_frame _ _ _ _ Hok) as [Ha _].
  apply repair_if_repaired in Hok. cbn in *. rewrite Ha in *. split; [|done].
  by destruct v.
Qed.

Lemma Forall2_map_eq {A B} (f g : A -> B) l l' :
  Forall2 (fun x y => f y = g x) l l' -> map f l' = map g l.
Proof. induction 1; cbn; [done|]. by f_equal. Qed.

Lemma repair_exchange_spec ln euler e e' :
  repair_exchange ln euler e = Ok e' ->
  strip_exchange e' = strip_exchange e /\
  repaired_opt ln (e_amount e') (e_unc e') /\
  (forall v, e_pv e' = Some v -> repaired_opt ln (v_amount v) (v_unc v)) /\
  Forall (fun p => repaired_opt ln (p_amount p) (p_unc p)) (e_props e').
Proof.
  unfold repair_exchange. intros H. inv_ok. subst e'. cbn in *.
  destruct (repair_if_frame _ _ _ _ Hok) as [Ha _].
  apply repair_if_repaired in Hok. cbn in Ha. rewrite Ha in *.
  apply mapR_Ok in Hok1.
  assert (Hpv : option_map (set_v_unc None) v0 = option_map (set_v_unc None) (e_pv e) /\
     forall v, v0 = Some v -> repaired_opt ln (v_amount v) (v_unc v)).
  { unfold optR in Hok0. destruct (e_pv e); inv_ok; subst; [|split; naive_solver].
    apply repair_pv_spec in Hok2 as [H3 H4]. cbn. rewrite H3. split; [done|].
    by intros ? [= <-]. }
  assert (Hps : map (set_p_unc None) v1 = map (set_p_unc None) (e_props e) /\
     Forall (fun p => repaired_opt ln (p_amount p) (p_unc p)) v1).
  { induction Hok1 as [|p p' ps ps' Hp Hps [IH1 IH2]]; [done|].
    apply repair_prop_spec in Hp as [H3 H4]. cbn. rewrite H3, IH1. split; [done|].
    by constructor. }
  destruct Hpv as [Hpv1 Hpv2], Hps as [Hps1 Hps2].
  split; [|done].
  unfold strip_exchange, e_put. cbn. rewrite Hpv1, Hps1, Ha. by destruct e.
Qed.

Lemma repair_dataset_spec ln euler ds ds' :
  repair_dataset ln euler ds = Ok ds' ->
  strip_dataset ds' = strip_dataset ds /\
  Forall (fun au => repaired_opt ln (fst au) (snd au)) (uncertain_objects ds').
Proof.
  unfold repair_dataset. intros H. inv_ok. subst ds'. cbn in *.
  apply mapR_Ok in Hok, Hok0.
  assert (Hes : map strip_exchange v = map strip_exchange (d_exchanges ds)).
  { clear -Hok. induction Hok as [|e e' es es' He Hes IH]; cbn; [done|].
    apply repair_exchange_spec in He as [-> _]. by rewrite IH. }
  assert (Hqs : map (set_q_unc None) v0 = map (set_q_unc None) (d_params ds)).
  { clear -Hok0. induction Hok0 as [|e e' es es' He Hes IH]; cbn; [done|].
    apply repair_param_spec in He as [-> _]. by rewrite IH. }
  split.
  - unfold strip_dataset. cbn. rewrite Hes, Hqs. by destruct ds.
  - unfold uncertain_objects. cbn. apply Forall_app. split.
    + clear -Hok. induction Hok as [|e e' es es' He Hes IH]; cbn; [constructor|].
      apply repair_exchange_spec in He as (_ & H1 & H2 & H3).
      constructor; [done|]. rewrite <- app_assoc. apply Forall_app. split.
      * destruct (e_pv e') as [v|]; [|constructor]. constructor; [|constructor]. by apply H2.
      * apply Forall_app. split; [|done]. by apply Forall_map.
    + clear -Hok0. induction Hok0 as [|e e' es es' He Hes IH]; cbn; [constructor|].
      apply repair_param_spec in He as [_ ?]. by constructor.
Qed.

Lemma repair_all_spec ln euler data data' :
  repair_all_uncertainty_distributions ln euler data = Ok data' ->
  map strip_dataset data' = map strip_dataset data /\
  Forall (fun ds => Forall (fun au => repaired_opt ln (fst au) (snd au))
                           (uncertain_objects ds)) data'.
Proof.
  unfold repair_all_uncertainty_distributions. intros H%mapR_Ok.
  induction H as [|ds ds' l l' Hd Hl [IH1 IH2]]; cbn; [done|].
  apply repair_dataset_spec in Hd as [H1 H2]. rewrite H1, IH1. split; [done|].
  by constructor.
Qed.

(** ** Pedigree matrix *)
Lemma new_temporal_score_spec s d :
  (1 <= s <= 5)%Z -> (0 < d)%Z ->
  (s <= new_temporal_score s d <= 5)%Z /\ (1 <= new_temporal_score s d)%Z.
Proof.
  intros Hs Hd. unfold new_temporal_score.
  repeat match goal with |- context [if ?b then _ else _] => destruct b eqn:? end;
  repeat match goal with
  | H : (_ && _)%bool = true |- _ => apply andb_true_iff in H as [? ?]
  | H : (_ && _)%bool = false |- _ => apply andb_false_iff in H
  end; lia.
Qed.

Lemma new_temporal_score_mono s d1 d2 :
  (0 < d1)%Z -> (d1 <= d2)%Z -> (new_temporal_score s d1 <= new_temporal_score s d2)%Z.
Proof.
  intros. unfold new_temporal_score.
  repeat match goal with |- context [if ?b then _ else _] => destruct b eqn:? end; lia.
Qed.

Lemma assoc_get_set_eq {A} k (v : A) l : assoc_get k (assoc_set k v l) = Some v.
Proof.
  induction l as [|[k' v'] l IH]; cbn.
  - by rewrite String.eqb_refl.
  - destruct (k =? k')%string eqn:E; cbn; rewrite E; [done|]. exact IH.
Qed.
Lemma assoc_get_set_ne {A} k k2 (v : A) l :
  k2 <> k -> assoc_get k2 (assoc_set k v l) = assoc_get k2 l.
Proof.
  intros Hne. induction l as [|[k' v'] l IH]; cbn.
  - destruct (k2 =? k)%string eqn:E; [|done]. apply String.eqb_eq in E. done.
  - destruct (k =? k')%string eqn:E; cbn.
    + apply String.eqb_eq in E. subst k'.
      destruct (k2 =? k)%string eqn:E2; [|done]. apply String.eqb_eq in E2. done.
    + by rewrite IH.
Qed.
Lemma assoc_set_keys {A} k (v v0 : A) l :
  assoc_get k l = Some v0 -> map fst (assoc_set k v l) = map fst l.
Proof.
  induction l as [|[k' v'] l IH]; cbn; [done|].
  destruct (k =? k')%string eqn:E; cbn; [done|]. intros H. by rewrite IH.
Qed.

Lemma adjust_time_spec end_year year a u pm :
  (forall s, assoc_get "temporal correlation" pm = Some s -> (1 <= s <= 5)%Z) ->
  forall s, assoc_get "temporal correlation" pm = Some s ->
  exists pm' s',
    adjust_pedigree_matrix_time end_year (mkUobj a u (Some pm)) year
      = Ok (mkUobj a u (Some pm')) /\
    assoc_get "temporal correlation" pm' = Some s' /\
    (s <= s' <= 5)%Z /\ (1 <= s')%Z /\
    (year = end_year -> pm' = pm) /\
    (forall k, k <> "temporal correlation" -> assoc_get k pm' = assoc_get k pm) /\
    map fst pm' = map fst pm.
Proof.
  intros Hr s Hs. specialize (Hr s Hs).
  unfold adjust_pedigree_matrix_time. cbn. rewrite Hs. cbn.
  destruct (0 <? get_difference_in_years end_year year)%Z eqn:E.
  - apply Z.ltb_lt in E.
    destruct (new_temporal_score_spec s _ Hr E) as [H1 H2].
    eexists _, _. split; [reflexivity|]. rewrite assoc_get_set_eq.
    split; [reflexivity|]. split; [lia|]. split; [lia|].
    split; [intros ->; unfold get_difference_in_years in E; lia|].
    split; [intros; by apply assoc_get_set_ne|]. by eapply assoc_set_keys.
  - exists pm, s. repeat split; try done; lia.
Qed.

(** The table of pedigree.py lines 63-77 read the other way round: the largest
    age for which a score of at most [k] is reached from [s]. *)
Lemma adjust_time_bands end_year year a u pm s s' o :
  assoc_get "temporal correlation" pm = Some s -> (1 <= s <= 5)%Z ->
  adjust_pedigree_matrix_time end_year (mkUobj a u (Some pm)) year = Ok o ->
  (o_ped o ≫= assoc_get "temporal correlation") = Some s' ->
  let age := Z.abs (end_year - year) in
  forall k, (s <= k <= 4)%Z -> (s' <= k <->
    age <= (if s =? k then 0
            else if s =? 1 then (if k =? 2 then 3 else if k =? 3 then 7 else 12)
            else if s =? 2 then (if k =? 3 then 4 else 5)
            else 5))%Z.
Proof.
  intros Hs Hr H Hs' age k Hk. unfold adjust_pedigree_matrix_time in H. cbn in H. rewrite Hs in H. cbn in H. apply Ok_inj in H as <-.
  unfold get_difference_in_years in Hs'. fold age in Hs'. destruct (0 <? age)%Z eqn:E.
  - cbn in Hs'. rewrite assoc_get_set_eq in Hs'. apply (inj Some) in Hs'. unfold new_temporal_score in Hs'.
    repeat match type of Hs' with context [if ?b then _ else _] => destruct b eqn:? end;
    rewrite ?andb_true_iff, ?andb_false_iff, ?Z.eqb_eq, ?Z.eqb_neq, ?Z.leb_le, ?Z.leb_gt, ?Z.ltb_lt, ?Z.ltb_ge in *;
    repeat match goal with |- context [if ?b then _ else _] => destruct b eqn:? end; lia.
  - cbn in Hs'. rewrite Hs in Hs'. apply (inj Some) in Hs'. apply Z.ltb_ge in E.
    repeat match goal with |- context [if ?b then _ else _] => destruct b eqn:? end; lia.
Qed.

Lemma adjust_time_mono end_year y1 y2 a u pm o1 o2 s s1 s2 :
  (1 <= s <= 5)%Z ->
  assoc_get "temporal correlation" pm = Some s ->
  (Z.abs (y1 - end_year) <= Z.abs (y2 - end_year))%Z ->
  adjust_pedigree_matrix_time end_year (mkUobj a u (Some pm)) y1 = Ok o1 ->
  adjust_pedigree_matrix_time end_year (mkUobj a u (Some pm)) y2 = Ok o2 ->
  (o_ped o1 ≫= assoc_get "temporal correlation") = Some s1 ->
  (o_ped o2 ≫= assoc_get "temporal correlation") = Some s2 ->
  (s1 <= s2)%Z.
Proof.
  intros Hr Hs Hle H1 H2 Hs1 Hs2.
  unfold adjust_pedigree_matrix_time in *. cbn in *. rewrite Hs in *. cbn in *.
  unfold get_difference_in_years in *.
  apply Ok_inj in H1, H2. subst.
  destruct (0 <? Z.abs (end_year - y1))%Z eqn:E1, (0 <? Z.abs (end_year - y2))%Z eqn:E2;
    cbn in *; try rewrite assoc_get_set_eq in Hs1; try rewrite assoc_get_set_eq in Hs2;
    try rewrite Hs in Hs1; try rewrite Hs in Hs2; simplify_eq; try lia.
  - apply new_temporal_score_mono; lia.
  - apply new_temporal_score_spec; lia.
Qed.

Definition temporal_row : list Qc := [0%Qc; frac 2 10000; frac 2 1000; frac 8 1000; frac 4 100].

Lemma temporal_row_mono s s' x x' :
  (1 <= s)%Z -> (s <= s')%Z -> (s' <= 5)%Z ->
  py_index temporal_row (s - 1) = Ok x -> py_index temporal_row (s' - 1) = Ok x' ->
  (x <= x')%Qc.
Proof.
  intros H1 H2 H3.
  assert (Hs : (s = 1 \/ s = 2 \/ s = 3 \/ s = 4 \/ s = 5)%Z) by lia.
  assert (Hs' : (s' = 1 \/ s' = 2 \/ s' = 3 \/ s' = 4 \/ s' = 5)%Z) by lia.
  assert (E : forall i : Z, (0 <= i < 5)%Z -> py_index temporal_row i =
      match temporal_row !! Z.to_nat i with Some a => Ok a | None => Err IndexError end).
  { intros i Hi. unfold py_index. destruct (i <? 0)%Z eqn:Ei; [lia|]. by rewrite Ei. }
  intros Hx Hx'. rewrite E in Hx, Hx' by lia.
  destruct Hs as [->|[->|[->|[->| ->]]]], Hs' as [->|[->|[->|[->| ->]]]]; try lia;
  unfold temporal_row in Hx, Hx'; cbn in Hx, Hx';
  apply Ok_inj in Hx, Hx'; subst; unfold frac; qclra.
Qed.

Lemma get_pedigree_variance_cons k s pm v :
  get_pedigree_variance ((k, s) :: pm) = Ok v ->
  exists row x w, pedigree_row k = Some row /\ py_index row (s - 1) = Ok x /\
    get_pedigree_variance pm = Ok w /\ v = (x + w)%Qc.
Proof.
  unfold get_pedigree_variance. cbn. intros H. inv_ok. subst.
  eexists _, _, _. rewrite Hok1. cbn. done.
Qed.

Lemma pedigree_variance_mono s s' pm v v' :
  assoc_get "temporal correlation" pm = Some s ->
  (1 <= s)%Z -> (s <= s')%Z -> (s' <= 5)%Z ->
  get_pedigree_variance pm = Ok v ->
  get_pedigree_variance (assoc_set "temporal correlation" s' pm) = Ok v' ->
  (v <= v')%Qc.
Proof.
  intros Hs H1 H2 H3. revert v v' Hs.
  induction pm as [|[k x] pm IH]; intros v v' Hs Hv Hv'; [discriminate|].
  cbn [assoc_get assoc_set] in *.
  destruct ("temporal correlation" =? k)%string eqn:E.
  - injection Hs as ->. apply String.eqb_eq in E. subst k.
    apply get_pedigree_variance_cons in Hv as (row & x & w & Hr & Hx & Hw & ->).
    apply get_pedigree_variance_cons in Hv' as (row' & x' & w' & Hr' & Hx' & Hw' & ->).
    rewrite Hr in Hr'. injection Hr' as <-. rewrite Hw in Hw'. apply Ok_inj in Hw' as <-.
    assert (row = temporal_row) as -> by (unfold pedigree_row in Hr; by injection Hr).
    assert (x <= x')%Qc by (eapply (temporal_row_mono s s'); eauto). qclra.
  - apply get_pedigree_variance_cons in Hv as (row & y & w & Hr & Hy & Hw & ->).
    apply get_pedigree_variance_cons in Hv' as (row' & y' & w' & Hr' & Hy' & Hw' & ->).
    rewrite Hr in Hr'. injection Hr' as <-. rewrite Hy in Hy'. apply Ok_inj in Hy' as <-.
    assert (w <= w')%Qc by (eapply IH; eauto). qclra.
Qed.

Lemma adjust_time_variance_mono end_year year a u pm o v v' s :
  assoc_get "temporal correlation" pm = Some s -> (1 <= s <= 5)%Z ->
  adjust_pedigree_matrix_time end_year (mkUobj a u (Some pm)) year = Ok o ->
  get_pedigree_variance pm = Ok v ->
  get_pedigree_variance (default [] (o_ped o)) = Ok v' ->
  (v <= v')%Qc.
Proof.
  intros Hs Hr H Hv Hv'. unfold adjust_pedigree_matrix_time in H. cbn in H.
  rewrite Hs in H. cbn in H. apply Ok_inj in H. subst o.
  destruct (0 <? get_difference_in_years end_year year)%Z eqn:E; cbn in Hv'.
  - apply Z.ltb_lt in E. destruct (new_temporal_score_spec s _ Hr E) as [H1 H2].
    eapply pedigree_variance_mono; eauto; lia.
  - rewrite Hv in Hv'. apply Ok_inj in Hv' as <-. apply Qcle_refl.
Qed.

Lemma repair_idem ln euler o o' :
  (1 <= euler)%Qc ->
  (forall u vw pv, o_unc o = Some u -> u_type u = Some ULognormal ->
     u_vwpu u = Some vw -> get_pedigree_variance (default [] (o_ped o)) = Ok pv ->
     ~ (1 <= vw - pv /\ vw - pv <= euler)%Qc) ->
  repair ln euler o = Ok o' -> repair ln euler o' = Ok o'.
Proof.
  intros He Hn H.
  assert (Hnone : forall o, o_unc o = None -> repair ln euler o = Ok o).
  { intros [a0 u0 p0]; cbn. intros ->. done. }
  destruct o as [a u ped]. unfold repair, get_uncertainty_class in H. cbn in *.
  destruct u as [u|]; cbn in H; [|inv_ok; subst; by apply Hnone].
  destruct (u_type u) as [[]|] eqn:Et; cbn in H; inv_ok; subst;
    try (unfold repair, get_uncertainty_class; cbn; rewrite Et; done).
  - destruct (Qceqb a 0) eqn:Ea.
    { apply Hnone. unfold lognormal_repair in H. cbn in H. rewrite Ea in H.
      apply Ok_inj in H. subst. done. }
    destruct (u_vwpu u) as [vw|] eqn:Ev.
    2: { unfold lognormal_repair in H. cbn in H. rewrite Ea, Ev in H. discriminate. }
    destruct (Qceqb vw 0) eqn:Ev0.
    { apply Hnone. unfold lognormal_repair in H. cbn in H. rewrite Ea, Ev in H. cbn in H.
      rewrite Ev0 in H. apply Ok_inj in H. subst. done. }
    destruct (get_pedigree_variance (default [] ped)) as [pv|] eqn:Hp.
    2: { unfold lognormal_repair in H. cbn in H. rewrite Ea, Ev in H. cbn in H.
         rewrite Ev0 in H. destruct (logR ln (Qcabs a)); cbn in H; [|discriminate].
         rewrite Hp in H. discriminate. }
    destruct (lognormal_repair_idem ln euler a u ped o' vw pv) as [Hu|Hi]; auto.
    { eapply Hn; eauto. }
    unfold repair, get_uncertainty_class.
    assert (Hc : o_unc o' = None \/ option_map u_type (o_unc o') = Some (Some ULognormal)).
    { unfold lognormal_repair in H. cbn in H. inv_ok; subst; cbn; rewrite ?Et; auto. }
    destruct Hc as [Hc|Hc]; [rewrite Hc; cbn|].
    + unfold lognormal_repair in Hi. unfold getunc in Hi. rewrite Hc in Hi. done.
    + destruct (o_unc o') as [u'|]; cbn in *; [|discriminate].
      injection Hc as ->. done.
  - assert (Hi : o_unc o' = None \/
       (option_map u_type (o_unc o') = Some (Some UNormal) /\ normal_repair o' = Ok o')).
    { unfold normal_repair in *. cbn in H. inv_ok; subst; cbn; auto.
      right. rewrite Et, Hok. cbn. rewrite Heqb. done. }
    destruct Hi as [Hi|[Hc Hi]]; [by apply Hnone|].
    unfold repair, get_uncertainty_class.
    destruct (o_unc o') as [u'|]; cbn in *; [|discriminate]. injection Hc as ->. done.
  - destruct (triangular_repair_idem _ _ _ _ Et H) as [Hu|Hi]; [by apply Hnone|].
    assert (Hc := triangular_repair_repaired _ _ _ _ Et H).
    unfold repair, get_uncertainty_class.
    destruct (o_unc o') as [u'|]; cbn in *; [|done]. destruct Hc as [-> _]. done.
  - destruct (uniform_repair_idem _ _ _ _ Et H) as [Hu|[[Hc Hi]|[Hc Hi]]];
      [by apply Hnone| |];
    unfold repair, get_uncertainty_class;
    (destruct (o_unc o') as [u'|]; cbn in *; [|discriminate]; injection Hc as ->; done).
Qed.

(** ** Counterexamples *)
Definition cex_uniform : exchange :=
  set_e_unc (Some (set_u_type (Some UUniform)
    (set_u_min (Some 0%Qc) (set_u_max (Some (frac 1 100000000)) uncert0))))
    (set_e_amount (frac 1 1000000000) exchange0).

Lemma uniform_compose_counterexample :
  forall ln : Qc -> Qc, exists e f g,
    f <> 0%Qc /\ g <> 0%Qc /\ wf_dist ln (e_amount e) (e_unc e) /\
    (exists e1 e2, scale_exchange ln e f = Ok e1 /\ scale_exchange ln e1 g = Ok e2 /\
       scale_exchange ln e (f * g) <> Ok e2).
Proof.
  intros ln. exists cex_uniform, (Qcint 1000000000), (frac 1 1000000000).
  split; [by_compute|]. split; [by_compute|]. split.
  { exists 0%Qc, (frac 1 100000000). repeat split; by_compute. }
  eexists _, _. split; [vm_compute; reflexivity|]. split; [vm_compute; reflexivity|].
  by_compute.
Qed.

Definition cex_normal (a : Qc) (v : option Qc) : uobj :=
  mkUobj a (Some (set_u_type (Some UNormal) (set_u_mean (Some a)
    (set_u_variance v (set_u_vwpu (Some 1%Qc) uncert0))))) None.

Lemma normal_mean_counterexample :
  forall (ln : Qc -> Qc) (euler : Qc), exists o o1 o2 u2,
    repair ln euler o = Ok o1 /\ scale_obj ln o1 (Qcint 2) = Ok o2 /\
    o_unc o2 = Some u2 /\ u_type u2 = Some UNormal /\
    u_mean u2 <> Some (o_amount o2) /\ u_vwpu u2 = (o_unc o1 ≫= u_vwpu).
Proof.
  intros ln euler. exists (cex_normal 1 (Some 1%Qc)).
  eexists _, _, _. split; [vm_compute; reflexivity|]. split; [vm_compute; reflexivity|].
  split; [cbn; reflexivity|]. split; [done|]. split; by_compute.
Qed.
Lemma normal_zero_counterexample :
  forall (ln : Qc -> Qc) (euler : Qc), exists o o1,
    repair ln euler o = Ok o1 /\ o_unc o1 <> None /\
    scale_obj ln o1 (Qcint 2) = Err ZeroDivisionError.
Proof.
  intros ln euler. exists (cex_normal 0 (Some 1%Qc)).
  eexists. split; [vm_compute; reflexivity|]. split; [done|]. vm_compute. done.
Qed.
Lemma normal_no_variance_counterexample :
  forall (ln : Qc -> Qc) (euler : Qc), exists o o1,
    repair ln euler o = Ok o1 /\ o_amount o1 <> 0%Qc /\
    scale_obj ln o1 (Qcint 2) = Err (KeyError "variance").
Proof.
  intros ln euler. exists (cex_normal 1 None).
  eexists. split; [vm_compute; reflexivity|]. split; [by_compute|]. vm_compute. done.
Qed.
Lemma undefined_bounds_counterexample :
  forall ln : Qc -> Qc, exists o o' u' lo hi,
    scale_obj ln o (Qcint (-1)) = Ok o' /\ o_unc o' = Some u' /\
    u_min u' = Some lo /\ u_max u' = Some hi /\ (hi < lo)%Qc /\
    (exists u l h, o_unc o = Some u /\ u_min u = Some l /\ u_max u = Some h /\ (l < h)%Qc).
Proof.
  intros ln.
  exists (mkUobj 1 (Some (set_u_type (Some UUndefined) (set_u_min (Some 0%Qc)
            (set_u_max (Some 1%Qc) uncert0)))) None).
  eexists _, _, _, _. split; [vm_compute; reflexivity|].
  split; [cbn; reflexivity|]. split; [cbn; reflexivity|]. split; [cbn; reflexivity|].
  split; [by_compute|]. eexists _, _, _. split; [cbn; reflexivity|].
  split; [cbn; reflexivity|]. split; [cbn; reflexivity|]. by_compute.
Qed.

Definition cex_log1 : uobj :=
  mkUobj 1 (Some (set_u_type (Some ULognormal) (set_u_vwpu (Some 1%Qc) uncert0))) None.
Lemma repair_idem_counterexample :
  forall ln euler, ln 1%Qc = 0%Qc -> (1 <= euler)%Qc ->
    exists o o1 o2, repair ln euler o = Ok o1 /\ repair ln euler o1 = Ok o2 /\
      o_unc o1 <> None /\ o_unc o2 = None.
Proof.
  intros ln euler Hln He. exists cex_log1.
  assert (H1 : repair ln euler cex_log1 =
    Ok (mkUobj 1 (Some (set_u_vwpu (Some 0%Qc) (set_u_variance (Some 0%Qc)
      (set_u_mu (Some 0%Qc) (set_u_negative (Some false) (set_u_mean (Some 1%Qc)
      (set_u_type (Some ULognormal) uncert0))))))) None)).
  { unfold repair, get_uncertainty_class, lognormal_repair, cex_log1.
    cbn -[logR get_pedigree_variance].
    assert (Qceqb 1 0 = false) as -> by (vm_compute; done).
    assert (Qcabs 1 = 1%Qc) as -> by (apply Qcabs_pos; discriminate).
    assert (Hlog : logR ln 1 = Ok 0%Qc) by (apply logR_Ok; split; [by_compute|done]).
    rewrite Hlog. cbn -[logR get_pedigree_variance].
    assert (get_pedigree_variance [] = Ok 0%Qc) as -> by done.
    cbn -[logR].
    assert (1 - 0 = 1)%Qc as -> by ring.
    assert (Qcleb 1 1 = true) as -> by (vm_compute; done).
    assert (Qcleb 1 euler = true) as -> by (by apply Qcleb_true).
    cbn -[logR]. rewrite Hlog. cbn.
    assert (0 + 0 = 0)%Qc as -> by ring.
    assert (Qcltb 1 0 = false) as -> by (vm_compute; done). done. }
  rewrite H1. eexists _, _. split; [reflexivity|].
  split; [vm_compute; reflexivity|]. done.
Qed.

Lemma negative_variance_counterexample :
  forall (ln : Qc -> Qc) (euler : Qc), (1 <= euler)%Qc -> exists o o' u v,
    repair ln euler o = Ok o' /\ o_unc o' = Some u /\
    u_variance u = Some v /\ (v < 0)%Qc.
Proof.
  intros ln euler He.
  exists (mkUobj 1 (Some (set_u_type (Some ULognormal)
            (set_u_vwpu (Some (frac 1 100)) uncert0))) (Some [("reliability", 5%Z)])).
  unfold repair, get_uncertainty_class, lognormal_repair. cbn -[logR get_pedigree_variance].
  assert (Qceqb 1 0 = false) as -> by (vm_compute; done).
  assert (Qceqb (frac 1 100) 0 = false) as -> by (vm_compute; done).
  assert (Qcabs 1 = 1%Qc) as -> by (apply Qcabs_pos; discriminate).
  assert (logR ln 1 = Ok (ln 1%Qc)) as -> by (apply logR_Ok; split; [by_compute|done]).
  cbn -[get_pedigree_variance].
  destruct (get_pedigree_variance [("reliability", 5%Z)]) as [pv|] eqn:Hp;
    [|vm_compute in Hp; discriminate].
  assert (pv = frac 4 100) as ->.
  { apply Ok_inj. rewrite <- Hp. by_compute. }
  cbn.
  assert (Qcleb 1 (frac 1 100 - frac 4 100) = false) as -> by (vm_compute; done).
  assert (Qcltb euler (frac 1 100 - frac 4 100) = false) as ->.
  { apply Qcltb_false. unfold frac. qclra. }
  cbn. eexists _, _, _. split; [reflexivity|]. split; [cbn; reflexivity|].
  split; [cbn; reflexivity|]. by_compute.
Qed.

Lemma scale_exchange_amount_compose ln e f g e1 e2 e12 :
  scale_exchange ln e f = Ok e1 -> scale_exchange ln e1 g = Ok e2 ->
  scale_exchange ln e (f * g)%Qc = Ok e12 ->
  e_amount e2 = e_amount e12.
Proof.
  intros H1 H2 H3.
  apply scale_exchange_spec in H1 as [H1 _]. apply scale_exchange_spec in H2 as [H2 _].
  apply scale_exchange_spec in H3 as [H3 _]. rewrite H2, H3, H1. ring.
Qed.
