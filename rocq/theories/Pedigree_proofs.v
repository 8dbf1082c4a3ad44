(** Proofs about the variance of pedigree matrices and exact repair (C96, C97). *)
From Verif Require Import Base Types Uncertainty Spec_Uncertainty Uncertainty_proofs Pedigree Spec_Pedigree.

(** ** The tables *)
Lemma row_published version table label :
  pedigree_table version = Some table ->
  match table label with
  | Some row => row = map (fun m => frac m 1000000) (published version label) /\ length row = 5
  | None => published version label = []
  end.
Proof.
  unfold pedigree_table, published. intros H.
  destruct (version =? "original")%string; [injection H as <-; unfold pedigree_row|
    destruct (version =? "Ciroth et al")%string; [injection H as <-; unfold ciroth_row|done]];
  repeat (match goal with |- context [if ?b then _ else _] => destruct b end; [split; [by_compute|reflexivity]|]); reflexivity.
Qed.
Lemma no_table_published version label : pedigree_table version = None -> published version label = [].
Proof.
  unfold pedigree_table, published. destruct (version =? "original")%string; [done|].
  by destruct (version =? "Ciroth et al")%string.
Qed.
Lemma counts_as_index s k l : length l = 5 -> counts_as s k -> forall q : Qc, py_index l (s - 1) = Ok q <-> l !! (k - 1)%nat = Some q.
Proof.
  intros Hl Hk q. unfold py_index. rewrite Hl.
  assert (let j := if (s - 1 <? 0)%Z then (s - 1 + 5)%Z else (s - 1)%Z in (j <? 0)%Z = false /\ Z.to_nat j = (k - 1)%nat) as [E1 E2].
  { cbv zeta. unfold counts_as in Hk. destruct (s - 1 <? 0)%Z eqn:E; [apply Z.ltb_lt in E|apply Z.ltb_ge in E]; rewrite Z.ltb_ge; lia. }
  cbv zeta in E1, E2. change (Z.of_nat 5) with 5%Z. rewrite E1, E2. destruct (l !! (k - 1)%nat); split; congruence.
Qed.
Lemma index_counts_as s (l : list Qc) q : length l = 5 -> py_index l (s - 1) = Ok q -> exists k, counts_as s k.
Proof.
  intros Hl H. unfold py_index in H. rewrite Hl in H. change (Z.of_nat 5) with 5%Z in H.
  destruct (s - 1 <? 0)%Z eqn:E; [apply Z.ltb_lt in E|apply Z.ltb_ge in E];
    match type of H with context [(?j <? 0)%Z] => destruct (j <? 0)%Z eqn:E2; [done|]; apply Z.ltb_ge in E2;
      destruct (l !! Z.to_nat j) eqn:E3; [|done]; apply lookup_lt_Some in E3 end; unfold counts_as.
  - exists (Z.to_nat (s + 5)). right. lia.
  - exists (Z.to_nat s). left. lia.
Qed.
Lemma score_variance version s label q :
  (let? table := getkey version (pedigree_table version) in
   let? row := getkey label (table label) in
   py_index row (s - 1)%Z) = Ok q <->
  exists k m, counts_as s k /\ published version label !! (k - 1)%nat = Some m /\ q = frac m 1000000.
Proof.
  destruct (pedigree_table version) as [table|] eqn:Et; cbn [getkey bind].
  - pose proof (row_published version table label Et) as Hr. destruct (table label) as [row|]; cbn [getkey bind].
    + destruct Hr as [-> Hl]. split.
      * intros H. pose proof (index_counts_as _ _ _ Hl H) as [k Hk]. apply (counts_as_index _ _ _ Hl Hk) in H.
        rewrite list_lookup_fmap in H. destruct (published version label !! (k - 1)%nat) as [m|] eqn:Em; [|done].
        injection H as <-. eauto.
      * intros (k & m & Hk & Hm & ->). apply (counts_as_index _ _ _ Hl Hk). rewrite list_lookup_fmap, Hm. done.
    + rewrite Hr. split; [done|]. intros (? & ? & _ & ? & _). done.
  - rewrite (no_table_published _ _ Et). split; [done|]. intros (? & ? & _ & ? & _). done.
Qed.
Lemma variance_of_iff version pm q : get_pedigree_variance_of version pm = Ok q <-> variance_of version pm q.
Proof.
  unfold get_pedigree_variance_of. rewrite bind_Ok. revert q. induction pm as [|[label s] pm IH]; intros q.
  - split.
    + intros (l & [= <-] & [= <-]). constructor.
    + inversion 1. exists []. done.
  - split.
    + intros (l & Hl & Hq). apply Ok_inj in Hq as <-. apply mapR_Ok in Hl. inversion Hl as [|? v ? vs Hv Hvs]; subst.
      apply score_variance in Hv as (k & m & Hk & Hm & ->). apply mapR_Ok in Hvs.
      cbn [Qcsum foldr]. apply (variance_score version label s k m); [done..|]. apply IH. eauto.
    + inversion 1 as [|? ? k m ? q' Hk Hm Hq]; subst. apply IH in Hq as (l & Hl & Hq). apply Ok_inj in Hq as <-.
      exists (frac m 1000000 :: l). split; [|done]. apply mapR_Ok. constructor; [|by apply mapR_Ok].
      apply score_variance. eauto.
Qed.
Lemma original_variance pm : get_pedigree_variance pm = get_pedigree_variance_of "original" pm.
Proof. done. Qed.
Lemma pedigree_variance_iff pm q : get_pedigree_variance pm = Ok q <-> variance_of "original" pm q.
Proof. rewrite original_variance. apply variance_of_iff. Qed.
Lemma variance_of_unique version pm q q' : variance_of version pm q -> variance_of version pm q' -> q = q'.
Proof. rewrite <- !variance_of_iff. congruence. Qed.

(** ** Exact repair *)
Lemma logR_pos ln x : (0 < x)%Qc -> logR ln x = Ok (ln x).
Proof. intros H. unfold logR. assert (Qcleb x 0 = false) as -> by (apply Qcleb_false; qclra). done. Qed.
Lemma Qcabs_pos_ne a : a <> 0%Qc -> (0 < Qcabs a)%Qc.
Proof. intros H. unfold Qcabs. destruct (Qcltb a 0) eqn:E; qc_bool; [qclra|]. destruct (Qcle_lt_or_eq _ _ E); [done|]. by subst. Qed.

Lemma kept_variance_unique ln euler v v1 v2 : kept_variance ln euler v v1 -> kept_variance ln euler v v2 -> v1 = v2.
Proof.
  unfold kept_variance. intros [(? & ->)|[(? & ? & ->)|(? & ? & ->)]] [(? & ->)|[(? & ? & ->)|(? & ? & ->)]]; try done; exfalso; qclra.
Qed.
Lemma allclose_middle a lo hi : allclose a ((lo + hi) / (1 + 1))%Qc = true <-> about_middle a lo hi.
Proof.
  unfold allclose, about_middle. cbv zeta. rewrite Qcleb_true. generalize ((lo + hi) / (1 + 1))%Qc as m. intros m.
  fold (Qcabs m). generalize (frac 1 100000000 + frac 1 100000 * Qcabs m)%Qc as t. intros t.
  unfold Qcabs at 1. destruct (Qcltb (a - m) 0) eqn:E; qc_bool; (split; [intros H; split; qclra|intros [? ?]; qclra]).
Qed.

Lemma lognormal_exact ln euler a u ped o' : (1 <= euler)%Qc -> u_type u = Some ULognormal ->
  lognormal_repair ln euler (mkUobj a (Some u) ped) = Ok o' <->
  exists u', repair_says ln euler a ped u u' /\ o' = mkUobj a u' ped.
Proof.
  intros He Ht. unfold repair_says, lognormal_repair. rewrite Ht. cbn.
  destruct (Qceqb a 0) eqn:Ea; qc_bool.
  { split.
    - intros H. apply Ok_inj in H as <-. exists None. auto.
    - intros (u' & [[_ ->]|[? _]] & ->); done. }
  destruct (u_vwpu u) as [vw|] eqn:Ev; cbn.
  2:{ split; [done|]. intros (u' & [[? _]|(_ & ? & ? & _)] & _); done. }
  destruct (Qceqb vw 0) eqn:Ez; qc_bool.
  { split.
    - intros H. apply Ok_inj in H as <-. exists None. split; [|done]. right. split; [done|]. exists vw. auto.
    - intros (u' & [[? _]|(_ & t & [= <-] & [[_ ->]|[? _]])] & ->); done. }
  rewrite (logR_pos ln (Qcabs a)) by (by apply Qcabs_pos_ne). cbn.
  destruct (get_pedigree_variance (default [] ped)) as [pv|] eqn:Ep; cbn.
  2:{ split; [done|]. intros (u' & [[? _]|(_ & t & [= <-] & [[? _]|(_ & pv & v & Hpv & _)])] & _); try done.
      apply pedigree_variance_iff in Hpv. congruence. }
  assert (forall v u0, kept_variance ln euler (vw - pv) v ->
    u0 = mkUncert (u_type u) (u_min u) (u_max u) (u_mode u) (Some (Qcabs a)) (Some (ln (Qcabs a)))
           (Some v) (Some (v + pv)%Qc) (u_sd95 u) (Some (Qcltb a 0)) (u_pedigree u) ->
    Ok (mkUobj a (Some u0) ped) = Ok o' <->
    exists u' : option uncert,
      (a = 0%Qc /\ u' = None
       \/ a <> 0%Qc /\ exists total, Some vw = Some total /\
          (total = 0%Qc /\ u' = None
           \/ total <> 0%Qc /\ exists pv v, variance_of "original" (default [] ped) pv /\ kept_variance ln euler (total - pv) v /\
              u' = Some (mkUncert (Some ULognormal) (u_min u) (u_max u) (u_mode u) (Some (Qcabs a)) (Some (ln (Qcabs a)))
                   (Some v) (Some (v + pv)%Qc) (u_sd95 u) (Some (Qcltb a 0)) (u_pedigree u)))) /\ o' = mkUobj a u' ped) as Hfin.
  { intros v u0 Hv ->. rewrite Ht. split.
    - intros H. apply Ok_inj in H as <-. eexists. split; [|done]. right. split; [done|]. exists vw. split; [done|]. right. split; [done|].
      exists pv, v. split; [by apply pedigree_variance_iff|]. done.
    - intros (u' & [[? _]|(_ & t & [= <-] & [[? _]|(_ & pv' & v' & Hpv' & Hv' & ->)])] & ->); try done.
      apply pedigree_variance_iff in Hpv'. assert (pv' = pv) as -> by congruence.
      by rewrite (kept_variance_unique _ _ _ _ _ Hv Hv'). }
  destruct (Qcleb 1 (vw - pv) && Qcleb (vw - pv) euler) eqn:Ew.
  - apply andb_prop in Ew as [E1%Qcleb_true E2%Qcleb_true]. rewrite logR_pos by qclra. cbn.
    apply (Hfin (ln (vw - pv)%Qc)); [right; left; done|]. done.
  - assert (~ (1 <= vw - pv /\ vw - pv <= euler)%Qc) as Hn.
    { intros [? ?]. apply andb_false_iff in Ew as [Ew%Qcleb_false|Ew%Qcleb_false]; qclra. }
    destruct (Qcltb euler (vw - pv)) eqn:Eg; qc_bool.
    + apply (Hfin (frac 1 4)); [right; right; split; [qclra|done]|]. done.
    + assert (vw - pv < 1)%Qc as Hlt.
      { destruct (Qclt_le_dec (vw - pv) 1); [done|]. exfalso. by apply Hn. }
      apply (Hfin (vw - pv)%Qc); [left; done|]. assert (vw - pv + pv = vw)%Qc as -> by ring.
      rewrite <- Ev. by destruct u.
Qed.

Lemma normal_exact ln euler a u ped o' : u_type u = Some UNormal ->
  normal_repair (mkUobj a (Some u) ped) = Ok o' <->
  exists u', repair_says ln euler a ped u u' /\ o' = mkUobj a u' ped.
Proof.
  intros Ht. unfold repair_says, normal_repair. rewrite Ht. cbn.
  destruct (u_vwpu u) as [vw|] eqn:Ev; cbn.
  2:{ split; [done|]. intros (u' & (? & ? & _) & _); done. }
  destruct (Qceqb vw 0) eqn:Ez; qc_bool.
  - split.
    + intros H. apply Ok_inj in H as <-. exists None. split; [|done]. exists vw. auto.
    + intros (u' & (t & [= <-] & [[_ ->]|[? _]]) & ->); done.
  - split.
    + intros H. apply Ok_inj in H as <-. eexists. split; [|done]. exists vw. split; [done|]. right. split; [done|].
      rewrite <- Ht, <- Ev. by destruct u.
    + intros (u' & (t & [= <-] & [[? _]|[_ ->]]) & ->); [done|]. rewrite <- Ht, <- Ev. by destruct u.
Qed.

Lemma bounds_of_unique u lo hi lo' hi' : bounds_of u lo hi -> bounds_of u lo' hi' -> lo = lo' /\ hi = hi'.
Proof.
  intros (mn & mx & H1 & H2 & H) (mn' & mx' & H1' & H2' & H'). assert (mn' = mn) as -> by congruence. assert (mx' = mx) as -> by congruence.
  destruct H as [(? & -> & ->)|(? & -> & ->)], H' as [(? & -> & ->)|(? & -> & ->)]; try done; exfalso; qclra.
Qed.
Lemma flip_bounds u mn mx : u_min u = Some mn -> u_max u = Some mx ->
  bounds_of u (if Qcltb mx mn then mx else mn) (if Qcltb mx mn then mn else mx).
Proof. intros H1 H2. exists mn, mx. split; [done|]. split; [done|]. destruct (Qcltb mx mn) eqn:E; qc_bool; auto. Qed.

Lemma triangular_exact ln euler a u ped o' : u_type u = Some UTriangular ->
  triangular_repair (mkUobj a (Some u) ped) = Ok o' <->
  exists u', repair_says ln euler a ped u u' /\ o' = mkUobj a u' ped.
Proof.
  intros Ht. unfold repair_says, triangular_repair. rewrite Ht. cbn.
  destruct (u_min u) as [mn|] eqn:E1; cbn.
  2:{ split; [done|]. intros (u' & (? & ? & (? & ? & ? & _) & _) & _); congruence. }
  destruct (u_max u) as [mx|] eqn:E2; cbn.
  2:{ split; [done|]. intros (u' & (? & ? & (? & ? & _ & ? & _) & _) & _); congruence. }
  pose proof (flip_bounds u mn mx E1 E2) as Hb.
  assert (forall lo hi, bounds_of u lo hi -> (Qceqb mn mx && Qceqb mx a = true -> lo = hi) /\ (Qceqb mn mx && Qceqb mx a = false -> lo = hi -> (a < lo \/ hi < a)%Qc) /\ (lo <= hi)%Qc) as Hdeg.
  { intros lo hi (mn' & mx' & [= <-]%(eq_trans (eq_sym E1)) & [= <-]%(eq_trans (eq_sym E2)) & Hl).
    split; [|split].
    - intros [->%Qceqb_true ->%Qceqb_true]%andb_prop. destruct Hl as [(_ & -> & ->)|(_ & -> & ->)]; done.
    - intros Hf Heq. destruct (Qclt_le_dec a lo) as [|Hge]; [auto|]. destruct (Qclt_le_dec hi a) as [|Hle]; [auto|]. exfalso.
      subst hi. assert (a = lo) as -> by (by apply Qcle_antisym).
      assert (mn = mx /\ mx = lo) as [-> ->] by (destruct Hl as [(_ & -> & ->)|(_ & -> & ->)]; done).
      assert (Qceqb lo lo = true) as E by (by apply Qceqb_true). by rewrite E in Hf.
    - destruct Hl as [(? & -> & ->)|(? & -> & ->)]; [done|]. qclra. }
  destruct (Qceqb mn mx && Qceqb mx a) eqn:Ee.
  { split.
    - intros H. apply Ok_inj in H as <-. exists None. split; [|done]. eexists _, _. split; [exact Hb|]. left. split; [|done]. left. by apply (Hdeg _ _ Hb).
    - intros (u' & (lo & hi & Hb' & [[_ ->]|[(Hlt & _) ->]]) & ->); [done|]. exfalso. pose proof (proj1 (Hdeg _ _ Hb') eq_refl) as ->. qclra. }
  set (lo := if Qcltb mx mn then mx else mn) in *. set (hi := if Qcltb mx mn then mn else mx) in *.
  destruct (Hdeg _ _ Hb) as (_ & Hd & Hle). specialize (Hd eq_refl).
  destruct (Qcltb a lo || Qcltb hi a) eqn:Eo.
  - split.
    + intros H. apply Ok_inj in H as <-. exists None. split; [|done]. exists lo, hi. split; [done|]. left. split; [|done]. right.
      apply orb_true_iff in Eo as [Eo|Eo]; qc_bool; auto.
    + intros (u' & (lo' & hi' & Hb' & [[_ ->]|[(Hlt & ? & ?) ->]]) & ->); [done|]. exfalso.
      destruct (bounds_of_unique _ _ _ _ _ Hb Hb') as [<- <-]. apply orb_true_iff in Eo as [Eo|Eo]; qc_bool; qclra.
  - apply orb_false_iff in Eo as [El Eh]. qc_bool. split.
    + intros H. apply Ok_inj in H as <-. eexists. split; [|done]. exists lo, hi. split; [done|]. right. split; [|rewrite <- Ht; by destruct u].
      split; [|done]. destruct (Qcle_lt_or_eq _ _ Hle) as [|Heq]; [done|]. destruct (Hd Heq); exfalso; qclra.
    + intros (u' & (lo' & hi' & Hb' & [[Hout ->]|[(Hlt & ? & ?) ->]]) & ->).
      * exfalso. destruct (bounds_of_unique _ _ _ _ _ Hb Hb') as [<- <-]. destruct Hout as [Heq|[?|?]]; [|qclra..].
        destruct (Hd Heq); qclra.
      * destruct (bounds_of_unique _ _ _ _ _ Hb Hb') as [<- <-]. rewrite <- Ht. by destruct u.
Qed.

Lemma uniform_exact ln euler a u ped o' : u_type u = Some UUniform ->
  uniform_repair (mkUobj a (Some u) ped) = Ok o' <->
  exists u', repair_says ln euler a ped u u' /\ o' = mkUobj a u' ped.
Proof.
  intros Ht. unfold repair_says, uniform_repair. rewrite Ht. cbn.
  destruct (u_min u) as [mn|] eqn:E1; cbn.
  2:{ split; [done|]. intros (u' & (? & ? & (? & ? & ? & _) & _) & _); congruence. }
  destruct (u_max u) as [mx|] eqn:E2; cbn.
  2:{ split; [done|]. intros (u' & (? & ? & (? & ? & _ & ? & _) & _) & _); congruence. }
  pose proof (flip_bounds u mn mx E1 E2) as Hb.
  destruct (Qceqb mn mx && Qceqb mx a) eqn:Ee.
  { apply andb_prop in Ee as [->%Qceqb_true ->%Qceqb_true].
    assert (bounds_of u a a) as Ha. { exists a, a. split; [done|]. split; [done|]. left. split; [qclra|done]. }
    split.
    - intros H. apply Ok_inj in H as <-. exists None. split; [|done]. exists a, a. split; [done|]. split; [split; qclra|]. auto.
    - intros (u' & (lo & hi & Hb' & _ & [[_ ->]|[Hne _]]) & ->); [done|]. exfalso. destruct (bounds_of_unique _ _ _ _ _ Ha Hb') as [<- <-]. done. }
  set (lo := if Qcltb mx mn then mx else mn) in *. set (hi := if Qcltb mx mn then mn else mx) in *.
  assert (lo = hi -> (lo <= a /\ a <= hi)%Qc -> False) as Hd.
  { intros Heq [H1 H2]. rewrite <- Heq in H2. assert (lo = a) as Ha by (by apply Qcle_antisym).
    unfold lo, hi in *. destruct (Qcltb mx mn) eqn:E; qc_bool; [subst; qclra|]. subst.
    assert (Qceqb a a = true) as Eq by (by apply Qceqb_true). by rewrite Eq in Ee. }
  destruct (Qcltb a lo || Qcltb hi a) eqn:Eo.
  { split; [done|]. intros (u' & (lo' & hi' & Hb' & [? ?] & _) & _). exfalso. destruct (bounds_of_unique _ _ _ _ _ Hb Hb') as [<- <-].
    apply orb_true_iff in Eo as [Eo|Eo]; qc_bool; qclra. }
  apply orb_false_iff in Eo as [El Eh]. qc_bool.
  assert (lo <> hi) as Hne by (intros Heq; by apply Hd).
  assert (lo < hi)%Qc as Hlt. { destruct (Qcle_lt_or_eq lo hi); [qclra|done|done]. }
  destruct (allclose a ((lo + hi) / (1 + 1))%Qc) eqn:Ec; cbn [negb].
  - apply allclose_middle in Ec. split.
    + intros H. apply Ok_inj in H as <-. eexists. split; [|done]. exists lo, hi. split; [done|]. split; [done|]. right. split; [done|].
      exists UUniform, (u_mode u). split; [auto|]. rewrite <- Ht. by destruct u.
    + intros (u' & (lo' & hi' & Hb' & _ & [[? _]|(_ & t & md & [(_ & -> & ->)|(? & _)] & ->)]) & ->);
        destruct (bounds_of_unique _ _ _ _ _ Hb Hb') as [<- <-]; [done| |done]. rewrite <- Ht. by destruct u.
  - assert (~ about_middle a lo hi) as Hm. { rewrite <- allclose_middle. by rewrite Ec. }
    unfold putunc. cbn. erewrite (triangular_repair_wf a _ ped lo hi); [|by left|done..]. cbn. split.
    + intros H. apply Ok_inj in H as <-. eexists. split; [|done]. exists lo, hi. split; [done|]. split; [done|]. right. split; [done|].
      exists UTriangular, (Some a). split; [auto|]. by destruct u.
    + intros (u' & (lo' & hi' & Hb' & _ & [[? _]|(_ & t & md & [(? & _)|(_ & -> & ->)] & ->)]) & ->);
        destruct (bounds_of_unique _ _ _ _ _ Hb Hb') as [<- <-]; [done|done|]. by destruct u.
Qed.

Lemma repair_exact ln euler a u ped o' : (1 <= euler)%Qc ->
  repair ln euler (mkUobj a u ped) = Ok o' <-> exists u', repair_says_opt ln euler a ped u u' /\ o' = mkUobj a u' ped.
Proof.
  intros He. unfold repair, get_uncertainty_class, repair_says_opt. cbn. destruct u as [u|]; cbn.
  2:{ split; [intros H; apply Ok_inj in H as <-; eauto|]. by intros (? & -> & ->). }
  destruct (u_type u) as [[]|] eqn:Et; cbn [bind].
  7:{ split; [intros H; apply Ok_inj in H as <-; exists (Some u)|intros (u' & H & ->)]; unfold repair_says in *; rewrite Et in *; [done|by subst]. }
  all: try (split; [intros H; apply Ok_inj in H as <-; exists (Some u)|intros (u' & H & ->)]; unfold repair_says in *; rewrite Et in *; [done|by subst]).
  - by apply lognormal_exact.
  - by apply normal_exact.
  - by apply triangular_exact.
  - by apply uniform_exact.
  - split; [done|]. intros (u' & H & _). unfold repair_says in H. by rewrite Et in H.
Qed.
Lemma repair_if_exact ln euler a u ped o' : (1 <= euler)%Qc ->
  repair_if ln euler (mkUobj a u ped) = Ok o' <-> exists u', repair_says_opt ln euler a ped u u' /\ o' = mkUobj a u' ped.
Proof.
  intros He. unfold repair_if. cbn. destruct (unc_truthy u) eqn:E; [by apply repair_exact|].
  destruct u as [u|]; cbn in *.
  - apply negb_false_iff, bool_decide_eq_true in E as ->. split; [intros H; apply Ok_inj in H as <-; by exists (Some uncert0)|].
    intros (u' & H & ->). unfold repair_says in H. cbn in H. by subst.
  - split; [intros H; apply Ok_inj in H as <-; by exists None|]. by intros (u' & -> & ->).
Qed.

(** ** Whole datasets *)
Lemma repair_pv_exact ln euler v v' : (1 <= euler)%Qc ->
  repair_pv ln euler v = Ok v' <-> exists u', repair_says_opt ln euler (v_amount v) None (v_unc v) u' /\ v' = set_v_unc u' v.
Proof.
  intros He. unfold repair_pv. rewrite bind_Ok. setoid_rewrite repair_if_exact; [|done]. split.
  - intros (o & (u' & Hu & ->) & Hv). apply Ok_inj in Hv as <-. exists u'. split; [done|]. by destruct v.
  - intros (u' & Hu & ->). eexists. split; [by exists u'|]. by destruct v.
Qed.
Lemma repair_prop_exact ln euler p p' : (1 <= euler)%Qc ->
  repair_prop ln euler p = Ok p' <-> exists u', repair_says_opt ln euler (p_amount p) None (p_unc p) u' /\ p' = set_p_unc u' p.
Proof.
  intros He. unfold repair_prop. rewrite bind_Ok. setoid_rewrite repair_if_exact; [|done]. split.
  - intros (o & (u' & Hu & ->) & Hv). apply Ok_inj in Hv as <-. exists u'. split; [done|]. by destruct p.
  - intros (u' & Hu & ->). eexists. split; [by exists u'|]. by destruct p.
Qed.
Lemma repair_param_exact ln euler q q' : (1 <= euler)%Qc ->
  repair_param ln euler q = Ok q' <-> exists u', repair_says_opt ln euler (q_amount q) None (q_unc q) u' /\ q' = set_q_unc u' q.
Proof.
  intros He. unfold repair_param. rewrite bind_Ok. setoid_rewrite repair_if_exact; [|done]. split.
  - intros (o & (u' & Hu & ->) & Hv). apply Ok_inj in Hv as <-. exists u'. split; [done|]. by destruct q.
  - intros (u' & Hu & ->). eexists. split; [by exists u'|]. by destruct q.
Qed.

Lemma mapR_exact {A B} (f : A -> result B) (R : A -> B -> Prop) l l' :
  (forall x y, f x = Ok y <-> R x y) -> mapR f l = Ok l' <-> Forall2 R l l'.
Proof. intros H. rewrite mapR_Ok. split; intros HF; (eapply Forall2_impl; [exact HF|]); intros; by apply H. Qed.

Lemma strip_props_iff ln euler ps ps' :
  Forall2 (fun p p' => exists u', repair_says_opt ln euler (p_amount p) None (p_unc p) u' /\ p' = set_p_unc u' p) ps ps' <->
  map (set_p_unc None) ps' = map (set_p_unc None) ps /\
  Forall2 (fun p p' => repair_says_opt ln euler (p_amount p) None (p_unc p) (p_unc p')) ps ps'.
Proof.
  revert ps'. induction ps as [|p ps IH]; intros ps'; split.
  - inversion 1. done.
  - intros [_ H]. by inversion H.
  - inversion 1 as [|? ? ? ? (u' & Hu & ->) Hps]; subst. apply IH in Hps as [E Hps]. cbn. rewrite E. split; [by destruct p|].
    constructor; [by destruct p|done].
  - intros [E H]. inversion H as [|? p' ? ps'' Hp Hps]; subst. cbn in E. injection E as E1 E2. constructor.
    + exists (p_unc p'). split; [done|]. destruct p, p'. unfold set_p_unc in *. cbn in *. congruence.
    + by apply IH.
Qed.
Lemma strip_params_iff ln euler ps ps' :
  Forall2 (fun p p' => exists u', repair_says_opt ln euler (q_amount p) None (q_unc p) u' /\ p' = set_q_unc u' p) ps ps' <->
  map (set_q_unc None) ps' = map (set_q_unc None) ps /\
  Forall2 (fun p p' => repair_says_opt ln euler (q_amount p) None (q_unc p) (q_unc p')) ps ps'.
Proof.
  revert ps'. induction ps as [|p ps IH]; intros ps'; split.
  - inversion 1. done.
  - intros [_ H]. by inversion H.
  - inversion 1 as [|? ? ? ? (u' & Hu & ->) Hps]; subst. apply IH in Hps as [E Hps]. cbn. rewrite E. split; [by destruct p|].
    constructor; [by destruct p|done].
  - intros [E H]. inversion H as [|? p' ? ps'' Hp Hps]; subst. cbn in E. injection E as E1 E2. constructor.
    + exists (q_unc p'). split; [done|]. destruct p, p'. unfold set_q_unc in *. cbn in *. congruence.
    + by apply IH.
Qed.

Lemma strip_exchange_inv e e' : strip_exchange e' = strip_exchange e ->
  e' = set_e_props (e_props e') (set_e_pv (e_pv e') (set_e_unc (e_unc e') e)).
Proof. destruct e, e'. unfold strip_exchange, set_e_props, set_e_pv, set_e_unc. cbn. intros E. injection E. intros. subst. reflexivity. Qed.
Lemma strip_exchange_put e u v ps :
  map (set_p_unc None) ps = map (set_p_unc None) (e_props e) -> option_map (set_v_unc None) v = option_map (set_v_unc None) (e_pv e) ->
  strip_exchange (set_e_props ps (set_e_pv v (e_put e (mkUobj (e_amount e) u (e_ped e))))) = strip_exchange e.
Proof. intros E1 E2. destruct e. unfold strip_exchange. cbn in *. rewrite E1, E2. reflexivity. Qed.
Lemma strip_dataset_inv ds ds' : strip_dataset ds' = strip_dataset ds ->
  ds' = set_d_params (d_params ds') (set_d_exchanges (d_exchanges ds') ds).
Proof. destruct ds, ds'. unfold strip_dataset, set_d_params, set_d_exchanges. cbn. intros E. injection E. intros. subst. reflexivity. Qed.

Lemma repair_exchange_exact ln euler e e' : (1 <= euler)%Qc ->
  repair_exchange ln euler e = Ok e' <-> exchange_repaired ln euler e e'.
Proof.
  intros He. unfold repair_exchange, exchange_repaired. rewrite bind_Ok. setoid_rewrite bind_Ok. setoid_rewrite bind_Ok.
  setoid_rewrite (mapR_exact _ _ _ _ (fun p p' => repair_prop_exact ln euler p p' He)). setoid_rewrite repair_if_exact; [|done].
  split.
  - intros (o & (u' & Hu & ->) & v & Hv & ps & Hps & E). apply Ok_inj in E as <-. apply strip_props_iff in Hps as [Es Hps].
    assert (option_map (set_v_unc None) v = option_map (set_v_unc None) (e_pv e) /\
      match e_pv e, v with
      | Some v, Some v' => repair_says_opt ln euler (v_amount v) None (v_unc v) (v_unc v')
      | None, None => True
      | _, _ => False
      end) as [Ev Hv'].
    { change (optR (repair_pv ln euler) (e_pv e) = Ok v) in Hv. destruct (e_pv e) as [pv|]; cbn in Hv.
      - inv_ok. subst v. apply repair_pv_exact in Hok as (w & Hw & ->); [|done]. by destruct pv.
      - by apply Ok_inj in Hv as <-. }
    split; [exact (strip_exchange_put e u' v ps Es Ev)|]. split; [exact Hu|]. split; [exact Hv'|exact Hps].
  - intros (Es & Hu & Hv & Hps).
    assert (map (set_p_unc None) (e_props e') = map (set_p_unc None) (e_props e)) as Ep by (apply (f_equal e_props) in Es; exact Es).
    assert (option_map (set_v_unc None) (e_pv e') = option_map (set_v_unc None) (e_pv e)) as Ev by (apply (f_equal e_pv) in Es; exact Es).
    eexists. split; [by exists (e_unc e')|]. exists (e_pv e'). split.
    { destruct e as [? ? ? ? ? ? ? ? ? pv ? ? ? ? ? ? ? ? ? ? ? ?]. cbn in *. destruct pv as [pv|]; cbn.
      - destruct (e_pv e') as [pv'|]; [|done]. apply bind_Ok. exists pv'. split; [|done]. apply repair_pv_exact; [done|].
        exists (v_unc pv'). split; [done|]. cbn in Ev. injection Ev as Ev. destruct pv, pv'. unfold set_v_unc in *. cbn in *. congruence.
      - by destruct (e_pv e'). }
    exists (e_props e'). split; [apply strip_props_iff; by destruct e|].
    f_equal. etransitivity; [|symmetry; apply (strip_exchange_inv _ _ Es)]. destruct e. reflexivity.
Qed.

Lemma repair_dataset_exact ln euler ds ds' : (1 <= euler)%Qc ->
  repair_dataset ln euler ds = Ok ds' <-> dataset_repaired ln euler ds ds'.
Proof.
  intros He. unfold repair_dataset, dataset_repaired. rewrite bind_Ok. setoid_rewrite bind_Ok.
  setoid_rewrite (mapR_exact _ _ _ _ (fun p p' => repair_exchange_exact ln euler p p' He)).
  setoid_rewrite (mapR_exact _ _ _ _ (fun p p' => repair_param_exact ln euler p p' He)).
  assert (forall l l', Forall2 (exchange_repaired ln euler) l l' -> map strip_exchange l' = map strip_exchange l) as Hes.
  { induction 1 as [|x y l l' [Hx _] _ IH]; [done|]. cbn. by rewrite Hx, IH. }
  split.
  - intros (es & Hx & qs & Hq & E). apply Ok_inj in E as <-. apply strip_params_iff in Hq as [Eq Hq].
    split; [|by destruct ds]. apply Hes in Hx. destruct ds. unfold strip_dataset. cbn in *. rewrite Hx, Eq. reflexivity.
  - intros (Es & Hx & Hq). exists (d_exchanges ds'). split; [done|]. exists (d_params ds'). split.
    + apply strip_params_iff. split; [|done]. apply (f_equal d_params) in Es. exact Es.
    + f_equal. symmetry. by apply strip_dataset_inv.
Qed.
Lemma repair_all_exact ln euler data data' : (1 <= euler)%Qc ->
  repair_all_uncertainty_distributions ln euler data = Ok data' <-> Forall2 (dataset_repaired ln euler) data data'.
Proof. intros He. apply mapR_exact. intros. by apply repair_dataset_exact. Qed.

(** ** Repair without a pedigree matrix on the object *)
Lemma variance_of_nil version q : variance_of version [] q <-> q = 0%Qc.
Proof. split; [by inversion 1|]. intros ->. constructor. Qed.
Lemma repair_no_matrix ln euler a u o' u' : (1 <= euler)%Qc ->
  repair ln euler (mkUobj a (Some u) None) = Ok o' -> o_unc o' = Some u' -> u_type u' = Some ULognormal ->
  is_Some (u_variance u') /\ u_variance u' = u_vwpu u'.
Proof.
  intros He H Hu Ht. apply repair_exact in H as (w & Hw & ->); [|done]. cbn in Hu. subst w. unfold repair_says_opt, repair_says in Hw.
  destruct (u_type u) as [[]|] eqn:Et.
  - destruct Hw as [[_ ?]|(_ & t & _ & [[_ ?]|(_ & pv & v & Hpv & _ & [= ->])])]; try done.
    apply variance_of_nil in Hpv as ->. cbn. split; [done|]. f_equal. ring.
  - destruct Hw as (t & _ & [[_ ?]|(_ & [= ->])]); [done|]. by cbn in Ht.
  - destruct Hw as (lo & hi & _ & [[_ ?]|(_ & [= ->])]); [done|]. by cbn in Ht.
  - injection Hw as ->. congruence.
  - destruct Hw as (lo & hi & _ & _ & [[_ ?]|(_ & t & md & Htm & [= ->])]); [done|]. cbn in Ht. injection Ht as ->.
    by destruct Htm as [(_ & ? & _)|(_ & ? & _)].
  - done.
  - injection Hw as ->. congruence.
Qed.
Lemma repair_matrix_copied ln euler a u pm w : (1 <= euler)%Qc ->
  repair ln euler (mkUobj a (Some u) None) = Ok (mkUobj a w None) ->
  repair ln euler (mkUobj a (Some (set_u_pedigree pm u)) None) = Ok (mkUobj a (option_map (set_u_pedigree pm) w) None).
Proof.
  intros He H. apply repair_exact in H as (w' & Hw & [= <-]); [|done]. apply repair_exact; [done|].
  exists (option_map (set_u_pedigree pm) w). split; [|done]. unfold repair_says_opt, repair_says in *. cbn.
  destruct u as [ty mn mx md me mu va vw sd ng pd]. cbn in *. destruct ty as [[]|].
  - destruct Hw as [[? ->]|(? & t & ? & [[? ->]|(? & pv & v & ? & ? & ->)])]; [by left|right; split; [done|]; exists t..]; cbn.
    + auto.
    + split; [done|]. right. split; [done|]. exists pv, v. done.
  - destruct Hw as (t & ? & [[? ->]|(? & ->)]); exists t; cbn; auto.
  - destruct Hw as (lo & hi & Hb & [[? ->]|(? & ->)]); exists lo, hi; (split; [exact Hb|]); cbn; auto.
  - by subst.
  - destruct Hw as (lo & hi & Hb & ? & [[? ->]|(? & t & md' & Htm & ->)]); exists lo, hi; (split; [exact Hb|]); (split; [done|]); cbn; [auto|].
    right. split; [done|]. exists t, md'. auto.
  - done.
  - by subst.
Qed.

(** ** Ageing without one *)
Lemma ageing_no_matrix end_year a u year :
  adjust_and_recalculate end_year (mkUobj a (Some u) None) year =
  match u_type u with
  | Some ULognormal => let? v := getkey "variance" (u_variance u) in Ok (mkUobj a (Some (set_u_vwpu (Some v) u)) None)
  | Some (UOther _) => Err UnsupportedDistribution
  | _ => Ok (mkUobj a (Some u) None)
  end.
Proof.
  unfold adjust_and_recalculate, get_uncertainty_class, lognormal_recalculate. cbn. destruct (u_type u) as [[]|]; try reflexivity. cbn.
  destruct (u_variance u) as [v|]; [|done]. cbn. unfold putunc. cbn. by assert (v + 0 = v)%Qc as -> by ring.
Qed.
(** And with one. *)
Lemma ageing_matrix end_year a u pm pm' v q year : u_type u = Some ULognormal -> u_variance u = Some v ->
  adjust_pedigree_matrix_time end_year (mkUobj a (Some u) (Some pm)) year = Ok (mkUobj a (Some u) (Some pm')) ->
  variance_of "original" pm' q ->
  adjust_and_recalculate end_year (mkUobj a (Some u) (Some pm)) year = Ok (mkUobj a (Some (set_u_vwpu (Some (v + q)%Qc) u)) (Some pm')).
Proof.
  intros Ht Hv Ha Hq. apply pedigree_variance_iff in Hq. unfold adjust_and_recalculate. rewrite Ha. cbn [bind].
  unfold get_uncertainty_class, lognormal_recalculate. cbn. rewrite Ht. cbn. rewrite Hv. cbn. rewrite Hq. reflexivity.
Qed.
Lemma ageing_never_lowers end_year a u pm v q year o u' t' s : u_type u = Some ULognormal -> u_variance u = Some v ->
  assoc_get "temporal correlation" pm = Some s -> (1 <= s <= 5)%Z -> variance_of "original" pm q ->
  adjust_and_recalculate end_year (mkUobj a (Some u) (Some pm)) year = Ok o -> o_unc o = Some u' -> u_vwpu u' = Some t' ->
  (v + q <= t')%Qc.
Proof.
  intros Ht Hv Hs Hr Hq H Hu Hw. unfold adjust_and_recalculate in H. apply bind_Ok in H as (o1 & Ha & H).
  assert (exists pm', o1 = mkUobj a (Some u) (Some pm')) as (pm' & ->).
  { unfold adjust_pedigree_matrix_time in Ha. cbn in Ha. rewrite Hs in Ha. cbn in Ha. apply Ok_inj in Ha as <-. destruct (_ <? _)%Z; eauto. }
  unfold get_uncertainty_class, lognormal_recalculate in H. cbn in H. rewrite Ht in H. cbn in H. rewrite Hv in H. cbn in H.
  apply bind_Ok in H as (q' & Hq' & H). apply Ok_inj in H as <-. cbn in Hu. injection Hu as <-. cbn in Hw. injection Hw as <-.
  apply pedigree_variance_iff in Hq.
  pose proof (adjust_time_variance_mono _ _ _ _ _ _ _ _ _ Hs Hr Ha Hq Hq'). qclra.
Qed.
Lemma repaired_never_ages ln euler a u o' end_year year : (1 <= euler)%Qc ->
  repair ln euler (mkUobj a u None) = Ok o' -> adjust_and_recalculate end_year o' year = Ok o'.
Proof.
  intros He H. pose proof (repair_frame _ _ _ _ H) as [Ea Ep]. destruct o' as [a' w p']. cbn in Ea, Ep. subst a' p'.
  destruct w as [w|]; [|done].
  assert (u_type w <> None -> forall s, u_type w <> Some (UOther s)) as Hno.
  { pose proof (repair_repaired _ _ _ _ H) as Hr. cbn in Hr. unfold repaired in Hr. intros _ s Es. by rewrite Es in Hr. }
  rewrite ageing_no_matrix. destruct (u_type w) as [[]|] eqn:Et; try done.
  - destruct u as [u|]; [|done]. destruct (repair_no_matrix _ _ _ _ _ w He H eq_refl Et) as [[v Hv] Ev].
    rewrite Hv. cbn. do 3 f_equal. rewrite Hv in Ev. destruct w. cbn in *. by subst.
  - exfalso. by eapply Hno.
Qed.
