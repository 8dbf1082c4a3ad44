(** Proofs for C24-C27 and C60. *)
From Verif Require Import Base Types Uncertainty Utils Spec_Utils Utils_proofs
  Validation Validation_proofs ActivityLinks Spec_ActivityLinks.

(** ** Finding datasets by id *)
Lemma dataset_by_id_some data i d :
  dataset_by_id data i = Some d -> d ∈ data /\ d_id d = i.
Proof.
  induction data as [|ds data IH]; cbn [dataset_by_id]; [done|].
  destruct (dataset_by_id data i) as [d'|] eqn:E.
  - intros [= ->]. destruct (IH eq_refl). split; [by right|done].
  - destruct (d_id ds =? i)%string eqn:Ei; [|done]. intros [= ->].
    apply String.eqb_eq in Ei. split; [left|done].
Qed.
Lemma dataset_by_id_none data i :
  dataset_by_id data i = None <-> Forall (fun d => d_id d <> i) data.
Proof.
  induction data as [|ds data IH]; cbn [dataset_by_id]; [split; constructor|].
  destruct (dataset_by_id data i) as [d'|] eqn:E.
  - split; [done|]. inversion 1; subst. assert (Some d' = None) by (by apply IH). done.
  - destruct (d_id ds =? i)%string eqn:Ei.
    + apply String.eqb_eq in Ei. split; [done|]. by inversion 1.
    + apply String.eqb_neq in Ei. split; [|done]. constructor; [done|]. by apply IH.
Qed.
Lemma nodup_ids_eq data d1 d2 :
  NoDup (map d_id data) -> d1 ∈ data -> d2 ∈ data -> d_id d1 = d_id d2 -> d1 = d2.
Proof.
  induction data as [|d data IH]; intros Hnd H1 H2 Heq; [by apply elem_of_nil in H1|].
  cbn in Hnd. apply NoDup_cons in Hnd as [Hd Hnd].
  apply elem_of_cons in H1 as [->|H1], H2 as [->|H2]; auto.
  - exfalso. apply Hd. apply elem_of_list_fmap. eauto.
  - exfalso. apply Hd. apply elem_of_list_fmap. eauto.
Qed.
Lemma dataset_by_id_in data d :
  NoDup (map d_id data) -> d ∈ data -> dataset_by_id data (d_id d) = Some d.
Proof.
  intros Hnd Hin. destruct (dataset_by_id data (d_id d)) as [d'|] eqn:E.
  - apply dataset_by_id_some in E as [Hin' Heq]. f_equal. by eapply nodup_ids_eq.
  - apply dataset_by_id_none in E. rewrite Forall_forall in E. by apply E in Hin.
Qed.

Lemma link_truthy_links e :
  (link_truthy e = true <-> links_to (default "" (e_link e)) e) /\
  (link_truthy e = false <-> forall X, ~ links_to X e).
Proof.
  unfold link_truthy, links_to. destruct (e_link e) as [s|]; cbn.
  - destruct (s =? "")%string eqn:E; cbn.
    + apply String.eqb_eq in E. subst. split; naive_solver.
    + apply String.eqb_neq in E. split; [naive_solver|]. split; [done|].
      intros H. exfalso. by apply (H s).
  - split; naive_solver.
Qed.

Lemma filter_name_alloc n es :
  filterb (fun e => (e_name e =? n)%string) (filter alloc_output es)
  = filter (fun o => alloc_output o /\ e_name o = n) es.
Proof.
  induction es as [|e es IH]; [done|]. rewrite !filter_cons.
  destruct (decide (alloc_output e)) as [Ha|Ha].
  - change (filterb ?p (e :: ?l)) with (if p e then e :: filterb p l else filterb p l).
    cbn beta. rewrite IH. destruct (e_name e =? n)%string eqn:E.
    + apply String.eqb_eq in E. rewrite decide_True by done. done.
    + apply String.eqb_neq in E. rewrite decide_False by tauto. done.
  - rewrite decide_False by tauto. done.
Qed.

Lemma production_named_ok ds n l :
  production_named ds n = Ok l <->
  classified ds /\ l = filter (fun o => alloc_output o /\ e_name o = n) (d_exchanges ds).
Proof.
  unfold production_named. destruct (allocatable_production ds) as [es|] eqn:E; cbn [bind].
  - apply allocatable_production_ok in E as [Hc ->]. rewrite filter_name_alloc.
    split; [intros [= <-]; done|intros [_ ->]; done].
  - split; [done|]. intros [Hc _].
    assert (allocatable_production ds = Ok (filter alloc_output (d_exchanges ds)))
      by (by apply allocatable_production_ok). congruence.
Qed.

Lemma length_one {A} (l : list A) : length l = 1 <-> exists x, l = [x].
Proof.
  destruct l as [|a [|b l]]; cbn; split; try lia; try (by intros [? [=]]); eauto.
Qed.

(** ** C24 *)
Lemma check_link_ok data e :
  NoDup (map d_id data) ->
  (check_link data e = Ok tt <-> link_resolves data e).
Proof.
  intros Hnd. unfold check_link, link_resolves.
  destruct (link_truthy e) eqn:El.
  - apply link_truthy_links in El as Hl. set (X := default "" (e_link e)) in *.
    assert (HX : forall Y, links_to Y e -> Y = X).
    { intros Y [HY _]. destruct Hl as [Hl _]. rewrite HY in Hl. by injection Hl. }
    destruct (dataset_by_id data X) as [t|] eqn:Et.
    + apply dataset_by_id_some in Et as [Hin Hid].
      destruct (production_named t (e_name e)) as [found|] eqn:Ef; cbn [bind].
      * apply production_named_ok in Ef as [Hc ->]. rewrite assertR_Ok, bool_decide_eq_true.
        rewrite length_one. split.
        { intros [p Hp] Y HY. apply HX in HY. subst Y. eauto 10. }
        { intros H. destruct (H X Hl) as (t' & p & Hin' & Hid' & _ & Hp).
          assert (t' = t) as -> by (eapply nodup_ids_eq; eauto; congruence). eauto. }
      * split; [done|]. intros H. destruct (H X Hl) as (t' & p & Hin' & Hid' & Hc & Hp).
        assert (t' = t) as -> by (eapply nodup_ids_eq; eauto; congruence).
        assert (production_named t (e_name e) = Ok [p]) by (apply production_named_ok; done).
        congruence.
    + split; [done|]. intros H. destruct (H X Hl) as (t' & p & Hin' & Hid' & _).
      apply dataset_by_id_none in Et. rewrite Forall_forall in Et. by apply Et in Hin'.
  - split; [|done]. intros _ X HX. exfalso. by apply (proj1 (proj2 (link_truthy_links e)) El X).
Qed.

Lemma check_validity_spec data :
  NoDup (map d_id data) ->
  (forall data', check_activity_link_validity data = Ok data' -> data' = data) /\
  (is_ok (check_activity_link_validity data) = true <->
   forall ds e, ds ∈ data -> e ∈ d_exchanges ds -> link_resolves data e).
Proof.
  intros Hnd. unfold check_activity_link_validity. split.
  - intros data' H. inv_ok. congruence.
  - destruct (iterR _ data) as [[]|err] eqn:E; cbn [bind is_ok].
    + split; [|done]. intros _ ds e Hds He. apply iterR_Ok in E. rewrite Forall_forall in E.
      specialize (E ds Hds). cbn beta in E. apply iterR_Ok in E. rewrite Forall_forall in E.
      apply check_link_ok; [done|]. auto.
    + split; [done|]. intros H. exfalso.
      apply iterR_Err in E as (ds & Hds & E). apply iterR_Err in E as (e & He & E).
      assert (check_link data e = Ok tt) by (apply check_link_ok; eauto). congruence.
Qed.

Lemma check_validity_error data ds e :
  NoDup (map d_id data) -> Forall classified data ->
  ds ∈ data -> e ∈ d_exchanges ds -> ~ link_resolves data e ->
  check_activity_link_validity data = Err UnresolvableActivityLink.
Proof.
  intros Hnd Hcl Hds He Hno. unfold check_activity_link_validity.
  destruct (iterR _ data) as [[]|err] eqn:E; cbn [bind].
  - exfalso. apply Hno. apply check_link_ok; [done|].
    apply iterR_Ok in E. rewrite Forall_forall in E. specialize (E ds Hds). cbn beta in E.
    apply iterR_Ok in E. rewrite Forall_forall in E. auto.
  - apply iterR_Err in E as (ds' & Hds' & E). apply iterR_Err in E as (e' & He' & E).
    unfold check_link in E. destruct (link_truthy e'); [|done].
    destruct (dataset_by_id data _) as [t|] eqn:Et; [|congruence].
    apply dataset_by_id_some in Et as [Hin _]. rewrite Forall_forall in Hcl.
    destruct (production_named t (e_name e')) as [found|] eqn:Ef; cbn [bind] in E.
    + unfold assertR in E. destruct (bool_decide _); congruence.
    + assert (production_named t (e_name e') =
        Ok (filter (fun o => alloc_output o /\ e_name o = e_name e') (d_exchanges t)))
        by (apply production_named_ok; auto). congruence.
Qed.

(** ** C25 *)
Lemma update_by_id_ok data i f data' :
  NoDup (map d_id data) -> update_by_id data i f = Ok data' ->
  Forall2 (fun d d' => (d_id d = i -> f d = Ok d') /\ (d_id d <> i -> d' = d)) data data'.
Proof.
  revert data'. induction data as [|d data IH]; intros data' Hnd H; cbn [update_by_id] in H; [done|].
  cbn in Hnd. apply NoDup_cons in Hnd as [Hd Hnd].
  destruct (dataset_by_id data i) as [t|] eqn:Et.
  - inv_ok. subst. constructor; [|auto]. split; [|done]. intros Hi. exfalso.
    apply dataset_by_id_some in Et as [Hin Hid]. apply Hd. rewrite Hi, <- Hid.
    apply elem_of_list_fmap. eauto.
  - destruct (d_id d =? i)%string eqn:Ei; [|done]. apply String.eqb_eq in Ei.
    inv_ok. subst. constructor; [done|].
    apply dataset_by_id_none in Et. apply Forall_Forall2_diag.
    eapply Forall_impl; [exact Et|]. cbn. intros x Hx. split; [|done]. intros E. by destruct Hx.
Qed.

Lemma update_by_id_total data i f :
  (exists d, d ∈ data /\ d_id d = i) ->
  (forall d, d ∈ data -> d_id d = i -> exists d', f d = Ok d') ->
  exists data', update_by_id data i f = Ok data'.
Proof.
  induction data as [|d data IH]; intros (t & Ht & Hid) Hf; [by apply elem_of_nil in Ht|].
  cbn [update_by_id]. destruct (dataset_by_id data i) as [t'|] eqn:Et.
  - apply dataset_by_id_some in Et. destruct IH as [data' ->]; cbn; eauto.
    intros. apply Hf; [by right|done].
  - apply dataset_by_id_none in Et. rewrite Forall_forall in Et.
    apply elem_of_cons in Ht as [->|Ht]; [|by apply Et in Ht].
    assert ((d_id d =? i)%string = true) as -> by (by apply String.eqb_eq).
    destruct (Hf d) as [d' ->]; [left|done|]. cbn. eauto.
Qed.

(** State of the pass: which demands have been recorded so far. *)
Definition recorded (l : string -> string -> list Qc) (ds ds' : dataset) : Prop :=
  exists es', ds' = set_d_exchanges es' ds /\
    Forall2 (fun e e' => (alloc_output e -> volume_recorded (l (d_id ds) (e_name e)) e e') /\
                         (~ alloc_output e -> e' = e)) (d_exchanges ds) es'.

Lemma volume_recorded_frame l e e' :
  volume_recorded l e e' ->
  e_type e' = e_type e /\ e_class e' = e_class e /\ e_name e' = e_name e.
Proof. destruct l; cbn; [intros ->; done|]. intros (v & _ & ->). done. Qed.

Lemma recorded_frame l ds ds' :
  recorded l ds ds' ->
  d_id ds' = d_id ds /\
  Forall2 (fun e e' => e_type e' = e_type e /\ e_class e' = e_class e /\ e_name e' = e_name e)
    (d_exchanges ds) (d_exchanges ds').
Proof.
  intros (es' & -> & H). split; [done|]. cbn. eapply Forall2_impl; [exact H|].
  cbn. intros e e' [H1 H2]. destruct (decide (alloc_output e)) as [Ha|Ha].
  - by eapply volume_recorded_frame, H1.
  - rewrite H2 by done. done.
Qed.

Lemma recorded_ids l data cur :
  Forall2 (recorded l) data cur -> map d_id cur = map d_id data.
Proof.
  induction 1 as [|d d' data cur Hd Hl IH]; cbn; [done|].
  rewrite IH. by destruct (recorded_frame _ _ _ Hd) as [-> _].
Qed.

Lemma volume_recorded_add l x e e1 e2 :
  volume_recorded l e e1 -> add_subtracted x e1 = Ok e2 -> volume_recorded (l ++ [x]) e e2.
Proof.
  intros H1 H2. unfold add_subtracted in H2. inv_ok. subst.
  destruct l as [|y l]; cbn in H1.
  - subst. cbn. exists v. split; [done|]. do 4 f_equal. ring.
  - destruct H1 as (v0 & Hv & ->). cbn in Hok. injection Hok as <-.
    cbn [app volume_recorded].
    exists v0. split; [done|].
    assert (HS : Qcsum (y :: l ++ [x]) = (Qcsum (y :: l) + x)%Qc).
    { change (y :: l ++ [x]) with ((y :: l) ++ [x]). rewrite Qcsum_app.
      f_equal. unfold Qcsum. cbn. ring. }
    rewrite HS. unfold set_e_pv, set_v_subtracted. cbn. do 4 f_equal. unfold Qcsum. cbn. ring.
Qed.

Lemma recorded_same l l' ds ds' :
  (forall n, l (d_id ds) n = l' (d_id ds) n) -> recorded l ds ds' -> recorded l' ds ds'.
Proof.
  intros Hl (es' & -> & H). exists es'. split; [done|].
  eapply Forall2_impl; [exact H|]. cbn. intros e e'. by rewrite Hl.
Qed.

Lemma okb_production e :
  (e_type e = Byproduct -> e_class e <> None) ->
  okb production_exchange e = bool_decide (alloc_output e).
Proof.
  intros H. unfold okb.
  assert (production_exchange e = Ok (bool_decide (alloc_output e))) as ->
    by (by apply production_exchange_ok). done.
Qed.
Lemma okb_production_false e :
  okb production_exchange e = true -> alloc_output e.
Proof.
  unfold okb. destruct (production_exchange e) as [b|] eqn:E; [|done].
  apply production_exchange_ok in E as [_ ->]. apply bool_decide_eq_true.
Qed.

Lemma alloc_output_frame e e' :
  e_type e' = e_type e -> e_class e' = e_class e -> alloc_output e' <-> alloc_output e.
Proof. unfold alloc_output, is_refproduct, alloc_byproduct. intros -> ->. done. Qed.

Lemma add_subtracted_named_recorded l n x ds ds1 ds2 :
  classified ds ->
  recorded l ds ds1 -> add_subtracted_named n x ds1 = Ok ds2 ->
  recorded (fun X m => l X m ++ (if bool_decide (X = d_id ds /\ m = n) then [x] else [])) ds ds2.
Proof.
  intros Hcl (es1 & -> & H1) H2. unfold add_subtracted_named in H2. inv_ok. subst.
  cbn [d_exchanges set_d_exchanges] in *. exists v. split; [by destruct ds|].
  apply mapR_Ok in Hok. unfold classified in Hcl.
  revert v Hok. induction H1 as [|e e1 es es1 He Hes IH]; intros es2 Hok;
    inversion Hok as [|? e2 ? es2' He2 Hes2]; subst; [constructor|].
  inversion Hcl; subst. constructor; [|auto]. destruct He as [Ha Hna].
  destruct (decide (alloc_output e)) as [Hal|Hal].
  - split; [intros _|done]. specialize (Ha Hal).
    destruct (volume_recorded_frame _ _ _ Ha) as (Ht & Hc & Hn).
    rewrite okb_production in He2 by (rewrite Ht, Hc; done).
    rewrite bool_decide_eq_true_2 in He2 by (by rewrite (alloc_output_frame e e1)).
    cbn [andb] in He2. rewrite Hn in He2.
    destruct (e_name e =? n)%string eqn:En.
    + apply String.eqb_eq in En. rewrite bool_decide_eq_true_2 by done.
      by eapply volume_recorded_add.
    + apply String.eqb_neq in En. rewrite bool_decide_eq_false_2 by tauto.
      apply Ok_inj in He2. subst. by rewrite app_nil_r.
  - split; [done|intros _]. rewrite Hna in He2 by done.
    rewrite okb_production in He2 by done. rewrite bool_decide_eq_false_2 in He2 by done.
    cbn in He2. by apply Ok_inj in He2.
Qed.

Definition ratio_or_zero (ds : dataset) : Qc :=
  match get_biggest_pv_to_exchange_ratio ds with Ok r => r | Err _ => 0%Qc end.

Lemma add_hard_link_recorded data l ds cur exc cur' :
  NoDup (map d_id data) -> Forall2 (recorded l) data cur ->
  add_hard_link ds cur exc = Ok cur' ->
  Forall2 (recorded (fun X n => l X n ++
    (if bool_decide (counted_link X n ds exc) then [(e_amount exc * ratio_or_zero ds)%Qc] else [])))
    data cur' /\
  ((exists X n, counted_link X n ds exc) -> exists r, get_biggest_pv_to_exchange_ratio ds = Ok r).
Proof.
  intros Hnd Hcur H. unfold add_hard_link in H.
  destruct (link_truthy exc) eqn:El.
  2: { apply Ok_inj in H. subst.
       pose proof (proj1 (proj2 (link_truthy_links exc)) El) as Hno. split.
       - eapply Forall2_impl; [exact Hcur|]. intros d d' Hd. eapply recorded_same; [|exact Hd].
         intros n. cbn. rewrite bool_decide_eq_false_2; [by rewrite app_nil_r|].
         intros [Hl _]. by eapply Hno.
       - intros (X & n & [Hl _]). exfalso. by eapply Hno. }
  apply (proj1 (link_truthy_links exc)) in El. set (L := default "" (e_link exc)) in *.
  assert (HX : forall Y, links_to Y exc -> Y = L).
  { intros Y [HY _]. destruct El as [Hl _]. rewrite HY in Hl. by injection Hl. }
  destruct (L =? d_id ds)%string eqn:Eself.
  { apply String.eqb_eq in Eself. apply Ok_inj in H. subst.
    assert (Hno : forall X n, ~ counted_link X n ds exc).
    { intros X n (Hl & Hne & _). apply Hne. by rewrite (HX X Hl). }
    split.
    - eapply Forall2_impl; [exact Hcur|]. intros d d' Hd. eapply recorded_same; [|exact Hd].
      intros n. cbn. rewrite bool_decide_eq_false_2; [by rewrite app_nil_r|]. apply Hno.
    - intros (X & n & Hc). exfalso. by eapply Hno. }
  apply String.eqb_neq in Eself. inv_ok.
  assert (Hids : NoDup (map d_id cur)) by (by rewrite (recorded_ids _ _ _ Hcur)).
  apply update_by_id_ok in H; [|done].
  apply production_named_ok in Hok0 as [Hcl _].
  apply dataset_by_id_some in Hok as [Hvin Hvid].
  assert (Hr : ratio_or_zero ds = v2) by (unfold ratio_or_zero; by rewrite Hok2).
  split; [|eauto].
  rewrite Hr. clear Hr Hnd.
  assert (Hcls : Forall (fun d1 => d_id d1 = L -> classified d1) cur).
  { apply Forall_forall. intros d1 Hd1 Hid1.
    assert (d1 = v) as -> by (eapply nodup_ids_eq; eauto; congruence). done. }
  clear Hids Hvin Hcl Hvid. revert cur cur' Hcur H Hcls.
  induction data as [|d data IH]; intros cur cur' Hcur H Hcls;
    inversion Hcur as [|? d1 ? cur1 Hd Hrest]; subst;
    inversion H as [|? d2 ? cur2 Hupd Hrest2]; subst; [constructor|].
  inversion Hcls as [|? ? Hcl1 Hcls1]; subst.
  constructor; [|by apply (IH cur1 cur2)].
  destruct (recorded_frame _ _ _ Hd) as [Hid Hfr]. destruct Hupd as [Hu1 Hu2].
  destruct (decide (d_id d1 = L)) as [Heq|Hne].
  - specialize (Hu1 Heq). specialize (Hcl1 Heq).
    assert (Hcld : classified d).
    { unfold classified in *. clear -Hcl1 Hfr.
      induction Hfr as [|e e' es es' (Ht & Hc & _) Hes IH]; [constructor|].
      inversion Hcl1 as [|? ? Hce Hcl']; subst. constructor; [|auto].
      rewrite Ht, Hc in Hce. done. }
    pose proof (add_subtracted_named_recorded l _ _ d d1 d2 Hcld Hd Hu1) as Hrec.
    eapply recorded_same; [|exact Hrec]. intros m. cbn. f_equal.
    destruct (bool_decide (d_id d = d_id d /\ m = e_name exc)) eqn:E1.
    + apply bool_decide_eq_true in E1 as [_ ->].
      rewrite bool_decide_eq_true_2; [done|]. split; [|split]; [|congruence|done].
      rewrite <- Hid, Heq. done.
    + apply bool_decide_eq_false in E1. rewrite bool_decide_eq_false_2; [done|].
      intros (_ & _ & Hn). apply E1. done.
  - rewrite (Hu2 Hne). eapply recorded_same; [|exact Hd]. intros m. cbn.
    rewrite bool_decide_eq_false_2; [by rewrite app_nil_r|].
    intros (Hl & _). apply Hne. rewrite Hid. by apply HX.
Qed.

Lemma link_demands_app r d1 d2 X n :
  link_demands r (d1 ++ d2) X n = link_demands r d1 X n ++ link_demands r d2 X n.
Proof. unfold link_demands. by rewrite bind_app. Qed.

Lemma hard_links_inner data l ds cur es cur' :
  NoDup (map d_id data) -> Forall2 (recorded l) data cur ->
  foldR (add_hard_link ds) cur es = Ok cur' ->
  Forall2 (recorded (fun X n => l X n ++
     map (fun e => e_amount e * ratio_or_zero ds)%Qc (filter (counted_link X n ds) es))) data cur' /\
  ((exists X n e, e ∈ es /\ counted_link X n ds e) ->
   exists r, get_biggest_pv_to_exchange_ratio ds = Ok r).
Proof.
  intros Hnd. revert l cur. induction es as [|e es IH]; intros l cur Hcur H; cbn [foldR] in H.
  - apply Ok_inj in H. subst. split.
    + eapply Forall2_impl; [exact Hcur|]. intros d d' Hd. eapply recorded_same; [|exact Hd].
      intros n. cbn. by rewrite app_nil_r.
    + intros (? & ? & e & He & _). by apply elem_of_nil in He.
  - apply bind_Ok in H as (mid & Hm & H).
    destruct (add_hard_link_recorded _ _ _ _ _ _ Hnd Hcur Hm) as [Hmid Hr1].
    destruct (IH _ _ Hmid H) as [Hfin Hr2]. split.
    + eapply Forall2_impl; [exact Hfin|]. intros d d' Hd. eapply recorded_same; [|exact Hd].
      intros n. cbn beta. rewrite <- app_assoc. f_equal. rewrite filter_cons.
      case_bool_decide; [rewrite decide_True by done|rewrite decide_False by done]; done.
    + intros (X & n & e' & He' & Hc). apply elem_of_cons in He' as [->|He']; eauto 10.
Qed.

Lemma hard_links_outer data l cur todo cur' :
  NoDup (map d_id data) -> Forall2 (recorded l) data cur ->
  foldR (fun cur ds => foldR (add_hard_link ds) cur (d_exchanges ds)) cur todo = Ok cur' ->
  Forall2 (recorded (fun X n => l X n ++ link_demands ratio_or_zero todo X n)) data cur' /\
  (forall ds X n e, ds ∈ todo -> e ∈ d_exchanges ds -> counted_link X n ds e ->
   exists r, get_biggest_pv_to_exchange_ratio ds = Ok r).
Proof.
  intros Hnd. revert l cur. induction todo as [|ds todo IH]; intros l cur Hcur H; cbn [foldR] in H.
  - apply Ok_inj in H. subst. split.
    + eapply Forall2_impl; [exact Hcur|]. intros d d' Hd. eapply recorded_same; [|exact Hd].
      intros n. cbn. by rewrite app_nil_r.
    + intros ? ? ? ? Hd. by apply elem_of_nil in Hd.
  - apply bind_Ok in H as (mid & Hm & H).
    destruct (hard_links_inner _ _ _ _ _ _ Hnd Hcur Hm) as [Hmid Hr1].
    destruct (IH _ _ Hmid H) as [Hfin Hr2]. split.
    + eapply Forall2_impl; [exact Hfin|]. intros d d' Hd. eapply recorded_same; [|exact Hd].
      intros n. cbn beta. rewrite <- app_assoc. f_equal.
    + intros d X n e Hd He Hc. apply elem_of_cons in Hd as [->|Hd]; eauto 10.
Qed.

Lemma recorded_nil ds : recorded (fun _ _ => []) ds ds.
Proof.
  exists (d_exchanges ds). split; [by destruct ds|].
  apply Forall_Forall2_diag, Forall_forall. intros e _. done.
Qed.

Lemma hard_linked_volumes_spec data data' :
  NoDup (map d_id data) -> add_hard_linked_production_volumes data = Ok data' ->
  exists r : dataset -> Qc,
    (forall ds X n e, ds ∈ data -> e ∈ d_exchanges ds -> counted_link X n ds e ->
       biggest_ratio ds (r ds)) /\
    Forall2 (fun ds ds' => exists es', ds' = set_d_exchanges es' ds /\
       Forall2 (fun e e' =>
         (alloc_output e -> volume_recorded (link_demands r data (d_id ds) (e_name e)) e e') /\
         (~ alloc_output e -> e' = e)) (d_exchanges ds) es') data data'.
Proof.
  intros Hnd H. exists ratio_or_zero.
  assert (H0 : Forall2 (recorded (fun _ _ => [])) data data).
  { apply Forall_Forall2_diag, Forall_forall. intros ds _. apply recorded_nil. }
  destruct (hard_links_outer _ _ _ _ _ Hnd H0 H) as [H1 H2]. split.
  - intros ds X n e Hds He Hc. destruct (H2 ds X n e Hds He Hc) as [r Hr].
    unfold ratio_or_zero. rewrite Hr. by apply biggest_ratio_ok.
  - exact H1.
Qed.

(** The recorded total does not depend on the order of datasets. *)
Lemma bind_perm {A B} (f : A -> list B) l1 l2 : l1 ≡ₚ l2 -> l1 ≫= f ≡ₚ l2 ≫= f.
Proof.
  induction 1; cbn; [done|by f_equiv| |etrans; eauto].
  rewrite !app_assoc. f_equiv. apply Permutation_app_comm.
Qed.
Lemma link_demands_perm r d1 d2 X n :
  d1 ≡ₚ d2 -> Qcsum (link_demands r d1 X n) = Qcsum (link_demands r d2 X n).
Proof. intros H. apply Qcsum_perm. unfold link_demands. by apply bind_perm. Qed.

(** Following validated links cannot fail for lack of a target. *)
Lemma biggest_ratio_total ds e0 :
  e0 ∈ d_exchanges ds -> is_refproduct e0 -> e_amount e0 <> 0%Qc ->
  (forall e, e ∈ d_exchanges ds -> alloc_output e -> e_pv e <> None) ->
  exists r, get_biggest_pv_to_exchange_ratio ds = Ok r.
Proof.
  intros Hin Href Ha Hpv. unfold get_biggest_pv_to_exchange_ratio.
  rewrite reference_products_filter.
  assert (Hm : exists rs, mapR (fun e => let? v := getkey "production volume" (e_pv e) in
                                 divR (v_amount v) (e_amount e))
     (filterb (fun e => Qctruthy (e_amount e)) (filter is_refproduct (d_exchanges ds))) = Ok rs).
  { apply mapR_ok_all. intros e He. apply filterb_In in He as [He Ht].
    apply elem_of_list_filter in He as [Hr He]. qc_bool.
    specialize (Hpv e He (or_introl Hr)). destruct (e_pv e) as [v|]; [|done]. cbn.
    eexists. apply divR_Ok. eauto. }
  destruct Hm as [rs Hrs]. rewrite Hrs. cbn [bind]. destruct rs as [|r rs]; [|eauto].
  exfalso. apply mapR_length in Hrs.
  assert (Hin' : e0 ∈ filterb (fun e => Qctruthy (e_amount e)) (filter is_refproduct (d_exchanges ds))).
  { apply filterb_In. split; [|by apply Qctruthy_true]. by apply elem_of_list_filter. }
  destruct (filterb _ _); [by apply elem_of_nil in Hin'|done].
Qed.

Lemma volume_recorded_pv l e e' :
  volume_recorded l e e' -> e_pv e <> None -> e_pv e' <> None.
Proof. destruct l; cbn; [by intros ->|]. intros (v & _ & ->) _. done. Qed.

Lemma recorded_production l ds ds' n :
  recorded l ds ds' -> classified ds ->
  classified ds' /\
  length (filter (fun o => alloc_output o /\ e_name o = n) (d_exchanges ds'))
  = length (filter (fun o => alloc_output o /\ e_name o = n) (d_exchanges ds)).
Proof.
  intros H Hcl. apply recorded_frame in H as [_ H]. unfold classified in *. revert Hcl.
  induction H as [|e e' es es' (Ht & Hc & Hn) Hes IH]; intros Hcl; [done|].
  inversion Hcl as [|? ? Hce Hcl']; subst. destruct (IH Hcl') as [IH1 IH2]. split.
  - constructor; [|done]. by rewrite Ht, Hc.
  - rewrite !filter_cons. pose proof (alloc_output_frame e e' Ht Hc) as Ha.
    destruct (decide (alloc_output e /\ e_name e = n)) as [Hd|Hd].
    + rewrite decide_True by (rewrite Ha, Hn; done). cbn. by rewrite IH2.
    + rewrite decide_False by (rewrite Ha, Hn; done). done.
Qed.

Lemma add_subtracted_named_total l ds ds1 n x :
  recorded l ds ds1 -> (forall e, e ∈ d_exchanges ds -> alloc_output e -> e_pv e <> None) ->
  exists ds2, add_subtracted_named n x ds1 = Ok ds2.
Proof.
  intros (es1 & -> & H) Hpv. unfold add_subtracted_named. cbn [d_exchanges set_d_exchanges].
  match goal with |- context [mapR ?f es1] => assert (Hm : exists es2, mapR f es1 = Ok es2) end.
  { apply mapR_ok_all. intros e1 He1. destruct (okb production_exchange e1) eqn:E; cbn [andb]; [|eauto].
    destruct (e_name e1 =? n)%string; [|eauto]. apply okb_production_false in E.
    apply elem_of_list_lookup in He1 as [i Hi].
    destruct (Forall2_lookup_r _ _ _ _ _ H Hi) as (e & He & Ha & Hna).
    destruct (decide (alloc_output e)) as [Hal|Hal].
    - apply elem_of_list_lookup_2 in He. specialize (Hpv e He Hal).
      pose proof (volume_recorded_pv _ _ _ (Ha Hal) Hpv) as Hp.
      unfold add_subtracted. destruct (e_pv e1); [|done]. cbn. eauto.
    - rewrite (Hna Hal) in E. done. }
  destruct Hm as [es2 ->]. cbn. eauto.
Qed.

Lemma add_hard_link_total data l ds cur exc :
  NoDup (map d_id data) -> Forall2 (recorded l) data cur ->
  ds ∈ data -> link_resolves data exc ->
  (forall ds e, ds ∈ data -> e ∈ d_exchanges ds -> alloc_output e -> e_pv e <> None) ->
  (exists e, e ∈ d_exchanges ds /\ is_refproduct e /\ e_amount e <> 0%Qc) ->
  exists cur', add_hard_link ds cur exc = Ok cur'.
Proof.
  intros Hnd Hcur Hds Hres Hpv (e0 & He0 & Hr0 & Ha0). unfold add_hard_link.
  destruct (link_truthy exc) eqn:El; [|eauto].
  apply (proj1 (link_truthy_links exc)) in El. set (L := default "" (e_link exc)) in *.
  destruct (L =? d_id ds)%string; [eauto|].
  destruct (Hres L El) as (t & p & Ht & Hid & Hcl & Hp).
  apply elem_of_list_lookup in Ht as [i Hi].
  destruct (Forall2_lookup_l _ _ _ _ _ Hcur Hi) as (t' & Hi' & Hrec).
  destruct (recorded_frame _ _ _ Hrec) as [Hid' _].
  destruct (recorded_production _ _ _ (e_name exc) Hrec Hcl) as [Hcl' Hlen].
  assert (Hids : NoDup (map d_id cur)) by (by rewrite (recorded_ids _ _ _ Hcur)).
  assert (Hlook : dataset_by_id cur L = Some t').
  { rewrite <- Hid, <- Hid'. apply dataset_by_id_in; [done|]. by eapply elem_of_list_lookup_2. }
  rewrite Hlook. cbn [getkey bind].
  assert (production_named t' (e_name exc) = Ok _) as -> by (apply production_named_ok; done).
  cbn [bind]. rewrite Hlen, Hp. cbn [length]. rewrite bool_decide_eq_true_2 by done.
  cbn [assertR bind].
  destruct (biggest_ratio_total ds e0 He0 Hr0 Ha0) as [r ->]; [eauto|]. cbn [bind].
  apply update_by_id_total.
  - exists t'. split; [by eapply elem_of_list_lookup_2|congruence].
  - intros d Hd Hdid.
    apply elem_of_list_lookup in Hd as [j Hj].
    destruct (Forall2_lookup_r _ _ _ _ _ Hcur Hj) as (d0 & Hj0 & Hrec0).
    eapply add_subtracted_named_total; [exact Hrec0|].
    intros e. apply Hpv. by eapply elem_of_list_lookup_2.
Qed.

Lemma hard_links_total data :
  NoDup (map d_id data) ->
  is_ok (check_activity_link_validity data) = true ->
  (forall ds e, ds ∈ data -> e ∈ d_exchanges ds -> alloc_output e -> e_pv e <> None) ->
  (forall ds, ds ∈ data -> exists e, e ∈ d_exchanges ds /\ is_refproduct e /\ e_amount e <> 0%Qc) ->
  exists data', add_hard_linked_production_volumes data = Ok data'.
Proof.
  intros Hnd Hok Hpv Hrp. pose proof (proj1 (proj2 (check_validity_spec data Hnd)) Hok) as Hres.
  unfold add_hard_linked_production_volumes.
  assert (Hgen : forall todo l cur, (forall ds, ds ∈ todo -> ds ∈ data) ->
    Forall2 (recorded l) data cur ->
    exists data', foldR (fun cur ds => foldR (add_hard_link ds) cur (d_exchanges ds)) cur todo = Ok data').
  { induction todo as [|ds todo IH]; intros l cur Hsub Hcur; cbn [foldR]; [eauto|].
    assert (Hds : ds ∈ data) by (apply Hsub; left).
    assert (Hin : forall es l cur, (forall e, e ∈ es -> e ∈ d_exchanges ds) ->
      Forall2 (recorded l) data cur ->
      exists cur' l', foldR (add_hard_link ds) cur es = Ok cur' /\ Forall2 (recorded l') data cur').
    { clear IH Hcur cur l. induction es as [|e es IHe]; intros l cur Hes Hcur; cbn [foldR]; [eauto|].
      destruct (add_hard_link_total data l ds cur e Hnd Hcur Hds) as [mid Hmid].
      - apply (Hres ds); [done|]. apply Hes. left.
      - done.
      - by apply Hrp.
      - rewrite Hmid. cbn [bind].
        destruct (add_hard_link_recorded _ _ _ _ _ _ Hnd Hcur Hmid) as [Hm _].
        eapply IHe; [|exact Hm]. intros e' He'. apply Hes. by right. }
    destruct (Hin (d_exchanges ds) l cur (fun e H => H) Hcur) as (mid & l' & -> & Hmid).
    cbn [bind]. eapply IH; [|exact Hmid]. intros d Hd. apply Hsub. by right. }
  eapply Hgen; [done|]. apply Forall_Forall2_diag, Forall_forall. intros ds _. apply recorded_nil.
Qed.

(** ** C26 *)
Lemma subtract_volume_ok e e' : subtract_volume e = Ok e' -> volume_updated e e'.
Proof.
  unfold subtract_volume, volume_updated. intros H. apply bind_Ok in H as (b & Hb & H).
  apply production_exchange_ok in Hb as [_ ->].
  case_bool_decide as Ha.
  - inv_ok. destruct (v_subtracted v) as [s|] eqn:Es; apply Ok_inj in H; subst; [left|right].
    + split; [done|]. exists v, s. done.
    + split; [|done]. eauto.
  - apply Ok_inj in H. subst. right. done.
Qed.

Lemma update_transforming_spec data data' :
  update_transforming_activity_production_volumes data = Ok data' ->
  Forall2 (fun ds ds' =>
    (d_type ds <> Transforming -> ds' = ds) /\
    (d_type ds = Transforming ->
     exists es', ds' = set_d_exchanges es' ds /\
       Forall2 volume_updated (d_exchanges ds) es')) data data'.
Proof.
  intros H. apply mapR_Ok in H. eapply Forall2_impl; [exact H|]. cbn. intros ds ds' Hd.
  case_bool_decide as Ht.
  - split; [done|]. intros _. unfold subtract_volumes in Hd. inv_ok. subst.
    eexists. split; [reflexivity|]. apply mapR_Ok in Hok.
    eapply Forall2_impl; [exact Hok|]. intros. by apply subtract_volume_ok.
  - apply Ok_inj in Hd. split; done.
Qed.

Lemma volume_updated_bounds e e' v s :
  volume_updated e e' -> alloc_output e -> e_pv e = Some v -> v_subtracted v = Some s ->
  exists v', e_pv e' = Some v' /\ (0 <= v_amount v')%Qc /\ v_original v' = Some (v_amount v) /\
    (0 <= s -> 0 <= v_amount v -> v_amount v' <= v_amount v)%Qc /\
    (s <= v_amount v -> v_amount v' + s = v_amount v)%Qc /\
    (v_amount v <= s -> v_amount v' = 0)%Qc.
Proof.
  intros [(_ & v0 & s0 & Hv0 & Hs0 & ->)|[H _]] Ha Hv Hs.
  2: { destruct (H Ha) as (v0 & ? & ?). congruence. }
  assert (v0 = v) as -> by congruence. assert (s0 = s) as -> by congruence.
  eexists. split; [reflexivity|]. cbn. unfold Qcmax.
  destruct (Qcltb (v_amount v - s) 0) eqn:E; qc_bool; repeat split; intros; qclra.
Qed.

(** ** The whole collection *)
Lemma fix_35_exchange_frame e :
  e_name (fix_35_exchange e) = e_name e /\ e_pv (fix_35_exchange e) = e_pv e /\
  e_type (fix_35_exchange e) = e_type e /\ e_class (fix_35_exchange e) = e_class e.
Proof. unfold fix_35_exchange. by destruct (_ && _). Qed.

Lemma fix_35_spec e :
  (links_to withdrawn_link e -> fix_35_exchange e = set_e_link None e) /\
  (~ links_to withdrawn_link e -> fix_35_exchange e = e).
Proof.
  unfold fix_35_exchange, link_truthy, links_to. split.
  - intros [-> _]. done.
  - intros H. case_bool_decide as E; [|by rewrite andb_false_r].
    exfalso. apply H. split; [done|]. by_compute.
Qed.

Lemma fix_35_idem data : fix_35_activity_links (fix_35_activity_links data) = fix_35_activity_links data.
Proof.
  unfold fix_35_activity_links. rewrite map_map. apply map_ext. intros ds.
  destruct ds; unfold set_d_exchanges; cbn. f_equal. rewrite map_map. apply map_ext. intros e.
  destruct (decide (links_to withdrawn_link e)) as [H|H].
  - rewrite (proj1 (fix_35_spec e)) by done. apply fix_35_spec. intros [? _]. done.
  - rewrite !(proj2 (fix_35_spec e)) by done. done.
Qed.

Lemma fix_35_no_link data ds e :
  ds ∈ fix_35_activity_links data -> e ∈ d_exchanges ds -> ~ links_to withdrawn_link e.
Proof.
  intros Hds He. apply elem_of_list_fmap in Hds as (ds0 & -> & _). cbn in He.
  apply elem_of_list_fmap in He as (e0 & -> & _).
  destruct (decide (links_to withdrawn_link e0)) as [H|H].
  - rewrite (proj1 (fix_35_spec e0)) by done. intros [? _]. done.
  - rewrite (proj2 (fix_35_spec e0)) by done. done.
Qed.

(** Final volume of one output, given the demands [l] on it. *)
Lemma manage_volume l e e1 e2 v :
  alloc_output e -> e_pv e = Some v -> v_subtracted v = None ->
  volume_recorded l e e1 -> volume_updated e1 e2 ->
  (l = [] -> e2 = e) /\
  (l <> [] -> exists v', e_pv e2 = Some v' /\ v_amount v' = Qcmax (v_amount v - Qcsum l) 0 /\
                         v_original v' = Some (v_amount v) /\ v_subtracted v' = Some (Qcsum l)).
Proof.
  intros Ha Hv Hs Hrec Hupd. destruct l as [|y l].
  - split; [|done]. intros _. cbn in Hrec. subst.
    destruct Hupd as [(_ & v0 & s0 & Hv0 & Hs0 & _)|[_ H]]; [congruence|done].
  - split; [done|]. intros _. cbn [volume_recorded] in Hrec. destruct Hrec as (v0 & Hv0 & He1).
    assert (v0 = v) as -> by congruence. rewrite Hs in He1. cbn [default] in He1.
    assert (Ha1 : alloc_output e1) by (rewrite He1; exact Ha).
    destruct Hupd as [(_ & v1 & s1 & Hv1 & Hs1 & He2)|[H _]].
    + rewrite He1 in Hv1. cbn in Hv1. injection Hv1 as <-. cbn in Hs1. injection Hs1 as <-.
      rewrite He2. cbn [e_pv set_e_pv]. eexists. split; [reflexivity|].
      cbn [v_amount v_original v_subtracted set_v_amount set_v_original set_v_subtracted].
      assert (HZ : forall z, (0 + z = z)%Qc) by (intros; ring).
      unfold id. rewrite !HZ. done.
    + exfalso. destruct (H Ha1) as (v1 & Hv1 & Hs1). rewrite He1 in Hv1. cbn in Hv1.
      injection Hv1 as <-. cbn in Hs1. done.
Qed.

Lemma manage_spec data data' :
  NoDup (map d_id data) ->
  Forall (fun ds => Forall (fun e => forall v, e_pv e = Some v -> v_subtracted v = None)
                      (d_exchanges ds)) data ->
  manage_activity_links data = Ok data' ->
  exists (r : dataset -> Qc) kept,
    kept = map (fun ds => set_d_exchanges (map (fun e =>
             if decide (links_to withdrawn_link e) then set_e_link None e else e)
             (d_exchanges ds)) ds) data /\
    (forall ds X n e, ds ∈ kept -> e ∈ d_exchanges ds -> counted_link X n ds e ->
       biggest_ratio ds (r ds)) /\
    (forall ds e, ds ∈ kept -> e ∈ d_exchanges ds -> link_resolves kept e) /\
    Forall2 (fun ds ds' =>
      d_id ds' = d_id ds /\ d_type ds' = d_type ds /\
      Forall2 (fun e e' =>
        e_amount e' = e_amount e /\ e_type e' = e_type e /\ e_name e' = e_name e /\
        (alloc_output e -> d_type ds = Transforming ->
         forall v, e_pv e = Some v ->
         let l := link_demands r kept (d_id ds) (e_name e) in
         (l = [] -> e_pv e' = Some v) /\
         (l <> [] -> exists v', e_pv e' = Some v' /\
            v_amount v' = Qcmax (v_amount v - Qcsum l) 0 /\
            v_original v' = Some (v_amount v))) /\
        (~ alloc_output e -> e_pv e' = e_pv e))
      (d_exchanges ds) (d_exchanges ds')) data data'.
Proof.
  intros Hnd Hsub H. unfold manage_activity_links in H.
  apply bind_Ok in H as (d1 & H1 & H). apply bind_Ok in H as (d2 & H2 & H3).
  set (kept := fix_35_activity_links data) in *.
  assert (Hkeq : kept = map (fun ds => set_d_exchanges (map (fun e =>
             if decide (links_to withdrawn_link e) then set_e_link None e else e)
             (d_exchanges ds)) ds) data).
  { unfold kept, fix_35_activity_links. apply map_ext. intros ds. f_equal. apply map_ext. intros e.
    destruct (decide _) as [Hl|Hl]; by apply fix_35_spec. }
  assert (Hnk : NoDup (map d_id kept)).
  { unfold kept, fix_35_activity_links. rewrite map_map. exact Hnd. }
  destruct (check_validity_spec kept Hnk) as [Hsame Hres].
  rewrite H1 in Hres. cbn in Hres. apply Hsame in H1. subst d1.
  destruct (hard_linked_volumes_spec _ _ Hnk H2) as (r & Hr & Hrec).
  apply update_transforming_spec in H3.
  exists r, kept. split; [done|]. split; [done|]. split; [by apply Hres|].
  clear Hres Hsame Hr Hkeq Hnk H2 Hnd.
  assert (HL : exists L, L = link_demands r kept /\
     Forall2 (recorded L) (fix_35_activity_links data) d2) by eauto.
  destruct HL as (L & HL & Hrec'). rewrite <- HL. clear Hrec HL kept r.
  revert d2 data' Hrec' H3. unfold fix_35_activity_links.
  induction Hsub as [|ds data Hsub1 Hsub IH]; intros d2 data' Hrec H3;
    inversion Hrec as [|? ds1 ? d2' Hr1 Hr2]; subst;
    inversion H3 as [|? ds2 ? d3' Hu1 Hu2]; subst; [constructor|].
  constructor; [|by eapply IH]. clear IH Hr2 Hu2 Hrec H3.
  destruct Hr1 as (es1 & -> & Hr1). cbn [d_id d_type d_exchanges set_d_exchanges] in *.
  destruct Hu1 as [Hu1 Hu2].
  destruct (decide (d_type ds = Transforming)) as [Ht|Ht].
  - destruct (Hu2 Ht) as (es2 & -> & Hu). cbn [d_id d_type d_exchanges set_d_exchanges].
    split; [done|]. split; [done|]. clear Hu1 Hu2. revert es1 es2 Hr1 Hu.
    induction Hsub1 as [|e es He Hes IH]; intros es1 es2 Hr1 Hu;
      inversion Hr1 as [|? e1 ? es1' Hre Hres]; subst;
      inversion Hu as [|? e2 ? es2' Hue Hues]; subst; [constructor|].
    constructor; [|by eapply IH]. clear IH Hres Hues Hr1 Hu.
    destruct (fix_35_exchange_frame e) as (Fn & Fp & Ft & Fc).
    assert (Fa : alloc_output (fix_35_exchange e) <-> alloc_output e)
      by (by apply alloc_output_frame).
    assert (Fam : e_amount (fix_35_exchange e) = e_amount e).
    { unfold fix_35_exchange. by destruct (_ && _). }
    set (e0 := fix_35_exchange e) in *.
    assert (Hfr : e_amount e2 = e_amount e0 /\ e_type e2 = e_type e0 /\ e_name e2 = e_name e0 /\
              (~ alloc_output e0 -> e_pv e2 = e_pv e0)).
    { assert (H1 : e_amount e1 = e_amount e0 /\ e_type e1 = e_type e0 /\ e_name e1 = e_name e0 /\
                   e_class e1 = e_class e0).
      { destruct (decide (alloc_output e0)) as [Ha|Ha].
        - destruct Hre as [Hre _]. specialize (Hre Ha). destruct (L _ _); cbn in Hre.
          + by subst.
          + by destruct Hre as (? & _ & ->).
        - by rewrite (proj2 Hre Ha). }
      destruct H1 as (A1 & A2 & A3 & A4).
      destruct Hue as [(Ha & ? & ? & _ & _ & ->)|[_ ->]]; cbn;
        (split; [done|]; split; [done|]; split; [done|]); intros Hna.
      - exfalso. apply Hna. by apply (alloc_output_frame e1 e0).
      - by rewrite (proj2 Hre Hna). }
    destruct Hfr as (G1 & G2 & G3 & G4).
    split; [congruence|]. split; [congruence|]. split; [congruence|]. split.
    + intros Ha _ v Hv. apply Fa in Ha. destruct Hre as [Hre _]. specialize (Hre Ha).
      assert (Hv0 : e_pv e0 = Some v) by congruence.
      destruct (manage_volume _ e0 e1 e2 v Ha Hv0 (He v Hv) Hre Hue) as [M1 M2].
      rewrite Fn in M1, M2. split.
      * intros Hl. rewrite (M1 Hl). congruence.
      * intros Hl. destruct (M2 Hl) as (v' & ? & ? & ? & ?). eauto.
    + intros Ha. rewrite G4; [done|]. by rewrite Fa.
  - rewrite (Hu1 Ht). cbn [d_id d_type d_exchanges set_d_exchanges].
    split; [done|]. split; [done|]. clear Hu1 Hu2. revert es1 Hr1.
    induction Hsub1 as [|e es He Hes IH]; intros es1 Hr1;
      inversion Hr1 as [|? e1 ? es1' Hre Hres]; subst; [constructor|].
    constructor; [|by eapply IH]. clear IH Hres Hr1.
    destruct (fix_35_exchange_frame e) as (Fn & Fp & Ft & Fc).
    assert (Fa : alloc_output (fix_35_exchange e) <-> alloc_output e)
      by (by apply alloc_output_frame).
    assert (Fam : e_amount (fix_35_exchange e) = e_amount e).
    { unfold fix_35_exchange. by destruct (_ && _). }
    set (e0 := fix_35_exchange e) in *.
    assert (H1 : e_amount e1 = e_amount e0 /\ e_type e1 = e_type e0 /\ e_name e1 = e_name e0).
    { destruct (decide (alloc_output e0)) as [Ha|Ha].
      - destruct Hre as [Hre _]. specialize (Hre Ha). destruct (L _ _); cbn in Hre.
        + by subst.
        + by destruct Hre as (? & _ & ->).
      - by rewrite (proj2 Hre Ha). }
    destruct H1 as (A1 & A2 & A3).
    split; [congruence|]. split; [congruence|]. split; [congruence|]. split; [done|].
    intros Ha. rewrite <- Fa in Ha. rewrite (proj2 Hre Ha). done.
Qed.

(** ** C27 *)
Lemma relink_ok ds ds' :
  relink_to_child ds = Ok ds' ->
  exists es', ds' = set_d_exchanges es' ds /\ Forall2 (relinked ds) (d_exchanges ds) es'.
Proof.
  unfold relink_to_child. intros H.
  assert (Hsame : (forall parent, d_parent ds = Some parent -> parent = ""%string) ->
     Ok ds = Ok ds' ->
     exists es', ds' = set_d_exchanges es' ds /\ Forall2 (relinked ds) (d_exchanges ds) es').
  { intros Hp Heq. apply Ok_inj in Heq. subst. exists (d_exchanges ds').
    split; [by destruct ds'|]. apply Forall_Forall2_diag, Forall_forall. intros e _. right.
    split; [|done]. intros parent Hpar [_ Hne]. by apply Hp in Hpar. }
  destruct (d_parent ds) as [parent|] eqn:Ep; [|by apply Hsame].
  destruct (parent =? "")%string eqn:Ee.
  { apply Hsame; [|done]. apply String.eqb_eq in Ee. by intros ? [= ->]. }
  apply String.eqb_neq in Ee. inv_ok. subst. exists v. split; [done|].
  apply mapR_Ok in Hok. eapply Forall2_impl; [exact Hok|]. cbn. intros e e' He.
  apply bind_Ok in He as (b & Hb & He). apply production_exchange_ok in Hb as [_ ->].
  apply Ok_inj in He. subst e'. rewrite <- bool_decide_not, <- bool_decide_and.
  unfold relinked, links_to. rewrite Ep.
  case_bool_decide as Hb; [left|right].
  - destruct Hb. eauto 10.
  - split; [|done]. intros p [= <-] [Hl _]. destruct (decide (alloc_output e)); [done|].
    exfalso. apply Hb. split; done.
Qed.

Lemma parent_child_spec data data' :
  update_activity_link_parent_child data = Ok data' ->
  Forall2 (fun ds ds' => exists es', ds' = set_d_exchanges es' ds /\
                          Forall2 (relinked ds) (d_exchanges ds) es') data data'.
Proof.
  intros H. apply mapR_Ok in H. eapply Forall2_impl; [exact H|].
  intros. by apply relink_ok.
Qed.

Lemma parent_child_none data data' :
  update_activity_link_parent_child data = Ok data' ->
  forall ds e parent, ds ∈ data' -> e ∈ d_exchanges ds ->
    d_parent ds = Some parent -> parent <> d_id ds -> links_to parent e -> alloc_output e.
Proof.
  intros H%parent_child_spec ds' e' parent Hds He Hpar Hne Hl.
  apply elem_of_list_lookup in Hds as [i Hi].
  destruct (Forall2_lookup_r _ _ _ _ _ H Hi) as (ds & _ & es' & -> & HF).
  cbn [d_exchanges d_parent d_id set_d_exchanges] in *.
  apply elem_of_list_lookup in He as [j Hj].
  destruct (Forall2_lookup_r _ _ _ _ _ HF Hj) as (e & _ & [(Hn & p & Hp & Hl' & ->)|[Hk ->]]).
  - destruct Hl as [Hl _]. cbn in Hl. congruence.
  - eauto.
Qed.

Lemma relinked_frame ds e e' :
  relinked ds e e' -> e_type e' = e_type e /\ e_class e' = e_class e.
Proof. intros [(_ & p & _ & _ & ->)|[_ ->]]; done. Qed.

Lemma parent_child_idem data data' :
  update_activity_link_parent_child data = Ok data' ->
  update_activity_link_parent_child data' = Ok data'.
Proof.
  apply mapR_idem. clear data data'. intros ds ds' H.
  unfold relink_to_child in *. destruct (d_parent ds) as [parent|] eqn:Ep.
  2: { apply Ok_inj in H. subst. by rewrite Ep. }
  destruct (parent =? "")%string eqn:Ee.
  { apply Ok_inj in H. subst. by rewrite Ep, Ee. }
  apply bind_Ok in H as (es & Hes & H). apply Ok_inj in H. subst ds'.
  cbn [d_parent d_exchanges d_id set_d_exchanges]. rewrite Ep, Ee.
  assert (Hgoal : mapR (fun e => let? b := production_exchange e in
      Ok (if negb b && bool_decide (e_link e = Some parent)
          then set_e_link (Some (d_id ds)) e else e)) es = Ok es).
  { apply (mapR_idem _ (d_exchanges ds)); [|done]. intros e e' He.
    apply bind_Ok in He as (b & Hb & He). apply Ok_inj in He. subst e'.
    destruct (negb b && bool_decide (e_link e = Some parent)) eqn:E.
    - unfold production_exchange in *. cbn [e_type e_class set_e_link]. rewrite Hb.
      cbn [bind]. destruct (negb b && bool_decide (e_link (set_e_link (Some (d_id ds)) e) = Some parent));
        reflexivity.
    - rewrite Hb. cbn [bind]. by rewrite E. }
  rewrite Hgoal. cbn [bind]. done.
Qed.

Lemma parent_child_total data :
  Forall classified data -> exists data', update_activity_link_parent_child data = Ok data'.
Proof.
  intros Hcl. apply mapR_ok_all. intros ds Hds. rewrite Forall_forall in Hcl. specialize (Hcl ds Hds).
  unfold relink_to_child. destruct (d_parent ds) as [parent|]; [|eauto].
  destruct (parent =? "")%string; [eauto|].
  match goal with |- context [mapR ?f ?l] => assert (Hm : exists es2, mapR f l = Ok es2) end.
  { apply mapR_ok_all. intros e He. unfold classified in Hcl. rewrite Forall_forall in Hcl.
    assert (production_exchange e = Ok (bool_decide (alloc_output e))) as ->
      by (apply production_exchange_ok; auto). cbn. eauto. }
  destruct Hm as [es2 ->]. cbn. eauto.
Qed.

(** ** Order independence *)
Lemma Forall2_perm {A B} (R : A -> B -> Prop) l1 l2 d1 :
  l1 ≡ₚ l2 -> Forall2 R l1 d1 -> exists d2, Forall2 R l2 d2 /\ d1 ≡ₚ d2.
Proof.
  intros Hp. revert d1. induction Hp as [|x l1 l2 Hp IH|x y l|l1 l2 l3 H1 IH1 H2 IH2]; intros d1 H.
  - inversion H. exists []. done.
  - inversion H as [|? b ? d Hb Hd]; subst. destruct (IH _ Hd) as (d2 & Hd2 & Hp2).
    exists (b :: d2). split; [by constructor|]. by f_equiv.
  - inversion H as [|? b ? d Hb Hd]; subst. inversion Hd as [|? b' ? d' Hb' Hd']; subst.
    exists (b' :: b :: d'). split; [by repeat constructor|]. apply Permutation_swap.
  - destruct (IH1 _ H) as (d2 & Hd2 & P2). destruct (IH2 _ Hd2) as (d3 & Hd3 & P3).
    exists d3. split; [done|]. by etrans.
Qed.
Lemma Forall2_fun {A B} (R : A -> B -> Prop) l d1 d2 :
  (forall x a b, R x a -> R x b -> a = b) -> Forall2 R l d1 -> Forall2 R l d2 -> d1 = d2.
Proof.
  intros Hf H. revert d2. induction H as [|x a l d1 Hx Hl IH]; intros d2 H2; inversion H2; subst; [done|].
  f_equal; eauto.
Qed.

Lemma volume_recorded_fun l e a b : volume_recorded l e a -> volume_recorded l e b -> a = b.
Proof.
  destruct l; cbn; [congruence|]. intros (v & Hv & ->) (v' & Hv' & ->). congruence.
Qed.
Lemma volume_recorded_perm l l' e e' :
  l ≡ₚ l' -> volume_recorded l e e' -> volume_recorded l' e e'.
Proof.
  intros Hp H. destruct l as [|x l].
  { apply Permutation_nil_l in Hp. by subst. }
  destruct l' as [|y l'].
  { symmetry in Hp. by apply Permutation_nil_l in Hp. }
  cbn in *. destruct H as (v & Hv & ->). exists v. split; [done|].
  change (foldr Qcplus 0%Qc ?l) with (Qcsum l).
  pose proof (Qcsum_perm _ _ Hp) as HS. unfold Qcsum in HS. cbn in HS. unfold Qcsum. by rewrite HS.
Qed.
Lemma recorded_fun l ds a b : recorded l ds a -> recorded l ds b -> a = b.
Proof.
  intros (es1 & -> & H1) (es2 & -> & H2). f_equal. eapply Forall2_fun; [|exact H1|exact H2].
  cbn. intros e x y [Hx Hx'] [Hy Hy'].
  destruct (decide (alloc_output e)) as [Ha|Ha].
  - eapply volume_recorded_fun; [by apply Hx|by apply Hy].
  - rewrite Hx', Hy' by done. done.
Qed.
Lemma recorded_perm l l' ds ds' :
  (forall X n, l X n ≡ₚ l' X n) -> recorded l ds ds' -> recorded l' ds ds'.
Proof.
  intros Hl (es' & -> & H). exists es'. split; [done|]. eapply Forall2_impl; [exact H|].
  cbn. intros e e' [H1 H2]. split; [|done]. intros Ha. eapply volume_recorded_perm; [|by apply H1]. done.
Qed.

Lemma hard_links_order data1 data2 d1 d2 :
  NoDup (map d_id data1) -> data1 ≡ₚ data2 ->
  add_hard_linked_production_volumes data1 = Ok d1 ->
  add_hard_linked_production_volumes data2 = Ok d2 ->
  d1 ≡ₚ d2.
Proof.
  intros Hnd1 Hp H1 H2.
  assert (Hnd2 : NoDup (map d_id data2)).
  { eapply NoDup_Permutation_proper; [|exact Hnd1]. apply Permutation_map. by symmetry. }
  assert (H0 : forall data, Forall2 (recorded (fun _ _ => [])) data data).
  { intros data. apply Forall_Forall2_diag, Forall_forall. intros ds _. apply recorded_nil. }
  destruct (hard_links_outer _ _ _ _ _ Hnd1 (H0 _) H1) as [R1 _].
  destruct (hard_links_outer _ _ _ _ _ Hnd2 (H0 _) H2) as [R2 _].
  cbn [app] in R1, R2.
  destruct (Forall2_perm _ _ _ _ Hp R1) as (d2' & R1' & Hp').
  assert (d2' = d2) as ->; [|done].
  eapply (Forall2_fun (recorded (fun X n => link_demands ratio_or_zero data2 X n))); [|
    |exact R2].
  - intros x a b. apply recorded_fun.
  - eapply Forall2_impl; [exact R1'|]. intros. eapply recorded_perm; [|done].
    intros X n. cbn. apply bind_perm. done.
Qed.

Lemma fix_35_exact data :
  Forall2 (fun ds ds' => exists es', ds' = set_d_exchanges es' ds /\
     Forall2 (fun e e' => (links_to withdrawn_link e -> e' = set_e_link None e) /\
                          (~ links_to withdrawn_link e -> e' = e)) (d_exchanges ds) es')
    data (fix_35_activity_links data).
Proof.
  induction data as [|ds data IH]; cbn; constructor; [|done].
  eexists. split; [reflexivity|].
  induction (d_exchanges ds) as [|e es IHe]; cbn; constructor; [|done].
  apply fix_35_spec.
Qed.
