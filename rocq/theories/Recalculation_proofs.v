(** Proofs about recalculation. *)
From Verif Require Import Base Types Uncertainty Spec_Uncertainty Uncertainty_proofs
  Utils Recalculation Spec_Recalculation.

Lemma cons_inj {A} (x y : A) l k : x :: l = y :: k -> x = y /\ l = k.
Proof. by intros [= -> ->]. Qed.

Definition pobj_q (o : pobj) : quantity := (o_variable o, o_formula o, o_value o).

Lemma eval_tolerant_spec eval m f x :
  eval_tolerant eval m f = Ok x <-> formula_value eval m f x.
Proof.
  unfold eval_tolerant, formula_value. destruct (eval m f) as [y|e].
  - split; [intros [= ->]; by left|intros [[= ->]|[[=] _]]; done].
  - destruct e; (split; [intros [= <-]; by right|intros [[=]|[[=] ->]]; done]) ||
    (split; [intros [=]|intros [[=]|[[=] _]]]).
Qed.

Lemma recalc_value_spec eval m o x :
  recalc_value eval m o = Ok x ->
  revalued eval m (pobj_q o) (o_variable o, o_formula o, x).
Proof.
  unfold recalc_value, revalued, pobj_q, q_var, q_form, q_val. cbn. intros H.
  split; [done|]. split; [done|].
  destruct (o_formula o); [by apply eval_tolerant_spec|].
  destruct (o_variable o) as [n|].
  - destruct (m !! n) eqn:E; cbn in H; [by injection H as ->|done].
  - by injection H as ->.
Qed.

Lemma recalc_pv_spec eval m v v' :
  recalc_pv eval m v = Ok v' ->
  set_v_amount 0%Qc v' = set_v_amount 0%Qc v /\
  revalued eval m (v_variable v, v_formula v, v_amount v)
                  (v_variable v', v_formula v', v_amount v').
Proof.
  unfold recalc_pv. intros H. apply bind_Ok in H as (x & Hx & [= <-]).
  apply recalc_value_spec in Hx. by destruct v.
Qed.
Lemma recalc_prop_spec eval m v v' :
  recalc_prop eval m v = Ok v' ->
  set_p_amount 0%Qc v' = set_p_amount 0%Qc v /\
  revalued eval m (p_variable v, p_formula v, p_amount v)
                  (p_variable v', p_formula v', p_amount v').
Proof.
  unfold recalc_prop. intros H. apply bind_Ok in H as (x & Hx & [= <-]).
  apply recalc_value_spec in Hx. by destruct v.
Qed.
Lemma recalc_param_spec eval m v v' :
  recalc_param eval m v = Ok v' ->
  set_q_amount 0%Qc v' = set_q_amount 0%Qc v /\
  revalued eval m (param_quantity v) (param_quantity v').
Proof.
  unfold recalc_param. intros H. apply bind_Ok in H as (x & Hx & [= <-]).
  apply recalc_value_spec in Hx. by destruct v.
Qed.

Lemma blank_v v v' :
  set_v_amount 0%Qc v' = set_v_amount 0%Qc v ->
  set_v_unc None (set_v_amount 0%Qc v') = set_v_unc None (set_v_amount 0%Qc v).
Proof. by intros ->. Qed.
Lemma blank_p v v' :
  set_p_amount 0%Qc v' = set_p_amount 0%Qc v ->
  set_p_unc None (set_p_amount 0%Qc v') = set_p_unc None (set_p_amount 0%Qc v).
Proof. by intros ->. Qed.

Lemma Forall2_map_both {A B C} (f : A -> C) (g : B -> C) l k :
  Forall2 (fun x y => g y = f x) l k -> map g k = map f l.
Proof. induction 1 as [|x y l k H _ IH]; [done|]. cbn. by rewrite H, IH. Qed.

Lemma recalc_exchange_spec eval m e e' :
  recalc_exchange eval m e = Ok e' -> exchange_revalued eval m e e'.
Proof.
  unfold recalc_exchange. intros H. apply bind_Ok in H as (x & Hx & H).
  apply bind_Ok in H as (v & Hv & H). apply bind_Ok in H as (ps & Hps & [= <-]).
  apply recalc_value_spec in Hx. apply mapR_Ok in Hps.
  assert (Hv' : option_map (fun v => set_v_unc None (set_v_amount 0%Qc v)) v
                = option_map (fun v => set_v_unc None (set_v_amount 0%Qc v)) (e_pv e) /\
    Forall2 (revalued eval m)
      match e_pv e with Some v => [(v_variable v, v_formula v, v_amount v)] | None => [] end
      match v with Some v => [(v_variable v, v_formula v, v_amount v)] | None => [] end).
  { destruct (e_pv e) as [w|]; cbn in Hv.
    - apply bind_Ok in Hv as (w' & Hw & [= <-]). apply recalc_pv_spec in Hw as [H1 H2].
      split; [cbn; f_equal; by apply blank_v|constructor; [exact H2|constructor]].
    - injection Hv as <-. split; constructor. }
  destruct Hv' as [Hv1 Hv2]. split.
  - unfold blank_exchange.
    assert (Hp : map (fun p => set_p_unc None (set_p_amount 0%Qc p)) ps
                 = map (fun p => set_p_unc None (set_p_amount 0%Qc p)) (e_props e)).
    { apply Forall2_map_both. eapply Forall2_impl; [exact Hps|].
      intros p p' Hp. apply recalc_prop_spec in Hp as [Hp _]. by apply blank_p. }
    clear -Hv1 Hp. destruct e. cbn -[set_v_unc set_v_amount set_p_unc set_p_amount] in *.
    by rewrite Hv1, Hp.
  - unfold exchange_quantities. cbn. constructor; [exact Hx|].
    apply Forall2_app; [exact Hv2|]. apply Forall2_fmap_2.
    eapply Forall2_impl; [exact Hps|]. intros p p' Hp. by apply recalc_prop_spec in Hp as [_ Hp].
Qed.

Lemma recalc_amounts_spec eval m ds ds' :
  recalc_amounts eval m ds = Ok ds' -> dataset_revalued eval m ds ds'.
Proof.
  unfold recalc_amounts. intros H. apply bind_Ok in H as (es & Hes & H).
  apply bind_Ok in H as (ps & Hps & [= <-]). exists es, ps. split; [done|].
  apply mapR_Ok in Hes, Hps. split.
  - eapply Forall2_impl; [exact Hes|]. apply recalc_exchange_spec.
  - eapply Forall2_impl; [exact Hps|]. intros p p' Hp. apply recalc_param_spec in Hp as [H1 H2].
    split; [|done]. unfold blank_param. by rewrite H1.
Qed.

(** Repair keeps structure and values. *)
Lemma strip_exchange_blank e e' :
  strip_exchange e' = strip_exchange e ->
  blank_exchange e' = blank_exchange e /\ exchange_quantities e' = exchange_quantities e.
Proof.
  intros H.
  assert (Hb : forall e, blank_exchange e = blank_exchange (strip_exchange e)).
  { clear. intros e. unfold blank_exchange.
    assert (H1 : option_map (fun v => set_v_unc None (set_v_amount 0%Qc v)) (e_pv (strip_exchange e))
                 = option_map (fun v => set_v_unc None (set_v_amount 0%Qc v)) (e_pv e))
      by (unfold strip_exchange; cbn; by destruct (e_pv e) as [[]|]).
    assert (H2 : map (fun p => set_p_unc None (set_p_amount 0%Qc p)) (e_props (strip_exchange e))
                 = map (fun p => set_p_unc None (set_p_amount 0%Qc p)) (e_props e))
      by (unfold strip_exchange; cbn; rewrite map_map; apply map_ext; by intros []).
    rewrite H1, H2. reflexivity. }
  assert (Hq : forall e, exchange_quantities e = exchange_quantities (strip_exchange e)).
  { clear. intros e. unfold exchange_quantities, strip_exchange. cbn. f_equal. f_equal.
    - by destruct (e_pv e) as [[]|].
    - rewrite map_map. apply map_ext. by intros []. }
  split; [by rewrite (Hb e'), H, <- Hb|by rewrite (Hq e'), H, <- Hq].
Qed.
Lemma repair_revalued ln euler eval m ds1 ds2 ds3 :
  dataset_revalued eval m ds1 ds2 -> repair_dataset ln euler ds2 = Ok ds3 ->
  dataset_revalued eval m ds1 ds3.
Proof.
  intros (es & ps & -> & H1 & H2) H.
  pose proof (proj1 (repair_dataset_spec _ _ _ _ H)) as Hs.
  unfold repair_dataset in H. apply bind_Ok in H as (es3 & Hes & H).
  apply bind_Ok in H as (ps3 & Hps & [= <-]). cbn [d_exchanges set_d_exchanges d_params set_d_params] in *.
  exists es3, ps3. split; [done|].
  unfold strip_dataset in Hs. cbn -[strip_exchange set_q_unc] in Hs.
  assert (Hse : map strip_exchange es3 = map strip_exchange es) by (injection Hs; congruence).
  assert (Hsp : map (set_q_unc None) ps3 = map (set_q_unc None) ps) by (injection Hs; congruence).
  clear Hs Hes Hps. split.
  - revert es3 Hse. induction H1 as [|a b l k Hab _ IH]; intros es3 Hse.
    + by destruct es3.
    + destruct es3 as [|c es3]; [done|]. cbn [map] in Hse.
      apply cons_inj in Hse as [Hc' Hse]. constructor; [|by apply IH].
      apply strip_exchange_blank in Hc' as [Hb Hq]. destruct Hab as [Hb2 Hq2].
      split; [congruence|]. by rewrite Hq.
  - revert ps3 Hsp. induction H2 as [|a b l k Hab _ IH]; intros ps3 Hsp.
    + by destruct ps3.
    + destruct ps3 as [|c ps3]; [done|]. cbn [map] in Hsp.
      apply cons_inj in Hsp as [Hc Hsp]. constructor; [|by apply IH].
      destruct Hab as [Hb2 Hq2]. split.
      * rewrite <- Hb2. change (set_q_amount 0%Qc (set_q_unc None c) = set_q_amount 0%Qc (set_q_unc None b)).
        by rewrite Hc.
      * change (revalued eval m (param_quantity a) (param_quantity (set_q_unc None c))). by rewrite Hc.
Qed.

Lemma recalculate_spec ln euler order eval ds ds' :
  recalculate ln euler order eval ds = Ok ds' ->
  exists m, environment order eval ds = Ok m /\ dataset_revalued eval m ds ds'.
Proof.
  unfold recalculate. intros H. apply bind_Ok in H as (m & Hm & H).
  apply bind_Ok in H as (ds1 & H1 & H). exists m. split; [done|].
  eapply repair_revalued; [by apply recalc_amounts_spec|exact H].
Qed.

Lemma dataset_revalued_quantities eval m ds ds' :
  dataset_revalued eval m ds ds' ->
  Forall2 (revalued eval m) (quantities ds) (quantities ds').
Proof.
  intros (es & ps & -> & H1 & H2). unfold quantities. cbn. apply Forall2_app.
  - induction H1 as [|e e' l k [_ He] _ IH]; [constructor|].
    cbn [map concat]. by apply Forall2_app.
  - apply Forall2_fmap_2. eapply Forall2_impl; [exact H2|]. by intros p p' [].
Qed.

(** ** The symbol table *)
Lemma all_objs_quantities ds : map pobj_q (all_objs ds) = quantities ds.
Proof.
  unfold all_objs, quantities. rewrite map_app, map_map, concat_map, map_map. f_equal.
  f_equal. apply map_ext. intros e. unfold exchange_objs, exchange_quantities. cbn.
  f_equal. rewrite map_app, map_map. by destruct (e_pv e).
Qed.

Lemma omap_named_filter l :
  omap named_of (filterb parameterized l) = omap named_of l.
Proof.
  induction l as [|o l IH]; [done|]. unfold filterb in *. cbn [List.filter].
  destruct (parameterized o) eqn:E; cbn; [by rewrite IH|].
  unfold parameterized in E. apply orb_false_iff in E as [E _].
  assert (Hn : named_of o = None).
  { unfold named_of. destruct (o_variable o); [|done].
    apply bool_decide_eq_false in E. exfalso. by apply E. }
  by rewrite Hn.
Qed.

Lemma named_keys l : map fst (omap named_of l) = omap q_var (map pobj_q l).
Proof.
  induction l as [|o l IH]; [done|]. cbn. unfold named_of at 1, q_var at 1, pobj_q at 1. cbn.
  destruct (o_variable o); cbn; [by rewrite IH|done].
Qed.

Lemma params_lookup ds n o :
  unique_variables ds ->
  extract_named_parameters ds !! n = Some o <-> o ∈ all_objs ds /\ o_variable o = Some n.
Proof.
  intros Hu. unfold extract_named_parameters, iterate_all_parameters. rewrite omap_named_filter.
  assert (Hnd : NoDup (reverse (omap named_of (all_objs ds))).*1).
  { rewrite fmap_reverse. rewrite reverse_Permutation. change (NoDup (map fst (omap named_of (all_objs ds)))).
    rewrite named_keys, all_objs_quantities. exact Hu. }
  rewrite <- elem_of_list_to_map by exact Hnd.
  rewrite elem_of_reverse, elem_of_list_omap. unfold named_of. split.
  - intros (o' & Hin & H). destruct (o_variable o') eqn:E; [|done]. injection H as -> ->. done.
  - intros (Hin & H). exists o. split; [done|]. by rewrite H.
Qed.

Lemma foldR_app {A B} (f : A -> B -> result A) a l k :
  foldR f a (l ++ k) = let? b := foldR f a l in foldR f b k.
Proof.
  revert a. induction l as [|x l IH]; intros a; [done|]. cbn.
  destruct (f a x); cbn; [apply IH|done].
Qed.

Definition own_value eval (m : env) (o : pobj) (x : Qc) : Prop :=
  match o_formula o with
  | Some f => if (f =? "")%string then x = o_value o else formula_value eval m f x
  | None => x = o_value o
  end.

Lemma evaluate_one_spec eval params m k m' :
  evaluate_one eval params m k = Ok m' ->
  exists o x, params !! k = Some o /\ own_value eval m o x /\ m' = <[k := x]> m.
Proof.
  unfold evaluate_one, own_value. intros H. apply bind_Ok in H as (o & Ho & H).
  exists o. destruct (params !! k) as [o'|]; [|done]. injection Ho as ->.
  destruct (o_formula o) as [f|].
  - destruct (f =? "")%string.
    + injection H as <-. eauto.
    + apply bind_Ok in H as (x & Hx & [= <-]). apply eval_tolerant_spec in Hx. eauto.
  - injection H as <-. eauto.
Qed.

Lemma evaluate_frame eval params m keys m' k :
  foldR (evaluate_one eval params) m keys = Ok m' -> k ∉ keys -> m' !! k = m !! k.
Proof.
  revert m. induction keys as [|j keys IH]; intros m H Hk; cbn in H; [by injection H as ->|].
  apply bind_Ok in H as (m1 & H1 & H). apply evaluate_one_spec in H1 as (o & x & _ & _ & ->).
  rewrite (IH _ H) by set_solver. apply lookup_insert_ne. set_solver.
Qed.

Lemma evaluate_split eval params keys m pre k post :
  evaluate eval params keys = Ok m -> NoDup keys -> keys = pre ++ k :: post ->
  exists m1 o x, params !! k = Some o /\ own_value eval m1 o x /\ m !! k = Some x /\
    (forall y, y ∈ pre -> m1 !! y = m !! y) /\ (forall y, y ∉ pre -> m1 !! y = None).
Proof.
  intros H Hnd ->. unfold evaluate in H. rewrite foldR_app in H.
  apply bind_Ok in H as (m1 & H1 & H). cbn in H. apply bind_Ok in H as (m2 & H2 & H).
  apply evaluate_one_spec in H2 as (o & x & Ho & Hx & ->).
  apply NoDup_app in Hnd as (Hn1 & Hn2 & Hn3). apply NoDup_cons in Hn3 as [Hn3 Hn4].
  exists m1, o, x. split_and!; try done.
  - rewrite (evaluate_frame _ _ _ _ _ _ H) by done. apply (lookup_insert (M:=gmap string)).
  - intros y Hy. specialize (Hn2 y Hy). rewrite (evaluate_frame _ _ _ _ _ _ H) by set_solver.
    symmetry. apply (lookup_insert_ne (M:=gmap string)). set_solver.
  - intros y Hy. rewrite (evaluate_frame _ _ _ _ _ _ H1) by done. apply lookup_empty.
Qed.

Lemma environment_solves uses order eval ds m keys :
  (forall m1 m2 f, (forall x, x ∈ uses f -> m1 !! x = m2 !! x) -> eval m1 f = eval m2 f) ->
  order (extract_named_parameters ds) = Ok keys ->
  topological uses (extract_named_parameters ds) keys ->
  environment order eval ds = Ok m ->
  (forall n x, m !! n = Some x ->
     exists o, extract_named_parameters ds !! n = Some o /\ own_value eval m o x) /\
  (forall n o, extract_named_parameters ds !! n = Some o -> is_Some (m !! n)).
Proof.
  intros Hloc Hord (Hnd & Hdom & Htop) H. unfold environment in H. rewrite Hord in H. cbn in H.
  assert (Hkey : forall n, n ∈ keys -> exists o x,
    extract_named_parameters ds !! n = Some o /\ own_value eval m o x /\ m !! n = Some x).
  { intros n Hn. apply elem_of_list_split in Hn as (pre & post & Hs).
    destruct (evaluate_split _ _ _ _ _ _ _ H Hnd Hs) as (m1 & o & x & Ho & Hx & Hm & Hpre & Hno).
    exists o, x. split_and!; try done. unfold own_value in *.
    destruct (o_formula o) as [f|] eqn:Ef; [|done]. destruct (f =? "")%string; [done|].
    assert (E : eval m1 f = eval m f).
    { apply Hloc. intros y Hy. destruct (decide (y ∈ pre)) as [Hp|Hp]; [by apply Hpre|].
      rewrite Hno by done. symmetry.
      assert (y ∉ keys) as Hyk by (intros Hyk; apply Hp; by eapply Htop).
      rewrite (evaluate_frame _ _ _ _ _ _ H) by done. apply lookup_empty. }
    unfold formula_value in *. by rewrite <- E. }
  split.
  - intros n x Hx. destruct (decide (n ∈ keys)) as [Hn|Hn].
    + destruct (Hkey n Hn) as (o & x' & Ho & Hx' & Hm). rewrite Hx in Hm. injection Hm as ->. eauto.
    + rewrite (evaluate_frame _ _ _ _ _ _ H) in Hx by done. by rewrite lookup_empty in Hx.
  - intros n o Ho. destruct (Hkey n) as (? & x & _ & _ & Hx); [apply Hdom; by exists o|by exists x].
Qed.

(** The recalculated dataset solves its own equations. *)
Lemma recalculate_solves uses ln euler order eval ds ds' keys :
  (forall m1 m2 f, (forall x, x ∈ uses f -> m1 !! x = m2 !! x) -> eval m1 f = eval m2 f) ->
  order (extract_named_parameters ds) = Ok keys ->
  topological uses (extract_named_parameters ds) keys ->
  unique_variables ds -> Forall (fun q => q_form q <> Some ""%string) (quantities ds) ->
  recalculate ln euler order eval ds = Ok ds' ->
  exists m,
    (forall n x, m !! n = Some x <-> exists f, (Some n, f, x) ∈ quantities ds') /\
    Forall (fun q => forall f, q_form q = Some f -> formula_value eval m f (q_val q))
      (quantities ds') /\
    Forall2 (fun q q' => q_form q = None -> q' = q) (quantities ds) (quantities ds').
Proof.
  intros Hloc Hord Htop Hu Hne H. apply recalculate_spec in H as (m & Hm & HR).
  apply dataset_revalued_quantities in HR. exists m.
  destruct (environment_solves _ _ _ _ _ _ Hloc Hord Htop Hm) as [Hs Hd].
  assert (Hpar : forall n f x, (Some n, f, x) ∈ quantities ds ->
    extract_named_parameters ds !! n = Some (mkPobj (Some n) f x)).
  { intros n f x Hin. apply params_lookup; [done|]. split; [|done].
    rewrite <- all_objs_quantities in Hin. apply elem_of_list_fmap in Hin as (o & Ho & Hin).
    destruct o as [a b c]. unfold pobj_q in Ho. cbn in Ho. by injection Ho as -> -> ->. }
  (* the value of a named quantity after recalculation is its entry in [m] *)
  assert (Hval : forall n f x x', (Some n, f, x) ∈ quantities ds ->
    revalued eval m (Some n, f, x) (Some n, f, x') -> m !! n = Some x' /\ (f = None -> x' = x)).
  { intros n f x x' Hin (_ & _ & Hr). cbn in Hr.
    pose proof (Hpar _ _ _ Hin) as Hp. destruct (Hd _ _ Hp) as [y Hy].
    destruct (Hs _ _ Hy) as (o & Ho & Hov). rewrite Hp in Ho. injection Ho as <-.
    unfold own_value in Hov. cbn in Hov.
    destruct f as [f|].
    - rewrite Forall_forall in Hne. specialize (Hne _ Hin). unfold q_form in Hne. cbn in Hne.
      destruct (String.eqb_spec f ""%string) as [->|_]; [done|].
      split; [|done]. unfold q_val in Hr. cbn in Hr. unfold formula_value in *.
      destruct Hov as [Hov|[Hov ->]], Hr as [Hr|[Hr ->]]; congruence.
    - unfold q_val in Hr. cbn in Hr. split; [done|]. intros _. congruence. }
  split_and!.
  - intros n x. split.
    + intros Hx. destruct (Hs _ _ Hx) as (o & Ho & _).
      pose proof Ho as Ho'. apply params_lookup in Ho' as [Hin Hv]; [|done].
      assert (Hq : pobj_q o ∈ quantities ds)
        by (rewrite <- all_objs_quantities; by apply elem_of_list_fmap_1).
      unfold pobj_q in Hq. rewrite Hv in Hq.
      pose proof Hq as Hq'. apply elem_of_list_lookup in Hq as [i Hi].
      destruct (Forall2_lookup_l _ _ _ _ _ HR Hi) as ([[v f] x'] & Hi' & Hr).
      pose proof Hr as (Hr1 & Hr2 & _). unfold q_var, q_form in Hr1, Hr2. cbn in Hr1, Hr2.
      subst v f. destruct (Hval _ _ _ _ Hq' Hr) as [Hm' _].
      rewrite Hx in Hm'. injection Hm' as ->. eexists. by eapply elem_of_list_lookup_2.
    + intros (f & Hin). apply elem_of_list_lookup in Hin as [i Hi].
      destruct (Forall2_lookup_r _ _ _ _ _ HR Hi) as ([[v f'] x'] & Hi' & Hr).
      pose proof Hr as (Hr1 & Hr2 & _). unfold q_var, q_form in Hr1, Hr2. cbn in Hr1, Hr2.
      subst v f'. apply (Hval _ _ _ _ (elem_of_list_lookup_2 _ _ _ Hi') Hr).
  - apply Forall_lookup_2. intros i q Hi f Hf.
    destruct (Forall2_lookup_r _ _ _ _ _ HR Hi) as (q0 & _ & Hr1 & Hr2 & Hr3).
    rewrite <- Hr2, Hf in Hr3. exact Hr3.
  - apply Forall2_same_length_lookup. split; [by eapply Forall2_length|].
    intros i q q' Hi Hi' Hf.
    destruct (Forall2_lookup_l _ _ _ _ _ HR Hi) as (q1 & Hi1 & Hr).
    rewrite Hi' in Hi1. injection Hi1 as <-.
    destruct q as [[v f] x], q' as [[v' f'] x']. pose proof Hr as (Hr1 & Hr2 & Hr3).
    unfold q_var, q_form, q_val in *. cbn in *. subst v' f' f.
    destruct v as [n|]; [|by subst].
    destruct (Hval n None x x') as [_ Hx]; [by eapply elem_of_list_lookup_2|exact Hr|].
    by rewrite Hx.
Qed.
