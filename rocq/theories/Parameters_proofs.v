(** Proofs for C46, C48, C49: passes over the parameters of datasets. *)
From Coq Require Import Ascii.
From Verif Require Import Base Types Uncertainty Utils Strings StringFacts Recalculation Formulas Parameters Spec_Parameters.

(** *** Changing variables and formulas *)
Definition changed (f : named -> result named) (o o' : pobj) : Prop :=
  o_value o' = o_value o /\ f (o_variable o, o_formula o) = Ok (o_variable o', o_formula o').
Section change.
  Context (f : named -> result named).
  Lemma change_pv_spec v v' : change_pv f v = Ok v' -> unnamed_pv v' = unnamed_pv v /\ changed f (v_obj v) (v_obj v').
  Proof.
    unfold change_pv. intros H. apply bind_Ok in H as ([x y] & H1 & H). apply Ok_inj in H as <-. split; [by destruct v|].
    split; [by destruct v|]. cbn [v_obj o_variable o_formula]. rewrite H1. by destruct v.
  Qed.
  Lemma change_prop_spec v v' : change_prop f v = Ok v' -> unnamed_prop v' = unnamed_prop v /\ changed f (p_obj v) (p_obj v').
  Proof.
    unfold change_prop. intros H. apply bind_Ok in H as ([x y] & H1 & H). apply Ok_inj in H as <-. split; [by destruct v|].
    split; [by destruct v|]. cbn [p_obj o_variable o_formula]. rewrite H1. by destruct v.
  Qed.
  Lemma change_param_spec v v' : change_param f v = Ok v' -> unnamed_param v' = unnamed_param v /\ changed f (q_obj v) (q_obj v').
  Proof.
    unfold change_param. intros H. apply bind_Ok in H as ([x y] & H1 & H). apply Ok_inj in H as <-. split; [by destruct v|].
    split; [by destruct v|]. cbn [q_obj o_variable o_formula]. rewrite H1. by destruct v.
  Qed.
  Lemma change_props_spec l l' : mapR (change_prop f) l = Ok l' ->
    map unnamed_prop l' = map unnamed_prop l /\ Forall2 (changed f) (map p_obj l) (map p_obj l').
  Proof.
    intros H. apply mapR_Ok in H. induction H as [|x y l l' H _ [IH1 IH2]]; [split; [done|constructor]|]. apply change_prop_spec in H as [H1 H2].
    cbn [map]. rewrite H1, IH1. split; [done|]. by constructor.
  Qed.
  Lemma change_params_spec l l' : mapR (change_param f) l = Ok l' ->
    map unnamed_param l' = map unnamed_param l /\ Forall2 (changed f) (map q_obj l) (map q_obj l').
  Proof.
    intros H. apply mapR_Ok in H. induction H as [|x y l l' H _ [IH1 IH2]]; [split; [done|constructor]|]. apply change_param_spec in H as [H1 H2].
    cbn [map]. rewrite H1, IH1. split; [done|]. by constructor.
  Qed.
  Lemma change_exchange_spec e e' : change_exchange f e = Ok e' ->
    unnamed_exchange e' = unnamed_exchange e /\ Forall2 (changed f) (exchange_objs e) (exchange_objs e').
  Proof.
    unfold change_exchange. intros H. apply bind_Ok in H as ([x y] & H1 & H). apply bind_Ok in H as (v & H2 & H).
    apply bind_Ok in H as (ps & H3 & H). apply Ok_inj in H as <-. apply change_props_spec in H3 as [H3 H4].
    assert (unnamed_pv <$> v = unnamed_pv <$> e_pv e /\
            Forall2 (changed f) (match e_pv e with Some v => [v_obj v] | None => [] end) (match v with Some v => [v_obj v] | None => [] end)) as [H5 H6].
    { destruct (e_pv e) as [w|]; cbn [optR] in H2.
      - destruct (change_pv f w) as [w'|] eqn:E; [|done]. cbn in H2. apply Ok_inj in H2 as <-. apply change_pv_spec in E as [E1 E2].
        cbn. rewrite E1. split; [done|]. by constructor.
      - by apply Ok_inj in H2 as <-. }
    split.
    - unfold unnamed_exchange. destruct e. cbn in *. by rewrite H5, H3.
    - unfold exchange_objs. constructor.
      + split; [by destruct e|]. cbn [e_obj o_variable o_formula]. rewrite H1. by destruct e.
      + apply Forall2_app; [|by destruct e]. by destruct e.
  Qed.
  Lemma change_dataset_spec ds ds' : change_dataset f ds = Ok ds' ->
    unnamed ds' = unnamed ds /\ Forall2 (changed f) (all_objs ds) (all_objs ds').
  Proof.
    unfold change_dataset. intros H. apply bind_Ok in H as (es & H1 & H). apply bind_Ok in H as (qs & H2 & H).
    apply Ok_inj in H as <-. apply change_params_spec in H2 as [H2 H3].
    assert (map unnamed_exchange es = map unnamed_exchange (d_exchanges ds) /\
            Forall2 (changed f) (concat (map exchange_objs (d_exchanges ds))) (concat (map exchange_objs es))) as [H4 H5].
    { apply mapR_Ok in H1. induction H1 as [|x y l l' H _ [IH1 IH2]]; [split; [done|constructor]|]. apply change_exchange_spec in H as [E1 E2].
      cbn [map concat]. rewrite E1, IH1. split; [done|]. by apply Forall2_app. }
    split.
    - unfold unnamed. destruct ds. cbn in *. by rewrite H4, H2.
    - unfold all_objs. apply Forall2_app; [|by destruct ds]. by destruct ds.
  Qed.
  (** *** Errors *)
  Lemma change_pv_ok v n : f (v_variable v, v_formula v) = Ok n -> exists v', change_pv f v = Ok v'.
  Proof. intros H. unfold change_pv. rewrite H. by eexists. Qed.
  Lemma change_dataset_total ds : (forall o, o ∈ all_objs ds -> exists n, f (o_variable o, o_formula o) = Ok n) ->
    exists ds', change_dataset f ds = Ok ds'.
  Proof.
    intros H. unfold change_dataset.
    destruct (mapR_ok_all (change_exchange f) (d_exchanges ds)) as [es ->].
    { intros e He. assert (forall o, o ∈ exchange_objs e -> exists n, f (o_variable o, o_formula o) = Ok n) as Ho.
      { intros o Ho. apply H. unfold all_objs. apply elem_of_app. left. rewrite <- flat_map_concat_map. apply elem_of_list_In, in_flat_map.
        exists e. by rewrite <- !elem_of_list_In. }
      unfold change_exchange. destruct (Ho (e_obj e)) as [n0 Hn0]; [by left|]. cbn [e_obj o_variable o_formula] in Hn0. rewrite Hn0. cbn [bind].
      assert (exists v, optR (change_pv f) (e_pv e) = Ok v) as [v ->].
      { destruct (e_pv e) as [w|] eqn:Ew; [|by eexists]. cbn. destruct (Ho (v_obj w)) as [n' Hn].
        - unfold exchange_objs. rewrite Ew. right. by left.
        - destruct (change_pv_ok w n' Hn) as [w' ->]. by eexists. }
      cbn [bind]. destruct (mapR_ok_all (change_prop f) (e_props e)) as [ps ->]; [|by eexists].
      intros p Hp. destruct (Ho (p_obj p)) as [n' Hn].
      - unfold exchange_objs. right. apply elem_of_app. right. apply elem_of_list_fmap. by exists p.
      - unfold change_prop. cbn in Hn. rewrite Hn. by eexists. }
    cbn [bind]. destruct (mapR_ok_all (change_param f) (d_params ds)) as [qs ->]; [|by eexists].
    intros q Hq. destruct (H (q_obj q)) as [n Hn].
    - unfold all_objs. apply elem_of_app. right. apply elem_of_list_fmap. by exists q.
    - unfold change_param. cbn in Hn. rewrite Hn. by eexists.
  Qed.
End change.

Lemma change_all_spec f data data' : mapR (change_dataset f) data = Ok data' ->
  Forall2 (renamed (fun o o' => f (o_variable o, o_formula o) = Ok (o_variable o', o_formula o'))) data data'.
Proof.
  intros H. apply mapR_Ok in H. eapply Forall2_impl; [exact H|]. intros ds ds' E. by apply change_dataset_spec in E.
Qed.
Lemma change_all_pure (g : named -> named) data :
  exists data', mapR (change_dataset (fun n => Ok (g n))) data = Ok data'.
Proof. apply mapR_ok_all. intros ds _. apply change_dataset_total. intros o _. by eexists. Qed.

Lemma change_dataset_id f ds : (forall o, o ∈ all_objs ds -> f (o_variable o, o_formula o) = Ok (o_variable o, o_formula o)) ->
  change_dataset f ds = Ok ds.
Proof.
  intros H. unfold change_dataset.
  assert (mapR (change_exchange f) (d_exchanges ds) = Ok (d_exchanges ds)) as ->.
  { apply mapR_Ok. apply Forall2_same_length_lookup. split; [done|]. intros i e e' He He'. assert (e = e') as <- by congruence. clear He'.
    apply elem_of_list_lookup_2 in He.
    assert (forall o, o ∈ exchange_objs e -> f (o_variable o, o_formula o) = Ok (o_variable o, o_formula o)) as Ho.
    { intros o Ho. apply H. unfold all_objs. apply elem_of_app. left. rewrite <- flat_map_concat_map. apply elem_of_list_In, in_flat_map.
      exists e. by rewrite <- !elem_of_list_In. }
    unfold change_exchange. pose proof (Ho (e_obj e) ltac:(by left)) as H0. cbn [e_obj o_variable o_formula] in H0. rewrite H0. cbn [bind].
    assert (optR (change_pv f) (e_pv e) = Ok (e_pv e)) as ->.
    { destruct (e_pv e) as [v|] eqn:Ev; [|done]. assert (v_obj v ∈ exchange_objs e) as Hv by (unfold exchange_objs; rewrite Ev; right; by left).
      apply Ho in Hv. cbn [v_obj o_variable o_formula] in Hv. cbn. unfold change_pv. rewrite Hv. cbn. by destruct v. }
    cbn [bind]. assert (mapR (change_prop f) (e_props e) = Ok (e_props e)) as ->; [|cbn; by destruct e].
    apply mapR_Ok. apply Forall2_same_length_lookup. split; [done|]. intros j p p' Hp Hp'. assert (p = p') as <- by congruence. clear Hp'.
    apply elem_of_list_lookup_2 in Hp. assert (p_obj p ∈ exchange_objs e) as Hv.
    { unfold exchange_objs. right. apply elem_of_app. right. apply elem_of_list_fmap. by exists p. }
    apply Ho in Hv. cbn [p_obj o_variable o_formula] in Hv. unfold change_prop. rewrite Hv. cbn. by destruct p. }
  cbn [bind]. assert (mapR (change_param f) (d_params ds) = Ok (d_params ds)) as ->; [|cbn; by destruct ds].
  apply mapR_Ok. apply Forall2_same_length_lookup. split; [done|]. intros j p p' Hp Hp'. assert (p = p') as <- by congruence. clear Hp'.
  apply elem_of_list_lookup_2 in Hp. assert (q_obj p ∈ all_objs ds) as Hv.
  { unfold all_objs. apply elem_of_app. right. apply elem_of_list_fmap. by exists p. }
  apply H in Hv. cbn [q_obj o_variable o_formula] in Hv. unfold change_param. rewrite Hv. cbn. by destruct p.
Qed.
Lemma change_all_id f data : (forall ds o, ds ∈ data -> o ∈ all_objs ds -> f (o_variable o, o_formula o) = Ok (o_variable o, o_formula o)) ->
  mapR (change_dataset f) data = Ok data.
Proof.
  intros H. apply mapR_Ok. apply Forall2_same_length_lookup. split; [done|]. intros i e e' He He'. assert (e = e') as <- by congruence.
  apply change_dataset_id. intros o Ho. apply (H e); [|done]. by eapply elem_of_list_lookup_2.
Qed.
(** A pass that changes nothing the second time. *)
Lemma change_all_idempotent f data data' : (forall n n', f n = Ok n' -> f n' = Ok n') ->
  mapR (change_dataset f) data = Ok data' -> mapR (change_dataset f) data' = Ok data'.
Proof.
  intros Hf H. apply change_all_id. intros ds' o' Hds Ho. apply change_all_spec in H.
  apply elem_of_list_lookup in Hds as [i Hi]. destruct (Forall2_lookup_r _ _ _ _ _ H Hi) as (ds & _ & _ & Hobjs).
  apply elem_of_list_lookup in Ho as [j Hj]. destruct (Forall2_lookup_r _ _ _ _ _ Hobjs Hj) as (o & _ & _ & E). by apply Hf in E.
Qed.

(** *** C46 *)
Lemma nat_lower c : nat_of_ascii (lower_ascii c) =
  if bool_decide (65 <= nat_of_ascii c <= 90)%nat then (nat_of_ascii c + 32)%nat else nat_of_ascii c.
Proof. destruct c as [[] [] [] [] [] [] [] []]; vm_compute; reflexivity. Qed.
Lemma nat_of_ascii_inj c d : nat_of_ascii c = nat_of_ascii d -> c = d.
Proof. intros H. by rewrite <- (ascii_nat_embedding c), <- (ascii_nat_embedding d), H. Qed.
Lemma lower_same_letter c d : lower_ascii c = lower_ascii d <-> same_letter c d.
Proof.
  unfold same_letter. split.
  - intros H. apply (f_equal nat_of_ascii) in H. rewrite !nat_lower in H. repeat case_bool_decide.
    + left. apply nat_of_ascii_inj. lia.
    + right. left. lia.
    + right. right. lia.
    + left. by apply nat_of_ascii_inj.
  - intros H. apply nat_of_ascii_inj. rewrite !nat_lower. destruct H as [->|H]; repeat case_bool_decide; lia.
Qed.
Lemma chars_lower s : chars (lower s) = map lower_ascii (chars s).
Proof. induction s as [|c s IH]; [done|]. cbn. by rewrite IH. Qed.
Lemma chars_inj s t : chars s = chars t -> s = t.
Proof. intros H. by rewrite <- (string_of_list_ascii_of_string s), H, string_of_list_ascii_of_string. Qed.
Lemma lower_same_letters s t : lower s = lower t <-> same_letters s t.
Proof.
  unfold same_letters. split.
  - intros H. apply (f_equal chars) in H. rewrite !chars_lower in H. revert H. generalize (chars s), (chars t). clear s t.
    induction l as [|c l IH]; intros [|d k] H; try done. cbn in H. injection H as H1 H2. constructor; [by apply lower_same_letter|by apply IH].
  - intros H. apply chars_inj. rewrite !chars_lower. induction H as [|c d l k H _ IH]; [done|]. cbn. rewrite IH. f_equal. by apply lower_same_letter.
Qed.
Lemma lower_idempotent s : lower (lower s) = lower s.
Proof.
  apply chars_inj. rewrite !chars_lower, map_map. apply map_ext. intros c. apply nat_of_ascii_inj. rewrite !nat_lower.
  repeat case_bool_decide; lia.
Qed.
Lemma lower_app s t : lower (s ++ t) = (lower s ++ lower t)%string.
Proof. induction s as [|c s IH]; [done|]. rewrite !str_cons_app. cbn [lower]. rewrite IH. by rewrite str_cons_app. Qed.
Lemma lower_contains v f : str_contains v f = true -> str_contains (lower v) (lower f) = true.
Proof. rewrite !contains_iff. unfold StringFacts.occurs. intros (a & b & ->). exists (lower a), (lower b). by rewrite !lower_app. Qed.
Lemma lowercase_spec data : exists data', lowercase_all_parameters data = Ok data' /\
  Forall2 (renamed (fun o o' => o_variable o' = lower <$> o_variable o /\ o_formula o' = lower <$> o_formula o)) data data'.
Proof.
  destruct (change_all_pure (fun n => (lower <$> n.1, lower <$> n.2)) data) as [data' H]. exists data'. split; [exact H|].
  apply change_all_spec in H. eapply Forall2_impl; [exact H|]. intros ds ds' [H1 H2]. split; [done|].
  eapply Forall2_impl; [exact H2|]. intros o o' [H3 H4]. split; [done|]. apply Ok_inj in H4. cbn in H4. by injection H4 as <- <-.
Qed.
Lemma lowercase_idempotent data data' : lowercase_all_parameters data = Ok data' -> lowercase_all_parameters data' = Ok data'.
Proof.
  apply change_all_idempotent. intros [v g] n' H. apply Ok_inj in H as <-. cbn.
  f_equal. f_equal; [destruct v|destruct g]; cbn; by rewrite ?lower_idempotent.
Qed.

(** *** C48 *)
Lemma has_variable_objs ds : omap has_variable (iterate_all_parameters ds) = variables ds.
Proof.
  unfold iterate_all_parameters, variables. induction (all_objs ds) as [|o l IH]; [done|].
  unfold filterb in *. cbn [List.filter]. unfold parameterized at 1.
  assert (omap o_variable (o :: l) = match o_variable o with Some v => v :: omap o_variable l | None => omap o_variable l end) as ->.
  { cbn. by destruct (o_variable o). }
  destruct (o_variable o) as [v|] eqn:Ev.
  - rewrite bool_decide_eq_true_2 by done. cbn [orb].
    assert (omap has_variable (o :: List.filter parameterized l) =
      match has_variable o with Some v => v :: omap has_variable (List.filter parameterized l) | None => omap has_variable (List.filter parameterized l) end) as ->.
    { cbn. by destruct (has_variable o). }
    unfold has_variable at 1. rewrite Ev. destruct (String.eqb_spec v "").
    + subst v. rewrite filter_cons_False; [done|]. intros H. by apply H.
    + rewrite filter_cons_True by done. by rewrite IH.
  - rewrite bool_decide_eq_false_2 by (by intros []). cbn [orb].
    destruct (bool_decide _); [|done].
    assert (omap has_variable (o :: List.filter parameterized l) = omap has_variable (List.filter parameterized l)) as ->; [|done].
    cbn. unfold has_variable at 1. by rewrite Ev.
Qed.
Lemma unique_names_spec found l : NoDup found ->
  (unique_names found l = Ok tt <-> NoDup (l ++ found)) /\ (forall e, unique_names found l = Err e -> e = ParameterizationError).
Proof.
  revert found. induction l as [|v l IH]; intros found Hf; cbn [unique_names].
  - split; [|done]. cbn. done.
  - case_bool_decide as Hv.
    + split; [|congruence]. split; [done|]. cbn. rewrite NoDup_cons. intros [H _]. exfalso. apply H. apply elem_of_app. by right.
    + destruct (IH (v :: found)) as [IH1 IH2]; [by constructor|]. split; [|done]. rewrite IH1.
      assert (l ++ v :: found ≡ₚ (v :: l) ++ found) as ->; [|done]. cbn. by rewrite Permutation_middle.
Qed.
Lemma unique_spec data :
  (variable_names_are_unique data = Ok data <-> Forall (fun ds => NoDup (variables ds)) data) /\
  (forall e, variable_names_are_unique data = Err e -> e = ParameterizationError) /\
  (forall data', variable_names_are_unique data = Ok data' -> data' = data).
Proof.
  unfold variable_names_are_unique.
  assert (forall ds, (unique_names [] (omap has_variable (iterate_all_parameters ds)) = Ok tt <-> NoDup (variables ds)) /\
     forall e, unique_names [] (omap has_variable (iterate_all_parameters ds)) = Err e -> e = ParameterizationError) as Hone.
  { intros ds. rewrite has_variable_objs. rewrite <- (app_nil_r (variables ds)) at 2. apply unique_names_spec. constructor. }
  destruct (mapR _ data) as [us|e] eqn:E; cbn [bind].
  - split; [|split; [done|congruence]]. split; [intros _|done]. apply mapR_Ok in E. apply Forall_forall. intros ds Hds.
    apply elem_of_list_lookup in Hds as [i Hi]. destruct (Forall2_lookup_l _ _ _ _ _ E Hi) as ([] & _ & H). by apply Hone.
  - apply mapR_Err in E as (l1 & ds & l2 & -> & E & _). split; [|split; [|done]].
    + split; [done|]. intros H. apply Forall_app in H as [_ H]. apply Forall_cons in H as [H _]. apply Hone in H. congruence.
    + intros e' [= <-]. by apply Hone in E.
Qed.

(** *** C49 *)
Definition shiftable (e : exchange) : option (exchange * pvol * string) :=
  match e_pv e with
  | Some v => match v_variable v with Some n => Some (e, v, n) | None => None end
  | None => None
  end.
Lemma shift_spec fresh next es :
  (shift_pvs fresh next es).1 = map (fun e => set_e_pv (plain_pv <$> e_pv e) e) es /\
  (shift_pvs fresh next es).2 = imap (fun i x => shifted (fresh (next + i)%nat) x.1.1 x.1.2 x.2) (omap shiftable es).
Proof.
  revert next. induction es as [|e es IH]; intros next; [done|]. cbn [shift_pvs map].
  assert (omap shiftable (e :: es) = match shiftable e with Some v => v :: omap shiftable es | None => omap shiftable es end) as ->.
  { cbn. by destruct (shiftable e). }
  unfold shiftable at 1. destruct (e_pv e) as [v|] eqn:Ev; cbn [fst snd].
  - destruct (v_variable v) as [n|] eqn:En; cbn [fst snd].
    + destruct (IH (S next)) as [-> ->]. split; [done|]. rewrite imap_cons. cbn [fst snd]. rewrite Nat.add_0_r. f_equal.
      apply imap_ext. intros i x _. cbn. by rewrite Nat.add_succ_r.
    + destruct (IH next) as [-> ->]. done.
  - destruct (IH next) as [-> ->]. split; [|done]. f_equal. destruct e. cbn in *. by rewrite Ev.
Qed.
Lemma create_pv_spec fresh ds :
  d_exchanges (create_pv_parameters fresh ds) = map (fun e => set_e_pv (plain_pv <$> e_pv e) e) (d_exchanges ds) /\
  d_params (create_pv_parameters fresh ds) =
    d_params ds ++ imap (fun i x => shifted (fresh i) x.1.1 x.1.2 x.2) (omap shiftable (d_exchanges ds)) /\
  set_d_params (d_params ds) (set_d_exchanges (d_exchanges ds) (create_pv_parameters fresh ds)) = ds.
Proof.
  unfold create_pv_parameters. destruct (shift_spec fresh 0 (d_exchanges ds)) as [H1 H2].
  split; [|split].
  - destruct ds. exact H1.
  - destruct ds. cbn in *. by rewrite H2.
  - by destruct ds.
Qed.
Lemma create_pv_kept fresh ds :
  set_d_params (d_params ds) (set_d_exchanges (d_exchanges ds) (create_pv_parameters fresh ds)) = ds /\
  Forall2 (fun e e' =>
    set_e_pv (e_pv e) e' = e /\
    match e_pv e, e_pv e' with
    | Some v, Some v' => v_variable v' = None /\ v_formula v' = None /\
                         set_v_variable (v_variable v) (set_v_formula (v_formula v) v') = v
    | None, None => True
    | _, _ => False
    end) (d_exchanges ds) (d_exchanges (create_pv_parameters fresh ds)).
Proof.
  destruct (create_pv_spec fresh ds) as (H1 & _ & H3). split; [done|]. rewrite H1. clear.
  induction (d_exchanges ds) as [|e l IH]; [constructor|]. cbn [map]. constructor; [|exact IH]. split; [by destruct e|].
  destruct (e_pv e) as [v|] eqn:Ev; destruct e; cbn in *; [|done]. by destruct v.
Qed.
Lemma create_pv_new fresh ds : exists news,
  d_params (create_pv_parameters fresh ds) = d_params ds ++ news /\
  Forall2 (fun (x : exchange * pvol * string) q =>
      q_variable q = Some x.2 /\ q_formula q = v_formula x.1.2 /\ q_amount q = v_amount x.1.2 /\
      q_unit q = Some (e_unit x.1.1) /\ q_name q = Some ("Shifted PV parameter: " ++ x.2)%string /\ q_unc q = None)
    (omap (fun e => v ← e_pv e; n ← v_variable v; Some (e, v, n)) (d_exchanges ds)) news /\
  map q_id news = map (fun i => Some (fresh i)) (seq 0 (length news)).
Proof.
  destruct (create_pv_spec fresh ds) as (_ & H2 & _). eexists. split; [exact H2|].
  assert (omap shiftable (d_exchanges ds) = omap (fun e => v ← e_pv e; n ← v_variable v; Some (e, v, n)) (d_exchanges ds)) as <-.
  { apply list_omap_ext. apply Forall2_same_length_lookup. split; [done|]. intros i e e' He He'. assert (e = e') as <- by congruence.
    unfold shiftable. destruct (e_pv e) as [v|]; [|done]. cbn. by destruct (v_variable v). }
  generalize (omap shiftable (d_exchanges ds)). intros l. clear. split.
  - apply Forall2_same_length_lookup. split; [by rewrite imap_length|]. intros i x q Hx Hq. rewrite list_lookup_imap, Hx in Hq.
    cbn in Hq. by injection Hq as <-.
  - apply list_eq. intros i. rewrite !list_lookup_fmap, list_lookup_imap, imap_length.
    destruct (l !! i) as [x|] eqn:Ex; cbn.
    + rewrite lookup_seq_lt; [done|]. by eapply lookup_lt_Some.
    + rewrite lookup_seq_ge; [done|]. by apply lookup_ge_None.
Qed.

Lemma omap_cons_named o l : omap named_of (o :: l) = match o_variable o with Some n => [(n, o)] | None => [] end ++ omap named_of l.
Proof. cbn. unfold named_of at 1. by destruct (o_variable o). Qed.
Lemma omap_app_named k l : omap named_of (k ++ l) = omap named_of k ++ omap named_of l.
Proof. apply omap_app. Qed.
Lemma shift_named fresh es n :
  omap named_of (concat (map exchange_objs (map (fun e => set_e_pv (plain_pv <$> e_pv e) e) es))) ++
  omap named_of (map q_obj (imap (fun i x => shifted (fresh (n + i)%nat) x.1.1 x.1.2 x.2) (omap shiftable es)))
  ≡ₚ omap named_of (concat (map exchange_objs es)).
Proof.
  revert n. induction es as [|e es IH]; intros n; [done|]. cbn [map concat]. rewrite !omap_app_named.
  assert (omap shiftable (e :: es) = match shiftable e with Some v => v :: omap shiftable es | None => omap shiftable es end) as ->.
  { cbn. by destruct (shiftable e). }
  unfold shiftable at 1. unfold exchange_objs at 1 3. rewrite !omap_cons_named, !omap_app_named.
  assert (e_props (set_e_pv (plain_pv <$> e_pv e) e) = e_props e) as -> by by destruct e.
  assert (e_obj (set_e_pv (plain_pv <$> e_pv e) e) = e_obj e) as -> by by destruct e.
  assert (e_pv (set_e_pv (plain_pv <$> e_pv e) e) = plain_pv <$> e_pv e) as -> by by destruct e.
  destruct (e_pv e) as [v|] eqn:Ev; cbn [fmap option_fmap option_map].
  - assert (omap named_of [v_obj (plain_pv v)] = []) as -> by by destruct v.
    destruct (v_variable v) as [x|] eqn:Ex.
    + assert (omap named_of [v_obj v] = [(x, v_obj v)]) as -> by (rewrite omap_cons_named; cbn [v_obj o_variable]; by rewrite Ex).
      rewrite imap_cons. cbn [map fst snd]. rewrite omap_cons_named.
      assert (q_obj (shifted (fresh (n + 0)%nat) e v x) = v_obj v) as -> by (destruct v; cbn in *; by rewrite Ex).
      change (o_variable (v_obj v)) with (v_variable v). rewrite Ex, <- (IH (S n)).
      assert (imap ((λ i y, shifted (fresh (n + i)%nat) y.1.1 y.1.2 y.2) ∘ S) (omap shiftable es) =
              imap (λ i y, shifted (fresh (S n + i)%nat) y.1.1 y.1.2 y.2) (omap shiftable es)) as ->.
      { apply imap_ext. intros i y _. cbn. by rewrite Nat.add_succ_r. }
      cbn [app]. solve_Permutation.
    + assert (omap named_of [v_obj v] = []) as -> by (rewrite omap_cons_named; cbn [v_obj o_variable]; by rewrite Ex).
      rewrite <- (IH n). cbn [app]. by rewrite <- app_assoc.
  - rewrite <- (IH n). cbn [app]. change (omap named_of []) with (@nil (string * pobj)). by repeat rewrite <- app_assoc.
Qed.
Lemma create_pv_named fresh ds : omap named_of (all_objs (create_pv_parameters fresh ds)) ≡ₚ omap named_of (all_objs ds).
Proof.
  destruct (create_pv_spec fresh ds) as (H1 & H2 & _). unfold all_objs. rewrite H1, H2, map_app, !omap_app_named.
  rewrite <- (shift_named fresh (d_exchanges ds) 0). solve_Permutation.
Qed.
Lemma named_variables l : omap o_variable l = map fst (omap named_of l).
Proof. induction l as [|o l IH]; [done|]. rewrite omap_cons_named, map_app, <- IH. cbn. by destruct (o_variable o). Qed.
Lemma named_iterate ds : omap named_of (iterate_all_parameters ds) = omap named_of (all_objs ds).
Proof.
  unfold iterate_all_parameters, filterb. induction (all_objs ds) as [|o l IH]; [done|]. cbn [List.filter].
  rewrite (omap_cons_named o l). unfold parameterized at 1. destruct (o_variable o) as [v|] eqn:Ev.
  - rewrite bool_decide_eq_true_2 by done. cbn [orb]. rewrite omap_cons_named, Ev, IH. done.
  - destruct (_ || _); [|done]. rewrite omap_cons_named, Ev, IH. done.
Qed.
Lemma create_pv_variables fresh ds : variables (create_pv_parameters fresh ds) ≡ₚ variables ds.
Proof. unfold variables. by rewrite !named_variables, create_pv_named. Qed.
Lemma create_pv_environment fresh ds : NoDup (omap o_variable (all_objs ds)) ->
  extract_named_parameters (create_pv_parameters fresh ds) = extract_named_parameters ds.
Proof.
  intros H. unfold extract_named_parameters. rewrite !named_iterate. rewrite named_variables in H.
  assert (reverse (omap named_of (all_objs ds)) ≡ₚ omap named_of (all_objs ds)) as Hr by apply reverse_Permutation.
  symmetry. apply list_to_map_proper.
  - change (NoDup (map fst (reverse (omap named_of (all_objs ds))))). by rewrite Hr.
  - rewrite Hr, (reverse_Permutation (omap named_of (all_objs (create_pv_parameters fresh ds)))). symmetry. apply create_pv_named.
Qed.
Lemma create_pv_idempotent fresh fresh' ds : create_pv_parameters fresh' (create_pv_parameters fresh ds) = create_pv_parameters fresh ds.
Proof.
  destruct (create_pv_spec fresh ds) as (H1 & H2 & _). set (ds' := create_pv_parameters fresh ds) in *.
  unfold create_pv_parameters. destruct (shift_spec fresh' 0 (d_exchanges ds')) as [H3 H4]. rewrite H3, H4, H1.
  assert (omap shiftable (map (λ e, set_e_pv (plain_pv <$> e_pv e) e) (d_exchanges ds)) = []) as ->.
  { clear. induction (d_exchanges ds) as [|e l IH]; [done|]. cbn [map]. cbn. unfold shiftable at 1.
    assert (e_pv (set_e_pv (plain_pv <$> e_pv e) e) = plain_pv <$> e_pv e) as -> by by destruct e.
    destruct (e_pv e) as [v|]; cbn; [|exact IH]. destruct v; cbn. exact IH. }
  rewrite map_map. cbn [imap]. rewrite app_nil_r.
  assert (map (λ x, set_e_pv (plain_pv <$> e_pv (set_e_pv (plain_pv <$> e_pv x) x)) (set_e_pv (plain_pv <$> e_pv x) x)) (d_exchanges ds)
          = d_exchanges ds') as ->; [|by destruct ds'].
  rewrite H1. apply map_ext. intros e. destruct e as [? ? ? ? ? ? ? ? ? pv]. cbn. destruct pv as [[]|]; done.
Qed.
Lemma omap_variable_cons o l : omap o_variable (o :: l) = match o_variable o with Some v => v :: omap o_variable l | None => omap o_variable l end.
Proof. cbn. by destruct (o_variable o). Qed.
Lemma duplicate_variables o o' v l i j : o_variable o = Some v -> o_variable o' = Some v -> v <> ""%string ->
  (i < j)%nat -> l !! i = Some o -> l !! j = Some o' -> ~ NoDup (filter (fun v => v <> ""%string) (omap o_variable l)).
Proof.
  intros Ho Ho' Hv. revert i j. induction l as [|x l IH]; intros i j Hlt Hi Hj; [done|]. destruct j as [|j]; [lia|]. rewrite omap_variable_cons.
  destruct i as [|i].
  - cbn in Hi. injection Hi as ->. rewrite Ho. rewrite filter_cons_True by done. rewrite NoDup_cons. intros [Hn _]. apply Hn.
    apply elem_of_list_filter. split; [done|]. apply elem_of_list_omap. exists o'. split; [|done]. by eapply elem_of_list_lookup_2.
  - cbn in Hi, Hj. specialize (IH i j ltac:(lia) Hi Hj). intros H. apply IH. destruct (o_variable x) as [y|]; [|done].
    rewrite filter_cons in H. case_decide; [|done]. by apply NoDup_cons in H as [_ H].
Qed.
Lemma duplicate_found data ds i j o o' v : ds ∈ data -> all_objs ds !! i = Some o -> all_objs ds !! j = Some o' ->
  i <> j -> o_variable o = Some v -> o_variable o' = Some v -> v <> ""%string ->
  variable_names_are_unique data = Err ParameterizationError.
Proof.
  intros Hds Hi Hj Hij Ho Ho' Hv. destruct (unique_spec data) as (H1 & H2 & H3).
  destruct (variable_names_are_unique data) as [data'|e] eqn:E; [|by rewrite (H2 _ eq_refl)]. exfalso.
  pose proof (H3 _ eq_refl) as ->. apply proj1 in H1. specialize (H1 eq_refl). rewrite Forall_forall in H1. specialize (H1 ds Hds).
  apply Nat.lt_gt_cases in Hij as [Hlt|Hlt].
  - by apply (duplicate_variables o o' v (all_objs ds) i j).
  - by apply (duplicate_variables o' o v (all_objs ds) j i).
Qed.
