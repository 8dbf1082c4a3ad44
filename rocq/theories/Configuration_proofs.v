(** Proofs for C76. *)
From stdpp Require Export gmap.
From Verif Require Import Base Types Uncertainty Utils Strings Recalculation Formulas Parameters Validation
  ActivityLinks Cutoff Topology Locations Consequential Pipeline Runner Spec_Runner Runner_proofs Configuration Spec_Configuration.

Definition carry (ts : list task) (data : list dataset) : result (list dataset) :=
  foldR (fun data t => t_run t data) data ts.

Lemma carry_app ts ts' data : carry (ts ++ ts') data = let? data := carry ts data in carry ts' data.
Proof.
  revert data. induction ts as [|t ts IH]; intros data; [done|]. cbn [app]. unfold carry in *. cbn [foldR].
  destruct (t_run t data); [apply IH|done].
Qed.
Lemma carry_cons t ts data : carry (t :: ts) data = let? data := t_run t data in carry ts data.
Proof. done. Qed.
Lemma carry_nil data : carry [] data = Ok data.
Proof. done. Qed.
Lemma carry_reaches ts data out : carry ts data = Ok out <-> reaches ts data out.
Proof.
  split.
  - revert data. induction ts as [|t ts IH]; intros data.
    + intros [= ->]. constructor.
    + rewrite carry_cons. intros (d & Hd & H)%bind_Ok. econstructor; eauto.
  - induction 1 as [|t ts data data1 data2 H _ IH]; [done|]. by rewrite carry_cons, H.
Qed.

Lemma bind_assoc {A B C} (m : result A) (f : A -> result B) (g : B -> result C) :
  bind (bind m f) g = bind m (fun x => bind (f x) g).
Proof. by destruct m. Qed.
Lemma bind_ext {A B} (m : result A) (f g : A -> result B) : (forall x, f x = g x) -> bind m f = bind m g.
Proof. intros H. destruct m; cbn; auto. Qed.
Lemma bind_ret {A} (m : result A) : bind m (fun x => Ok x) = m.
Proof. by destruct m. Qed.

Lemma common_carry w data : carry (common_tasks w) data = common_part w data.
Proof.
  unfold common_tasks, common_part, validate_markets_tasks, fix_ecoinvent_parameters_tasks, pv_cleanup_tasks,
    validate_markets, fix_ecoinvent_parameters, pv_cleanup.
  cbn [app]. rewrite !carry_cons. cbn [t_run]. unfold pure. rewrite ?bind_assoc.
  repeat (first [rewrite !bind_assoc|rewrite carry_cons|rewrite carry_nil|apply bind_ext; intros ?|progress cbn [bind t_run]]; try reflexivity).
Qed.
Ltac in_order := repeat (first [rewrite !bind_assoc|rewrite carry_cons|rewrite carry_nil|apply bind_ext; intros ?
  |progress cbn [bind t_run app]]; try reflexivity).

Lemma allocation_carry w data : carry (cutoff_allocation_tasks w) data = cutoff_allocation (w_ln w) (w_recalc w) data.
Proof.
  unfold cutoff_allocation_tasks, cutoff_allocation. rewrite carry_cons. cbn [t_run]. apply bind_ext; intros d.
  rewrite carry_app. unfold method_names, allocation_functions. cbn [zip_with fst snd foldR].
  unfold pure. in_order.
Qed.
Lemma linking_carry w data : carry (link_markets_by_pv_tasks w) data = link_markets_by_pv (w_md5 w) (w_ln w) (w_ord w) (w_topo w) data.
Proof. unfold link_markets_by_pv_tasks, link_markets_by_pv, pure. in_order. Qed.
Lemma cutoff_carry w data : carry (cutoff_tasks w) data = cutoff_model w data.
Proof.
  unfold cutoff_tasks, cutoff_model, cutoff_linked, cutoff_prepared, cutoff_allocated, cutoff_finished.
  rewrite !carry_app, common_carry, ?bind_assoc. apply bind_ext; intros d1.
  unfold cleanup_activity_links_tasks, cleanup_activity_links, manage_activity_links_tasks, manage_activity_links,
    handle_waste_outputs_tasks, handle_waste_outputs, pure.
  cbn [app]. in_order.
  rewrite !carry_app, allocation_carry, ?bind_assoc. apply bind_ext; intros d7.
  in_order. rewrite !carry_app, linking_carry, ?bind_assoc. apply bind_ext; intros d8. in_order. apply bind_ret.
Qed.
Lemma technology_carry w data : carry (link_markets_by_technology_level_tasks w) data =
  link_markets_by_technology_level (w_md5 w) (w_ln w) (w_ord w) (w_topo w) data.
Proof. unfold link_markets_by_technology_level_tasks, link_markets_by_technology_level, pure. in_order. Qed.
Lemma consequential_carry w data : carry (consequential_tasks w) data = consequential_model w data.
Proof.
  unfold consequential_tasks, consequential_model, consequential_linked, consequential_prepared.
  rewrite !carry_app, common_carry, ?bind_assoc. apply bind_ext; intros d1.
  unfold pure. in_order.
  rewrite !carry_app, technology_carry, ?bind_assoc. apply bind_ext; intros d6. in_order. apply bind_ret.
Qed.

Section run.
Context (clock : nat -> Qc).

Lemma logged_data (r : run dataset) ms : r_data (foldl (fun r m => log clock (Logged m) r) r ms) = r_data r.
Proof. revert r. induction ms as [|m ms IH]; intros r; [done|]. cbn. by rewrite IH. Qed.
Lemma apply_carry save follow r f t : implements f t ->
  fmapR r_data (apply_function clock save follow r f) = t_run t (r_data r).
Proof.
  intros (Hn & _ & Hr). rewrite <- Hr. unfold apply_function, get_function_meta. rewrite Hn. cbn [bind].
  cbn [log r_data]. destruct (f_run f (r_data r)) as [[d ms]|e]; [|done]. cbn [bind fmapR fst]. f_equal.
  cbn [log r_data]. destruct follow as [p|]; unfold save_followed, save_result;
    destruct (save (Z.of_nat (r_next r))); cbn; by repeat case_match.
Qed.
Lemma run_carry save follow r fs ts : Forall2 implements fs ts ->
  fmapR r_data (foldR (apply_transformation clock save follow) r (map Function fs)) = carry ts (r_data r).
Proof.
  intros H. revert r. induction H as [|f t fs ts Hf H IH]; intros r; [done|]. cbn [map foldR]. rewrite carry_cons.
  rewrite <- (apply_carry save follow r f t Hf). cbn [apply_transformation].
  destruct (apply_function clock save follow r f) as [r'|e]; [|done]. cbn [bind fmapR]. apply IH.
Qed.
Lemma implements_named fs ts : Forall2 implements fs ts -> Forall (fun f => f_name f <> None) fs.
Proof. induction 1 as [|f t fs ts (Hf & _) H IH]; constructor; [by rewrite Hf|done]. Qed.
Lemma system_carry dflt b fs ts uuid save follow data : Forall2 implements fs ts -> ts <> [] ->
  fmapR r_data (system_model clock dflt (Iterable b (map Function fs)) uuid (Ok save) follow data) = carry ts data.
Proof.
  intros H Hne. unfold system_model. destruct fs as [|f fs]; [by inversion H; subst|].
  cbn [map]. change (Function f :: map Function fs) with (map Function (f :: fs)).
  assert (validate_configuration (Iterable b (map Function (f :: fs))) = Ok (Iterable b (map Function (f :: fs)))) as ->.
  { apply validate_Ok. rewrite unwrap_flat. by eapply implements_named. }
  cbn [bind items].
  pose proof (run_carry save follow (log clock (ReportStart uuid (length data)) (Run 0 [] [] [] data)) _ _ H) as E.
  cbn [log r_data] in E. rewrite <- E.
  by destruct (foldR (apply_transformation clock save follow) _ _).
Qed.
End run.

(** ** Steps, log and intermediate results *)
Lemma steps_tasks fs ts data tr out : Forall2 implements fs ts -> steps fs data tr out ->
  length tr = length ts /\
  (forall i s, tr !! i = Some s -> exists t, ts !! i = Some t /\ name_of (s_func s) = t_name t /\
     bool_decide (is_Some (f_table (s_func s))) = t_table t /\ reaches (take (S i) ts) data (s_after s)) /\
  reaches ts data out.
Proof.
  intros H Hs. revert ts H. induction Hs as [data|f fs data data1 ms tr data2 Hf _ IH]; intros ts H.
  - inversion H; subst. split; [done|]. split; [done|constructor].
  - inversion H as [|? t ? ts' Hi Hrest]; subst. destruct (IH _ Hrest) as (Hl & Htr & Hr).
    destruct Hi as (Hn & Ht & Hrun).
    assert (t_run t data = Ok data1) as E by (rewrite <- Hrun, Hf; done).
    split; [cbn; by rewrite Hl|]. split; [|by econstructor].
    intros [|i] s Hs.
    + injection Hs as <-. exists t. split; [done|]. cbn. unfold name_of. rewrite Hn. split; [done|]. split; [done|].
      econstructor; [exact E|constructor].
    + destruct (Htr i s Hs) as (t' & ? & ? & ? & ?). exists t'. split; [done|]. split; [done|]. split; [done|].
      cbn [take]. by econstructor.
Qed.

Lemma started_app l l' : started (l ++ l') = started l ++ started l'.
Proof. apply omap_app. Qed.
Lemma stamp_app clock n l l' : stamp clock n (l ++ l') = stamp clock n l ++ stamp clock (n + length l) l'.
Proof.
  revert n. induction l as [|e l IH]; intros n; cbn; [by rewrite Nat.add_0_r|]. rewrite IH. do 3 f_equal. lia.
Qed.
Lemma started_logged clock n ms : started (stamp clock n (map Logged ms)) = [].
Proof. revert n. induction ms as [|m ms IH]; intros n; [done|]. cbn. apply IH. Qed.
Lemma started_events clock n i (tr : list (step dataset)) :
  started (stamp clock n (events i tr)) = imap (fun k s => ((i + k)%nat, name_of (s_func s))) tr.
Proof.
  revert n i. induction tr as [|s tr IH]; intros n i; [done|]. cbn [events]. rewrite stamp_app, started_app, IH.
  unfold step_events. cbn [stamp]. change (started ((FunctionStart (meta_of (s_func s)) i (length (s_before s)), clock n) ::
    stamp clock (S n) (map Logged (s_messages s) ++ [FunctionEnd (meta_of (s_func s)) i (length (s_after s))])))
    with ((i, name_of (s_func s)) :: started (stamp clock (S n) (map Logged (s_messages s) ++
      [FunctionEnd (meta_of (s_func s)) i (length (s_after s))]))).
  rewrite stamp_app, started_app, started_logged. cbn [app stamp]. cbn [imap].
  change (started [(FunctionEnd _ _ _, _)]) with (@nil (nat * string)). cbn [app]. f_equal; [by rewrite Nat.add_0_r|].
  apply imap_ext. intros k s' _. cbn. by rewrite Nat.add_succ_r.
Qed.
Lemma saved_elem save i (tr : list (step dataset)) k n d :
  (Some (k, n), d) ∈ saved save i tr ->
  exists j s, k = (i + j)%nat /\ tr !! j = Some s /\ n = name_of (s_func s) /\ d = s_after s /\ save (Z.of_nat k) = true.
Proof.
  revert i. induction tr as [|s tr IH]; intros i; [by intros ?%elem_of_nil|]. cbn [saved].
  intros [H|H]%elem_of_app.
  - destruct (save (Z.of_nat i)) eqn:E; [|by apply elem_of_nil in H]. apply elem_of_list_singleton in H as [= -> -> ->].
    exists 0%nat, s. rewrite Nat.add_0_r. done.
  - destruct (IH _ H) as (j & s' & -> & ? & ? & ? & E). exists (S j), s'. rewrite Nat.add_succ_r. done.
Qed.
Lemma saved_all save i (tr : list (step dataset)) j s : tr !! j = Some s -> save (Z.of_nat (i + j)) = true ->
  (Some ((i + j)%nat, name_of (s_func s)), s_after s) ∈ saved save i tr.
Proof.
  revert i j. induction tr as [|s' tr IH]; intros i [|j] H E; try done; cbn [saved]; apply elem_of_app.
  - injection H as ->. rewrite Nat.add_0_r in *. rewrite E. left. by apply elem_of_list_singleton.
  - right. rewrite Nat.add_succ_r in *. by apply (IH (S i) j).
Qed.
Lemma saved_not_final save i (tr : list (step dataset)) d : (None, d) ∉ saved save i tr.
Proof.
  revert i. induction tr as [|s tr IH]; intros i; [apply not_elem_of_nil|]. cbn [saved].
  intros [H|H]%elem_of_app; [|by eapply IH]. destruct (save _); [|by apply elem_of_nil in H].
  by apply elem_of_list_singleton in H.
Qed.

Lemma run_spec clock dflt b fs ts uuid save follow data r : Forall2 implements fs ts -> ts <> [] ->
  system_model clock dflt (Iterable b (map Function fs)) uuid (Ok save) follow data = Ok r ->
  started (r_log r) = imap (fun i t => (i, t_name t)) ts /\
  (forall i n d, (Some (i, n), d) ∈ r_saved r <->
     exists t, ts !! i = Some t /\ n = t_name t /\ save (Z.of_nat i) = true /\ reaches (take (S i) ts) data d) /\
  (forall d, (None, d) ∈ r_saved r <-> d = r_data r).
Proof.
  intros H Hne Hr. assert (fs <> []) as Hf by (intros ->; inversion H; by subst).
  apply system_model_flat in Hr as (_ & tr & out & Hs & Hlog & _ & Hsav & _ & Hd); [|done].
  destruct (steps_tasks _ _ _ _ _ H Hs) as (Hl & Htr & _).
  assert (forall i t, ts !! i = Some t -> exists s, tr !! i = Some s) as Hback.
  { intros i t Ht. apply lookup_lt_is_Some. rewrite Hl. by apply lookup_lt_Some in Ht. }
  split.
  - rewrite Hlog. cbn [stamp]. change (started ((ReportStart uuid (length data), clock 0%nat) :: ?l)) with (started l).
    rewrite stamp_app, started_app, started_events. cbn [stamp]. change (started [(ReportEnd, _)]) with (@nil (nat * string)).
    rewrite app_nil_r. apply list_eq. intros i. rewrite !list_lookup_imap.
    destruct (tr !! i) as [s|] eqn:E.
    + destruct (Htr i s E) as (t & -> & Hn & _). cbn. by rewrite Hn.
    + apply lookup_ge_None in E. rewrite Hl in E. apply lookup_ge_None in E. by rewrite E.
  - rewrite Hsav. split.
    + intros i n d. rewrite elem_of_app, elem_of_list_singleton. split.
      * intros [(j & s & -> & Hj & -> & -> & E)%saved_elem|?]; [|done]. destruct (Htr j s Hj) as (t & ? & ? & ? & ?).
        cbn [Nat.add] in *. exists t. done.
      * intros (t & Ht & -> & E & Hreach). left. destruct (Hback _ _ Ht) as (s & Hs'). destruct (Htr i s Hs') as (t' & Ht' & Hn & _ & Hr').
        rewrite Ht in Ht'. injection Ht' as <-. rewrite <- Hn.
        apply carry_reaches in Hreach, Hr'. rewrite Hreach in Hr'. injection Hr' as ->.
        apply (saved_all save 0 tr i s Hs' E).
    + intros d. rewrite elem_of_app, elem_of_list_singleton, Hd. split.
      * intros [H'|H']; [by apply saved_not_final in H'|by injection H'].
      * intros ->. by right.
Qed.

(** The report of a run of a configuration whose messages fit the tables. *)
Lemma steps_fit (fs : list (func dataset)) data tr out : steps fs data tr out ->
  (forall (f : func dataset) d d' ms, f ∈ fs -> f_run f d = Ok (d', ms) -> Forall (message_fits f) ms) ->
  Forall (fun s => Forall (message_fits (s_func s)) (s_messages s)) tr.
Proof.
  induction 1 as [|f fs data data1 ms tr data2 Hf _ IH]; intros H; constructor.
  - cbn. eapply H; [|exact Hf]. left.
  - apply IH. intros g d d' ms' Hg. apply H. by right.
Qed.
Lemma report_spec clock dflt b fs ts uuid save follow data r : Forall2 implements fs ts -> ts <> [] ->
  (forall (f : func dataset) d d' ms, f ∈ fs -> f_run f d = Ok (d', ms) -> Forall (message_fits f) ms) ->
  system_model clock dflt (Iterable b (map Function fs)) uuid (Ok save) follow data = Ok r ->
  exists rep, read_log (r_log r) = Ok rep /\
    rep_counts rep !! 0%nat = Some ("Start"%string, length data) /\
    length (rep_counts rep) = S (length ts) /\
    (forall i t, ts !! i = Some t -> exists d, reaches (take (S i) ts) data d /\
       rep_counts rep !! S i = Some (t_name t, length d)).
Proof.
  intros H Hne Hfit Hr. assert (fs <> []) as Hf by (intros ->; inversion H; by subst).
  apply system_model_flat in Hr as (_ & tr & out & Hs & Hlog & _ & _ & _ & _); [|done].
  destruct (steps_tasks _ _ _ _ _ H Hs) as (Hl & Htr & _).
  rewrite Hlog. eexists. split; [apply report_run; by eapply steps_fit|]. cbn [rep_counts].
  split; [done|]. split; [cbn; by rewrite map_length, Hl|].
  intros i t Ht. assert (is_Some (tr !! i)) as (s & Hs').
  { apply lookup_lt_is_Some. rewrite Hl. by apply lookup_lt_Some in Ht. }
  destruct (Htr i s Hs') as (t' & Ht' & Hn & _ & Hr). rewrite Ht in Ht'. injection Ht' as <-.
  exists (s_after s). split; [done|]. cbn [lookup list_lookup].
  change (map (fun s : step dataset => (name_of (s_func s), length (s_after s))) tr)
    with ((fun s : step dataset => (name_of (s_func s), length (s_after s))) <$> tr).
  etransitivity; [apply list_lookup_fmap|]. rewrite Hs'. cbn. by rewrite Hn.
Qed.

(** The names of the configurations. *)
Lemma configuration_named cutoff row consequential n c : configuration cutoff row consequential (Named n) = Some c <->
  ((n = "" \/ n = "cutoff") /\ c = cutoff \/ n = "cutoff_ecoinvent_row" /\ c = row \/ n = "consequential" /\ c = consequential)%string.
Proof.
  unfold configuration. case_bool_decide as H; [subst; naive_solver|]. cbn [List.find fst snd].
  destruct (String.eqb_spec "cutoff" n) as [<-|H1]; [naive_solver|].
  destruct (String.eqb_spec "cutoff_ecoinvent_row" n) as [<-|H2]; [naive_solver|].
  destruct (String.eqb_spec "consequential" n) as [<-|H3]; [naive_solver|]. cbn. naive_solver.
Qed.

(** Duplicate ids are found before anything else is done. *)
Lemma common_duplicates w ts data : ensure_ids_are_unique data = Err IdenticalDatasets ->
  carry (common_tasks w ++ ts) data = Err IdenticalDatasets.
Proof. intros H. unfold common_tasks. cbn [app]. rewrite carry_cons. cbn [t_run]. by rewrite H. Qed.

(** Functions that do what the tasks do and say nothing. *)
Definition silent (t : task) : func dataset :=
  Func (Some (t_name t)) None (if t_table t then Some ""%string else None) (fun d => let? d := t_run t d in Ok (d, [])).
Lemma silent_implements ts : Forall2 implements (map silent ts) ts.
Proof.
  induction ts as [|t ts IH]; constructor; [|done]. split; [done|]. split; [by cbn; destruct (t_table t)|].
  intros data. cbn. by destruct (t_run t data).
Qed.
