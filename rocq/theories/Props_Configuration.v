(** Properties of the configurations as run by the system model (C76). *)
From stdpp Require Import gmap.
From Verif Require Import Base Types Uncertainty Utils Locations Consequential Pipeline Runner Spec_Runner Runner_proofs
  Configuration Spec_Configuration Configuration_proofs Validation_proofs Props_Pipeline.

(** ** C76 The named configurations

    [l] is what a configuration is made of: functions and collections of functions.  All
    that is known of the functions is what [implements] says. *)

Theorem C76_cutoff : forall clock dflt w l uuid save follow data, Forall2 implements (unwrap_functions l) (cutoff_tasks w) ->
  fmapR r_data (system_model clock dflt (collection l) uuid (Ok save) follow data) = cutoff_model w data.
Proof.
  intros clock dflt w l uuid save follow data H. rewrite <- cutoff_carry.
  by apply (system_carry clock dflt true (unwrap_functions l)).
Qed.
Print Assumptions C76_cutoff.
Theorem C76_consequential : forall clock dflt w l uuid save follow data,
  Forall2 implements (unwrap_functions l) (consequential_tasks w) ->
  fmapR r_data (system_model clock dflt (collection l) uuid (Ok save) follow data) = consequential_model w data.
Proof.
  intros clock dflt w l uuid save follow data H. rewrite <- consequential_carry.
  by apply (system_carry clock dflt true (unwrap_functions l)).
Qed.
Print Assumptions C76_consequential.

(** Every function is started once, in order, and what is saved are the states of the
    data between the functions. *)
Theorem C76_steps : forall clock dflt ts l uuid save follow data r, ts <> [] -> Forall2 implements (unwrap_functions l) ts ->
  system_model clock dflt (collection l) uuid (Ok save) follow data = Ok r ->
  reaches ts data (r_data r) /\
  started (r_log r) = imap (fun i t => (i, t_name t)) ts /\
  (forall i n d, (Some (i, n), d) ∈ r_saved r <->
     exists t, ts !! i = Some t /\ n = t_name t /\ save (Z.of_nat i) = true /\ reaches (take (S i) ts) data d) /\
  (forall d, (None, d) ∈ r_saved r <-> d = r_data r).
Proof.
  intros clock dflt ts l uuid save follow data r Hne H Hr. split; [|by eapply (run_spec clock dflt true)].
  apply carry_reaches. rewrite <- (system_carry clock dflt true _ _ uuid save follow data H Hne).
  change (Iterable true (map Function (unwrap_functions l))) with (collection l). by rewrite Hr.
Qed.
Print Assumptions C76_steps.

(** Their names, in order, and which of them have a table. *)
Theorem C76_names : forall w,
  map (fun t => (t_name t, t_table t)) (cutoff_tasks w) = cutoff_names /\
  map (fun t => (t_name t, t_table t)) (consequential_tasks w) = consequential_names.
Proof. intros w. split; reflexivity. Qed.
Print Assumptions C76_names.

(** The report can be made, and counts the datasets after each function. *)
Theorem C76_report : forall clock dflt ts l uuid save follow data r, ts <> [] -> Forall2 implements (unwrap_functions l) ts ->
  (forall (f : func dataset) d d' ms, f ∈ unwrap_functions l -> f_run f d = Ok (d', ms) -> Forall (message_fits f) ms) ->
  system_model clock dflt (collection l) uuid (Ok save) follow data = Ok r ->
  exists rep, read_log (r_log r) = Ok rep /\
    rep_counts rep !! 0%nat = Some ("Start"%string, length data) /\
    length (rep_counts rep) = S (length ts) /\
    (forall i t, ts !! i = Some t -> exists d, reaches (take (S i) ts) data d /\
       rep_counts rep !! S i = Some (t_name t, length d)).
Proof. intros clock dflt ts l uuid save follow data r Hne H Hfit Hr. by eapply (report_spec clock dflt true). Qed.
Print Assumptions C76_report.

(** Which configuration is run.  Other names give no error message but RecursionError. *)
Theorem C76_named : forall cutoff row consequential,
  configuration cutoff row consequential NoChoice = Some cutoff /\
  forall n c, configuration cutoff row consequential (Named n) = Some c <->
    ((n = "" \/ n = "cutoff") /\ c = cutoff \/ n = "cutoff_ecoinvent_row" /\ c = row \/
     n = "consequential" /\ c = consequential)%string.
Proof. intros cutoff row consequential. split; [done|]. intros n c. apply configuration_named. Qed.
Print Assumptions C76_named.

(** Both configurations refuse databases in which an id is used twice, whatever else
    there is in them. *)
Theorem C76_duplicates : forall clock dflt w l uuid save follow data,
  Forall2 implements (unwrap_functions l) (cutoff_tasks w) \/ Forall2 implements (unwrap_functions l) (consequential_tasks w) ->
  ~ NoDup (map d_id data) ->
  system_model clock dflt (collection l) uuid (Ok save) follow data = Err IdenticalDatasets.
Proof.
  intros clock dflt w l uuid save follow data H Hd. apply (proj2 (ensure_ids_spec data)) in Hd.
  assert (fmapR r_data (system_model clock dflt (collection l) uuid (Ok save) follow data) = Err IdenticalDatasets) as E.
  { destruct H as [H|H]; unfold collection; rewrite (system_carry clock dflt true _ _ uuid save follow data H);
      try done; unfold cutoff_tasks, consequential_tasks; by apply common_duplicates. }
  destruct (system_model _ _ _ _ _ _ _) as [r|e]; [done|]. by injection E as ->.
Qed.
Print Assumptions C76_duplicates.

(** Functions that implement the tasks, some of them in a collection. *)
Definition ex_config (ts : list task) : list (item dataset) :=
  [Iterable true (map Function (map silent (take 4 ts))); Iterable false (map Function (map silent (drop 4 ts)))].
Lemma ex_config_unwrap ts : unwrap_functions (ex_config ts) = map silent ts.
Proof.
  unfold ex_config. change (unwrap_functions (map Function (map silent (take 4 ts))) ++
    unwrap_functions (map Function (map silent (drop 4 ts))) ++ [] = map silent ts).
  rewrite !unwrap_flat, app_nil_r, <- map_app. by rewrite take_drop.
Qed.
Example C76_nonvacuous : Forall2 implements (unwrap_functions (ex_config (cutoff_tasks ex_w))) (cutoff_tasks ex_w) /\
  Forall2 implements (unwrap_functions (ex_config (consequential_tasks ex_w))) (consequential_tasks ex_w) /\
  length (cutoff_tasks ex_w) = 63%nat /\ length (consequential_tasks ex_w) = 37%nat.
Proof. rewrite !ex_config_unwrap. split; [apply silent_implements|]. split; [apply silent_implements|]. done. Qed.
Definition ex_run (ts : list task) (save : Z -> bool) (data : list dataset) : result (run dataset) :=
  system_model (fun n => Qcint (Z.of_nat n)) (Iterable true []) (collection (ex_config ts)) "x" (Ok save) None data.
Example C76_run :
  fmapR (fun r => (map (fun x => x.1) (r_saved r), ex_shown (Ok (r_data r))))
    (ex_run (cutoff_tasks ex_w) (fun i => Z.eqb (Z.modulo i 20) 0) ex_treated) =
  Ok ([Some (0%nat, "ensure_ids_are_unique"); Some (20%nat, "fix_35_activity_links");
       Some (40%nat, "assign_fake_pv_to_confidential_datasets");
       Some (60%nat, "flip_non_allocatable_byproducts"); None]%string, Ok ex_cutoff_result).
Proof. by_compute. Qed.
Example C76_counts :
  fmapR (fun rep => (length (rep_counts rep), rep_counts rep !! 0%nat, last (rep_counts rep)))
    (let? r := ex_run (consequential_tasks ex_w) (fun _ => false) ex_boiler in read_log (r_log r)) =
  Ok (38%nat, Some ("Start"%string, 4%nat), Some ("normalize_reference_production_amount"%string, 4%nat)).
Proof. by_compute. Qed.
Example C76_refused : ~ NoDup (map d_id (ex_boiler ++ ex_boiler)) /\
  fmapR r_data (ex_run (consequential_tasks ex_w) (fun _ => false) (ex_boiler ++ ex_boiler)) = Err IdenticalDatasets.
Proof. split; by_compute. Qed.
