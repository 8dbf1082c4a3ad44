(** Proofs for C61: cleaning up. *)
From Verif Require Import Base Types Uncertainty Utils.

Lemma deparameterize_clears ds :
  d_params (deparameterize ds) = [] /\
  Forall (fun e => e_variable e = None /\ e_formula e = None /\ e_props e = [] /\
            forall v, e_pv e = Some v -> v_variable v = None /\ v_formula v = None) (d_exchanges (deparameterize ds)).
Proof.
  split; [done|]. unfold deparameterize. cbn [d_exchanges set_d_exchanges]. apply Forall_map, Forall_forall. intros e _.
  unfold deparameterize_exchange. repeat split; destruct (e_pv e) as [w|]; cbn in H; try done; by injection H as <-.
Qed.
Lemma deparameterize_keeps ds :
  set_d_params (d_params ds) (set_d_exchanges (d_exchanges ds) (deparameterize ds)) = ds /\
  Forall2 (fun e e' =>
    set_e_variable (e_variable e) (set_e_formula (e_formula e) (set_e_props (e_props e) (set_e_pv (e_pv e) e'))) = e /\
    match e_pv e, e_pv e' with
    | Some v, Some v' => set_v_variable (v_variable v) (set_v_formula (v_formula v) v') = v
    | None, None => True
    | _, _ => False
    end) (d_exchanges ds) (d_exchanges (deparameterize ds)).
Proof.
  split; [by destruct ds|]. unfold deparameterize. cbn [d_exchanges set_d_exchanges]. apply Forall2_fmap_r, Forall_Forall2_diag, Forall_forall.
  intros e _. split; [by destruct e|]. unfold deparameterize_exchange. destruct e as [????????? [[]|]]; by cbn.
Qed.
Lemma deparameterize_idempotent ds : deparameterize (deparameterize ds) = deparameterize ds.
Proof.
  unfold deparameterize. cbn [d_exchanges set_d_exchanges d_params set_d_params]. rewrite map_map.
  assert (map (fun e => deparameterize_exchange (deparameterize_exchange e)) (d_exchanges ds)
    = map deparameterize_exchange (d_exchanges ds)) as ->; [|by destruct ds].
  apply map_ext. intros e. destruct e as [????????? [[]|]]; by cbn.
Qed.
Lemma ensure_volume_spec data :
  (ensure_all_datasets_have_production_volume data = Ok data <->
   Forall (fun ds => exists v, production_volume ds = Some v /\ v <> 0%Qc) data) /\
  (forall x, ensure_all_datasets_have_production_volume data = Err x -> x = AssertionError) /\
  (forall data', ensure_all_datasets_have_production_volume data = Ok data' -> data' = data).
Proof.
  unfold ensure_all_datasets_have_production_volume. induction data as [|ds data (IH1 & IH2 & IH3)].
  { split; [|split; [done|by intros d' [=]]]. split; [by constructor|done]. }
  cbn [iterR]. destruct (production_volume ds) as [v|] eqn:Ev; cbn [bind assertR].
  2:{ split; [|by split; [intros x [=]|]]. split; [done|]. intros H. apply Forall_cons in H as [(v & Hv & _) _]. congruence. }
  destruct (Qctruthy v) eqn:Et; cbn [bind assertR].
  - destruct (iterR _ data) as [u|x] eqn:E; cbn [bind] in *.
    + split; [|split; [done|by intros d' [=]]]. split; [|done]. intros _. constructor; [|by apply IH1]. exists v. split; [done|].
      by apply Qctruthy_true.
    + split; [|split; [intros y [= <-]; by apply IH2|done]]. split; [done|]. intros H. apply Forall_cons in H as [_ H].
      apply IH1 in H. done.
  - split; [|by split; [intros x [=]|]]. split; [done|]. intros H. apply Forall_cons in H as [(w & Hw & Hne) _].
    exfalso. rewrite Ev in Hw. injection Hw as <-. apply Qctruthy_true in Hne. congruence.
Qed.
