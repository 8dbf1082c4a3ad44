(** C46, C48, C49: passes over the parameters of datasets. *)
From Coq Require Import Ascii.
From Verif Require Import Base Types Uncertainty Utils Strings Recalculation Formulas Parameters Spec_Parameters Parameters_proofs.

(** ** C46 *)

Theorem C46_lowered : forall data, exists data', lowercase_all_parameters data = Ok data' /\
  Forall2 (renamed (fun o o' => o_variable o' = lower <$> o_variable o /\ o_formula o' = lower <$> o_formula o)) data data'.
Proof. exact lowercase_spec. Qed.
Print Assumptions C46_lowered.

Theorem C46_idempotent : forall data data',
  lowercase_all_parameters data = Ok data' -> lowercase_all_parameters data' = Ok data'.
Proof. exact lowercase_idempotent. Qed.
Print Assumptions C46_idempotent.

(** Names become equal exactly if they differed in case only. *)
Theorem C46_names : forall s t, lower s = lower t <-> same_letters s t.
Proof. exact lower_same_letters. Qed.
Print Assumptions C46_names.

(** What was mentioned in a formula is still mentioned. *)
Theorem C46_mentions : forall v f, str_contains v f = true -> str_contains (lower v) (lower f) = true.
Proof. exact lower_contains. Qed.
Print Assumptions C46_mentions.

Definition ex_cement : dataset :=
  set_d_params [set_q_variable (Some "Clinker_PV"%string) param0]
    (set_d_exchanges
       [set_e_variable (Some "clinker_pv"%string) (set_e_formula (Some "2*Clinker_PV"%string)
          (set_e_pv (Some (set_v_variable (Some "APV"%string) (set_v_formula (Some "Clinker_PV"%string) pvol0))) exchange0))] dataset0).
Example ex_lowered : fmapR (map (fun ds => map (fun o => (o_variable o, o_formula o)) (all_objs ds))) (lowercase_all_parameters [ex_cement]) =
  Ok [[(Some "clinker_pv", Some "2*clinker_pv"); (Some "apv", Some "clinker_pv"); (Some "clinker_pv", None)]]%string.
Proof. by_compute. Qed.
Example ex_same_letters : same_letters "Clinker_PV" "clinker_pv" /\ ~ same_letters "Clinker_PV" "clinker-pv".
Proof. rewrite <- !lower_same_letters. by_compute. Qed.

(** The check of unique names runs before, so two variables that differ in case pass it
    and then carry the same name. *)
Theorem C46_collision_refuted : exists ds ds', variable_names_are_unique [ds] = Ok [ds] /\
  lowercase_all_parameters [ds] = Ok [ds'] /\ variable_names_are_unique [ds'] = Err ParameterizationError.
Proof. exists ex_cement. eexists. split; [vm_compute; reflexivity|]. split; vm_compute; reflexivity. Qed.
Print Assumptions C46_collision_refuted.

(** ** C48 *)

Theorem C48_unique : forall data,
  (variable_names_are_unique data = Ok data <-> Forall (fun ds => NoDup (variables ds)) data) /\
  (forall e, variable_names_are_unique data = Err e -> e = ParameterizationError) /\
  (forall data', variable_names_are_unique data = Ok data' -> data' = data).
Proof. exact unique_spec. Qed.
Print Assumptions C48_unique.

(** Two objects with the same name, wherever they are. *)
Theorem C48_duplicate : forall data ds i j o o' v, ds ∈ data -> all_objs ds !! i = Some o -> all_objs ds !! j = Some o' ->
  i <> j -> o_variable o = Some v -> o_variable o' = Some v -> v <> ""%string ->
  variable_names_are_unique data = Err ParameterizationError.
Proof. exact duplicate_found. Qed.
Print Assumptions C48_duplicate.

Example ex_unique : variable_names_are_unique [ex_cement] = Ok [ex_cement].
Proof. by vm_compute. Qed.
Example ex_variables : variables ex_cement = ["clinker_pv"; "APV"; "Clinker_PV"]%string.
Proof. by_compute. Qed.
Definition ex_twice : dataset := set_d_params [set_q_variable (Some "APV"%string) param0] ex_cement.
Example ex_not_unique : variable_names_are_unique [dataset0; ex_twice] = Err ParameterizationError.
Proof. by vm_compute. Qed.

(** ** C49 *)

(** Production volumes lose variable and formula, everything else in exchanges stays. *)
Theorem C49_volumes : forall fresh ds,
  set_d_params (d_params ds) (set_d_exchanges (d_exchanges ds) (create_pv_parameters fresh ds)) = ds /\
  Forall2 (fun e e' =>
    set_e_pv (e_pv e) e' = e /\
    match e_pv e, e_pv e' with
    | Some v, Some v' => v_variable v' = None /\ v_formula v' = None /\
                         set_v_variable (v_variable v) (set_v_formula (v_formula v) v') = v
    | None, None => True
    | _, _ => False
    end) (d_exchanges ds) (d_exchanges (create_pv_parameters fresh ds)).
Proof. exact create_pv_kept. Qed.
Print Assumptions C49_volumes.

(** One new parameter for each of their variables, after the existing parameters. *)
Theorem C49_parameters : forall fresh ds, exists news,
  d_params (create_pv_parameters fresh ds) = d_params ds ++ news /\
  Forall2 (fun (x : exchange * pvol * string) q =>
      q_variable q = Some x.2 /\ q_formula q = v_formula x.1.2 /\ q_amount q = v_amount x.1.2 /\
      q_unit q = Some (e_unit x.1.1) /\ q_name q = Some ("Shifted PV parameter: " ++ x.2)%string /\ q_unc q = None)
    (omap (fun e => v ← e_pv e; n ← v_variable v; Some (e, v, n)) (d_exchanges ds)) news /\
  map q_id news = map (fun i => Some (fresh i)) (seq 0 (length news)).
Proof. exact create_pv_new. Qed.
Print Assumptions C49_parameters.

(** Every name is still defined as often as before, with the same formula and amount. *)
Theorem C49_definitions : forall fresh ds,
  omap named_of (all_objs (create_pv_parameters fresh ds)) ≡ₚ omap named_of (all_objs ds) /\
  variables (create_pv_parameters fresh ds) ≡ₚ variables ds.
Proof. intros fresh ds. split; [apply create_pv_named|apply create_pv_variables]. Qed.
Print Assumptions C49_definitions.

(** So recalculation sees the same named parameters. *)
Theorem C49_environment : forall fresh ds, NoDup (omap o_variable (all_objs ds)) ->
  extract_named_parameters (create_pv_parameters fresh ds) = extract_named_parameters ds.
Proof. exact create_pv_environment. Qed.
Print Assumptions C49_environment.

Theorem C49_idempotent : forall fresh fresh' ds,
  create_pv_parameters fresh' (create_pv_parameters fresh ds) = create_pv_parameters fresh ds.
Proof. exact create_pv_idempotent. Qed.
Print Assumptions C49_idempotent.

Definition ex_fresh (n : nat) : string := String (Ascii.ascii_of_nat (97 + n)) "".
Example ex_shifted : map (fun o => (o_variable o, o_formula o)) (all_objs (create_pv_parameters ex_fresh ex_cement)) =
  [(Some "clinker_pv", Some "2*Clinker_PV"); (None, None); (Some "Clinker_PV", None); (Some "APV", Some "Clinker_PV")]%string.
Proof. by_compute. Qed.
Example ex_shifted_id : map q_id (d_params (create_pv_parameters ex_fresh ex_cement)) = [None; Some "a"%string].
Proof. by_compute. Qed.
Example ex_environment : NoDup (omap o_variable (all_objs ex_cement)).
Proof. apply (bool_decide_unpack _). by vm_compute. Qed.

(** The uncertainty is not moved to the parameter. *)
Theorem C49_uncertainty_refuted : exists ds v u, e_pv <$> d_exchanges ds = [Some v] /\ v_unc v = Some u /\
  forall fresh, map q_unc (d_params (create_pv_parameters fresh ds)) = [None] /\
    (e_pv <$> d_exchanges (create_pv_parameters fresh ds)) = [Some (set_v_variable None v)].
Proof.
  exists (set_d_exchanges [set_e_pv (Some (set_v_variable (Some "x"%string) (set_v_unc (Some uncert0) pvol0))) exchange0] dataset0).
  eexists _, _. split; [reflexivity|]. split; [reflexivity|]. intros fresh. split; reflexivity.
Qed.
Print Assumptions C49_uncertainty_refuted.
