(** C61: cleaning up parameters and checking production volumes. *)
From Verif Require Import Base Types Uncertainty Utils Cleanup_proofs.

(** ** C61 *)

Theorem C61_cleared : forall ds,
  d_params (deparameterize ds) = [] /\
  Forall (fun e => e_variable e = None /\ e_formula e = None /\ e_props e = [] /\
            forall v, e_pv e = Some v -> v_variable v = None /\ v_formula v = None) (d_exchanges (deparameterize ds)).
Proof. exact deparameterize_clears. Qed.
Print Assumptions C61_cleared.

Theorem C61_kept : forall ds,
  set_d_params (d_params ds) (set_d_exchanges (d_exchanges ds) (deparameterize ds)) = ds /\
  Forall2 (fun e e' =>
    set_e_variable (e_variable e) (set_e_formula (e_formula e) (set_e_props (e_props e) (set_e_pv (e_pv e) e'))) = e /\
    match e_pv e, e_pv e' with
    | Some v, Some v' => set_v_variable (v_variable v) (set_v_formula (v_formula v) v') = v
    | None, None => True
    | _, _ => False
    end) (d_exchanges ds) (d_exchanges (deparameterize ds)).
Proof. exact deparameterize_keeps. Qed.
Print Assumptions C61_kept.

Theorem C61_idempotent : forall ds, deparameterize (deparameterize ds) = deparameterize ds.
Proof. exact deparameterize_idempotent. Qed.
Print Assumptions C61_idempotent.

Theorem C61_volumes : forall data,
  (ensure_all_datasets_have_production_volume data = Ok data <->
   Forall (fun ds => exists v, production_volume ds = Some v /\ v <> 0%Qc) data) /\
  (forall x, ensure_all_datasets_have_production_volume data = Err x -> x = AssertionError) /\
  (forall data', ensure_all_datasets_have_production_volume data = Ok data' -> data' = data).
Proof. exact ensure_volume_spec. Qed.
Print Assumptions C61_volumes.

Definition ex_parameterized : dataset :=
  set_d_params [param0]
    (set_d_exchanges
       [set_e_variable (Some "x"%string) (set_e_formula (Some "y*2"%string) (set_e_props [prop0]
          (set_e_type RefProduct (set_e_amount 1%Qc
             (set_e_pv (Some (set_v_amount (- (1))%Qc (set_v_formula (Some "x"%string) pvol0))) exchange0)))))]
       dataset0).
Example C61_nonvacuous :
  deparameterize ex_parameterized <> ex_parameterized /\
  ensure_all_datasets_have_production_volume [ex_parameterized] = Ok [ex_parameterized] /\
  ensure_all_datasets_have_production_volume [ex_parameterized; dataset0] = Err AssertionError.
Proof. split; [discriminate|]. split; vm_compute; reflexivity. Qed.
