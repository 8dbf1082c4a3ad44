(** Properties of whole system models (C63-C66): what the configurations make of a
    database, from extracted data to the result of a run. *)
From stdpp Require Import gmap.
From Verif Require Import Base Types Uncertainty Spec_Uncertainty Utils Spec_Utils Topology Cutoff Locations Consequential
  Recalculation Spec_Recalculation Parameters Spec_Waste Spec_Combined Spec_Codes Brightway Pipeline Spec_Pipeline Pipeline_proofs
  Props_Uncertainty Props_Topology Props_Locations Props_Cutoff Props_Untouched.

Definition ex_w : world := mkWorld ex_ln (frac 271828 100000) (fun s => Ok s) ["and"; "in"]%string (fun _ => true)
  (fun i j => ("pv" ++ String (Ascii.ascii_of_nat (97 + i)) (String (Ascii.ascii_of_nat (97 + j)) ""))%string)
  (fun m => Ok (map fst (map_to_list m))) (fun _ _ => Ok (Qcint 1)) ex_md5 (fun s => elements s) Props_Topology.ex_world.
Definition ex_made (v : Z) (e : exchange) : exchange :=
  set_e_unit "kg"%string (set_e_pv (Some (set_v_amount (Qcint v) pvol0)) e).
Definition ex_raw (i n loc : string) (ty : dtype) (es : list exchange) : dataset :=
  set_d_id i (set_d_name n (set_d_location loc (set_d_type ty (set_d_tech "current" (set_d_exchanges es dataset0))))).
Definition ex_air (i n : string) (t : etype) (a : Z) : exchange :=
  set_e_compartment (Some "air"%string) (set_e_subcompartment (Some "low"%string) (ex_flow i n t a)).
(** Steel is made together with heat and slag, and used for cars. *)
Definition ex_steel : list dataset :=
  [ex_raw "1" "steelmaking" "FR" Transforming
     [ex_made 30 (ex_product "s1" "steel" RefProduct 2 10); ex_made 5 (ex_product "s2" "heat" Byproduct 4 5);
      set_e_class (Some Waste) (ex_made 5 (ex_flow "s3" "slag" Byproduct 1)); ex_air "s4" "carbon dioxide" ToEnvironment 6];
   ex_raw "2" "market for steel" "FR" MarketActivity [ex_made 0 (ex_product "m1" "steel" RefProduct 1 10)];
   ex_raw "3" "carmaking" "FR" Transforming
     [ex_made 1 (ex_product "c1" "car" RefProduct 1 10); ex_flow "c2" "steel" FromTechnosphere 3]]%string.
Definition ex_treated : list dataset := ex_steel ++
  [ex_raw "4" "slag treatment" "FR" Transforming
     [ex_made 4 (set_e_class (Some Waste) (ex_flow "t1" "slag" RefProduct (-1)))];
   ex_raw "5" "market for slag" "FR" MarketActivity
     [ex_made 0 (set_e_class (Some Waste) (ex_flow "w1" "slag" RefProduct (-1)))]]%string.
(** The same without slag and with heat from elsewhere. *)
Definition ex_boiler : list dataset :=
  map (fun d => set_d_exchanges (filterb (fun e => negb (e_name e =? "slag")%string) (d_exchanges d)) d) ex_steel ++
  [ex_raw "6" "heating" "FR" Transforming
     [ex_made 4 (ex_product "h1" "heat" RefProduct 2 1); ex_flow "h2" "steel" FromTechnosphere 1;
      ex_air "h3" "methane" FromEnvironment 1]]%string.
Definition ex_shown (r : result (list dataset))
  : result (list (option string * option string * list (string * etype * Qc * option string))) :=
  fmapR (map (fun d => (d_code d, d_refprod d,
    map (fun e => (e_name e, e_type e, e_amount e, e_code e)) (d_exchanges d)))) r.
Definition ex_cutoff_result : list (option string * option string * list (string * etype * Qc * option string)) :=
  [(Some "xsteelmakingsteelfr", Some "steel",
     [("steel", RefProduct, 1%Qc, Some "xsteelmakingsteelfr"); ("heat", DroppedProduct, 0%Qc, None);
      ("slag", FromTechnosphere, frac (-1) 4, None); ("carbon dioxide", ToEnvironment, frac 3 2, None)]);
   (Some "xsteelmakingheatfr", Some "heat",
     [("heat", RefProduct, 1%Qc, Some "xsteelmakingheatfr"); ("steel", DroppedProduct, 0%Qc, None);
      ("slag", FromTechnosphere, frac (-1) 8, None); ("carbon dioxide", ToEnvironment, frac 3 4, None)]);
   (Some "xmarket for steelsteelfr", Some "steel",
     [("steel", RefProduct, 1%Qc, Some "xmarket for steelsteelfr");
      ("steel", FromTechnosphere, 1%Qc, Some "xsteelmakingsteelfr")]);
   (Some "xcarmakingcarfr", Some "car",
     [("car", RefProduct, 1%Qc, Some "xcarmakingcarfr");
      ("steel", FromTechnosphere, Qcint 3, Some "xmarket for steelsteelfr")]);
   (Some "xslag treatmentslagfr", Some "slag",
     [("slag", RefProduct, Qcint (-1), Some "xslag treatmentslagfr")]);
   (Some "xmarket for slagslagfr", Some "slag",
     [("slag", RefProduct, Qcint (-1), Some "xmarket for slagslagfr");
      ("slag", FromTechnosphere, Qcint (-1), Some "xslag treatmentslagfr")])]%string.
Definition ex_consequential_result : list (option string * option string * list (string * etype * Qc * option string)) :=
  [(Some "xsteelmakingsteelfr", Some "steel",
     [("steel", RefProduct, 1%Qc, None); ("heat", Byproduct, Qcint 2, None); ("carbon dioxide", ToEnvironment, Qcint 3, None)]);
   (Some "xmarket for steelsteelfr", Some "steel",
     [("steel", RefProduct, 1%Qc, None); ("steel", FromTechnosphere, 1%Qc, Some "xsteelmakingsteelfr")]);
   (Some "xcarmakingcarfr", Some "car",
     [("car", RefProduct, 1%Qc, None); ("steel", FromTechnosphere, Qcint 3, Some "xmarket for steelsteelfr")]);
   (Some "xheatingheatfr", Some "heat",
     [("heat", RefProduct, 1%Qc, None); ("steel", FromTechnosphere, frac 1 2, Some "xmarket for steelsteelfr");
      ("methane", FromEnvironment, frac 1 2, None)])]%string.

(** ** C63 What a result looks like *)

Theorem C63_cutoff : forall w data out, cutoff_model w data = Ok out -> Forall finished_dataset out.
Proof. exact cutoff_finished_data. Qed.
Print Assumptions C63_cutoff.

Theorem C63_consequential : forall w data out, consequential_model w data = Ok out ->
  Forall (fun ds => exists rp, filter is_refproduct (d_exchanges ds) = [rp] /\ unit_amount (e_amount rp)) out.
Proof. exact consequential_unit. Qed.
Print Assumptions C63_consequential.

Example C63_nonvacuous :
  ex_shown (cutoff_model ex_w ex_treated) = Ok ex_cutoff_result /\
  ex_shown (consequential_model ex_w ex_boiler) = Ok ex_consequential_result.
Proof. split; by_compute. Qed.

(** ** C64 Codes *)

Theorem C64_cutoff : forall w data out, raw data -> cutoff_model w data = Ok out ->
  NoDup (map d_code out) /\
  Forall (fun ds => is_Some (d_code ds) /\ exists rp, filter is_refproduct (d_exchanges ds) = [rp] /\
                      d_refprod ds = Some (e_name rp)) out /\
  forall ds e c, ds ∈ out -> e ∈ d_exchanges ds -> e_code e = Some c ->
    (exists p, p ∈ out /\ producer c (e_name e) p) \/
    (exists prepared allocated coded p, cutoff_prepared w data = Ok prepared /\ cutoff_allocated w prepared = Ok allocated /\
       numbered (w_md5 w) allocated = Ok coded /\ p ∈ coded /\ d_code p = Some c /\
       d_location p = "RoW"%string /\ (d_type p = Transforming \/ d_type p = MarketActivity)).
Proof. exact cutoff_codes. Qed.
Print Assumptions C64_cutoff.

(** If linking deletes no dataset, every code leads to exactly one producer. *)
Theorem C64_cutoff_complete : forall w data out, raw data -> cutoff_model w data = Ok out ->
  (forall prepared allocated, cutoff_prepared w data = Ok prepared -> cutoff_allocated w prepared = Ok allocated ->
     length out = length allocated) ->
  forall ds e c, ds ∈ out -> e ∈ d_exchanges ds -> e_code e = Some c ->
    exists p, p ∈ out /\ producer c (e_name e) p /\ forall p', p' ∈ out -> d_code p' = Some c -> p' = p.
Proof. exact cutoff_codes_complete. Qed.
Print Assumptions C64_cutoff_complete.

Theorem C64_consequential : forall w data out, raw data -> consequential_model w data = Ok out ->
  NoDup (map d_code out) /\
  forall ds e c, ds ∈ out -> e ∈ d_exchanges ds -> e_code e = Some c -> exists p, p ∈ out /\ producer c (e_name e) p.
Proof. exact consequential_codes. Qed.
Print Assumptions C64_consequential.

Example C64_nonvacuous : raw ex_treated /\ raw ex_boiler /\
  fmapR (@List.length dataset) (let? p := cutoff_prepared ex_w ex_treated in cutoff_allocated ex_w p) = Ok 6%nat.
Proof. split; [by_compute|]. split; by_compute. Qed.

Definition ex_out : list dataset := match cutoff_model ex_w ex_treated with Ok o => o | Err _ => [] end.
Definition ex_out2 : list dataset := match consequential_model ex_w ex_boiler with Ok o => o | Err _ => [] end.
Lemma ok_of (r : result (list dataset)) : is_ok r = true -> r = Ok (match r with Ok o => o | Err _ => [] end).
Proof. by destruct r. Qed.
Lemma fails_with {A} (r : result A) e : fmapR (fun _ => tt) r = Err e -> r = Err e.
Proof. destruct r; cbn; congruence. Qed.
(** Waste is turned into an input after linking: it has no supplier, though there is a
    market for it, and the result cannot be exported. *)
Theorem C64_waste_unlinked_refuted : exists w data out ds e,
  raw data /\ cutoff_model w data = Ok out /\ ds ∈ out /\ e ∈ d_exchanges ds /\
  e_type e = FromTechnosphere /\ e_amount e <> 0%Qc /\ e_code e = None /\
  (exists m, m ∈ out /\ d_type m = MarketActivity /\ d_refprod m = Some (e_name e)) /\
  convert_to_brightway2 out "db" = Err (KeyError "code").
Proof.
  set (d := nth 0 ex_out dataset0). exists ex_w, ex_treated, ex_out, d, (nth 2 (d_exchanges d) exchange0).
  split; [by_compute|]. split; [by apply ok_of; vm_compute|].
  split; [apply elem_of_list_In, nth_In; apply Nat.ltb_lt; by vm_compute|].
  split; [apply elem_of_list_In, nth_In; apply Nat.ltb_lt; by vm_compute|].
  split; [by_compute|]. split; [by_compute|]. split; [by_compute|]. split.
  - exists (nth 5 ex_out dataset0). split; [apply elem_of_list_In, nth_In; apply Nat.ltb_lt; by vm_compute|].
    split; by_compute.
  - apply fails_with. by vm_compute.
Qed.
Print Assumptions C64_waste_unlinked_refuted.

(** Nothing gives the products of a consequential result their codes. *)
Theorem C64_consequential_export_refuted : exists w data out,
  raw data /\ consequential_model w data = Ok out /\ out <> [] /\
  Forall (fun ds => translate_activity "db" ds = Err (KeyError "code")) out.
Proof.
  exists ex_w, ex_boiler, ex_out2. split; [by_compute|]. split; [by apply ok_of; vm_compute|]. split; [by_compute|].
  assert (forallb (fun ds => bool_decide (fmapR (fun _ => tt) (translate_activity "db" ds) = Err (KeyError "code"))) ex_out2 = true) as H
    by (by vm_compute).
  apply Forall_forall. intros ds Hd. rewrite forallb_forall in H. apply elem_of_list_In in Hd. specialize (H _ Hd).
  apply bool_decide_eq_true in H. by apply fails_with.
Qed.
Print Assumptions C64_consequential_export_refuted.

(** ** C65 Where results come from *)

Theorem C65_cutoff : forall w data out, (forall s, w_md5 w s <> ""%string) ->
  cutoff_model w data = Ok out -> Forall (comes_from data) out.
Proof. exact cutoff_provenance. Qed.
Print Assumptions C65_cutoff.

Theorem C65_consequential : forall w data out, (forall s, w_md5 w s <> ""%string) ->
  consequential_model w data = Ok out -> Forall (comes_from data) out.
Proof. exact consequential_provenance. Qed.
Print Assumptions C65_consequential.

Example C65_nonvacuous : (forall s, w_md5 ex_w s <> ""%string) /\
  is_ok (cutoff_model ex_w ex_treated) = true /\ is_ok (consequential_model ex_w ex_boiler) = true.
Proof. split; [done|]. split; by vm_compute. Qed.

(** ** C66 One product per dataset, to the end *)

Theorem C66_single_output : forall w data out prepared, (forall s, w_md5 w s <> ""%string) ->
  cutoff_prepared w data = Ok prepared ->
  Forall (fun ds => d_alloc ds = None /\ classified ds /\ unique_ids ds /\ unique_variables ds /\
            Forall (fun e => alloc_output e -> e_amount e <> 0%Qc) (d_exchanges ds)) prepared ->
  cutoff_model w data = Ok out -> Forall single_output out.
Proof. exact cutoff_single. Qed.
Print Assumptions C66_single_output.

Example C66_nonvacuous : exists prepared, cutoff_prepared ex_w ex_treated = Ok prepared /\
  Forall (fun ds => d_alloc ds = None /\ classified ds /\ unique_ids ds /\ unique_variables ds /\
            Forall (fun e => alloc_output e -> e_amount e <> 0%Qc) (d_exchanges ds)) prepared.
Proof.
  exists (match cutoff_prepared ex_w ex_treated with Ok o => o | Err _ => [] end). split; [by apply ok_of; vm_compute|].
  apply (bool_decide_unpack _). by vm_compute.
Qed.
