(** C74: corrections of known problems. *)
From Coq Require Import Ascii.
From Verif Require Import Base Types Uncertainty Utils Strings Recalculation Formulas Parameters Spec_Parameters Spec_Known
  Known_proofs.

(** In the four activities the wrong text is replaced wherever it occurs in a formula; all other datasets stay
    as they are.  The pass never fails. *)
Theorem C74_corrected : forall data, exists data', fix_known_bad_formula_strings data = Ok data' /\ Forall2 corrected data data'.
Proof. intros data. destruct (known_total data) as [data' H]. exists data'. split; [exact H|exact (known_corrected _ _ H)]. Qed.
Print Assumptions C74_corrected.

Theorem C74_none_left : forall data data' ds' bad good o f, fix_known_bad_formula_strings data = Ok data' -> ds' ∈ data' ->
  correction (d_name ds') bad good -> o ∈ all_objs ds' -> o_formula o = Some f -> ~ occurs_in (chars bad) (chars f).
Proof. exact known_none_left. Qed.
Print Assumptions C74_none_left.

Theorem C74_idempotent : forall data data', fix_known_bad_formula_strings data = Ok data' -> fix_known_bad_formula_strings data' = Ok data'.
Proof. exact known_idempotent. Qed.
Print Assumptions C74_idempotent.

(** Only the refinery loses exchanges: those of refinery gas with amount zero. *)
Theorem C74_refinery : forall data, Forall2 (fun ds ds' =>
    (d_name ds <> "petroleum refinery operation"%string /\ ds' = ds) \/
    (d_name ds = "petroleum refinery operation"%string /\ ds' = set_d_exchanges (d_exchanges ds') ds /\
     d_exchanges ds' = filter (fun e => ~ idle_gas e) (d_exchanges ds))) data (fix_specific_ecoinvent_issues data).
Proof. exact refinery_spec. Qed.
Print Assumptions C74_refinery.

(** Formulas are kept exactly if they can be parsed. *)
Theorem C74_parsed : forall parses data, exists data', delete_unparsable_formulas parses data = Ok data' /\
  Forall2 (renamed (fun o o' => o_variable o' = o_variable o /\
    forall f, o_formula o' = Some f <-> o_formula o = Some f /\ parses f = true)) data data'.
Proof.
  intros parses data. destruct (unparsable_total parses data) as [data' H]. exists data'. split; [exact H|exact (unparsable_spec _ _ _ H)].
Qed.
Print Assumptions C74_parsed.

(** Two of the numbers put in are what the texts they replace come to, up to rounding. *)
Theorem C74_values :
  (forall bad good, correction "thermoforming of plastic sheets" bad good -> exists q, decimal good = Some q /\
     (- power_of_ten (-23) <= q - 1 / Qcint 14000000 / Qcint 50 * (Qcint 946 * power_of_ten (-3)) <= power_of_ten (-23))%Qc) /\
  (forall bad good, correction "glued laminated timber production, for indoor use" bad good -> exists q, decimal good = Some q /\
     (- power_of_ten (-2) <= q - (Qcint 30800 + Qcint 40000 + Qcint 33900) / Qcint 3 *
       ((Qcint 367561 + Qcint 433458 + Qcint 449963) / Qcint 3 / ((Qcint 1408383 + Qcint 1631979 + Qcint 1717500) / Qcint 3)) <= power_of_ten (-2))%Qc).
Proof.
  split; intros bad good H; inversion H; subst; eexists; (split; [vm_compute; reflexivity|]); split; vm_compute; discriminate.
Qed.
Print Assumptions C74_values.

(** ** Examples *)
Definition ex_wrong : dataset :=
  set_d_name "thermoforming of plastic sheets" (set_d_params
    [set_q_formula (Some "2*1/014000000/50*0.946+1/014000000/50*0.946"%string) (set_q_variable (Some "x"%string) param0);
     set_q_formula (Some "3*x"%string) param0] dataset0).
Definition ex_other : dataset := set_d_name "blow moulding" ex_wrong.
Definition ex_formulas (ds : dataset) : list (option string * option string) := map (fun o => (o_variable o, o_formula o)) (all_objs ds).
Example ex_corrected : fmapR (map ex_formulas) (fix_known_bad_formula_strings [ex_wrong; ex_other]) =
  Ok [[(Some "x", Some "2*1.3514285714285711e-09+1.3514285714285711e-09"); (None, Some "3*x")]; ex_formulas ex_other]%string.
Proof. by_compute. Qed.
Example ex_correction : correction (d_name ex_wrong) "1/014000000/50*0.946" "1.3514285714285711e-09".
Proof. constructor. Qed.
Definition ex_gas_flow (n : string) (q : Z) : exchange := set_e_name n (set_e_amount (Qcint q) exchange0).
Definition ex_refinery : dataset :=
  set_d_name "petroleum refinery operation" (set_d_exchanges
    [ex_gas_flow "petrol" 0; ex_gas_flow "refinery gas" 0; ex_gas_flow "refinery gas" 2; ex_gas_flow "diesel" 3] dataset0).
Example ex_refined : map (fun ds => map (fun e => (e_name e, e_amount e)) (d_exchanges ds))
    (fix_specific_ecoinvent_issues [ex_refinery; set_d_name "cracking" ex_refinery]) =
  [[("petrol"%string, Qcint 0); ("refinery gas"%string, Qcint 2); ("diesel"%string, Qcint 3)];
   [("petrol"%string, Qcint 0); ("refinery gas"%string, Qcint 0); ("refinery gas"%string, Qcint 2); ("diesel"%string, Qcint 3)]].
Proof. by_compute. Qed.
Example ex_parsed : fmapR (map ex_formulas) (delete_unparsable_formulas (fun f => (String.length f <? 4)%nat) [ex_wrong]) =
  Ok [[(Some "x", None); (None, Some "3*x")]]%string.
Proof. by_compute. Qed.

(** The number put in for 152 million pounds is not that number of kilograms: two digits are not those of
    152000000 times 0.45359237, and it is 3000 kg too much. *)
Theorem C74_benzene_refuted : exists bad good q, correction "benzene chlorination" bad good /\
  bad = "UnitConversion(152000000, 'pound avoirdupois', 'kg')"%string /\ decimal good = Some q /\
  q = (Qcint 152000000 * (Qcint 45359237 * power_of_ten (-8)) + Qcint 3000)%Qc.
Proof. eexists _, _, _. split; [constructor|]. split; [reflexivity|]. split; [vm_compute; reflexivity|]. by_compute. Qed.
Print Assumptions C74_benzene_refuted.
