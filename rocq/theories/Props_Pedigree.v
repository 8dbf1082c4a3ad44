(** Properties of repair and of pedigree matrices (C96, C97). *)
From Verif Require Import Base Types Uncertainty Spec_Uncertainty Pedigree Spec_Pedigree Pedigree_proofs Pedigree2_proofs
  Schema Extraction Spec_Extraction Extraction_proofs Extraction2_proofs Extraction3_proofs Props_Extraction.

(** ** C96 What repair makes of a distribution *)

(** Repair succeeds exactly if something is said of every description, and that is the result:
    which are removed, which kept, with which numbers, and nothing else. *)
Theorem C96_repair_exact : forall ln euler data data', (1 <= euler)%Qc ->
  repair_all_uncertainty_distributions ln euler data = Ok data' <-> Forall2 (dataset_repaired ln euler) data data'.
Proof. exact repair_all_exact. Qed.
Print Assumptions C96_repair_exact.

(** The variance of a pedigree matrix is the sum of the published numbers, for both tables. *)
Theorem C96_pedigree_variance : forall version pm q,
  get_pedigree_variance_of version pm = Ok q <-> variance_of version pm q.
Proof. exact variance_of_iff. Qed.
Print Assumptions C96_pedigree_variance.
Theorem C96_pedigree_default : forall pm, get_pedigree_variance pm = get_pedigree_variance_of "original" pm.
Proof. exact original_variance. Qed.
Print Assumptions C96_pedigree_default.

(** A score of zero, which no table has, counts as the worst instead of being refused. *)
Theorem C96_score_range_refuted : exists pm q, Forall (fun kv => ~ (1 <= kv.2 <= 5)%Z) pm /\ pm <> [] /\
  get_pedigree_variance_of "original" pm = Ok q /\ q <> 0%Qc.
Proof.
  exists [("reliability"%string, 0%Z)], (frac 4 100 + 0)%Qc. split; [constructor; [cbn; lia|constructor]|]. split; [done|]. split; [|by_compute].
  apply variance_of_iff. assert (frac 4 100 = frac 40000 1000000) as -> by by_compute.
  apply (variance_score "original" "reliability" 0 5 40000); [right; lia|done|constructor].
Qed.
Print Assumptions C96_score_range_refuted.

(** With x - 1 for the logarithm and 3 for e: a variance of 2 is taken for one before the
    logarithm, one of 5 replaced, one of 1/2 kept; a fourth goes to the pedigree matrix. *)
Definition ex_ped : pedigree := [("reliability", 5); ("temporal correlation", 2)]%string%Z.
Definition ex_log (total : Qc) : option uncert := Some (set_u_type (Some ULognormal) (set_u_vwpu (Some total) uncert0)).
Definition ex_pred (x : Qc) : Qc := (x - 1)%Qc.
Definition ex_variances (total : Qc) : option (option Qc * option Qc) :=
  match repair ex_pred (Qcint 3) (mkUobj (Qcint (-2)) (ex_log total) (Some ex_ped)) with
  | Ok o => option_map (fun u => (u_variance u, u_vwpu u)) (o_unc o)
  | Err _ => None
  end.
Example C96_variances :
  variance_of "original" ex_ped (frac 402 10000) /\
  ex_variances (Qcint 2) = Some (Some (frac 9598 10000), Some 1%Qc) /\
  ex_variances (Qcint 5) = Some (Some (frac 1 4), Some (frac 2902 10000)) /\
  ex_variances (frac 1 2) = Some (Some (frac 4598 10000), Some (frac 1 2)) /\
  ex_variances 0 = None.
Proof.
  split; [|by_compute]. assert (frac 402 10000 = frac 40000 1000000 + (frac 200 1000000 + 0))%Qc as -> by by_compute.
  apply (variance_score "original" "reliability" 5 5 40000); [left; lia|done|].
  apply (variance_score "original" "temporal correlation" 2 2 200); [left; lia|done|]. constructor.
Qed.
(** Bounds are put in order; a uniform distribution not around its amount becomes triangular;
    bounds that miss the amount are dropped for one and refused for the other. *)
Definition ex_bounds (t : utype) (mn mx a : Qc) : result (option (option utype * option Qc * option Qc * option Qc)) :=
  let? o := repair ex_pred (Qcint 3) (mkUobj a (Some (set_u_type (Some t) (set_u_min (Some mn) (set_u_max (Some mx) uncert0)))) None) in
  Ok (option_map (fun u => (u_type u, u_min u, u_max u, u_mode u)) (o_unc o)).
Example C96_bounds :
  ex_bounds UUniform (Qcint 3) 1 (Qcint 2) = Ok (Some (Some UUniform, Some 1%Qc, Some (Qcint 3), None)) /\
  ex_bounds UUniform 1 (Qcint 4) (Qcint 2) = Ok (Some (Some UTriangular, Some 1%Qc, Some (Qcint 4), Some (Qcint 2))) /\
  ex_bounds UTriangular (Qcint 4) 1 (Qcint 2) = Ok (Some (Some UTriangular, Some 1%Qc, Some (Qcint 4), Some (Qcint 2))) /\
  ex_bounds UTriangular 1 (Qcint 4) (Qcint 5) = Ok None /\ ex_bounds UUniform 1 (Qcint 4) (Qcint 5) = Err ValueError /\
  ex_bounds UUniform (Qcint 2) (Qcint 2) (Qcint 2) = Ok None.
Proof. by_compute. Qed.

(** ** C04 Ageing the distribution *)

(** The variance of a lognormal distribution after ageing is that without the matrix and
    that of the aged matrix. *)
Theorem C04_recalculated : forall end_year a u pm pm' v q year, u_type u = Some ULognormal -> u_variance u = Some v ->
  adjust_pedigree_matrix_time end_year (mkUobj a (Some u) (Some pm)) year = Ok (mkUobj a (Some u) (Some pm')) ->
  variance_of "original" pm' q ->
  adjust_and_recalculate end_year (mkUobj a (Some u) (Some pm)) year = Ok (mkUobj a (Some (set_u_vwpu (Some (v + q)%Qc) u)) (Some pm')).
Proof. exact ageing_matrix. Qed.
Print Assumptions C04_recalculated.
(** So the whole variance is never less than before. *)
Theorem C04_total_never_lowered : forall end_year a u pm v q year o u' t' s, u_type u = Some ULognormal -> u_variance u = Some v ->
  assoc_get "temporal correlation" pm = Some s -> (1 <= s <= 5)%Z -> variance_of "original" pm q ->
  adjust_and_recalculate end_year (mkUobj a (Some u) (Some pm)) year = Ok o -> o_unc o = Some u' -> u_vwpu u' = Some t' ->
  (v + q <= t')%Qc.
Proof. exact ageing_never_lowers. Qed.
Print Assumptions C04_total_never_lowered.
Example C04_recalculated_example : exists o u',
  adjust_and_recalculate 2010 (mkUobj 1%Qc (Some (set_u_variance (Some (frac 1 10)) (set_u_type (Some ULognormal) uncert0)))
    (Some [("reliability", 2%Z); ("temporal correlation", 2%Z)]%string)) 2015 = Ok o /\
  o_unc o = Some u' /\ u_vwpu u' = Some (frac 1086 10000) /\
  variance_of "original" [("reliability", 2%Z); ("temporal correlation", 4%Z)]%string (frac 86 10000).
Proof.
  eexists _, _. split; [vm_compute; reflexivity|]. split; [vm_compute; reflexivity|]. split; [cbn; f_equal; by_compute|].
  apply variance_of_iff. vm_compute. f_equal. by_compute.
Qed.

(** ** C97 Pedigree matrices of files *)

(** Extraction puts the matrix inside the uncertainty description, where neither repair nor
    ageing looks for it. *)
Theorem C97_matrix_not_on_exchange : forall pyfloat pyint filepath x d,
  dataset_said pyfloat pyint filepath x d -> Forall (fun e => e_ped e = None) (d_exchanges d).
Proof. exact said_no_matrix. Qed.
Print Assumptions C97_matrix_not_on_exchange.

(** So repair leaves nothing of the variance to the matrix: the variance without it becomes
    the variance with it, in every repaired dataset read from a file. *)
Theorem C97_repair_ignores_matrix : forall ln euler pyfloat pyint filepath x d d', (1 <= euler)%Qc ->
  dataset_said pyfloat pyint filepath x d -> repair_dataset ln euler d = Ok d' ->
  Forall (fun e => match e_unc e with
                   | Some u => u_type u = Some ULognormal -> is_Some (u_variance u) /\ u_variance u = u_vwpu u
                   | None => True end) (d_exchanges d').
Proof. exact repaired_file. Qed.
Print Assumptions C97_repair_ignores_matrix.
Theorem C97_repair_same_for_every_matrix : forall ln euler a u pm w, (1 <= euler)%Qc ->
  repair ln euler (mkUobj a (Some u) None) = Ok (mkUobj a w None) ->
  repair ln euler (mkUobj a (Some (set_u_pedigree pm u)) None) = Ok (mkUobj a (option_map (set_u_pedigree pm) w) None).
Proof. exact repair_matrix_copied. Qed.
Print Assumptions C97_repair_same_for_every_matrix.

(** After repair they never age: adjusting to any year changes nothing. *)
Theorem C97_repaired_never_ages : forall ln euler a u o' end_year year, (1 <= euler)%Qc ->
  repair ln euler (mkUobj a u None) = Ok o' -> adjust_and_recalculate end_year o' year = Ok o'.
Proof. exact repaired_never_ages. Qed.
Print Assumptions C97_repaired_never_ages.

(** Without repair adjusting takes the share of the matrix out of the variance, whatever the year. *)
Theorem C97_ageing_exact : forall end_year a u year,
  adjust_and_recalculate end_year (mkUobj a (Some u) None) year =
  match u_type u with
  | Some ULognormal => let? v := getkey "variance" (u_variance u) in Ok (mkUobj a (Some (set_u_vwpu (Some v) u)) None)
  | Some (UOther _) => Err UnsupportedDistribution
  | _ => Ok (mkUobj a (Some u) None)
  end.
Proof. exact ageing_no_matrix. Qed.
Print Assumptions C97_ageing_exact.

(** The matrix as read names one indicator in another way than the tables: no matrix of a
    file has a variance at all. *)
Theorem C97_matrix_without_variance : forall pyfloat pyint x u pm version,
  uncertainty_said pyfloat pyint x u -> u_pedigree u = Some pm -> pm <> [] -> forall q, ~ variance_of version pm q.
Proof. exact matrix_of_file. Qed.
Print Assumptions C97_matrix_without_variance.
Theorem C97_matrix_error : forall pyfloat pyint x u pm,
  uncertainty_said pyfloat pyint x u -> u_pedigree u = Some pm -> pm <> [] -> Forall (fun kv => 1 <= kv.2 <= 5)%Z pm ->
  get_pedigree_variance pm = Err (KeyError "further technology correlation").
Proof. exact matrix_of_file_error. Qed.
Print Assumptions C97_matrix_error.

(** The example of the documentation of extraction, with other numbers. *)
Definition ex_old_flow : xml :=
  Elem "intermediateExchange" [("id", "s2"); ("amount", "1.0")] None
     [ex_leaf "name" "steel"; ex_leaf "unitName" "kg"; ex_leaf "inputGroup" "5";
      ex_elem "uncertainty" []
        [ex_elem "lognormal" [("meanValue", "1.0"); ("mu", "0"); ("variance", "0"); ("varianceWithPedigreeUncertainty", "0.5")] [];
         ex_elem "pedigreeMatrix" [("reliability", "2"); ("completeness", "2"); ("temporalCorrelation", "2");
           ("geographicalCorrelation", "5"); ("furtherTechnologyCorrelation", "1")] []]]%string.
Definition ex_old : xml :=
  ex_tree [("id", "1"); ("specialActivityType", "0")]%string "steelmaking" [("technologyLevel", "3")]%string [("accessRestrictedTo", "1")]%string
    ex_isic [ex_old_flow].
Definition ex_old_exchange : option exchange := ex_read ex_old ≫= fun d => d_exchanges d !! 0.
Definition ex_temporal (u : option uncert) : option Z :=
  match u with Some u => match u_pedigree u with Some pm => assoc_get "temporal correlation" pm | None => None end | None => None end.

(** Adjusting an exchange of a file from 2015 to 2030 leaves the score where it was and
    lowers the variance to nothing. *)
Theorem C97_ageing_lowers_variance_refuted : exists pyfloat pyint x d e o u u' v v',
  dataset_said pyfloat pyint "1.spold" x d /\ e ∈ d_exchanges d /\ e_unc e = Some u /\ u_vwpu u = Some v /\
  adjust_and_recalculate 2015 (e_view e) 2030 = Ok o /\ o_unc o = Some u' /\ u_vwpu u' = Some v' /\
  ex_temporal (Some u') = ex_temporal (Some u) /\ ex_temporal (Some u) = Some 2%Z /\ (v' < v)%Qc.
Proof.
  destruct ex_old_exchange as [e|] eqn:E; [|by vm_compute in E]. pose proof E as E0. unfold ex_old_exchange in E0.
  destruct (ex_read ex_old) as [d|] eqn:Ed; [|done]. cbn in E0. rename E0 into Ee.
  set (u := default uncert0 (e_unc e)).
  exists ex_float, ex_int, ex_old, d, e, (mkUobj (e_amount e) (Some (set_u_vwpu (Some 0%Qc) u)) None), u, (set_u_vwpu (Some 0%Qc) u), (frac 1 2), 0%Qc.
  assert (bool_decide (option_map (fun e => (option_map u_vwpu (e_unc e), option_map u_variance (e_unc e), option_map u_type (e_unc e), ex_temporal (e_unc e), e_ped e)) ex_old_exchange
    = Some (Some (Some (frac 1 2)), Some (Some 0%Qc), Some (Some ULognormal), Some 2%Z, None)) = true) as F by (by vm_compute).
  apply bool_decide_eq_true_1 in F. rewrite E in F. cbn [option_map] in F. injection F as F1 F2 F3 F4 F5.
  destruct (e_unc e) as [u0|] eqn:Eu; [|done]. cbn in F1, F2, F3. injection F1 as F1. injection F2 as F2. injection F3 as F3. subst u. cbn [default].
  split; [by apply ex_read_said|]. split; [by eapply elem_of_list_lookup_2|]. split; [done|]. split; [done|].
  split. { unfold e_view. rewrite Eu, F5. rewrite ageing_no_matrix, F3, F2. reflexivity. }
  split; [done|]. split; [done|]. split; [done|]. split; [done|]. by_compute.
Qed.
Print Assumptions C97_ageing_lowers_variance_refuted.
(** The same exchange repaired first: the whole variance counts as basic. *)
Example C97_nonvacuous :
  option_map (fun e => match repair ex_pred (Qcint 3) (e_view e) with
    | Ok o => option_map (fun u => (u_variance u, u_vwpu u, default [] (u_pedigree u) !! 4)) (o_unc o) | Err _ => None end) ex_old_exchange =
  Some (Some (Some (frac 1 2), Some (frac 1 2), Some ("further technology correlation"%string, 1%Z))).
Proof. by_compute. Qed.
