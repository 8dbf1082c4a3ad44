(** Properties of system models run twice (C77): what depends on the order in which
    Python iterates over sets. *)
From stdpp Require Import gmap.
From Verif Require Import Base Types Uncertainty Utils Formulas Topology Cutoff Locations Consequential Pipeline Spec_Order Order4_proofs
  Props_Uncertainty Props_Topology Props_Locations Props_Cutoff Props_Untouched Props_Pipeline.

(** Steel is made in two places and sold on one market, from which cars take it. *)
Definition ex_places : list dataset :=
  [ex_raw "1" "steelmaking" "FR" Transforming [ex_made 30 (ex_product "s1" "steel" RefProduct 2 10); ex_air "s4" "carbon dioxide" ToEnvironment 6];
   ex_raw "7" "steelmaking" "DE" Transforming [ex_made 10 (ex_product "s5" "steel" RefProduct 1 10)];
   ex_raw "2" "market for steel" "RER" MarketActivity [ex_made 0 (ex_product "m1" "steel" RefProduct 1 10)];
   ex_raw "3" "carmaking" "FR" Transforming
     [ex_made 1 (ex_product "c1" "car" RefProduct 1 10); ex_flow "c2" "steel" FromTechnosphere 3]]%string.
Definition ex_backwards (s : gset string) : list string := rev (elements s).
Example ex_iterates : iterates (w_ord ex_w) /\ iterates ex_backwards.
Proof. split; intros s; [done|]. unfold ex_backwards. by rewrite <- Permutation_rev. Qed.

(** ** C77 Two runs *)

(** The cut-off model fails in both runs or in none; if it does not fail, the datasets are
    the same, in the same order, with the same exchanges and suppliers, perhaps in
    another order. *)
Theorem C77_cutoff : forall w ord data,
  iterates (w_ord w) -> iterates ord -> (forall s, w_md5 w s <> ""%string) -> without_suppliers data ->
  both (Forall2 reordered) (cutoff_model w data) (cutoff_model (with_order ord w) data).
Proof. exact cutoff_reordered. Qed.
Print Assumptions C77_cutoff.

Theorem C77_consequential : forall w ord data,
  iterates (w_ord w) -> iterates ord -> (forall s, w_md5 w s <> ""%string) -> without_suppliers data ->
  both (Forall2 reordered) (consequential_model w data) (consequential_model (with_order ord w) data).
Proof. exact consequential_reordered. Qed.
Print Assumptions C77_consequential.

Definition ex_inputs (r : result (list dataset)) : list (list (string * Qc * option string)) :=
  match r with
  | Ok l => map (fun d => map (fun e => (e_name e, e_amount e, e_code e)) (d_exchanges d)) l
  | Err _ => []
  end.
Definition ex_bought : list (string * Qc * option string) :=
  [("steel", frac 1 4, Some "xsteelmakingsteelde"); ("steel", frac 3 4, Some "xsteelmakingsteelfr")]%string.
(** The order of the inputs of the market does differ. *)
Example C77_nonvacuous :
  (forall s, w_md5 ex_w s <> ""%string) /\ without_suppliers ex_places /\
  ex_inputs (cutoff_model ex_w ex_places) !! 2%nat =
    Some (("steel", 1%Qc, Some "xmarket for steelsteelrer") :: ex_bought)%string /\
  ex_inputs (cutoff_model (with_order ex_backwards ex_w) ex_places) !! 2%nat =
    Some (("steel", 1%Qc, Some "xmarket for steelsteelrer") :: rev ex_bought)%string /\
  ex_inputs (consequential_model ex_w ex_places) !! 2%nat = Some (("steel", 1%Qc, None) :: ex_bought)%string /\
  ex_inputs (consequential_model (with_order ex_backwards ex_w) ex_places) !! 2%nat =
    Some (("steel", 1%Qc, None) :: rev ex_bought)%string.
Proof. split; [done|]. split; [by_compute|]. split_and!; by_compute. Qed.

(** So two runs need not have equal results. *)
Theorem C77_order_refuted : exists w ord data out out', iterates (w_ord w) /\ iterates ord /\
  cutoff_model w data = Ok out /\ cutoff_model (with_order ord w) data = Ok out' /\ out <> out'.
Proof.
  exists ex_w, ex_backwards, ex_places, (match cutoff_model ex_w ex_places with Ok o => o | Err _ => [] end),
    (match cutoff_model (with_order ex_backwards ex_w) ex_places with Ok o => o | Err _ => [] end).
  split; [apply ex_iterates|]. split; [apply ex_iterates|]. split; [apply ok_of; by vm_compute|]. split; [apply ok_of; by vm_compute|].
  by_compute.
Qed.
Print Assumptions C77_order_refuted.

(** Reserved words are replaced in the order of a set, too; where one word is part of
    another, the formulas of two runs differ, and in one of them a name is gone. *)
Definition ex_in_formula : string := "(in + finally)".
Definition ex_reserved (words : list string) : world :=
  mkWorld ex_ln (frac 271828 100000) (fun s => Ok s) words (fun f => negb (f =? ex_in_formula)%string)
    (w_fresh ex_w) (w_order ex_w) (w_eval ex_w) ex_md5 (w_ord ex_w) Props_Topology.ex_world.
Definition ex_named (v : string) (f : option string) : param := mkParam None None 1%Qc None (Some v) f None.
Definition ex_words : list dataset :=
  [set_d_params [ex_named "in" None; ex_named "finally" None; ex_named "total" (Some ex_in_formula)]
     (ex_raw "1" "steelmaking" "FR" Transforming [ex_made 30 (ex_product "s1" "steel" RefProduct 1 10)])]%string.
Definition ex_texts (r : result (list dataset)) : list (list (option string * option string)) :=
  match r with Ok l => map (fun d => map (fun q => (q_variable q, q_formula q)) (d_params d)) l | Err _ => [] end.
Example ex_words_differ :
  ex_texts (cutoff_model (ex_reserved RESERVED_WORDS) ex_words) !! 0%nat =
    Some [(Some "IN", None); (Some "FINALLY", None); (Some "total", Some "(IN + FINALLY)")]%string /\
  ex_texts (cutoff_model (ex_reserved (rev RESERVED_WORDS)) ex_words) !! 0%nat =
    Some [(Some "IN", None); (Some "FINALLY", None); (Some "total", Some "(IN + fINally)")]%string.
Proof. split; by_compute. Qed.
Theorem C77_words_refuted : exists w words data out out',
  w_words w ≡ₚ RESERVED_WORDS /\ words ≡ₚ RESERVED_WORDS /\
  cutoff_model w data = Ok out /\ cutoff_model (with_words words w) data = Ok out' /\ ~ Forall2 reordered out out'.
Proof.
  exists (ex_reserved RESERVED_WORDS), (rev RESERVED_WORDS), ex_words,
    (match cutoff_model (ex_reserved RESERVED_WORDS) ex_words with Ok o => o | Err _ => [] end),
    (match cutoff_model (with_words (rev RESERVED_WORDS) (ex_reserved RESERVED_WORDS)) ex_words with Ok o => o | Err _ => [] end).
  split; [done|]. split; [by rewrite <- Permutation_rev|]. split; [apply ok_of; by vm_compute|]. split; [apply ok_of; by vm_compute|].
  intros H. assert (forall a b, Forall2 reordered a b -> map d_params b = map d_params a) as HP.
  { clear. induction 1 as [|d d' a b [E _] _ IH]; [done|]. cbn [map]. f_equal; [|done].
    exact (f_equal d_params E). }
  apply HP in H. apply (f_equal (map (map q_formula))) in H. revert H. by vm_compute.
Qed.
Print Assumptions C77_words_refuted.
