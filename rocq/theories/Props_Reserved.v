(** C47: reserved words. *)
From Coq Require Import Ascii.
From Verif Require Import Base Types Uncertainty Utils Strings Recalculation Formulas Parameters Spec_Parameters
  Parameters_proofs Reserved_proofs.

(** ** C47 *)

(** Every variable that is a reserved word is put in capitals, no other is changed. *)
Theorem C47_variables : forall words parses data, exists data', replace_reserved_words words parses data = Ok data' /\
  Forall2 (renamed (fun o o' =>
    match o_variable o, o_variable o' with
    | Some v, Some v' => v' = if bool_decide (v ∈ RESERVED_WORDS) then upper v else v
    | None, None => True
    | _, _ => False
    end /\ o_formula o' = check_and_fix_formula words parses <$> o_formula o)) data data'.
Proof. exact reserved_spec. Qed.
Print Assumptions C47_variables.

(** No reserved word is left, and lower-case names that were different stay different. *)
Theorem C47_distinct : forall v w,
  reserved_variable v ∉ RESERVED_WORDS /\
  (lower v = v -> lower w = w -> reserved_variable v = reserved_variable w -> v = w).
Proof. intros v w. split; [apply reserved_variable_free|apply reserved_variable_inj]. Qed.
Print Assumptions C47_distinct.

(** A formula is changed in the case of letters only; it is left alone, or else it can be
    parsed afterwards. *)
Theorem C47_formulas : forall words parses f, (forall w, w ∈ words -> w ∈ RESERVED_WORDS) ->
  same_letters f (check_and_fix_formula words parses f) /\
  (check_and_fix_formula words parses f = f \/ parses (check_and_fix_formula words parses f) = true).
Proof. intros words parses f H. split; [by apply check_and_fix_letters|apply check_and_fix_parses]. Qed.
Print Assumptions C47_formulas.

(** Formulas that are parsed and do not begin with a reserved word stay. *)
Theorem C47_unchanged : forall words parses f, parses f = true ->
  (forall w, w ∈ words -> starts_with_word (chars w) (chars f) = false) -> check_and_fix_formula words parses f = f.
Proof. exact check_and_fix_unchanged. Qed.
Print Assumptions C47_unchanged.

(** If no reserved word is a proper part of a name in the formula: the result has the
    first name renamed, or all, or none; the order of the words does not matter. *)
Theorem C47_names : forall words parses l, (forall w, w ∈ words <-> w ∈ RESERVED_WORDS) -> pieces_ok l -> no_word_inside l ->
  check_and_fix_formula words parses (str (pieces_text l)) =
  let first := str (pieces_text (rename_first l)) in
  let renamed := str (pieces_text (map rename_piece l)) in
  if parses first then first else if parses renamed then renamed else str (pieces_text l).
Proof. exact check_and_fix_pieces. Qed.
Print Assumptions C47_names.

(** So all references are renamed like the variables, as long as formulas with a
    reserved word are not parsed and the renamed formula is. *)
Theorem C47_consistent : forall words parses l, (forall w, w ∈ words <-> w ∈ RESERVED_WORDS) -> pieces_ok l -> no_word_inside l ->
  (forall k s, Name s ∈ k -> str s ∈ RESERVED_WORDS -> parses (str (pieces_text k)) = false) ->
  parses (str (pieces_text (map rename_piece l))) = true ->
  check_and_fix_formula words parses (str (pieces_text l)) = str (pieces_text (map rename_piece l)).
Proof. exact check_and_fix_consistent. Qed.
Print Assumptions C47_consistent.

Definition ex_pieces : list piece :=
  [Name (chars "loss2"); Sign "*"%char; Name (chars "yield"); Sign "+"%char; Name (chars "in")].
Example ex_pieces_text : str (pieces_text ex_pieces) = "loss2*yield+in"%string.
Proof. by_compute. Qed.
Example ex_pieces_ok : pieces_ok ex_pieces /\ no_word_inside ex_pieces.
Proof. split; [apply pieces_check_ok|apply no_word_inside_check_ok]; by_compute. Qed.
Definition accepts (l : list string) (f : string) : bool := bool_decide (f ∈ l).
Example ex_renamed : check_and_fix_formula RESERVED_WORDS (accepts ["loss2*YIELD+IN"]) "loss2*yield+in" = "loss2*YIELD+IN"%string.
Proof. by_compute. Qed.
Example ex_reversed : check_and_fix_formula (reverse RESERVED_WORDS) (accepts ["loss2*YIELD+IN"]) "loss2*yield+in" = "loss2*YIELD+IN"%string.
Proof. by_compute. Qed.
Example ex_rejects : forall k s, Name s ∈ k -> str s ∈ RESERVED_WORDS ->
  accepts ["loss2*YIELD+IN"] (str (pieces_text k)) = false.
Proof.
  intros k s Hk Hs. apply bool_decide_eq_false_2. intros H. apply elem_of_list_singleton in H.
  assert (exists a b, pieces_text k = a ++ s ++ b) as (a & b & E).
  { apply elem_of_list_split in Hk as (k1 & k2 & ->). exists (pieces_text k1), (pieces_text k2).
    unfold pieces_text. rewrite flat_map_app. done. }
  assert (occurs_in : Forall (fun w => str_contains w "loss2*YIELD+IN" = false) RESERVED_WORDS).
  { apply (bool_decide_unpack _). by vm_compute. }
  rewrite Forall_forall in occurs_in. specialize (occurs_in (str s) Hs). rewrite <- H in occurs_in.
  assert (str_contains (str s) (str (pieces_text k)) = true) as Hc; [|congruence].
  apply StringFacts.contains_iff. exists (str a), (str b). by rewrite E, !str_app.
Qed.
Example ex_yield_variable : reserved_variable "yield" = "YIELD"%string /\ reserved_variable "yield_loss" = "yield_loss"%string.
Proof. by_compute. Qed.
Example ex_unchanged : check_and_fix_formula RESERVED_WORDS (accepts ["a if b else c"%string]) "a if b else c" = "a if b else c"%string /\
  forallb (fun w => negb (starts_with_word (chars w) (chars "a if b else c"))) RESERVED_WORDS = true.
Proof. by_compute. Qed.

(** Without the condition the references to other variables are broken: a longer name
    with the reserved word in it is changed, the variable of that name is not. *)
Theorem C47_longer_names_refuted : exists parses f, parses f = true /\ f = "as*mass"%string /\
  reserved_variable "mass" = "mass"%string /\
  forall words, (forall w, w ∈ words <-> w ∈ RESERVED_WORDS) -> check_and_fix_formula words parses f = "AS*mASs"%string.
Proof.
  exists (fun _ => true), "as*mass"%string. split; [done|]. split; [done|]. split; [by_compute|]. intros words Hws.
  unfold check_and_fix_formula.
  assert (foldl (fun u w => if starts_with_word (chars w) (chars u) then uppercase_word w u else u) "as*mass"%string words = "AS*mASs"%string) as ->; [|done].
  assert (forall w, w ∈ RESERVED_WORDS -> w <> "as"%string -> starts_with_word (chars w) (chars "as*mass") = false) as H1.
  { assert (Forall (fun w => w <> "as"%string -> starts_with_word (chars w) (chars "as*mass") = false) RESERVED_WORDS) as H by (apply (bool_decide_unpack _); by vm_compute).
    rewrite Forall_forall in H. exact H. }
  assert (forall w, w ∈ RESERVED_WORDS -> starts_with_word (chars w) (chars "AS*mASs") = false) as H2.
  { assert (Forall (fun w => starts_with_word (chars w) (chars "AS*mASs") = false) RESERVED_WORDS) as H by (apply (bool_decide_unpack _); by vm_compute).
    rewrite Forall_forall in H. exact H. }
  assert ("as"%string ∈ words) as Hin by (apply Hws; apply (bool_decide_unpack _); by vm_compute).
  assert (forall w, w ∈ words -> w ∈ RESERVED_WORDS) as Hsub by (intros w; apply Hws). clear Hws.
  induction words as [|w words IH]; [by apply elem_of_nil in Hin|]. cbn [foldl].
  destruct (decide (w = "as"%string)) as [->|Hw].
  - change (starts_with_word (chars "as") (chars "as*mass")) with true. change (uppercase_word "as" "as*mass") with "AS*mASs"%string.
    apply fold_no_start. intros w Hw. apply H2, Hsub. by right.
  - rewrite H1; [|apply Hsub; left|done]. apply IH; [|intros w' Hw'; apply Hsub; by right]. by apply elem_of_cons in Hin as [|].
Qed.
Print Assumptions C47_longer_names_refuted.

(** Digits end a reserved word, though not a name. *)
Theorem C47_digits_refuted : exists parses, parses "in2*3"%string = true /\ reserved_variable "in2" = "in2"%string /\
  check_and_fix_formula RESERVED_WORDS parses "in2*3" = "IN2*3"%string.
Proof. exists (fun _ => true). split; [done|]. split; by_compute. Qed.
Print Assumptions C47_digits_refuted.

(** A reserved word that is parsed where it stands is left: "yield" in parentheses. *)
Theorem C47_parsed_refuted : exists parses, parses "(yield)*2"%string = true /\ reserved_variable "yield" = "YIELD"%string /\
  check_and_fix_formula RESERVED_WORDS parses "(yield)*2" = "(yield)*2"%string.
Proof. exists (fun _ => true). split; [done|]. split; by_compute. Qed.
Print Assumptions C47_parsed_refuted.

(** With a conditional, "if" and "else" are renamed too, and so nothing is. *)
Theorem C47_conditional_refuted : exists parses f renamed, parses renamed = true /\
  f = "2*in*((a) if (b) else (c))"%string /\ renamed = "2*IN*((a) if (b) else (c))"%string /\
  check_and_fix_formula RESERVED_WORDS parses f = f /\ parses f = false /\
  forall ds ds', delete_unparsable_formulas parses [ds] = Ok [ds'] ->
    d_exchanges ds = [set_e_formula (Some f) exchange0] -> d_exchanges ds' = [exchange0].
Proof.
  exists (accepts ["2*IN*((a) if (b) else (c))"%string]). eexists _, _. split; [|split; [reflexivity|split; [reflexivity|]]]; [by_compute|].
  split; [by_compute|]. split; [by_compute|]. intros ds ds' H E. unfold delete_unparsable_formulas in H. cbn [mapR] in H.
  destruct (change_dataset _ ds) as [d|] eqn:Ed; [|done]. cbn in H. injection H as ->. unfold change_dataset in Ed. rewrite E in Ed.
  apply bind_Ok in Ed as (es & H1 & Ed). apply bind_Ok in Ed as (qs & H2 & Ed). apply Ok_inj in Ed as <-.
  vm_compute in H1. injection H1 as <-. by destruct ds.
Qed.
Print Assumptions C47_conditional_refuted.
