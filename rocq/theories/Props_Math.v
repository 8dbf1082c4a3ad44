(** C73: signs, conditionals and powers in formulas.  [pyfloat] is what Python writes for [float(text)]. *)
From Coq Require Import Ascii.
From Verif Require Import Base Types Uncertainty Utils Strings Recalculation Formulas Parameters Spec_Parameters Spec_Formulas
  Formulas_proofs Spec_Math Math_proofs.

(** Percent signs, carets and line breaks are replaced first, then conditionals, then powers. *)
Theorem C73_formula : forall pyfloat l k t cs, signs_ok l -> signs_python l = written k -> formula_ok k ->
  written (map to_python k) = powers_text t cs -> powers_ok pyfloat t cs ->
  fix_math_formula pyfloat (str (signs_text l)) = Ok (str (powers_python t cs)).
Proof. exact fix_formula. Qed.
Print Assumptions C73_formula.

(** A formula without any of these is left as it is. *)
Theorem C73_plain : forall pyfloat s, plain_text s -> fix_math_formula pyfloat (str s) = Ok (str s).
Proof. exact fix_plain. Qed.
Print Assumptions C73_plain.

(** Whatever the formula, if it can be rewritten, then no percent sign, caret or power is left. *)
Theorem C73_none_left : forall pyfloat f f', (forall x y, pyfloat x = Ok y -> "%"%char ∉ y /\ "^"%char ∉ y) ->
  fix_math_formula pyfloat f = Ok f' -> "%"%char ∉ chars f' /\ "^"%char ∉ chars f' /\ ~ has_power (chars f').
Proof. exact no_signs_left. Qed.
Print Assumptions C73_none_left.

(** The loop over powers ends, so that the model's bound on its rounds does not matter, and it fails only with
    what [float] raises. *)
Theorem C73_ends : forall pyfloat s n, (forall x y, pyfloat x = Ok y -> semicolon ∉ y) -> (semicolons s < n)%nat ->
  power_loop pyfloat n s = find_power_clause pyfloat s.
Proof. intros pyfloat s n H Hn. apply power_loop_fuel; [exact H|exact Hn|apply Nat.lt_succ_diag_r]. Qed.
Print Assumptions C73_ends.
Theorem C73_fails : forall pyfloat s e, (forall x y, pyfloat x = Ok y -> semicolon ∉ y) ->
  find_power_clause pyfloat s = Err e -> exists x, pyfloat x = Err e.
Proof. intros pyfloat s e H. exact (power_errors pyfloat H s e). Qed.
Print Assumptions C73_fails.

(** In a database formulas are rewritten one by one; nothing else changes. *)
Theorem C73_data : forall pyfloat data data', fix_math_formulas pyfloat data = Ok data' ->
  Forall2 (renamed (fun o o' => o_variable o' = o_variable o /\
    match o_formula o with
    | None => o_formula o' = None
    | Some f => exists f', o_formula o' = Some f' /\ fix_math_formula pyfloat f = Ok f'
    end)) data data'.
Proof. exact math_data. Qed.
Print Assumptions C73_data.

(** ** Examples *)
Definition ex_digit (c : ascii) : bool := bool_decide (c ∈ chars "0123456789").
Definition ex_float (s : text) : result text :=
  if bool_decide (s <> []) && forallb ex_digit s then Ok (s ++ chars ".0") else Err ValueError.
Definition ex_toks : list tok :=
  raws "x**2*10e-2+" ++ [If (raws "y") (raws "z") (raws "4")] ++ raws "*power" ++ [Group (raws "2;3")] ++ raws "+power" ++ [Group (raws "4;5")] ++ raws "-1".
Definition ex_clauses : list clause :=
  [Clause (chars "2") (chars "3") (chars "2.0") (chars "3.0") (chars "+");
   Clause (chars "4") (chars "5") (chars "4.0") (chars "5.0") (chars "-1")].
Definition ex_input : list sign :=
  map Plain (chars "x") ++ [Caret] ++ map Plain (chars "2*10") ++ [Percent; Break] ++
  map Plain (chars "+if(y;z;4)*power(2;3)+power(4;5)-1").
Example ex_input_ok : signs_ok ex_input.
Proof. cbn. unfold carriage_return, newline. repeat split; discriminate. Qed.
Example ex_input_text : str (signs_text ex_input) =
  String.append "x^2*10%" (String (ascii_of_nat 13) (String (ascii_of_nat 10) "+if(y;z;4)*power(2;3)+power(4;5)-1"%string)).
Proof. by_compute. Qed.
Example ex_input_toks : signs_python ex_input = written ex_toks.
Proof. by_compute. Qed.
Example ex_toks_ok : formula_ok ex_toks.
Proof. apply formula_check_ok. by_compute. Qed.
Example ex_toks_python : written (map to_python ex_toks) = powers_text (chars "x**2*10e-2+((z) if (y) else (4))*") ex_clauses.
Proof. by_compute. Qed.
Example ex_clauses_ok : powers_ok ex_float (chars "x**2*10e-2+((z) if (y) else (4))*") ex_clauses.
Proof.
  assert (forall t, semicolon ∉ t -> close_paren ∉ t -> nothing_closed t) as Hc.
  { intros t _ Ht pre post ->. exfalso. apply Ht. apply elem_of_app. right. by left. }
  assert (forall t d, last t = Some d -> d <> "r"%char -> apart t) as Ha.
  { intros t d Ht Hd pre ->. assert (last (pre ++ chars "r") = Some "r"%char) as E by apply last_snoc. congruence. }
  unfold powers_ok. split; [apply quiet_without; cbn; by repeat split|]. split; [intros _; by eapply Ha|]. split; [|split].
  - repeat apply Forall_cons_2; [| |constructor]; repeat split; try done; try (unfold semicolon, open_paren, close_paren; by_compute);
      try (apply quiet_without; cbn; by repeat split); apply Hc; unfold semicolon, close_paren; by_compute.
  - cbn [removelast ex_clauses]. repeat constructor. by eapply Ha.
  - by_compute.
Qed.
Example ex_output : powers_python (chars "x**2*10e-2+((z) if (y) else (4))*") ex_clauses =
  chars "x**2*10e-2+((z) if (y) else (4))*((2.0)**(3.0))+((4.0)**(5.0))-1".
Proof. by_compute. Qed.
Example ex_computed : fix_math_formula ex_float (str (signs_text ex_input)) =
  Ok "x**2*10e-2+((z) if (y) else (4))*((2.0)**(3.0))+((4.0)**(5.0))-1"%string.
Proof. by_compute. Qed.
Lemma ex_float_result x y : ex_float x = Ok y -> y = x ++ chars ".0" /\ forallb ex_digit x = true.
Proof.
  unfold ex_float. destruct (bool_decide (x <> [])); cbn [andb]; [|done]. destruct (forallb ex_digit x); [|done].
  intros H. by apply Ok_inj in H as <-.
Qed.
Lemma ex_float_chars x y c : ex_float x = Ok y -> c ∈ y -> c ∈ chars "0123456789.".
Proof.
  intros [-> H]%ex_float_result Hc. apply elem_of_app in Hc as [Hc|Hc].
  - rewrite forallb_forall in H. apply elem_of_list_In in Hc. apply H in Hc. apply bool_decide_eq_true in Hc.
    change (chars "0123456789.") with (chars "0123456789" ++ chars "."). apply elem_of_app. by left.
  - cbn in Hc |- *. set_solver.
Qed.
Example ex_float_clean x y : ex_float x = Ok y -> "%"%char ∉ y /\ "^"%char ∉ y /\ semicolon ∉ y.
Proof. intros H. repeat split; intros Hc; apply (ex_float_chars _ _ _ H) in Hc; revert Hc; unfold semicolon; by_compute. Qed.
Example ex_plain : plain_text (chars "2*(x+y)").
Proof.
  split; [by_compute|]. split; [by_compute|]. split; [|split].
  - intros (pre & post & E). assert (carriage_return ∈ chars "2*(x+y)") as H by (rewrite E; set_solver). revert H. unfold carriage_return. by_compute.
  - intros (pre & post & E). assert ("i"%char ∈ chars "2*(x+y)") as H by (rewrite E; set_solver). revert H. by_compute.
  - apply power_search_has. by_compute.
Qed.

(** ** What is not rewritten to what it means *)
(** A power of a variable cannot be rewritten. *)
Theorem C73_variable_refuted : exists f, f = "power(x;2)"%string /\ fix_math_formula ex_float f = Err ValueError.
Proof. by exists "power(x;2)"%string. Qed.
Print Assumptions C73_variable_refuted.
(** Nor can one in parentheses, or before some: the exponent extends to the last closing parenthesis. *)
Theorem C73_parentheses_refuted : exists f g, f = "(a+power(2;3))*b"%string /\ g = "power(2;3)+(x)"%string /\
  fix_math_formula ex_float f = Err ValueError /\ fix_math_formula ex_float g = Err ValueError.
Proof. by exists "(a+power(2;3))*b"%string, "power(2;3)+(x)"%string. Qed.
Print Assumptions C73_parentheses_refuted.
(** Of three powers the third must not be the first again: it is rewritten with it, and its parentheses
    then follow the second. *)
Theorem C73_repeated_refuted : exists f, f = "power(2;3)*power(4;5)*power(2;3)"%string /\
  fix_math_formula ex_float f = Err ValueError /\
  fix_math_formula ex_float "power(2;3)*power(4;5)*power(2;4)" = Ok "((2.0)**(3.0))*((4.0)**(5.0))*((2.0)**(4.0))"%string.
Proof. by exists "power(2;3)*power(4;5)*power(2;3)"%string. Qed.
Print Assumptions C73_repeated_refuted.
(** A percent sign after a name makes another name; after a blank it makes something unreadable. *)
Theorem C73_percent_refuted : exists f g, f = "loss%"%string /\ g = "100 %"%string /\
  fix_math_formula ex_float f = Ok "losse-2"%string /\ fix_math_formula ex_float g = Ok "100 e-2"%string.
Proof. by exists "loss%"%string, "100 %"%string. Qed.
Print Assumptions C73_percent_refuted.
(** A conditional may appear where there was none before: the last step makes one. *)
Theorem C73_conditional_refuted : exists f f', fix_math_formula ex_float f = Ok f' /\ str_contains "if(" f = false /\
  str_contains "if(" f' = true.
Proof. exists "ifpower(2;3)"%string, "if((2.0)**(3.0))"%string. done. Qed.
Print Assumptions C73_conditional_refuted.
