(** C45: conditionals in formulas. *)
From Coq Require Import Ascii.
From Verif Require Import Base Formulas Spec_Formulas Formulas_proofs.

(** ** C45 *)

(** The text that is written for a formula with conditionals, nested in any way, becomes
    the text of the Python formula. *)
Theorem C45_rewriting : forall l, formula_ok l -> find_if_clause (written l) = Ok (written (map to_python l)).
Proof. exact find_if_clause_formula. Qed.
Print Assumptions C45_rewriting.

(** The Python formula has the same value, whatever the values of the other parts are. *)
Theorem C45_value : forall V (flat : list (ascii + V) -> V) (branch : V -> V -> V -> V),
  python_like flat branch -> forall l, formula_ok l ->
  value flat branch (map to_python l) = value flat branch l.
Proof. exact @value_to_python. Qed.
Print Assumptions C45_value.

(** The Python text has one reading only. *)
Theorem C45_reading : forall l k, formula_ok l -> formula_ok k ->
  written (map to_python l) = written (map to_python k) -> map to_python l = map to_python k.
Proof. intros l k Hl Hk. by apply read; apply to_python_readable_list, formula_ok_raw. Qed.
Print Assumptions C45_reading.

(** On all texts: rounds as long as there is a conditional, and no text keeps the loop
    running. *)
Theorem C45_terminates : forall line,
  (~ (exists pre post, line = pre ++ chars "if(" ++ post) -> find_if_clause line = Ok line) /\
  ((exists pre post, line = pre ++ chars "if(" ++ post) ->
   find_if_clause line = bind (replace_smallest_if line) find_if_clause) /\
  (forall line', replace_smallest_if line = Ok line' -> semicolons line = (2 + semicolons line')%nat).
Proof.
  intros line. split; [apply find_if_clause_unchanged|]. split.
  - intros H%contains_if_spec. rewrite find_if_clause_loop. by rewrite H.
  - apply replace_smallest_semicolons.
Qed.
Print Assumptions C45_terminates.

Theorem C45_no_if_left : forall line r, find_if_clause line = Ok r -> ~ exists pre post, r = pre ++ chars "if(" ++ post.
Proof. exact find_if_clause_no_if. Qed.
Print Assumptions C45_no_if_left.

Theorem C45_errors : forall line e, find_if_clause line = Err e -> e = ValueError \/ e = AttributeError.
Proof. exact find_if_clause_error. Qed.
Print Assumptions C45_errors.

(** An example: "2*if(x>(1); if(y;3;3) ; max(4;5)+if(z;6;if(w;7;8)))". *)
Definition ex_formula : list tok :=
  raws "2*" ++ [If (raws "x>" ++ [Group (raws "1")]) (raws " " ++ [If (raws "y") (raws "3") (raws "3")] ++ raws " ")
    (raws " max" ++ [Group (raws "4;5")] ++ raws "+" ++ [If (raws "z") (raws "6") [If (raws "w") (raws "7") (raws "8")]])].
Example ex_formula_written : str (written ex_formula) = "2*if(x>(1); if(y;3;3) ; max(4;5)+if(z;6;if(w;7;8)))"%string.
Proof. by_compute. Qed.
Example ex_formula_ok : formula_ok ex_formula.
Proof. apply formula_check_ok. by_compute. Qed.
Example ex_formula_python : fmapR str (find_if_clause (written ex_formula)) =
  Ok "2*(( (3) ) if (x>(1)) else ( max(4;5)+((6) if (z) else (((7) if (w) else (8))))))"%string.
Proof. by_compute. Qed.

(** An example of values: natural numbers, only addition, no precedence. *)
Definition toy_branch (c a b : nat) : nat := if (c =? 0)%nat then b else a.
Definition toy_item (i : ascii + nat) : nat :=
  match i with inl c => if bool_decide (c = "+"%char) then 0 else nat_of_ascii c - 48 | inr n => n end.
Definition toy_blank (i : ascii + nat) : bool := match i with inl c => blank c | inr _ => false end.
Definition toy_flat (l : list (ascii + nat)) : nat :=
  match filter (fun i => toy_blank i = false) l with
  | [inr a; inl i; inl f; inr c; inl e; inl l; inl s; inl e2; inr b] => toy_branch c a b
  | l => sum_list (map toy_item l)
  end.
Example ex_python_like : python_like toy_flat toy_branch.
Proof.
  unfold python_like. split; [done|]. split; [|split].
  - intros [c|n] l H; [|done]. unfold toy_flat. rewrite filter_cons_False; [done|]. cbn in H |- *. by rewrite H.
  - intros [c|n] l H; [|done]. unfold toy_flat. rewrite filter_app, filter_cons_False.
    + by rewrite filter_nil, app_nil_r.
    + cbn in H |- *. by rewrite H.
  - intros c a. unfold toy_branch. by destruct (c =? 0)%nat.
Qed.
Definition ex_sum : list tok :=
  [If (raws "1") ([If (raws "0") (raws "2") (raws "3")] ++ raws " + 4") (raws "5")] ++ raws "+6".
Example ex_sum_ok : formula_ok ex_sum.
Proof. apply formula_check_ok. by_compute. Qed.
Example ex_sum_python : fmapR str (find_if_clause (written ex_sum)) =
  Ok "((((2) if (0) else (3)) + 4) if (1) else (5))+6"%string.
Proof. by_compute. Qed.
Example ex_sum_value : value toy_flat toy_branch ex_sum = 13%nat /\ value toy_flat toy_branch (map to_python ex_sum) = 13%nat.
Proof. by_compute. Qed.

(** The conditions of [formula_ok] are needed.  A function with two arguments in the
    condition or the first alternative: the arguments are mixed up. *)
Theorem C45_calls_refuted : exists c a b call, written a = chars "max" ++ written [Group (call)] /\
  formula_ok [If c (raws "1") b] /\
  find_if_clause (written [If c a b]) = Ok (chars "((max(b) if (a) else (c);d))") /\
  written (map to_python [If c a b]) = chars "((max(b;c)) if (a) else (d))".
Proof.
  exists (raws "a"), (raws "max" ++ [Group (raws "b;c")]), (raws "d"), (raws "b;c").
  split; [by_compute|]. split; [apply formula_check_ok; by_compute|]. split; by_compute.
Qed.
Print Assumptions C45_calls_refuted.

(** A name that ends in "if" before a parenthesis is taken for a conditional. *)
Theorem C45_names_refuted : exists l, written l = chars "countif(a)+b" /\ find_if_clause (written l) = Err AttributeError.
Proof. exists (raws "countif" ++ [Group (raws "a")] ++ raws "+b"). split; by_compute. Qed.
Print Assumptions C45_names_refuted.

(** A line break in the second alternative. *)
Theorem C45_newline_refuted : exists c a b, Forall (fun l => formula_ok l) [c; a; b] /\
  b = Raw newline :: raws "d" /\ find_if_clause (written [If c a b]) = Err AttributeError.
Proof.
  exists (raws "a"), (raws "b"), (Raw newline :: raws "d"). split.
  - repeat apply Forall_cons_2; [..|apply Forall_nil_2]; apply formula_check_ok; by_compute.
  - split; [done|by_compute].
Qed.
Print Assumptions C45_newline_refuted.
