(** The tables of changes to formulas (C94). *)
From Coq Require Import Ascii.
From Verif Require Import Base Types Uncertainty Utils Strings Recalculation Formulas Parameters Spec_Parameters Spec_References Tables
  FormulaTables Spec_FormulaTables FormulaTables_proofs Props_References Props_Math.

(** * C94 *)
(** Replacing, one row after the other, the element of the row by its replacement gives the
    new formula; every element is in the formula when its turn comes. *)
Theorem C94_math :
  forall pyfloat data data',
    fix_math_formulas pyfloat data = Ok data' ->
    exists rows, math_rows pyfloat data = Ok rows /\
      accounted (fun ds _ o o' rs => o_variable o' = o_variable o /\ replayed (math_shown (d_name ds)) o o' rs) data data' rows.
Proof. exact math_spec. Qed.
Print Assumptions C94_math.
Definition ex_formula (n f : string) : dataset :=
  set_d_name n (set_d_params [set_q_formula (Some f) param0] dataset0).
Definition ex_maths : list dataset :=
  [ex_formula "a" "50%*power(2;3)^2"; ex_formula "b" "x+1"; ex_formula "c" "if(x;1;2)%"].
Definition ex_formulas (data : list dataset) : list (list (option string)) :=
  map (fun ds => map o_formula (all_objs ds)) data.
Example C94_math_nonvacuous :
  fmapR ex_formulas (fix_math_formulas ex_float ex_maths) =
    Ok [[Some "50e-2*((2.0)**(3.0))**2"]; [Some "x+1"]; [Some "((1) if (x) else (2))e-2"]]%string /\
  math_rows ex_float ex_maths =
    Ok [[Txt "a"; Txt "50%*power(2;3)^2"; Txt "%"; Txt "e-2"];
        [Txt "a"; Txt "50e-2*power(2;3)^2"; Txt "^"; Txt "**"];
        [Txt "a"; Txt ""; Txt "power(2;3)"; Txt "((2.0)**(3.0))"];
        [Txt "c"; Txt "if(x;1;2)%"; Txt "%"; Txt "e-2"];
        [Txt "c"; Txt ""; Txt "if(x;1;2)e-2"; Txt "((1) if (x) else (2))e-2"]].
Proof. by_compute. Qed.
(** Rows do not always show the formula: it is left out for powers. *)
Theorem C94_formula_refuted :
  exists ds r f, math_rows ex_float [ds] = Ok [r] /\ map o_formula (all_objs ds) = [Some f] /\ Txt f ∉ r.
Proof.
  exists (ex_formula "a" "1+power(2;3)"). do 2 eexists. split; [vm_compute; reflexivity|]. split; [vm_compute; reflexivity|]. by_compute.
Qed.
Print Assumptions C94_formula_refuted.

(** The words of the rows in capital letters give the new formula; if that cannot be parsed,
    the formula stays as it was. *)
Theorem C94_reserved :
  forall words parses data data',
    replace_reserved_words words parses data = Ok data' ->
    exists rows, reserved_rows words parses data = Ok rows /\
      accounted (fun ds _ => reserved_accounted parses words (d_name ds)) data data' rows.
Proof. exact reserved_spec. Qed.
Print Assumptions C94_reserved.
(** No 'yield', 'for' or '(' in a formula. *)
Definition ex_parses (f : string) : bool :=
  negb (has_word true (chars "yield") (chars f) || has_word true (chars "for") (chars f) || str_contains "(" f).
Definition ex_words : list dataset :=
  [ex_formula "a" "yield*2"; ex_formula "b" "2*yield+for"; ex_formula "c" "x";
   set_d_name "d" (set_d_params [set_q_variable (Some "yield"%string) param0] dataset0)].
Example C94_reserved_nonvacuous :
  fmapR (fun data => (ex_formulas data, map (fun ds => map o_variable (all_objs ds)) data))
    (replace_reserved_words ["for"; "yield"]%string ex_parses ex_words) =
    Ok ([[Some "YIELD*2"]; [Some "2*YIELD+FOR"]; [Some "x"]; [None]], [[None]; [None]; [None]; [Some "YIELD"]])%string /\
  reserved_rows ["for"; "yield"]%string ex_parses ex_words =
    Ok [[Txt "a"; Txt "yield"; Txt "yield*2"]; [Txt "b"; Txt "for;yield"; Txt "2*yield+for"]; [Txt "d"; Txt "yield"; Txt "yield"]].
Proof. by_compute. Qed.
(** A row does not mean that anything was replaced. *)
Theorem C94_replaced_refuted :
  exists ds, fmapR ex_formulas (replace_reserved_words ["for"; "yield"]%string ex_parses [ds]) = Ok (ex_formulas [ds]) /\
    reserved_rows ["for"; "yield"]%string ex_parses [ds] = Ok [[Txt "a"; Txt "yield"; Txt "yield*(2"]].
Proof. exists (ex_formula "a" "yield*(2"). by_compute. Qed.
Print Assumptions C94_replaced_refuted.

(** A row for each formula that is deleted, with a space after every 40 characters of it. *)
Theorem C94_unparsable :
  forall parses data data',
    delete_unparsable_formulas parses data = Ok data' ->
    exists rows, unparsable_rows parses data = Ok rows /\
      accounted (fun ds _ => deletion_shown parses (d_name ds)) data data' rows.
Proof. exact deletion_spec. Qed.
Print Assumptions C94_unparsable.
Definition ex_long : string := "(123456789012345678901234567890123456789+1".
Definition ex_broken : list dataset := [ex_formula "a" ex_long; ex_formula "b" "x"; ex_formula "c" "("].
Example C94_unparsable_nonvacuous :
  fmapR ex_formulas (delete_unparsable_formulas ex_parses ex_broken) = Ok [[None]; [Some "x"]; [None]]%string /\
  unparsable_rows ex_parses ex_broken =
    Ok [[Txt "a"; Txt "(123456789012345678901234567890123456789 +1"]; [Txt "c"; Txt "("]].
Proof. by_compute. Qed.

(** A row for each reference of each formula, with the variable of the object which it refers
    to. *)
Theorem C94_references :
  forall data data',
    Forall readable data ->
    replace_implicit_references data = Ok data' ->
    exists rows, reference_rows data = Ok rows /\
      accounted (fun ds ds' o _ => references_shown ds' (d_name ds) o) data data' rows.
Proof. exact references_spec. Qed.
Print Assumptions C94_references.
Example C94_references_nonvacuous :
  Forall readable [ex_refs] /\ is_ok (replace_implicit_references [ex_refs]) = true /\
  fmapR (map (map (fun c => match c with Txt s => s | _ => ""%string end))) (reference_rows [set_d_name "a" ex_refs]) =
  Ok [["a"; "Ref('11111111-aaaa-4bbb-8ccc-0123456789ab')"; "ref_replacement_11111111aaaa4bbb8ccc0123456789ab"];
      ["a"; "ref('22222222-aaaa-4bbb-8ccc-0123456789ab')"; "yield"];
      ["a"; "Ref('11111111-aaaa-4bbb-8ccc-0123456789ab')"; "ref_replacement_11111111aaaa4bbb8ccc0123456789ab"];
      ["a"; "Ref('11111111-aaaa-4bbb-8ccc-0123456789ab', 'ProductionVolume')"; "ref_pv_replacement_11111111aaaa4bbb8ccc0123456789ab"]]%string.
Proof. split; [constructor; [apply ex_readable|constructor]|]. by_compute. Qed.
