(** Model of the rows logged by the functions that change formulas:
    parameterization/python_compatibility.py and implicit_references.py.  What they do with
    the data is in Formulas.v and Parameters.v. *)
From Coq Require Import Ascii.
From Verif Require Import Base Types Uncertainty Utils Strings Recalculation Formulas Parameters Tables.

(** [for exc in iterate_all_parameters(ds)] with a body that looks only at [exc]. *)
Definition object_rows (f : dataset -> pobj -> result (list row)) (data : list dataset) : result (list row) :=
  let? rows := mapR (fun ds => let? rs := mapR (f ds) (all_objs ds) in Ok (concat rs)) data in
  Ok (concat rows).

(** ** python_compatibility.py *)
(** Lines 16-21, [KNOWN_MATH_SUBSTITUTIONS], and lines 139-145. *)
Definition known_math : list (string * string) := [("%", "e-2"); ("^", "**"); (crlf, "")]%string.
Fixpoint known_rows (name : string) (subs : list (string * string)) (f : string) : list row * string :=
  match subs with
  | [] => ([], f)
  | (bad, good) :: subs =>
      if str_contains bad f
      then let r := known_rows name subs (str_replace bad good f) in
           ([Txt name; Txt f; Txt bad; Txt good] :: r.1, r.2)
      else known_rows name subs f
  end.
(** Lines 102-105 and lines 109-116, [find_if_clause]. *)
Definition if_rows (name : string) (line result : text) : list row :=
  if contains_if line then [[Txt name; Txt ""; Txt (str line); Txt (str result)]] else [].
(** Lines 119-130, [find_power_clause]. *)
Fixpoint power_rows (pyfloat : text -> result text) (name : string) (fuel : nat) (s : text) : result (list row) :=
  match power_search s with
  | None => Ok []
  | Some be =>
      match fuel with
      | O => Err ValueError
      | S fuel =>
          let? b := pyfloat be.1 in
          let? e := pyfloat be.2 in
          let new := chars "((" ++ b ++ chars ")**(" ++ e ++ chars "))" in
          let? rows := power_rows pyfloat name fuel (text_replace (power_text be) new s) in
          Ok ([Txt name; Txt ""; Txt (str (power_text be)); Txt (str new)] :: rows)
      end
  end.
(** Lines 133-148, [fix_math_formulas]. *)
Definition math_row (pyfloat : text -> result text) (ds : dataset) (o : pobj) : result (list row) :=
  match o_formula o with
  | None => Ok []
  | Some f =>
      let r := known_rows (d_name ds) known_math f in
      let? line := find_if_clause (chars r.2) in
      let? powers := power_rows pyfloat (d_name ds) (S (semicolons line)) line in
      Ok (r.1 ++ if_rows (d_name ds) (chars r.2) line ++ powers)
  end.
Definition math_rows (pyfloat : text -> result text) : list dataset -> result (list row) :=
  object_rows (math_row pyfloat).

(** Lines 194-230, [check_and_fix_formula]: the words found by the first and by the second
    loop. *)
Fixpoint starting_words (words : list string) (u : string) : list string :=
  match words with
  | [] => []
  | w :: words => if starts_with_word (chars w) (chars u)
                  then w :: starting_words words (uppercase_word w u) else starting_words words u
  end.
Fixpoint found_words (words : list string) (u : string) : list string :=
  match words with
  | [] => []
  | w :: words => if has_word true (chars w) (chars u)
                  then w :: found_words words (uppercase_word w u) else found_words words u
  end.
Definition reserved_formula_rows (words : list string) (parses : string -> bool) (name f : string) : list row :=
  let updated := foldl (fun u w => if starts_with_word (chars w) (chars u)
                                   then uppercase_word w u else u) f words in
  map (fun w => [Txt name; Txt w; Txt f]) (starting_words words f) ++
  if parses updated then []
  else
    let updated2 := foldl (fun u w => if has_word true (chars w) (chars u)
                                      then uppercase_word w u else u) updated words in
    if parses updated2 then [[Txt name; Txt (String.concat ";" (found_words words updated)); Txt f]] else [].
(** Lines 233-249, [replace_reserved_words]. *)
Definition reserved_row (words : list string) (parses : string -> bool) (ds : dataset) (o : pobj) : list row :=
  match o_variable o with
  | Some v => if bool_decide (v ∈ RESERVED_WORDS) then [[Txt (d_name ds); Txt v; Txt v]] else []
  | None => []
  end ++
  match o_formula o with Some f => reserved_formula_rows words parses (d_name ds) f | None => [] end.
Definition reserved_rows (words : list string) (parses : string -> bool) (data : list dataset) : result (list row) :=
  object_rows (fun ds o => Ok (reserved_row words parses ds o)) data.

(** Lines 257-273, [delete_unparsable_formulas]; line 260 puts a space after every 40
    characters. *)
Definition broken (f : string) : string :=
  String.concat " " (map (fun k => str (take 40 (drop (40 * k) (chars f))))
                       (seq 0 ((String.length f + 39) / 40))).
Definition unparsable_row (parses : string -> bool) (ds : dataset) (o : pobj) : list row :=
  match o_formula o with
  | Some f => if parses f then [] else [[Txt (d_name ds); Txt (broken f)]]
  | None => []
  end.
Definition unparsable_rows (parses : string -> bool) (data : list dataset) : result (list row) :=
  object_rows (fun ds o => Ok (unparsable_row parses ds o)) data.

(** ** implicit_references.py *)
(** Lines 50-85, [replace_implicit_references] with its rows. *)
Definition reference_variable (prefix : string) (ds : dataset) (target : address) (r : text * text) : string :=
  match variable_at ds target with
  | Some v => v
  | None => (prefix ++ str_replace "-" "" (str r.2))%string
  end.
Definition logged_reference (find : dataset -> string -> result address) (prefix : string) (a : address)
    (st : dataset * list row) (r : text * text) : result (dataset * list row) :=
  let? target := find st.1 (str r.2) in
  let? ds := replace_reference find prefix a st.1 r in
  Ok (ds, st.2 ++ [[Txt (d_name st.1); Txt (str r.1); Txt (reference_variable prefix st.1 target r)]]).
Definition logged_references_of (st : dataset * list row) (a : address) : result (dataset * list row) :=
  let? st := foldR (logged_reference find_exchange_or_parameter_by_id "ref_replacement_" a) st
               (formula_references EXCHANGE_END st.1 a) in
  foldR (logged_reference find_production_volume_by_id "ref_pv_replacement_" a) st
    (formula_references PV_END st.1 a).
Definition reference_rows (data : list dataset) : result (list row) :=
  let? rs := mapR (fun ds => foldR logged_references_of (ds, []) (addresses ds)) data in
  Ok (concat (map snd rs)).
