(** Model of parameterization/python_compatibility.py: formulas as text.

    Formulas are lists of characters (bytes).  Not modelled: log records.
    Oracles, given as arguments:
    - [parses f]: [ast.parse(f)] raises no exception;
    - [pyfloat x]: [str(float(x))], or the exception of [float(x)];
    - [words]: the reserved words in the order in which Python iterates over the
      set [RESERVED_WORDS], which differs from run to run. *)
From Coq Require Import Ascii.
From stdpp Require Export gmap.
From Verif Require Import Base Types Uncertainty Utils Strings.

Notation text := (list Ascii.ascii).
Notation chars := list_ascii_of_string.
Notation str := string_of_list_ascii.

Definition open_paren : Ascii.ascii := "("%char.
Definition close_paren : Ascii.ascii := ")"%char.
Definition semicolon : Ascii.ascii := ";"%char.
Definition backslash : Ascii.ascii := "\"%char.
Definition newline : Ascii.ascii := ascii_of_nat 10.

Fixpoint starts (p s : text) : bool :=
  match p, s with
  | [], _ => true
  | a :: p, b :: s => bool_decide (a = b) && starts p s
  | _ :: _, [] => false
  end.
Definition IF : text := chars "if(".

(** Line 37, [IF_BEGINNING.finditer(line)]: the positions of "if("; two
    occurrences cannot overlap. *)
Fixpoint if_starts (pos : nat) (s : text) : list nat :=
  match s with
  | [] => []
  | _ :: s' => if starts IF s then pos :: if_starts (S pos) s' else if_starts (S pos) s'
  end.

(** Lines 43-68, [find_if_boundaries].  [before] is [string[pos-1]], for the
    first position the last character; [stack] as in Python, top first. *)
Fixpoint boundaries (before : Ascii.ascii) (pos : nat) (stack : list nat) (s : text)
  : result (nat * nat) :=
  match s with
  | [] => match stack with [] => Err IndexError | _ => Err ValueError end
  | c :: s' =>
      if bool_decide (before = backslash) then boundaries c (S pos) stack s'
      else if bool_decide (c = open_paren) then boundaries c (S pos) (S pos :: stack) s'
      else if bool_decide (c = close_paren) then
        match stack with
        | [] => Err IndexError
        | [p] => Ok (p, pos)
        | _ :: stack => boundaries c (S pos) stack s'
        end
      else boundaries c (S pos) stack s'
  end.
Definition find_if_boundaries (s : text) : result (nat * nat) :=
  boundaries (List.last s newline) 0 [] s.

(** [str.strip()], for ASCII. *)
Definition blank (c : Ascii.ascii) : bool :=
  let n := Ascii.N_of_ascii c in
  ((9 <=? n) && (n <=? 13) || (28 <=? n) && (n <=? 32))%N.
Fixpoint lstrip (s : text) : text :=
  match s with
  | [] => []
  | c :: s' => if blank c then lstrip s' else s
  end.
Definition strip (s : text) : text := rev (lstrip (rev (lstrip s))).

(** [[^;]+] followed by a semicolon: what is before the first semicolon, if
    anything, and what is after it. *)
Fixpoint split_semicolon (s : text) : option (text * text) :=
  match s with
  | [] => None
  | c :: s => if bool_decide (c = semicolon) then Some ([], s)
              else match split_semicolon s with
                   | Some (a, b) => Some (c :: a, b)
                   | None => None
                   end
  end.
Definition argument (s : text) : option (text * text) :=
  match split_semicolon s with
  | Some ([], _) | None => None
  | r => r
  end.
(** [.+\)$]: everything but the closing parenthesis at the end.  Simplification:
    the text is taken not to end with a newline, which it never does. *)
Definition last_argument (s : text) : option text :=
  match rev s with
  | c :: r => if bool_decide (c = close_paren) && bool_decide (r <> []) && bool_decide (newline ∉ r)
              then Some (rev r) else None
  | [] => None
  end.

(** Line 38, [COMPLETE_IF]. *)
Definition complete_if (s : text) : option (text * text * text) :=
  if starts IF s then
    match argument (drop 3 s) with
    | Some (condition, s) =>
        match argument s with
        | Some (if_yes, s) =>
            match last_argument s with
            | Some if_no => Some (condition, if_yes, if_no)
            | None => None
            end
        | None => None
        end
    | None => None
    end
  else None.

(** Lines 71-82, [replace_if_statement].  The match is the whole text, so what
    is returned is the replacement; without a match it is [None.group]. *)
Definition conditional (condition if_yes if_no : text) : text :=
  chars "((" ++ if_yes ++ chars ") if (" ++ condition ++ chars ") else (" ++ if_no ++ chars "))".
Definition replace_if_statement (s : text) : result text :=
  match complete_if s with
  | None => Err AttributeError
  | Some (condition, if_true, if_false) =>
      Ok (if bool_decide (if_true = if_false) then chars "(" ++ strip if_true ++ chars ")"
          else conditional condition if_true if_false)
  end.

(** [match_positions.sort(key=lambda x: x[1]); match_positions[0]]: the first
    one with the smallest end. *)
Fixpoint first_smallest (best : nat * nat) (l : list (nat * nat)) : nat * nat :=
  match l with
  | [] => best
  | x :: l => first_smallest (if (x.2 <? best.2)%nat then x else best) l
  end.

(** Lines 90-101, the body of the loop. *)
Definition replace_smallest_if (line : text) : result text :=
  let? positions := mapR (fun start => let? b := find_if_boundaries (drop start line) in
                                       Ok (start, b.2)) (if_starts 0 line) in
  match positions with
  | [] => Err IndexError
  | p :: l =>
      let (start, finish) := first_smallest p l in
      let? new := replace_if_statement (take (finish + 1) (drop start line)) in
      Ok (take start line ++ new ++ drop (start + finish + 1) line)
  end.

(** Lines 85-106, [find_replace_nested_if_statements], and lines 109-116,
    [find_if_clause].  The loop is bounded by the number of semicolons:
    every round removes two of them, so the bound is never reached. *)
Definition contains_if (line : text) : bool := bool_decide (if_starts 0 line <> []).
Fixpoint if_loop (fuel : nat) (line : text) : result text :=
  if contains_if line then
    match fuel with
    | O => Err ValueError
    | S fuel => let? line := replace_smallest_if line in if_loop fuel line
    end
  else Ok line.
Definition semicolons (s : text) : nat := length (filter (fun c => c = semicolon) s).
Definition find_if_clause (line : text) : result text := if_loop (S (semicolons line)) line.

(** Line 40, [POWER_RE]: base, exponent and the whole match at the beginning. *)
Definition POWER : text := chars "power(".
Fixpoint until_last_close (s : text) : option text :=
  match s with
  | [] => None
  | c :: s => if bool_decide (c = semicolon) then None
              else match until_last_close s with
                   | Some r => Some (c :: r)
                   | None => if bool_decide (c = close_paren) then Some [] else None
                   end
  end.
Definition power_at (s : text) : option (text * text) :=
  if starts POWER s then
    match argument (drop 6 s) with
    | Some (base, s) => match s with
                        | c :: s' =>
                            if bool_decide (c = semicolon) then None
                            else match until_last_close s' with
                                 | Some e => Some (base, c :: e)
                                 | None => None
                                 end
                        | [] => None
                        end
    | None => None
    end
  else None.
Fixpoint power_search (s : text) : option (text * text) :=
  match power_at s with
  | Some r => Some r
  | None => match s with [] => None | _ :: s => power_search s end
  end.
Definition power_text (be : text * text) : text :=
  POWER ++ be.1 ++ [semicolon] ++ be.2 ++ [close_paren].

(** Lines 119-130, [find_power_clause]; bounded like the loop above. *)
Definition text_replace (old new s : text) : text := chars (str_replace (str old) (str new) (str s)).
Fixpoint power_loop (pyfloat : text -> result text) (fuel : nat) (s : text) : result text :=
  match power_search s with
  | None => Ok s
  | Some be =>
      match fuel with
      | O => Err ValueError
      | S fuel =>
          let? b := pyfloat be.1 in
          let? e := pyfloat be.2 in
          power_loop pyfloat fuel
            (text_replace (power_text be) (chars "((" ++ b ++ chars ")**(" ++ e ++ chars "))") s)
      end
  end.
Definition find_power_clause (pyfloat : text -> result text) (s : text) : result text :=
  power_loop pyfloat (S (semicolons s)) s.

(** Lines 16-21, [KNOWN_MATH_SUBSTITUTIONS], and lines 133-148, what
    [fix_math_formulas] does with one formula. *)
Definition crlf : string := str [ascii_of_nat 13; newline].
Definition fix_math_formula (pyfloat : text -> result text) (f : string) : result string :=
  let f := str_replace "%" "e-2" f in
  let f := str_replace "^" "**" f in
  let f := str_replace crlf "" f in
  let? f := find_if_clause (chars f) in
  let? f := find_power_clause pyfloat f in
  Ok (str f).

(** ** Reserved words *)
Definition RESERVED_WORDS : list string :=
  ["and"; "as"; "assert"; "break"; "class"; "continue"; "def"; "del";
   "elif"; "else"; "except"; "False"; "finally"; "for"; "from"; "global";
   "if"; "import"; "in"; "is"; "lambda"; "None"; "nonlocal"; "not"; "or";
   "pass"; "raise"; "return"; "True"; "try"; "while"; "with"; "yield"]%string.
Definition upper_ascii (c : Ascii.ascii) : Ascii.ascii :=
  let n := Ascii.N_of_ascii c in
  if ((97 <=? n) && (n <=? 122))%N then Ascii.ascii_of_N (n - 32)%N else c.
Definition upper (s : string) : string := str (map upper_ascii (chars s)).
(** [[a-zA-Z_]]. *)
Definition letter (c : Ascii.ascii) : bool :=
  let n := Ascii.N_of_ascii c in
  ((97 <=? n) && (n <=? 122) || (65 <=? n) && (n <=? 90) || (n =? 95))%N.

(** Lines 33-34, [RESERVED_WORDS_STARTING]: [word[^a-zA-Z_]] at the beginning. *)
Definition starts_with_word (word s : text) : bool :=
  starts word s && match drop (length word) s with c :: _ => negb (letter c) | [] => false end.
(** Lines 30-31, [RESERVED_WORDS_RE]: the word between other characters. *)
Fixpoint has_word (boundary : bool) (word s : text) : bool :=
  (boundary && starts word s
   && match drop (length word) s with c :: _ => negb (letter c) | [] => true end)
  || match s with [] => false | c :: s => has_word (negb (letter c)) word s end.
Definition uppercase_word (word : string) (f : string) : string := str_replace word (upper word) f.

(** Lines 194-230, [check_and_fix_formula]. *)
Definition check_and_fix_formula (words : list string) (parses : string -> bool) (f : string)
  : string :=
  let updated := foldl (fun u w => if starts_with_word (chars w) (chars u)
                                   then uppercase_word w u else u) f words in
  if parses updated then updated
  else
    let updated := foldl (fun u w => if has_word true (chars w) (chars u)
                                     then uppercase_word w u else u) updated words in
    if parses updated then updated else f.

Global Arguments find_if_boundaries : simpl never.
Global Arguments replace_if_statement : simpl never.
Global Arguments replace_smallest_if : simpl never.
Global Arguments strip : simpl never.
Global Arguments complete_if : simpl never.
Global Arguments check_and_fix_formula : simpl never.
