(** Specifications for C73: signs and powers in formulas. *)
From Coq Require Import Ascii.
From Verif Require Import Base Formulas Spec_Formulas.

(** ** Signs

    A formula as a sequence of percent signs, carets, line breaks (as Windows writes
    them) and other characters. *)
Definition carriage_return : ascii := ascii_of_nat 13.
Inductive sign := Plain (c : ascii) | Percent | Caret | Break.
Definition sign_text (x : sign) : text :=
  match x with Plain c => [c] | Percent => chars "%" | Caret => chars "^" | Break => [carriage_return; newline] end.
Definition sign_python (x : sign) : text :=
  match x with Plain c => [c] | Percent => chars "e-2" | Caret => chars "**" | Break => [] end.
Definition signs_text (l : list sign) : text := flat_map sign_text l.
Definition signs_python (l : list sign) : text := flat_map sign_python l.
Fixpoint signs_ok (l : list sign) : Prop :=
  match l with
  | [] => True
  | Plain c :: l => c <> "%"%char /\ c <> "^"%char /\
                    (c = carriage_return -> forall l', l <> Plain newline :: l') /\ signs_ok l
  | _ :: l => signs_ok l
  end.

(** ** Powers

    Text, then clauses power(base;exponent), each followed by some text.  [c_base'] and
    [c_exponent'] are how Python writes the numbers. *)
Record clause := Clause { c_base : text; c_exponent : text; c_base' : text; c_exponent' : text; c_after : text }.
Definition clause_text (c : clause) : text :=
  chars "power(" ++ c_base c ++ chars ";" ++ c_exponent c ++ chars ")" ++ c_after c.
Definition clause_python (c : clause) : text :=
  chars "((" ++ c_base' c ++ chars ")**(" ++ c_exponent' c ++ chars "))" ++ c_after c.
Definition powers_text (t : text) (l : list clause) : text := t ++ flat_map clause_text l.
Definition powers_python (t : text) (l : list clause) : text := t ++ flat_map clause_python l.

Definition without_power (t : text) : Prop := ~ exists pre post, t = pre ++ chars "power(" ++ post.
(** A clause is not the end of a longer name. *)
Definition apart (t : text) : Prop := forall pre, t <> pre ++ chars "r".
(** A number: no parentheses, no semicolon. *)
Definition number (pyfloat : text -> result text) (s s' : text) : Prop :=
  s <> [] /\ pyfloat s = Ok s' /\ Forall (fun c => c <> semicolon /\ c <> open_paren /\ c <> close_paren) s /\
  Forall (fun c => c <> semicolon /\ c <> open_paren /\ c <> close_paren) s'.
(** No parenthesis is closed after a clause before the next semicolon. *)
Definition nothing_closed (t : text) : Prop :=
  forall pre post, t = pre ++ close_paren :: post -> semicolon ∈ pre.
Definition clause_ok (pyfloat : text -> result text) (c : clause) : Prop :=
  number pyfloat (c_base c) (c_base' c) /\ number pyfloat (c_exponent c) (c_exponent' c) /\
  without_power (c_after c) /\ nothing_closed (c_after c).
Definition powers_ok (pyfloat : text -> result text) (t : text) (l : list clause) : Prop :=
  without_power t /\ (l <> [] -> apart t) /\ Forall (clause_ok pyfloat) l /\
  Forall (fun c => apart (c_after c)) (removelast l) /\ NoDup (map (fun c => (c_base c, c_exponent c)) l).

(** What the regular expression finds. *)
Definition has_power (s : text) : Prop :=
  exists pre b e post, s = pre ++ chars "power(" ++ b ++ chars ";" ++ e ++ chars ")" ++ post /\
    b <> [] /\ e <> [] /\ semicolon ∉ b /\ semicolon ∉ e.

(** ** Texts with nothing to rewrite *)
Definition plain_text (s : text) : Prop :=
  "%"%char ∉ s /\ "^"%char ∉ s /\ ~ (exists pre post, s = pre ++ [carriage_return; newline] ++ post) /\
  ~ (exists pre post, s = pre ++ chars "if(" ++ post) /\ ~ has_power s.
