(** Specifications for C45: formulas with nested conditionals. *)
From Coq Require Import Ascii.
From Verif Require Import Base Formulas.

(** A formula: characters, parenthesised parts (also the arguments of functions)
    and conditionals. *)
Inductive tok :=
| Raw (c : ascii)
| Group (l : list tok)
| If (condition yes no : list tok).

(** How it is written in ecoinvent. *)
Fixpoint tok_text (x : tok) : text :=
  match x with
  | Raw c => [c]
  | Group l => [open_paren] ++ flat_map tok_text l ++ [close_paren]
  | If c a b => chars "if(" ++ flat_map tok_text c ++ [semicolon] ++ flat_map tok_text a
                ++ [semicolon] ++ flat_map tok_text b ++ [close_paren]
  end.
Definition written (l : list tok) : text := flat_map tok_text l.

(** The Python formula: conditionals become parenthesised expressions. *)
Definition raws (s : string) : list tok := map Raw (chars s).
Definition is_blank (x : tok) : bool := match x with Raw c => blank c | _ => false end.
Fixpoint drop_blanks (l : list tok) : list tok :=
  match l with
  | [] => []
  | x :: l' => if is_blank x then drop_blanks l' else l
  end.
Definition trim (l : list tok) : list tok := rev (drop_blanks (rev (drop_blanks l))).
Definition python_if (c a b : list tok) : tok :=
  if bool_decide (written a = written b) then Group (trim a)
  else Group ([Group a] ++ raws " if " ++ [Group c] ++ raws " else " ++ [Group b]).
Fixpoint to_python (x : tok) : tok :=
  match x with
  | Raw c => Raw c
  | Group l => Group (map to_python l)
  | If c a b => python_if (map to_python c) (map to_python a) (map to_python b)
  end.

(** Formulas the rewriting can handle.  Parentheses occur in groups only, there is no
    backslash, no name ending in "if" stands before a parenthesis; condition and
    first alternative are not empty and have no semicolon (which other functions
    separate their arguments with), the second is not empty and on one line. *)
Definition shape (x : tok) : option ascii := match x with Raw c => Some c | _ => None end.
Definition no_if_before_paren (l : list tok) : Prop :=
  forall l1 l2, map shape l <> l1 ++ [Some "i"%char; Some "f"%char; None] ++ l2.
Definition argument_ok (s : text) : Prop := s <> [] /\ semicolon ∉ s.
Definition last_argument_ok (s : text) : Prop := s <> [] /\ newline ∉ s.
Definition all (P : tok -> Prop) (l : list tok) : Prop := List.fold_right (fun x Q => P x /\ Q) True l.
Fixpoint tok_ok (x : tok) : Prop :=
  match x with
  | Raw c => c <> open_paren /\ c <> close_paren /\ c <> backslash
  | Group l => all tok_ok l /\ no_if_before_paren l
  | If c a b => (all tok_ok c /\ no_if_before_paren c) /\ (all tok_ok a /\ no_if_before_paren a) /\
                (all tok_ok b /\ no_if_before_paren b) /\
                argument_ok (written (map to_python c)) /\ argument_ok (written (map to_python a)) /\
                last_argument_ok (written (map to_python b))
  end.
Definition formula_ok (l : list tok) : Prop := all tok_ok l /\ no_if_before_paren l.

(** Values.  [flat] gives the value of a sequence of characters and values of
    parenthesised parts, whatever the operators, names and their precedence;
    [branch] is the value of a conditional. *)
Section value.
  Context {V : Type} (flat : list (ascii + V) -> V) (branch : V -> V -> V -> V).
  Fixpoint item (x : tok) : ascii + V :=
    match x with
    | Raw c => inl c
    | Group l => inr (flat (map item l))
    | If c a b => inr (branch (flat (map item c)) (flat (map item a)) (flat (map item b)))
    end.
  Definition value (l : list tok) : V := flat (map item l).
  (** What Python and Excel agree on: the meaning of [a if c else b], that blanks
      around an expression do not matter, and that a choice between equals does not. *)
  Definition blank_item (i : ascii + V) : Prop := match i with inl c => blank c = true | inr _ => False end.
  Definition python_like : Prop :=
    (forall c a b, flat ([inr a] ++ map inl (chars " if ") ++ [inr c] ++ map inl (chars " else ") ++ [inr b])
                   = branch c a b) /\
    (forall i l, blank_item i -> flat (i :: l) = flat l) /\
    (forall i l, blank_item i -> flat (l ++ [i]) = flat l) /\
    (forall c a, branch c a a = a).
End value.
