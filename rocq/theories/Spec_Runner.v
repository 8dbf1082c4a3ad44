(** Specifications for C51, C52, C53 and C56. *)
From Coq Require Import Ascii.
From Verif Require Import Base Types Strings Formulas Runner.

Section spec.
Context {A : Type}.

(** ** Running functions one after another *)
Record step := Step { s_func : func A; s_before : list A; s_messages : list message; s_after : list A }.
Inductive steps : list (func A) -> list A -> list step -> list A -> Prop :=
  | steps_nil data : steps [] data [] data
  | steps_cons f fs data data1 ms tr data2 :
      f_run f data = Ok (data1, ms) -> steps fs data1 tr data2 ->
      steps (f :: fs) data (Step f data ms data1 :: tr) data2.

(** What is in the log. *)
Definition name_of (f : func A) : string := default ""%string (f_name f).
Definition meta_of (f : func A) : meta := Meta (name_of f) (f_doc f) (f_table f).
Definition step_events (i : nat) (s : step) : list event :=
  FunctionStart (meta_of (s_func s)) i (length (s_before s)) ::
  map Logged (s_messages s) ++ [FunctionEnd (meta_of (s_func s)) i (length (s_after s))].
Fixpoint events (i : nat) (tr : list step) : list event :=
  match tr with [] => [] | s :: tr => step_events i s ++ events (S i) tr end.
Fixpoint stamp (clock : nat -> Qc) (n : nat) (l : list event) : list (event * Qc) :=
  match l with [] => [] | e :: l => (e, clock n) :: stamp clock (S n) l end.
(** What is saved. *)
Fixpoint saved (save : Z -> bool) (i : nat) (tr : list step) : list (option (nat * string) * list A) :=
  match tr with
  | [] => []
  | s :: tr => (if save (Z.of_nat i) then [(Some (i, name_of (s_func s)), s_after s)] else []) ++ saved save (S i) tr
  end.
Fixpoint followed (follow : option (A -> bool)) (i : nat) (tr : list step) : list (nat * list A) :=
  match tr with
  | [] => []
  | s :: tr => match follow with
               | Some p => if existsb p (s_after s) then [(i, filterb p (s_after s))] else []
               | None => []
               end ++ followed follow (S i) tr
  end.

(** ** What the report should say *)
Definition message_data (m : message) : string := match m with TableElement d | ListElement d => d end.
(** Functions with a table log rows of the table, other functions elements of a list. *)
Definition message_fits (f : func A) (m : message) : Prop :=
  match m, f_table f with TableElement _, Some _ | ListElement _, None => True | _, _ => False end.
(** [k] is the line in which the function starts. *)
Definition last_line (k : nat) (s : step) : nat := (k + 1 + length (s_messages s))%nat.
Definition entry_of (clock : nat -> Qc) (k : nat) (s : step) : entry :=
  let datas := map message_data (s_messages s) in
  let table := f_table (s_func s) in
  Entry (clock k) (if table then Some datas else None) (if table then None else Some datas)
    (Some ((clock (last_line k s) - clock k)%Qc, clock (last_line k s), length (s_after s), name_of (s_func s), table)).
Fixpoint entries (clock : nat -> Qc) (i k : nat) (tr : list step) : list (nat * entry) :=
  match tr with
  | [] => []
  | s :: tr => (i, entry_of clock k s) :: entries clock (S i) (S (last_line k s)) tr
  end.
Fixpoint ends (clock : nat -> Qc) (k : nat) (tr : list step) : list (string * Qc) :=
  match tr with
  | [] => []
  | s :: tr => (name_of (s_func s), clock (last_line k s)) :: ends clock (S (last_line k s)) tr
  end.
Definition lines (tr : list step) : nat := sum_list (map (fun s => 2 + length (s_messages s))%nat tr).
End spec.
Arguments step : clear implicits.

(** ** Integers written in decimal *)
Definition digit_value (c : ascii) : Z := Z.of_nat (nat_of_ascii c) - 48.
Definition is_digit (c : ascii) : Prop := (48 <= nat_of_ascii c <= 57)%nat.
Fixpoint decimal (z : Z) (s : text) : Z :=
  match s with [] => z | c :: s => decimal (10 * z + digit_value c) s end.
(** [s] is the decimal notation of [z], perhaps with a sign. *)
Definition writes (s : text) (z : Z) : Prop :=
  exists ds, ds <> [] /\ Forall is_digit ds /\
    ((s = ds \/ s = "+"%char :: ds) /\ z = decimal 0 ds \/ s = "-"%char :: ds /\ z = (- decimal 0 ds)%Z).
