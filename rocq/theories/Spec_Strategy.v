(** Texts: every text as a save strategy (C53), and as the name of a file (C58). *)
From Coq Require Import Ascii.
From Verif Require Import Base Types Strings Formulas Spec_Runner Spec_Files.

(** Code points that Python takes off. *)
Definition space (c : ascii) : Prop := nat_of_ascii c ∈ [9; 10; 11; 12; 13; 28; 29; 30; 31; 32].
(** Digits, perhaps with single underscores between them. *)
Inductive grouped : text -> text -> Prop :=
  | grouped_one c : is_digit c -> grouped [c] [c]
  | grouped_next c s ds : is_digit c -> grouped s ds -> grouped (c :: s) (c :: ds)
  | grouped_under c s ds : is_digit c -> grouped s ds -> grouped (c :: "_"%char :: s) (c :: ds).
(** An optional sign and such digits. *)
Definition signed (s : text) (z : Z) : Prop :=
  exists t ds, grouped t ds /\
    ((s = t \/ s = "+"%char :: t) /\ z = decimal 0 ds \/ s = "-"%char :: t /\ z = (- decimal 0 ds)%Z).
(** The texts of which [int] makes [z]. *)
Definition python_int (s : text) (z : Z) : Prop :=
  exists before body after, s = before ++ body ++ after /\ Forall space before /\ Forall space after /\ signed body z.

(** [s] is the pieces with [sep] between them, and [sep] is in none of them. *)
Fixpoint joined (sep : ascii) (pieces : list text) : text :=
  match pieces with
  | [] => []
  | [p] => p
  | p :: pieces => p ++ sep :: joined sep pieces
  end.
Definition pieces_of (sep : ascii) (s : text) (pieces : list text) : Prop :=
  pieces <> [] /\ s = joined sep pieces /\ Forall (fun p => sep ∉ p) pieces.

(** What a strategy does: refuses with an error, or saves at the numbers [P]. *)
Definition refuses (r : result (Z -> bool)) (e : exn) : Prop := r = Err e.
Definition saves_at (r : result (Z -> bool)) (P : Z -> Prop) : Prop :=
  exists f, r = Ok f /\ forall x, f x = true <-> P x.
(** From [a] in steps of [c], not past [b]. *)
Definition from_to (a b c x : Z) : Prop := exists k, (0 <= k)%Z /\ x = (a + k * c)%Z /\ (x <= b)%Z.
Definition down_to (a b c x : Z) : Prop := exists k, (0 <= k)%Z /\ x = (a + k * c)%Z /\ (b + 1 < x)%Z.
(** What a list of numbers means. *)
Definition meaning (zs : list Z) (r : result (Z -> bool)) : Prop :=
  match zs with
  | [n] => if bool_decide (1 <= n)%Z then saves_at r (fun x => (n | x)%Z) else refuses r ValueError
  | [a; b] => saves_at r (from_to a b 1)
  | [a; b; c] => if bool_decide (c = 0%Z) then refuses r ValueError
                 else if bool_decide (0 < c)%Z then saves_at r (from_to a b c) else saves_at r (down_to a b c)
  | _ => refuses r TypeError
  end.

(** ** Names of files *)
Definition breaks (c : ascii) : Prop := space c \/ c = "-"%char.
Definition usable (c : ascii) : Prop := letter_digit c \/ breaks c.
(** The usable characters of a text, in order. *)
Inductive cleared : text -> text -> Prop :=
  | cleared_nil : cleared [] []
  | cleared_keep c s t : usable c -> cleared s t -> cleared (c :: s) (c :: t)
  | cleared_drop c s t : ~ usable c -> cleared s t -> cleared (c :: s) t.
(** Without the blanks at both ends. *)
Definition bare_of (s t : text) : Prop :=
  exists before after, s = before ++ t ++ after /\ Forall space before /\ Forall space after /\
    (forall c l, t = c :: l -> ~ space c) /\ (forall c l, t = l ++ [c] -> ~ space c).
(** Every longest run of blanks and hyphens becomes one hyphen. *)
Inductive hyphenated : text -> text -> Prop :=
  | hyphenated_nil : hyphenated [] []
  | hyphenated_char c s t : ~ breaks c -> hyphenated s t -> hyphenated (c :: s) (c :: t)
  | hyphenated_run run s t : run <> [] -> Forall breaks run -> (forall c l, s = c :: l -> ~ breaks c) ->
      hyphenated s t -> hyphenated (run ++ s) ("-"%char :: t).
Definition slug_of (s t : text) : Prop := exists u v, cleared s u /\ bare_of u v /\ hyphenated v t.
