(** Specifications for C46-C49 and C62-C64. *)
From Coq Require Import Ascii.
From Verif Require Import Base Types Uncertainty Utils Strings Recalculation Formulas.

(** The dataset without variables and formulas: what the passes over parameters must
    leave alone. *)
Definition unnamed_pv (v : pvol) : pvol := set_v_variable None (set_v_formula None v).
Definition unnamed_prop (p : prop) : prop := set_p_variable None (set_p_formula None p).
Definition unnamed_param (q : param) : param := set_q_variable None (set_q_formula None q).
Definition unnamed_exchange (e : exchange) : exchange :=
  set_e_variable None (set_e_formula None
    (set_e_pv (unnamed_pv <$> e_pv e) (set_e_props (map unnamed_prop (e_props e)) e))).
Definition unnamed (ds : dataset) : dataset :=
  set_d_exchanges (map unnamed_exchange (d_exchanges ds)) (set_d_params (map unnamed_param (d_params ds)) ds).

(** Two datasets that differ in variables and formulas only; the objects with
    variables or formulas are related by [R]. *)
Definition renamed (R : pobj -> pobj -> Prop) (ds ds' : dataset) : Prop :=
  unnamed ds' = unnamed ds /\
  Forall2 (fun o o' => o_value o' = o_value o /\ R o o') (all_objs ds) (all_objs ds').

(** The same text but for the case of letters. *)
Definition same_letter (c d : ascii) : Prop :=
  c = d \/ (65 <= nat_of_ascii c <= 90 /\ nat_of_ascii d = nat_of_ascii c + 32)%nat
  \/ (65 <= nat_of_ascii d <= 90 /\ nat_of_ascii c = nat_of_ascii d + 32)%nat.
Definition same_letters (s t : string) : Prop := Forall2 same_letter (chars s) (chars t).

(** The variables of a dataset, empty names left out. *)
Definition variables (ds : dataset) : list string :=
  filter (fun v => v <> ""%string) (omap o_variable (all_objs ds)).

(** ** Names in formulas

    A formula is a sequence of names (letters, digits and underscores) and other
    characters. *)
Inductive piece := Name (s : text) | Sign (c : ascii).
Definition piece_text (p : piece) : text := match p with Name s => s | Sign c => [c] end.
Definition pieces_text (l : list piece) : text := flat_map piece_text l.
Definition word_char (c : ascii) : bool :=
  let n := N_of_ascii c in
  ((97 <=? n) && (n <=? 122) || (65 <=? n) && (n <=? 90) || (n =? 95) || (48 <=? n) && (n <=? 57))%N.
(** Names are as long as possible. *)
Fixpoint pieces_ok (l : list piece) : Prop :=
  match l with
  | [] => True
  | Sign c :: l => word_char c = false /\ pieces_ok l
  | Name s :: l => s <> [] /\ Forall (fun c => word_char c = true) s /\
                   match l with Name _ :: _ => False | _ => True end /\ pieces_ok l
  end.
(** No reserved word is a proper part of a name. *)
Definition no_word_inside (l : list piece) : Prop :=
  forall s w pre post, Name s ∈ l -> w ∈ RESERVED_WORDS -> s = pre ++ chars w ++ post -> s = chars w.
(** Names that are reserved words in capitals. *)
Definition rename_name (s : text) : text :=
  if bool_decide (str s ∈ RESERVED_WORDS) then chars (upper (str s)) else s.
Definition rename_piece (p : piece) : piece :=
  match p with Name s => Name (rename_name s) | Sign c => Sign c end.
(** Only the reserved word at the beginning, if something follows it, in capitals, wherever it occurs. *)
Definition ren (w u : text) (p : piece) : piece :=
  match p with Name s => Name (if bool_decide (s = w) then u else s) | Sign c => Sign c end.
Definition head_word (l : list piece) : option string :=
  match l with
  | Name s :: _ :: _ => if bool_decide (str s ∈ RESERVED_WORDS) then Some (str s) else None
  | _ => None
  end.
Definition rename_first (l : list piece) : list piece :=
  match head_word l with Some w => map (ren (chars w) (chars (upper w))) l | None => l end.

(** ** References by identifier *)
Definition quote : ascii := "'"%char.
Inductive rpiece := RChar (c : ascii) | RExchange (capital : bool) (u : text) | RVolume (capital : bool) (u : text).
Definition ref_begin (capital : bool) : text := chars (if capital then "Ref('" else "ref('").
Definition rpiece_text (p : rpiece) : text :=
  match p with
  | RChar c => [c]
  | RExchange b u => ref_begin b ++ u ++ chars "')"
  | RVolume b u => ref_begin b ++ u ++ chars "', 'ProductionVolume')"
  end.
Definition rtext (l : list rpiece) : text := flat_map rpiece_text l.
Definition hex_digit (c : ascii) : Prop := c ∈ chars "0123456789abcdef".
Definition uuid_ok (u : text) : Prop :=
  exists a b c d e, u = a ++ chars "-" ++ b ++ chars "-" ++ c ++ chars "-" ++ d ++ chars "-" ++ e /\
    length a = 8%nat /\ length b = 4%nat /\ length c = 4%nat /\ length d = 4%nat /\ length e = 12%nat /\
    Forall hex_digit (a ++ b ++ c ++ d ++ e).
Definition rpiece_ok (p : rpiece) : Prop :=
  match p with RChar c => c <> quote | RExchange _ u | RVolume _ u => uuid_ok u end.
(** The first element of a list with an identifier. *)
Definition first_with {A} (id : A -> option string) (u : string) (l : list A) (i : nat) : Prop :=
  (exists x, l !! i = Some x /\ id x = Some u) /\
  forall j y, (j < i)%nat -> l !! j = Some y -> id y <> Some u.
