(** Specification for C94: tables of changes to formulas. *)
From Coq Require Import Ascii.
From Verif Require Import Base Types Uncertainty Utils Strings Recalculation Formulas Spec_Parameters Spec_References Tables.

(** The rows of each object, one object after the other, account for what became of it. *)
Definition accounted (R : dataset -> dataset -> pobj -> pobj -> list row -> Prop) (data data' : list dataset) (rows : list row) : Prop :=
  exists rss, rows = concat (map (fun rs => concat rs) rss) /\
    Forall3 (fun ds ds' rs => Forall3 (R ds ds') (all_objs ds) (all_objs ds') rs) data data' rss.

(** Doing what the rows say, one after the other, turns [f] into [f']: a row shows an element
    [old] and its replacement [new]. *)
Inductive replay (shows : string -> string -> string -> row -> Prop) : string -> list row -> string -> Prop :=
  | replay_nil f : replay shows f [] f
  | replay_cons f old new r rows f' : shows f old new r -> replay shows (str_replace old new f) rows f' ->
      replay shows f (r :: rows) f'.
Definition replayed (shows : string -> string -> string -> row -> Prop) (o o' : pobj) (rows : list row) : Prop :=
  match o_formula o with
  | None => o_formula o' = None /\ rows = []
  | Some f => exists f', o_formula o' = Some f' /\ replay shows f rows f'
  end.
(** The element is in the formula. *)
Definition math_shown (name f old new : string) (r : row) : Prop :=
  str_contains old f = true /\ (r = [Txt name; Txt f; Txt old; Txt new] \/ r = [Txt name; Txt ""; Txt old; Txt new]).

(** A row for each reference of the formula, to exchanges and parameters first: the reference,
    and the variable of what it refers to. *)
Definition to_object (p : rpiece) : bool := match p with RExchange _ _ => true | _ => false end.
Definition to_volume (p : rpiece) : bool := match p with RVolume _ _ => true | _ => false end.
Definition reference_shown (ds' : dataset) (name : string) (p : rpiece) (r : row) : Prop :=
  exists o v, referred ds' p o /\ o_variable o = Some v /\ r = [Txt name; Txt (str (rpiece_text p)); Txt v].
Definition references_shown (ds' : dataset) (name : string) (o : pobj) (rows : list row) : Prop :=
  match o_formula o with
  | None => rows = []
  | Some f => exists l, Forall rpiece_ok l /\ f = str (rtext l) /\
                Forall2 (reference_shown ds' name) (filterb to_object l ++ filterb to_volume l) rows
  end.

(** The row of a variable, and the rows of a formula: the words which they list, in capital
    letters, give the new formula, or the formula stays. *)
Definition capitals (f : string) (ws : list string) : string := foldl (fun u w => str_replace w (upper w) u) f ws.
Definition reserved_accounted (parses : string -> bool) (words : list string) (name : string) (o o' : pobj) (rows : list row) : Prop :=
  exists vrows wss frows,
    rows = vrows ++ frows /\
    (vrows = [] /\ o_variable o' = o_variable o \/
     exists v, o_variable o = Some v /\ v ∈ RESERVED_WORDS /\ o_variable o' = Some (upper v) /\ vrows = [[Txt name; Txt v; Txt v]]) /\
    Forall (fun ws => ws <> [] /\ Forall (fun w => w ∈ words) ws) wss /\
    match o_formula o with
    | None => o_formula o' = None /\ frows = []
    | Some f => frows = map (fun ws => [Txt name; Txt (String.concat ";" ws); Txt f]) wss /\
                exists f', o_formula o' = Some f' /\
                  (f' = capitals f (concat wss) /\ parses f' = true \/
                   f' = f /\ parses (capitals f (concat wss)) = false)
    end.

(** The text in pieces of 40 characters. *)
Definition in_pieces (f shown : string) : Prop :=
  exists ps, f = String.concat "" ps /\ shown = String.concat " " ps /\
    Forall (fun p => 0 < String.length p <= 40)%nat ps /\
    forall i p, ps !! i = Some p -> (S i < List.length ps)%nat -> String.length p = 40%nat.
Definition deletion_shown (parses : string -> bool) (name : string) (o o' : pobj) (rows : list row) : Prop :=
  o_variable o' = o_variable o /\
  match o_formula o with
  | None => o_formula o' = None /\ rows = []
  | Some f => parses f = true /\ o_formula o' = Some f /\ rows = [] \/
              parses f = false /\ o_formula o' = None /\ exists shown, in_pieces f shown /\ rows = [[Txt name; Txt shown]]
  end.
