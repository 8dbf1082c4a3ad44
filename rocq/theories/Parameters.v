(** Model of transformations/parameterization: implicit_references.py,
    known_ecoinvent_issues.py, production_volumes.py, validation.py and the
    functions over datasets of python_compatibility.py.

    Not modelled: log records.  Oracles as in Formulas.v; in addition [fresh n] is
    the n-th identifier made by [uuid.uuid4()]. *)
From Coq Require Import Ascii.
From stdpp Require Export gmap.
From Verif Require Import Base Types Uncertainty Utils Strings Recalculation Formulas.

(** ** Changing variables and formulas

    [for exc in iterate_all_parameters(ds): ...] with a body that only looks at, and
    only changes, 'variable' and 'formula' of [exc]; [f] gets and returns both.
    Objects with neither are not visited: every [f] below leaves them alone. *)
Notation named := (option string * option string)%type.
Definition change_pv (f : named -> result named) (v : pvol) : result pvol :=
  let? n := f (v_variable v, v_formula v) in Ok (set_v_formula n.2 (set_v_variable n.1 v)).
Definition change_prop (f : named -> result named) (p : prop) : result prop :=
  let? n := f (p_variable p, p_formula p) in Ok (set_p_formula n.2 (set_p_variable n.1 p)).
Definition change_param (f : named -> result named) (q : param) : result param :=
  let? n := f (q_variable q, q_formula q) in Ok (set_q_formula n.2 (set_q_variable n.1 q)).
Definition change_exchange (f : named -> result named) (e : exchange) : result exchange :=
  let? n := f (e_variable e, e_formula e) in
  let? v := optR (change_pv f) (e_pv e) in
  let? ps := mapR (change_prop f) (e_props e) in
  Ok (set_e_props ps (set_e_pv v (set_e_formula n.2 (set_e_variable n.1 e)))).
Definition change_dataset (f : named -> result named) (ds : dataset) : result dataset :=
  let? es := mapR (change_exchange f) (d_exchanges ds) in
  let? qs := mapR (change_param f) (d_params ds) in
  Ok (set_d_params qs (set_d_exchanges es ds)).

(** python_compatibility.py lines 156-166, [lowercase_all_parameters]. *)
Definition lowercase_all_parameters (data : list dataset) : result (list dataset) :=
  mapR (change_dataset (fun n => Ok (lower <$> n.1, lower <$> n.2))) data.

(** python_compatibility.py lines 133-148, [fix_math_formulas]. *)
Definition fix_math_formulas (pyfloat : text -> result text) (data : list dataset)
  : result (list dataset) :=
  mapR (change_dataset (fun n => let? f := optR (fix_math_formula pyfloat) n.2 in Ok (n.1, f))) data.

(** python_compatibility.py lines 233-249, [replace_reserved_words]. *)
Definition reserved_variable (v : string) : string :=
  if bool_decide (v ∈ RESERVED_WORDS) then upper v else v.
Definition replace_reserved_words (words : list string) (parses : string -> bool)
    (data : list dataset) : result (list dataset) :=
  mapR (change_dataset (fun n => Ok (reserved_variable <$> n.1,
                                     check_and_fix_formula words parses <$> n.2))) data.

(** python_compatibility.py lines 257-273, [delete_unparsable_formulas]. *)
Definition delete_unparsable_formulas (parses : string -> bool) (data : list dataset)
  : result (list dataset) :=
  mapR (change_dataset (fun n => Ok (n.1, match n.2 with
                                          | Some f => if parses f then Some f else None
                                          | None => None
                                          end))) data.

(** known_ecoinvent_issues.py lines 7-27, [KNOWN_SUBSTITUTIONS]. *)
Definition KNOWN_SUBSTITUTIONS : list (string * string * string) :=
  [("thermoforming of plastic sheets", "1/014000000/50*0.946", "1.3514285714285711e-09");
   ("benzene chlorination", "UnitConversion(152000000, 'pound avoirdupois', 'kg')", "68949040.24");
   ("glued laminated timber production, for indoor use",
    "AVERAGE(3.08E04;4.00E04;3.39E04)*(AVERAGE(367561;433458;449963)/AVERAGE(1408383;1631979;1717500))",
    "9176.23");
   ("cement production, alternative constituents 6-20%",
    "ABS(blast_furnace_slag/ cement* APV_cement)",
    "(abs(blast_furnace_slag / cement * apv_cement) if cement else 0)")]%string.

(** Lines 29-45, [fix_known_bad_formula_strings]. *)
Definition fix_known_bad (ds : dataset) : result dataset :=
  foldR (fun ds s =>
    if (d_name ds =? s.1.1)%string
    then change_dataset (fun n => Ok (n.1, str_replace s.1.2 s.2 <$> n.2)) ds
    else Ok ds) ds KNOWN_SUBSTITUTIONS.
Definition fix_known_bad_formula_strings (data : list dataset) : result (list dataset) :=
  mapR fix_known_bad data.

(** Lines 48-68, [fix_specific_ecoinvent_issues]. *)
Definition fix_specific_ecoinvent_issues (data : list dataset) : list dataset :=
  map (fun ds =>
    if (d_name ds =? "petroleum refinery operation")%string
    then set_d_exchanges (filterb (fun e => negb (e_name e =? "refinery gas")%string
                                            || Qctruthy (e_amount e)) (d_exchanges ds)) ds
    else ds) data.

(** ** validation.py lines 6-19, [variable_names_are_unique] *)
Fixpoint unique_names (found : list string) (l : list string) : result unit :=
  match l with
  | [] => Ok tt
  | v :: l => if bool_decide (v ∈ found) then Err ParameterizationError
              else unique_names (v :: found) l
  end.
Definition has_variable (o : pobj) : option string :=
  match o_variable o with
  | Some v => if (v =? "")%string then None else Some v
  | None => None
  end.
Definition variable_names_are_unique (data : list dataset) : result (list dataset) :=
  let? _ := mapR (fun ds => unique_names [] (omap has_variable (iterate_all_parameters ds))) data in
  Ok data.

(** ** production_volumes.py lines 9-43, [create_pv_parameters]

    A production volume always has an amount, so it is never empty. *)
Definition shifted (id : string) (e : exchange) (v : pvol) (name : string) : param :=
  set_q_formula (v_formula v) (set_q_amount (v_amount v) (set_q_variable (Some name)
    (set_q_name (Some ("Shifted PV parameter: " ++ name)%string) (set_q_id (Some id)
      (set_q_unit (Some (e_unit e)) param0))))).
Definition plain_pv (v : pvol) : pvol := set_v_formula None (set_v_variable None v).
Fixpoint shift_pvs (fresh : nat -> string) (next : nat) (es : list exchange)
  : list exchange * list param :=
  match es with
  | [] => ([], [])
  | e :: es =>
      match e_pv e with
      | None => let r := shift_pvs fresh next es in (e :: r.1, r.2)
      | Some v =>
          let e' := set_e_pv (Some (plain_pv v)) e in
          match v_variable v with
          | Some name => let r := shift_pvs fresh (S next) es in
                         (e' :: r.1, shifted (fresh next) e v name :: r.2)
          | None => let r := shift_pvs fresh next es in (e' :: r.1, r.2)
          end
      end
  end.
Definition create_pv_parameters (fresh : nat -> string) (ds : dataset) : dataset :=
  let r := shift_pvs fresh 0 (d_exchanges ds) in
  set_d_params (d_params ds ++ r.2) (set_d_exchanges r.1 ds).

(** ** implicit_references.py *)

(** io/ecospold2_meta.py line 77, [UUID]. *)
Definition hex (c : ascii) : bool :=
  let n := N_of_ascii c in ((48 <=? n) && (n <=? 57) || (97 <=? n) && (n <=? 102))%N.
Fixpoint hexes (n : nat) (s : text) : option text :=
  match n, s with
  | O, _ => Some s
  | S n, c :: s => if hex c then hexes n s else None
  | S _, [] => None
  end.
Definition dash (s : text) : option text :=
  match s with c :: s => if bool_decide (c = "-"%char) then Some s else None | [] => None end.
Definition uuid_rest (s : text) : option text :=
  ((((((((hexes 8 s ≫= dash) ≫= hexes 4) ≫= dash) ≫= hexes 4) ≫= dash) ≫= hexes 4) ≫= dash) ≫= hexes 12).

(** Lines 79-84 there, [REFERENCE_REGULAR_EXPRESSIONS]: what a match at the beginning
    of [s] gives, the text matched and the identifier. *)
Definition EXCHANGE_END : text := chars "')".
Definition PV_END : text := chars "', 'ProductionVolume')".
Definition reference_at (ending s : text) : option (text * text) :=
  if starts (chars "Ref('") s || starts (chars "ref('") s then
    match uuid_rest (drop 5 s) with
    | Some r => if starts ending r then Some (take (41 + length ending) s, take 36 (drop 5 s)) else None
    | None => None
    end
  else None.
(** [finditer]; matches do not overlap. *)
Fixpoint references (ending s : text) : list (text * text) :=
  match s with
  | [] => []
  | _ :: s' => match reference_at ending s with
               | Some r => r :: references ending s'
               | None => references ending s'
               end
  end.

(** The objects of a dataset. *)
Inductive address := AtExchange (i : nat) | AtVolume (i : nat) | AtProperty (i j : nat) | AtParameter (k : nat).
Definition variable_at (ds : dataset) (a : address) : option string :=
  match a with
  | AtExchange i => d_exchanges ds !! i ≫= e_variable
  | AtVolume i => (d_exchanges ds !! i ≫= e_pv) ≫= v_variable
  | AtProperty i j => (d_exchanges ds !! i ≫= (fun e => e_props e !! j)) ≫= p_variable
  | AtParameter k => d_params ds !! k ≫= q_variable
  end.
Definition formula_at (ds : dataset) (a : address) : option string :=
  match a with
  | AtExchange i => d_exchanges ds !! i ≫= e_formula
  | AtVolume i => (d_exchanges ds !! i ≫= e_pv) ≫= v_formula
  | AtProperty i j => (d_exchanges ds !! i ≫= (fun e => e_props e !! j)) ≫= p_formula
  | AtParameter k => d_params ds !! k ≫= q_formula
  end.
Definition put_variable (x : string) (ds : dataset) (a : address) : dataset :=
  match a with
  | AtExchange i => set_d_exchanges (alter (set_e_variable (Some x)) i (d_exchanges ds)) ds
  | AtVolume i => set_d_exchanges (alter (fun e => set_e_pv (set_v_variable (Some x) <$> e_pv e) e) i (d_exchanges ds)) ds
  | AtProperty i j => set_d_exchanges (alter (fun e => set_e_props (alter (set_p_variable (Some x)) j (e_props e)) e) i (d_exchanges ds)) ds
  | AtParameter k => set_d_params (alter (set_q_variable (Some x)) k (d_params ds)) ds
  end.
Definition put_formula (x : string) (ds : dataset) (a : address) : dataset :=
  match a with
  | AtExchange i => set_d_exchanges (alter (set_e_formula (Some x)) i (d_exchanges ds)) ds
  | AtVolume i => set_d_exchanges (alter (fun e => set_e_pv (set_v_formula (Some x) <$> e_pv e) e) i (d_exchanges ds)) ds
  | AtProperty i j => set_d_exchanges (alter (fun e => set_e_props (alter (set_p_formula (Some x)) j (e_props e)) e) i (d_exchanges ds)) ds
  | AtParameter k => set_d_params (alter (set_q_formula (Some x)) k (d_params ds)) ds
  end.
(** utils.py lines 105-118, in the order of iteration. *)
Definition exchange_addresses (ie : nat * exchange) : list address :=
  AtExchange ie.1 :: AtVolume ie.1 :: imap (fun j _ => AtProperty ie.1 j) (e_props ie.2).
Definition addresses (ds : dataset) : list address :=
  concat (imap (fun i e => exchange_addresses (i, e)) (d_exchanges ds))
  ++ imap (fun k _ => AtParameter k) (d_params ds).

(** Lines 25-35, [find_exchange_or_parameter_by_id]. *)
Fixpoint find_id {A} (id : A -> option string) (uuid : string) (i : nat) (l : list A)
  : result (option nat) :=
  match l with
  | [] => Ok None
  | x :: l => let? k := getkey "id" (id x) in
              if (k =? uuid)%string then Ok (Some i) else find_id id uuid (S i) l
  end.
Definition find_exchange_or_parameter_by_id (ds : dataset) (uuid : string) : result address :=
  let? e := find_id e_id uuid 0 (d_exchanges ds) in
  match e with
  | Some i => Ok (AtExchange i)
  | None => let? q := find_id q_id uuid 0 (d_params ds) in
            match q with Some k => Ok (AtParameter k) | None => Err ValueError end
  end.
(** Lines 38-47, [find_production_volume_by_id]. *)
Definition find_production_volume_by_id (ds : dataset) (uuid : string) : result address :=
  let? e := find_id e_id uuid 0 (d_exchanges ds) in
  match e with
  | Some i => if bool_decide (d_exchanges ds !! i ≫= e_pv <> None) then Ok (AtVolume i)
              else Err ValueError
  | None => Err ValueError
  end.

(** Lines 50-85, [replace_implicit_references]. *)
Definition replace_reference (find : dataset -> string -> result address) (prefix : string)
    (a : address) (ds : dataset) (r : text * text) : result dataset :=
  let? target := find ds (str r.2) in
  let variable := match variable_at ds target with
                  | Some v => v
                  | None => (prefix ++ str_replace "-" "" (str r.2))%string
                  end in
  let ds := if bool_decide (variable_at ds target = None)
            then put_variable variable ds target else ds in
  match formula_at ds a with
  | Some f => Ok (put_formula (str_replace (str r.1) variable f) ds a)
  | None => Ok ds
  end.
Definition formula_references (ending : text) (ds : dataset) (a : address) : list (text * text) :=
  match formula_at ds a with Some f => references ending (chars f) | None => [] end.
Definition replace_references_of (ds : dataset) (a : address) : result dataset :=
  let? ds := foldR (replace_reference find_exchange_or_parameter_by_id "ref_replacement_" a) ds
               (formula_references EXCHANGE_END ds a) in
  foldR (replace_reference find_production_volume_by_id "ref_pv_replacement_" a) ds
    (formula_references PV_END ds a).
Definition replace_implicit_references (data : list dataset) : result (list dataset) :=
  mapR (fun ds => foldR replace_references_of ds (addresses ds)) data.

(** ** __init__.py lines 19-29, [fix_ecoinvent_parameters] *)
Definition fix_ecoinvent_parameters (ln : Qc -> Qc) (euler : Qc) (pyfloat : text -> result text)
    (words : list string) (parses : string -> bool) (data : list dataset) : result (list dataset) :=
  let? data := replace_implicit_references (fix_specific_ecoinvent_issues data) in
  let? data := repair_all_uncertainty_distributions ln euler data in
  let? data := fix_known_bad_formula_strings data in
  let? data := lowercase_all_parameters data in
  let? data := fix_math_formulas pyfloat data in
  let? data := replace_reserved_words words parses data in
  delete_unparsable_formulas parses data.

Global Arguments change_exchange : simpl never.
Global Arguments change_dataset : simpl never.
Global Arguments replace_reference : simpl never.
Global Arguments create_pv_parameters : simpl never.
