(** Export to Brightway: ocelot/io/brightway2.py lines 10-11, 88-152.  The
    import of the result into a Brightway project (lines 155-190) is in [Import]. *)
From Verif Require Import Base Types Utils.
From Coq Require Import String.

Inductive bw_exchange :=
  | BwBiosphere (amount : Qc) (name unit : string) (categories : string * string)
  | BwTechnosphere (amount : Qc) (input : string * string)
  | BwProduction (amount : Qc) (input : string * string).
Global Instance bw_exchange_eq_dec : EqDecision bw_exchange.
Proof. solve_decision. Defined.

(** The fields of the dictionary built in lines 104-112. *)
Record bw_activity := BwActivity {
  b_code : string;
  b_scenario : string;
  b_end : string;
  b_filepath : string;
  b_location : string;
  b_name : string;
  b_start : string;
  b_tech : string;
  b_author : string;
  b_entry : string;
  b_database : string;
  b_unit : string;
  b_refprod : string;
  b_production : Qc;
  b_exchanges : list bw_exchange
}.

(** Line 10, [refinery_gas_is_the_bane_of_my_existence]; an empty code is false. *)
Definition not_refinery_gas (e : exchange) : bool :=
  bool_decide (e_name e <> "refinery gas"%string) ||
  match e_code e with Some s => bool_decide (s <> ""%string) | None => false end.

Definition exchange_code (e : exchange) : result string := from_option Ok (Err (KeyError "code")) (e_code e).
(** Lines 123-131. *)
Definition translate_biosphere_exchange (e : exchange) : result bw_exchange :=
  let? c := from_option Ok (Err (KeyError "compartment")) (e_compartment e) in
  let? s := from_option Ok (Err (KeyError "subcompartment")) (e_subcompartment e) in
  Ok (BwBiosphere (e_amount e) (e_name e) (e_unit e) (c, s)).
(** Lines 133-138. *)
Definition translate_technosphere_exchange (database : string) (e : exchange) : result bw_exchange :=
  let? c := exchange_code e in Ok (BwTechnosphere (e_amount e) (database, c)).
(** Lines 140-145. *)
Definition translate_production_exchange (database : string) (e : exchange) : result bw_exchange :=
  let? c := exchange_code e in Ok (BwProduction (e_amount e) (database, c)).
(** Lines 147-152. *)
Definition translate_byproduct_exchange (database : string) (e : exchange) : result bw_exchange :=
  let? c := exchange_code e in Ok (BwTechnosphere (- e_amount e)%Qc (database, c)).

(** Lines 97-103, [EXCHANGE_MAPPING]. *)
Definition translate_exchange (database : string) (e : exchange) : result bw_exchange :=
  match e_type e with
  | RefProduct => translate_production_exchange database e
  | Byproduct => translate_byproduct_exchange database e
  | FromTechnosphere => translate_technosphere_exchange database e
  | FromEnvironment | ToEnvironment => translate_biosphere_exchange e
  | DroppedProduct => Err (KeyError "dropped product")
  | EOther name => Err (KeyError name)
  end.

(** Lines 95-121, [translate_activity]; of the copied fields only the code can be
    missing. *)
Definition translate_activity (database : string) (ds : dataset) : result bw_activity :=
  let? code := from_option Ok (Err (KeyError "code")) (d_code ds) in
  let? rp := get_single_reference_product ds in
  let? es := mapR (translate_exchange database)
               (filterb (fun e => Qctruthy (e_amount e) && not_refinery_gas e) (d_exchanges ds)) in
  Ok (BwActivity code (d_scenario ds) (d_end ds) (d_filepath ds) (d_location ds) (d_name ds)
        (d_start ds) (d_tech ds) (d_author ds) (d_entry ds) database
        (e_unit rp) (e_name rp) (e_amount rp) es).

(** Lines 88-93, [convert_to_brightway2]; the list of what the generator gives. *)
Definition convert_to_brightway2 (data : list dataset) (database : string) : result (list bw_activity) :=
  mapR (translate_activity database) data.
