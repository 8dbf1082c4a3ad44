(** Specification for C17 and C50: what recalculating a dataset means. *)
From stdpp Require Export gmap.
From Verif Require Import Base Types Recalculation.

(** A number in a dataset: its variable name, formula and value. *)
Definition quantity : Type := option string * option string * Qc.
Definition q_var (q : quantity) : option string := q.1.1.
Definition q_form (q : quantity) : option string := q.1.2.
Definition q_val (q : quantity) : Qc := q.2.

(** The numbers of an exchange: amount, production volume, properties. *)
Definition exchange_quantities (e : exchange) : list quantity :=
  (e_variable e, e_formula e, e_amount e)
  :: match e_pv e with
     | Some v => [(v_variable v, v_formula v, v_amount v)]
     | None => []
     end
  ++ map (fun p => (p_variable p, p_formula p, p_amount p)) (e_props e).
Definition param_quantity (p : param) : quantity := (q_variable p, q_formula p, q_amount p).
Definition quantities (ds : dataset) : list quantity :=
  concat (map exchange_quantities (d_exchanges ds)) ++ map param_quantity (d_params ds).

(** Formula [f] has value [x]; a division by zero counts as 0. *)
Definition formula_value (eval : gmap string Qc -> string -> result Qc)
    (m : gmap string Qc) (f : string) (x : Qc) : Prop :=
  eval m f = Ok x \/ (eval m f = Err ZeroDivisionError /\ x = 0%Qc).

(** [q'] is [q] with the value that its formula has under [m], or else that
    its variable has under [m], or else its old value. *)
Definition revalued (eval : gmap string Qc -> string -> result Qc) (m : gmap string Qc)
    (q q' : quantity) : Prop :=
  q_var q' = q_var q /\ q_form q' = q_form q /\
  match q_form q, q_var q with
  | Some f, _ => formula_value eval m f (q_val q')
  | None, Some n => m !! n = Some (q_val q')
  | None, None => q_val q' = q_val q
  end.

(** Everything but values and uncertainties. *)
Definition blank_exchange (e : exchange) : exchange :=
  set_e_unc None (set_e_amount 0%Qc
    (set_e_pv (option_map (fun v => set_v_unc None (set_v_amount 0%Qc v)) (e_pv e))
       (set_e_props (map (fun p => set_p_unc None (set_p_amount 0%Qc p)) (e_props e)) e))).
Definition blank_param (p : param) : param := set_q_unc None (set_q_amount 0%Qc p).

Definition exchange_revalued eval m (e e' : exchange) : Prop :=
  blank_exchange e' = blank_exchange e /\
  Forall2 (revalued eval m) (exchange_quantities e) (exchange_quantities e').
Definition param_revalued eval m (p p' : param) : Prop :=
  blank_param p' = blank_param p /\ revalued eval m (param_quantity p) (param_quantity p').
Definition dataset_revalued eval m (ds ds' : dataset) : Prop :=
  exists es ps, ds' = set_d_params ps (set_d_exchanges es ds) /\
    Forall2 (exchange_revalued eval m) (d_exchanges ds) es /\
    Forall2 (param_revalued eval m) (d_params ds) ps.

(** Variable names are used once. *)
Definition unique_variables (ds : dataset) : Prop := NoDup (omap q_var (quantities ds)).

(** An order of evaluation: every key once, and after the keys its formula uses. *)
Definition topological (uses : string -> list string) (params : gmap string pobj)
    (keys : list string) : Prop :=
  NoDup keys /\ (forall k, k ∈ keys <-> is_Some (params !! k)) /\
  forall pre k post o f, keys = pre ++ k :: post -> params !! k = Some o ->
    o_formula o = Some f -> forall x, x ∈ uses f -> x ∈ keys -> x ∈ pre.

(** The external package returns such orders. *)
Definition orders_by (uses : string -> list string)
    (order : gmap string pobj -> result (list string)) : Prop :=
  forall params keys, order params = Ok keys -> topological uses params keys.
