(** Specification for C72: references by identifier. *)
From Coq Require Import Ascii.
From Verif Require Import Base Types Uncertainty Utils Strings Recalculation Formulas Spec_Parameters.

(** What an identifier in a formula refers to: the first exchange with it, otherwise the
    first parameter with it; for a production volume, the one of the first exchange. *)
Definition unknown_to_exchanges (ds : dataset) (u : string) : Prop :=
  forall e, e ∈ d_exchanges ds -> e_id e <> Some u.
Definition object_of (ds : dataset) (u : string) (o : pobj) : Prop :=
  (exists i e, first_with e_id u (d_exchanges ds) i /\ d_exchanges ds !! i = Some e /\ o = e_obj e) \/
  (unknown_to_exchanges ds u /\
   exists k q, first_with q_id u (d_params ds) k /\ d_params ds !! k = Some q /\ o = q_obj q).
Definition volume_of (ds : dataset) (u : string) (o : pobj) : Prop :=
  exists i e v, first_with e_id u (d_exchanges ds) i /\ d_exchanges ds !! i = Some e /\ e_pv e = Some v /\ o = v_obj v.
Definition referred (ds : dataset) (p : rpiece) (o : pobj) : Prop :=
  match p with RChar _ => False | RExchange _ u => object_of ds (str u) o | RVolume _ u => volume_of ds (str u) o end.
Definition is_reference (p : rpiece) : Prop := match p with RChar _ => False | _ => True end.

(** What a piece of a formula becomes: itself, or the variable of the object. *)
Definition resolved (ds : dataset) (p : rpiece) (t : text) : Prop :=
  match p with
  | RChar c => t = [c]
  | _ => exists o v, referred ds p o /\ o_variable o = Some v /\ t = chars v
  end.
Definition new_formula (ds : dataset) (f f' : option string) : Prop :=
  match f with
  | None => f' = None
  | Some s => exists l ts, Forall rpiece_ok l /\ s = str (rtext l) /\ Forall2 (resolved ds) l ts /\ f' = Some (str (concat ts))
  end.

(** The formulas of a dataset and the pieces in them. *)
Definition formulas (ds : dataset) : list string := omap o_formula (all_objs ds).
Definition readable (ds : dataset) : Prop :=
  (forall s, s ∈ formulas ds -> exists l, Forall rpiece_ok l /\ s = str (rtext l)) /\
  (forall v, v ∈ omap o_variable (all_objs ds) -> quote ∉ chars v).
Definition occurs (ds : dataset) (p : rpiece) : Prop :=
  exists l, Forall rpiece_ok l /\ str (rtext l) ∈ formulas ds /\ p ∈ l.

(** New variables only where something without a variable is referred to. *)
Definition without_dashes (u : text) : string := str (filter (fun c => c <> "-"%char) u).
Definition new_variable (ds : dataset) (prefix : string) (ref : bool -> text -> rpiece) (id : option string) (x x' : option string) : Prop :=
  x' = x \/
  x = None /\ exists b u, id = Some (str u) /\ occurs ds (ref b u) /\ x' = Some (prefix ++ without_dashes u)%string.
Definition volume_replaced (ds ds' : dataset) (id : option string) (v v' : option pvol) : Prop :=
  match v, v' with
  | None, None => True
  | Some v, Some v' => new_formula ds' (v_formula v) (v_formula v') /\
                       new_variable ds "ref_pv_replacement_" RVolume id (v_variable v) (v_variable v')
  | _, _ => False
  end.
Definition property_replaced (ds' : dataset) (p p' : prop) : Prop :=
  new_formula ds' (p_formula p) (p_formula p') /\ p_variable p' = p_variable p.
Definition exchange_replaced (ds ds' : dataset) (e e' : exchange) : Prop :=
  new_formula ds' (e_formula e) (e_formula e') /\
  new_variable ds "ref_replacement_" RExchange (e_id e) (e_variable e) (e_variable e') /\
  volume_replaced ds ds' (e_id e) (e_pv e) (e_pv e') /\
  Forall2 (property_replaced ds') (e_props e) (e_props e').
Definition parameter_replaced (ds ds' : dataset) (q q' : param) : Prop :=
  new_formula ds' (q_formula q) (q_formula q') /\
  new_variable ds "ref_replacement_" RExchange (q_id q) (q_variable q) (q_variable q').
Definition references_replaced (ds ds' : dataset) : Prop :=
  unnamed ds' = unnamed ds /\
  Forall2 (exchange_replaced ds ds') (d_exchanges ds) (d_exchanges ds') /\
  Forall2 (parameter_replaced ds ds') (d_params ds) (d_params ds').

(** Everything has an identifier. *)
Definition identified (ds : dataset) : Prop :=
  (forall e, e ∈ d_exchanges ds -> e_id e <> None) /\ (forall q, q ∈ d_params ds -> q_id q <> None).
(** Every reference in a formula refers to something. *)
Definition all_found (ds : dataset) : Prop := forall p, occurs ds p -> is_reference p -> exists o, referred ds p o.
