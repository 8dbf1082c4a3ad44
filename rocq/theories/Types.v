(** Data format of Ocelot: the dictionaries of the internal format as records.
    Models ocelot/io/validate_internal.py lines 1-203 (the voluptuous schema)
    together with the keys that transformation functions add later.  A key that
    may be absent is an [option]; keys the schema requires are plain fields.
    Simplifications: property and parameter dictionaries always have [amount]
    (required by the schema for properties, always extracted for parameters, see
    Extraction.v); an absent ['properties'] list and an empty one are
    identified (the code only ever reads it with [.get('properties', [])]). *)
From Verif Require Import Base.

(** 'type' of an uncertainty dictionary, ecospold2 distributions;
    validate_internal.py lines 24-101, uncertainty/__init__.py lines 22-29. *)
Inductive utype :=
  | ULognormal | UNormal | UTriangular | UUndefined | UUniform
  | UOther (name : string).

(** Exchange 'type', validate_internal.py lines 140, 153;
    utils.py line 271 for 'dropped product'. *)
Inductive etype :=
  | RefProduct | Byproduct | FromTechnosphere | FromEnvironment | ToEnvironment
  | DroppedProduct | EOther (name : string).

(** 'byproduct classification', validate_internal.py line 19. *)
Inductive bclass := Allocatable | Waste | Recyclable.

(** Dataset 'type', io/ecospold2_meta.py SPECIAL_ACTIVITY_TYPE. *)
Inductive dtype :=
  | Transforming | MarketActivity | MarketGroup | DOther (name : string).

Global Instance utype_eq_dec : EqDecision utype.
Proof. solve_decision. Defined.
Global Instance etype_eq_dec : EqDecision etype.
Proof. solve_decision. Defined.
Global Instance bclass_eq_dec : EqDecision bclass.
Proof. solve_decision. Defined.
Global Instance dtype_eq_dec : EqDecision dtype.
Proof. solve_decision. Defined.

Definition pedigree := list (string * Z).

(** An 'uncertainty' dictionary, validate_internal.py lines 26-101. *)
Record uncert := mkUncert {
  u_type : option utype;
  u_min : option Qc;  (* 'minimum' *)
  u_max : option Qc;  (* 'maximum' *)
  u_mode : option Qc;
  u_mean : option Qc;
  u_mu : option Qc;
  u_variance : option Qc;
  u_vwpu : option Qc;  (* 'variance with pedigree uncertainty' *)
  u_sd95 : option Qc;  (* 'standard deviation 95%' *)
  u_negative : option bool;  (* added by Lognormal.repair *)
  u_pedigree : option pedigree  (* 'pedigree matrix' *)
}.
Global Instance uncert_eq_dec : EqDecision uncert.
Proof. solve_decision. Defined.
Definition set_u_type (v : option utype) (r : uncert) : uncert :=
  mkUncert v (u_min r) (u_max r) (u_mode r) (u_mean r) (u_mu r) (u_variance r) (u_vwpu r) (u_sd95 r) (u_negative r) (u_pedigree r).
Definition set_u_min (v : option Qc) (r : uncert) : uncert :=
  mkUncert (u_type r) v (u_max r) (u_mode r) (u_mean r) (u_mu r) (u_variance r) (u_vwpu r) (u_sd95 r) (u_negative r) (u_pedigree r).
Definition set_u_max (v : option Qc) (r : uncert) : uncert :=
  mkUncert (u_type r) (u_min r) v (u_mode r) (u_mean r) (u_mu r) (u_variance r) (u_vwpu r) (u_sd95 r) (u_negative r) (u_pedigree r).
Definition set_u_mode (v : option Qc) (r : uncert) : uncert :=
  mkUncert (u_type r) (u_min r) (u_max r) v (u_mean r) (u_mu r) (u_variance r) (u_vwpu r) (u_sd95 r) (u_negative r) (u_pedigree r).
Definition set_u_mean (v : option Qc) (r : uncert) : uncert :=
  mkUncert (u_type r) (u_min r) (u_max r) (u_mode r) v (u_mu r) (u_variance r) (u_vwpu r) (u_sd95 r) (u_negative r) (u_pedigree r).
Definition set_u_mu (v : option Qc) (r : uncert) : uncert :=
  mkUncert (u_type r) (u_min r) (u_max r) (u_mode r) (u_mean r) v (u_variance r) (u_vwpu r) (u_sd95 r) (u_negative r) (u_pedigree r).
Definition set_u_variance (v : option Qc) (r : uncert) : uncert :=
  mkUncert (u_type r) (u_min r) (u_max r) (u_mode r) (u_mean r) (u_mu r) v (u_vwpu r) (u_sd95 r) (u_negative r) (u_pedigree r).
Definition set_u_vwpu (v : option Qc) (r : uncert) : uncert :=
  mkUncert (u_type r) (u_min r) (u_max r) (u_mode r) (u_mean r) (u_mu r) (u_variance r) v (u_sd95 r) (u_negative r) (u_pedigree r).
Definition set_u_sd95 (v : option Qc) (r : uncert) : uncert :=
  mkUncert (u_type r) (u_min r) (u_max r) (u_mode r) (u_mean r) (u_mu r) (u_variance r) (u_vwpu r) v (u_negative r) (u_pedigree r).
Definition set_u_negative (v : option bool) (r : uncert) : uncert :=
  mkUncert (u_type r) (u_min r) (u_max r) (u_mode r) (u_mean r) (u_mu r) (u_variance r) (u_vwpu r) (u_sd95 r) v (u_pedigree r).
Definition set_u_pedigree (v : option pedigree) (r : uncert) : uncert :=
  mkUncert (u_type r) (u_min r) (u_max r) (u_mode r) (u_mean r) (u_mu r) (u_variance r) (u_vwpu r) (u_sd95 r) (u_negative r) v.
(** A record with neutral contents, used to build concrete examples. *)
Definition uncert0 : uncert :=
  mkUncert None None None None None None None None None None None.

(** A 'production volume' dictionary, validate_internal.py lines 103-109, plus
    the keys added by activity_links.py lines 46-190 and rest_of_world.py. *)
Record pvol := mkPvol {
  v_amount : Qc;
  v_variable : option string;
  v_formula : option string;
  v_unc : option uncert;
  v_subtracted : option Qc;  (* 'subtracted activity link volume' *)
  v_original : option Qc;  (* 'original amount' *)
  v_global : option Qc;  (* 'global amount' *)
  v_original_total : option Qc  (* 'original total' *)
}.
Global Instance pvol_eq_dec : EqDecision pvol.
Proof. solve_decision. Defined.
Definition set_v_amount (v : Qc) (r : pvol) : pvol :=
  mkPvol v (v_variable r) (v_formula r) (v_unc r) (v_subtracted r) (v_original r) (v_global r) (v_original_total r).
Definition set_v_variable (v : option string) (r : pvol) : pvol :=
  mkPvol (v_amount r) v (v_formula r) (v_unc r) (v_subtracted r) (v_original r) (v_global r) (v_original_total r).
Definition set_v_formula (v : option string) (r : pvol) : pvol :=
  mkPvol (v_amount r) (v_variable r) v (v_unc r) (v_subtracted r) (v_original r) (v_global r) (v_original_total r).
Definition set_v_unc (v : option uncert) (r : pvol) : pvol :=
  mkPvol (v_amount r) (v_variable r) (v_formula r) v (v_subtracted r) (v_original r) (v_global r) (v_original_total r).
Definition set_v_subtracted (v : option Qc) (r : pvol) : pvol :=
  mkPvol (v_amount r) (v_variable r) (v_formula r) (v_unc r) v (v_original r) (v_global r) (v_original_total r).
Definition set_v_original (v : option Qc) (r : pvol) : pvol :=
  mkPvol (v_amount r) (v_variable r) (v_formula r) (v_unc r) (v_subtracted r) v (v_global r) (v_original_total r).
Definition set_v_global (v : option Qc) (r : pvol) : pvol :=
  mkPvol (v_amount r) (v_variable r) (v_formula r) (v_unc r) (v_subtracted r) (v_original r) v (v_original_total r).
Definition set_v_original_total (v : option Qc) (r : pvol) : pvol :=
  mkPvol (v_amount r) (v_variable r) (v_formula r) (v_unc r) (v_subtracted r) (v_original r) (v_global r) v.
(** A record with neutral contents, used to build concrete examples. *)
Definition pvol0 : pvol :=
  mkPvol 0%Qc None None None None None None None.

(** A property, validate_internal.py lines 111-119. *)
Record prop := mkProp {
  p_id : string;
  p_name : string;
  p_amount : Qc;
  p_unit : string;
  p_variable : option string;
  p_formula : option string;
  p_unc : option uncert
}.
Global Instance prop_eq_dec : EqDecision prop.
Proof. solve_decision. Defined.
Definition set_p_id (v : string) (r : prop) : prop :=
  mkProp v (p_name r) (p_amount r) (p_unit r) (p_variable r) (p_formula r) (p_unc r).
Definition set_p_name (v : string) (r : prop) : prop :=
  mkProp (p_id r) v (p_amount r) (p_unit r) (p_variable r) (p_formula r) (p_unc r).
Definition set_p_amount (v : Qc) (r : prop) : prop :=
  mkProp (p_id r) (p_name r) v (p_unit r) (p_variable r) (p_formula r) (p_unc r).
Definition set_p_unit (v : string) (r : prop) : prop :=
  mkProp (p_id r) (p_name r) (p_amount r) v (p_variable r) (p_formula r) (p_unc r).
Definition set_p_variable (v : option string) (r : prop) : prop :=
  mkProp (p_id r) (p_name r) (p_amount r) (p_unit r) v (p_formula r) (p_unc r).
Definition set_p_formula (v : option string) (r : prop) : prop :=
  mkProp (p_id r) (p_name r) (p_amount r) (p_unit r) (p_variable r) v (p_unc r).
Definition set_p_unc (v : option uncert) (r : prop) : prop :=
  mkProp (p_id r) (p_name r) (p_amount r) (p_unit r) (p_variable r) (p_formula r) v.
(** A record with neutral contents, used to build concrete examples. *)
Definition prop0 : prop :=
  mkProp ""%string ""%string 0%Qc ""%string None None None.

(** A dataset parameter, validate_internal.py lines 121-129. *)
Record param := mkParam {
  q_id : option string;
  q_name : option string;
  q_amount : Qc;
  q_unit : option string;
  q_variable : option string;
  q_formula : option string;
  q_unc : option uncert
}.
Global Instance param_eq_dec : EqDecision param.
Proof. solve_decision. Defined.
Definition set_q_id (v : option string) (r : param) : param :=
  mkParam v (q_name r) (q_amount r) (q_unit r) (q_variable r) (q_formula r) (q_unc r).
Definition set_q_name (v : option string) (r : param) : param :=
  mkParam (q_id r) v (q_amount r) (q_unit r) (q_variable r) (q_formula r) (q_unc r).
Definition set_q_amount (v : Qc) (r : param) : param :=
  mkParam (q_id r) (q_name r) v (q_unit r) (q_variable r) (q_formula r) (q_unc r).
Definition set_q_unit (v : option string) (r : param) : param :=
  mkParam (q_id r) (q_name r) (q_amount r) v (q_variable r) (q_formula r) (q_unc r).
Definition set_q_variable (v : option string) (r : param) : param :=
  mkParam (q_id r) (q_name r) (q_amount r) (q_unit r) v (q_formula r) (q_unc r).
Definition set_q_formula (v : option string) (r : param) : param :=
  mkParam (q_id r) (q_name r) (q_amount r) (q_unit r) (q_variable r) v (q_unc r).
Definition set_q_unc (v : option uncert) (r : param) : param :=
  mkParam (q_id r) (q_name r) (q_amount r) (q_unit r) (q_variable r) (q_formula r) v.
(** A record with neutral contents, used to build concrete examples. *)
Definition param0 : param :=
  mkParam None None 0%Qc None None None None.

(** An exchange, validate_internal.py lines 133-163. *)
Record exchange := mkExchange {
  e_id : option string;
  e_name : string;
  e_unit : string;
  e_type : etype;
  e_amount : Qc;
  e_class : option bclass;  (* 'byproduct classification' *)
  e_link : option string;  (* 'activity link' *)
  e_variable : option string;
  e_formula : option string;
  e_pv : option pvol;  (* 'production volume' *)
  e_props : list prop;  (* 'properties' *)
  e_unc : option uncert;  (* 'uncertainty' *)
  e_ped : option pedigree;  (* 'pedigree matrix' read at exchange level *)
  e_cond : option bool;  (* 'conditional exchange' *)
  e_code : option string;
  e_location : option string;
  e_tech : option string;  (* 'technology level' *)
  e_activity : option string;
  e_orig_id : option string;  (* 'original id' *)
  e_compartment : option string;
  e_subcompartment : option string;
  e_tag : option string
}.
Global Instance exchange_eq_dec : EqDecision exchange.
Proof. solve_decision. Defined.
Definition set_e_id (v : option string) (r : exchange) : exchange :=
  mkExchange v (e_name r) (e_unit r) (e_type r) (e_amount r) (e_class r) (e_link r) (e_variable r) (e_formula r) (e_pv r) (e_props r) (e_unc r) (e_ped r) (e_cond r) (e_code r) (e_location r) (e_tech r) (e_activity r) (e_orig_id r) (e_compartment r) (e_subcompartment r) (e_tag r).
Definition set_e_name (v : string) (r : exchange) : exchange :=
  mkExchange (e_id r) v (e_unit r) (e_type r) (e_amount r) (e_class r) (e_link r) (e_variable r) (e_formula r) (e_pv r) (e_props r) (e_unc r) (e_ped r) (e_cond r) (e_code r) (e_location r) (e_tech r) (e_activity r) (e_orig_id r) (e_compartment r) (e_subcompartment r) (e_tag r).
Definition set_e_unit (v : string) (r : exchange) : exchange :=
  mkExchange (e_id r) (e_name r) v (e_type r) (e_amount r) (e_class r) (e_link r) (e_variable r) (e_formula r) (e_pv r) (e_props r) (e_unc r) (e_ped r) (e_cond r) (e_code r) (e_location r) (e_tech r) (e_activity r) (e_orig_id r) (e_compartment r) (e_subcompartment r) (e_tag r).
Definition set_e_type (v : etype) (r : exchange) : exchange :=
  mkExchange (e_id r) (e_name r) (e_unit r) v (e_amount r) (e_class r) (e_link r) (e_variable r) (e_formula r) (e_pv r) (e_props r) (e_unc r) (e_ped r) (e_cond r) (e_code r) (e_location r) (e_tech r) (e_activity r) (e_orig_id r) (e_compartment r) (e_subcompartment r) (e_tag r).
Definition set_e_amount (v : Qc) (r : exchange) : exchange :=
  mkExchange (e_id r) (e_name r) (e_unit r) (e_type r) v (e_class r) (e_link r) (e_variable r) (e_formula r) (e_pv r) (e_props r) (e_unc r) (e_ped r) (e_cond r) (e_code r) (e_location r) (e_tech r) (e_activity r) (e_orig_id r) (e_compartment r) (e_subcompartment r) (e_tag r).
Definition set_e_class (v : option bclass) (r : exchange) : exchange :=
  mkExchange (e_id r) (e_name r) (e_unit r) (e_type r) (e_amount r) v (e_link r) (e_variable r) (e_formula r) (e_pv r) (e_props r) (e_unc r) (e_ped r) (e_cond r) (e_code r) (e_location r) (e_tech r) (e_activity r) (e_orig_id r) (e_compartment r) (e_subcompartment r) (e_tag r).
Definition set_e_link (v : option string) (r : exchange) : exchange :=
  mkExchange (e_id r) (e_name r) (e_unit r) (e_type r) (e_amount r) (e_class r) v (e_variable r) (e_formula r) (e_pv r) (e_props r) (e_unc r) (e_ped r) (e_cond r) (e_code r) (e_location r) (e_tech r) (e_activity r) (e_orig_id r) (e_compartment r) (e_subcompartment r) (e_tag r).
Definition set_e_variable (v : option string) (r : exchange) : exchange :=
  mkExchange (e_id r) (e_name r) (e_unit r) (e_type r) (e_amount r) (e_class r) (e_link r) v (e_formula r) (e_pv r) (e_props r) (e_unc r) (e_ped r) (e_cond r) (e_code r) (e_location r) (e_tech r) (e_activity r) (e_orig_id r) (e_compartment r) (e_subcompartment r) (e_tag r).
Definition set_e_formula (v : option string) (r : exchange) : exchange :=
  mkExchange (e_id r) (e_name r) (e_unit r) (e_type r) (e_amount r) (e_class r) (e_link r) (e_variable r) v (e_pv r) (e_props r) (e_unc r) (e_ped r) (e_cond r) (e_code r) (e_location r) (e_tech r) (e_activity r) (e_orig_id r) (e_compartment r) (e_subcompartment r) (e_tag r).
Definition set_e_pv (v : option pvol) (r : exchange) : exchange :=
  mkExchange (e_id r) (e_name r) (e_unit r) (e_type r) (e_amount r) (e_class r) (e_link r) (e_variable r) (e_formula r) v (e_props r) (e_unc r) (e_ped r) (e_cond r) (e_code r) (e_location r) (e_tech r) (e_activity r) (e_orig_id r) (e_compartment r) (e_subcompartment r) (e_tag r).
Definition set_e_props (v : list prop) (r : exchange) : exchange :=
  mkExchange (e_id r) (e_name r) (e_unit r) (e_type r) (e_amount r) (e_class r) (e_link r) (e_variable r) (e_formula r) (e_pv r) v (e_unc r) (e_ped r) (e_cond r) (e_code r) (e_location r) (e_tech r) (e_activity r) (e_orig_id r) (e_compartment r) (e_subcompartment r) (e_tag r).
Definition set_e_unc (v : option uncert) (r : exchange) : exchange :=
  mkExchange (e_id r) (e_name r) (e_unit r) (e_type r) (e_amount r) (e_class r) (e_link r) (e_variable r) (e_formula r) (e_pv r) (e_props r) v (e_ped r) (e_cond r) (e_code r) (e_location r) (e_tech r) (e_activity r) (e_orig_id r) (e_compartment r) (e_subcompartment r) (e_tag r).
Definition set_e_ped (v : option pedigree) (r : exchange) : exchange :=
  mkExchange (e_id r) (e_name r) (e_unit r) (e_type r) (e_amount r) (e_class r) (e_link r) (e_variable r) (e_formula r) (e_pv r) (e_props r) (e_unc r) v (e_cond r) (e_code r) (e_location r) (e_tech r) (e_activity r) (e_orig_id r) (e_compartment r) (e_subcompartment r) (e_tag r).
Definition set_e_cond (v : option bool) (r : exchange) : exchange :=
  mkExchange (e_id r) (e_name r) (e_unit r) (e_type r) (e_amount r) (e_class r) (e_link r) (e_variable r) (e_formula r) (e_pv r) (e_props r) (e_unc r) (e_ped r) v (e_code r) (e_location r) (e_tech r) (e_activity r) (e_orig_id r) (e_compartment r) (e_subcompartment r) (e_tag r).
Definition set_e_code (v : option string) (r : exchange) : exchange :=
  mkExchange (e_id r) (e_name r) (e_unit r) (e_type r) (e_amount r) (e_class r) (e_link r) (e_variable r) (e_formula r) (e_pv r) (e_props r) (e_unc r) (e_ped r) (e_cond r) v (e_location r) (e_tech r) (e_activity r) (e_orig_id r) (e_compartment r) (e_subcompartment r) (e_tag r).
Definition set_e_location (v : option string) (r : exchange) : exchange :=
  mkExchange (e_id r) (e_name r) (e_unit r) (e_type r) (e_amount r) (e_class r) (e_link r) (e_variable r) (e_formula r) (e_pv r) (e_props r) (e_unc r) (e_ped r) (e_cond r) (e_code r) v (e_tech r) (e_activity r) (e_orig_id r) (e_compartment r) (e_subcompartment r) (e_tag r).
Definition set_e_tech (v : option string) (r : exchange) : exchange :=
  mkExchange (e_id r) (e_name r) (e_unit r) (e_type r) (e_amount r) (e_class r) (e_link r) (e_variable r) (e_formula r) (e_pv r) (e_props r) (e_unc r) (e_ped r) (e_cond r) (e_code r) (e_location r) v (e_activity r) (e_orig_id r) (e_compartment r) (e_subcompartment r) (e_tag r).
Definition set_e_activity (v : option string) (r : exchange) : exchange :=
  mkExchange (e_id r) (e_name r) (e_unit r) (e_type r) (e_amount r) (e_class r) (e_link r) (e_variable r) (e_formula r) (e_pv r) (e_props r) (e_unc r) (e_ped r) (e_cond r) (e_code r) (e_location r) (e_tech r) v (e_orig_id r) (e_compartment r) (e_subcompartment r) (e_tag r).
Definition set_e_orig_id (v : option string) (r : exchange) : exchange :=
  mkExchange (e_id r) (e_name r) (e_unit r) (e_type r) (e_amount r) (e_class r) (e_link r) (e_variable r) (e_formula r) (e_pv r) (e_props r) (e_unc r) (e_ped r) (e_cond r) (e_code r) (e_location r) (e_tech r) (e_activity r) v (e_compartment r) (e_subcompartment r) (e_tag r).
Definition set_e_compartment (v : option string) (r : exchange) : exchange :=
  mkExchange (e_id r) (e_name r) (e_unit r) (e_type r) (e_amount r) (e_class r) (e_link r) (e_variable r) (e_formula r) (e_pv r) (e_props r) (e_unc r) (e_ped r) (e_cond r) (e_code r) (e_location r) (e_tech r) (e_activity r) (e_orig_id r) v (e_subcompartment r) (e_tag r).
Definition set_e_subcompartment (v : option string) (r : exchange) : exchange :=
  mkExchange (e_id r) (e_name r) (e_unit r) (e_type r) (e_amount r) (e_class r) (e_link r) (e_variable r) (e_formula r) (e_pv r) (e_props r) (e_unc r) (e_ped r) (e_cond r) (e_code r) (e_location r) (e_tech r) (e_activity r) (e_orig_id r) (e_compartment r) v (e_tag r).
Definition set_e_tag (v : option string) (r : exchange) : exchange :=
  mkExchange (e_id r) (e_name r) (e_unit r) (e_type r) (e_amount r) (e_class r) (e_link r) (e_variable r) (e_formula r) (e_pv r) (e_props r) (e_unc r) (e_ped r) (e_cond r) (e_code r) (e_location r) (e_tech r) (e_activity r) (e_orig_id r) (e_compartment r) (e_subcompartment r) v.
(** A record with neutral contents, used to build concrete examples. *)
Definition exchange0 : exchange :=
  mkExchange None ""%string ""%string FromTechnosphere 0%Qc None None None None None [] None None None None None None None None None None None.

(** A dataset, validate_internal.py lines 167-203. *)
Record dataset := mkDataset {
  d_id : string;
  d_name : string;
  d_location : string;
  d_type : dtype;
  d_tech : string;  (* 'technology level' *)
  d_start : string;  (* 'start date' *)
  d_end : string;  (* 'end date' *)
  d_parent : option string;  (* None or an id *)
  d_filepath : string;
  d_exchanges : list exchange;
  d_params : list param;  (* 'parameters' *)
  d_refprod : option string;  (* 'reference product' *)
  d_code : option string;
  d_suppliers : option (list exchange);
  d_alloc : option string;  (* 'allocation method' *)
  d_unit : option string;  (* read by activity_hash, never set by the code *)
  d_access : string;
  d_scenario : string;
  d_author : string;
  d_entry : string;
  d_isic : option string
}.
Global Instance dataset_eq_dec : EqDecision dataset.
Proof. solve_decision. Defined.
Definition set_d_id (v : string) (r : dataset) : dataset :=
  mkDataset v (d_name r) (d_location r) (d_type r) (d_tech r) (d_start r) (d_end r) (d_parent r) (d_filepath r) (d_exchanges r) (d_params r) (d_refprod r) (d_code r) (d_suppliers r) (d_alloc r) (d_unit r) (d_access r) (d_scenario r) (d_author r) (d_entry r) (d_isic r).
Definition set_d_name (v : string) (r : dataset) : dataset :=
  mkDataset (d_id r) v (d_location r) (d_type r) (d_tech r) (d_start r) (d_end r) (d_parent r) (d_filepath r) (d_exchanges r) (d_params r) (d_refprod r) (d_code r) (d_suppliers r) (d_alloc r) (d_unit r) (d_access r) (d_scenario r) (d_author r) (d_entry r) (d_isic r).
Definition set_d_location (v : string) (r : dataset) : dataset :=
  mkDataset (d_id r) (d_name r) v (d_type r) (d_tech r) (d_start r) (d_end r) (d_parent r) (d_filepath r) (d_exchanges r) (d_params r) (d_refprod r) (d_code r) (d_suppliers r) (d_alloc r) (d_unit r) (d_access r) (d_scenario r) (d_author r) (d_entry r) (d_isic r).
Definition set_d_type (v : dtype) (r : dataset) : dataset :=
  mkDataset (d_id r) (d_name r) (d_location r) v (d_tech r) (d_start r) (d_end r) (d_parent r) (d_filepath r) (d_exchanges r) (d_params r) (d_refprod r) (d_code r) (d_suppliers r) (d_alloc r) (d_unit r) (d_access r) (d_scenario r) (d_author r) (d_entry r) (d_isic r).
Definition set_d_tech (v : string) (r : dataset) : dataset :=
  mkDataset (d_id r) (d_name r) (d_location r) (d_type r) v (d_start r) (d_end r) (d_parent r) (d_filepath r) (d_exchanges r) (d_params r) (d_refprod r) (d_code r) (d_suppliers r) (d_alloc r) (d_unit r) (d_access r) (d_scenario r) (d_author r) (d_entry r) (d_isic r).
Definition set_d_start (v : string) (r : dataset) : dataset :=
  mkDataset (d_id r) (d_name r) (d_location r) (d_type r) (d_tech r) v (d_end r) (d_parent r) (d_filepath r) (d_exchanges r) (d_params r) (d_refprod r) (d_code r) (d_suppliers r) (d_alloc r) (d_unit r) (d_access r) (d_scenario r) (d_author r) (d_entry r) (d_isic r).
Definition set_d_end (v : string) (r : dataset) : dataset :=
  mkDataset (d_id r) (d_name r) (d_location r) (d_type r) (d_tech r) (d_start r) v (d_parent r) (d_filepath r) (d_exchanges r) (d_params r) (d_refprod r) (d_code r) (d_suppliers r) (d_alloc r) (d_unit r) (d_access r) (d_scenario r) (d_author r) (d_entry r) (d_isic r).
Definition set_d_parent (v : option string) (r : dataset) : dataset :=
  mkDataset (d_id r) (d_name r) (d_location r) (d_type r) (d_tech r) (d_start r) (d_end r) v (d_filepath r) (d_exchanges r) (d_params r) (d_refprod r) (d_code r) (d_suppliers r) (d_alloc r) (d_unit r) (d_access r) (d_scenario r) (d_author r) (d_entry r) (d_isic r).
Definition set_d_filepath (v : string) (r : dataset) : dataset :=
  mkDataset (d_id r) (d_name r) (d_location r) (d_type r) (d_tech r) (d_start r) (d_end r) (d_parent r) v (d_exchanges r) (d_params r) (d_refprod r) (d_code r) (d_suppliers r) (d_alloc r) (d_unit r) (d_access r) (d_scenario r) (d_author r) (d_entry r) (d_isic r).
Definition set_d_exchanges (v : list exchange) (r : dataset) : dataset :=
  mkDataset (d_id r) (d_name r) (d_location r) (d_type r) (d_tech r) (d_start r) (d_end r) (d_parent r) (d_filepath r) v (d_params r) (d_refprod r) (d_code r) (d_suppliers r) (d_alloc r) (d_unit r) (d_access r) (d_scenario r) (d_author r) (d_entry r) (d_isic r).
Definition set_d_params (v : list param) (r : dataset) : dataset :=
  mkDataset (d_id r) (d_name r) (d_location r) (d_type r) (d_tech r) (d_start r) (d_end r) (d_parent r) (d_filepath r) (d_exchanges r) v (d_refprod r) (d_code r) (d_suppliers r) (d_alloc r) (d_unit r) (d_access r) (d_scenario r) (d_author r) (d_entry r) (d_isic r).
Definition set_d_refprod (v : option string) (r : dataset) : dataset :=
  mkDataset (d_id r) (d_name r) (d_location r) (d_type r) (d_tech r) (d_start r) (d_end r) (d_parent r) (d_filepath r) (d_exchanges r) (d_params r) v (d_code r) (d_suppliers r) (d_alloc r) (d_unit r) (d_access r) (d_scenario r) (d_author r) (d_entry r) (d_isic r).
Definition set_d_code (v : option string) (r : dataset) : dataset :=
  mkDataset (d_id r) (d_name r) (d_location r) (d_type r) (d_tech r) (d_start r) (d_end r) (d_parent r) (d_filepath r) (d_exchanges r) (d_params r) (d_refprod r) v (d_suppliers r) (d_alloc r) (d_unit r) (d_access r) (d_scenario r) (d_author r) (d_entry r) (d_isic r).
Definition set_d_suppliers (v : option (list exchange)) (r : dataset) : dataset :=
  mkDataset (d_id r) (d_name r) (d_location r) (d_type r) (d_tech r) (d_start r) (d_end r) (d_parent r) (d_filepath r) (d_exchanges r) (d_params r) (d_refprod r) (d_code r) v (d_alloc r) (d_unit r) (d_access r) (d_scenario r) (d_author r) (d_entry r) (d_isic r).
Definition set_d_alloc (v : option string) (r : dataset) : dataset :=
  mkDataset (d_id r) (d_name r) (d_location r) (d_type r) (d_tech r) (d_start r) (d_end r) (d_parent r) (d_filepath r) (d_exchanges r) (d_params r) (d_refprod r) (d_code r) (d_suppliers r) v (d_unit r) (d_access r) (d_scenario r) (d_author r) (d_entry r) (d_isic r).
Definition set_d_unit (v : option string) (r : dataset) : dataset :=
  mkDataset (d_id r) (d_name r) (d_location r) (d_type r) (d_tech r) (d_start r) (d_end r) (d_parent r) (d_filepath r) (d_exchanges r) (d_params r) (d_refprod r) (d_code r) (d_suppliers r) (d_alloc r) v (d_access r) (d_scenario r) (d_author r) (d_entry r) (d_isic r).
Definition set_d_access (v : string) (r : dataset) : dataset :=
  mkDataset (d_id r) (d_name r) (d_location r) (d_type r) (d_tech r) (d_start r) (d_end r) (d_parent r) (d_filepath r) (d_exchanges r) (d_params r) (d_refprod r) (d_code r) (d_suppliers r) (d_alloc r) (d_unit r) v (d_scenario r) (d_author r) (d_entry r) (d_isic r).
Definition set_d_scenario (v : string) (r : dataset) : dataset :=
  mkDataset (d_id r) (d_name r) (d_location r) (d_type r) (d_tech r) (d_start r) (d_end r) (d_parent r) (d_filepath r) (d_exchanges r) (d_params r) (d_refprod r) (d_code r) (d_suppliers r) (d_alloc r) (d_unit r) (d_access r) v (d_author r) (d_entry r) (d_isic r).
Definition set_d_author (v : string) (r : dataset) : dataset :=
  mkDataset (d_id r) (d_name r) (d_location r) (d_type r) (d_tech r) (d_start r) (d_end r) (d_parent r) (d_filepath r) (d_exchanges r) (d_params r) (d_refprod r) (d_code r) (d_suppliers r) (d_alloc r) (d_unit r) (d_access r) (d_scenario r) v (d_entry r) (d_isic r).
Definition set_d_entry (v : string) (r : dataset) : dataset :=
  mkDataset (d_id r) (d_name r) (d_location r) (d_type r) (d_tech r) (d_start r) (d_end r) (d_parent r) (d_filepath r) (d_exchanges r) (d_params r) (d_refprod r) (d_code r) (d_suppliers r) (d_alloc r) (d_unit r) (d_access r) (d_scenario r) (d_author r) v (d_isic r).
Definition set_d_isic (v : option string) (r : dataset) : dataset :=
  mkDataset (d_id r) (d_name r) (d_location r) (d_type r) (d_tech r) (d_start r) (d_end r) (d_parent r) (d_filepath r) (d_exchanges r) (d_params r) (d_refprod r) (d_code r) (d_suppliers r) (d_alloc r) (d_unit r) (d_access r) (d_scenario r) (d_author r) (d_entry r) v.
(** A record with neutral contents, used to build concrete examples. *)
Definition dataset0 : dataset :=
  mkDataset ""%string ""%string ""%string Transforming ""%string ""%string ""%string None ""%string [] [] None None None None None ""%string ""%string ""%string ""%string None.
