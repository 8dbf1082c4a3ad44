(** Model of ocelot/io/validate_internal.py lines 1-197: Python dictionaries as they
    come out of extraction, voluptuous schemas and what they accept, and the schema
    of a dataset. *)
From Verif Require Import Base.

(** Python objects: None, texts, floats, ints, truth values, lists and dictionaries
    with texts as keys in order of insertion. *)
Inductive pyval :=
  | VNone | VStr (s : string) | VFloat (q : Qc) | VInt (z : Z) | VBool (b : bool)
  | VList (l : list pyval) | VDict (d : list (string * pyval)).
Notation dict := (list (string * pyval)).

(** [d.get(k)], [d[k] = v] and a key that is set only under a condition. *)
Fixpoint dget (k : string) (d : dict) : option pyval :=
  match d with
  | [] => None
  | (k', v) :: d => if (k =? k')%string then Some v else dget k d
  end.
Fixpoint put (k : string) (v : pyval) (d : dict) : dict :=
  match d with
  | [] => [(k, v)]
  | (k', v') :: d => if (k =? k')%string then (k', v) :: d else (k', v') :: put k v d
  end.
Definition opt (k : string) (o : option pyval) : dict :=
  match o with Some v => [(k, v)] | None => [] end.

(** Voluptuous schemas.  Types are tested with [isinstance] (a truth value is an int),
    other constants with [==].  [Any] accepts what one of its members accepts.  A
    dictionary may have no other keys than those listed; a key is required if it is
    marked here, which is [required=True] without [Optional].  Inside [Any] plain
    dictionaries have no required keys. *)
Inductive schema :=
  | SStr | SFloat | SInt | SBool | SNone | SAnyList
  | SLit (s : string)
  | SListOf (s : schema)
  | SAny (l : list schema)
  | SDict (fields : list (bool * string * schema)).
Definition has_key (k : string) (d : dict) : bool := existsb (fun kv => (kv.1 =? k)%string) d.
Fixpoint conforms (s : schema) (v : pyval) {struct s} : bool :=
  match s with
  | SStr => match v with VStr _ => true | _ => false end
  | SFloat => match v with VFloat _ => true | _ => false end
  | SInt => match v with VInt _ | VBool _ => true | _ => false end
  | SBool => match v with VBool _ => true | _ => false end
  | SNone => match v with VNone => true | _ => false end
  | SAnyList => match v with VList _ => true | _ => false end
  | SLit t => match v with VStr t' => (t =? t')%string | _ => false end
  | SListOf s => match v with VList l => forallb (fun v => conforms s v) l | _ => false end
  | SAny l => existsb (fun s => conforms s v) l
  | SDict fs =>
      match v with
      | VDict d =>
          forallb (fun kv => existsb (fun f => (f.1.2 =? kv.1)%string && conforms f.2 kv.2) fs) d &&
          forallb (fun f => negb f.1.1 || has_key f.1.2 d) fs
      | _ => false
      end
  end.

Definition req (k : string) (s : schema) : bool * string * schema := (true, k, s).
Definition optional (k : string) (s : schema) : bool * string * schema := (false, k, s).
Definition any_of (l : list string) : schema := SAny (map SLit l).

(** io/ecospold2_meta.py lines 4-16, 18-27, 45-51, 64-69, 71-75: tables from codes to
    labels.  A missing attribute looks up None. *)
Definition SPECIAL_ACTIVITY_TYPE : list (string * string) :=
  [("0", "transforming activity"); ("1", "market activity"); ("10", "market group");
   ("2", "IO activity"); ("3", "residual activity"); ("4", "production mix");
   ("5", "import activity"); ("6", "supply mix"); ("7", "export activity");
   ("8", "re-export activity"); ("9", "correction activity")]%string.
Definition TECHNOLOGY_LEVEL : list (option string * string) :=
  [(Some "0", "undefined"); (Some "None", "undefined"); (None, "undefined"); (Some "1", "new");
   (Some "2", "modern"); (Some "3", "current"); (Some "4", "old"); (Some "5", "outdated")]%string.
Definition PEDIGREE_LABELS : list (string * string) :=
  [("reliability", "reliability"); ("completeness", "completeness");
   ("temporalCorrelation", "temporal correlation");
   ("geographicalCorrelation", "geographical correlation");
   ("furtherTechnologyCorrelation", "further technology correlation")]%string.

(** Lines 7-20. *)
Definition valid_access_restriction : schema :=
  any_of ["public"; "licensees"; "results only"; "restricted"]%string.
Definition valid_activity_types : schema := any_of (map snd SPECIAL_ACTIVITY_TYPE).
Definition valid_allocation_method : schema :=
  any_of ["combined production with byproduct"; "combined production without byproduct";
    "constrained market"; "economic allocation"; "no allocation"; "recycling activity";
    "true value allocation"; "waste treatment"]%string.
Definition valid_byproducts : schema := any_of ["allocatable product"; "waste"; "recyclable"]%string.
Definition valid_technology_levels : schema := any_of (map snd TECHNOLOGY_LEVEL).

(** Lines 24-101. *)
Definition valid_pedigree_matrix : schema :=
  SAny [SDict (map (fun l => optional l.2 SInt) PEDIGREE_LABELS); SDict []].
Definition distribution (name : string) (required others : list string) : schema :=
  SDict (req "type" (SLit name) :: req "pedigree matrix" valid_pedigree_matrix ::
    map (fun k => req k SFloat) required ++ map (fun k => optional k SFloat) others)%string.
Definition valid_lognormal : schema :=
  distribution "lognormal" ["mean"; "variance with pedigree uncertainty"] ["mu"; "variance"].
Definition valid_normal : schema :=
  distribution "normal" ["mean"; "variance with pedigree uncertainty"] ["variance"].
Definition valid_uniform : schema := distribution "uniform" ["maximum"; "minimum"] [].
Definition valid_triangular : schema := distribution "triangular" ["maximum"; "minimum"; "mode"] [].
Definition valid_binomial : schema := distribution "binomial" ["n"; "p"] [].
Definition valid_beta : schema := distribution "beta" ["maximum"; "minimum"; "mode"] [].
Definition valid_gamma : schema := distribution "gamma" ["scale"; "shape"] [].
Definition valid_undefined : schema :=
  distribution "undefined" ["maximum"; "minimum"; "standard deviation 95%"] [].
Definition valid_uncertainty : schema :=
  SAny [valid_beta; valid_binomial; valid_gamma; valid_lognormal; valid_normal; valid_triangular;
        valid_undefined; valid_uniform].

(** Lines 103-129. *)
Definition valid_production_volume : schema :=
  SDict [req "amount" SFloat; optional "formula" SStr; optional "uncertainty" valid_uncertainty;
         optional "variable" SStr; optional "subtracted activity link volume" SFloat].
Definition valid_property : schema :=
  SDict [req "amount" SFloat; req "id" SStr; req "name" SStr; req "unit" SStr;
         optional "formula" SStr; optional "uncertainty" valid_uncertainty; optional "variable" SStr].
Definition valid_parameter : schema :=
  SDict [optional "unit" SStr; optional "amount" SFloat; optional "id" SStr; optional "name" SStr;
         optional "formula" SStr; optional "uncertainty" valid_uncertainty; optional "variable" SStr].

(** Lines 133-163. *)
Definition elementary_exchange_schema : schema :=
  SDict [req "amount" SFloat; req "compartment" SStr; req "id" SStr; req "name" SStr;
         req "subcompartment" SStr; req "tag" (SLit "elementaryExchange");
         req "type" (any_of ["from environment"; "to environment"]%string); req "unit" SStr;
         optional "formula" SStr; optional "properties" (SListOf valid_property);
         optional "uncertainty" valid_uncertainty; optional "variable" SStr].
Definition activity_exchange_schema : schema :=
  SDict [req "amount" SFloat; req "id" SStr; req "name" SStr; req "tag" (SLit "intermediateExchange");
         req "type" (any_of ["from technosphere"; "reference product"; "byproduct"; "dropped product"]%string);
         req "unit" SStr; optional "activity link" SStr;
         optional "byproduct classification" valid_byproducts; optional "conditional exchange" SBool;
         optional "formula" SStr; optional "production volume" valid_production_volume;
         optional "properties" (SListOf valid_property); optional "uncertainty" valid_uncertainty;
         optional "variable" SStr].

(** Lines 167-197. *)
Definition dataset_schema : schema :=
  SDict [req "exchanges" (SListOf (SAny [elementary_exchange_schema; activity_exchange_schema]));
         req "parameters" (SListOf valid_parameter); req "access restricted" valid_access_restriction;
         req "economic scenario" SStr; req "end date" SStr; req "filepath" SStr; req "id" SStr;
         req "parent" (SAny [SNone; SStr]); optional "code" SStr; req "location" SStr; req "name" SStr;
         req "start date" SStr; req "technology level" valid_technology_levels;
         req "type" valid_activity_types; req "dataset author" SStr; req "data entry" SStr;
         req "ISIC classification" SStr; optional "allocation method" valid_allocation_method;
         optional "reference product" SStr; optional "suppliers" SAnyList].

(** io/validate_ecospold2.py lines 40-58, [validate_directory]: the errors found, as a
    dictionary from message to dataset; [invalid] gives the message voluptuous raises. *)
Definition validate_directory (invalid : pyval -> option string) (data : list pyval) : dict :=
  fold_left (fun errors ds => match invalid ds with Some msg => put msg ds errors | None => errors end) data [].

Global Arguments conforms : simpl never.
