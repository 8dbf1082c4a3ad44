(** Specifications for the activity link properties C24-C27, C60. *)
From Verif Require Import Base Types Spec_Utils.

(** [e] is an activity link to the dataset with id [X]. *)
Definition links_to (X : string) (e : exchange) : Prop :=
  e_link e = Some X /\ X <> ""%string.
Global Instance links_to_dec X e : Decision (links_to X e).
Proof. unfold links_to. apply _. Defined.

(** Link [e] can be followed in [data]: its target exists and has exactly one
    allocatable output with the name of the linked product. *)
Definition link_resolves (data : list dataset) (e : exchange) : Prop :=
  forall X, links_to X e ->
    exists target p, target ∈ data /\ d_id target = X /\ classified target /\
      filter (fun o => alloc_output o /\ e_name o = e_name e) (d_exchanges target) = [p].

(** Links that count: of exchanges of [ds] called [n] to another dataset [X]. *)
Definition counted_link (X n : string) (ds : dataset) (e : exchange) : Prop :=
  links_to X e /\ X <> d_id ds /\ e_name e = n.
Global Instance counted_link_dec X n ds e : Decision (counted_link X n ds e).
Proof. unfold counted_link. apply _. Defined.

(** The amounts demanded through links from product [n] of dataset [X];
    [r ds] converts an amount in [ds] to an absolute volume. *)
Definition link_demands (r : dataset -> Qc) (data : list dataset) (X n : string)
  : list Qc :=
  data ≫= (fun ds => map (fun e => e_amount e * r ds)%Qc
                        (filter (counted_link X n ds) (d_exchanges ds))).

(** [e'] is [e] after recording the demands [l]. *)
Definition volume_recorded (l : list Qc) (e e' : exchange) : Prop :=
  match l with
  | [] => e' = e
  | _ => exists v, e_pv e = Some v /\
           e' = set_e_pv (Some (set_v_subtracted
                  (Some (default 0 (v_subtracted v) + Qcsum l)%Qc) v)) e
  end.

(** [e'] is [e] after its hard-linked volume was made unavailable. *)
Definition volume_updated (e e' : exchange) : Prop :=
  (alloc_output e /\ exists v s, e_pv e = Some v /\ v_subtracted v = Some s /\
     e' = set_e_pv (Some (set_v_amount (Qcmax (v_amount v - s) 0)
                            (set_v_original (Some (v_amount v)) v))) e) \/
  ((alloc_output e -> exists v, e_pv e = Some v /\ v_subtracted v = None) /\ e' = e).

(** [e'] is exchange [e] of the child dataset [ds] after links to its parent
    were redirected to [ds] itself. *)
Definition relinked (ds : dataset) (e e' : exchange) : Prop :=
  (~ alloc_output e /\ exists parent, d_parent ds = Some parent /\ links_to parent e /\
     e' = set_e_link (Some (d_id ds)) e) \/
  ((forall parent, d_parent ds = Some parent -> links_to parent e -> alloc_output e) /\ e' = e).
