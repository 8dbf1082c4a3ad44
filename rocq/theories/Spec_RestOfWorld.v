(** Specifications for C31 and C40. *)
From Verif Require Import Base Types Spec_Utils GroupUpdate.

(** Names of the allocatable products with a non-zero amount. *)
Definition products_of (ds : dataset) : list string :=
  map e_name (filter (fun e => alloc_output e /\ e_amount e <> 0%Qc) (d_exchanges ds)).
Definition same_activity (a b : dataset) : Prop :=
  d_name a = d_name b /\ products_of a ≡ₚ products_of b.
Global Instance same_activity_dec a b : Decision (same_activity a b).
Proof. unfold same_activity. apply _. Defined.

(** The volume of the only reference product before hard links were taken
    off; zero if there is none. *)
Definition recorded_volume (ds : dataset) : Qc :=
  match filter is_refproduct (d_exchanges ds) with
  | [e] => match e_pv e with
           | Some v => match v_original v with Some x => x | None => v_amount v end
           | None => 0%Qc
           end
  | _ => 0%Qc
  end.

(** The other datasets of the activity of the dataset [ds] at position [i]. *)
Definition others (data : list dataset) (i : nat) (ds : dataset) : list (nat * dataset) :=
  filter (fun p => p.1 <> i /\ same_activity p.2 ds) (indexed data).

(** The first dataset of this activity is a market group. *)
Definition led_by_group (data : list dataset) (ds : dataset) : Prop :=
  exists first rest, filter (fun d => same_activity d ds) data = first :: rest /\
                     d_type first = MarketGroup.
Global Instance led_by_group_dec data ds : Decision (led_by_group data ds).
Proof.
  destruct (filter (fun d => same_activity d ds) data) as [|first rest] eqn:E.
  - right. intros (a & b & H & _). congruence.
  - destruct (decide (d_type first = MarketGroup)) as [Ht|Ht]; [left|right].
    + exists first, rest. done.
    + intros (a & b & H & H'). rewrite E in H. injection H as -> ->. done.
Defined.

Definition needs_row (data : list dataset) (i : nat) (ds : dataset) : Prop :=
  d_location ds = "GLO"%string /\ others data i ds <> [] /\ ~ led_by_group data ds.

(** [ds'] is [ds] as rest of the world, with volume [taken] supplied by
    others. *)
Definition as_rest_of_world (taken : Qc) (ds ds' : dataset) : Prop :=
  exists rp v before after,
    d_exchanges ds = before ++ rp :: after /\ is_refproduct rp /\ e_pv rp = Some v /\
    Forall (fun e => ~ is_refproduct e) (before ++ after) /\
    ds' = set_d_location "RoW" (set_d_exchanges
            (before ++
             set_e_pv (Some (set_v_amount (Qcmax (v_amount v - taken) 0)
                               (set_v_global (Some (v_amount v)) v))) rp :: after) ds).

(** The reference product of a dataset has a production volume. *)
Definition has_volume (ds : dataset) : Prop :=
  exists rp v, filter is_refproduct (d_exchanges ds) = [rp] /\ e_pv rp = Some v.

(** Two global datasets of one activity. *)
Definition two_global (data : list dataset) : Prop :=
  exists i j a b, i <> j /\ data !! i = Some a /\ data !! j = Some b /\ same_activity a b /\
    d_location a = "GLO"%string /\ d_location b = "GLO"%string /\ ~ led_by_group data a.

(** ** Idle rest-of-world datasets *)

Definition competes (kind : dtype) (product : option string) (ds : dataset) : Prop :=
  d_type ds = kind /\ d_refprod ds = product.
Global Instance competes_dec kind product ds : Decision (competes kind product ds).
Proof. unfold competes. apply _. Defined.

(** [ds] is the first rest-of-world dataset of its kind for its product, nothing
    is recorded as its production, and it is not the only one of its kind. *)
Definition idle_first (kind : dtype) (data : list dataset) (ds : dataset) : Prop :=
  d_type ds = kind /\ d_location ds = "RoW"%string /\ recorded_volume ds = 0%Qc /\
  exists before after, data = before ++ ds :: after /\
    (forall x, x ∈ before -> competes kind (d_refprod ds) x -> d_location x <> "RoW"%string) /\
    (exists x, x ∈ before ++ after /\ competes kind (d_refprod ds) x).
