(** Specifications for C42-C44. *)
From Verif Require Import Base Types Spec_Utils.

(** ** Technology levels *)

(** The place of a level in the hierarchy, zero for the best. *)
Definition level_rank (level : string) : option nat :=
  if (level =? "new")%string then Some 0%nat
  else if (level =? "modern")%string then Some 1%nat
  else if (level =? "current")%string then Some 2%nat
  else if (level =? "old")%string then Some 3%nat
  else if (level =? "outdated")%string then Some 4%nat
  else None.
Definition rank (s : exchange) : option nat :=
  match e_tech s with Some l => level_rank l | None => None end.
(** No supplier in the list has a better level than [s]. *)
Definition best_of (l : list exchange) (s : exchange) : Prop :=
  exists n, rank s = Some n /\ Forall (fun s' => forall m, rank s' = Some m -> (n <= m)%nat) l.
Global Instance best_of_dec l s : Decision (best_of l s).
Proof.
  unfold best_of. destruct (rank s) as [n|]; [|right; naive_solver].
  assert (forall s', Decision (match rank s' with Some m => (n <= m)%nat | None => True end)) as D
    by (intros s'; destruct (rank s'); apply _).
  destruct (decide (Forall (fun s' => match rank s' with Some m => (n <= m)%nat | None => True end) l)) as [H|H].
  - left. exists n. split; [done|]. eapply Forall_impl; [exact H|]. intros s' Hs m Hm. cbn beta in Hs. by rewrite Hm in Hs.
  - right. intros (m & E & Hm). apply Some_inj in E as <-. apply H. eapply Forall_impl; [exact Hm|].
    intros s' Hs. cbn beta in Hs. destruct (rank s'); [by apply Hs|done].
Defined.
Definition is_market (ds : dataset) : Prop := d_type ds = MarketActivity \/ d_type ds = MarketGroup.
Definition pruned (ds ds' : dataset) : Prop :=
  (is_market ds -> forall l, d_suppliers ds = Some l -> l <> [] ->
     ds' = set_d_suppliers (Some (filter (best_of l) l)) ds /\ filter (best_of l) l <> []) /\
  (~ is_market ds \/ d_suppliers ds = None \/ d_suppliers ds = Some [] -> ds' = ds).

(** ** Constrained markets *)

(** What an exchange adds to its dataset: outputs count positive, inputs
    negative. *)
Definition contribution (e : exchange) : Qc :=
  match e_type e with
  | RefProduct | Byproduct => e_amount e
  | FromTechnosphere => (- e_amount e)%Qc
  | _ => 0%Qc
  end.
(** A product that is made or used. *)
Definition traded (e : exchange) : Prop := e_type e = RefProduct \/ e_type e = Byproduct \/ e_type e = FromTechnosphere.
Definition net_output (product : string) (ds : dataset) : Qc :=
  Qcsum (map contribution (filter (fun e => e_name e = product) (d_exchanges ds))).
Definition conditional (e : exchange) : Prop := e_cond e = Some true.
Global Instance conditional_dec e : Decision (conditional e).
Proof. unfold conditional. apply _. Defined.

(** An output made an input or the other way round, with the opposite amount. *)
Definition opposite (e : exchange) : exchange :=
  set_e_formula (option_map (fun f => "-1 * (" ++ f ++ ")")%string (e_formula e))
    (set_e_amount (- e_amount e)%Qc e).
Definition into_input (e : exchange) : exchange := opposite (set_e_type FromTechnosphere e).
Definition into_product (e : exchange) : exchange :=
  opposite (set_e_class (Some Allocatable) (set_e_type RefProduct e)).

(** [ds] is told to make [product]: its reference product becomes an input, its
    input [product] its reference product. *)
Definition substituted (product : string) (ds : dataset) : dataset :=
  set_d_exchanges (map (fun e =>
    let e1 := if decide (e_type e = RefProduct) then into_input e else e in
    if decide (e_name e = product) then into_product e1 else e1) (d_exchanges ds)) ds.
(** [ds] can be told to. *)
Definition substitutable (product : string) (ds : dataset) : Prop :=
  length (filter is_refproduct (d_exchanges ds)) = 1%nat /\
  exists e, filter (fun e => e_name e = product) (d_exchanges ds) = [e] /\
    (e_type e = FromTechnosphere \/ e_type e = RefProduct).
(** Conditional exchanges made inputs. *)
Definition unconstrained (ds : dataset) : dataset :=
  set_d_exchanges (map (fun e => if decide (conditional e) then into_input e else e) (d_exchanges ds)) ds.

(** The exchange [e] of [data] is conditional and linked to the dataset at
    position [k]. *)
Definition constrains (data : list dataset) (i j : nat) (e : exchange) (k : nat) (target : dataset) : Prop :=
  exists ds, data !! i = Some ds /\ d_exchanges ds !! j = Some e /\ conditional e /\
    data !! k = Some target /\ e_link e = Some (d_id target).
