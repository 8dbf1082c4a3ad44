(** C42-C44: the consequential system model. *)
From Verif Require Import Base Types Uncertainty Utils Spec_Utils Grouping GroupUpdate Topology Cutoff
  Locations Consequential Spec_Consequential Consequential_proofs Constrained_proofs
  Props_Uncertainty Props_Topology Props_Locations Props_Markets.

(** ** C42 *)

Theorem C42_best : forall data data',
  prune_suppliers_by_technology_level data = Ok data' ->
  Forall2 (fun ds ds' =>
    (d_type ds = MarketActivity \/ d_type ds = MarketGroup ->
     forall l, d_suppliers ds = Some l -> l <> [] ->
       ds' = set_d_suppliers (Some (filter (best_of l) l)) ds /\ filter (best_of l) l <> []) /\
    (~ (d_type ds = MarketActivity \/ d_type ds = MarketGroup) \/
     d_suppliers ds = None \/ d_suppliers ds = Some [] -> ds' = ds)) data data'.
Proof. exact prune_spec. Qed.
Print Assumptions C42_best.

Theorem C42_fails : forall data,
  Forall (fun ds => forall l, d_suppliers ds = Some l -> Forall (fun s => is_Some (e_tech s)) l) data ->
  prune_suppliers_by_technology_level data = Err AssertionError <->
  Exists (fun ds => is_market ds /\ exists l, d_suppliers ds = Some l /\ l <> [] /\
                    Forall (fun s => rank s = None) l) data.
Proof. exact prune_fails. Qed.
Print Assumptions C42_fails.

Theorem C42_idempotent : forall data data',
  prune_suppliers_by_technology_level data = Ok data' -> prune_suppliers_by_technology_level data' = Ok data'.
Proof. exact prune_idempotent. Qed.
Print Assumptions C42_idempotent.

Definition ex_levels (n : string) (ty : dtype) (levels : list string) : dataset :=
  set_d_suppliers (Some (map (fun l => set_e_tech (Some l) (set_e_name "steel" exchange0)) levels))
    (ex_place n n "FR" "steel" ty 1).
Definition ex_kept (r : result (list dataset)) : list (list (option string)) :=
  match r with Ok data => map (fun d => map e_tech (default [] (d_suppliers d))) data | Err _ => [] end.
Example C42_nonvacuous :
  ex_kept (prune_suppliers_by_technology_level
    [ex_levels "a" MarketActivity ["old"; "undefined"; "current"; "outdated"; "current"];
     ex_levels "b" MarketGroup ["outdated"];
     ex_levels "c" Transforming ["new"; "old"];
     ex_levels "d" MarketActivity []])%string =
  [[Some "current"; Some "current"]; [Some "outdated"]; [Some "new"; Some "old"]; []]%string.
Proof. vm_compute. reflexivity. Qed.

(** A market all of whose suppliers have the level 'undefined', which
    [switch_undefined_to_current] is meant to prevent but which no function of
    the consequential model calls, stops the run. *)
Theorem C42_undefined_refuted :
  exists ds s, is_market ds /\ d_suppliers ds = Some [s] /\ e_tech s = Some "undefined"%string /\
    prune_suppliers_by_technology_level [ds] = Err AssertionError.
Proof.
  exists (ex_levels "a" MarketActivity ["undefined"]%string), (set_e_tech (Some "undefined"%string) (set_e_name "steel" exchange0)).
  split; [by left|]. split; [reflexivity|]. split; [reflexivity|]. vm_compute. reflexivity.
Qed.
Print Assumptions C42_undefined_refuted.

(** The linking of the consequential model apportions the suppliers of markets
    only: those of market groups are found and thrown away, and the groups that
    others are linked to consume nothing of their product. *)
Definition ex_tech (level : string) (ds : dataset) : dataset :=
  set_d_exchanges (take 1 (d_exchanges ds)) (set_d_tech level ds).
Definition ex_consequential : list dataset :=
  [ex_tech "current" (ex_place "1" "steelmaking" "FR" "steel" Transforming 10);
   ex_tech "new" (ex_place "2" "steelmaking" "DE" "steel" Transforming 20);
   ex_tech "undefined" (ex_place "3" "market for steel" "FR" "steel" MarketActivity 0);
   ex_tech "undefined" (ex_place "4" "market for steel" "DE" "steel" MarketActivity 0);
   ex_tech "undefined" (ex_place "5" "market group for steel" "RER" "steel" MarketGroup 0);
   set_d_exchanges [set_e_class (Some Allocatable) (set_e_pv (Some (set_v_amount 1%Qc pvol0))
        (set_e_name "car" (set_e_type RefProduct (set_e_amount 1%Qc exchange0))));
      set_e_name "steel" (set_e_type FromTechnosphere (set_e_amount (frac 3 2) exchange0))]
     (ex_tech "current" (ex_place "6" "carmaking" "RER" "car" Transforming 1))].
Definition ex_linked : result (list dataset) :=
  link_markets_by_technology_level (fun s => s) ex_ln (fun s => elements s) ex_world ex_consequential.
Theorem C42_groups_without_inputs_refuted :
  exists md5 ln ord t data data' g u s,
    link_markets_by_technology_level md5 ln ord t data = Ok data' /\
    data' !! 4%nat = Some g /\ d_type g = MarketGroup /\
    Forall (fun e => e_type e = FromTechnosphere -> e_code e = None) (d_exchanges g) /\
    Forall (fun e => e_type e = FromTechnosphere -> e_name e <> "steel"%string) (d_exchanges g) /\
    data' !! 5%nat = Some u /\ s ∈ d_exchanges u /\ e_name s = "steel"%string /\ e_code s = d_code g /\
    is_Some (d_code g).
Proof.
  exists (fun s => s), ex_ln, (fun s => elements s), ex_world, ex_consequential.
  eexists _, _, _, _. split; [vm_compute; reflexivity|]. split; [reflexivity|]. split; [reflexivity|].
  split; [by_compute|]. split; [by_compute|]. split; [reflexivity|]. split; [right; left|]. split; [reflexivity|].
  split; [reflexivity|]. by eexists.
Qed.
Print Assumptions C42_groups_without_inputs_refuted.

(** ** C43 *)

(** What each dataset makes of each product is the same before and after; only
    types, classifications, amounts and formulas of exchanges change. *)
Theorem C43_balance : forall data data',
  (forall ds e, ds ∈ data -> e ∈ d_exchanges ds -> conditional e -> e_type e = Byproduct) ->
  handle_constrained_markets data = Ok data' ->
  Forall2 (fun ds ds' => exists es, ds' = set_d_exchanges es ds /\
    Forall2 (fun e e' =>
      (exists t c a f, e' = set_e_type t (set_e_class c (set_e_amount a (set_e_formula f e)))) /\
      contribution e' = contribution e /\ (e' = e \/ (traded e /\ traded e'))) (d_exchanges ds) es /\
    forall product, net_output product ds' = net_output product ds) data data'.
Proof. exact handle_balance. Qed.
Print Assumptions C43_balance.

(** The datasets that conditional exchanges are linked to make the product
    instead; conditional exchanges become inputs; nothing else changes. *)
Theorem C43_exact : forall data,
  NoDup (map d_id data) ->
  (forall i j e k target, constrains data i j e k target -> Forall (fun e' => ~ conditional e') (d_exchanges target)) ->
  (forall i j e i' j' e' k target, constrains data i j e k target -> constrains data i' j' e' k target ->
    (i, j) = (i', j')) ->
  forall data', handle_constrained_markets data = Ok data' ->
  length data' = length data /\
  forall k ds, data !! k = Some ds ->
    (forall i j e, constrains data i j e k ds -> data' !! k = Some (substituted (e_name e) ds)) /\
    ((forall i j e, ~ constrains data i j e k ds) -> data' !! k = Some (unconstrained ds)).
Proof. exact handle_exact. Qed.
Print Assumptions C43_exact.

Theorem C43_succeeds : forall data,
  NoDup (map d_id data) ->
  (forall i j e k target, constrains data i j e k target -> Forall (fun e' => ~ conditional e') (d_exchanges target)) ->
  (forall i j e i' j' e' k target, constrains data i j e k target -> constrains data i' j' e' k target ->
    (i, j) = (i', j')) ->
  is_ok (handle_constrained_markets data) = true <->
  forall i j ds e, data !! i = Some ds -> d_exchanges ds !! j = Some e -> conditional e ->
    exists k target, data !! k = Some target /\ e_link e = Some (d_id target) /\ substitutable (e_name e) target.
Proof. exact handle_exact_ok. Qed.
Print Assumptions C43_succeeds.

Theorem C43_links : forall data data',
  delete_activity_links_to_constrained_markets data = Ok data' ->
  Forall2 (fun ds ds' => exists es, ds' = set_d_exchanges es ds /\
    Forall2 (fun e e' => (conditional e -> is_Some (e_link e) /\ e' = e) /\
                         (~ conditional e -> e_link e = Some ""%string -> e' = e) /\
                         (~ conditional e -> e_link e <> Some ""%string -> e' = set_e_link None e))
      (d_exchanges ds) es) data data'.
Proof. exact delete_links_spec. Qed.
Print Assumptions C43_links.

(** A market for fatty acid with a conditional by-product crude oil, linked to a
    refinery, and a consumer with an ordinary link. *)
Definition ex_exc (n : string) (ty : etype) (a : Qc) : exchange :=
  set_e_name n (set_e_type ty (set_e_amount a exchange0)).
Definition ex_refinery : dataset :=
  set_d_exchanges
    [ex_exc "refined oil" RefProduct 1%Qc;
     set_e_formula (Some "-x"%string) (ex_exc "crude oil" FromTechnosphere (- frac 5 4)%Qc);
     ex_exc "heat" FromTechnosphere (Qcint 3)]
    (ex_place "r" "refining" "GLO" "refined oil" Transforming 1).
Definition ex_constrained : list dataset :=
  [set_d_exchanges
     [ex_exc "fatty acid" RefProduct 1%Qc;
      set_e_cond (Some true) (set_e_link (Some "r"%string) (ex_exc "crude oil" Byproduct (- frac 1 2)%Qc))]
     (ex_place "m" "market for fatty acid" "GLO" "fatty acid" MarketActivity 1);
   ex_refinery;
   set_d_exchanges [ex_exc "soap" RefProduct 1%Qc;
                    set_e_link (Some "x"%string) (ex_exc "heat" FromTechnosphere (Qcint 2))]
     (ex_place "s" "soap making" "GLO" "soap" Transforming 1)].
Definition ex_shape (r : result (list dataset)) :=
  match r with
  | Ok data => map (fun d => map (fun e => (e_name e, e_type e, this (e_amount e), e_formula e)) (d_exchanges d)) data
  | Err _ => []
  end.
Example C43_nonvacuous :
  ex_shape (handle_constrained_markets ex_constrained) =
  [[("fatty acid", RefProduct, 1 # 1, None); ("crude oil", FromTechnosphere, 1 # 2, None)];
   [("refined oil", FromTechnosphere, -1 # 1, None); ("crude oil", RefProduct, 5 # 4, Some "-1 * (-x)");
    ("heat", FromTechnosphere, 3 # 1, None)];
   [("soap", RefProduct, 1 # 1, None); ("heat", FromTechnosphere, 2 # 1, None)]]%string%Q.
Proof. vm_compute. reflexivity. Qed.

Lemma ex_constrains i j e k target : constrains ex_constrained i j e k target ->
  i = 0%nat /\ j = 1%nat /\ k = 1%nat /\ target = ex_refinery.
Proof.
  intros (ds & Hi & Hj & Hc & Hk & Hl).
  assert (i = 0%nat /\ j = 1%nat) as [-> ->].
  { destruct i as [|[|[|i]]]; cbn in Hi; try (apply Some_inj in Hi as <-); try discriminate;
      (destruct j as [|[|[|j]]]; cbn in Hj; try (apply Some_inj in Hj as <-); try discriminate; try done). }
  cbn in Hi. apply Some_inj in Hi as <-. cbn in Hj. apply Some_inj in Hj as <-.
  destruct k as [|[|[|k]]]; cbn in Hk; try (apply Some_inj in Hk as <-); try discriminate; cbn in Hl; try discriminate. done.
Qed.
Example C43_hypotheses :
  NoDup (map d_id ex_constrained) /\
  (forall i j e k target, constrains ex_constrained i j e k target ->
     Forall (fun e' => ~ conditional e') (d_exchanges target)) /\
  (forall i j e i' j' e' k target, constrains ex_constrained i j e k target ->
     constrains ex_constrained i' j' e' k target -> (i, j) = (i', j')) /\
  (forall ds e, ds ∈ ex_constrained -> e ∈ d_exchanges ds -> conditional e -> e_type e = Byproduct) /\
  exists i j e k target, constrains ex_constrained i j e k target.
Proof.
  split; [by_compute|]. split.
  - intros i j e k target H. apply ex_constrains in H as (_ & _ & _ & ->). by_compute.
  - split; [|split].
    + intros i j e i' j' e' k target H H'. apply ex_constrains in H as (-> & -> & _). by apply ex_constrains in H' as (-> & -> & _).
    + assert (Forall (fun ds => Forall (fun e => conditional e -> e_type e = Byproduct) (d_exchanges ds)) ex_constrained) as H by by_compute.
      rewrite Forall_forall in H. intros ds e Hds He. specialize (H ds Hds). rewrite Forall_forall in H. by apply H.
    + exists 0%nat, 1%nat. eexists _, 1%nat, _. eexists. split; [reflexivity|]. split; [reflexivity|]. split; [reflexivity|].
      split; [reflexivity|]. reflexivity.
Qed.

(** The pass named after the links to constrained markets deletes every link of
    an exchange that is not conditional, whatever it leads to. *)
Theorem C43_unrelated_links_refuted :
  exists data data' ds ds' e e',
    delete_activity_links_to_constrained_markets data = Ok data' /\
    data !! 1%nat = Some ds /\ d_exchanges ds !! 1%nat = Some e /\
    data' !! 1%nat = Some ds' /\ d_exchanges ds' !! 1%nat = Some e' /\
    e_link e = Some (d_id ex_refinery) /\ e_link e' = None /\
    Forall (fun d => Forall (fun x => ~ conditional x) (d_exchanges d)) data.
Proof.
  exists [ex_refinery;
    set_d_exchanges [ex_exc "soap" RefProduct 1%Qc;
                     set_e_link (Some "r"%string) (ex_exc "refined oil" FromTechnosphere (Qcint 2))]
     (ex_place "s" "soap making" "GLO" "soap" Transforming 1)].
  eexists _, _, _, _, _. split; [vm_compute; reflexivity|]. do 4 (split; [reflexivity|]).
  split; [reflexivity|]. split; [reflexivity|]. by_compute.
Qed.
Print Assumptions C43_unrelated_links_refuted.

(** The uncertainty of a flipped exchange is not flipped. *)
Theorem C43_uncertainty_refuted :
  exists data data' i ds ds' e e' u,
    handle_constrained_markets data = Ok data' /\ data !! i = Some ds /\ data' !! i = Some ds' /\
    d_exchanges ds !! 0%nat = Some e /\ d_exchanges ds' !! 0%nat = Some e' /\
    e_unc e = Some u /\ u_mean u = Some (e_amount e) /\ e_unc e' = Some u /\ u_mean u <> Some (e_amount e').
Proof.
  exists (map (fun d => set_d_exchanges (map (fun e =>
            set_e_unc (Some (set_u_mean (Some (e_amount e)) uncert0)) e) (d_exchanges d)) d) ex_constrained).
  eexists. exists 1%nat. eexists _, _, _, _, _. split; [vm_compute; reflexivity|].
  do 7 (split; [reflexivity|]). intros E. by vm_compute in E.
Qed.
Print Assumptions C43_uncertainty_refuted.

(** ** C44 *)

Theorem C44_missing : forall data,
  ensure_byproducts_have_alternative_production data = Err MissingAlternativeProducer <->
  exists ds e, ds ∈ data /\ e ∈ d_exchanges ds /\ e_type e = Byproduct /\
    forall ds' e', ds' ∈ data -> e' ∈ d_exchanges ds' -> e_type e' = RefProduct -> e_name e' <> e_name e.
Proof. exact byproducts_missing. Qed.
Print Assumptions C44_missing.

Theorem C44_otherwise : forall data r, ensure_byproducts_have_alternative_production data = r ->
  r = Ok data \/ r = Err MissingAlternativeProducer.
Proof. exact byproducts_other. Qed.
Print Assumptions C44_otherwise.

Example C44_nonvacuous :
  ensure_byproducts_have_alternative_production ex_constrained = Err MissingAlternativeProducer /\
  is_ok (let? d := handle_constrained_markets ex_constrained in ensure_byproducts_have_alternative_production d) = true.
Proof. split; vm_compute; reflexivity. Qed.
