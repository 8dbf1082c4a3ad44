(** Property theorems C82 (intersections of places, order by weight). *)
From Verif Require Import Base Topology Spec_Topology Topology_proofs Intersections Spec_Intersections Intersections_proofs.

(** ** C82 Places intersect if and only if they have a face in common *)
Theorem C82_intersects : forall t n f c, n <> "GLO"%string -> n <> "RoW"%string -> t !! n = Some f ->
  exists b, intersects t n c = Ok b /\ (b = true <-> share t n c).
Proof. exact intersects_spec. Qed.
Print Assumptions C82_intersects.

Theorem C82_intersected : forall t n f ex s c, n <> "GLO"%string -> n <> "RoW"%string -> t !! n = Some f ->
  intersected t n ex = Ok s -> c ∈ s <-> share t n c /\ ~ (c = n /\ ex = true).
Proof. exact intersected_spec. Qed.
Print Assumptions C82_intersected.

Theorem C82_symmetric : forall t a b fa fb, a <> "GLO"%string -> a <> "RoW"%string -> b <> "GLO"%string -> b <> "RoW"%string ->
  t !! a = Some fa -> t !! b = Some fb -> intersects t a b = intersects t b a.
Proof. exact intersects_sym. Qed.
Print Assumptions C82_symmetric.

(** A place that contains another intersects it; two places overlap if and only if they
    intersect. *)
Theorem C82_contains : forall t p c fp fc row, p <> "GLO"%string -> p <> "RoW"%string -> c <> "RoW"%string ->
  t !! p = Some fp -> t !! c = Some fc -> fc <> ∅ ->
  contains t (PName p) (PName c) [] row = Ok true -> intersects t p c = Ok true.
Proof.
  intros t p c fp fc row Hg Hp Hc Ep Ec Hne H. destruct (intersects_spec t p fp c Hg Hp Ep) as (b & -> & Hb). f_equal. apply Hb.
  by eapply contains_share.
Qed.
Print Assumptions C82_contains.
Theorem C82_overlaps : forall t a b fa fb, a <> "GLO"%string -> a <> "RoW"%string -> b <> "RoW"%string -> t !! a = Some fa -> t !! b = Some fb ->
  exists o, overlaps t [a; b] = Ok (Some o) /\ intersects t a b = Ok o.
Proof.
  intros t a b fa fb Hg Ha Hb Ea Eb. destruct (overlaps_share t a b fa fb Ha Hb Ea Eb) as (o & Eo & Ho). exists o. split; [done|].
  destruct (intersects_spec t a fa b Hg Ha Ea) as (i & -> & Hi). f_equal. destruct o, i; naive_solver.
Qed.
Print Assumptions C82_overlaps.

(** "GLO" and "RoW" are said to intersect nothing. *)
Theorem C82_global : forall t n c, n = "GLO"%string \/ n = "RoW"%string -> intersects t n c = Ok false.
Proof. exact intersects_global. Qed.
Print Assumptions C82_global.

(** Whatever the size proxy: each location once, by decreasing weight. *)
Theorem C82_weights : forall proxy t row locs, Forall (fun n => exists f, occupies t row (PName n) f) locs ->
  exists l, proxied_dependencies proxy t locs row = Ok l /\ NoDup l /\ (forall n, n ∈ l <-> n ∈ locs) /\
    StronglySorted (heavier (proxy_size proxy) t row) l.
Proof. exact proxied_ok. Qed.
Print Assumptions C82_weights.
Theorem C82_larger_first : forall proxy t row locs l i j a b fa fb, (forall x, (0 < proxy x)%Qc) ->
  proxied_dependencies proxy t locs row = Ok l -> Forall (fun n => exists f, occupies t row (PName n) f) locs ->
  l !! i = Some a -> l !! j = Some b ->
  occupies t row (PName a) fa -> occupies t row (PName b) fb -> fb ⊂ fa -> (i < j)%nat.
Proof. exact proxied_larger_first. Qed.
Print Assumptions C82_larger_first.
Theorem C82_default : forall t locs row, proxied_dependencies default_size_proxy t locs row = ordered_dependencies t locs row.
Proof. exact default_dependencies. Qed.
Print Assumptions C82_default.

(** An example: France, Germany, the part of the grid both belong to, and the world. *)
Definition ex_world : topo := {["GLO" := {[1; 2; 3; 4]}; "FR" := {[1; 2]}; "DE" := {[3]}; "UCTE" := {[2; 3]}]}%positive%string.
Example C82_nonvacuous :
  intersects ex_world "FR" "UCTE" = Ok true /\ intersects ex_world "FR" "DE" = Ok false /\ intersects ex_world "FR" "GLO" = Ok true /\
  intersected ex_world "UCTE" true = Ok {["GLO"; "DE"; "FR"]}%string /\
  contains ex_world (PName "UCTE") (PName "DE") [] None = Ok true /\ overlaps ex_world ["UCTE"; "DE"]%string = Ok (Some true).
Proof. by_compute. Qed.
Definition ex_proxy (x : positive) : Qc := if bool_decide (x = 3%positive) then Qcint 5 else 1.
Example C82_weights_nonvacuous :
  Forall (fun n => exists f, occupies ex_world None (PName n) f) ["FR"; "DE"; "GLO"; "UCTE"]%string /\
  proxied_dependencies ex_proxy ex_world ["FR"; "DE"; "GLO"; "UCTE"]%string None = Ok ["GLO"; "UCTE"; "DE"; "FR"]%string /\
  ordered_dependencies ex_world ["FR"; "DE"; "GLO"; "UCTE"]%string None = Ok ["GLO"; "UCTE"; "FR"; "DE"]%string.
Proof.
  split; [|split; by vm_compute]. repeat constructor; eexists; apply occ_name; done.
Qed.

(** So intersecting is not symmetric. *)
Theorem C82_symmetric_refuted : exists t, glo_is_everything t /\ intersects t "FR" "GLO" = Ok true /\ intersects t "GLO" "FR" = Ok false /\
  contains t (PName "GLO") (PName "FR") [] None = Ok true.
Proof.
  exists ex_world. split; [|split_and!; by vm_compute].
  exists {[1; 2; 3; 4]}%positive. split; [done|]. intros n f H. unfold ex_world in H.
  apply lookup_insert_Some in H as [[_ <-]|[_ H]]; [done|]. apply lookup_insert_Some in H as [[_ <-]|[_ H]]; [set_solver|].
  apply lookup_insert_Some in H as [[_ <-]|[_ H]]; [set_solver|]. apply lookup_singleton_Some in H as [_ <-]. set_solver.
Qed.
Print Assumptions C82_symmetric_refuted.

(** With a proxy that can be zero a place can come before one that contains it. *)
Definition ex_grid : topo := {["AT" := {[1; 2]}; "BE" := {[2]}]}%positive%string.
Theorem C82_larger_first_refuted : exists proxy t fa fb, (forall x, (0 <= proxy x)%Qc) /\
  t !! "AT"%string = Some fa /\ t !! "BE"%string = Some fb /\ fb ⊂ fa /\
  proxied_dependencies proxy t ["AT"; "BE"]%string None = Ok ["BE"; "AT"]%string.
Proof.
  exists (fun x => if bool_decide (x = 2%positive) then 1%Qc else 0%Qc), ex_grid, {[1; 2]}%positive, {[2]}%positive.
  split; [intros x; by destruct (bool_decide _)|]. split; [done|]. split; [done|]. split; [|by vm_compute].
  split; [set_solver|]. intros H. specialize (H 1%positive). set_solver.
Qed.
Print Assumptions C82_larger_first_refuted.
