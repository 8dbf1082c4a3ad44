(** Property theorems C29 and C30: containment and order of places. *)
From Verif Require Import Base Topology Spec_Topology Topology_proofs.

(** ** C29 The topology relation is a containment order *)
Theorem C29_contains :
  forall t parent f n cf sub row,
    occupies t row parent f -> (parent = PName "RoW" -> f <> ∅) ->
    n <> "RoW"%string -> t !! n = Some cf -> Forall (known t) sub ->
    exists b, contains t parent (PName n) sub row = Ok b /\
      (b = true <-> forall x, x ∈ cf -> x ∈ f /\ ~ covered t sub x).
Proof. exact contains_name. Qed.
Print Assumptions C29_contains.

Theorem C29_contains_resolved :
  forall t parent f c sub row,
    occupies t row parent f -> Forall (known t) sub ->
    exists b, contains t parent (PFaces c) sub row = Ok b /\
      (b = true <-> c <> ∅ /\ forall x, x ∈ c -> x ∈ f /\ ~ covered t sub x).
Proof. exact contains_faces. Qed.
Print Assumptions C29_contains_resolved.

Theorem C29_contains_row :
  forall t parent sub row,
    contains t parent (PName "RoW") sub row = Ok (bool_decide (parent = PName "GLO" /\ sub = [])).
Proof. exact contains_row. Qed.
Print Assumptions C29_contains_row.

Theorem C29_unresolved_row :
  forall t n sub row, default ∅ row = ∅ -> contains t (PName "RoW") (PName n) sub row = Ok false.
Proof. exact contains_unresolved. Qed.
Print Assumptions C29_unresolved_row.

Theorem C29_reflexive :
  forall t n f row, occupies t row (PName n) f -> n <> "RoW"%string ->
    contains t (PName n) (PName n) [] row = Ok true.
Proof. exact contains_refl. Qed.
Print Assumptions C29_reflexive.

Theorem C29_transitive :
  forall t a b c row, a <> PName "RoW" -> b <> "RoW"%string -> c <> "RoW"%string ->
    contains t a (PName b) [] row = Ok true -> contains t (PName b) (PName c) [] row = Ok true ->
    contains t a (PName c) [] row = Ok true.
Proof. exact contains_trans. Qed.
Print Assumptions C29_transitive.

Theorem C29_glo :
  forall t n f row, glo_is_everything t -> t !! n = Some f ->
    contains t (PName "GLO") (PName n) [] row = Ok true.
Proof. exact contains_glo. Qed.
Print Assumptions C29_glo.

Theorem C29_contained :
  forall t loc sub row s n cf, contained t loc false sub row = Ok s ->
    n <> "RoW"%string -> t !! n = Some cf -> cf <> ∅ ->
    n ∈ s <-> contains t loc (PName n) sub row = Ok true.
Proof. exact contained_iff. Qed.
Print Assumptions C29_contained.

Theorem C29_contained_row :
  forall t loc sub row s, contained t loc false sub row = Ok s -> t !! "RoW"%string = None ->
    "RoW"%string ∈ s <->
      match row with
      | None => contains t loc (PName "RoW") sub None = Ok true /\
                (exists g, t !! "GLO"%string = Some g /\ g <> ∅)
      | Some r => contains t loc (PFaces r) sub row = Ok true
      end.
Proof. exact contained_row. Qed.
Print Assumptions C29_contained_row.

Theorem C29_contained_names :
  forall t loc ex sub row s n, contained t loc ex sub row = Ok s -> n ∈ s ->
    n = "RoW"%string \/ is_Some (t !! n).
Proof. exact contained_names. Qed.
Print Assumptions C29_contained_names.

Theorem C29_contained_exclude_self :
  forall t n sub row, t !! "RoW"%string = None ->
    contained t (PName n) true sub row
    = fmapR (fun s => s ∖ {[n]}) (contained t (PName n) false sub row).
Proof. exact contained_exclude. Qed.
Print Assumptions C29_contained_exclude_self.

Theorem C29_overlaps :
  forall t group, group <> [] -> Forall (known t) group ->
    exists b, overlaps t group = Ok (Some b) /\ (b = false <-> apart t group).
Proof. exact overlaps_spec. Qed.
Print Assumptions C29_overlaps.

Theorem C29_rest_of_world :
  forall t others r, resolve_row t others = Ok r ->
    forall x, x ∈ r <->
      (exists g, t !! "GLO"%string = Some g /\ x ∈ g) /\ ~ covered t others x.
Proof. exact resolve_row_exact. Qed.
Print Assumptions C29_rest_of_world.

Theorem C29_rest_of_world_total :
  forall t others, others <> [] -> Forall (known t) others -> is_Some (t !! "GLO"%string) ->
    exists r, resolve_row t others = Ok r.
Proof. exact resolve_row_total. Qed.
Print Assumptions C29_rest_of_world_total.

Theorem C29_aliases :
  forall cg all t, make_topology cg all = Ok t ->
    t !! "GLO"%string = Some all /\
    (forall n, n <> "GLO"%string -> n ∉ map fst compatibility -> t !! n = cg !! n) /\
    (forall o fx, (o, fx) ∈ compatibility -> exists f, t !! o = Some f /\ t !! fx = Some f).
Proof. exact make_topology_spec. Qed.
Print Assumptions C29_aliases.

(** A small world: seven faces. *)
Definition ex_world : topo := list_to_map
  [("GLO", list_to_set [1;2;3;4;5;6;7]); ("RER", list_to_set [1;2;3;4]);
   ("FR", list_to_set [1;2]); ("DE", list_to_set [3]); ("FR-DE", list_to_set [1;2;3]);
   ("US", list_to_set [5;6]); ("UCTE", list_to_set [2;3;4]); ("nowhere", ∅)]%string%positive.
Definition ex_all : list string := ["GLO"; "RER"; "FR"; "DE"; "FR-DE"; "US"; "UCTE"]%string.
Definition ex_row : faces := list_to_set [4; 7]%positive.

Lemma ex_world_glo : glo_is_everything ex_world.
Proof.
  exists (list_to_set [1;2;3;4;5;6;7]%positive). split; [reflexivity|].
  intros n f H. apply elem_of_list_to_map_2 in H.
  repeat (apply elem_of_cons in H as [H|H]; [injection H as -> ->; set_solver|]). set_solver.
Qed.
Example C29_ex :
  glo_is_everything ex_world /\ ex_world !! "RoW"%string = None /\
  resolve_row ex_world ["FR-DE"; "US"; "RoW"]%string = Ok ex_row /\
  contains ex_world (PName "RER") (PName "FR") [] None = Ok true /\
  contains ex_world (PName "RER") (PName "FR") ["UCTE"%string] None = Ok false /\
  contains ex_world (PName "RER") (PName "FR") ["DE"; "RoW"]%string None = Ok true /\
  contains ex_world (PName "UCTE") (PName "FR") [] None = Ok false /\
  contains ex_world (PName "GLO") (PFaces ex_row) ["FR"%string] None = Ok true /\
  contains ex_world (PName "RoW") (PName "DE") [] (Some ex_row) = Ok false /\
  contained ex_world (PName "RER") false [] (Some ex_row)
    = Ok (list_to_set ["RER"; "UCTE"; "FR-DE"; "FR"; "DE"; "nowhere"]%string) /\
  contained ex_world (PName "GLO") true ["US"%string] (Some ex_row)
    = Ok (list_to_set ["RER"; "UCTE"; "FR-DE"; "FR"; "DE"; "nowhere"; "RoW"]%string) /\
  overlaps ex_world ["FR"; "DE"; "US"; "RoW"]%string = Ok (Some false) /\
  overlaps ex_world ["FR"; "UCTE"; "US"]%string = Ok (Some true).
Proof. split; [apply ex_world_glo|]. split_and!; by_compute. Qed.

(** ** C30 Ordered dependencies *)
Theorem C30_order :
  forall t row locs, Forall (fun n => exists f, occupies t row (PName n) f) locs ->
    exists l, ordered_dependencies t locs row = Ok l /\
      NoDup l /\ (forall n, n ∈ l <-> n ∈ locs) /\
      StronglySorted (before_in_order t row) l.
Proof. exact ordered_ok. Qed.
Print Assumptions C30_order.

Theorem C30_larger_first :
  forall t row locs l i j a b fa fb,
    ordered_dependencies t locs row = Ok l ->
    Forall (fun n => exists f, occupies t row (PName n) f) locs ->
    l !! i = Some a -> l !! j = Some b ->
    occupies t row (PName a) fa -> occupies t row (PName b) fb -> fb ⊂ fa -> (i < j)%nat.
Proof. exact ordered_containing_first. Qed.
Print Assumptions C30_larger_first.

Theorem C30_input_order_irrelevant :
  forall t row locs1 locs2, (forall n, n ∈ locs1 <-> n ∈ locs2) ->
    ordered_dependencies t locs1 row = ordered_dependencies t locs2 row.
Proof. exact ordered_unique. Qed.
Print Assumptions C30_input_order_irrelevant.

Example C30_ex :
  Forall (fun n => exists f, occupies ex_world (Some ex_row) (PName n) f)
    ["DE"; "RoW"; "RER"; "FR"; "DE"; "GLO"; "US"]%string /\
  ordered_dependencies ex_world ["DE"; "RoW"; "RER"; "FR"; "DE"; "GLO"; "US"]%string (Some ex_row)
  = Ok ["GLO"; "RER"; "US"; "RoW"; "FR"; "DE"]%string.
Proof.
  split; [|vm_compute; reflexivity].
  repeat constructor; eexists; try (apply occ_row; reflexivity); apply occ_name; done.
Qed.
