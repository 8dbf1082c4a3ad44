(** C62: linking changes inputs from technosphere only. *)
From Verif Require Import Base Types Uncertainty Utils Topology Cutoff Locations Consequential Spec_Untouched
  Untouched_proofs Props_Uncertainty Props_Topology Props_Locations Props_Consequential Props_Codes.

(** ** C62 *)

Theorem C62_pv : forall md5, (forall s, md5 s <> ""%string) -> forall ln ord t data out,
  link_markets_by_pv md5 ln ord t data = Ok out ->
  exists base, sublist base data /\ Forall2 linked_from base out /\
    filter local base = filter local data.
Proof. exact pv_untouched. Qed.
Print Assumptions C62_pv.

Theorem C62_technology : forall md5, (forall s, md5 s <> ""%string) -> forall ln ord t data out,
  link_markets_by_technology_level md5 ln ord t data = Ok out ->
  exists base, sublist base data /\ Forall2 linked_from base out /\
    filter local base = filter local data.
Proof. exact tech_untouched. Qed.
Print Assumptions C62_technology.

(** Emissions and by-products of a linked dataset. *)
Definition ex_rich (v : Z) : list dataset :=
  map (fun d => set_d_exchanges (d_exchanges d ++
    [set_e_name "carbon dioxide" (set_e_type ToEnvironment (set_e_amount (frac 7 2) exchange0));
     set_e_name "slag" (set_e_class (Some Waste) (set_e_type Byproduct (set_e_amount (frac 1 3) exchange0)))]) d)
    (ex_unlinked v).
Definition ex_md5 (s : string) : string := ("x" ++ s)%string.
Definition ex_seen (r : result (list dataset)) : list (string * string * list (string * etype * Qc)) :=
  match r with
  | Ok l => map (fun d => (d_name d, d_location d,
      map (fun e => (e_name e, e_type e, e_amount e)) (others d))) l
  | Err _ => []
  end.
Definition ex_kept (p : string) : list (string * etype * Qc) :=
  [(p, RefProduct, frac 1 1); ("carbon dioxide", ToEnvironment, frac 7 2); ("slag", Byproduct, frac 1 3)]%string.
Example C62_nonvacuous :
  (forall s, ex_md5 s <> ""%string) /\
  ex_seen (link_markets_by_pv ex_md5 ex_ln (fun s => elements s) ex_world (ex_rich 100)) =
    [("steelmaking", "RoW", ex_kept "steel"); ("steelmaking", "FR", ex_kept "steel");
     ("market for steel", "GLO", ex_kept "steel"); ("carmaking", "FR", ex_kept "car")]%string /\
  (** The dataset for the rest of the world goes if it makes nothing. *)
  ex_seen (link_markets_by_pv ex_md5 ex_ln (fun s => elements s) ex_world (ex_rich 5)) =
    [("steelmaking", "FR", ex_kept "steel");
     ("market for steel", "GLO", ex_kept "steel"); ("carmaking", "FR", ex_kept "car")]%string /\
  ex_seen (link_markets_by_technology_level ex_md5 ex_ln (fun s => elements s) ex_world (ex_rich 100)) =
    [("steelmaking", "RoW", ex_kept "steel"); ("steelmaking", "FR", ex_kept "steel");
     ("market for steel", "GLO", ex_kept "steel"); ("carmaking", "FR", ex_kept "car")]%string.
Proof. split; [done|]. split; [by_compute|]. split; by_compute. Qed.
