(** C39: after linking, codes of inputs lead to datasets. *)
From Verif Require Import Base Types Uncertainty Utils Topology Cutoff Locations Consequential Spec_Codes
  Codes_proofs Linked_proofs Props_Uncertainty Props_Topology Props_Locations Props_Consequential.

(** ** C39 *)

Theorem C39_codes : forall md5 ln ord t data out,
  unlinked_data data -> link_markets_by_pv md5 ln ord t data = Ok out ->
  exists coded, numbered md5 data = Ok coded /\ NoDup (map d_code coded) /\ NoDup (map d_code out) /\
  forall ds e c, ds ∈ out -> e ∈ d_exchanges ds -> e_type e = FromTechnosphere -> e_code e = Some c ->
    exists p, p ∈ coded /\ producer c (e_name e) p /\
      ((exists p', p' ∈ out /\ producer c (e_name e) p') \/
       (d_location p = "RoW"%string /\ (d_type p = Transforming \/ d_type p = MarketActivity))).
Proof. exact (pv_codes (fun ty => ty = FromTechnosphere)). Qed.
Print Assumptions C39_codes.

Theorem C39_no_dangling : forall md5 ln ord t data out,
  unlinked_data data -> link_markets_by_pv md5 ln ord t data = Ok out -> length out = length data ->
  forall ds e c, ds ∈ out -> e ∈ d_exchanges ds -> e_type e = FromTechnosphere -> e_code e = Some c ->
    exists p, p ∈ out /\ producer c (e_name e) p /\ forall p', p' ∈ out -> d_code p' = Some c -> p' = p.
Proof. exact (pv_no_deletion (fun ty => ty = FromTechnosphere)). Qed.
Print Assumptions C39_no_dangling.

Theorem C39_consequential : forall md5 ln ord t data out,
  unlinked_data data -> link_markets_by_technology_level md5 ln ord t data = Ok out ->
  NoDup (map d_code out) /\
  forall ds e c, ds ∈ out -> e ∈ d_exchanges ds -> e_type e = FromTechnosphere -> e_code e = Some c ->
    exists p, p ∈ out /\ producer c (e_name e) p.
Proof. exact (tech_codes (fun ty => ty = FromTechnosphere)). Qed.
Print Assumptions C39_consequential.

(** Steel made in France and elsewhere, its market, and a consumer of steel with
    and without an activity link to the global dataset. *)
Definition ex_input (link : option string) (name : string) : exchange :=
  set_e_link link (set_e_name name (set_e_type FromTechnosphere (set_e_amount (frac 3 2) exchange0))).
Definition ex_user (inputs : list exchange) : dataset :=
  set_d_exchanges (take 1 (d_exchanges (ex_place "9" "carmaking" "FR" "car" Transforming 1)) ++ inputs)
    (ex_tech "current" (ex_place "9" "carmaking" "FR" "car" Transforming 1)).
Definition ex_unlinked (v : Z) : list dataset :=
  [ex_tech "current" (ex_place "1" "steelmaking" "GLO" "steel" Transforming v);
   ex_tech "current" (ex_place "2" "steelmaking" "FR" "steel" Transforming 30);
   ex_tech "current" (ex_place "3" "market for steel" "GLO" "steel" MarketActivity 0);
   ex_user [ex_input (Some "1"%string) "steel"; ex_input None "steel"]].
Definition ex_codes (r : result (list dataset)) : list (option string * list (option string)) :=
  match r with
  | Ok l => map (fun d => (d_code d,
              map e_code (filterb (fun e => bool_decide (e_type e = FromTechnosphere)) (d_exchanges d)))) l
  | Err _ => []
  end.
Example ex_unlinked_ok v : unlinked_data (ex_unlinked v).
Proof. unfold unlinked_data, ex_unlinked. repeat constructor; discriminate. Qed.
Example C39_nonvacuous :
  unlinked_data (ex_unlinked 100) /\
  ex_codes (link_markets_by_pv (fun s => s) ex_ln (fun s => elements s) ex_world (ex_unlinked 100)) =
    [(Some "steelmakingsteelrow", []); (Some "steelmakingsteelfr", []);
     (Some "market for steelsteelglo", [Some "steelmakingsteelrow"; Some "steelmakingsteelfr"]);
     (Some "carmakingcarfr", [Some "steelmakingsteelrow"; Some "market for steelsteelglo"])]%string.
Proof. split; [apply ex_unlinked_ok|vm_compute; reflexivity]. Qed.
Example C39_consequential_nonvacuous :
  unlinked_data (ex_unlinked 100) /\
  ex_codes (link_markets_by_technology_level (fun s => s) ex_ln (fun s => elements s) ex_world (ex_unlinked 100)) =
    [(Some "steelmakingsteelrow", []); (Some "steelmakingsteelfr", []);
     (Some "market for steelsteelglo", [Some "steelmakingsteelrow"; Some "steelmakingsteelfr"]);
     (Some "carmakingcarfr", [Some "steelmakingsteelrow"; Some "market for steelsteelglo"])]%string.
Proof. split; [apply ex_unlinked_ok|vm_compute; reflexivity]. Qed.

(** The Rest-of-World dataset without a volume is deleted, the activity link to it
    is not: the consumer's code leads nowhere. *)
Theorem C39_dangling_refuted :
  exists md5 ln ord t data out ds e c,
    unlinked_data data /\ link_markets_by_pv md5 ln ord t data = Ok out /\
    ds ∈ out /\ e ∈ d_exchanges ds /\ e_type e = FromTechnosphere /\ e_code e = Some c /\
    Forall (fun p => d_code p <> Some c) out.
Proof.
  exists (fun s => s), ex_ln, (fun s => elements s), ex_world, (ex_unlinked 5). eexists _, _, _, _.
  split; [apply ex_unlinked_ok|]. split; [vm_compute; reflexivity|].
  split; [right; right; left|]. split; [right; left|]. split; [reflexivity|]. split; [reflexivity|].
  repeat constructor; discriminate.
Qed.
Print Assumptions C39_dangling_refuted.
