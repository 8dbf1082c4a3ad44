(** Exactly which datasets share an activity code (C07). *)
From Verif Require Import Base Types Utils Spec_Utils Spec_Identity Utils_proofs Identity_proofs Props_Utils.

(** With dates of a fixed width, two datasets share a code exactly when the dates are the
    same and the name, the product, the unit and the location read the same run together. *)
Theorem C07_exact : forall md5 d1 d2, (forall s t, md5 s = md5 t -> s = t) ->
  String.length (d_start d1) = String.length (d_start d2) -> String.length (d_end d1) = String.length (d_end d2) ->
  activity_hash md5 d1 = activity_hash md5 d2 <->
  lower (d_start d1) = lower (d_start d2) /\ lower (d_end d1) = lower (d_end d2) /\
  lower (d_name d1 ++ default "" (d_refprod d1) ++ default "" (d_unit d1) ++ d_location d1)%string =
  lower (d_name d2 ++ default "" (d_refprod d2) ++ default "" (d_unit d2) ++ d_location d2)%string.
Proof. exact hash_exact. Qed.
Print Assumptions C07_exact.

(** A change of a single one of the six texts is always seen, whatever their lengths; indeed
    two datasets can only collide when at least two of the texts differ in length. *)
Theorem C07_one_field : forall md5 d1 d2 i, (forall s t, md5 s = md5 t -> s = t) ->
  (forall j s t, j <> i -> identity lower d1 !! j = Some s -> identity lower d2 !! j = Some t ->
     String.length s = String.length t) ->
  activity_hash md5 d1 = activity_hash md5 d2 -> identity lower d1 = identity lower d2.
Proof. exact hash_all_but. Qed.
Print Assumptions C07_one_field.

Theorem C07_identity : forall md5 d1 d2, identity lower d1 = identity lower d2 ->
  activity_hash md5 d1 = activity_hash md5 d2.
Proof. intros md5 d1 d2 H. rewrite !hash_joined. by rewrite H. Qed.
Print Assumptions C07_identity.

(** "ab" of "c" is taken for "a" of "bc"; "abd" of "c" is told from "ab" of "c". *)
Example C07_exact_nonvacuous :
  activity_hash id (ex_id "ab" "c" "CH") = activity_hash id (ex_id "a" "bc" "CH") /\
  identity lower (ex_id "ab" "c" "CH") <> identity lower (ex_id "a" "bc" "CH") /\
  (forall j, j <> 0 -> identity lower (ex_id "ab" "c" "CH") !! j = identity lower (ex_id "abd" "c" "CH") !! j) /\
  activity_hash id (ex_id "ab" "c" "CH") <> activity_hash id (ex_id "abd" "c" "CH").
Proof.
  split; [by_compute|]. split; [by vm_compute|]. split; [|by vm_compute].
  intros [|j] Hj; [done|]. reflexivity.
Qed.
