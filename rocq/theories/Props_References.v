(** C72: references by identifier in formulas. *)
From Coq Require Import Ascii.
From Verif Require Import Base Types Uncertainty Utils Strings Recalculation Formulas Parameters Spec_Parameters Spec_References
  References_proofs References2_proofs References3_proofs References4_proofs.

(** Every reference becomes the variable of what it refers to; variables that are there stay; new ones are
    given only to things without a variable that are referred to; nothing else changes. *)
Theorem C72_replaced : forall data data', Forall readable data ->
  replace_implicit_references data = Ok data' -> Forall2 references_replaced data data'.
Proof. exact data_replaced. Qed.
Print Assumptions C72_replaced.

(** No formula has a reference left. *)
Theorem C72_none_left : forall data data' ds' s, Forall readable data ->
  replace_implicit_references data = Ok data' -> ds' ∈ data' -> s ∈ formulas ds' -> quote ∉ chars s.
Proof. exact data_quotes. Qed.
Print Assumptions C72_none_left.

(** The pass fails exactly if something is referred to that is not there, and then with a [ValueError]. *)
Theorem C72_fails : forall data, Forall readable data -> Forall identified data ->
  (Forall all_found data /\ exists data', replace_implicit_references data = Ok data') \/
  (~ Forall all_found data /\ replace_implicit_references data = Err ValueError).
Proof. exact data_iff. Qed.
Print Assumptions C72_fails.

Theorem C72_idempotent : forall data data', Forall readable data ->
  replace_implicit_references data = Ok data' -> replace_implicit_references data' = Ok data'.
Proof. exact data_idempotent. Qed.
Print Assumptions C72_idempotent.

(** ** Examples *)
Definition ex_u1 : string := "11111111-aaaa-4bbb-8ccc-0123456789ab".
Definition ex_u2 : string := "22222222-aaaa-4bbb-8ccc-0123456789ab".
Definition ex_u3 : string := "33333333-aaaa-4bbb-8ccc-0123456789ab".
Lemma ex_uuids : Forall (fun u => uuid_ok (chars u)) [ex_u1; ex_u2; ex_u3].
Proof.
  repeat apply Forall_cons_2; [| | |constructor];
    [exists (chars "11111111")|exists (chars "22222222")|exists (chars "33333333")];
    exists (chars "aaaa"), (chars "4bbb"), (chars "8ccc"), (chars "0123456789ab");
    (split; [reflexivity|]); repeat (split; [reflexivity|]); unfold hex_digit; by_compute.
Qed.
Definition ex_pieces : list rpiece :=
  map RChar (chars "2*") ++ [RExchange true (chars ex_u1)] ++ [RChar "+"%char] ++ [RExchange false (chars ex_u2)] ++
  [RChar "/"%char] ++ [RVolume true (chars ex_u1)] ++ map RChar (chars "-") ++ [RExchange true (chars ex_u1)].
Definition ex_refs : dataset :=
  set_d_params [set_q_id (Some ex_u2) (set_q_variable (Some "yield"%string) param0);
                set_q_id (Some ex_u3) (set_q_formula (Some (str (rtext ex_pieces))) param0)]
    (set_d_exchanges
       [set_e_id (Some ex_u1) (set_e_pv (Some pvol0) exchange0)] dataset0).
Lemma ex_pieces_ok : Forall rpiece_ok ex_pieces.
Proof.
  pose proof ex_uuids as H. apply Forall_cons in H as [H1 H]. apply Forall_cons in H as [H2 _]. unfold ex_pieces.
  repeat first [apply Forall_app; split | apply Forall_cons; split | apply Forall_nil | exact H1 | exact H2 | exact I | (unfold rpiece_ok, quote; discriminate)].
Qed.
Example ex_readable : readable ex_refs.
Proof.
  split.
  - intros s Hs. change (s ∈ [str (rtext ex_pieces)]) in Hs. apply elem_of_list_singleton in Hs as ->. exists ex_pieces.
    split; [apply ex_pieces_ok|done].
  - intros v Hv. change (v ∈ ["yield"%string]) in Hv. apply elem_of_list_singleton in Hv as ->. unfold quote. by_compute.
Qed.
Example ex_identified : identified ex_refs.
Proof.
  split; intros x Hx.
  - apply elem_of_list_singleton in Hx as ->. done.
  - apply elem_of_cons in Hx as [->|Hx]; [done|]. apply elem_of_list_singleton in Hx as ->. done.
Qed.
Definition ex_names (ds : dataset) : list (option string * option string) :=
  map (fun o => (o_variable o, o_formula o)) (all_objs ds).
Example ex_replaced : fmapR (map ex_names) (replace_implicit_references [ex_refs]) = Ok [
  [(Some "ref_replacement_11111111aaaa4bbb8ccc0123456789ab", None);
   (Some "ref_pv_replacement_11111111aaaa4bbb8ccc0123456789ab", None);
   (Some "yield", None);
   (None, Some "2*ref_replacement_11111111aaaa4bbb8ccc0123456789ab+yield/ref_pv_replacement_11111111aaaa4bbb8ccc0123456789ab-ref_replacement_11111111aaaa4bbb8ccc0123456789ab")]]%string.
Proof. by_compute. Qed.
Example ex_not_found : fmapR (map ex_names) (replace_implicit_references [set_d_exchanges [] ex_refs]) = Err ValueError.
Proof. by_compute. Qed.

(** A reference to a property is left in the formula, though the regular expression for it is there. *)
Theorem C72_property_refuted : exists ds f,
  fmapR (map ex_names) (replace_implicit_references [ds]) = Ok [ex_names ds] /\ Some f ∈ map snd (ex_names ds) /\
  str_contains (String.append "Ref('" (String.append ex_u1 (String.append "', '" (String.append ex_u2 "')")))) f = true.
Proof.
  set (f := String.append "Ref('" (String.append ex_u1 (String.append "', '" (String.append ex_u2 "')")))).
  exists (set_d_params [set_q_id (Some ex_u3) (set_q_formula (Some f) param0)] dataset0), f. by_compute.
Qed.
Print Assumptions C72_property_refuted.

(** The new variable may be the name of something else. *)
Theorem C72_unique_refuted : exists ds, readable ds /\ identified ds /\
  variable_names_are_unique [ds] = Ok [ds] /\
  fmapR (map (fun ds => omap o_variable (all_objs ds))) (replace_implicit_references [ds]) =
  Ok [["ref_replacement_11111111aaaa4bbb8ccc0123456789ab"; "ref_replacement_11111111aaaa4bbb8ccc0123456789ab"]]%string.
Proof.
  set (f := [RExchange true (chars ex_u1)]).
  exists (set_d_params [set_q_id (Some ex_u2) (set_q_variable (Some "ref_replacement_11111111aaaa4bbb8ccc0123456789ab"%string) param0);
                        set_q_id (Some ex_u3) (set_q_formula (Some (str (rtext f))) param0)]
    (set_d_exchanges [set_e_id (Some ex_u1) exchange0] dataset0)).
  split; [|split; [|split]].
  - split.
    + intros s Hs. change (s ∈ [str (rtext f)]) in Hs. apply elem_of_list_singleton in Hs as ->. exists f. split; [|done].
      pose proof ex_uuids as H. apply Forall_cons in H as [H _]. by constructor.
    + intros v Hv. change (v ∈ ["ref_replacement_11111111aaaa4bbb8ccc0123456789ab"%string]) in Hv.
      apply elem_of_list_singleton in Hv as ->. unfold quote. by_compute.
  - split; intros x Hx.
    + apply elem_of_list_singleton in Hx as ->. done.
    + apply elem_of_cons in Hx as [->|Hx]; [done|]. apply elem_of_list_singleton in Hx as ->. done.
  - vm_compute. reflexivity.
  - by_compute.
Qed.
Print Assumptions C72_unique_refuted.

(** With an empty variable the reference disappears from the formula. *)
Theorem C72_empty_refuted : exists ds, readable ds /\ formulas ds = [String.append (String.append "ref('" (String.append ex_u1 "')")) "*2"] /\
  fmapR (map formulas) (replace_implicit_references [ds]) = Ok [["*2"]]%string.
Proof.
  set (f := RExchange false (chars ex_u1) :: map RChar (chars "*2")).
  exists (set_d_params [set_q_id (Some ex_u3) (set_q_formula (Some (str (rtext f))) param0)]
    (set_d_exchanges [set_e_id (Some ex_u1) (set_e_variable (Some ""%string) exchange0)] dataset0)).
  split; [|split].
  - split.
    + intros s Hs. change (s ∈ [str (rtext f)]) in Hs. apply elem_of_list_singleton in Hs as ->. exists f. split; [|done].
      pose proof ex_uuids as H. apply Forall_cons in H as [H _]. constructor; [done|]. apply chars_ok. unfold quote. by_compute.
    + intros v Hv. change (v ∈ [""%string]) in Hv. apply elem_of_list_singleton in Hv as ->. unfold quote. by_compute.
  - vm_compute. reflexivity.
  - by_compute.
Qed.
Print Assumptions C72_empty_refuted.
