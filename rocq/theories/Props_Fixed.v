(** C75: all corrections of parameters together. *)
From Coq Require Import Ascii.
From Verif Require Import Base Types Uncertainty Utils Strings Recalculation Formulas Parameters Spec_Uncertainty Spec_Parameters Spec_References
  Spec_Math Math_proofs Spec_Known Spec_Fixed Fixed_proofs.

(** Variables, formulas and uncertainties apart, only idle refinery gas goes. *)
Theorem C75_untouched : forall ln euler pyfloat words parses data data',
  fix_ecoinvent_parameters ln euler pyfloat words parses data = Ok data' -> map bare data' = map bare (map without_idle_gas data).
Proof. exact chain_bare. Qed.
Print Assumptions C75_untouched.

(** All formulas can be parsed afterwards. *)
Theorem C75_parsed : forall ln euler pyfloat words parses data data',
  fix_ecoinvent_parameters ln euler pyfloat words parses data = Ok data' ->
  forall ds' o f, ds' ∈ data' -> o ∈ all_objs ds' -> o_formula o = Some f -> parses f = true.
Proof. exact chain_parsed. Qed.
Print Assumptions C75_parsed.

(** No variable is a reserved word; all are in lower case but for reserved words in capitals. *)
Theorem C75_variables : forall ln euler pyfloat words parses, (forall w, w ∈ words -> w ∈ RESERVED_WORDS) -> forall data data',
  fix_ecoinvent_parameters ln euler pyfloat words parses data = Ok data' ->
  forall ds' o v, ds' ∈ data' -> o ∈ all_objs ds' -> o_variable o = Some v -> v ∉ RESERVED_WORDS /\ exists v0, v = final_variable v0.
Proof. exact chain_variables. Qed.
Print Assumptions C75_variables.

(** All uncertainties are well-formed afterwards. *)
Theorem C75_uncertainties : forall ln euler pyfloat words parses data data',
  fix_ecoinvent_parameters ln euler pyfloat words parses data = Ok data' ->
  Forall (fun ds => Forall (fun au => match snd au with None => True | Some u => repaired ln (fst au) u end) (uncertain_objects ds)) data'.
Proof. exact chain_repaired. Qed.
Print Assumptions C75_uncertainties.

(** Amounts are kept; variables are kept, in lower case or in capitals; where there was no formula there is none;
    formulas with nothing to correct are kept. *)
Theorem C75_kept : forall ln euler pyfloat words parses, (forall w, w ∈ words -> w ∈ RESERVED_WORDS) -> forall data data',
  fix_ecoinvent_parameters ln euler pyfloat words parses data = Ok data' -> Forall readable data ->
  Forall2 (fun ds ds' => Forall2 (fun o o' => o_value o' = o_value o /\
      (forall v, o_variable o = Some v -> o_variable o' = Some (final_variable v)) /\
      (o_formula o = None -> o_formula o' = None) /\
      (forall f, o_formula o = Some f -> good_formula parses f -> (forall bad good, ~ correction (d_name ds) bad good) -> o_formula o' = Some f))
    (all_objs (without_idle_gas ds)) (all_objs ds')) data data'.
Proof. exact chain_kept. Qed.
Print Assumptions C75_kept.

(** ** Examples *)
Definition ex_id : string := "11111111-aaaa-4bbb-8ccc-0123456789ab".
Definition ex_parses (f : string) : bool := negb (str_contains "yield" f) && negb (str_contains "?" f).
Definition ex_data : list dataset :=
  [set_d_name "petroleum refinery operation" (set_d_params
     [set_q_id (Some "p1"%string) (set_q_variable (Some "Yield"%string) (set_q_formula (Some "what?"%string) param0));
      set_q_id (Some "p2"%string) (set_q_variable (Some "loss"%string) (set_q_formula (Some "2*x"%string) param0));
      set_q_id (Some "p3"%string) (set_q_formula (Some (String.append "3*YIELD+5%^Ref('" (String.append ex_id "')")))
        (set_q_unc (Some (set_u_type (Some UUndefined) (set_u_min (Some (Qcint 1)) (set_u_max (Some (Qcint 2)) uncert0)))) param0))]
     (set_d_exchanges
       [set_e_id (Some "g"%string) (set_e_name "refinery gas" (set_e_amount 0%Qc exchange0));
        set_e_id (Some ex_id) (set_e_name "petrol" (set_e_amount (Qcint 4) exchange0))] dataset0))].
Definition ex_no_float (s : text) : result text := Err ValueError.
Example ex_fixed : fmapR (map (fun ds => (map (fun o => (o_variable o, o_formula o, o_value o)) (all_objs ds), length (d_exchanges ds))))
    (fix_ecoinvent_parameters (fun x => x) (Qcint 3) ex_no_float RESERVED_WORDS ex_parses ex_data) =
  Ok [([(Some "ref_replacement_11111111aaaa4bbb8ccc0123456789ab"%string, None, Qcint 4);
        (Some "YIELD"%string, None, 0%Qc); (Some "loss"%string, Some "2*x"%string, 0%Qc);
        (None, Some "3*YIELD+5e-2**ref_replacement_11111111aaaa4bbb8ccc0123456789ab"%string, 0%Qc)], 1%nat)].
Proof. by_compute. Qed.
Example ex_good : good_formula ex_parses "2*x".
Proof.
  split; [unfold quote; by_compute|]. split; [by_compute|]. split; [|split; [by_compute|]].
  - split; [by_compute|]. split; [by_compute|]. split; [|split].
    + intros (pre & post & E). assert (carriage_return ∈ chars "2*x") as H by (rewrite E; set_solver). revert H. unfold carriage_return. by_compute.
    + intros (pre & post & E). assert ("i"%char ∈ chars "2*x") as H by (rewrite E; set_solver). revert H. by_compute.
    + apply power_search_has. by_compute.
  - intros w Hw (c & post & E & _). assert (Forall (fun w => exists d t, chars w = d :: t /\ d <> "2"%char) RESERVED_WORDS) as Hall.
    { repeat (apply Forall_cons; split; [eexists _, _; split; [reflexivity|discriminate]|]). constructor. }
    rewrite Forall_forall in Hall. destruct (Hall w Hw) as (d & t & Ew & Hd). rewrite Ew in E. cbn in E. injection E as E _. by apply Hd.
Qed.
Example ex_data_readable : Forall readable ex_data.
Proof.
  constructor; [|constructor]. split.
  - intros s Hs. change (s ∈ ["what?"%string; "2*x"%string; String.append "3*YIELD+5%^Ref('" (String.append ex_id "')")]) in Hs.
    assert (forall t, quote ∉ t -> Forall rpiece_ok (map RChar t) /\ rtext (map RChar t) = t) as Hplain.
    { intros t Ht. split.
      - apply Forall_map, Forall_forall. intros c Hc E. cbn in E. by subst c.
      - clear. unfold rtext. induction t as [|c t IH]; [done|]. cbn [map flat_map]. by rewrite IH. }
    assert (forall u, quote ∉ chars u -> exists l, Forall rpiece_ok l /\ u = str (rtext l)) as Hp.
    { intros u Hu. destruct (Hplain _ Hu) as [H1 H2]. exists (map RChar (chars u)). split; [done|]. rewrite H2. by rewrite Reserved_proofs.str_chars. }
    apply elem_of_cons in Hs as [->|Hs]; [apply Hp; unfold quote; by_compute|].
    apply elem_of_cons in Hs as [->|Hs]; [apply Hp; unfold quote; by_compute|].
    apply elem_of_cons in Hs as [->|Hs]; [|by apply elem_of_nil in Hs].
    exists (map RChar (chars "3*YIELD+5%^") ++ [RExchange true (chars ex_id)]). split; [|by_compute].
    apply Forall_app. split; [apply Hplain; unfold quote; by_compute|]. constructor; [|constructor].
    exists (chars "11111111"), (chars "aaaa"), (chars "4bbb"), (chars "8ccc"), (chars "0123456789ab").
    split; [reflexivity|]. repeat (split; [reflexivity|]). unfold hex_digit. by_compute.
  - intros v Hv. change (v ∈ ["Yield"%string; "loss"%string]) in Hv.
    apply elem_of_cons in Hv as [->|Hv]; [unfold quote; by_compute|]. apply elem_of_list_singleton in Hv as ->. unfold quote; by_compute.
Qed.

(** Different variables may become equal, so that the names, checked before, are not unique any more. *)
Theorem C75_collision_refuted : exists ds, variable_names_are_unique [ds] = Ok [ds] /\ Forall readable [ds] /\
  fmapR (map (fun ds => omap o_variable (all_objs ds)))
    (fix_ecoinvent_parameters (fun x => x) (Qcint 3) ex_no_float RESERVED_WORDS ex_parses [ds]) = Ok [["share"; "share"]]%string.
Proof.
  exists (set_d_params [set_q_variable (Some "Share"%string) param0; set_q_variable (Some "share"%string) param0] dataset0).
  split; [vm_compute; reflexivity|]. split; [|by_compute]. constructor; [|constructor]. split.
  - intros s Hs. change (s ∈ []) in Hs. by apply elem_of_nil in Hs.
  - intros v Hv. change (v ∈ ["Share"%string; "share"%string]) in Hv.
    apply elem_of_cons in Hv as [->|Hv]; [unfold quote; by_compute|]. apply elem_of_list_singleton in Hv as ->. unfold quote; by_compute.
Qed.
Print Assumptions C75_collision_refuted.
