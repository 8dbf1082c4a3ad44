(** Names of exchanges before linking stem from those of the input. *)
From stdpp Require Import gmap.
From Verif Require Import Base Types Uncertainty Spec_Uncertainty Uncertainty_proofs Utils Spec_Utils Utils_proofs
  Strings Grouping Recalculation Formulas Parameters Validation ActivityLinks Cutoff Topology Locations Consequential
  Pipeline Allocation2_proofs Codes_proofs Spec_Pipeline.

Definition stems (e e' : exchange) : Prop := e_name e' = e_name e.
Definition stem_list (es es' : list exchange) : Prop :=
  Forall (fun e' => exists e, e ∈ es /\ stems e e') es'.
Definition from (d d' : dataset) : Prop := (d_id d' = d_id d /\ d_type d' = d_type d) /\ stem_list (d_exchanges d) (d_exchanges d').
Definition all_from (data out : list dataset) : Prop := Forall (fun d' => exists d, d ∈ data /\ from d d') out.

Lemma stems_refl e : stems e e.
Proof. done. Qed.
Lemma stems_trans e1 e2 e3 : stems e1 e2 -> stems e2 e3 -> stems e1 e3.
Proof. unfold stems. congruence. Qed.
Lemma stem_refl es : stem_list es es.
Proof. apply Forall_forall. intros e He. exists e. split; [done|apply stems_refl]. Qed.
Lemma stem_trans l1 l2 l3 : stem_list l1 l2 -> stem_list l2 l3 -> stem_list l1 l3.
Proof.
  unfold stem_list. rewrite !Forall_forall. intros H1 H2 e3 He. destruct (H2 _ He) as (e2 & He2 & S2).
  destruct (H1 _ He2) as (e1 & He1 & S1). exists e1. split; [done|]. by eapply stems_trans.
Qed.
Lemma from_refl d : from d d.
Proof. split; [done|apply stem_refl]. Qed.
Lemma from_trans d1 d2 d3 : from d1 d2 -> from d2 d3 -> from d1 d3.
Proof. intros [[A1 A0] A2] [[B1 B0] B2]. split; [split; congruence|]. by eapply stem_trans. Qed.
Lemma all_from_refl data : all_from data data.
Proof. apply Forall_forall. intros d Hd. exists d. split; [done|apply from_refl]. Qed.
Lemma all_from_trans l1 l2 l3 : all_from l1 l2 -> all_from l2 l3 -> all_from l1 l3.
Proof.
  unfold all_from. rewrite !Forall_forall. intros H1 H2 e3 He. destruct (H2 _ He) as (e2 & He2 & S2).
  destruct (H1 _ He2) as (e1 & He1 & S1). exists e1. split; [done|]. by eapply from_trans.
Qed.

(** *** Ways to make new lists *)
Lemma stem_Forall2 es es' : Forall2 stems es es' -> stem_list es es'.
Proof.
  induction 1 as [|e e' es es' H _ IH]; [constructor|]. constructor; [exists e; split; [by left|done]|].
  eapply Forall_impl; [exact IH|]. intros x (y & Hy & Hs). exists y. split; [by right|done].
Qed.
Lemma stem_map f es : (forall e, stems e (f e)) -> stem_list es (map f es).
Proof. intros H. apply stem_Forall2. induction es; constructor; auto. Qed.
Lemma stem_mapR f es es' : (forall e e', f e = Ok e' -> stems e e') -> mapR f es = Ok es' -> stem_list es es'.
Proof. intros H E. apply stem_Forall2. apply mapR_Ok in E. eapply Forall2_impl; [exact E|]. exact H. Qed.
Lemma stem_filterb p es : stem_list es (filterb p es).
Proof. apply Forall_forall. intros e He. apply filterb_In in He as [He _]. exists e. split; [done|apply stems_refl]. Qed.
Lemma stem_filterR p es es' : filterR p es = Ok es' -> stem_list es es'.
Proof. intros H. apply Forall_forall. intros e He. eapply filterR_elem in He as [He _]; [|exact H]. exists e. split; [done|apply stems_refl]. Qed.
Lemma stem_app es l1 l2 : stem_list es l1 -> stem_list es l2 -> stem_list es (l1 ++ l2).
Proof. intros. apply Forall_app. by split. Qed.
Lemma stem_cons es e e' l : e ∈ es -> stems e e' -> stem_list es l -> stem_list es (e' :: l).
Proof. intros. constructor; [|done]. by exists e. Qed.
Lemma stem_sub l1 l2 es : (forall e, e ∈ l1 -> e ∈ l2) -> stem_list l1 es -> stem_list l2 es.
Proof. intros Hs H. eapply Forall_impl; [exact H|]. intros e (x & Hx & S). exists x. split; [by apply Hs|done]. Qed.
Lemma from_set es ds : stem_list (d_exchanges ds) es -> from ds (set_d_exchanges es ds).
Proof. intros H. by split. Qed.
Lemma from_params qs ds : from ds (set_d_params qs ds).
Proof. split; [done|apply stem_refl]. Qed.
Lemma from_params_set qs es ds : stem_list (d_exchanges ds) es -> from ds (set_d_params qs (set_d_exchanges es ds)).
Proof. intros H. eapply from_trans; [by apply from_set|apply from_params]. Qed.
Lemma all_map f data : (forall d, from d (f d)) -> all_from data (map f data).
Proof. intros H. apply Forall_forall. intros d' Hd. apply elem_of_list_fmap in Hd as (d & -> & Hd). exists d. auto. Qed.
Lemma all_mapR f data out : (forall d d', f d = Ok d' -> from d d') -> mapR f data = Ok out -> all_from data out.
Proof.
  intros H E. apply mapR_Ok in E. apply Forall_forall. intros d' Hd'. apply elem_of_list_lookup_1 in Hd' as [i Hi].
  destruct (Forall2_lookup_r _ _ _ _ _ E Hi) as (d & Hd & Hf). exists d. split; [by eapply elem_of_list_lookup_2|]. by apply H.
Qed.
Lemma all_concat f data out : (forall d l, f d = Ok l -> all_from [d] l) -> concat_mapR f data = Ok out -> all_from data out.
Proof.
  intros H E. apply concat_mapR_Ok in E as (ls & -> & E). apply Forall_forall. intros d' Hd'.
  apply elem_of_list_In, in_concat in Hd' as (l & Hl & Hd'). apply elem_of_list_In in Hl, Hd'.
  apply elem_of_list_lookup_1 in Hl as [i Hi]. destruct (Forall2_lookup_r _ _ _ _ _ E Hi) as (d & Hd & Hf).
  apply H in Hf. unfold all_from in Hf. rewrite Forall_forall in Hf. destruct (Hf _ Hd') as (x & Hx & S). apply elem_of_list_singleton in Hx as ->.
  exists d. split; [by eapply elem_of_list_lookup_2|done].
Qed.
Lemma all_one d l : Forall (from d) l -> all_from [d] l.
Proof. intros H. eapply Forall_impl; [exact H|]. intros x Hx. exists d. split; [by left|done]. Qed.
Lemma one_all d l : all_from [d] l -> Forall (from d) l.
Proof. intros H. eapply Forall_impl; [exact H|]. intros x (y & Hy & S). by apply elem_of_list_singleton in Hy as ->. Qed.
Lemma all_sub l1 l2 out : (forall d, d ∈ l1 -> d ∈ l2) -> all_from l1 out -> all_from l2 out.
Proof. intros Hs H. eapply Forall_impl; [exact H|]. intros e (x & Hx & S). exists x. split; [by apply Hs|done]. Qed.

Ltac stemd := done.
Ltac stemt := done.

Lemma scaled_stems k e e' : scaled_by k e e' -> stems e e'.
Proof.
  intros [_ H]. unfold same_besides_amount_uncertainty in H.
  destruct H as (? & ? & ? & ? & ? & ? & ? & ? & ? & ? & ? & ? & ? & ? & ? & ? & ? & ? & ? & ?).
  done.
Qed.
Lemma scale_stems ln e f e' : scale_exchange ln e f = Ok e' -> stems e e'.
Proof. intros H. apply scale_exchange_spec in H. by eapply scaled_stems. Qed.

(** *** The common part *)
Lemma ids_from data out : ensure_ids_are_unique data = Ok out -> all_from data out.
Proof. unfold ensure_ids_are_unique. case_bool_decide; [|done]. intros [= <-]. apply all_from_refl. Qed.
Lemma copy_from data out : copy_original_exchange_id data = Ok out -> all_from data out.
Proof.
  apply all_mapR. intros d d' H. apply bind_Ok in H as (es & H & <-%Ok_inj). apply from_set. eapply stem_mapR; [|exact H].
  intros e e' E. apply bind_Ok in E as (i & _ & <-%Ok_inj). stemd.
Qed.
Lemma variables_from data out : variable_names_are_unique data = Ok out -> all_from data out.
Proof. intros H. apply bind_Ok in H as (? & _ & <-%Ok_inj). apply all_from_refl. Qed.
Lemma markets_from data out : validate_markets data = Ok out -> all_from data out.
Proof.
  intros H. apply bind_Ok in H as (d & H1 & H2). apply bind_Ok in H1 as (? & _ & <-%Ok_inj).
  apply bind_Ok in H2 as (? & _ & <-%Ok_inj). apply all_from_refl.
Qed.
Lemma change_from f d d' : change_dataset f d = Ok d' -> from d d'.
Proof.
  unfold change_dataset. intros H. apply bind_Ok in H as (es & H1 & H). apply bind_Ok in H as (qs & H2 & <-%Ok_inj).
  apply from_params_set. eapply stem_mapR; [|exact H1]. unfold change_exchange. intros e e' E.
  apply bind_Ok in E as (n & _ & E). apply bind_Ok in E as (v & _ & E). apply bind_Ok in E as (ps & _ & <-%Ok_inj). stemd.
Qed.
Lemma repair_from ln euler d d' : repair_dataset ln euler d = Ok d' -> from d d'.
Proof.
  unfold repair_dataset. intros H. apply bind_Ok in H as (es & H1 & H). apply bind_Ok in H as (qs & H2 & <-%Ok_inj).
  apply from_params_set. eapply stem_mapR; [|exact H1]. unfold repair_exchange. intros e e' E.
  apply bind_Ok in E as (n & _ & E). apply bind_Ok in E as (v & _ & E). apply bind_Ok in E as (ps & _ & <-%Ok_inj). stemd.
Qed.
Lemma stem_alter f i es : (forall e, stems e (f e)) -> stem_list es (alter f i es).
Proof.
  intros H. revert i. induction es as [|e es IH]; intros [|i]; cbn; [constructor|constructor| |].
  - constructor; [exists e; split; [by left|done]|]. apply (stem_sub es); [by right|apply stem_refl].
  - constructor; [exists e; split; [by left|apply stems_refl]|]. apply (stem_sub es); [by right|apply IH].
Qed.
Lemma put_variable_from x d a : from d (put_variable x d a).
Proof. destruct a; cbn [put_variable]; try apply from_params; apply from_set, stem_alter; intros; stemd. Qed.
Lemma put_formula_from x d a : from d (put_formula x d a).
Proof. destruct a; cbn [put_formula]; try apply from_params; apply from_set, stem_alter; intros; stemd. Qed.
Lemma foldR_from {A} (f : dataset -> A -> result dataset) : (forall d x d', f d x = Ok d' -> from d d') ->
  forall l d d', foldR f d l = Ok d' -> from d d'.
Proof.
  intros Hf. induction l as [|x l IH]; cbn; intros d d' H; [apply Ok_inj in H as <-; apply from_refl|].
  apply bind_Ok in H as (d1 & H1 & H). eapply from_trans; [by eapply Hf|by apply IH].
Qed.
Lemma replace_reference_from find prefix a d r d' : replace_reference find prefix a d r = Ok d' -> from d d'.
Proof.
  unfold replace_reference. intros H. apply bind_Ok in H as (target & _ & H). cbv zeta in H. revert H.
  set (x := match variable_at d target with Some v => v | None => _ end).
  set (d1 := if bool_decide (variable_at d target = None) then put_variable x d target else d).
  assert (from d d1) as F1 by (unfold d1; case_bool_decide; [apply put_variable_from|apply from_refl]).
  destruct (formula_at d1 a); intros <-%Ok_inj; [eapply from_trans; [exact F1|apply put_formula_from]|exact F1].
Qed.
Lemma implicit_from data out : replace_implicit_references data = Ok out -> all_from data out.
Proof.
  apply all_mapR. intros d d'. apply foldR_from. clear. intros d a d' H. unfold replace_references_of in H.
  apply bind_Ok in H as (d1 & H1 & H2). eapply from_trans; [eapply foldR_from; [|exact H1]|eapply foldR_from; [|exact H2]];
    intros ? ? ?; apply replace_reference_from.
Qed.
Lemma fix_from ln euler pyfloat words parses data out :
  fix_ecoinvent_parameters ln euler pyfloat words parses data = Ok out -> all_from data out.
Proof.
  unfold fix_ecoinvent_parameters. intros H. apply bind_Ok in H as (d1 & H1 & H). apply bind_Ok in H as (d2 & H2 & H).
  apply bind_Ok in H as (d3 & H3 & H). apply bind_Ok in H as (d4 & H4 & H). apply bind_Ok in H as (d5 & H5 & H).
  apply bind_Ok in H as (d6 & H6 & H).
  eapply all_from_trans; [|eapply all_mapR; [|exact H]; intros ? ?; apply change_from].
  eapply all_from_trans; [|eapply all_mapR; [|exact H6]; intros ? ?; apply change_from].
  eapply all_from_trans; [|eapply all_mapR; [|exact H5]; intros ? ?; apply change_from].
  eapply all_from_trans; [|eapply all_mapR; [|exact H4]; intros ? ?; apply change_from].
  eapply all_from_trans; [|eapply all_mapR; [|exact H3]].
  2:{ intros d d'. unfold fix_known_bad. apply foldR_from. intros x s x'. cbv beta. destruct (_ =? _)%string; [apply change_from|].
      intros <-%Ok_inj. apply from_refl. }
  eapply all_from_trans; [|eapply all_mapR; [|exact H2]; intros ? ?; apply repair_from].
  eapply all_from_trans; [|by apply implicit_from in H1].
  apply all_map. intros d. destruct (_ =? _)%string; [|apply from_refl]. apply from_set, stem_filterb.
Qed.
Lemma create_from fresh d : from d (create_pv_parameters fresh d).
Proof.
  unfold create_pv_parameters. apply from_params_set. generalize 0%nat.
  induction (d_exchanges d) as [|e es IH]; intros n; cbn; [constructor|].
  destruct (e_pv e) as [v|]; [destruct (v_variable v)|]; cbn.
  1,2: (constructor; [exists e; split; [by left|stemd]|]).
  3: (constructor; [exists e; split; [by left|apply stems_refl]|]).
  all: apply (stem_sub es); [by right|apply IH].
Qed.
Lemma pv_cleanup_from w data out : pv_cleanup w data = Ok out -> all_from data out.
Proof.
  unfold pv_cleanup. intros H. apply bind_Ok in H as (d1 & H1 & H). apply bind_Ok in H as (d2 & H2 & <-%Ok_inj).
  apply bind_Ok in H1 as (? & _ & <-%Ok_inj). eapply all_from_trans; [eapply all_mapR; [|exact H2]|].
  - unfold add_pv_to_allocatable_byproducts_ds. intros d d' H. apply bind_Ok in H as ([] & _ & H).
    + apply bind_Ok in H as (s & _ & H). apply bind_Ok in H as (es & H & <-%Ok_inj). apply from_set.
      eapply stem_mapR; [|exact H]. intros e e'. unfold add_pv_to_byproduct. intros E. apply bind_Ok in E as ([] & _ & E).
      * apply bind_Ok in E as (v & _ & E). destruct (Qctruthy _); apply Ok_inj in E as <-; [apply stems_refl|stemd].
      * apply Ok_inj in E as <-. apply stems_refl.
    + apply Ok_inj in H as <-. apply from_refl.
  - apply Forall_forall. intros d' Hd'. apply elem_of_lookup_imap in Hd' as (i & d & -> & Hd).
    exists d. split; [by eapply elem_of_list_lookup_2|apply create_from].
Qed.
Lemma common_from w data out : common_part w data = Ok out -> all_from data out.
Proof.
  unfold common_part. intros H. apply bind_Ok in H as (d1 & H1 & H). apply bind_Ok in H as (d2 & H2 & H).
  apply bind_Ok in H as (d3 & H3 & H). apply bind_Ok in H as (d4 & H4 & H). apply bind_Ok in H as (d5 & H5 & H).
  eapply all_from_trans; [by apply ids_from|]. eapply all_from_trans; [by apply copy_from|].
  eapply all_from_trans; [by apply variables_from|]. eapply all_from_trans; [by apply markets_from|].
  eapply all_from_trans; [by eapply fix_from|]. by eapply pv_cleanup_from.
Qed.

(** *** Cut-off: before and in allocation *)
Lemma drop_zero_from data : all_from data (drop_zero_amount_activity_links data).
Proof. apply all_map. intros d. apply from_set, stem_map. intros e. destruct (_ && _); [stemd|apply stems_refl]. Qed.
Lemma drop_rp_from data : all_from data (drop_rp_activity_links data).
Proof. apply all_map. intros d. apply from_set, stem_map. intros e. destruct (_ && _); [stemd|apply stems_refl]. Qed.
Lemma remove_from data : all_from data (remove_consequential_exchanges data).
Proof. apply all_map. intros d. apply from_set, stem_filterb. Qed.
Lemma parent_from data out : update_activity_link_parent_child data = Ok out -> all_from data out.
Proof.
  apply all_mapR. unfold relink_to_child. intros d d'. destruct (d_parent d) as [p|]; [|intros <-%Ok_inj; apply from_refl].
  destruct (_ =? _)%string; [intros <-%Ok_inj; apply from_refl|]. intros H. apply bind_Ok in H as (es & H & <-%Ok_inj).
  apply from_set. eapply stem_mapR; [|exact H]. intros e e' E. apply bind_Ok in E as (b & _ & <-%Ok_inj).
  destruct (_ && _); [stemd|apply stems_refl].
Qed.
Lemma all_foldR {A} (f : list dataset -> A -> result (list dataset)) :
  (forall l x l', f l x = Ok l' -> all_from l l') -> forall xs l l', foldR f l xs = Ok l' -> all_from l l'.
Proof.
  intros Hf. induction xs as [|x xs IH]; cbn; intros d d' H; [apply Ok_inj in H as <-; apply all_from_refl|].
  apply bind_Ok in H as (d1 & H1 & H). eapply all_from_trans; [by eapply Hf|by apply IH].
Qed.
Lemma update_by_id_from f : (forall d d', f d = Ok d' -> from d d') ->
  forall data i out, update_by_id data i f = Ok out -> all_from data out.
Proof.
  intros Hf. induction data as [|d data IH]; intros i out H; [done|]. cbn [update_by_id] in H.
  destruct (dataset_by_id data i).
  - apply bind_Ok in H as (rest & H & <-%Ok_inj). constructor; [exists d; split; [by left|apply from_refl]|].
    apply (all_sub data); [by right|by eapply IH].
  - destruct (_ =? _)%string; [|done]. apply bind_Ok in H as (d' & H & <-%Ok_inj). constructor.
    + exists d. split; [by left|by apply Hf].
    + apply (all_sub data); [by right|apply all_from_refl].
Qed.
Lemma manage_from data out : manage_activity_links data = Ok out -> all_from data out.
Proof.
  unfold manage_activity_links. cbv zeta. intros H. apply bind_Ok in H as (d1 & H1 & H). apply bind_Ok in H as (d2 & H2 & H).
  apply bind_Ok in H1 as (? & _ & <-%Ok_inj).
  eapply all_from_trans; [apply (all_map (fun ds => set_d_exchanges (map fix_35_exchange (d_exchanges ds)) ds))|].
  { intros d. apply from_set, stem_map. intros e. unfold fix_35_exchange. destruct (_ && _); [stemd|apply stems_refl]. }
  eapply all_from_trans; [eapply all_foldR; [|exact H2]|].
  - intros l ds l'. apply all_foldR. clear. intros l e l' H. unfold add_hard_link in H. destruct (link_truthy e).
    2:{ apply Ok_inj in H as <-. apply all_from_refl. }
    cbv zeta in H. destruct (_ =? _)%string; [apply Ok_inj in H as <-; apply all_from_refl|].
    apply bind_Ok in H as (t & _ & H). apply bind_Ok in H as (f & _ & H). apply bind_Ok in H as (? & _ & H).
    apply bind_Ok in H as (s & _ & H). eapply update_by_id_from; [|exact H]. intros d d' E.
    unfold add_subtracted_named in E. apply bind_Ok in E as (es & E & <-%Ok_inj). apply from_set.
    eapply stem_mapR; [|exact E]. intros y y'. cbv beta. destruct (okb _ _ && _).
    + intros E1. apply bind_Ok in E1 as (v & _ & <-%Ok_inj). stemd.
    + intros <-%Ok_inj. apply stems_refl.
  - eapply all_mapR; [|exact H]. intros d d'. cbv beta. case_bool_decide; [|intros <-%Ok_inj; apply from_refl].
    unfold subtract_volumes. intros E. apply bind_Ok in E as (es & E & <-%Ok_inj). apply from_set.
    eapply stem_mapR; [|exact E]. intros y y' E1. unfold subtract_volume in E1. apply bind_Ok in E1 as ([] & _ & E1).
    + apply bind_Ok in E1 as (v & _ & E1). destruct (v_subtracted v); apply Ok_inj in E1 as <-; [stemd|apply stems_refl].
    + apply Ok_inj in E1 as <-. apply stems_refl.
Qed.
Definition cutoff_unmarked (w : world) (data : list dataset) : result (list dataset) :=
  let? data := common_part w data in
  let? data := update_activity_link_parent_child
                 (cleanup_activity_links (remove_consequential_exchanges data)) in
  manage_activity_links data.
Lemma cutoff_unmarked_from w data out : cutoff_unmarked w data = Ok out -> all_from data out.
Proof.
  unfold cutoff_unmarked. intros H. apply bind_Ok in H as (d1 & H1 & H). apply bind_Ok in H as (d2 & H2 & H).
  eapply all_from_trans; [by eapply common_from|].
  eapply all_from_trans; [apply remove_from|]. eapply all_from_trans; [apply drop_rp_from|].
  eapply all_from_trans; [apply drop_zero_from|]. eapply all_from_trans; [by apply parent_from|].
  by apply manage_from.
Qed.

(** *** Allocation *)
Lemma normalize_from ln d d' : normalize_reference_production_amount ln d = Ok d' -> from d d'.
Proof.
  intros H. apply normalize_spec in H as (rp & k & es & _ & _ & _ & -> & H & _). apply from_set, stem_Forall2.
  eapply Forall2_impl; [exact H|]. apply scaled_stems.
Qed.
Lemma nonreference_stems e : stems e (nonreference_product e).
Proof. stemt. Qed.
Lemma choose_from ln d e f d' : e ∈ d_exchanges d -> choose_reference_product_exchange ln d e f = Ok d' -> from d d'.
Proof.
  unfold choose_reference_product_exchange. intros He H. destruct (negb _); [done|]. cbv zeta in H.
  apply bind_Ok in H as (prods & Hp & H). apply bind_Ok in H as (nonprods & Hn & H). apply bind_Ok in H as (scaled & Hs & H).
  apply normalize_from in H. eapply from_trans; [|exact H]. apply from_set. eapply stem_cons; [exact He|stemt|].
  apply stem_app.
  - eapply stem_trans; [eapply stem_filterR; exact Hp|]. eapply stem_trans; [apply stem_filterb|]. apply stem_map.
    apply nonreference_stems.
  - eapply stem_trans; [eapply stem_filterR; exact Hn|]. eapply stem_mapR; [|exact Hs]. intros x x'. apply scale_stems.
Qed.
Lemma economic_from ln d l : economic_allocation ln d = Ok l -> Forall (from d) l.
Proof.
  unfold economic_allocation, apply_allocation_factors. intros H. apply bind_Ok in H as (? & _ & H).
  apply bind_Ok in H as (prods & Hp & H). apply bind_Ok in H as (fs & _ & H). apply mapR_Ok in H.
  apply Forall_forall. intros d' Hd. apply elem_of_list_lookup_1 in Hd as [i Hi].
  destruct (Forall2_lookup_r _ _ _ _ _ H Hi) as ([f e] & Hfe & Hc). cbn in Hc. eapply choose_from; [|exact Hc].
  apply elem_of_list_lookup_2, elem_of_zip_r in Hfe. by eapply filterR_elem in Hfe as [? _].
Qed.
Lemma recycling_from ln d l : recycling_allocation ln d = Ok l -> Forall (from d) l.
Proof.
  unfold recycling_allocation. intros H. apply bind_Ok in H as (? & _ & H). apply bind_Ok in H as (? & _ & H).
  apply bind_Ok in H as (d1 & H1 & H). apply economic_from in H. eapply Forall_impl; [exact H|]. intros y Hy.
  eapply from_trans; [|exact Hy]. unfold flip_reference_product in H1. apply bind_Ok in H1 as (es & H1 & <-%Ok_inj).
  apply from_set. eapply stem_mapR; [|exact H1]. intros e e'. cbv beta. case_bool_decide as Ht.
  - intros E. apply scale_stems in E. eapply stems_trans; [|exact E]. stemt.
  - intros <-%Ok_inj. apply stems_refl.
Qed.
Lemma single_In d rp : get_single_reference_product d = Ok rp -> rp ∈ d_exchanges d.
Proof.
  unfold get_single_reference_product, reference_products. intros H.
  assert (rp ∈ filterb (fun e => bool_decide (e_type e = RefProduct)) (d_exchanges d)) as Hin.
  { destruct (filterb _ _) as [|x [|]]; try done. apply Ok_inj in H as ->. by left. }
  by apply filterb_In in Hin as [? _].
Qed.
Lemma waste_from ln d l : waste_treatment_allocation ln d = Ok l -> Forall (from d) l.
Proof.
  unfold waste_treatment_allocation. intros H. apply bind_Ok in H as (? & _ & H). apply bind_Ok in H as (rp & Hrp & H).
  apply bind_Ok in H as (t & Ht & H). apply bind_Ok in H as (prods & Hp & H). apply bind_Ok in H as (free & Hf & <-%Ok_inj).
  constructor; [eapply choose_from; [|exact Ht]; by apply single_In|]. apply mapR_Ok in Hf. apply Forall_forall.
  intros d' Hd. apply elem_of_list_lookup_1 in Hd as [i Hi]. destruct (Forall2_lookup_r _ _ _ _ _ Hf Hi) as (e & He & Hc).
  apply elem_of_list_lookup_2, filterb_In in He as [He _]. eapply filterR_elem in He as [He _]; [|exact Hp].
  unfold free_byproduct in Hc. apply choose_from in Hc; [|by left]. eapply from_trans; [|exact Hc].
  apply from_set. eapply stem_cons; [exact He|apply stems_refl|constructor].
Qed.
Lemma recalc_from ln euler order eval d d' : recalculate ln euler order eval d = Ok d' -> from d d'.
Proof.
  unfold recalculate. intros H. apply bind_Ok in H as (m & _ & H). apply bind_Ok in H as (d1 & H1 & H).
  apply repair_from in H. eapply from_trans; [|exact H]. unfold recalc_amounts in H1.
  apply bind_Ok in H1 as (es & H1 & H2). apply bind_Ok in H2 as (qs & _ & <-%Ok_inj). apply from_params_set.
  eapply stem_mapR; [|exact H1]. unfold recalc_exchange. intros e e' E. apply bind_Ok in E as (x & _ & E).
  apply bind_Ok in E as (v & _ & E). apply bind_Ok in E as (ps & _ & <-%Ok_inj). stemd.
Qed.
Section recalculated.
  Context (recalc : dataset -> result dataset) (Hrecalc : forall d d', recalc d = Ok d' -> from d d').
  Lemma subdivide_from d e : e ∈ d_exchanges d -> from d (subdivide d e).
  Proof.
    intros He. unfold subdivide. apply from_set. eapply stem_cons; [exact He|stemd|]. apply stem_app.
    - eapply stem_trans; [apply stem_filterb|]. eapply stem_trans; [apply stem_filterb|]. apply stem_map, nonreference_stems.
    - apply stem_filterb.
  Qed.
  Lemma combined_from d l : combined_production recalc d = Ok l -> Forall (from d) l.
  Proof.
    unfold combined_production. intros H. apply mapR_Ok in H. apply Forall_forall. intros d' Hd.
    apply elem_of_list_lookup_1 in Hd as [i Hi]. destruct (Forall2_lookup_r _ _ _ _ _ H Hi) as (e & He & Hc).
    apply Hrecalc in Hc. eapply from_trans; [|exact Hc]. apply subdivide_from.
    apply elem_of_list_lookup_2, filterb_In in He as [He _]. by apply filterb_In in He as [He _].
  Qed.
  Lemma without_from ln d l : combined_production_without_products ln recalc d = Ok l -> Forall (from d) l.
  Proof.
    unfold combined_production_without_products. intros H. apply bind_Ok in H as (parts & Hp & H).
    apply combined_from in Hp. apply one_all. eapply all_from_trans; [apply all_one; exact Hp|].
    eapply all_concat; [|exact H]. clear. intros d l H. apply all_one. unfold handle_split_dataset in H.
    apply bind_Ok in H as (rp & _ & H). apply bind_Ok in H as (c & _ & H). destruct (bool_decide _); [by apply waste_from in H|].
    destruct (bool_decide _); [|done]. apply recycling_from in H. eapply Forall_impl; [exact H|]. intros y Hy.
    eapply from_trans; [|exact Hy]. split; [done|apply stem_refl].
  Qed.
  Lemma add_exchanges_from a b c : add_exchanges a b = Ok c -> from a c.
  Proof.
    unfold add_exchanges. intros H. apply bind_Ok in H as (? & _ & H). apply bind_Ok in H as (es & H & <-%Ok_inj).
    apply from_set. eapply stem_mapR; [|exact H]. unfold add_exchange. intros e e' E. apply bind_Ok in E as (i & _ & E).
    cbv zeta in E. apply Ok_inj in E as <-. case_bool_decide; stemd.
  Qed.
  Lemma merge_from l l' : merge_byproducts l = Ok l' -> all_from l l'.
  Proof.
    unfold merge_byproducts. intros H. apply bind_Ok in H as (? & _ & H). apply bind_Ok in H as (keyed & Hk & H).
    apply mapR_Ok in H. apply Forall_forall. intros d' Hd. apply elem_of_list_lookup_1 in Hd as [i Hi].
    destruct (Forall2_lookup_r _ _ _ _ _ H Hi) as ([k g] & Hg & Hc). cbn in Hc. apply elem_of_list_lookup_2 in Hg.
    unfold merge_group in Hc. destruct g as [|p ch]; [done|].
    assert (p ∈ l) as Hp.
    { assert (p ∈ map snd keyed) as Hin.
      { rewrite <- (groupby_perm keyed). apply elem_of_list_In, in_concat. exists (p :: ch). split.
        - apply elem_of_list_In, elem_of_list_fmap. by exists (k, p :: ch).
        - by left. }
      apply elem_of_list_fmap in Hin as ([k' y] & -> & Hin). apply elem_of_list_lookup_1 in Hin as [j Hj].
      apply mapR_Ok in Hk. destruct (Forall2_lookup_r _ _ _ _ _ Hk Hj) as (y' & Hy & Hkx).
      apply bind_Ok in Hkx as (? & _ & Hkx). apply Ok_inj in Hkx. injection Hkx as _ ->. by eapply elem_of_list_lookup_2. }
    exists p. split; [done|]. eapply foldR_from; [|exact Hc]. intros ? ? ?. apply add_exchanges_from.
  Qed.
  Lemma with_from ln d l : combined_production_with_byproducts ln recalc d = Ok l -> Forall (from d) l.
  Proof.
    unfold combined_production_with_byproducts. intros H. apply bind_Ok in H as (parts & Hp & H).
    apply bind_Ok in H as (new & Hn & H). apply combined_from in Hp. apply one_all.
    eapply all_from_trans; [apply all_one; exact Hp|]. eapply all_from_trans; [|by apply merge_from].
    eapply all_concat; [|exact Hn]. clear. intros d l H. apply all_one. by eapply economic_from.
  Qed.
  Lemma none_from d l : no_allocation d = Ok l -> Forall (from d) l.
  Proof.
    unfold no_allocation, check_single_output_activity. cbv zeta. intros H. apply bind_Ok in H as (d1 & H1 & <-%Ok_inj).
    apply bind_Ok in H1 as (b & _ & H1). destruct (negb _); [done|]. destruct b; [done|]. apply Ok_inj in H1 as <-.
    constructor; [apply from_refl|constructor].
  Qed.
  Lemma wrapped_from f p data out : (forall d l, f d = Ok l -> Forall (from d) l) ->
    wrapped f p data = Ok out -> all_from data out.
  Proof.
    intros Hf. unfold wrapped. apply all_concat. intros d l H. apply all_one. apply bind_Ok in H as ([] & _ & H); [by apply Hf|].
    apply Ok_inj in H as <-. constructor; [apply from_refl|constructor].
  Qed.
  Lemma allocation_from ln data out : cutoff_allocation ln recalc data = Ok out -> all_from data out.
  Proof.
    unfold cutoff_allocation. intros H. apply bind_Ok in H as (d1 & H1 & H). apply bind_Ok in H as (d2 & H2 & <-%Ok_inj).
    eapply all_from_trans; [eapply all_mapR; [|exact H1]|].
    { intros d d' E. apply bind_Ok in E as (? & _ & <-%Ok_inj). split; [done|apply stem_refl]. }
    eapply all_from_trans; [|apply all_map; intros d; split; [done|apply stem_refl]].
    assert (G : Forall (fun lf : string * (dataset -> result (list dataset)) => forall d l, lf.2 d = Ok l -> Forall (from d) l)
      (allocation_functions ln recalc)).
    { unfold allocation_functions. repeat constructor; cbn [snd].
      - apply none_from. - apply none_from. - apply economic_from. - done. - apply recycling_from. - apply waste_from.
      - apply without_from. - apply combined_from. - apply with_from. }
    clear H1. revert d1 H2 G. generalize (allocation_functions ln recalc). induction l as [|lf l IH]; intros d1 H2 G; cbn in H2.
    { apply Ok_inj in H2 as <-. apply all_from_refl. }
    apply bind_Ok in H2 as (m & Hm & H2). apply Forall_cons in G as [G1 G2].
    eapply all_from_trans; [eapply wrapped_from; [exact G1|exact Hm]|by apply IH].
  Qed.
  Lemma split_from data out : split_combined_production recalc data = Ok out -> all_from data out.
  Proof.
    unfold split_combined_production. apply all_concat. intros d l. destruct (multi_rp d); intros H; apply all_one.
    - by apply combined_from.
    - apply Ok_inj in H as <-. constructor; [apply from_refl|constructor].
  Qed.
End recalculated.
Lemma cutoff_allocated_from w data out : cutoff_allocated w data = Ok out -> all_from data out.
Proof.
  unfold cutoff_allocated. intros H. apply bind_Ok in H as (d1 & H1 & <-%Ok_inj).
  eapply all_from_trans; [|apply drop_rp_from]. eapply allocation_from; [|exact H1]. unfold w_recalc. intros d d'. apply recalc_from.
Qed.

(** *** Consequential *)
Lemma on_exchange_from i j f data : (forall e, stems e (f e)) -> all_from data (on_exchange i j f data).
Proof.
  intros Hf. unfold on_exchange. revert i. induction data as [|d data IH]; intros [|i]; cbn; [constructor|constructor| |].
  - constructor; [exists d; split; [by left|]; by apply from_set, stem_alter|].
    apply (all_sub data); [by right|apply all_from_refl].
  - constructor; [exists d; split; [by left|apply from_refl]|]. apply (all_sub data); [by right|apply IH].
Qed.
Lemma constrained_from data p out : handle_constrained_exchange data p = Ok out -> all_from data out.
Proof.
  unfold handle_constrained_exchange. intros H. apply bind_Ok in H as (e & _ & H). apply bind_Ok in H as (l & _ & H).
  apply bind_Ok in H as (k & _ & H). cbv zeta in H. apply bind_Ok in H as (d1 & H1 & H).
  eapply (all_from_trans _ d1).
  - eapply all_from_trans; [apply (on_exchange_from p.1 p.2 (fun e => flip_constrained (set_e_type FromTechnosphere e)))|].
    + intros x. stemt.
    + clear H. destruct (positions _ _) as [|q [|]]; try done. apply Ok_inj in H1 as <-. apply on_exchange_from.
      intros x. stemt.
  - clear H1. destruct (positions _ _) as [|q [|]]; try done. apply bind_Ok in H as (te & _ & H).
    apply bind_Ok in H as (? & _ & <-%Ok_inj). apply on_exchange_from. intros y. stemt.
Qed.
Lemma consequential_prepared_from w data out : consequential_prepared w data = Ok out -> all_from data out.
Proof.
  unfold consequential_prepared. intros H. apply bind_Ok in H as (d1 & H1 & H). apply bind_Ok in H as (d2 & H2 & H).
  apply bind_Ok in H as (d3 & H3 & H). apply bind_Ok in H as (d4 & H4 & H).
  eapply all_from_trans; [by eapply common_from|]. eapply all_from_trans; [apply drop_zero_from|].
  eapply all_from_trans; [eapply split_from; [|exact H2]; unfold w_recalc; intros d d'; apply recalc_from|].
  apply (all_from_trans _ d3).
  { unfold delete_activity_links_to_constrained_markets in H3. apply bind_Ok in H3 as (? & _ & <-%Ok_inj). apply all_map.
    intros d. apply from_set, stem_map. intros e. unfold delete_link. destruct (_ && _); [stemd|apply stems_refl]. }
  eapply all_from_trans; [eapply all_foldR; [|exact H4]; apply constrained_from|].
  unfold ensure_byproducts_have_alternative_production in H. cbv zeta in H. case_bool_decide; [done|]. apply Ok_inj in H as <-.
  apply all_from_refl.
Qed.
