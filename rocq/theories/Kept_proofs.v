(** Flows before allocation are those of the input. *)
From stdpp Require Import gmap.
From Verif Require Import Base Types Uncertainty Spec_Uncertainty Uncertainty_proofs Utils Spec_Utils Utils_proofs
  Strings Grouping Recalculation Formulas Parameters Validation ActivityLinks Cutoff Topology Locations Consequential
  Pipeline Combined_proofs Codes_proofs Spec_Pipeline Names_proofs Spec_Whole.

Definition core (e : exchange) :=
  (e_type e, e_id e, e_name e, e_unit e, e_amount e, (e_class e, e_compartment e, e_subcompartment e, e_cond e)).
Definition quantities (e : exchange) : list (string * Qc) := map (fun p => (p_name p, p_amount p)) (e_props e).
Definition same (e e' : exchange) : Prop := core e' = core e /\ quantities e' = quantities e.
Definition shell (d d' : dataset) : Prop :=
  d_id d' = d_id d /\ d_type d' = d_type d /\ d_name d' = d_name d /\ d_location d' = d_location d /\ d_alloc d' = d_alloc d.
Definition kept (d d' : dataset) : Prop := shell d d' /\ Forall2 same (d_exchanges d) (d_exchanges d').
Notation all_kept := (Forall2 kept).

Lemma same_refl e : same e e.
Proof. done. Qed.
Lemma same_trans e1 e2 e3 : same e1 e2 -> same e2 e3 -> same e1 e3.
Proof. unfold same. intros [A1 A2] [B1 B2]. split; congruence. Qed.
Lemma sames_refl es : Forall2 same es es.
Proof. induction es; constructor; [apply same_refl|done]. Qed.
Lemma sames_trans l1 l2 l3 : Forall2 same l1 l2 -> Forall2 same l2 l3 -> Forall2 same l1 l3.
Proof.
  intros H. revert l3. induction H as [|e1 e2 l1 l2 H _ IH]; intros l3 H2; [by apply Forall2_nil_inv_l in H2 as ->|].
  apply Forall2_cons_inv_l in H2 as (e3 & l & H3 & H4 & ->). constructor; [by eapply same_trans|by apply IH].
Qed.
Lemma shell_refl d : shell d d.
Proof. done. Qed.
Lemma shell_trans d1 d2 d3 : shell d1 d2 -> shell d2 d3 -> shell d1 d3.
Proof. unfold shell. intros (A1 & A2 & A3 & A4 & A5) (B1 & B2 & B3 & B4 & B5). repeat split; congruence. Qed.
Lemma kept_refl d : kept d d.
Proof. split; [apply shell_refl|apply sames_refl]. Qed.
Lemma kept_trans d1 d2 d3 : kept d1 d2 -> kept d2 d3 -> kept d1 d3.
Proof. intros [A1 A2] [B1 B2]. split; [by eapply shell_trans|by eapply sames_trans]. Qed.
Lemma all_kept_refl data : all_kept data data.
Proof. induction data; constructor; [apply kept_refl|done]. Qed.
Lemma all_kept_trans l1 l2 l3 : all_kept l1 l2 -> all_kept l2 l3 -> all_kept l1 l3.
Proof.
  intros H. revert l3. induction H as [|e1 e2 l1 l2 H _ IH]; intros l3 H2; [by apply Forall2_nil_inv_l in H2 as ->|].
  apply Forall2_cons_inv_l in H2 as (e3 & l & H3 & H4 & ->). constructor; [by eapply kept_trans|by apply IH].
Qed.

Lemma same_map f es : (forall e, same e (f e)) -> Forall2 same es (map f es).
Proof. intros H. induction es; constructor; auto. Qed.
Lemma same_mapR f es es' : (forall e e', f e = Ok e' -> same e e') -> mapR f es = Ok es' -> Forall2 same es es'.
Proof. intros H E. apply mapR_Ok in E. eapply Forall2_impl; [exact E|]. exact H. Qed.
Lemma same_alter f i es : (forall e, same e (f e)) -> Forall2 same es (alter f i es).
Proof.
  intros H. revert i. induction es as [|e es IH]; intros [|i]; cbn; [constructor|constructor| |].
  - constructor; [done|apply sames_refl].
  - constructor; [apply same_refl|apply IH].
Qed.
Lemma kept_set es ds : Forall2 same (d_exchanges ds) es -> kept ds (set_d_exchanges es ds).
Proof. intros H. by split. Qed.
Lemma kept_params qs ds : kept ds (set_d_params qs ds).
Proof. split; [done|apply sames_refl]. Qed.
Lemma kept_params_set qs es ds : Forall2 same (d_exchanges ds) es -> kept ds (set_d_params qs (set_d_exchanges es ds)).
Proof. intros H. by split. Qed.
Lemma all_kept_map f data : (forall d, kept d (f d)) -> all_kept data (map f data).
Proof. intros H. induction data; constructor; auto. Qed.
Lemma all_kept_mapR f data out : (forall d d', f d = Ok d' -> kept d d') -> mapR f data = Ok out -> all_kept data out.
Proof. intros H E. apply mapR_Ok in E. eapply Forall2_impl; [exact E|]. exact H. Qed.

Lemma quantities_mapR f ps ps' : (forall p p', f p = Ok p' -> p_name p' = p_name p /\ p_amount p' = p_amount p) ->
  mapR f ps = Ok ps' -> map (fun p => (p_name p, p_amount p)) ps' = map (fun p => (p_name p, p_amount p)) ps.
Proof.
  intros H E. apply mapR_Ok in E. induction E as [|p p' ps ps' E _ IH]; [done|]. cbn [map]. apply H in E as [-> ->]. by rewrite IH.
Qed.
Lemma quantities_alter f i ps : (forall p, p_name (f p) = p_name p /\ p_amount (f p) = p_amount p) ->
  map (fun p => (p_name p, p_amount p)) (alter f i ps) = map (fun p => (p_name p, p_amount p)) ps.
Proof.
  intros H. revert i. induction ps as [|p ps IH]; intros [|i]; cbn; [done|done| |].
  - by destruct (H p) as [-> ->].
  - f_equal. apply IH.
Qed.

(** *** The common part *)
Lemma ids_kept data out : ensure_ids_are_unique data = Ok out -> all_kept data out.
Proof. unfold ensure_ids_are_unique. case_bool_decide; [|done]. intros [= <-]. apply all_kept_refl. Qed.
Lemma copy_kept data out : copy_original_exchange_id data = Ok out -> all_kept data out.
Proof.
  apply all_kept_mapR. intros d d' H. apply bind_Ok in H as (es & H & <-%Ok_inj). apply kept_set. eapply same_mapR; [|exact H].
  intros e e' E. apply bind_Ok in E as (i & _ & <-%Ok_inj). done.
Qed.
Lemma variables_kept data out : variable_names_are_unique data = Ok out -> all_kept data out.
Proof. intros H. apply bind_Ok in H as (? & _ & <-%Ok_inj). apply all_kept_refl. Qed.
Lemma markets_kept data out : validate_markets data = Ok out -> all_kept data out.
Proof.
  intros H. apply bind_Ok in H as (d & H1 & H2). apply bind_Ok in H1 as (? & _ & <-%Ok_inj).
  apply bind_Ok in H2 as (? & _ & <-%Ok_inj). apply all_kept_refl.
Qed.
Lemma change_kept f d d' : change_dataset f d = Ok d' -> kept d d'.
Proof.
  unfold change_dataset. intros H. apply bind_Ok in H as (es & H1 & H). apply bind_Ok in H as (qs & H2 & <-%Ok_inj).
  apply kept_params_set. eapply same_mapR; [|exact H1]. unfold change_exchange. intros e e' E.
  apply bind_Ok in E as (n & _ & E). apply bind_Ok in E as (v & _ & E). apply bind_Ok in E as (ps & Hps & <-%Ok_inj).
  split; [done|]. eapply quantities_mapR; [|exact Hps]. intros p p' Hp. apply bind_Ok in Hp as (m & _ & <-%Ok_inj). done.
Qed.
Lemma repair_kept ln euler d d' : repair_dataset ln euler d = Ok d' -> kept d d'.
Proof.
  unfold repair_dataset. intros H. apply bind_Ok in H as (es & H1 & H). apply bind_Ok in H as (qs & H2 & <-%Ok_inj).
  apply kept_params_set. eapply same_mapR; [|exact H1]. unfold repair_exchange. intros e e' E.
  apply bind_Ok in E as (n & Hn & E). apply bind_Ok in E as (v & _ & E). apply bind_Ok in E as (ps & Hps & <-%Ok_inj).
  apply repair_if_frame in Hn as [Hn _]. change (o_amount n = e_amount e) in Hn.
  split.
  - unfold core, e_put. cbn. by rewrite Hn.
  - eapply quantities_mapR; [|exact Hps]. intros p p' Hp. apply bind_Ok in Hp as (m & Hm & <-%Ok_inj).
    apply repair_if_frame in Hm as [Hm _]. split; [done|exact Hm].
Qed.
Lemma put_variable_kept x d a : kept d (put_variable x d a).
Proof.
  destruct a; cbn [put_variable]; try apply kept_params; apply kept_set, same_alter; intros; split; try done.
  by apply quantities_alter.
Qed.
Lemma put_formula_kept x d a : kept d (put_formula x d a).
Proof.
  destruct a; cbn [put_formula]; try apply kept_params; apply kept_set, same_alter; intros; split; try done.
  by apply quantities_alter.
Qed.
Lemma foldR_kept {A} (f : dataset -> A -> result dataset) : (forall d x d', f d x = Ok d' -> kept d d') ->
  forall l d d', foldR f d l = Ok d' -> kept d d'.
Proof.
  intros Hf. induction l as [|x l IH]; cbn; intros d d' H; [apply Ok_inj in H as <-; apply kept_refl|].
  apply bind_Ok in H as (d1 & H1 & H). eapply kept_trans; [by eapply Hf|by apply IH].
Qed.
Lemma replace_reference_kept find prefix a d r d' : replace_reference find prefix a d r = Ok d' -> kept d d'.
Proof.
  unfold replace_reference. intros H. apply bind_Ok in H as (target & _ & H). cbv zeta in H. revert H.
  set (x := match variable_at d target with Some v => v | None => _ end).
  set (d1 := if bool_decide (variable_at d target = None) then put_variable x d target else d).
  assert (kept d d1) as F1 by (unfold d1; case_bool_decide; [apply put_variable_kept|apply kept_refl]).
  destruct (formula_at d1 a); intros <-%Ok_inj; [eapply kept_trans; [exact F1|apply put_formula_kept]|exact F1].
Qed.
Lemma implicit_kept data out : replace_implicit_references data = Ok out -> all_kept data out.
Proof.
  apply all_kept_mapR. intros d d'. apply foldR_kept. clear. intros d a d' H. unfold replace_references_of in H.
  apply bind_Ok in H as (d1 & H1 & H2). eapply kept_trans; [eapply foldR_kept; [|exact H1]|eapply foldR_kept; [|exact H2]];
    intros ? ? ?; apply replace_reference_kept.
Qed.
Lemma fix_kept ln euler pyfloat words parses data out :
  fix_ecoinvent_parameters ln euler pyfloat words parses data = Ok out -> all_kept (fix_specific_ecoinvent_issues data) out.
Proof.
  unfold fix_ecoinvent_parameters. intros H. apply bind_Ok in H as (d1 & H1 & H). apply bind_Ok in H as (d2 & H2 & H).
  apply bind_Ok in H as (d3 & H3 & H). apply bind_Ok in H as (d4 & H4 & H). apply bind_Ok in H as (d5 & H5 & H).
  apply bind_Ok in H as (d6 & H6 & H).
  eapply all_kept_trans; [|eapply all_kept_mapR; [|exact H]; intros ? ?; apply change_kept].
  eapply all_kept_trans; [|eapply all_kept_mapR; [|exact H6]; intros ? ?; apply change_kept].
  eapply all_kept_trans; [|eapply all_kept_mapR; [|exact H5]; intros ? ?; apply change_kept].
  eapply all_kept_trans; [|eapply all_kept_mapR; [|exact H4]; intros ? ?; apply change_kept].
  eapply all_kept_trans; [|eapply all_kept_mapR; [|exact H3]].
  2:{ intros d d'. unfold fix_known_bad. apply foldR_kept. intros x s x'. cbv beta. destruct (_ =? _)%string; [apply change_kept|].
      intros <-%Ok_inj. apply kept_refl. }
  eapply all_kept_trans; [|eapply all_kept_mapR; [|exact H2]; intros ? ?; apply repair_kept].
  by apply implicit_kept in H1.
Qed.
Lemma create_kept fresh d : kept d (create_pv_parameters fresh d).
Proof.
  unfold create_pv_parameters. apply kept_params_set. generalize 0%nat.
  induction (d_exchanges d) as [|e es IH]; intros n; cbn; [constructor|].
  destruct (e_pv e) as [v|]; [destruct (v_variable v)|]; cbn; constructor; try done; apply IH.
Qed.
Lemma pv_cleanup_kept w data out : pv_cleanup w data = Ok out -> all_kept data out.
Proof.
  unfold pv_cleanup. intros H. apply bind_Ok in H as (d1 & H1 & H). apply bind_Ok in H as (d2 & H2 & <-%Ok_inj).
  apply bind_Ok in H1 as (? & _ & <-%Ok_inj). eapply all_kept_trans; [eapply all_kept_mapR; [|exact H2]|].
  - unfold add_pv_to_allocatable_byproducts_ds. intros d d' H. apply bind_Ok in H as ([] & _ & H).
    + apply bind_Ok in H as (s & _ & H). apply bind_Ok in H as (es & H & <-%Ok_inj). apply kept_set.
      eapply same_mapR; [|exact H]. intros e e'. unfold add_pv_to_byproduct. intros E. apply bind_Ok in E as ([] & _ & E).
      * apply bind_Ok in E as (v & _ & E). destruct (Qctruthy _); apply Ok_inj in E as <-; done.
      * apply Ok_inj in E as <-. apply same_refl.
    + apply Ok_inj in H as <-. apply kept_refl.
  - clear. set (f := fun i ds => create_pv_parameters (w_fresh w i) ds).
    assert (forall i d, kept d (f i d)) as Hf by (intros; apply create_kept). clearbody f.
    enough (forall g : nat -> nat, all_kept d2 (imap (f ∘ g) d2)) as H by apply (H (fun i => i)).
    induction d2 as [|d d2 IH]; intros g; [constructor|]. cbn. constructor; [apply Hf|]. apply (IH (g ∘ S)).
Qed.
Lemma common_kept w data out : common_part w data = Ok out ->
  exists data1, all_kept data data1 /\ all_kept (fix_specific_ecoinvent_issues data1) out.
Proof.
  unfold common_part. intros H. apply bind_Ok in H as (d1 & H1 & H). apply bind_Ok in H as (d2 & H2 & H).
  apply bind_Ok in H as (d3 & H3 & H). apply bind_Ok in H as (d4 & H4 & H). apply bind_Ok in H as (d5 & H5 & H).
  exists d4. split.
  - eapply all_kept_trans; [by apply ids_kept|]. eapply all_kept_trans; [by apply copy_kept|].
    eapply all_kept_trans; [by apply variables_kept|]. by apply markets_kept.
  - eapply all_kept_trans; [by eapply fix_kept|]. by eapply pv_cleanup_kept.
Qed.

(** *** Cut-off, before names are marked *)
Lemma drop_zero_kept data : all_kept data (drop_zero_amount_activity_links data).
Proof. apply all_kept_map. intros d. apply kept_set, same_map. intros e. by destruct (_ && _). Qed.
Lemma drop_rp_kept data : all_kept data (drop_rp_activity_links data).
Proof. apply all_kept_map. intros d. apply kept_set, same_map. intros e. by destruct (_ && _). Qed.
Lemma parent_kept data out : update_activity_link_parent_child data = Ok out -> all_kept data out.
Proof.
  apply all_kept_mapR. unfold relink_to_child. intros d d'. destruct (d_parent d) as [p|]; [|intros <-%Ok_inj; apply kept_refl].
  destruct (_ =? _)%string; [intros <-%Ok_inj; apply kept_refl|]. intros H. apply bind_Ok in H as (es & H & <-%Ok_inj).
  apply kept_set. eapply same_mapR; [|exact H]. intros e e' E. apply bind_Ok in E as (b & _ & <-%Ok_inj).
  by destruct (_ && _).
Qed.
Lemma all_kept_foldR {A} (f : list dataset -> A -> result (list dataset)) :
  (forall l x l', f l x = Ok l' -> all_kept l l') -> forall xs l l', foldR f l xs = Ok l' -> all_kept l l'.
Proof.
  intros Hf. induction xs as [|x xs IH]; cbn; intros d d' H; [apply Ok_inj in H as <-; apply all_kept_refl|].
  apply bind_Ok in H as (d1 & H1 & H). eapply all_kept_trans; [by eapply Hf|by apply IH].
Qed.
Lemma update_by_id_kept f : (forall d d', f d = Ok d' -> kept d d') ->
  forall data i out, update_by_id data i f = Ok out -> all_kept data out.
Proof.
  intros Hf. induction data as [|d data IH]; intros i out H; [done|]. cbn [update_by_id] in H.
  destruct (dataset_by_id data i).
  - apply bind_Ok in H as (rest & H & <-%Ok_inj). constructor; [apply kept_refl|by eapply IH].
  - destruct (_ =? _)%string; [|done]. apply bind_Ok in H as (d' & H & <-%Ok_inj). constructor; [by apply Hf|apply all_kept_refl].
Qed.
Lemma manage_kept data out : manage_activity_links data = Ok out -> all_kept data out.
Proof.
  unfold manage_activity_links. cbv zeta. intros H. apply bind_Ok in H as (d1 & H1 & H). apply bind_Ok in H as (d2 & H2 & H).
  apply bind_Ok in H1 as (? & _ & <-%Ok_inj).
  eapply all_kept_trans; [apply (all_kept_map (fun ds => set_d_exchanges (map fix_35_exchange (d_exchanges ds)) ds))|].
  { intros d. apply kept_set, same_map. intros e. unfold fix_35_exchange. by destruct (_ && _). }
  eapply all_kept_trans; [eapply all_kept_foldR; [|exact H2]|].
  - intros l ds l'. apply all_kept_foldR. clear. intros l e l' H. unfold add_hard_link in H. destruct (link_truthy e).
    2:{ apply Ok_inj in H as <-. apply all_kept_refl. }
    cbv zeta in H. destruct (_ =? _)%string; [apply Ok_inj in H as <-; apply all_kept_refl|].
    apply bind_Ok in H as (t & _ & H). apply bind_Ok in H as (f & _ & H). apply bind_Ok in H as (? & _ & H).
    apply bind_Ok in H as (s & _ & H). eapply update_by_id_kept; [|exact H]. intros d d' E.
    unfold add_subtracted_named in E. apply bind_Ok in E as (es & E & <-%Ok_inj). apply kept_set.
    eapply same_mapR; [|exact E]. intros y y'. cbv beta. destruct (okb _ _ && _).
    + intros E1. apply bind_Ok in E1 as (v & _ & <-%Ok_inj). done.
    + intros <-%Ok_inj. apply same_refl.
  - eapply all_kept_mapR; [|exact H]. intros d d'. cbv beta. case_bool_decide; [|intros <-%Ok_inj; apply kept_refl].
    unfold subtract_volumes. intros E. apply bind_Ok in E as (es & E & <-%Ok_inj). apply kept_set.
    eapply same_mapR; [|exact E]. intros y y' E1. unfold subtract_volume in E1. apply bind_Ok in E1 as ([] & _ & E1).
    + apply bind_Ok in E1 as (v & _ & E1). destruct (v_subtracted v); apply Ok_inj in E1 as <-; done.
    + apply Ok_inj in E1 as <-. apply same_refl.
Qed.

(** *** From the input *)
(** Not dropped as worthless gas of a refinery. *)
Definition worthwhile (name : string) (e : exchange) : Prop :=
  name <> "petroleum refinery operation"%string \/ e_name e <> "refinery gas"%string \/ e_amount e <> 0%Qc.
Global Instance worthwhile_dec name e : Decision (worthwhile name e).
Proof. unfold worthwhile. apply _. Defined.
Definition stays (name : string) (e : exchange) : Prop := ~ consequential_only e /\ worthwhile name e.
Global Instance stays_dec name e : Decision (stays name e).
Proof. unfold stays. apply _. Defined.
Definition kept_of (d d' : dataset) : Prop :=
  shell d d' /\ Forall2 same (filter (stays (d_name d)) (d_exchanges d)) (d_exchanges d').

Lemma same_consequential e e' : same e e' -> consequential_only e' <-> consequential_only e.
Proof.
  intros [_ H]. unfold consequential_only, quantities in *.
  assert (forall ps, Exists (fun p => p_name p = "consequential"%string /\ p_amount p = 1%Qc) ps <->
    ("consequential"%string, 1%Qc) ∈ map (fun p => (p_name p, p_amount p)) ps) as HE.
  { intros ps. rewrite Exists_exists. split.
    - intros (p & Hp & <- & <-). apply elem_of_list_fmap. by exists p.
    - intros (p & E & Hp)%elem_of_list_fmap_2. exists p. split; [done|]. injection E as -> ->. done. }
  by rewrite !HE, H.
Qed.
Lemma same_worthwhile name e e' : same e e' -> worthwhile name e' <-> worthwhile name e.
Proof. intros [H _]. injection H as H1 H2 H3 H4 H5 H6 H7 H8 H9. unfold worthwhile. by rewrite H3, H5. Qed.
Lemma has_consequential e : has_consequential_property e = true <-> consequential_only e.
Proof.
  unfold has_consequential_property, consequential_only. rewrite existsb_exists, Exists_exists. split.
  - intros (p & Hp%elem_of_list_In & H). apply andb_prop in H as [H1 H2]. exists p. split; [done|].
    apply String.eqb_eq in H1. by apply Qceqb_true in H2.
  - intros (p & Hp%elem_of_list_In & H1 & H2). exists p. split; [done|]. rewrite H1, H2. done.
Qed.
Lemma remove_exchanges d : d_exchanges (set_d_exchanges (filterb (fun e => negb (has_consequential_property e)) (d_exchanges d)) d)
  = filter (fun e => ~ consequential_only e) (d_exchanges d).
Proof.
  cbn [d_exchanges set_d_exchanges]. apply filterb_filter. intros e _. pose proof (has_consequential e) as He.
  destruct (has_consequential_property e); cbn [negb]; case_bool_decide as Hd; try done; exfalso; clear -He Hd; intuition discriminate.
Qed.
Lemma fix_exchanges d :
  d_exchanges (if (d_name d =? "petroleum refinery operation")%string
    then set_d_exchanges (filterb (fun e => negb (e_name e =? "refinery gas")%string || Qctruthy (e_amount e)) (d_exchanges d)) d
    else d) = filter (worthwhile (d_name d)) (d_exchanges d).
Proof.
  destruct (d_name d =? _)%string eqn:E.
  - apply String.eqb_eq in E. cbn [d_exchanges set_d_exchanges]. apply filterb_filter. intros e _.
    case_bool_decide as Hd; unfold worthwhile in Hd; rewrite E in Hd;
      destruct (e_name e =? "refinery gas")%string eqn:En; cbn [negb orb]; try done.
    + apply String.eqb_eq in En. destruct Hd as [?|[?|Hd]]; [done..|]. unfold Qctruthy.
      destruct (Qceqb (e_amount e) 0) eqn:Ea; [|done]. by apply Qceqb_true in Ea.
    + apply String.eqb_eq in En. unfold Qctruthy. destruct (Qceqb (e_amount e) 0) eqn:Ea; [done|]. exfalso. apply Hd. right; right.
      intros Ez. by rewrite Ez in Ea.
    + apply String.eqb_neq in En. exfalso. apply Hd. right; by left.
  - apply String.eqb_neq in E. symmetry. induction (d_exchanges d) as [|e es IH]; [done|]. rewrite filter_cons_True; [by rewrite IH|]. by left.
Qed.
Lemma cutoff_unmarked_kept w data out : cutoff_unmarked w data = Ok out -> Forall2 kept_of data out.
Proof.
  unfold cutoff_unmarked. intros H. apply bind_Ok in H as (d1 & H1 & H). apply bind_Ok in H as (d2 & H2 & H).
  apply common_kept in H1 as (d0 & K0 & K1). apply parent_kept in H2. apply manage_kept in H.
  assert (all_kept (remove_consequential_exchanges d1) out) as K2.
  { eapply all_kept_trans; [apply drop_rp_kept|]. eapply all_kept_trans; [apply drop_zero_kept|]. by eapply all_kept_trans. }
  clear H H2 d2. revert d1 out K1 K2. induction K0 as [|d e data d0 K0 _ IH]; intros d1 out K1 K2.
  - apply Forall2_nil_inv_l in K1 as ->. apply Forall2_nil_inv_l in K2 as ->. constructor.
  - unfold fix_specific_ecoinvent_issues in K1. cbn [map] in K1. apply Forall2_cons_inv_l in K1 as (d' & d1' & K1 & KK1 & ->).
    unfold remove_consequential_exchanges in K2. cbn [map] in K2. apply Forall2_cons_inv_l in K2 as (d'' & out' & K2 & KK2 & ->).
    constructor; [|by eapply IH]. clear -K0 K1 K2. destruct K0 as [S0 K0], K1 as [S1 K1], K2 as [S2 K2].
    rewrite fix_exchanges in K1. rewrite remove_exchanges in K2. split.
    + eapply shell_trans; [exact S0|]. eapply shell_trans; [|exact S2]. destruct (d_name e =? _)%string; exact S1.
    + eapply sames_trans; [|exact K2]. 
      assert (filter (stays (d_name d)) (d_exchanges d) = filter (fun e => ~ consequential_only e) (filter (worthwhile (d_name d)) (d_exchanges d))) as ->.
      { symmetry. apply list_filter_filter. }
      apply (filter_Forall2 (fun e => ~ consequential_only e)); [intros x y Hxy; by rewrite (same_consequential x y)|].
      eapply sames_trans; [|exact K1]. destruct S0 as (_ & _ & -> & _).
      apply filter_Forall2; [intros x y Hxy; by apply same_worthwhile|done].
Qed.
