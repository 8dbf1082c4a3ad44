(** Proofs for C75. *)
From Coq Require Import Ascii.
From Verif Require Import Base Types Uncertainty Utils Strings StringFacts Recalculation Formulas Parameters Spec_Uncertainty Spec_Parameters
  Uncertainty_proofs Parameters_proofs Spec_Formulas Formulas_proofs Reserved_proofs Spec_References References2_proofs References4_proofs Spec_Math
  Math_proofs Spec_Known Known_proofs Utils_proofs Spec_Fixed.

(** *** What each step leaves alone *)
Lemma cons_inv {A} (x y : A) l k : x :: l = y :: k -> x = y /\ l = k.
Proof. by intros [= -> ->]. Qed.
Lemma bare_unnamed ds : bare ds = strip_dataset (unnamed ds).
Proof.
  assert (forall e, unnamed_exchange (strip_exchange e) = strip_exchange (unnamed_exchange e)) as He.
  { intros e. assert (forall l, map unnamed_prop (map (set_p_unc None) l) = map (set_p_unc None) (map unnamed_prop l)) as Hp.
    { intros l. rewrite !map_map. apply map_ext. intros p. by destruct p. }
    destruct e as [? ? ? ? ? ? ? ? ? ? ? ?]. unfold unnamed_exchange, strip_exchange. cbn. 
    match goal with |- context [option_map _ ?v] => destruct v as [[]|] end; by rewrite Hp. }
  assert (forall q, unnamed_param (set_q_unc None q) = set_q_unc None (unnamed_param q)) as Hq by (intros q; by destruct q).
  unfold bare, unnamed, strip_dataset. destruct ds. unfold set_d_exchanges, set_d_params. cbn. f_equal; rewrite !map_map; apply map_ext; done.
Qed.
Lemma bare_from_unnamed ds ds' : unnamed ds' = unnamed ds -> bare ds' = bare ds.
Proof. intros H. by rewrite !bare_unnamed, H. Qed.
Lemma bare_from_strip ds ds' : strip_dataset ds' = strip_dataset ds -> bare ds' = bare ds.
Proof. intros H. unfold bare. by rewrite H. Qed.
Lemma renamed_unnamed R data data' : Forall2 (renamed R) data data' -> Forall2 (fun ds ds' => unnamed ds' = unnamed ds) data data'.
Proof. intros H. eapply Forall2_impl; [exact H|]. by intros ds ds' [H' _]. Qed.
Lemma references_unnamed data data' : replace_implicit_references data = Ok data' -> Forall2 (fun ds ds' => unnamed ds' = unnamed ds) data data'.
Proof.
  intros H. apply mapR_Ok in H. eapply Forall2_impl; [exact H|]. cbv beta. intros ds ds' E.
  assert (forall (A : Type) (f : dataset -> A -> result dataset) l d d', (forall d x d', f d x = Ok d' -> unnamed d' = unnamed d) -> foldR f d l = Ok d' -> unnamed d' = unnamed d) as Hf.
  { intros A f l. induction l as [|x l IH]; intros d d' Hf H'; cbn [foldR] in H'; [by apply Ok_inj in H' as <-|].
    apply bind_Ok in H' as (d1 & H1 & H2). apply Hf in H1. rewrite <- H1. by apply IH. }
  assert (forall find prefix a d r d', replace_reference find prefix a d r = Ok d' -> unnamed d' = unnamed d) as Hr.
  { intros find prefix a d r d' H'. unfold replace_reference in H'. apply bind_Ok in H' as (target & _ & H'). cbv zeta in H'. revert H'.
    set (x := match variable_at d target with Some v => v | None => _ end).
    set (d1 := if bool_decide (variable_at d target = None) then put_variable x d target else d).
    assert (unnamed d1 = unnamed d) as F1 by (unfold d1; case_bool_decide; [apply put_variable_unnamed|done]).
    destruct (formula_at d1 a); intros <-%Ok_inj; [by rewrite put_formula_unnamed|done]. }
  apply Hf in E; [done|]. clear - Hf Hr. intros d a d' H. unfold replace_references_of in H. apply bind_Ok in H as (d1 & H1 & H2).
  apply Hf in H1; [|intros; by eapply Hr]. apply Hf in H2; [|intros; by eapply Hr]. congruence.
Qed.
Lemma known_unnamed data data' : fix_known_bad_formula_strings data = Ok data' -> Forall2 (fun ds ds' => unnamed ds' = unnamed ds) data data'.
Proof.
  intros H. apply known_corrected in H. eapply Forall2_impl; [exact H|]. intros ds ds' [[-> _]|(bad & good & _ & H' & _)]; done.
Qed.
Lemma refinery_bare data : fix_specific_ecoinvent_issues data = map without_idle_gas data.
Proof.
  pose proof (refinery_spec data) as H. induction H as [|ds ds' l l' Hd H IH]; [done|]. cbn [map]. rewrite IH. f_equal. unfold without_idle_gas.
  destruct Hd as [[Hn ->]|(Hn & E & Ex)]; [by rewrite decide_False|]. rewrite decide_True by done. by rewrite <- Ex.
Qed.

Section chain.
  Context (ln : Qc -> Qc) (euler : Qc) (pyfloat : text -> result text) (words : list string) (parses : string -> bool).
  Context (Hwords : forall w, w ∈ words -> w ∈ RESERVED_WORDS).
  Context (data data' : list dataset) (H : fix_ecoinvent_parameters ln euler pyfloat words parses data = Ok data').

  Lemma chain_bare : map bare data' = map bare (map without_idle_gas data).
  Proof.
    unfold fix_ecoinvent_parameters in H. rewrite refinery_bare in H. apply bind_Ok in H as (d1 & H1 & H0). apply bind_Ok in H0 as (d2 & H2 & H0).
    apply bind_Ok in H0 as (d3 & H3 & H0). apply bind_Ok in H0 as (d4 & H4 & H0). apply bind_Ok in H0 as (d5 & H5 & H0). apply bind_Ok in H0 as (d6 & H6 & H0).
    apply references_unnamed in H1. apply repair_all_spec in H2 as [H2 _]. apply known_unnamed in H3.
    apply change_all_spec, renamed_unnamed in H4, H5, H6, H0.
    assert (forall l l', Forall2 (fun ds ds' : dataset => unnamed ds' = unnamed ds) l l' -> map bare l' = map bare l) as Hm.
    { intros l l' F. induction F as [|x y k k' E F IH]; [done|]. cbn [map]. rewrite IH. by rewrite (bare_from_unnamed _ _ E). }
    rewrite (Hm _ _ H0), (Hm _ _ H6), (Hm _ _ H5), (Hm _ _ H4), (Hm _ _ H3), <- (Hm _ _ H1).
    assert (forall l, map bare l = map unnamed (map strip_dataset l)) as Hb by (intros l; by rewrite map_map). by rewrite !Hb, H2.
  Qed.

  Lemma chain_parsed ds' o f : ds' ∈ data' -> o ∈ all_objs ds' -> o_formula o = Some f -> parses f = true.
  Proof.
    intros Hds Ho Hf. unfold fix_ecoinvent_parameters in H. apply bind_Ok in H as (d1 & H1 & H0). apply bind_Ok in H0 as (d2 & H2 & H0).
    apply bind_Ok in H0 as (d3 & H3 & H0). apply bind_Ok in H0 as (d4 & H4 & H0). apply bind_Ok in H0 as (d5 & H5 & H0). apply bind_Ok in H0 as (d6 & H6 & H0).
    apply unparsable_spec in H0. apply elem_of_list_lookup in Hds as [i Hi]. destruct (Forall2_lookup_r _ _ _ _ _ H0 Hi) as (ds & _ & _ & E).
    apply elem_of_list_lookup in Ho as [j Hj]. destruct (Forall2_lookup_r _ _ _ _ _ E Hj) as (o0 & _ & _ & _ & Eo). by apply Eo in Hf as [_ ?].
  Qed.
  Lemma chain_repaired : Forall (fun ds => Forall (fun au => match snd au with None => True | Some u => repaired ln (fst au) u end) (uncertain_objects ds)) data'.
  Proof.
    assert (forall ds ds', unnamed ds' = unnamed ds -> uncertain_objects ds' = uncertain_objects ds) as Hu.
    { assert (forall ds, uncertain_objects (unnamed ds) = uncertain_objects ds) as Hu.
      { intros ds. unfold uncertain_objects, unnamed. destruct ds. cbn. rewrite !map_map.
        match goal with |- ?a ++ ?b = ?c ++ ?d => assert (a = c) as ->; [|done] end.
        f_equal. apply map_ext. intros e. unfold unnamed_exchange. destruct e. cbn. rewrite map_map.
        match goal with |- context [unnamed_pv <$> ?v] => destruct v as [[]|] end; done. }
      intros ds ds' E. by rewrite <- (Hu ds), <- E, Hu. }
    unfold fix_ecoinvent_parameters in H. apply bind_Ok in H as (d1 & H1 & H0). apply bind_Ok in H0 as (d2 & H2 & H0).
    apply bind_Ok in H0 as (d3 & H3 & H0). apply bind_Ok in H0 as (d4 & H4 & H0). apply bind_Ok in H0 as (d5 & H5 & H0). apply bind_Ok in H0 as (d6 & H6 & H0).
    apply repair_all_spec in H2 as [_ H2]. apply known_unnamed in H3. apply change_all_spec, renamed_unnamed in H4, H5, H6, H0.
    assert (forall l l', Forall2 (fun ds ds' : dataset => unnamed ds' = unnamed ds) l l' ->
      Forall (fun ds => Forall (fun au => repaired_opt ln (fst au) (snd au)) (uncertain_objects ds)) l ->
      Forall (fun ds => Forall (fun au => repaired_opt ln (fst au) (snd au)) (uncertain_objects ds)) l') as Hm.
    { intros l l' F. induction F as [|x y k k' E F IH]; [done|]. intros G. apply Forall_cons in G as [G1 G2]. constructor; [by rewrite (Hu _ _ E)|by apply IH]. }
    apply (Hm _ _ H0), (Hm _ _ H6), (Hm _ _ H5), (Hm _ _ H4), (Hm _ _ H3). exact H2.
  Qed.

  (** *** Variables and formulas *)
  Definition same_objs (R : pobj -> pobj -> Prop) (ds ds' : dataset) : Prop :=
    Forall2 (fun o o' => o_value o' = o_value o /\ R o o') (all_objs ds) (all_objs ds').
  Lemma repair_objs d2 d3 : repair_all_uncertainty_distributions ln euler d2 = Ok d3 -> Forall2 (fun ds ds' => all_objs ds' = all_objs ds /\ d_name ds' = d_name ds) d2 d3.
  Proof.
    assert (forall ds, all_objs (strip_dataset ds) = all_objs ds /\ d_name (strip_dataset ds) = d_name ds) as Hs.
    { intros ds. split; [|by destruct ds]. unfold all_objs, strip_dataset. destruct ds. cbn. rewrite !map_map.
      match goal with |- ?a ++ ?b = ?c ++ ?d => assert (a = c) as ->; [|done] end.
      f_equal. apply map_ext. intros e. unfold exchange_objs, strip_exchange. destruct e. cbn. rewrite map_map.
      match goal with |- context [option_map _ ?v] => destruct v as [[]|] end; done. }
    intros E. apply repair_all_spec in E as [E _]. revert d3 E. induction d2 as [|ds d2 IH]; intros [|ds' d3] E; try done.
    cbn [map] in E. apply cons_inv in E as [E1 E2]. constructor; [|by apply IH]. destruct (Hs ds) as [A1 A2], (Hs ds') as [B1 B2]. rewrite <- B1, <- B2, E1. done.
  Qed.
  Definition kept_named (name : string) (o o' : pobj) : Prop :=
    o_value o' = o_value o /\
    (forall v, o_variable o = Some v -> o_variable o' = Some (final_variable v)) /\
    (o_formula o = None -> o_formula o' = None) /\
    (forall f, o_formula o = Some f -> good_formula parses f -> (forall bad good, ~ correction name bad good) -> o_formula o' = Some f).
  Lemma quoteless l ds ts : quote ∉ rtext l -> Forall2 (resolved ds) l ts -> concat ts = rtext l.
  Proof.
    intros Hq Hr. induction Hr as [|p t l ts Hp Hr IH]; [done|]. unfold rtext in *. cbn [flat_map concat] in *. rewrite not_elem_of_app in Hq. destruct Hq as [Hq1 Hq2].
    rewrite IH by done. f_equal. destruct p as [c|b u|b u]; [done| |]; exfalso; apply Hq1; cbn; apply elem_of_app; left; destruct b; unfold quote; by_compute.
  Qed.
  Lemma readable_without ds : readable ds -> readable (without_idle_gas ds).
  Proof.
    intros [H1 H2]. unfold without_idle_gas. case_decide; [|done].
    assert (forall o, o ∈ all_objs (set_d_exchanges (filter (fun e => ~ idle_gas e) (d_exchanges ds)) ds) -> o ∈ all_objs ds) as Hin.
    { intros o. unfold all_objs. destruct ds. cbn. rewrite !elem_of_app. intros [Ho|Ho]; [left|by right].
      apply elem_of_list_In, in_concat in Ho as (l & Hl & Ho). apply in_map_iff in Hl as (e & <- & He). apply elem_of_list_In, elem_of_list_filter in He as [_ He].
      apply elem_of_list_In, in_concat. exists (exchange_objs e). split; [|done]. apply in_map. by apply elem_of_list_In. }
    split.
    - intros s Hs. apply H1. unfold formulas in *. apply elem_of_list_omap in Hs as (o & Ho & E). apply elem_of_list_omap. exists o. split; [by apply Hin|done].
    - intros s Hs. apply H2. apply elem_of_list_omap in Hs as (o & Ho & E). apply elem_of_list_omap. exists o. split; [by apply Hin|done].
  Qed.
  Lemma references_objs ds ds' : references_replaced ds ds' ->
    Forall2 (fun o o' => o_value o' = o_value o /\ (forall v, o_variable o = Some v -> o_variable o' = Some v) /\ new_formula ds' (o_formula o) (o_formula o'))
      (all_objs ds) (all_objs ds').
  Proof.
    intros (Hu & He & Hq).
    assert (forall pre ref id (x x' : option string) v, new_variable ds pre ref id x x' -> x = Some v -> x' = Some v) as Hv.
    { intros pre ref id x x' v [->|[-> _]] E; done. }
    unfold all_objs. apply Forall2_app.
    - apply unnamed_exchanges in Hu. revert Hu. induction He as [|e e' l l' (Hf & Hx & Hp & Hps) He IH]; intros Hu; [constructor|].
      cbn [map concat] in *. apply cons_inv in Hu as [Hue Hu]. apply Forall2_app; [|by apply IH]. unfold exchange_objs. constructor; [|apply Forall2_app].
      + split; [|split; [|done]].
        * apply (f_equal e_amount) in Hue. by destruct e, e'.
        * intros v E. by eapply Hv.
      + pose proof (unnamed_has_pv _ _ Hue) as Hpv. unfold volume_replaced in Hp. destruct (e_pv e) as [v|], (e_pv e') as [v'|]; try done. destruct Hp as [Hp1 Hp2].
        constructor; [|constructor]. split; [|split; [|done]].
        * cbn in Hpv. apply (f_equal (fun o => v_amount <$> o)) in Hpv. destruct v, v'. cbn in *. congruence.
        * intros x E. by eapply Hv.
      + pose proof (unnamed_props _ _ Hue) as Hpr. revert Hpr. generalize Hps. clear. intros Hps. induction Hps as [|p p' l l' [Hf Hx] Hps IH]; intros Hpr; [constructor|].
        cbn [map] in *. apply cons_inv in Hpr as [E Hpr']. constructor; [|by apply IH]. split; [by apply (f_equal p_amount) in E; destruct p, p'|]. split; [|done].
        intros v Hv. cbn in *. congruence.
    - apply unnamed_params in Hu. revert Hu. induction Hq as [|q q' l l' [Hf Hx] Hq IH]; intros Hu; [constructor|]. cbn [map] in *. apply cons_inv in Hu as [E Hu].
      constructor; [|by apply IH]. split; [by apply (f_equal q_amount) in E; destruct q, q'|]. split; [|done]. intros v Ev. by eapply Hv.
  Qed.
  Lemma final_reserved v : final_variable v = reserved_variable (lower v).
  Proof. unfold final_variable, reserved_variable. case_decide; [by rewrite bool_decide_eq_true_2|by rewrite bool_decide_eq_false_2]. Qed.
  Definition path (R : string -> pobj -> pobj -> Prop) (ds ds' : dataset) : Prop :=
    d_name ds' = d_name ds /\ Forall2 (R (d_name ds)) (all_objs ds) (all_objs ds').
  Lemma path_trans (R1 R2 R3 : string -> pobj -> pobj -> Prop) l k m : (forall n x y z, R1 n x y -> R2 n y z -> R3 n x z) ->
    Forall2 (path R1) l k -> Forall2 (path R2) k m -> Forall2 (path R3) l m.
  Proof.
    intros HR. apply Forall2_transitive. intros x y z [N1 H1] [N2 H2]. split; [congruence|]. rewrite N1 in H2. revert H1 H2. apply Forall2_transitive. intros. by eapply HR.
  Qed.
  Lemma unnamed_name ds ds' : unnamed ds' = unnamed ds -> d_name ds' = d_name ds.
  Proof. intros E. apply (f_equal d_name) in E. by destruct ds, ds'. Qed.
  Lemma path_renamed R (S : string -> pobj -> pobj -> Prop) l k : Forall2 (renamed R) l k ->
    (forall n o o', o_value o' = o_value o -> R o o' -> S n o o') -> Forall2 (path S) l k.
  Proof.
    intros F HS. eapply Forall2_impl; [exact F|]. intros ds ds' [E F']. split; [by apply unnamed_name|]. eapply Forall2_impl; [exact F'|].
    cbv beta. intros o o' [Hv HR]. by apply HS.
  Qed.
  Definition later (n : string) (o o' : pobj) : Prop :=
    o_value o' = o_value o /\ o_variable o' = final_variable <$> o_variable o /\ (o_formula o = None -> o_formula o' = None) /\
    (forall f, o_formula o = Some f -> good_formula parses f -> (forall bad good, ~ correction n bad good) -> o_formula o' = Some f).
  Lemma good_unchanged f : good_formula parses f -> check_and_fix_formula words parses f = f.
  Proof.
    intros (_ & _ & _ & Hp & Hw). apply check_and_fix_unchanged; [done|]. intros w Hin. unfold starts_with_word.
    destruct (starts (chars w) (chars f)) eqn:Es; [|done]. apply starts_true in Es as [r E]. rewrite E, drop_length_app. cbn [andb].
    destruct r as [|c r]; [done|]. apply negb_false_iff. destruct (letter c) eqn:Ec; [done|]. exfalso. apply (Hw w (Hwords w Hin)). by exists c, r.
  Qed.
  Lemma chain_later d1 : replace_implicit_references (map without_idle_gas data) = Ok d1 -> Forall2 (path later) d1 data'.
  Proof.
    intros H1. unfold fix_ecoinvent_parameters in H. rewrite refinery_bare, H1 in H. cbn [bind] in H. apply bind_Ok in H as (d2 & H2 & H0).
    apply bind_Ok in H0 as (d3 & H3 & H0). apply bind_Ok in H0 as (d4 & H4 & H0). apply bind_Ok in H0 as (d5 & H5 & H0). apply bind_Ok in H0 as (d6 & H6 & H0).
    apply repair_objs in H2. apply known_corrected in H3. apply change_all_spec in H4. apply math_data in H5. apply change_all_spec in H6. apply unparsable_spec in H0.
    set (fine n f := good_formula parses f /\ forall bad good, ~ correction n bad good).
    set (step (g : string -> string) n (o o' : pobj) := o_value o' = o_value o /\ o_variable o' = g <$> o_variable o /\ (o_formula o = None -> o_formula o' = None) /\
      (forall f, o_formula o = Some f -> fine n f -> o_formula o' = Some f)).
    assert (Forall2 (path (step id)) d1 d2) as S2.
    { eapply Forall2_impl; [exact H2|]. intros ds ds' [Eo En]. split; [done|]. rewrite Eo. apply Forall_Forall2_diag, Forall_forall. intros o _.
      unfold step. rewrite option_fmap_id. done. }
    assert (Forall2 (path (step id)) d2 d3) as S3.
    { eapply Forall2_impl; [exact H3|]. intros ds ds' [[-> Hc]|(bad & good & Hc & E & F)].
      - split; [done|]. apply Forall_Forall2_diag, Forall_forall. intros o _. unfold step. rewrite option_fmap_id. done.
      - split; [by apply unnamed_name|]. eapply Forall2_impl; [exact F|]. cbv beta. intros o o' (Hv & Hx & Hf). unfold step. rewrite option_fmap_id.
        split; [done|]. split; [done|]. split; [intros En; by rewrite En in Hf|]. intros f _ [_ Hn]. by apply Hn in Hc. }
    assert (Forall2 (path (step lower)) d3 d4) as S4.
    { eapply path_renamed; [exact H4|]. cbv beta. intros n o o' Hv E. apply Ok_inj in E. cbn [fst snd] in E. injection E as E1 E2.
      split; [done|]. split; [done|]. split; [intros En; rewrite En in E2; done|]. intros f Ef [[_ [El _]] _]. rewrite Ef in E2. cbn in E2. congruence. }
    assert (Forall2 (path (step id)) d4 d5) as S5.
    { eapply path_renamed; [exact H5|]. cbv beta. intros n o o' Hv [Hx Hf]. unfold step. rewrite option_fmap_id. split; [done|]. split; [done|].
      split; [intros En; by rewrite En in Hf|]. intros f Ef [(_ & _ & Hpl & _) _]. rewrite Ef in Hf. destruct Hf as (f' & -> & Hf).
      rewrite <- (str_chars f) in Hf. rewrite fix_plain in Hf by done. apply Ok_inj in Hf as <-. by rewrite str_chars. }
    assert (Forall2 (path (step reserved_variable)) d5 d6) as S6.
    { eapply path_renamed; [exact H6|]. cbv beta. intros n o o' Hv E. apply Ok_inj in E. cbn [fst snd] in E. injection E as E1 E2.
      split; [done|]. split; [done|]. split; [intros En; rewrite En in E2; done|]. intros f Ef [Hg _]. rewrite Ef in E2. cbn in E2.
      rewrite good_unchanged in E2 by done. congruence. }
    assert (Forall2 (path (step id)) d6 data') as S7.
    { eapply path_renamed; [exact H0|]. cbv beta. intros n o o' Hv [Hx Hf]. unfold step. rewrite option_fmap_id. split; [done|]. split; [done|]. split.
      - intros En. destruct (o_formula o') as [f|]; [|done]. destruct (proj1 (Hf f) eq_refl). congruence.
      - intros f Ef [(_ & _ & _ & Hp & _) _]. by apply Hf. }
    assert (forall g h n x y z, step g n x y -> step h n y z -> step (h ∘ g) n x z) as Ht.
    { intros g h n x y z (A1 & A2 & A3 & A4) (B1 & B2 & B3 & B4). split; [congruence|]. split; [by rewrite B2, A2, option_fmap_compose|]. split; [auto|]. auto. }
    pose proof (path_trans _ _ _ _ _ _ (Ht _ _) S2 S3) as T. pose proof (path_trans _ _ _ _ _ _ (Ht _ _) T S4) as T2.
    pose proof (path_trans _ _ _ _ _ _ (Ht _ _) T2 S5) as T3. pose proof (path_trans _ _ _ _ _ _ (Ht _ _) T3 S6) as T4.
    pose proof (path_trans _ _ _ _ _ _ (Ht _ _) T4 S7) as T5. eapply Forall2_impl; [exact T5|]. intros ds ds' [En F]. split; [done|].
    eapply Forall2_impl; [exact F|]. intros o o' (A1 & A2 & A3 & A4). split; [done|]. split.
    { rewrite A2. destruct (o_variable o) as [v|]; [|done]. cbn. by rewrite final_reserved. }
    split; [done|]. intros f Ef Hg Hc. by apply A4.
  Qed.
  Lemma chain_variables ds' o v : ds' ∈ data' -> o ∈ all_objs ds' -> o_variable o = Some v -> v ∉ RESERVED_WORDS /\ exists v0, v = final_variable v0.
  Proof.
    intros Hds Ho Hv. assert (exists d1, replace_implicit_references (map without_idle_gas data) = Ok d1) as [d1 H1].
    { unfold fix_ecoinvent_parameters in H. rewrite refinery_bare in H. apply bind_Ok in H as (d1 & H1 & _). by exists d1. }
    apply chain_later in H1. apply elem_of_list_lookup in Hds as [i Hi]. destruct (Forall2_lookup_r _ _ _ _ _ H1 Hi) as (ds & _ & _ & F).
    apply elem_of_list_lookup in Ho as [j Hj]. destruct (Forall2_lookup_r _ _ _ _ _ F Hj) as (o0 & _ & _ & E & _). rewrite Hv in E.
    destruct (o_variable o0) as [v0|]; [|done]. cbn in E. injection E as ->. split; [rewrite final_reserved; apply reserved_variable_free|by exists v0].
  Qed.
  Lemma chain_kept : Forall readable data -> Forall2 (fun ds ds' => Forall2 (kept_named (d_name ds)) (all_objs (without_idle_gas ds)) (all_objs ds')) data data'.
  Proof.
    intros Hr. assert (exists d1, replace_implicit_references (map without_idle_gas data) = Ok d1) as [d1 H1].
    { unfold fix_ecoinvent_parameters in H. rewrite refinery_bare in H. apply bind_Ok in H as (d1 & H1 & _). by exists d1. }
    pose proof (chain_later _ H1) as HL. apply data_replaced in H1; [|].
    2:{ apply Forall_map. eapply Forall_impl; [exact Hr|]. intros ds. apply readable_without. }
    apply (Forall2_fmap_l without_idle_gas references_replaced) in H1. revert H1 HL. apply Forall2_transitive. intros ds d ds' Hd [En F]. cbv beta in Hd.
    assert (d_name d = d_name ds) as Hn.
    { destruct Hd as [Hu _]. apply unnamed_name in Hu. rewrite Hu. unfold without_idle_gas. by case_decide; destruct ds. }
    apply references_objs in Hd. revert Hd F. apply Forall2_transitive. intros o o1 o' (A1 & A2 & A3) (B1 & B2 & B3 & B4). unfold kept_named.
    split; [congruence|]. split; [intros v Hv; rewrite B2, (A2 _ Hv); done|]. split.
    - intros Ef. apply B3. rewrite Ef in A3. done.
    - intros f Ef Hg Hc. apply B4; [|done|by rewrite Hn]. rewrite Ef in A3. destruct A3 as (l & ts & Hl & -> & Hres & ->). f_equal. f_equal.
      eapply quoteless; [|exact Hres]. destruct Hg as [Hq _]. by rewrite chars_str in Hq.
  Qed.
End chain.
