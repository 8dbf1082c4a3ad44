(** Proofs for C90-C93. *)
From Verif Require Import Base Types Uncertainty Utils Strings Grouping GroupUpdate Recalculation Cutoff Locations Spec_Utils Spec_Cutoff
  Spec_Uncertainty Uncertainty_proofs Spec_Recalculation Recalculation_proofs Cutoff_proofs Consequential Tables Tables_proofs Utils_proofs Optional Spec_Optional.

(** ** In place and returned *)
Definition agrees {A} (f : A -> result A) (g : A -> outcome A) : Prop :=
  forall x, match f x with Ok y => g x = (y, None) | Err err => (g x).2 = Some err end.
Lemma attempt_agrees {A} (f : A -> result A) : agrees f (attempt f).
Proof. intros x. unfold attempt. by destruct (f x). Qed.
Lemma visit_agrees {A} (f : A -> result A) g : agrees f g -> agrees (mapR f) (visit g).
Proof.
  intros H l. induction l as [|x l IH]; [done|]. cbn [mapR visit]. specialize (H x). destruct (f x) as [y|err]; cbn [bind].
  - rewrite H. destruct (mapR f l) as [l'|err]; cbn [bind].
    + by rewrite IH.
    + destruct (visit g l) as [l' o]. exact IH.
  - destruct (g x) as [y [err'|]]; [|done]. cbn in *. congruence.
Qed.
Lemma visit_option_agrees {A} (f : A -> result A) g : agrees f g -> agrees (optR f) (visit_option g).
Proof.
  intros H [x|]; [|done]. cbn [optR visit_option]. specialize (H x). destruct (f x) as [y|err]; cbn [bind].
  - by rewrite H.
  - by destruct (g x) as [y o].
Qed.

Definition three_steps (step1 : exchange -> result exchange) (step2 : pvol -> result pvol) (step3 : prop -> result prop) (e : exchange) : outcome exchange :=
  match step1 e with
  | Err err => (e, Some err)
  | Ok e1 => match visit_option (attempt step2) (e_pv e1) with
             | (v, Some err) => (set_e_pv v e1, Some err)
             | (v, None) => let e2 := set_e_pv v e1 in
                            let (ps, o) := visit (attempt step3) (e_props e2) in (set_e_props ps e2, o)
             end
  end.
Lemma three_steps_eq step1 step2 step3 e :
  afterwards (attempt step1) (afterwards (within e_pv set_e_pv (visit_option (attempt step2)))
       (within e_props set_e_props (visit (attempt step3)))) e = three_steps step1 step2 step3 e.
Proof.
  unfold three_steps. unfold afterwards at 1. unfold attempt at 1. destruct (step1 e) as [e1|err]; [|done].
  unfold afterwards, within. by destruct (visit_option (attempt step2) (e_pv e1)) as [v [err|]].
Qed.
Lemma assign_exchange_agrees eval m : agrees (recalc_exchange eval m) (assign_exchange eval m).
Proof.
  intros e. unfold recalc_exchange, assign_exchange. rewrite three_steps_eq. unfold three_steps.
  destruct (recalc_value eval m (e_obj e)) as [x|err]; cbn [bind]; [|done].
  assert (e_pv (set_e_amount x e) = e_pv e) as -> by by destruct e.
  pose proof (visit_option_agrees _ _ (attempt_agrees (recalc_pv eval m)) (e_pv e)) as Hv.
  destruct (optR _ (e_pv e)) as [v|err]; cbn [bind].
  - rewrite Hv. assert (e_props (set_e_pv v (set_e_amount x e)) = e_props e) as -> by by destruct e.
    pose proof (visit_agrees _ _ (attempt_agrees (recalc_prop eval m)) (e_props e)) as Hp.
    destruct (mapR _ (e_props e)) as [ps|err]; cbn [bind].
    + by rewrite Hp.
    + by destruct (visit _ _).
  - destruct (visit_option _ _) as [v [err'|]]; [done|done].
Qed.
Lemma assign_amounts_agrees eval m : agrees (recalc_amounts eval m) (assign_amounts eval m).
Proof.
  intros ds. unfold recalc_amounts, assign_amounts, afterwards, within.
  pose proof (visit_agrees _ _ (assign_exchange_agrees eval m) (d_exchanges ds)) as He.
  destruct (mapR _ (d_exchanges ds)) as [es|err]; cbn [bind].
  - rewrite He. assert (d_params (set_d_exchanges es ds) = d_params ds) as -> by by destruct ds.
    pose proof (visit_agrees _ _ (attempt_agrees (recalc_param eval m)) (d_params ds)) as Hp.
    destruct (mapR _ (d_params ds)) as [ps|err]; cbn [bind].
    + by rewrite Hp.
    + destruct (visit (attempt (recalc_param eval m)) (d_params ds)) as [ps o]; exact Hp.
  - destruct (visit (assign_exchange eval m) (d_exchanges ds)) as [v [err'|]]; [exact He|discriminate He].
Qed.
Lemma mend_exchange_agrees ln euler : agrees (repair_exchange ln euler) (mend_exchange ln euler).
Proof.
  intros e. unfold repair_exchange, mend_exchange. rewrite three_steps_eq. unfold three_steps.
  destruct (repair_if ln euler (e_view e)) as [x|err]; cbn [bind]; [|done]. generalize (e_put e x). clear e x. intros e.
  pose proof (visit_option_agrees _ _ (attempt_agrees (repair_pv ln euler)) (e_pv e)) as Hv.
  destruct (optR _ (e_pv e)) as [v|err]; cbn [bind].
  - rewrite Hv. assert (e_props (set_e_pv v e) = e_props e) as -> by by destruct e.
    pose proof (visit_agrees _ _ (attempt_agrees (repair_prop ln euler)) (e_props e)) as Hp.
    destruct (mapR _ (e_props e)) as [ps|err]; cbn [bind].
    + by rewrite Hp.
    + by destruct (visit _ _).
  - destruct (visit_option _ _) as [v [err'|]]; [done|done].
Qed.
Lemma mend_agrees ln euler : agrees (repair_dataset ln euler) (mend ln euler).
Proof.
  intros ds. unfold repair_dataset, mend, afterwards, within.
  pose proof (visit_agrees _ _ (mend_exchange_agrees ln euler) (d_exchanges ds)) as He.
  destruct (mapR _ (d_exchanges ds)) as [es|err]; cbn [bind].
  - rewrite He. assert (d_params (set_d_exchanges es ds) = d_params ds) as -> by by destruct ds.
    pose proof (visit_agrees _ _ (attempt_agrees (repair_param ln euler)) (d_params ds)) as Hp.
    destruct (mapR _ (d_params ds)) as [ps|err]; cbn [bind].
    + by rewrite Hp.
    + destruct (visit (attempt (repair_param ln euler)) (d_params ds)) as [ps o]; exact Hp.
  - destruct (visit (mend_exchange ln euler) (d_exchanges ds)) as [v [err'|]]; [exact He|discriminate He].
Qed.
Lemma recalculate_agrees ln euler order eval : agrees (recalculate ln euler order eval) (recalculate_in_place ln euler order eval).
Proof.
  intros ds. unfold recalculate, recalculate_in_place. destruct (environment order eval ds) as [m|err]; cbn [bind]; [|done].
  unfold afterwards. pose proof (assign_amounts_agrees eval m ds) as H1. destruct (recalc_amounts eval m ds) as [ds1|err]; cbn [bind].
  - rewrite H1. apply mend_agrees.
  - destruct (assign_amounts eval m ds) as [d [err'|]]; [exact H1|done].
Qed.

(** ** How far an interrupted recalculation gets *)
Definition partial {A} (R : A -> A -> Prop) (l l' : list A) : Prop :=
  exists old rest new, l = old ++ rest /\ l' = new ++ rest /\ Forall2 R old new.
Definition advances {A B C} (R : C -> C -> Prop) (fr : A -> B) (qs : A -> list C) (f : A -> outcome A) : Prop :=
  forall x y o, f x = (y, o) -> fr y = fr x /\ (o = None -> Forall2 R (qs x) (qs y)) /\ partial R (qs x) (qs y).
Lemma partial_refl {A} (R : A -> A -> Prop) l : partial R l l.
Proof. exists [], l, []. done. Qed.
Lemma partial_full {A} (R : A -> A -> Prop) l l' : Forall2 R l l' -> partial R l l'.
Proof. intros H. exists l, [], l'. by rewrite !app_nil_r. Qed.
Lemma partial_app {A} (R : A -> A -> Prop) l l' k k' : Forall2 R l l' -> partial R k k' -> partial R (l ++ k) (l' ++ k').
Proof.
  intros H (o & r & n & -> & -> & HF). exists (l ++ o), r, (l' ++ n). rewrite !app_assoc. split_and!; [done..|by apply Forall2_app].
Qed.
Lemma partial_rest {A} (R : A -> A -> Prop) l l' k : partial R l l' -> partial R (l ++ k) (l' ++ k).
Proof. intros (o & r & n & -> & -> & HF). exists o, (r ++ k), n. by rewrite !app_assoc. Qed.
Lemma visit_advances {A B C} (R : C -> C -> Prop) (fr : A -> B) qs f : advances R fr qs f ->
  advances R (map fr) (fun l => concat (map qs l)) (visit f).
Proof.
  intros H l. induction l as [|x l IH]; intros l' o E.
  - injection E as <- <-. split; [done|]. split; [constructor|]. apply partial_refl.
  - cbn [visit] in E. destruct (f x) as [y [err|]] eqn:Ef.
    + injection E as <- <-. apply H in Ef as (H1 & _ & H2). cbn [map concat]. split; [by rewrite H1|]. split; [done|]. by apply partial_rest.
    + destruct (visit f l) as [l1 o1] eqn:Ev. injection E as <- <-. apply H in Ef as (H1 & H2 & _). specialize (H2 eq_refl).
      destruct (IH _ _ eq_refl) as (I1 & I2 & I3). cbn [map concat]. split; [by rewrite H1, I1|]. split.
      * intros Eo. apply Forall2_app; auto.
      * by apply partial_app.
Qed.
Lemma attempt_advances {A B C} (R : C -> C -> Prop) (fr : A -> B) (q : A -> C) f :
  (forall x y, f x = Ok y -> fr y = fr x /\ R (q x) (q y)) -> advances R fr (fun x => [q x]) (attempt f).
Proof.
  intros H x y o E. unfold attempt in E. destruct (f x) as [z|err] eqn:Ef.
  - injection E as <- <-. apply H in Ef as [H1 H2]. split; [done|]. assert (Forall2 R [q x] [q z]) by (by constructor). split; [done|]. by apply partial_full.
  - injection E as <- <-. split; [done|]. split; [done|]. apply partial_refl.
Qed.

Section advances.
Context (eval : env -> string -> result Qc) (m : env).
Notation R := (revalued eval m).
Lemma concat_single {A B} (f : A -> B) l : concat (map (fun x => [f x]) l) = map f l.
Proof. induction l as [|x l IH]; [done|]. cbn. by rewrite IH. Qed.
Definition p_q (p : prop) : quantity := (p_variable p, p_formula p, p_amount p).
Definition v_q (v : pvol) : quantity := (v_variable v, v_formula v, v_amount v).
Definition blank_p' (p : prop) := set_p_unc None (set_p_amount 0%Qc p).
Definition blank_v' (v : pvol) := set_v_unc None (set_v_amount 0%Qc v).

Lemma assign_exchange_advances : advances R blank_exchange exchange_quantities (assign_exchange eval m).
Proof.
  intros e e' o E. unfold assign_exchange in E. rewrite three_steps_eq in E. unfold three_steps in E.
  destruct (recalc_value eval m (e_obj e)) as [x|err] eqn:Ex; cbn [bind] in E.
  2: { injection E as <- <-. split; [done|]. split; [done|]. apply partial_refl. }
  apply recalc_value_spec in Ex.
  assert (e_pv (set_e_amount x e) = e_pv e) as Epv by by destruct e. rewrite Epv in E. clear Epv.
  set (pvq := fun v : option pvol => match v with Some v => [v_q v] | None => [] end).
  assert (forall v o, visit_option (attempt (recalc_pv eval m)) (e_pv e) = (v, o) ->
    option_map blank_v' v = option_map blank_v' (e_pv e) /\
    (o = None -> Forall2 R (pvq (e_pv e)) (pvq v)) /\ (o <> None -> v = e_pv e)) as HV.
  { clear. intros v o E. destruct (e_pv e) as [w|]; cbn [visit_option] in E.
    - unfold attempt in E. destruct (recalc_pv eval m w) as [w'|err] eqn:Ew.
      + injection E as <- <-. apply recalc_pv_spec in Ew as [H1 H2]. cbn [option_map]. split; [f_equal; by apply blank_v|]. split; [|done].
        intros _. constructor; [exact H2|constructor].
      + injection E as <- <-. done.
    - injection E as <- <-. split; [done|]. split; [constructor|done]. }
  destruct (visit_option _ (e_pv e)) as [v [err|]] eqn:Ev.
  - injection E as <- <-. destruct (HV _ _ eq_refl) as (_ & _ & Hn). rewrite Hn by done.
    assert (set_e_pv (e_pv e) (set_e_amount x e) = set_e_amount x e) as -> by by destruct e.
    split; [by destruct e|]. split; [done|]. exists [(e_variable e, e_formula e, e_amount e)], (tl (exchange_quantities e)), [(e_variable e, e_formula e, x)].
    split; [done|]. split; [by destruct e|]. by constructor.
  - destruct (HV _ _ eq_refl) as (Hb & Hq & _). specialize (Hq eq_refl).
    assert (e_props (set_e_pv v (set_e_amount x e)) = e_props e) as Ep by by destruct e. rewrite Ep in E. clear Ep.
    destruct (visit _ (e_props e)) as [ps o'] eqn:Eps. injection E as <- <-.
    assert (advances R blank_p' (fun p => [p_q p]) (attempt (recalc_prop eval m))) as HA.
    { apply attempt_advances. intros p p' Hp. apply recalc_prop_spec in Hp as [H1 H2]. split; [by apply blank_p|exact H2]. }
    apply (visit_advances _ _ _ _ HA) in Eps as (P1 & P2 & P3). rewrite !concat_single in P2, P3.
    assert (exchange_quantities e = (e_variable e, e_formula e, e_amount e) :: pvq (e_pv e) ++ map p_q (e_props e)) as E1 by done.
    assert (exchange_quantities (set_e_props ps (set_e_pv v (set_e_amount x e))) = (e_variable e, e_formula e, x) :: pvq v ++ map p_q ps) as E2 by by destruct e.
    rewrite E1, E2. split.
    { unfold blank_exchange. fold blank_p' blank_v'. clear -Hb P1. destruct e. cbn -[blank_p' blank_v'] in *. by rewrite Hb, P1. }
    split.
    + intros ->. constructor; [exact Ex|]. apply Forall2_app; [exact Hq|]. by apply P2.
    + change (partial R ([(e_variable e, e_formula e, e_amount e)] ++ (pvq (e_pv e) ++ map p_q (e_props e)))
        ([(e_variable e, e_formula e, x)] ++ (pvq v ++ map p_q ps))).
      apply partial_app; [by constructor|]. by apply partial_app.
Qed.
Lemma assign_amounts_advances ds ds' o : assign_amounts eval m ds = (ds', o) ->
  frame ds' = frame ds /\ (o = None -> Forall2 R (quantities ds) (quantities ds')) /\ partial R (quantities ds) (quantities ds').
Proof.
  intros E. unfold assign_amounts, afterwards, within in E.
  destruct (visit _ (d_exchanges ds)) as [es o1] eqn:Ee. apply (visit_advances _ _ _ _ assign_exchange_advances) in Ee as (H1 & H2 & H3).
  assert (d_params (set_d_exchanges es ds) = d_params ds) as Ep by by destruct ds.
  destruct o1 as [err|].
  - injection E as <- <-. split; [|split; [done|]].
    + unfold frame. rewrite Ep. assert (d_exchanges (set_d_exchanges es ds) = es) as -> by by destruct ds. rewrite H1. by destruct ds.
    + unfold quantities. rewrite Ep. assert (d_exchanges (set_d_exchanges es ds) = es) as -> by by destruct ds. by apply partial_rest.
  - specialize (H2 eq_refl). rewrite Ep in E. destruct (visit _ (d_params ds)) as [ps o2] eqn:Eps. injection E as <- <-.
    assert (advances R blank_param (fun p => [param_quantity p]) (attempt (recalc_param eval m))) as HA.
    { apply attempt_advances. intros p p' Hp. apply recalc_param_spec in Hp as [P1 P2]. split; [unfold blank_param; by rewrite P1|exact P2]. }
    apply (visit_advances _ _ _ _ HA) in Eps as (P1 & P2 & P3). rewrite !concat_single in P2, P3.
    assert (d_exchanges (set_d_params ps (set_d_exchanges es ds)) = es) as Ed by by destruct ds.
    assert (d_params (set_d_params ps (set_d_exchanges es ds)) = ps) as Ed' by by destruct ds.
    split; [|split].
    + unfold frame. rewrite Ed, Ed', H1, P1. by destruct ds.
    + intros ->. unfold quantities. rewrite Ed, Ed'. apply Forall2_app; [exact H2|]. by apply P2.
    + unfold quantities. rewrite Ed, Ed'. by apply partial_app.
Qed.
End advances.

(** Repairing changes uncertainties. *)
Definition keeps {A B} (fr : A -> B) (f : A -> outcome A) : Prop := forall x y o, f x = (y, o) -> fr y = fr x.
Lemma attempt_keeps {A B} (fr : A -> B) f : (forall x y, f x = Ok y -> fr y = fr x) -> keeps fr (attempt f).
Proof. intros H x y o E. unfold attempt in E. destruct (f x) as [z|err] eqn:Ef; injection E as <- <-; [by apply H|done]. Qed.
Lemma visit_keeps {A B} (fr : A -> B) f : keeps fr f -> keeps (map fr) (visit f).
Proof.
  intros H l. induction l as [|x l IH]; intros l' o E; [by injection E as <- <-|].
  cbn [visit] in E. destruct (f x) as [y [err|]] eqn:Ef; apply H in Ef.
  - injection E as <- <-. cbn. by rewrite Ef.
  - destruct (visit f l) as [l1 o1]. injection E as <- <-. cbn. by rewrite Ef, (IH l1 o1).
Qed.
Lemma strip_pv e v : option_map (set_v_unc None) v = option_map (set_v_unc None) (e_pv e) -> strip_exchange (set_e_pv v e) = strip_exchange e.
Proof. intros H. unfold strip_exchange. destruct e. cbn -[set_v_unc] in *. by rewrite H. Qed.
Lemma strip_props e ps : map (set_p_unc None) ps = map (set_p_unc None) (e_props e) -> strip_exchange (set_e_props ps e) = strip_exchange e.
Proof. intros H. unfold strip_exchange. destruct e. cbn -[set_p_unc] in *. by rewrite H. Qed.
Lemma strip_params ds ps : map (set_q_unc None) ps = map (set_q_unc None) (d_params ds) -> strip_dataset (set_d_params ps ds) = strip_dataset ds.
Proof. intros H. unfold strip_dataset. destruct ds. cbn -[set_q_unc strip_exchange] in *. by rewrite H. Qed.
Lemma mend_exchange_keeps ln euler : keeps strip_exchange (mend_exchange ln euler).
Proof.
  intros e e' o E. unfold mend_exchange in E. rewrite three_steps_eq in E. unfold three_steps in E.
  destruct (repair_if ln euler (e_view e)) as [x|err] eqn:Ex; cbn [bind] in E; [|by injection E as <- <-].
  assert (strip_exchange (e_put e x) = strip_exchange e /\ e_pv (e_put e x) = e_pv e /\ e_props (e_put e x) = e_props e) as (H1 & H2 & H3).
  { apply repair_if_frame in Ex as [Ea Ep]. destruct e, x. cbn in *. subst. done. }
  destruct (visit_option _ _) as [v o1] eqn:Ev.
  assert (option_map (set_v_unc None) v = option_map (set_v_unc None) (e_pv e)) as Hv.
  { rewrite H2 in Ev. destruct (e_pv e) as [w|]; cbn [visit_option] in Ev; [|by injection Ev as <- <-].
    assert (keeps (set_v_unc None) (attempt (repair_pv ln euler))) as HK.
    { apply attempt_keeps. intros a b Hab. by apply repair_pv_spec in Hab as [? _]. }
    destruct (attempt _ w) as [w' o2] eqn:Ew. injection Ev as <- <-. apply HK in Ew. cbn [option_map]. by rewrite Ew. }
  assert (strip_exchange (set_e_pv v (e_put e x)) = strip_exchange e) as Hs.
  { rewrite <- H1. apply strip_pv. by rewrite H2. }
  destruct o1 as [err|]; [by injection E as <- <-|].
  destruct (visit _ _) as [ps o2] eqn:Eps. injection E as <- <-.
  assert (keeps (set_p_unc None) (attempt (repair_prop ln euler))) as HK.
  { apply attempt_keeps. intros a b Hab. by apply repair_prop_spec in Hab as [? _]. }
  apply (visit_keeps _ _ HK) in Eps. rewrite <- Hs. by apply strip_props.
Qed.
Lemma mend_keeps ln euler ds ds' o : mend ln euler ds = (ds', o) -> strip_dataset ds' = strip_dataset ds.
Proof.
  intros E. unfold mend, afterwards, within in E.
  destruct (visit _ (d_exchanges ds)) as [es o1] eqn:Ee. apply (visit_keeps _ _ (mend_exchange_keeps ln euler)) in Ee.
  assert (strip_dataset (set_d_exchanges es ds) = strip_dataset ds) as H1 by (unfold strip_dataset; destruct ds; cbn -[strip_exchange set_q_unc] in *; by rewrite Ee).
  destruct o1 as [err|]; [by injection E as <- <-|].
  assert (keeps (set_q_unc None) (attempt (repair_param ln euler))) as HK.
  { apply attempt_keeps. intros a b Hab. by apply repair_param_spec in Hab as [? _]. }
  destruct (visit _ _) as [ps o2] eqn:Eps. injection E as <- <-. apply (visit_keeps _ _ HK) in Eps. rewrite <- H1.
  by apply strip_params.
Qed.
Lemma strip_frame ds ds' : strip_dataset ds' = strip_dataset ds -> frame ds' = frame ds /\ quantities ds' = quantities ds.
Proof.
  intros H.
  assert (forall ds, frame ds = frame (strip_dataset ds) /\ quantities ds = quantities (strip_dataset ds)) as HS.
  { clear. intros ds. unfold frame, quantities.
    assert (d_exchanges (strip_dataset ds) = map strip_exchange (d_exchanges ds)) as -> by by destruct ds.
    assert (d_params (strip_dataset ds) = map (set_q_unc None) (d_params ds)) as -> by by destruct ds.
    rewrite !map_map.
    assert (map (fun e => blank_exchange (strip_exchange e)) (d_exchanges ds) = map blank_exchange (d_exchanges ds)) as ->.
    { apply map_ext. intros e. symmetry. apply (strip_exchange_blank (strip_exchange e) e). unfold strip_exchange. destruct e. cbn. rewrite map_map. by destruct e_pv. }
    assert (map (fun e => exchange_quantities (strip_exchange e)) (d_exchanges ds) = map exchange_quantities (d_exchanges ds)) as ->.
    { apply map_ext. intros e. symmetry. apply (strip_exchange_blank (strip_exchange e) e). unfold strip_exchange. destruct e. cbn. rewrite map_map. by destruct e_pv. }
    split; [|done]. by destruct ds. }
  destruct (HS ds) as [-> ->], (HS ds') as [-> ->]. by rewrite H.
Qed.

Lemma recalculate_all_spec ln euler order eval data data' rows :
  recalculate_all_parameterized_datasets ln euler order eval data = Ok (data', rows) ->
  Forall2 (fun ds ds' => recalculate ln euler order eval ds = Ok ds' \/
      exists err, recalculate ln euler order eval ds = Err err /\ caught err = true /\
        (ds' = ds \/ exists m, environment order eval ds = Ok m /\ half_recalculated eval m ds ds')) data data' /\
  rows = map (fun ds => [Txt (d_name ds); Txt (default ""%string (d_refprod ds)); Txt (d_location ds)])
           (filter (fun ds => is_ok (recalculate ln euler order eval ds) = false) data).
Proof.
  unfold recalculate_all_parameterized_datasets. intros H. apply bind_Ok in H as (l & Hl & H). injection H as <- <-.
  apply mapR_Ok in Hl. induction Hl as [|ds [ds' r] data l H _ [IH1 IH2]]; [split; [constructor|done]|].
  cbn [map fst snd concat].
  assert ((recalculate ln euler order eval ds = Ok ds' /\ r = []) \/
    (exists err, recalculate ln euler order eval ds = Err err /\ caught err = true /\
        (ds' = ds \/ exists m, environment order eval ds = Ok m /\ half_recalculated eval m ds ds') /\
        r = [[Txt (d_name ds); Txt (default ""%string (d_refprod ds)); Txt (d_location ds)]])) as HC.
  { clear IH1 IH2. unfold recalculate_one in H. pose proof (recalculate_agrees ln euler order eval ds) as HA.
    destruct (recalculate ln euler order eval ds) as [d|err] eqn:Er.
    - rewrite HA in H. injection H as <- <-. by left.
    - right. exists err. split; [done|]. destruct (recalculate_in_place ln euler order eval ds) as [d o] eqn:Ei. cbn [snd] in HA. subst o.
      destruct (caught err) eqn:Ec; [|done]. apply bind_Ok in H as (rp & Hrp & H). injection H as <- <-. unfold refprod in Hrp. apply getkey_Ok in Hrp.
      assert (d = ds \/ exists m, environment order eval ds = Ok m /\ half_recalculated eval m ds d) as HX.
      { unfold recalculate_in_place in Ei. destruct (environment order eval ds) as [m|err'] eqn:Em; [|injection Ei as <- <-; by left].
        right. exists m. split; [done|]. unfold afterwards in Ei. destruct (assign_amounts eval m ds) as [d1 o1] eqn:Ea.
        apply assign_amounts_advances in Ea as (F1 & F2 & F3). destruct o1 as [err1|].
        - injection Ei as <- <-. by split.
        - apply mend_keeps, strip_frame in Ei as [G1 G2]. split; [congruence|]. by rewrite G2. }
      split; [done|]. split; [done|].
      assert (frame d = frame ds) as HF by (destruct HX as [->|(m & _ & HF & _)]; done).
      assert (d_name d = d_name ds /\ d_refprod d = d_refprod ds /\ d_location d = d_location ds) as (-> & E2 & ->).
      { clear -HF. unfold frame in HF. destruct d, ds. cbn -[blank_exchange blank_param] in *. injection HF. intros. subst. done. }
      rewrite <- E2, Hrp. done. }
  split.
  - constructor; [|exact IH1]. destruct HC as [[? _]|(err & ? & ? & ? & _)]; [by left|right; by exists err].
  - rewrite filter_cons, IH2. destruct HC as [[-> ->]|(err & -> & _ & _ & ->)]; cbn [is_ok]; [by rewrite decide_False|by rewrite decide_True].
Qed.

(** When an error stops everything. *)
Lemma recalculate_all_fails ln euler order eval data err :
  Forall (fun ds => d_refprod ds <> None) data ->
  (recalculate_all_parameterized_datasets ln euler order eval data = Err err <->
   exists pre ds post, data = pre ++ ds :: post /\ recalculate ln euler order eval ds = Err err /\ caught err = false /\
     Forall (fun ds => forall err', recalculate ln euler order eval ds = Err err' -> caught err' = true) pre).
Proof.
  intros HR.
  assert (forall ds, d_refprod ds <> None -> match recalculate ln euler order eval ds with
    | Err err => if caught err then exists x, recalculate_one ln euler order eval ds = Ok x else recalculate_one ln euler order eval ds = Err err
    | Ok _ => exists x, recalculate_one ln euler order eval ds = Ok x end) as HO.
  { clear. intros ds Hd. unfold recalculate_one. pose proof (recalculate_agrees ln euler order eval ds) as HA.
    destruct (recalculate ln euler order eval ds) as [d|err] eqn:Er; [rewrite HA; eauto|].
    destruct (recalculate_in_place ln euler order eval ds) as [d o] eqn:Ei. cbn [snd] in HA. subst o. destruct (caught err) eqn:Ec; [|done].
    assert (d_refprod d = d_refprod ds) as Ed.
    { unfold recalculate_in_place in Ei. destruct (environment order eval ds) as [m|err'] eqn:Em; [|by injection Ei as <- <-].
      unfold afterwards in Ei. destruct (assign_amounts eval m ds) as [d1 o1] eqn:Ea.
      apply assign_amounts_advances in Ea as (F1 & _ & _).
      assert (frame d = frame ds) as HF.
      { destruct o1 as [err1|]; [by injection Ei as <- <-|]. apply mend_keeps, strip_frame in Ei as [G1 _]. congruence. }
      clear -HF. unfold frame in HF. destruct d, ds. cbn -[blank_exchange blank_param] in *. injection HF. intros. by subst. }
    unfold refprod. rewrite Ed. destruct (d_refprod ds) as [rp|]; [|done]. cbn [getkey bind]. eauto. }
  unfold recalculate_all_parameterized_datasets. induction HR as [|ds data Hd HR IH].
  - cbn. split; [done|]. intros ([|] & ds & post & E & _); discriminate E.
  - specialize (HO ds Hd). cbn [mapR]. destruct (recalculate_one ln euler order eval ds) as [x|err1] eqn:E1; cbn [bind].
    + assert (forall err', recalculate ln euler order eval ds = Err err' -> caught err' = true) as HC.
      { intros err' Er. rewrite Er in HO. destruct (caught err'); [done|]. discriminate HO. }
      destruct (mapR _ data) as [l|err2] eqn:El; cbn [bind] in IH |- *.
      * split; [done|]. intros ([|d pre] & ds1 & post & E & Hr & Hc & HP).
        -- injection E as <- <-. apply HC in Hr. congruence.
        -- injection E as <- ->. apply Forall_cons in HP as [_ HP]. discriminate (proj2 IH). eauto 10.
      * split.
        -- intros [= <-]. destruct (proj1 IH eq_refl) as (pre & ds1 & post & -> & ? & ? & ?). exists (ds :: pre), ds1, post.
           split_and!; [done..|]. by constructor.
        -- intros ([|d pre] & ds1 & post & E & Hr & Hc & HP).
           ++ injection E as <- <-. apply HC in Hr. congruence.
           ++ injection E as <- ->. apply Forall_cons in HP as [_ HP]. apply IH. eauto 10.
    + destruct (recalculate ln euler order eval ds) as [d|err'] eqn:Er; [by destruct HO|].
      destruct (caught err') eqn:Ec; [by destruct HO|]. injection HO as ->. split.
      * intros [= <-]. exists [], ds, data. split_and!; [done..|constructor].
      * intros ([|d pre] & ds1 & post & E & Hr & Hc & HP).
        -- injection E as <- <-. congruence.
        -- injection E as <- ->. apply Forall_cons in HP as [HP _]. specialize (HP _ Er). congruence.
Qed.


(** ** Mandatory properties *)
Lemma missing_spec e : StronglySorted (fun a b => str_leb a b = true) (missing_properties e) /\ NoDup (missing_properties e) /\
  forall n, n ∈ missing_properties e <-> n ∈ mandatory /\ lacks n e.
Proof.
  unfold missing_properties. split; [apply isort_sorted; [apply str_leb_total|apply str_leb_trans]|].
  assert (filterb (fun n => negb (existsb (fun p => p_name p =? n)%string (e_props e))) MANDATORY = filter (fun n => lacks n e) mandatory) as ->.
  { apply filterb_filter. intros n _. unfold lacks. case_bool_decide as Hn.
    - apply negb_true_iff, not_true_iff_false. intros H. apply Hn. apply existsb_exists in H as (p & Hp & H). apply String.eqb_eq in H as <-.
      apply elem_of_list_fmap_1. by apply elem_of_list_In.
    - apply negb_false_iff. apply elem_of_list_fmap in Hn as (p & -> & Hp). apply existsb_exists. exists p.
      split; [by apply elem_of_list_In|]. by apply String.eqb_eq. }
  split.
  - rewrite isort_perm. apply NoDup_filter. by apply (bool_decide_unpack _).
  - intros n. rewrite elem_of_isort, elem_of_list_filter. tauto.
Qed.
Lemma missing_nil e : missing_properties e = [] <-> ~ Exists (fun n => lacks n e) mandatory.
Proof.
  destruct (missing_spec e) as (_ & _ & H). split.
  - intros E HE. apply Exists_exists in HE as (n & Hn & Hl). assert (n ∈ missing_properties e) as Hi by by apply H. rewrite E in Hi. by apply elem_of_nil in Hi.
  - intros HE. destruct (missing_properties e) as [|n l]; [done|]. exfalso. apply HE. apply Exists_exists. exists n. apply H. left.
Qed.
Lemma mandatory_spec data : 
  Forall2 (fun p r => exists names,
      r = [Txt (d_name p.1); Txt (e_name p.2); Txt (String.concat "; " names)] /\
      StronglySorted (fun a b => str_leb a b = true) names /\ NoDup names /\
      forall n, n ∈ names <-> n ∈ mandatory /\ lacks n p.2)
    (filter (fun p => incomplete p.2) (flows data)) (mandatory_rows data).
Proof.
  unfold flows, mandatory_rows, each. induction data as [|ds data IH]; [constructor|]. cbn [map concat].
  rewrite filter_app. apply Forall2_app; [|exact IH]. clear IH. induction (d_exchanges ds) as [|e es IH]; [constructor|].
  cbn [map concat]. rewrite filter_cons.
  pose proof (missing_nil e) as Hm. pose proof (missing_spec e) as Hs.
  destruct (decide (incomplete (ds, e).2)) as [Hi|Hi]; cbn [snd] in Hi; unfold incomplete in Hi.
  - destruct Hi as [Hp Hx]. destruct (e_props e) as [|p ps] eqn:Ep; [done|].
    destruct (missing_properties e) as [|n l] eqn:El; [exfalso; by apply Hm|].
    cbn [app]. constructor; [|exact IH]. exists (n :: l). done.
  - destruct (e_props e) as [|p ps] eqn:Ep; [exact IH|].
    destruct (missing_properties e) as [|n l] eqn:El; [exact IH|]. exfalso. apply Hi. split; [done|].
    destruct (decide (Exists (fun n => lacks n e) mandatory)) as [Hd|Hd]; [done|]. apply Hm in Hd. done.
Qed.

(** ** Technology levels *)
Lemma has_level_true level group : has_level level group = true <-> exists ds, ds ∈ group /\ d_tech ds = level.
Proof.
  unfold has_level. rewrite existsb_exists. split; intros (ds & H1 & H2); exists ds; rewrite ?elem_of_list_In, ?String.eqb_eq in *; done.
Qed.
Lemma typed_transforming ds n : typed_refprod [Transforming] ds = Ok (Some n) <-> supplies n ds.
Proof.
  unfold typed_refprod, supplies. case_bool_decide as Hd.
  - apply elem_of_list_singleton in Hd. unfold refprod. destruct (d_refprod ds) as [rp|]; cbn; split.
    + by intros [= ->].
    + by intros [_ [= ->]].
    + done.
    + by intros [_ ?].
  - split; [done|]. intros [Ht _]. exfalso. apply Hd. rewrite Ht. left.
Qed.
Lemma conflict_spec data rows : conflict_rows data = Ok rows ->
  NoDup rows /\
  forall r, r ∈ rows <-> exists n, r = [Txt n; count_cell (length (filter (supplies n) data))] /\
     Exists (fun ds => supplies n ds /\ d_tech ds = "undefined"%string) data /\
     Exists (fun ds => supplies n ds /\ d_tech ds = "current"%string) data.
Proof.
  unfold conflict_rows. intros H. apply bind_Ok in H as (ks & Hk & H). apply Ok_inj in H as <-.
  apply keyed_Ok in Hk as (_ & Hk & Hm). pose proof (groupby_spec ks) as (Hnd & _ & Hg).
  assert (forall g, g ∈ groupby ks -> map snd g.2 = filter (supplies g.1) data) as HE.
  { intros [k xs] Hi. apply Hg in Hi as [_ ->]. cbn [fst snd]. rewrite Hm, members_snd. apply list_filter_iff. intros ds.
    rewrite <- typed_transforming. unfold key_of. destruct (typed_refprod [Transforming] ds) as [o|]; split; intros E; congruence. }
  assert (forall n level group, group = filter (supplies n) data ->
    (has_level level group = true <-> Exists (fun ds => supplies n ds /\ d_tech ds = level) data)) as HL.
  { intros n level group ->. rewrite has_level_true, Exists_exists. split; intros (ds & H1 & H2).
    - apply elem_of_list_filter in H1 as [? ?]. by exists ds.
    - exists ds. rewrite elem_of_list_filter. tauto. }
  split.
  - unfold each. clear Hg. revert Hnd HE. generalize (groupby ks) as gs. clear -HL. induction gs as [|g gs IH]; intros Hnd HE; [constructor|].
    cbn [map concat] in *. apply NoDup_cons in Hnd as [Hn Hnd]. apply NoDup_app. split_and!.
    + destruct (_ && _); [|constructor]. apply NoDup_singleton.
    + intros r Hr Hr'. destruct (_ && _) in Hr; [|by apply elem_of_nil in Hr]. apply elem_of_list_singleton in Hr as ->.
      apply in_concat' in Hr' as (l & Hl & Hg). apply elem_of_list_fmap in Hg as (g' & -> & Hg').
      destruct (_ && _) in Hl; [|by apply elem_of_nil in Hl]. apply elem_of_list_singleton in Hl. injection Hl as E _. apply Hn. rewrite E. by apply elem_of_list_fmap_1.
    + apply IH; [done|]. intros g' Hg'. apply HE. by right.
  - intros r. unfold each. rewrite in_concat'. split.
    + intros (l & Hr & Hl). apply elem_of_list_fmap in Hl as (g & -> & Hi). cbn beta zeta in Hr. rewrite (HE g Hi) in Hr.
      destruct (_ && _) eqn:Eb; [|by apply elem_of_nil in Hr]. apply elem_of_list_singleton in Hr as ->. apply andb_true_iff in Eb as [E1 E2].
      exists g.1. split; [done|]. split; by eapply HL.
    + intros (n & -> & H1 & H2). exists [[Txt n; count_cell (length (filter (supplies n) data))]]. split; [left|].
      apply elem_of_list_fmap. exists (n, with_key n ks).
      assert ((n, with_key n ks) ∈ groupby ks) as Hi.
      { apply Hg. split; [|done]. apply Hk. apply Exists_exists in H1 as (ds & ? & ? & _). exists ds. split; [done|]. by apply typed_transforming. }
      split; [|exact Hi]. cbn beta zeta. rewrite (HE _ Hi). cbn [fst].
      apply (HL n _ _ eq_refl) in H1, H2. by rewrite H1, H2.
Qed.

(** ** Recycling into recyclables *)
Lemma recycling_2_spec ln ds outs : recycling_2_allocation ln ds = Ok outs ->
  exists rp es,
    filter is_refproduct (d_exchanges ds) = [rp] /\
    Forall2 squared (d_exchanges ds) es /\
    filter alloc_output es = map sold (filter saleable (d_exchanges ds)) /\
    exists fs, Qcsum fs = 1%Qc /\
      Forall3 (fun p f out => economic_share (map sold (filter saleable (d_exchanges ds))) p f /\
                              single_output_of (set_d_exchanges es ds) p f out)
        (map sold (filter saleable (d_exchanges ds))) fs outs.
Proof.
  unfold recycling_2_allocation. intros H. apply bind_Ok in H as (rp & Hrp & H). apply bind_Ok in H as (ds' & Hf & H).
  apply get_single_ok in Hrp. apply flip_reference_spec in Hf as (es & -> & HF).
  cbn [d_exchanges set_d_exchanges] in H.
  exists rp, (map promote_recyclable es). split; [exact Hrp|].
  assert (forall e e', turned_into_input e e' -> squared e (promote_recyclable e') /\
    (alloc_output (promote_recyclable e') <-> saleable e) /\ (saleable e -> promote_recyclable e' = sold e)) as HT.
  { clear. intros e e' HT. unfold squared, promote_recyclable, sold. destruct HT as [[Hn ->]|[Hr [Ha Hs]]].
    - destruct (decide (recyclable_byproduct e)) as [[Ht Hc]|Hx].
      + rewrite !bool_decide_true by done. cbn [andb]. split; [right; left; done|]. split; [|done].
        split; intros _; [right; by split|left]. by destruct e.
      + assert (bool_decide (e_class e = Some Recyclable) && bool_decide (e_type e = Byproduct) = false) as ->.
        { apply andb_false_iff. destruct (decide (e_class e = Some Recyclable)); [right|left]; apply bool_decide_eq_false; [|done]. intros ?. by apply Hx. }
        split; [right; right; done|]. split; [|done]. unfold alloc_output, saleable. tauto.
    - assert (e_type e' = FromTechnosphere) as Ht.
      { destruct Hs as (_ & _ & _ & E & _). rewrite E. by destruct e. }
      rewrite (bool_decide_false (e_type e' = Byproduct)) by congruence. rewrite andb_false_r.
      assert (~ saleable e) as Hs'. { unfold is_refproduct in Hr. intros [[? _]|[? _]]; congruence. }
      split; [left; by split|]. split; [|done]. split; [|done]. unfold alloc_output, is_refproduct, alloc_byproduct. intros [|[? _]]; congruence. }
  assert (filter alloc_output (map promote_recyclable es) = map sold (filter saleable (d_exchanges ds))) as Hal.
  { clear -HF HT. induction HF as [|e e' l l' He _ IH]; [done|]. cbn [map]. rewrite !filter_cons, IH. destruct (HT _ _ He) as (_ & H1 & H2).
    destruct (decide (saleable e)) as [Hs|Hs].
    - rewrite decide_True by tauto. by rewrite H2.
    - by rewrite decide_False by tauto. }
  split. { clear -HF HT. induction HF as [|e e' l l' He _ IH]; constructor; [by apply HT|exact IH]. }
  split; [exact Hal|].
  assert (set_d_exchanges (map promote_recyclable es) (set_d_exchanges es ds) = set_d_exchanges (map promote_recyclable es) ds) as E by by destruct ds.
  rewrite E in H. apply economic_allocation_spec in H as (_ & _ & _ & fs & Hs & HF3).
  cbn [d_exchanges set_d_exchanges] in HF3. rewrite Hal in HF3. by exists fs.
Qed.

Lemma missing_formulas_spec ds : missing_formulas ds = true <->
  exists e, e ∈ d_exchanges ds /\ e_type e ∈ [FromEnvironment; ToEnvironment; FromTechnosphere] /\ (e_formula e = None \/ e_formula e = Some ""%string).
Proof.
  unfold missing_formulas. rewrite negb_true_iff, <- not_true_iff_false, forallb_forall. split.
  - intros H. destruct (decide (Exists (fun e => e_type e ∈ [FromEnvironment; ToEnvironment; FromTechnosphere] /\
      (e_formula e = None \/ e_formula e = Some ""%string)) (d_exchanges ds))) as [HE|HN]; [by apply Exists_exists|].
    rewrite Exists_exists in HN. exfalso. apply H. intros e He. apply elem_of_list_In, filterb_In in He as [He Ht]. apply bool_decide_eq_true in Ht.
    destruct (e_formula e) as [f|] eqn:Ef; [|exfalso; apply HN; by eauto].
    destruct (String.eqb_spec f ""); [|done]. subst. exfalso. apply HN. eauto 6.
  - intros (e & He & Ht & Hf) H. specialize (H e). rewrite <- elem_of_list_In, filterb_In, bool_decide_eq_true in H. specialize (H (conj He Ht)).
    by destruct Hf as [E|E]; rewrite E in H.
Qed.
Lemma recycling_2_same ln ds : Forall (fun e => ~ recyclable_byproduct e) (d_exchanges ds) ->
  forall outs, recycling_allocation ln ds = Ok outs -> recycling_2_allocation ln ds = Ok outs.
Proof.
  intros HN outs H. unfold recycling_allocation in H. apply bind_Ok in H as ([] & _ & H). apply bind_Ok in H as (rp & Hrp & H).
  unfold recycling_2_allocation. rewrite Hrp. cbn [bind]. apply bind_Ok in H as (ds' & Hf & H). rewrite Hf. cbn [bind].
  apply flip_reference_spec in Hf as (es & -> & HF). cbn [d_exchanges set_d_exchanges].
  assert (map promote_recyclable es = es) as E.
  { clear -HN HF. induction HF as [|e e' l l' He _ IH]; [done|]. apply Forall_cons in HN as [Hn HN]. cbn [map]. rewrite (IH HN). f_equal.
    unfold promote_recyclable.
    assert (e_type e' = Byproduct -> e_class e' = Some Recyclable -> False) as HX.
    { destruct He as [[_ ->]|[_ [_ Hs]]].
      - intros ? ?. by apply Hn.
      - destruct Hs as (_ & _ & _ & E & _). rewrite E. by destruct e. }
    destruct (decide (e_class e' = Some Recyclable)), (decide (e_type e' = Byproduct)); [exfalso; by apply HX|..].
    all: by rewrite ?(bool_decide_false (e_class e' = _)), ?(bool_decide_false (e_type e' = _)), ?andb_false_r by done. }
  rewrite E. assert (set_d_exchanges es (set_d_exchanges es ds) = set_d_exchanges es ds) as -> by by destruct ds. exact H.
Qed.
Lemma caught_spec err : caught err = true <-> err ∈ [ParameterizationError; ZeroDivisionError; TypeError].
Proof. rewrite !elem_of_cons, elem_of_nil. destruct err; cbn; split; intros; naive_solver. Qed.
Lemma recalculate_all_fails' ln euler order eval data err :
  Forall (fun ds => d_refprod ds <> None) data ->
  (recalculate_all_parameterized_datasets ln euler order eval data = Err err <->
   exists pre ds post, data = pre ++ ds :: post /\ recalculate ln euler order eval ds = Err err /\
     err ∉ [ParameterizationError; ZeroDivisionError; TypeError] /\
     Forall (fun ds => forall err', recalculate ln euler order eval ds = Err err' ->
               err' ∈ [ParameterizationError; ZeroDivisionError; TypeError]) pre).
Proof.
  intros H. rewrite recalculate_all_fails by done. f_equiv. intros pre. f_equiv. intros ds. f_equiv. intros post.
  rewrite <- caught_spec, not_true_iff_false. f_equiv. f_equiv. f_equiv. apply Forall_iff. intros d. split; intros HX err' He; apply caught_spec; eauto.
Qed.
Lemma recalculate_all_spec' ln euler order eval data data' rows :
  recalculate_all_parameterized_datasets ln euler order eval data = Ok (data', rows) ->
  Forall2 (fun ds ds' => recalculate ln euler order eval ds = Ok ds' \/
      exists err, recalculate ln euler order eval ds = Err err /\
        err ∈ [ParameterizationError; ZeroDivisionError; TypeError] /\
        (ds' = ds \/ exists m, environment order eval ds = Ok m /\ half_recalculated eval m ds ds')) data data' /\
  rows = map (fun ds => [Txt (d_name ds); Txt (default ""%string (d_refprod ds)); Txt (d_location ds)])
           (filter (fun ds => is_ok (recalculate ln euler order eval ds) = false) data).
Proof.
  intros H. apply recalculate_all_spec in H as [H ->]. split; [|done]. eapply Forall2_impl; [exact H|]. cbn beta.
  intros ds ds' [?|(err & ? & ? & ?)]; [by left|right]. exists err. split_and!; [done|by apply caught_spec|done].
Qed.
