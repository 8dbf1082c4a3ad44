(** Proofs for C67-C69, continued: exchanges, datasets, directories. *)
From Verif Require Import Base Types Strings Formulas Schema Extraction Spec_Extraction Utils_proofs Extraction_proofs.
From Verif Require Allocation2_proofs.

Section extraction_proofs.
Context (pyfloat : string -> result Qc) (pyint : string -> result Z).

Definition conditional (ty0 ty : string) (link : option string) (a : Qc) : bool :=
  bool_decide (link <> None) && (ty0 =? "market activity")%string && (ty =? "byproduct")%string && Qcltb a 0.
Lemma extract_exchange_Ok ty0 x v : extract_exchange pyfloat pyint ty0 x = Ok v <->
  exists n t a ty cl ps c s pv u cd,
    text_of ["name"%string] x = Ok n /\ text_of ["unitName"%string] x = Ok t /\ float_of pyfloat (attr "amount" x) = Ok a /\
    exchange_type x = Ok ty /\ byproduct_classification x = Ok cl /\
    mapR (extract_property pyfloat pyint) (filter (fun y => x_tag y = "property"%string) (x_kids x)) = Ok ps /\
    (if str_contains "environment" ty then exists co su, text_of ["compartment"; "compartment"]%string x = Ok co /\
        text_of ["compartment"; "subcompartment"]%string x = Ok su /\ c = Some (of_text co) /\ s = Some (of_text su)
     else c = None /\ s = None) /\
    (if ((ty =? "reference product") || (ty =? "byproduct"))%string
     then exists w, extract_production_volume pyfloat pyint x = Ok w /\ pv = Some w else pv = None) /\
    extract_optional_uncertainty pyfloat pyint "uncertainty" x = Ok u /\
    cd = (if str_contains "environment" ty then None
          else Some (VBool (conditional ty0 ty (nonempty (attr "activityLinkId" x)) a))) /\
    v = VDict (exc_dict (attr "id" x) (x_tag x) n t a ty (nonempty (attr "activityLinkId" x)) cl
          (trimmed (attr "variableName" x)) (trimmed (attr "mathematicalRelation" x)) ps c s pv u cd).
Proof.
  unfold extract_exchange. rewrite filterb_tags. cbv zeta. split.
  - intros (n & Hn & H)%bind_Ok. apply bind_Ok in H as (t & Ht & H). apply bind_Ok in H as (a & Ha & H).
    apply bind_Ok in H as (ty & Hty & H). apply bind_Ok in H as (cl & Hcl & H). apply bind_Ok in H as (ps & Hps & H).
    apply bind_Ok in H as (cs & Hcs & H). apply bind_Ok in H as (pv & Hpv & H). apply bind_Ok in H as (u & Hu & H).
    apply Ok_inj in H as <-.
    assert (if ((ty =? "reference product") || (ty =? "byproduct"))%string
     then exists w, extract_production_volume pyfloat pyint x = Ok w /\ pv = Some w else pv = None) as Hpv'.
    { destruct ((ty =? "reference product") || (ty =? "byproduct"))%string.
      - apply bind_Ok in Hpv as (w & Hw & <-%Ok_inj). by exists w.
      - by apply Ok_inj in Hpv as <-. }
    destruct (str_contains "environment" ty) eqn:Ee.
    + apply bind_Ok in Hcs as (co & Hco & Hcs). apply bind_Ok in Hcs as (su & Hsu & <-%Ok_inj).
      exists n, t, a, ty, cl, ps, (Some (of_text co)), (Some (of_text su)), pv, u, None. rewrite Ee.
      repeat (split; [done|]). split; [by exists co, su|]. repeat (split; [done|]). done.
    + apply Ok_inj in Hcs as <-.
      exists n, t, a, ty, cl, ps, None, None, pv, u, (Some (VBool (conditional ty0 ty (nonempty (attr "activityLinkId" x)) a))).
      rewrite Ee. repeat (split; [done|]). done.
  - intros (n & t & a & ty & cl & ps & c & s & pv & u & cd & Hn & Ht & Ha & Hty & Hcl & Hps & Hcs & Hpv & Hu & -> & ->).
    rewrite Hn. cbn [bind]. rewrite Ht. cbn [bind]. rewrite Ha. cbn [bind]. rewrite Hty. cbn [bind]. rewrite Hcl. cbn [bind].
    rewrite Hps. cbn [bind].
    assert ((if ((ty =? "reference product") || (ty =? "byproduct"))%string
       then let? v := extract_production_volume pyfloat pyint x in Ok (Some v) else Ok None) = Ok pv) as Epv.
    { destruct ((ty =? "reference product") || (ty =? "byproduct"))%string.
      - destruct Hpv as (w & Hw & ->). by rewrite Hw.
      - by rewrite Hpv. }
    destruct (str_contains "environment" ty) eqn:Ee.
    + destruct Hcs as (co & su & Hco & Hsu & -> & ->). rewrite Hco. cbn [bind]. rewrite Hsu. cbn [bind].
      rewrite Epv. cbn [bind]. rewrite Hu. reflexivity.
    + destruct Hcs as [-> ->]. cbn [bind]. rewrite Epv. cbn [bind]. rewrite Hu. reflexivity.
Qed.

Lemma market_type ty0 : (ty0 =? "market activity")%string = true <-> read_dtype ty0 = MarketActivity.
Proof.
  unfold read_dtype. destruct (String.eqb_spec ty0 "transforming activity") as [->|]; [done|].
  destruct (String.eqb_spec ty0 "market activity") as [->|]; [done|].
  destruct (String.eqb_spec ty0 "market group") as [->|]; done.
Qed.
Lemma conditional_iff ty0 ty link a : conditional ty0 ty link a = true <->
  link <> None /\ read_dtype ty0 = MarketActivity /\ ty = "byproduct"%string /\ (a < 0)%Qc.
Proof.
  unfold conditional, Qcltb. rewrite !andb_true_iff, !bool_decide_eq_true, market_type, String.eqb_eq. tauto.
Qed.
Lemma label_conforms o : optc valid_byproducts (option_map VStr (option_map label o)) = true.
Proof. by destruct o as [[]|]. Qed.
Lemma label_read o : optr (fun v => as_str v ≫= read_class) (option_map VStr (option_map label o)) = Some o.
Proof. by destruct o as [[]|]. Qed.

Definition exchange_schema : schema := SAny [elementary_exchange_schema; activity_exchange_schema].
Lemma exchange_conforms v : conforms exchange_schema v =
  conforms elementary_exchange_schema v || conforms activity_exchange_schema v.
Proof. unfold exchange_schema. change (conforms (SAny ?ss) ?v) with (existsb (fun s => conforms s v) ss). cbn [existsb]. by rewrite orb_false_r. Qed.

Lemma is_some_Some {A} (o : option A) : is_some o = true <-> is_Some o.
Proof. destruct o; split; [by eexists|done|done|by intros []]. Qed.
Lemma is_some_None {A} (o : option A) : is_some o = false <-> o = None.
Proof. by destruct o. Qed.
(** What conforming amounts to, by kind. *)
Lemma conforms_env i tg n t a ty lk cl w f ps c s pv u :
  (ty = "from environment" \/ ty = "to environment")%string ->
  conforms exchange_schema (VDict (exc_dict i tg n t a ty lk cl w f ps c s pv u None)) = true <->
  is_Some i /\ tg = "elementaryExchange"%string /\ is_Some n /\ is_Some t /\ lk = None /\ cl = None /\
  forallb (conforms valid_property) ps = true /\ (is_Some c /\ optc SStr c = true) /\
  (is_Some s /\ optc SStr s = true) /\ pv = None /\ optc valid_uncertainty u = true.
Proof.
  intros Hty. rewrite exchange_conforms, elementary_parts, activity_parts.
  assert (conforms (any_of ["from environment"; "to environment"]%string) (VStr ty) = true) as -> by (by destruct Hty as [->| ->]).
  assert (conforms (any_of ["from technosphere"; "reference product"; "byproduct"; "dropped product"]%string) (VStr ty) = false) as ->
    by (by destruct Hty as [->| ->]).
  cbn [is_some negb]. rewrite ?andb_false_l, ?andb_false_r, ?orb_false_r, ?andb_true_l, ?andb_true_r.
  rewrite !andb_true_iff, !negb_true_iff, String.eqb_eq.
  rewrite !is_some_Some, !is_some_None. intuition congruence.
Qed.
Lemma conforms_act i tg n t a ty lk cl w f ps c s pv u b :
  (ty = "from technosphere" \/ ty = "reference product" \/ ty = "byproduct")%string ->
  conforms exchange_schema (VDict (exc_dict i tg n t a ty lk (option_map label cl) w f ps c s pv u (Some (VBool b)))) = true <->
  is_Some i /\ tg = "intermediateExchange"%string /\ is_Some n /\ is_Some t /\
  forallb (conforms valid_property) ps = true /\ c = None /\ s = None /\
  optc valid_production_volume pv = true /\ optc valid_uncertainty u = true.
Proof.
  intros Hty. rewrite exchange_conforms, elementary_parts, activity_parts, label_conforms.
  assert (conforms (any_of ["from environment"; "to environment"]%string) (VStr ty) = false) as -> by (by destruct Hty as [->|[->| ->]]).
  assert (conforms (any_of ["from technosphere"; "reference product"; "byproduct"; "dropped product"]%string) (VStr ty) = true) as ->
    by (by destruct Hty as [->|[->| ->]]).
  change (optc SBool (Some (VBool b))) with true.
  cbn [is_some negb]. rewrite ?andb_false_l, ?andb_false_r, ?orb_false_l, ?andb_true_l, ?andb_true_r.
  rewrite !andb_true_iff, !negb_true_iff, String.eqb_eq.
  rewrite !is_some_Some, !is_some_None. intuition congruence.
Qed.
(** Other groups never conform. *)
Lemma conforms_kind i tg n t a ty lk cl w f ps c s pv u cd :
  conforms exchange_schema (VDict (exc_dict i tg n t a ty lk cl w f ps c s pv u cd)) = true -> ty <> "dropped product"%string ->
  ty ∈ kinds.
Proof.
  rewrite exchange_conforms, elementary_parts, activity_parts, orb_true_iff, !andb_true_iff. intros H Hd.
  unfold kinds. rewrite !elem_of_cons.
  destruct H as [(_ & _ & _ & _ & H & _)|(_ & _ & _ & _ & H & _)];
    unfold any_of in H; change (conforms (SAny ?ss) ?v) with (existsb (fun s => conforms s v) ss) in H; cbn [map existsb] in H;
    change (conforms (SLit ?a) (VStr ?b)) with (a =? b)%string in H; rewrite !orb_true_iff, !String.eqb_eq in H; intuition congruence.
Qed.

Definition properties_iff := list_iff (property_said pyfloat pyint) (extract_property pyfloat pyint)
  (conforms valid_property) read_property (property_iff pyfloat pyint).
Theorem exchange_iff ty0 x e : exchange_said pyfloat pyint (read_dtype ty0) x e <->
  exists v, extract_exchange pyfloat pyint ty0 x = Ok v /\ conforms exchange_schema v = true /\ read_exchange v = Some e.
Proof.
  unfold exchange_said.
  rewrite number_float, filled_nonempty, !cleaned_trimmed, properties_iff, uncertainty_in_iff, class_iff, kind_iff.
  setoid_rewrite extract_exchange_Ok. split.
  - intros (Hi0 & Hi & Hn%text_of_Some & Ht%text_of_Some & Ha & (ty & Hty & Hk & Ek) & Hlk & Hcl & Hw & Hf & (ps & Hps & Hpc & Hpr) &
      (u & Hu & Huc & Hur) & Hpv & Henv & Hact & Htag & R1 & R2 & R3 & R4 & R5 & R6).
    destruct (e_id e) as [i|] eqn:Ei; [|done].
    unfold kinds in Hk. rewrite !elem_of_cons, elem_of_nil in Hk.
    destruct (decide (environmental (e_type e))) as [He|He].
    + destruct (Henv He) as (T1 & T2 & T3 & T4 & T5 & T6 & T7 & T8).
      destruct (e_compartment e) as [co|] eqn:Eco; [|done]. destruct (e_subcompartment e) as [su|] eqn:Esu; [|done].
      assert (ty = "from environment" \/ ty = "to environment")%string as Ht2.
      { unfold environmental in He. rewrite Ek in He. destruct Hk as [->|[->|[->|[->|[->|[]]]]]]; try tauto; by destruct He. }
      assert (str_contains "environment" ty = true) as Es by (by destruct Ht2 as [->| ->]).
      assert (((ty =? "reference product") || (ty =? "byproduct"))%string = false) as Ep by (by destruct Ht2 as [->| ->]).
      assert (e_pv e = None) as Hpv'. { rewrite Ek in Hpv. by destruct Ht2 as [->| ->]. }
      eexists. split; [|split].
      * eexists _, _, _, ty, _, ps, (Some (of_text (Some co))), (Some (of_text (Some su))), None, u, None.
        rewrite Es, Ep. do 6 (split; [done|]). split; [|repeat (split; [done|]); done].
        exists (Some co), (Some su). split; [by apply text_of_Some|]. split; [by apply text_of_Some|done].
      * apply conforms_env; [done|]. rewrite Hi, <- Hlk, T2, T3. cbn. repeat (split; [by eauto|]). done.
      * rewrite read_exchange_parts, label_read, Hi, Hpr, Hur. cbn.
        rewrite <- Hlk, <- Hw, <- Hf, <- Ek. destruct e; cbn in *. by subst.
    + destruct (Hact He) as (T1 & T2 & T3 & b & Hb & Hbi).
      assert (ty = "from technosphere" \/ ty = "reference product" \/ ty = "byproduct")%string as Ht2.
      { unfold environmental in He. rewrite Ek in He. destruct Hk as [->|[->|[->|[->|[->|[]]]]]]; tauto. }
      assert (str_contains "environment" ty = false) as Es by (by destruct Ht2 as [->|[->| ->]]).
      assert (b = conditional ty0 ty (nonempty (attr "activityLinkId" x)) (e_amount e)) as Eb.
      { apply eq_true_iff_eq. rewrite conditional_iff, Hbi, <- Hlk, Ek.
        destruct Ht2 as [->|[->| ->]]; cbn; intuition congruence. }
      assert (exists pv, (if ((ty =? "reference product") || (ty =? "byproduct"))%string
        then exists w, extract_production_volume pyfloat pyint x = Ok w /\ pv = Some w else pv = None) /\
        optc valid_production_volume pv = true /\ optr read_volume pv = Some (e_pv e)) as (pv & Hp1 & Hp2 & Hp3).
      { rewrite Ek in Hpv. destruct Ht2 as [->|[->| ->]]; cbn in Hpv |- *.
        - exists None. by rewrite Hpv.
        - destruct Hpv as (w & -> & (v & Hv & Hc & Hr)%volume_iff). exists (Some v). cbn. rewrite Hr. by eauto.
        - destruct Hpv as (w & -> & (v & Hv & Hc & Hr)%volume_iff). exists (Some v). cbn. rewrite Hr. by eauto. }
      eexists. split; [|split].
      * eexists _, _, _, ty, _, ps, None, None, pv, u, _. rewrite Es. repeat (split; [done|]). done.
      * apply conforms_act; [done|]. rewrite Hi. cbn. repeat (split; [by eauto|]). done.
      * rewrite read_exchange_parts, label_read, Hi, Hpr, Hur, Hp3. cbn.
        rewrite <- Hlk, <- Hw, <- Hf, <- Ek. rewrite Hlk, <- Eb. rewrite <- Hlk. destruct e; cbn in *. by subst.
  - intros (v & (n & t & a & ty & cl & ps & c & s & pv & u & cd & Hn & Ht & Ha & Hty & Hcl & Hps & Hcs & Hpv & Hu & -> & ->) & Hc & Hr).
    destruct (class_some _ _ Hcl) as [o ->].
    assert (ty ∈ kinds) as Hk.
    { eapply conforms_kind; [exact Hc|]. intros ->. clear -Hty. unfold exchange_type in Hty.
      destruct (kid "inputGroup" x) as [g|].
      - destruct (x_text g) as [z|]; [|done]. cbn [lookup_table] in Hty. unfold INPUT_GROUPS in Hty. cbn [assoc] in Hty.
        by repeat destruct (z =? _)%string.
      - apply bind_Ok in Hty as (g & _ & Hty). destruct (x_text g) as [z|]; [|done]. cbn [lookup_table] in Hty.
        unfold OUTPUT_GROUPS in Hty. cbn [assoc] in Hty. by repeat destruct (z =? _)%string. }
    rewrite read_exchange_parts, label_read in Hr.
    pose proof Hk as Hk2. unfold kinds in Hk2. rewrite !elem_of_cons, elem_of_nil in Hk2.
    assert ((ty = "from environment" \/ ty = "to environment") \/
      (ty = "from technosphere" \/ ty = "reference product" \/ ty = "byproduct"))%string as [Ht2|Ht2] by tauto.
    + assert (str_contains "environment" ty = true) as Es by (by destruct Ht2 as [->| ->]). rewrite Es in Hcs, Hc, Hr.
      apply conforms_env in Hc as ([i Hi] & T1 & [n' ->] & [t' ->] & Elk & Ecl & Hpc & [C1 C2] & [S1 S2] & -> & Huc); [|done].
      destruct Hcs as (co & su & Hco & Hsu & -> & ->). cbn [optc] in C2, S2. rewrite conforms_text in C2, S2.
      destruct co as [co|]; [|done]. destruct su as [su|]; [|done]. rewrite Hi in Hr. cbn in Hr.
      destruct (mapM read_property ps) as [props|] eqn:Hpr; [|done]. cbn in Hr.
      destruct (optr read_uncertainty u) as [unc|] eqn:Hur; [|done]. cbn in Hr. injection Hr as <-. cbn.
      destruct o; [done|].
      apply text_of_Some in Hn. apply text_of_Some in Ht. apply text_of_Some in Hco. apply text_of_Some in Hsu.
      split; [done|]. split; [done|]. split; [done|]. split; [done|]. split; [done|].
      split; [by exists ty|]. split; [done|]. split; [done|]. split; [done|]. split; [done|].
      split; [by exists ps|]. split; [by exists u|]. split; [by destruct Ht2 as [->| ->]|].
      split; [done|]. split; [|done]. intros Hne. exfalso. apply Hne. unfold environmental. destruct Ht2 as [->| ->]; [by left|by right].
    + assert (str_contains "environment" ty = false) as Es by (by destruct Ht2 as [->|[->| ->]]). rewrite Es in Hcs, Hc, Hr.
      destruct Hcs as [-> ->].
      apply conforms_act in Hc as ([i Hi] & T1 & [n' ->] & [t' ->] & Hpc & _ & _ & Hvc & Huc); [|done].
      rewrite Hi in Hr. cbn in Hr. destruct (optr read_volume pv) as [vol|] eqn:Hvr; [|done]. cbn in Hr.
      destruct (mapM read_property ps) as [props|] eqn:Hpr; [|done]. cbn in Hr.
      destruct (optr read_uncertainty u) as [unc|] eqn:Hur; [|done]. cbn in Hr. injection Hr as <-. cbn.
      apply text_of_Some in Hn. apply text_of_Some in Ht.
      split; [done|]. split; [done|]. split; [done|]. split; [done|]. split; [done|].
      split; [by exists ty|]. split; [done|]. split; [done|]. split; [done|]. split; [done|].
      split; [by exists ps|]. split; [by exists u|].
      split.
      { assert (forall w, extract_production_volume pyfloat pyint x = Ok w -> pv = Some w ->
          exists v, vol = Some v /\ volume_said pyfloat pyint x v) as Hvol.
        { intros w Hw ->. cbn in Hvr, Hvc. destruct (read_volume w) as [v|] eqn:Er; [|done]. cbn in Hvr. injection Hvr as <-.
          exists v. split; [done|]. apply volume_iff. by exists w. }
        destruct Ht2 as [->|[->| ->]]; cbn in Hpv |- *.
        - subst pv. cbn in Hvr. by injection Hvr as <-.
        - destruct Hpv as (w & Hw & ->). by eapply Hvol.
        - destruct Hpv as (w & Hw & ->). by eapply Hvol. }
      split. { unfold environmental. intros [E|E]; by destruct Ht2 as [->|[->| ->]]. }
      split; [|done]. intros _. split; [done|]. split; [done|]. split; [done|]. eexists. split; [done|].
      rewrite conditional_iff. destruct Ht2 as [->|[->| ->]]; cbn; intuition congruence.
Qed.

(** ** Datasets *)
Lemma isic_from_iff l s : isic_from l = Ok (Some s) <->
  exists pre y post, l = pre ++ y :: post /\
    Forall (fun z => str_contains "classification" (x_tag z) = true ->
       exists t, text_at ["classificationSystem"%string] z = Some t /\ str_contains "ISIC" t = false) pre /\
    str_contains "classification" (x_tag y) = true /\
    (exists t, text_at ["classificationSystem"%string] y = Some t /\ str_contains "ISIC" t = true) /\
    text_at ["classificationValue"%string] y = Some s.
Proof.
  induction l as [|c l IH]; cbn [isic_from].
  - split; [done|]. intros (pre & y & post & E & _). by destruct pre.
  - split.
    + destruct (str_contains "classification" (x_tag c)) eqn:Ec.
      * intros (sy & Hs & (t & Ht & H)%bind_Ok)%bind_Ok. destruct sy as [sy|]; [|done]. apply Ok_inj in Ht as ->.
        apply text_of_Some in Hs. destruct (str_contains "ISIC" t) eqn:Et.
        -- apply text_of_Some in H. exists [], c, l. split; [done|]. split; [constructor|]. split; [done|].
           split; [by exists t|done].
        -- apply IH in H as (pre & y & post & -> & Hp & H). exists (c :: pre), y, post. split; [done|].
           split; [|done]. constructor; [|done]. intros _. by exists t.
      * intros (pre & y & post & -> & Hp & H)%IH. exists (c :: pre), y, post. split; [done|].
        split; [|done]. constructor; [congruence|done].
    + intros (pre & y & post & E & Hp & Hy & (t & Ht & Hi) & Hv). destruct pre as [|c' pre]; cbn in E; injection E as -> ->.
      * rewrite Hy. apply text_of_Some in Ht. rewrite Ht. cbn [bind from_option]. rewrite Hi. by apply text_of_Some.
      * apply Forall_cons in Hp as [Hc Hp].
        assert (isic_from (pre ++ y :: post) = Ok (Some s)) as E2.
        { apply IH. exists pre, y, post. split; [done|]. split; [done|]. split; [done|]. split; [by exists t|done]. }
        destruct (str_contains "classification" (x_tag c')); [|done]. destruct (Hc eq_refl) as (t' & Ht' & Hi').
        apply text_of_Some in Ht'. rewrite Ht'. cbn [bind from_option]. by rewrite Hi'.
Qed.
Lemma isic_iff x s : isic_said x s <-> extract_isic_classification x = Ok (Some s).
Proof.
  unfold isic_said, extract_isic_classification. rewrite bind_Ok. setoid_rewrite child_Ok. split.
  - intros (desc & pre & y & post & Hd & H). exists desc. split; [done|]. apply isic_from_iff. by exists pre, y, post.
  - intros (desc & Hd & (pre & y & post & H)%isic_from_iff). by exists desc, pre, y, post.
Qed.
Lemma type_iff c t : type_said c t <-> exists ty, lookup_table SPECIAL_ACTIVITY_TYPE (Some c) = Ok ty /\ t = read_dtype ty.
Proof.
  unfold type_said. split.
  - intros H. repeat destruct H as [H|H]; destruct H as [-> ->]; eexists; (split; [reflexivity|done]).
  - intros (ty & H & ->). cbn [lookup_table] in H. unfold SPECIAL_ACTIVITY_TYPE in H. cbn [assoc] in H.
    repeat match type of H with context [(c =? ?n)%string] => destruct (String.eqb_spec c n) as [->|];
      [apply Ok_inj in H as <-; cbn; tauto|] end. done.
Qed.
Lemma type_conforms o ty : lookup_table SPECIAL_ACTIVITY_TYPE o = Ok ty -> conforms valid_activity_types (VStr ty) = true.
Proof.
  destruct o as [c|]; [|done]. intros H. cbn [lookup_table] in H. unfold SPECIAL_ACTIVITY_TYPE in H. cbn [assoc] in H.
  repeat match type of H with context [(c =? ?n)%string] => destruct (String.eqb_spec c n) as [->|];
    [apply Ok_inj in H as <-; by vm_compute|] end. done.
Qed.
Lemma level_iff o t : level_said o t <-> technology_level o = Ok t.
Proof.
  unfold level_said, technology_level, TECHNOLOGY_LEVEL. split.
  - intros H. repeat destruct H as [H|H];
      try (destruct H as [[->|[->| ->]] ->]; by vm_compute); destruct H as [-> ->]; by vm_compute.
  - intros H. cbn [List.find fst] in H.
    repeat match type of H with context [bool_decide (?k = o)] => destruct (decide (k = o)) as [<-|];
      [rewrite bool_decide_eq_true_2 in H by done; apply Ok_inj in H as <-; cbn; tauto|
       rewrite (bool_decide_eq_false_2 (k = o)) in H by done] end. done.
Qed.
Lemma level_conforms o t : level_said o t -> conforms valid_technology_levels (VStr t) = true.
Proof. unfold level_said. intros H. repeat destruct H as [H|H]; destruct H as [_ ->]; by vm_compute. Qed.
Lemma access_iff c t : access_said c t <-> lookup_table ACCESS_RESTRICTED (Some c) = Ok t.
Proof.
  unfold access_said. split.
  - intros H. repeat destruct H as [H|H]; destruct H as [-> ->]; by vm_compute.
  - intros H. cbn [lookup_table] in H. unfold ACCESS_RESTRICTED in H. cbn [assoc] in H.
    repeat match type of H with context [(c =? ?n)%string] => destruct (String.eqb_spec c n) as [->|];
      [apply Ok_inj in H as <-; tauto|] end. done.
Qed.
Lemma access_conforms c t : access_said c t -> conforms valid_access_restriction (VStr t) = true.
Proof. unfold access_said. intros H. repeat destruct H as [H|H]; destruct H as [_ ->]; by vm_compute. Qed.

Definition ds_dict fp i p n l ty lv s e sc ac ps au en is es : dict :=
  [("filepath", VStr fp); ("id", of_text i); ("parent", of_text p); ("name", of_text n);
   ("location", of_text l); ("type", VStr ty); ("technology level", VStr lv);
   ("start date", of_text s); ("end date", of_text e); ("economic scenario", of_text sc); ("access restricted", VStr ac);
   ("parameters", VList ps); ("dataset author", of_text au); ("data entry", of_text en);
   ("ISIC classification", of_text is); ("exchanges", VList es)]%string.
Lemma dataset_parts fp i p n l ty lv s e sc ac ps au en is es :
  conforms dataset_schema (VDict (ds_dict fp i p n l ty lv s e sc ac ps au en is es)) =
  is_some i && (is_some n && (is_some l && (conforms valid_activity_types (VStr ty) &&
  (conforms valid_technology_levels (VStr lv) && (is_some s && (is_some e && (is_some sc &&
  (conforms valid_access_restriction (VStr ac) && (forallb (conforms valid_parameter) ps && (is_some au && (is_some en &&
  (is_some is && forallb (conforms exchange_schema) es)))))))))))).
Proof.
  unfold dataset_schema. fold exchange_schema. rewrite conforms_SDict. unfold ds_dict at 1.
  rewrite !forallb_field_cons by (apply (bool_decide_unpack _); by vm_compute).
  cbn [find_field fst snd req optional String.eqb Ascii.eqb Bool.eqb negb orb andb].
  assert (forallb (fun f => negb f.1.1 || has_key f.1.2 (ds_dict fp i p n l ty lv s e sc ac ps au en is es))
    [req "exchanges" (SListOf exchange_schema); req "parameters" (SListOf valid_parameter);
     req "access restricted" valid_access_restriction; req "economic scenario" SStr; req "end date" SStr;
     req "filepath" SStr; req "id" SStr; req "parent" (SAny [SNone; SStr]); optional "code" SStr; req "location" SStr;
     req "name" SStr; req "start date" SStr; req "technology level" valid_technology_levels;
     req "type" valid_activity_types; req "dataset author" SStr; req "data entry" SStr; req "ISIC classification" SStr;
     optional "allocation method" valid_allocation_method; optional "reference product" SStr;
     optional "suppliers" SAnyList] = true) as -> by reflexivity.
  rewrite !conforms_text. change (conforms SStr (VStr fp)) with true.
  assert (conforms (SAny [SNone; SStr]) (of_text p) = true) as -> by (by destruct p).
  change (conforms (SListOf ?s) (VList ?l)) with (forallb (conforms s) l). cbn [forallb].
  rewrite ?andb_true_l, ?andb_true_r. done.
Qed.
Lemma read_dataset_parts fp i p n l ty lv s e sc ac ps au en is es :
  read_dataset (VDict (ds_dict fp i p n l ty lv s e sc ac ps au en is es)) =
  (i ← i; n ← n; l ← l; s ← s; e ← e; es ← mapM read_exchange es; ps ← mapM read_parameter ps; sc ← sc; au ← au;
   en ← en; is ← is;
   Some (mkDataset i n l (read_dtype ty) lv s e p fp es ps None None None None None ac sc au en (Some is))).
Proof.
  unfold read_dataset, need, may, ds_dict. cbn [dget String.eqb Ascii.eqb Bool.eqb mbind option_bind].
  rewrite !as_str_text. assert (as_parent (of_text p) = Some p) as -> by (by destruct p).
  destruct i, n, l, s, e; cbn; try done; destruct (mapM read_exchange es); cbn; try done.
Qed.
Lemma extract_dataset_Ok x fp v : extract_ecospold2_dataset pyfloat pyint x fp = Ok v <->
  exists act n l ty tech lv per sc pub ac flows ps ent is es,
    at_path ["activityDescription"; "activity"]%string x = Some act /\ text_of ["activityName"%string] act = Ok n /\
    text_of ["activityDescription"; "geography"; "shortname"]%string x = Ok l /\
    lookup_table SPECIAL_ACTIVITY_TYPE (attr "specialActivityType" act) = Ok ty /\
    at_path ["activityDescription"; "technology"]%string x = Some tech /\
    technology_level (attr "technologyLevel" tech) = Ok lv /\
    at_path ["activityDescription"; "timePeriod"]%string x = Some per /\
    text_of ["activityDescription"; "macroEconomicScenario"; "name"]%string x = Ok sc /\
    at_path ["administrativeInformation"; "dataGeneratorAndPublication"]%string x = Some pub /\
    lookup_table ACCESS_RESTRICTED (attr "accessRestrictedTo" pub) = Ok ac /\ kid "flowData" x = Some flows /\
    mapR (extract_parameter pyfloat pyint) (filter (fun y => str_contains "parameter" (x_tag y) = true) (x_kids flows)) = Ok ps /\
    at_path ["administrativeInformation"; "dataEntryBy"]%string x = Some ent /\
    extract_isic_classification x = Ok is /\
    mapR (extract_exchange pyfloat pyint ty) (filter (fun y => str_contains "Exchange" (x_tag y) = true) (x_kids flows)) = Ok es /\
    v = VDict (ds_dict fp (attr "id" act) (attr "parentActivityId" act) n l ty lv (attr "startDate" per) (attr "endDate" per)
          sc ac ps (attr "personName" pub) (attr "personName" ent) is es).
Proof.
  unfold extract_ecospold2_dataset. split.
  - intros (act & Hact%down_Ok & H)%bind_Ok. apply bind_Ok in H as (n & Hn & H). apply bind_Ok in H as (l & Hl & H).
    apply bind_Ok in H as (ty & Hty & H). apply bind_Ok in H as (tech & Htech%down_Ok & H). apply bind_Ok in H as (lv & Hlv & H).
    apply bind_Ok in H as (per & Hper%down_Ok & H). apply bind_Ok in H as (sc & Hsc & H).
    apply bind_Ok in H as (pub & Hpub%down_Ok & H). apply bind_Ok in H as (ac & Hac & H).
    apply bind_Ok in H as (flows & Hfl%child_Ok & H). apply bind_Ok in H as (ps & Hps & H).
    apply bind_Ok in H as (ent & Hent%down_Ok & H). apply bind_Ok in H as (is & His & H). apply bind_Ok in H as (es & Hes & H).
    rewrite filterb_contains in Hps. rewrite filterb_contains in Hes.
    apply Ok_inj in H as <-. exists act, n, l, ty, tech, lv, per, sc, pub, ac, flows, ps, ent, is, es. repeat (split; [done|]). done.
  - intros (act & n & l & ty & tech & lv & per & sc & pub & ac & flows & ps & ent & is & es & Hact%down_Ok & Hn & Hl & Hty &
      Htech%down_Ok & Hlv & Hper%down_Ok & Hsc & Hpub%down_Ok & Hac & Hfl%child_Ok & Hps & Hent%down_Ok & His & Hes & ->).
    rewrite Hact. cbn [bind]. rewrite Hn. cbn [bind]. rewrite Hl. cbn [bind]. rewrite Hty. cbn [bind]. rewrite Htech. cbn [bind].
    rewrite Hlv. cbn [bind]. rewrite Hper. cbn [bind]. rewrite Hsc. cbn [bind]. rewrite Hpub. cbn [bind]. rewrite Hac. cbn [bind].
    rewrite Hfl. cbn [bind]. rewrite !filterb_contains, Hps. cbn [bind]. rewrite Hent. cbn [bind]. rewrite His. cbn [bind].
    rewrite Hes. reflexivity.
Qed.
Lemma attr_at_Some path k x y : at_path path x = Some y -> attr_at path k x = attr k y.
Proof. unfold attr_at. by intros ->. Qed.
Lemma activity_name x act : at_path ["activityDescription"; "activity"]%string x = Some act ->
  text_at ["activityDescription"; "activity"; "activityName"]%string x = text_at ["activityName"%string] act.
Proof.
  unfold text_at. cbn [at_path]. destruct (kid "activityDescription" x) as [y|]; cbn; [|done].
  destruct (kid "activity" y) as [z|]; cbn; [|done]. by intros [= <-].
Qed.
Definition parameters_iff := list_iff (parameter_said pyfloat pyint) (extract_parameter pyfloat pyint)
  (conforms valid_parameter) read_parameter (parameter_iff pyfloat pyint).
Definition exchanges_iff ty := list_iff (exchange_said pyfloat pyint (read_dtype ty)) (extract_exchange pyfloat pyint ty)
  (conforms exchange_schema) read_exchange (exchange_iff ty).
Theorem dataset_iff x fp d : dataset_said pyfloat pyint fp x d <->
  exists v, extract_ecospold2_dataset pyfloat pyint x fp = Ok v /\ conforms dataset_schema v = true /\ read_dataset v = Some d.
Proof.
  unfold dataset_said. setoid_rewrite extract_dataset_Ok. split.
  - intros (Hfp & Hid & Hpa & Hn & Hl & (c & Hc & (ty & Hty & Ety)%type_iff) & Htech & Hlv & Hst & Hen & Hsc & (ca & Hca & Hac) &
      Hau & Hent & (is & Eis & His%isic_iff) & (flows & Hfl & (ps & Hps & Hpc & Hpr)%parameters_iff & Hes) & R1 & R2 & R3 & R4 & R5).
    rewrite Ety in Hes. apply exchanges_iff in Hes as (es & Hes & Hec & Her).
    destruct (at_path ["activityDescription"; "activity"]%string x) as [act|] eqn:Eact;
      [|unfold attr_at in Hid; by rewrite Eact in Hid].
    destruct (at_path ["activityDescription"; "technology"]%string x) as [tech|] eqn:Etech; [|done].
    destruct (at_path ["activityDescription"; "timePeriod"]%string x) as [per|] eqn:Eper;
      [|unfold attr_at in Hst; by rewrite Eper in Hst].
    destruct (at_path ["administrativeInformation"; "dataGeneratorAndPublication"]%string x) as [pub|] eqn:Epub;
      [|unfold attr_at in Hau; by rewrite Epub in Hau].
    destruct (at_path ["administrativeInformation"; "dataEntryBy"]%string x) as [ent|] eqn:Eent;
      [|unfold attr_at in Hent; by rewrite Eent in Hent].
    rewrite (attr_at_Some _ _ _ _ Eact) in Hid. rewrite (attr_at_Some _ _ _ _ Eact) in Hpa. rewrite (attr_at_Some _ _ _ _ Eact) in Hc. rewrite (attr_at_Some _ _ _ _ Etech) in Hlv.
    rewrite (attr_at_Some _ _ _ _ Eper) in Hst. rewrite (attr_at_Some _ _ _ _ Eper) in Hen. rewrite (attr_at_Some _ _ _ _ Epub) in Hca. rewrite (attr_at_Some _ _ _ _ Epub) in Hau.
    rewrite (attr_at_Some _ _ _ _ Eent) in Hent. rewrite (activity_name _ _ Eact) in Hn.
    apply text_of_Some in Hn. apply text_of_Some in Hl. apply text_of_Some in Hsc.
    eexists. split; [|split].
    + exists act, (Some (d_name d)), (Some (d_location d)), ty, tech, (d_tech d), per, (Some (d_scenario d)), pub, (d_access d), flows, ps, ent, (Some is), es.
      rewrite Hc, Hca. repeat (split; [first [done|by apply level_iff|by apply access_iff]|]). done.
    + rewrite dataset_parts, (type_conforms (Some c) ty), (level_conforms _ _ Hlv), (access_conforms _ _ Hac), Hpc, Hec by done.
      by rewrite Hid, Hst, Hen, Hau, Hent.
    + rewrite read_dataset_parts, Hid, Hst, Hen, Hau, Hent, Hpr, Her, Hpa. cbn. rewrite <- Ety, <- Hfp, <- Eis.
      destruct d; cbn in *. by subst.
  - intros (v & (act & n & l & ty & tech & lv & per & sc & pub & ac & flows & ps & ent & is & es & Eact & Hn & Hl & Hty &
      Etech & Hlv & Eper & Hsc & Epub & Hac & Hfl & Hps & Eent & His & Hes & ->) & Hc & Hr).
    rewrite dataset_parts, !andb_true_iff, !is_some_Some in Hc.
    destruct Hc as ([i Ei] & [n' ->] & [l' ->] & _ & _ & [st Est] & [en Een] & [sc' ->] & _ & Hpc & [au Eau] & [et Eet] & [is' ->] & Hec).
    rewrite read_dataset_parts, Ei, Est, Een, Eau, Eet in Hr. cbn in Hr.
    destruct (mapM read_exchange es) as [exs|] eqn:Her; [|done]. cbn in Hr.
    destruct (mapM read_parameter ps) as [prs|] eqn:Hpr; [|done]. cbn in Hr. injection Hr as <-. cbn -[attr_at text_at at_path].
    rewrite !(fun k => attr_at_Some _ k _ _ Eact), !(fun k => attr_at_Some _ k _ _ Etech), !(fun k => attr_at_Some _ k _ _ Eper),
      !(fun k => attr_at_Some _ k _ _ Epub), !(fun k => attr_at_Some _ k _ _ Eent), (activity_name _ _ Eact), Etech.
    apply text_of_Some in Hn. apply text_of_Some in Hl. apply text_of_Some in Hsc.
    split; [done|]. split; [done|]. split; [done|]. split; [done|]. split; [done|].
    split. { destruct (attr "specialActivityType" act) as [c|]; [|done]. exists c. split; [done|]. apply type_iff. by exists ty. }
    split; [done|]. split; [by apply level_iff|]. split; [done|]. split; [done|]. split; [done|].
    split. { destruct (attr "accessRestrictedTo" pub) as [c|]; [|done]. exists c. split; [done|]. by apply access_iff. }
    split; [done|]. split; [done|]. split; [exists is'; split; [done|by apply isic_iff]|].
    split; [|done]. exists flows. split; [done|]. split; [apply parameters_iff; by exists ps|apply exchanges_iff; by exists es].
Qed.
End extraction_proofs.
