(** Proofs for C72, third part: the pass. *)
From Coq Require Import Ascii.
From Verif Require Import Base Types Uncertainty Utils Strings StringFacts Recalculation Formulas Parameters Spec_Parameters
  Parameters_proofs Spec_Formulas Formulas_proofs Reserved_proofs Spec_References References_proofs References2_proofs.

(** *** Targets *)
Definition tgt (ds : dataset) (p : rpiece) : result address :=
  match p with
  | RExchange _ u => find_exchange_or_parameter_by_id ds (str u)
  | RVolume _ u => find_production_volume_by_id ds (str u)
  | RChar _ => Err ValueError
  end.
Definition newname (p : rpiece) : string :=
  ((match p with RVolume _ _ => "ref_pv_replacement_" | _ => "ref_replacement_" end) ++ without_dashes (uuid_of p))%string.
Lemma tgt_same ds ds' p : unnamed ds = unnamed ds' -> tgt ds p = tgt ds' p.
Proof. intros H. destruct p; cbn [tgt]; [done|by apply find_exchange_same|by apply find_volume_same]. Qed.
Lemma tgt_exchange ds b u a : tgt ds (RExchange b u) = Ok a ->
  (exists i e, a = AtExchange i /\ first_with e_id (str u) (d_exchanges ds) i /\ d_exchanges ds !! i = Some e) \/
  (unknown_to_exchanges ds (str u) /\ exists k q, a = AtParameter k /\ first_with q_id (str u) (d_params ds) k /\ d_params ds !! k = Some q).
Proof.
  cbn [tgt]. unfold find_exchange_or_parameter_by_id. intros H. apply bind_Ok in H as (r & Hr & H). apply find_id_first in Hr.
  destruct r as [i|].
  - apply Ok_inj in H as <-. destruct Hr as (j & -> & Hf). left. pose proof Hf as ((e & He & _) & _). exists j, e. done.
  - right. split; [exact Hr|]. apply bind_Ok in H as (r & Hq & H). apply find_id_first in Hq.
    destruct r as [k|]; [|done]. apply Ok_inj in H as <-. destruct Hq as (j & -> & Hf). pose proof Hf as ((e & He & _) & _). by exists j, e.
Qed.
Lemma tgt_volume ds b u a : tgt ds (RVolume b u) = Ok a ->
  exists i e v, a = AtVolume i /\ first_with e_id (str u) (d_exchanges ds) i /\ d_exchanges ds !! i = Some e /\ e_pv e = Some v.
Proof.
  cbn [tgt]. unfold find_production_volume_by_id. intros H. apply bind_Ok in H as (r & Hr & H). apply find_id_first in Hr.
  destruct r as [i|]; [|done]. destruct Hr as (j & -> & Hf). case_bool_decide as Hv; [|done]. apply Ok_inj in H as <-.
  pose proof Hf as ((e & He & _) & _). cbn [Nat.add] in *. rewrite He in Hv. cbn in Hv. destruct (e_pv e) as [v|] eqn:Ev; [|done].
  by exists j, e, v.
Qed.
Lemma tgt_referred ds p a : tgt ds p = Ok a -> exists o, referred ds p o /\ obj_at ds a = Some o.
Proof.
  intros H. destruct p as [c|b u|b u]; [done|..].
  - apply tgt_exchange in H as [(i & e & -> & Hf & He)|(Hn & k & q & -> & Hf & Hq)].
    + exists (e_obj e). cbn [obj_at]. rewrite He. split; [|done]. left. by exists i, e.
    + exists (q_obj q). cbn [obj_at]. rewrite Hq. split; [|done]. right. split; [done|]. by exists k, q.
  - apply tgt_volume in H as (i & e & v & -> & Hf & He & Hv). exists (v_obj v). cbn [obj_at]. rewrite He. cbn. rewrite Hv. split; [|done].
    by exists i, e, v.
Qed.
Lemma first_unique {A} (id : A -> option string) u l i j : first_with id u l i -> first_with id u l j -> i = j.
Proof.
  intros [(x & Hx & Hxu) Hi] [(y & Hy & Hyu) Hj]. destruct (lt_eq_lt_dec i j) as [[H|H]|H]; [|done|].
  - exfalso. by apply (Hj i x).
  - exfalso. by apply (Hi j y).
Qed.
Lemma tgt_total ds p : identified ds -> is_reference p ->
  (exists a, tgt ds p = Ok a) \/ (tgt ds p = Err ValueError /\ forall o, ~ referred ds p o).
Proof.
  intros [He Hq] Hp. destruct p as [c|b u|b u]; [done|..].
  - cbn [tgt referred]. unfold find_exchange_or_parameter_by_id.
    destruct (find_id_total e_id (str u) 0 _ He) as [r Hr]. rewrite Hr. cbn [bind]. apply find_id_first in Hr. destruct r as [i|]; [left; by eexists|].
    destruct (find_id_total q_id (str u) 0 _ Hq) as [r Hr']. rewrite Hr'. cbn [bind]. apply find_id_first in Hr'. destruct r as [k|]; [left; by eexists|].
    right. split; [done|]. intros o [(i & e & ((e' & Hi & Hu) & _) & _)|(_ & k & q & ((q' & Hk & Hu) & _) & _)].
    + by apply (Hr e' (elem_of_list_lookup_2 _ _ _ Hi)).
    + by apply (Hr' q' (elem_of_list_lookup_2 _ _ _ Hk)).
  - cbn [tgt referred]. unfold find_production_volume_by_id.
    destruct (find_id_total e_id (str u) 0 _ He) as [r Hr]. rewrite Hr. cbn [bind]. apply find_id_first in Hr. destruct r as [i|].
    + destruct Hr as (j & -> & Hf). cbn [Nat.add]. case_bool_decide as Hv; [left; by eexists|]. right. split; [done|].
      intros o (i & e & v & Hf' & Hi & Hp' & _). rewrite (first_unique _ _ _ _ _ Hf Hf') in Hv. rewrite Hi in Hv. cbn in Hv. by rewrite Hp' in Hv.
    + right. split; [done|]. intros o (i & e & v & ((e' & Hi & Hu) & _) & _). by apply (Hr e' (elem_of_list_lookup_2 _ _ _ Hi)).
Qed.

(** *** Variables only added *)
Section pass.
  Context (occ : rpiece -> Prop) (Hocc : forall p, occ p -> is_reference p /\ rpiece_ok p).
  Definition ext (ds ds' : dataset) : Prop :=
    unnamed ds' = unnamed ds /\
    forall b, variable_at ds' b = variable_at ds b \/
              variable_at ds b = None /\ exists p, occ p /\ tgt ds p = Ok b /\ variable_at ds' b = Some (newname p).
  Lemma ext_refl ds : ext ds ds.
  Proof. split; [done|]. auto. Qed.
  Lemma ext_trans ds1 ds2 ds3 : ext ds1 ds2 -> ext ds2 ds3 -> ext ds1 ds3.
  Proof.
    intros [H1 V1] [H2 V2]. split; [congruence|]. intros b. destruct (V2 b) as [E2|(N2 & p & Hp & Ht & E2)].
    - rewrite E2. apply V1.
    - destruct (V1 b) as [E1|(N1 & p' & Hp' & Ht' & E1)]; [|congruence]. right. split; [congruence|]. exists p. split; [done|]. split; [|done].
      rewrite <- Ht. by apply tgt_same.
  Qed.
  Lemma ext_some ds ds' b v : ext ds ds' -> variable_at ds b = Some v -> variable_at ds' b = Some v.
  Proof. intros [_ H] Hv. destruct (H b) as [E|(E & _)]; congruence. Qed.
  Definition noq (ds : dataset) : Prop := forall b v, variable_at ds b = Some v -> quote ∉ chars v.
  Lemma newname_quote p : is_reference p -> rpiece_ok p -> quote ∉ chars (newname p).
  Proof.
    intros Hr Ho. assert (uuid_ok (uuid_of p)) as Hu by by destruct p. apply uuid_chars in Hu as (_ & Hu & _).
    unfold newname. rewrite chars_app, elem_of_app. intros [H|H].
    - revert H. destruct p; unfold quote; apply (bool_decide_unpack _); by vm_compute.
    - unfold without_dashes in H. rewrite chars_str in H. apply elem_of_list_filter in H as [_ H].
      rewrite Forall_forall in Hu. by apply (Hu _ H).
  Qed.
  Lemma noq_ext ds ds' : ext ds ds' -> noq ds -> noq ds'.
  Proof.
    intros [_ H] Hn b v Hv. destruct (H b) as [E|(_ & p & Hp & _ & E)].
    - apply (Hn b). congruence.
    - apply Hocc in Hp as [Hr Ho]. assert (v = newname p) as -> by congruence. by apply newname_quote.
  Qed.

  Definition value (ds : dataset) (p : rpiece) : option string :=
    match tgt ds p with Ok t => variable_at ds t | Err _ => None end.
  Lemma value_ext ds ds' p v : ext ds ds' -> value ds p = Some v -> value ds' p = Some v.
  Proof.
    intros H. unfold value. rewrite (tgt_same ds' ds p) by apply H. destruct (tgt ds p); [|done]. by apply ext_some.
  Qed.
  Lemma value_quote ds p v : noq ds -> value ds p = Some v -> quote ∉ chars v.
  Proof. intros H. unfold value. destruct (tgt ds p); [|done]. apply H. Qed.
  Definition expand1 (ds : dataset) (S : list rpiece) (p : rpiece) : list rpiece :=
    if decide (p ∈ S) then match value ds p with Some v => map RChar (chars v) | None => [p] end else [p].
  Definition expand (ds : dataset) (S l : list rpiece) : list rpiece := flat_map (expand1 ds S) l.
  Lemma chars_ok v : quote ∉ v -> Forall rpiece_ok (map RChar v).
  Proof. intros H. apply Forall_map. apply Forall_forall. intros c Hc ->. by apply H. Qed.
  Lemma expand_ok ds S l : noq ds -> Forall rpiece_ok l -> Forall rpiece_ok (expand ds S l).
  Proof.
    intros Hn F. induction F as [|p l Hp F IH]; [constructor|]. unfold expand. cbn [flat_map]. apply Forall_app. split; [|exact IH].
    unfold expand1. case_decide; [|by repeat constructor]. destruct (value ds p) as [v|] eqn:E; [|by repeat constructor].
    apply chars_ok. by eapply value_quote.
  Qed.
  Lemma flat_map_ext' {A B} (f g : A -> list B) l : (forall x, x ∈ l -> f x = g x) -> flat_map f l = flat_map g l.
  Proof.
    induction l as [|x l IH]; intros H; [done|]. cbn [flat_map]. rewrite H, IH; [done|..|apply elem_of_cons; auto].
    intros y Hy. apply H. apply elem_of_cons. auto.
  Qed.
  Lemma flat_map_flat_map {A B C} (f : A -> list B) (g : B -> list C) l : flat_map g (flat_map f l) = flat_map (fun x => flat_map g (f x)) l.
  Proof. induction l as [|x l IH]; [done|]. cbn [flat_map]. by rewrite flat_map_app, IH. Qed.
  Lemma subst_chars p v w : is_reference p -> subst p v (map RChar w) = map RChar w.
  Proof.
    intros Hp. induction w as [|c w IH]; [done|]. cbn [map]. rewrite subst_cons, IH. case_decide as E; [|done]. by rewrite <- E in Hp.
  Qed.
  Lemma subst_expand ds ds' S p v l : ext ds ds' -> is_reference p -> (forall q, q ∈ S -> value ds q <> None) -> value ds' p = Some v ->
    subst p (chars v) (expand ds S l) = expand ds' (S ++ [p]) l.
  Proof.
    intros He Hp HS Hv. unfold subst, expand. rewrite flat_map_flat_map. apply flat_map_ext'. intros q _.
    unfold expand1. destruct (decide (q ∈ S)) as [HqS|HqS].
    - rewrite decide_True by (apply elem_of_app; auto). destruct (value ds q) as [w|] eqn:Ew; [|by apply HS in Ew].
      rewrite (value_ext _ _ _ _ He Ew). by apply subst_chars.
    - cbn [flat_map]. rewrite app_nil_r. destruct (decide (q = p)) as [->|Hne].
      + rewrite decide_True by (apply elem_of_app; right; apply elem_of_list_singleton; done). by rewrite Hv.
      + rewrite decide_False; [done|]. rewrite elem_of_app, elem_of_list_singleton. tauto.
  Qed.

  (** *** One reference *)
  Definition rstep (a : address) (ds : dataset) (p : rpiece) : result dataset :=
    match p with
    | RVolume _ _ => replace_reference find_production_volume_by_id "ref_pv_replacement_" a ds (found p)
    | _ => replace_reference find_exchange_or_parameter_by_id "ref_replacement_" a ds (found p)
    end.
  Lemma rstep_unfold a ds p : is_reference p -> rstep a ds p =
    let? target := tgt ds p in
    let variable := match variable_at ds target with Some v => v | None => newname p end in
    let ds := if bool_decide (variable_at ds target = None) then put_variable variable ds target else ds in
    match formula_at ds a with
    | Some f => Ok (put_formula (str_replace (str (rpiece_text p)) variable f) ds a)
    | None => Ok ds
    end.
  Proof.
    intros Hp. destruct p as [c|b u|b u]; [done|..]; cbn [rstep]; unfold replace_reference, newname; cbn [found fst snd uuid_of];
      rewrite remove_dashes; reflexivity.
  Qed.
  Lemma rstep_spec a ds p l ds' : occ p -> noq ds -> Forall rpiece_ok l -> formula_at ds a = Some (str (rtext l)) ->
    rstep a ds p = Ok ds' ->
    ext ds ds' /\ (forall b, b <> a -> formula_at ds' b = formula_at ds b) /\
    exists v, value ds' p = Some v /\ formula_at ds' a = Some (str (rtext (subst p (chars v) l))).
  Proof.
    intros Hp Hn Hl Hf H. destruct (Hocc p Hp) as [Hr Ho]. rewrite rstep_unfold in H by done.
    apply bind_Ok in H as (t & Ht & H). cbv zeta in H.
    set (v := match variable_at ds t with Some v => v | None => newname p end) in H.
    set (ds1 := if bool_decide (variable_at ds t = None) then put_variable v ds t else ds) in H.
    destruct (tgt_referred _ _ _ Ht) as (o & _ & Hto).
    assert (forall b, formula_at ds1 b = formula_at ds b) as Hf1.
    { intros b. unfold ds1. case_bool_decide; [|done]. rewrite !formula_obj, put_variable_obj. case_decide; [|done]. by destruct (obj_at ds b). }
    assert (variable_at ds1 t = Some v) as Hv1.
    { unfold ds1, v. case_bool_decide as E.
      - rewrite E, variable_obj, put_variable_obj, decide_True, Hto by done. done.
      - by destruct (variable_at ds t). }
    assert (ext ds ds1) as He1.
    { unfold ds1. case_bool_decide as E; [|apply ext_refl]. split; [apply put_variable_unnamed|]. intros b.
      destruct (decide (b = t)) as [->|Hne].
      - right. split; [done|]. exists p. split; [done|]. split; [done|]. rewrite variable_obj, put_variable_obj, decide_True, Hto by done.
        cbn. unfold v. by rewrite E.
      - left. rewrite !variable_obj, put_variable_obj, decide_False by done. done. }
    rewrite Hf1, Hf in H. apply Ok_inj in H as <-. rewrite replace_text by done.
    set (x := str (rtext (subst p (chars v) l))).
    assert (forall b, variable_at (put_formula x ds1 a) b = variable_at ds1 b) as Hv2.
    { intros b. rewrite !variable_obj, put_formula_obj. case_decide; [|done]. by destruct (obj_at ds1 b). }
    assert (unnamed (put_formula x ds1 a) = unnamed ds) as Hu by (rewrite put_formula_unnamed; apply He1).
    split; [|split].
    - split; [done|]. intros b. rewrite Hv2. apply He1.
    - intros b Hb. rewrite <- (Hf1 b), !formula_obj, put_formula_obj, decide_False by done. done.
    - exists v. split.
      + unfold value. rewrite (tgt_same _ ds) by done. rewrite Ht. rewrite Hv2. exact Hv1.
      + rewrite formula_obj, put_formula_obj, decide_True by done. rewrite <- (Hf1 a), formula_obj in Hf.
        by destruct (obj_at ds1 a).
  Qed.
  Lemma rsteps_spec a S S' ds l ds' : (forall p, p ∈ S' -> occ p) -> noq ds -> Forall rpiece_ok l ->
    (forall q, q ∈ S -> value ds q <> None) -> formula_at ds a = Some (str (rtext (expand ds S l))) ->
    foldR (rstep a) ds S' = Ok ds' ->
    ext ds ds' /\ (forall b, b <> a -> formula_at ds' b = formula_at ds b) /\
    (forall q, q ∈ S ++ S' -> value ds' q <> None) /\ formula_at ds' a = Some (str (rtext (expand ds' (S ++ S') l))).
  Proof.
    revert S ds. induction S' as [|p S' IH]; intros S ds HS' Hn Hl HS Hf H; cbn [foldR] in H.
    - apply Ok_inj in H as <-. rewrite app_nil_r. split; [apply ext_refl|]. done.
    - apply bind_Ok in H as (ds1 & H1 & H).
      apply rstep_spec with (l := expand ds S l) in H1 as (He1 & Ho1 & v & Hv & Hf1);
        [|apply HS'; apply elem_of_cons; auto|done|by apply expand_ok|done].
      assert (occ p) as Hp by (apply HS'; apply elem_of_cons; auto). destruct (Hocc p Hp) as [Hr Ho].
      rewrite (subst_expand ds ds1) in Hf1 by done.
      apply IH with (S := S ++ [p]) in H as (He & Ho2 & Hv2 & Hf2).
      + rewrite <- app_assoc in Hv2, Hf2. split; [by eapply ext_trans|]. split; [|done]. intros b Hb. rewrite Ho2, Ho1; done.
      + intros q Hq. apply HS'. apply elem_of_cons. auto.
      + by eapply noq_ext.
      + done.
      + intros q Hq. apply elem_of_app in Hq as [Hq|Hq%elem_of_list_singleton]; [|congruence]. apply HS in Hq.
        destruct (value ds q) as [w|] eqn:Ew; [|done]. by rewrite (value_ext _ _ _ _ He1 Ew).
      + done.
  Qed.
End pass.
