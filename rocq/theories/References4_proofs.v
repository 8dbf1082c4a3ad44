(** Proofs for C72, last part: formulas, datasets, failures. *)
From Coq Require Import Ascii.
From Verif Require Import Base Types Uncertainty Utils Strings StringFacts Recalculation Formulas Parameters Spec_Parameters
  Parameters_proofs Spec_Formulas Formulas_proofs Reserved_proofs Spec_References References_proofs References2_proofs References3_proofs.

Lemma foldR_map {A B C} (f : C -> B -> result C) (g : A -> B) acc l : foldR f acc (map g l) = foldR (fun c x => f c (g x)) acc l.
Proof. revert acc. induction l as [|x l IH]; intros acc; [done|]. cbn [map foldR]. destruct (f acc (g x)); [|done]. cbn [bind]. apply IH. Qed.
Lemma foldR_ext_in {A C} (f g : C -> A -> result C) acc l : (forall c x, x ∈ l -> f c x = g c x) -> foldR f acc l = foldR g acc l.
Proof.
  revert acc. induction l as [|x l IH]; intros acc H; [done|]. cbn [foldR]. rewrite H by (apply elem_of_cons; auto).
  destruct (g acc x); [|done]. cbn [bind]. apply IH. intros c y Hy. apply H. apply elem_of_cons. auto.
Qed.
Definition exch : rpiece -> bool := kind (RExchange true []).
Definition volu : rpiece -> bool := kind (RVolume true []).
Lemma elem_filterb {A} (f : A -> bool) x l : x ∈ filterb f l <-> x ∈ l /\ f x = true.
Proof. unfold filterb. rewrite !elem_of_list_In, filter_In. done. Qed.

(** *** One formula *)
Lemma of_unfold ds a l : Forall rpiece_ok l -> formula_at ds a = Some (str (rtext l)) ->
  replace_references_of ds a = let? ds1 := foldR (rstep a) ds (filterb exch l) in
    foldR (replace_reference find_production_volume_by_id "ref_pv_replacement_" a) ds1 (formula_references PV_END ds1 a).
Proof.
  intros Hl Hf. unfold replace_references_of. unfold formula_references at 1. rewrite Hf, chars_str.
  change EXCHANGE_END with (ending (RExchange true [])). rewrite references_pieces, foldR_map by done.
  rewrite (foldR_ext_in _ (rstep a)); [done|]. intros c x [_ Hx]%elem_filterb. by destruct x.
Qed.
Lemma volumes_unfold ds a l : Forall rpiece_ok l -> formula_at ds a = Some (str (rtext l)) ->
  foldR (replace_reference find_production_volume_by_id "ref_pv_replacement_" a) ds (formula_references PV_END ds a) =
  foldR (rstep a) ds (filterb volu l).
Proof.
  intros Hl Hf. unfold formula_references. rewrite Hf, chars_str.
  change PV_END with (ending (RVolume true [])). rewrite references_pieces, foldR_map by done.
  apply foldR_ext_in. intros c x [_ Hx]%elem_filterb. by destruct x.
Qed.
Lemma filterb_app {A} (f : A -> bool) k l : filterb f (k ++ l) = filterb f k ++ filterb f l.
Proof. apply List.filter_app. Qed.
Lemma volumes_expand ds S l : (forall p, p ∈ S -> exch p = true) -> filterb volu (expand ds S l) = filterb volu l.
Proof.
  intros HS. induction l as [|p l IH]; [done|]. unfold expand. cbn [flat_map]. change (flat_map (expand1 ds S) l) with (expand ds S l).
  rewrite filterb_app, IH. change (p :: l) with ([p] ++ l). rewrite filterb_app. f_equal.
  unfold expand1. case_decide as E; [|done]. destruct (value ds p) as [v|]; [|done].
  apply HS in E. assert (filterb volu [p] = []) as -> by by destruct p.
  induction (chars v) as [|c w IHw]; [done|]. cbn. apply IHw.
Qed.
Lemma expand_nil ds l : expand ds [] l = l.
Proof. induction l as [|p l IH]; [done|]. unfold expand. cbn [flat_map]. unfold expand1 at 1. rewrite decide_False by apply not_elem_of_nil. cbn [app]. by f_equal. Qed.
(** The references in pieces replaced. *)
Definition all_values (ds : dataset) (l : list rpiece) : Prop := forall q, q ∈ l -> is_reference q -> value ds q <> None.
Lemma value_char ds c : value ds (RChar c) = None.
Proof. done. Qed.
Lemma reference_kind q : is_reference q -> exch q = true \/ volu q = true.
Proof. destruct q; cbn; auto. Qed.
Lemma expand_all ds l : expand ds (filterb exch l ++ filterb volu l) l = expand ds l l.
Proof.
  unfold expand. apply flat_map_ext'. intros q Hq. unfold expand1. rewrite (decide_True (P := q ∈ l)) by done.
  case_decide as E; [done|]. destruct q as [c|b u|b u]; [done|..]; exfalso; apply E; apply elem_of_app; rewrite !elem_filterb; auto.
Qed.

Section pass.
  Context (occ : rpiece -> Prop) (Hocc : forall p, occ p -> is_reference p /\ rpiece_ok p).
  Lemma of_spec ds a l ds' : noq ds -> Forall rpiece_ok l -> formula_at ds a = Some (str (rtext l)) ->
    (forall p, p ∈ l -> is_reference p -> occ p) -> replace_references_of ds a = Ok ds' ->
    ext occ ds ds' /\ (forall b, b <> a -> formula_at ds' b = formula_at ds b) /\ all_values ds' l /\
    formula_at ds' a = Some (str (rtext (expand ds' l l))).
  Proof.
    intros Hn Hl Hf Ho H. rewrite (of_unfold ds a l) in H by done. apply bind_Ok in H as (ds1 & H1 & H).
    apply (rsteps_spec occ Hocc a []) with (l := l) in H1 as (He1 & Ho1 & Hv1 & Hf1).
    2:{ intros p [Hp Hk]%elem_filterb. apply Ho; [done|]. by destruct p. } 2,3: done.
    2:{ intros q Hq. by apply elem_of_nil in Hq. }
    2:{ by rewrite expand_nil. }
    cbn [app] in Hv1, Hf1. assert (noq ds1) as Hn1 by by eapply noq_ext.
    rewrite (volumes_unfold ds1 a (expand ds1 (filterb exch l) l)) in H by (done || by apply expand_ok).
    rewrite volumes_expand in H by by intros p [_ Hp]%elem_filterb.
    apply (rsteps_spec occ Hocc a (filterb exch l)) with (l := l) in H as (He2 & Ho2 & Hv2 & Hf2).
    2:{ intros p [Hp Hk]%elem_filterb. apply Ho; [done|]. by destruct p. } 2-5: done.
    split; [by eapply ext_trans|]. split; [intros b Hb; rewrite Ho2, Ho1; done|].
    rewrite expand_all in Hf2. split; [|done]. intros q Hq Hr. apply Hv2. apply elem_of_app. rewrite !elem_filterb.
    destruct (reference_kind q Hr); auto.
  Qed.
  Lemma of_none ds a : formula_at ds a = None -> replace_references_of ds a = Ok ds.
  Proof. intros H. unfold replace_references_of, formula_references. rewrite H. cbn [foldR bind]. by rewrite H. Qed.

  (** *** The formulas of a dataset *)
  Definition done_formula (ds : dataset) (f f' : option string) : Prop :=
    match f with
    | None => f' = None
    | Some s => exists l, Forall rpiece_ok l /\ s = str (rtext l) /\ all_values ds l /\ f' = Some (str (rtext (expand ds l l)))
    end.
  Lemma expand_ext ds ds' l : ext occ ds ds' -> all_values ds l -> expand ds' l l = expand ds l l.
  Proof.
    intros He Hv. unfold expand. apply flat_map_ext'. intros q Hq. unfold expand1. rewrite !decide_True by done.
    destruct (reference_dec q) as [Hr|Hr]; [|by destruct q]. specialize (Hv q Hq Hr).
    destruct (value ds q) as [v|] eqn:E; [|done]. by rewrite (value_ext occ _ _ _ _ He E).
  Qed.
  Lemma all_values_ext ds ds' l : ext occ ds ds' -> all_values ds l -> all_values ds' l.
  Proof.
    intros He Hv q Hq Hr. specialize (Hv q Hq Hr). destruct (value ds q) as [v|] eqn:E; [|done]. by rewrite (value_ext occ _ _ _ _ He E).
  Qed.
  Lemma done_ext ds ds' f f' : ext occ ds ds' -> done_formula ds f f' -> done_formula ds' f f'.
  Proof.
    intros He. destruct f as [s|]; [|done]. intros (l & Hl & -> & Hv & ->). exists l. split; [done|]. split; [done|].
    split; [by eapply all_values_ext|]. by rewrite (expand_ext ds ds').
  Qed.
  Lemma no_references ds l : all_values ds l -> forall q, q ∈ expand ds l l -> ~ is_reference q.
  Proof.
    intros Hv q Hq. unfold expand in Hq. apply elem_of_list_In, in_flat_map in Hq as (p & Hp & Hq).
    apply elem_of_list_In in Hp, Hq. unfold expand1 in Hq. rewrite decide_True in Hq by done.
    destruct (value ds p) as [v|] eqn:E.
    - apply elem_of_list_In, in_map_iff in Hq as (c & <- & _). auto.
    - apply elem_of_list_singleton in Hq as ->. intros Hr. by apply (Hv p Hp Hr).
  Qed.
  Lemma of_again ds a l : Forall rpiece_ok l -> (forall q, q ∈ l -> ~ is_reference q) -> formula_at ds a = Some (str (rtext l)) ->
    replace_references_of ds a = Ok ds.
  Proof.
    intros Hl Hq Hf. assert (forall f, (forall q, f q = true -> is_reference q) -> filterb f l = []) as Hk.
    { intros f Hf'. destruct (filterb f l) as [|q k] eqn:E; [done|]. exfalso.
      assert (q ∈ filterb f l) as [H1 H2]%elem_filterb by (rewrite E; apply elem_of_cons; auto). apply (Hq q H1). by apply Hf'. }
    rewrite (of_unfold ds a l) by done. rewrite Hk by (intros q; by destruct q). cbn [foldR bind].
    rewrite (volumes_unfold ds a l) by done. by rewrite Hk by (intros q; by destruct q).
  Qed.
  Section dataset.
    Context (ds0 : dataset) (Hn0 : noq ds0)
      (Hread : forall a s, formula_at ds0 a = Some s -> exists l, Forall rpiece_ok l /\ s = str (rtext l) /\ forall p, p ∈ l -> is_reference p -> occ p).
    Definition progress (done : list address) (ds : dataset) : Prop :=
      ext occ ds0 ds /\ (forall b, b ∈ done -> done_formula ds (formula_at ds0 b) (formula_at ds b)) /\
      (forall b, b ∉ done -> formula_at ds b = formula_at ds0 b).
    Lemma progress_step done ds a ds' : progress done ds -> replace_references_of ds a = Ok ds' -> progress (done ++ [a]) ds'.
    Proof.
      intros (He & Hd & Hu) H. destruct (decide (a ∈ done)) as [Ha|Ha].
      - assert (replace_references_of ds a = Ok ds) as E.
        { pose proof (Hd a Ha) as Hda. destruct (formula_at ds0 a) as [s|] eqn:Es.
          - destruct Hda as (l & Hl & _ & Hv & Hf). apply of_again with (l := expand ds l l); [|by apply no_references|done].
            apply expand_ok; [|done]. by eapply noq_ext.
          - by apply of_none. }
        assert (ds' = ds) as -> by congruence. split; [done|]. split; intros b Hb.
        + apply elem_of_app in Hb as [Hb| ->%elem_of_list_singleton]; by apply Hd.
        + apply Hu. intros Hb'. apply Hb. apply elem_of_app. auto.
      - pose proof (Hu a Ha) as Hua. destruct (formula_at ds0 a) as [s|] eqn:Es.
        + destruct (Hread a s Es) as (l & Hl & -> & Ho).
          apply of_spec with (l := l) in H as (He' & Ho' & Hv & Hf); [|by eapply noq_ext|done..].
          split; [by eapply ext_trans|]. split; intros b Hb.
          * destruct (decide (b = a)) as [->|Hne].
            -- rewrite Es. exists l. done.
            -- apply elem_of_app in Hb as [Hb| ->%elem_of_list_singleton]; [|done]. rewrite Ho' by done. eapply done_ext; [done|]. by apply Hd.
          * rewrite elem_of_app, elem_of_list_singleton in Hb. rewrite Ho' by tauto. apply Hu. tauto.
        + rewrite of_none in H by done. apply Ok_inj in H as <-. split; [done|]. split; intros b Hb.
          * apply elem_of_app in Hb as [Hb| ->%elem_of_list_singleton]; [by apply Hd|]. by rewrite Es.
          * apply Hu. intros Hb'. apply Hb. apply elem_of_app. auto.
    Qed.
    Lemma progress_steps todo done ds ds' : progress done ds -> foldR replace_references_of ds todo = Ok ds' -> progress (done ++ todo) ds'.
    Proof.
      revert done ds. induction todo as [|a todo IH]; intros done ds Hp H; cbn [foldR] in H.
      - apply Ok_inj in H as <-. by rewrite app_nil_r.
      - apply bind_Ok in H as (ds1 & H1 & H). replace (done ++ a :: todo) with ((done ++ [a]) ++ todo) by by rewrite <- app_assoc.
        eapply IH; [|exact H]. by eapply progress_step.
    Qed.
  End dataset.
End pass.
Lemma addresses_elem ds a : obj_at ds a <> None -> a ∈ addresses ds.
Proof.
  intros H. unfold addresses. apply elem_of_app.
  assert (forall i e, d_exchanges ds !! i = Some e -> a ∈ exchange_addresses (i, e) ->
    a ∈ concat (imap (fun i e => exchange_addresses (i, e)) (d_exchanges ds))) as Hx.
  { intros i e Hi Ha. apply elem_of_list_In, in_concat. exists (exchange_addresses (i, e)). rewrite <- !elem_of_list_In. split; [|done].
    apply elem_of_lookup_imap. by exists i, e. }
  unfold exchange_addresses in Hx. cbn [fst snd] in Hx.
  destruct a as [i|i|i j|k]; cbn [obj_at] in H.
  - destruct (d_exchanges ds !! i) as [e|] eqn:Ei; [|done]. left. eapply Hx; [exact Ei|]. apply elem_of_cons. auto.
  - destruct (d_exchanges ds !! i) as [e|] eqn:Ei; [|done]. left. eapply Hx; [exact Ei|]. apply elem_of_cons. right. apply elem_of_cons. auto.
  - destruct (d_exchanges ds !! i) as [e|] eqn:Ei; [|done]. left. eapply Hx; [exact Ei|]. cbn in H.
    destruct (e_props e !! j) as [p|] eqn:Ej; [|done]. apply elem_of_cons. right. apply elem_of_cons. right.
    apply elem_of_lookup_imap. by exists j, p.
  - right. destruct (d_params ds !! k) as [q|] eqn:Ek; [|done]. apply elem_of_lookup_imap. by exists k, q.
Qed.
Lemma obj_all ds a o : obj_at ds a = Some o -> o ∈ all_objs ds.
Proof.
  unfold all_objs. rewrite elem_of_app.
  assert (forall i e, d_exchanges ds !! i = Some e -> o ∈ exchange_objs e -> o ∈ concat (map exchange_objs (d_exchanges ds))) as Hx.
  { intros i e Hi Ho. apply elem_of_list_In, in_concat. exists (exchange_objs e). rewrite <- !elem_of_list_In. split; [|done].
    apply elem_of_list_In, in_map_iff. exists e. split; [done|]. apply elem_of_list_In. by eapply elem_of_list_lookup_2. }
  unfold exchange_objs in Hx.
  destruct a as [i|i|i j|k]; cbn [obj_at]; intros H.
  - destruct (d_exchanges ds !! i) as [e|] eqn:Ei; [|done]. cbn in H. left. eapply Hx; [exact Ei|]. apply elem_of_cons. left. congruence.
  - destruct (d_exchanges ds !! i) as [e|] eqn:Ei; [|done]. cbn in H. destruct (e_pv e) as [v|] eqn:Ev; [|done]. cbn in H.
    left. eapply Hx; [exact Ei|]. rewrite Ev. apply elem_of_cons. right. apply elem_of_app. left. apply elem_of_list_singleton. congruence.
  - destruct (d_exchanges ds !! i) as [e|] eqn:Ei; [|done]. cbn in H. destruct (e_props e !! j) as [p|] eqn:Ej; [|done]. cbn in H.
    left. eapply Hx; [exact Ei|]. apply elem_of_cons. right. apply elem_of_app. right. apply elem_of_list_In, in_map_iff. exists p.
    split; [congruence|]. apply elem_of_list_In. by eapply elem_of_list_lookup_2.
  - right. destruct (d_params ds !! k) as [q|] eqn:Ek; [|done]. cbn in H. apply elem_of_list_In, in_map_iff. exists q.
    split; [congruence|]. apply elem_of_list_In. by eapply elem_of_list_lookup_2.
Qed.
Lemma all_obj ds o : o ∈ all_objs ds -> exists a, obj_at ds a = Some o.
Proof.
  unfold all_objs. intros [H|H]%elem_of_app.
  - apply elem_of_list_In, in_concat in H as (k & Hk & Ho). apply in_map_iff in Hk as (e & <- & He). apply elem_of_list_In in He, Ho.
    apply elem_of_list_lookup_1 in He as [i Hi]. unfold exchange_objs in Ho. apply elem_of_cons in Ho as [->|[Ho|Ho]%elem_of_app].
    + exists (AtExchange i). cbn. by rewrite Hi.
    + destruct (e_pv e) as [v|] eqn:Ev; [|by apply elem_of_nil in Ho]. apply elem_of_list_singleton in Ho as ->.
      exists (AtVolume i). cbn. rewrite Hi. cbn. by rewrite Ev.
    + apply elem_of_list_In, in_map_iff in Ho as (p & <- & Hp). apply elem_of_list_In in Hp. apply elem_of_list_lookup_1 in Hp as [j Hj].
      exists (AtProperty i j). cbn. rewrite Hi. cbn. by rewrite Hj.
  - apply elem_of_list_In, in_map_iff in H as (q & <- & Hq). apply elem_of_list_In in Hq. apply elem_of_list_lookup_1 in Hq as [k Hk].
    exists (AtParameter k). cbn. by rewrite Hk.
Qed.

(** *** The pass over a dataset *)
Definition occ_in (ds : dataset) (p : rpiece) : Prop := is_reference p /\ rpiece_ok p /\ occurs ds p.
Lemma occ_in_ok ds p : occ_in ds p -> is_reference p /\ rpiece_ok p.
Proof. unfold occ_in. tauto. Qed.
Lemma readable_noq ds : readable ds -> noq ds.
Proof.
  intros [_ H] b v Hv. apply H. rewrite variable_obj in Hv. destruct (obj_at ds b) as [o|] eqn:E; [|done]. cbn in Hv.
  apply elem_of_list_omap. exists o. split; [by eapply obj_all|done].
Qed.
Lemma formula_formulas ds a s : formula_at ds a = Some s -> s ∈ formulas ds.
Proof.
  rewrite formula_obj. destruct (obj_at ds a) as [o|] eqn:E; [|done]. cbn. intros Hs. apply elem_of_list_omap. exists o. split; [by eapply obj_all|done].
Qed.
Lemma formulas_formula ds s : s ∈ formulas ds -> exists a, formula_at ds a = Some s /\ a ∈ addresses ds.
Proof.
  intros (o & Ho & Hs)%elem_of_list_omap. apply all_obj in Ho as [a Ha]. exists a. rewrite formula_obj, Ha. split; [done|].
  apply addresses_elem. by rewrite Ha.
Qed.
Lemma readable_formula ds a s : readable ds -> formula_at ds a = Some s ->
  exists l, Forall rpiece_ok l /\ s = str (rtext l) /\ forall p, p ∈ l -> is_reference p -> occ_in ds p.
Proof.
  intros [H _] Hs. apply formula_formulas in Hs. destruct (H s Hs) as (l & Hl & ->). exists l. split; [done|]. split; [done|].
  intros p Hp Hr. split; [done|]. split; [|by exists l]. rewrite Forall_forall in Hl. by apply Hl.
Qed.
Lemma done_new ds f f' : done_formula ds f f' -> new_formula ds f f'.
Proof.
  destruct f as [s|]; [|done]. intros (l & Hl & -> & Hv & ->).
  exists l, (map (fun p => rtext (expand1 ds l p)) l). split; [done|]. split; [done|]. split.
  - assert (forall k, (forall p, p ∈ k -> p ∈ l) -> Forall2 (resolved ds) k (map (fun p => rtext (expand1 ds l p)) k)) as H; [|by apply H].
    induction k as [|p k IH]; intros Hk; cbn [map]; constructor.
    + assert (p ∈ l) as Hp by (apply Hk; apply elem_of_cons; auto). unfold expand1. rewrite decide_True by done.
      destruct (reference_dec p) as [Hr|Hr]; [|by destruct p]. specialize (Hv p Hp Hr). destruct (value ds p) as [v|] eqn:E; [|done].
      rewrite rtext_chars. unfold value in E. destruct (tgt ds p) as [t|] eqn:Et; [|done].
      destruct (tgt_referred _ _ _ Et) as (o & Ho & Hobj). rewrite variable_obj, Hobj in E. cbn in E. destruct p; [done|..]; by exists o, v.
    + apply IH. intros q Hq. apply Hk. apply elem_of_cons. auto.
  - do 2 f_equal. unfold expand. generalize (expand1 ds l). intros g. clear. induction l as [|p l IH]; [done|].
    cbn [flat_map map concat]. by rewrite rtext_app, IH.
Qed.
Lemma pass_progress ds ds' : readable ds -> foldR replace_references_of ds (addresses ds) = Ok ds' ->
  ext (occ_in ds) ds ds' /\ forall b, done_formula ds' (formula_at ds b) (formula_at ds' b).
Proof.
  intros Hr H. apply (progress_steps (occ_in ds) (occ_in_ok ds) ds (readable_noq ds Hr)) with (done := []) in H as (He & Hd & Hu).
  - split; [done|]. intros b. destruct (decide (b ∈ addresses ds)) as [Hb|Hb]; [by apply Hd|]. rewrite Hu by done.
    destruct (formula_at ds b) as [s|] eqn:Es; [|done]. exfalso. apply Hb. apply addresses_elem. rewrite formula_obj in Es. by destruct (obj_at ds b).
  - intros a s. by apply readable_formula.
  - split; [apply ext_refl|]. split; [|done]. intros b Hb. by apply elem_of_nil in Hb.
Qed.
Lemma Forall2_at {A B} (R : A -> B -> Prop) k l :
  length k = length l -> (forall i x y, k !! i = Some x -> l !! i = Some y -> R x y) -> Forall2 R k l.
Proof. intros H1 H2. apply Forall2_same_length_lookup. done. Qed.
Lemma exchange_variable ds i p e : d_exchanges ds !! i = Some e -> tgt ds p = Ok (AtExchange i) ->
  exists b u, p = RExchange b u /\ e_id e = Some (str u).
Proof.
  intros Hi Ht. destruct p as [c|b u|b u]; [done|..].
  - apply tgt_exchange in Ht as [(j & e' & E & ((e2 & He2 & Hu) & _) & He)|(_ & k & q & E & _)]; [|done].
    assert (i = j) as -> by congruence. exists b, u. split; [done|]. congruence.
  - by apply tgt_volume in Ht as (j & e' & v & E & _).
Qed.
Lemma volume_variable ds i p e : d_exchanges ds !! i = Some e -> tgt ds p = Ok (AtVolume i) ->
  exists b u, p = RVolume b u /\ e_id e = Some (str u).
Proof.
  intros Hi Ht. destruct p as [c|b u|b u]; [done|..].
  - by apply tgt_exchange in Ht as [(j & e' & E & _)|(_ & k & q & E & _)].
  - apply tgt_volume in Ht as (j & e' & v & E & ((e2 & He2 & Hu) & _) & _).
    assert (i = j) as -> by congruence. exists b, u. split; [done|]. congruence.
Qed.
Lemma parameter_variable ds i p q : d_params ds !! i = Some q -> tgt ds p = Ok (AtParameter i) ->
  exists b u, p = RExchange b u /\ q_id q = Some (str u).
Proof.
  intros Hi Ht. destruct p as [c|b u|b u]; [done|..].
  - apply tgt_exchange in Ht as [(j & e' & E & _)|(_ & k & q' & E & ((e2 & He2 & Hu) & _) & _)]; [done|].
    assert (i = k) as -> by congruence. exists b, u. split; [done|]. congruence.
  - by apply tgt_volume in Ht as (j & e' & v & E & _).
Qed.
Lemma pass_replaced ds ds' : readable ds -> foldR replace_references_of ds (addresses ds) = Ok ds' -> references_replaced ds ds'.
Proof.
  intros Hr H. apply pass_progress in H as [[Hu Hv] Hd]; [|done].
  assert (forall b, new_formula ds' (formula_at ds b) (formula_at ds' b)) as Hf by (intros b; by apply done_new).
  split; [done|]. split.
  - apply Forall2_at.
    { apply unnamed_exchanges in Hu. apply (f_equal List.length) in Hu. by rewrite !map_length in Hu. }
    intros i e e' Hi Hi'.
    assert (unnamed_exchange e' = unnamed_exchange e) as Hx.
    { destruct (same_exchange_at _ _ _ _ Hu Hi') as (e2 & He2 & E). congruence. }
    split; [|split; [|split]].
    + pose proof (Hf (AtExchange i)) as F. cbn [formula_at] in F. by rewrite Hi, Hi' in F.
    + destruct (Hv (AtExchange i)) as [E|(E & p & (Hpr & Hpo & Hoc) & Ht & E')]; cbn [variable_at] in *; rewrite Hi in *.
      * left. by rewrite Hi' in E.
      * destruct (exchange_variable _ _ _ _ Hi Ht) as (b & u & -> & Hid).
        right. split; [done|]. exists b, u. split; [done|]. split; [done|]. by rewrite Hi' in E'.
    + unfold volume_replaced. pose proof (unnamed_has_pv _ _ Hx) as Hp.
      destruct (e_pv e) as [v|] eqn:Ev, (e_pv e') as [v'|] eqn:Ev'; try done. split.
      * pose proof (Hf (AtVolume i)) as F. cbn [formula_at] in F. rewrite Hi, Hi' in F. cbn in F. by rewrite Ev, Ev' in F.
      * destruct (Hv (AtVolume i)) as [E|(E & p & (Hpr & Hpo & Hoc) & Ht & E')].
        -- left. cbn [variable_at] in E. rewrite Hi, Hi' in E. cbn in E. by rewrite Ev, Ev' in E.
        -- destruct (volume_variable _ _ _ _ Hi Ht) as (b & u & -> & Hid). right. cbn [variable_at] in E, E'. rewrite Hi in E. rewrite Hi' in E'.
           cbn in E, E'. rewrite Ev in E. rewrite Ev' in E'. split; [done|]. by exists b, u.
    + apply Forall2_at.
      { apply unnamed_props in Hx. apply (f_equal List.length) in Hx. by rewrite !map_length in Hx. }
      intros j p p' Hj Hj'. split.
      * pose proof (Hf (AtProperty i j)) as F. cbn [formula_at] in F. rewrite Hi, Hi' in F. cbn in F. by rewrite Hj, Hj' in F.
      * destruct (Hv (AtProperty i j)) as [E|(_ & q & _ & Ht & _)].
        -- cbn [variable_at] in E. rewrite Hi, Hi' in E. cbn in E. by rewrite Hj, Hj' in E.
        -- exfalso. destruct q as [c|b u|b u]; [done|..].
           ++ by apply tgt_exchange in Ht as [(k & e2 & E & _)|(_ & k & q & E & _)].
           ++ by apply tgt_volume in Ht as (k & e2 & v & E & _).
  - apply Forall2_at.
    { apply unnamed_params in Hu. apply (f_equal List.length) in Hu. by rewrite !map_length in Hu. }
    intros i q q' Hi Hi'. split.
    + pose proof (Hf (AtParameter i)) as F. cbn [formula_at] in F. by rewrite Hi, Hi' in F.
    + destruct (Hv (AtParameter i)) as [E|(E & p & (Hpr & Hpo & Hoc) & Ht & E')]; cbn [variable_at] in *; rewrite Hi in *.
      * left. by rewrite Hi' in E.
      * destruct (parameter_variable _ _ _ _ Hi Ht) as (b & u & -> & Hid).
        right. split; [done|]. exists b, u. split; [done|]. split; [done|]. by rewrite Hi' in E'.
Qed.
Lemma data_replaced data data' : Forall readable data -> replace_implicit_references data = Ok data' -> Forall2 references_replaced data data'.
Proof.
  intros F H. unfold replace_implicit_references in H. apply mapR_Ok in H. revert F. induction H as [|ds ds' l l' H _ IH]; intros F; [constructor|].
  apply Forall_cons in F as [Hr F]. constructor; [by apply pass_replaced|]. by apply IH.
Qed.

(** *** No quotes are left *)
Lemma quote_pieces l : Forall rpiece_ok l -> (forall q, q ∈ l -> ~ is_reference q) -> quote ∉ rtext l.
Proof.
  intros F H. induction F as [|p l Hp F IH]; [apply not_elem_of_nil|]. rewrite rtext_cons, elem_of_app. intros [Hq|Hq].
  - destruct p as [c|b u|b u]; [|by apply (H _ (elem_of_list_here _ _))..]. apply elem_of_list_singleton in Hq. cbn in Hp. congruence.
  - apply IH; [|done]. intros q Hql. apply H. apply elem_of_cons. auto.
Qed.
Lemma pass_quotes ds ds' s : readable ds -> foldR replace_references_of ds (addresses ds) = Ok ds' -> s ∈ formulas ds' -> quote ∉ chars s.
Proof.
  intros Hr H Hs. apply pass_progress in H as [He Hd]; [|done]. apply formulas_formula in Hs as (a & Ha & _). specialize (Hd a). rewrite Ha in Hd.
  destruct (formula_at ds a) as [f|]; [|done]. destruct Hd as (l & Hl & _ & Hv & E). assert (s = str (rtext (expand ds' l l))) as -> by congruence.
  rewrite chars_str. apply quote_pieces; [|by apply no_references]. apply expand_ok; [|done].
  eapply noq_ext; [apply occ_in_ok|exact He|]. by apply readable_noq.
Qed.

(** *** Failures *)
Lemma same_pieces l l2 p : Forall rpiece_ok l -> Forall rpiece_ok l2 -> str (rtext l) = str (rtext l2) -> is_reference p -> p ∈ l -> p ∈ l2.
Proof.
  intros Hl Hl2 E Hr Hp. assert (rtext l = rtext l2) as E' by (rewrite <- (chars_str (rtext l)), E, chars_str; done).
  assert (found p ∈ map found (filterb (kind p) l2)) as H.
  { rewrite <- references_pieces, <- E', references_pieces by done. apply elem_of_list_In, in_map, elem_of_list_In, elem_filterb.
    split; [done|]. by destruct p. }
  apply elem_of_list_In, in_map_iff in H as (q & E2 & Hq). apply elem_of_list_In, elem_filterb in Hq as [Hq Hk].
  assert (p = q) as ->; [|done]. rewrite Forall_forall in Hl, Hl2.
  apply (same_piece p q []); [done|by destruct p, q|by apply Hl|by apply Hl2|].
  assert (rpiece_text q = rpiece_text p) as -> by exact (f_equal fst E2). apply starts_app.
Qed.
Lemma pass_found ds ds' p : readable ds -> foldR replace_references_of ds (addresses ds) = Ok ds' ->
  occurs ds p -> is_reference p -> exists o, referred ds p o.
Proof.
  intros Hr H (l & Hl & Hs & Hp) Hpr. apply pass_progress in H as [He Hd]; [|done].
  apply formulas_formula in Hs as (a & Ha & _). specialize (Hd a). rewrite Ha in Hd. destruct Hd as (l2 & Hl2 & E & Hv & _).
  assert (p ∈ l2) as Hp2 by by apply (same_pieces l l2). specialize (Hv p Hp2 Hpr). unfold value in Hv.
  rewrite (tgt_same ds' ds) in Hv by apply He. destruct (tgt ds p) as [t|] eqn:Et; [|done].
  destruct (tgt_referred _ _ _ Et) as (o & Ho & _). by exists o.
Qed.
Definition fine (ds0 : dataset) (r : result dataset) : Prop :=
  match r with Ok ds => unnamed ds = unnamed ds0 | Err e => e = ValueError end.
Lemma fine_fold {A} ds0 (f : dataset -> A -> result dataset) ds l : (forall ds x, unnamed ds = unnamed ds0 -> fine ds0 (f ds x)) ->
  unnamed ds = unnamed ds0 -> fine ds0 (foldR f ds l).
Proof.
  intros Hf. revert ds. induction l as [|x l IH]; intros ds H; [done|]. cbn [foldR]. specialize (Hf ds x H).
  destruct (f ds x) as [ds1|e]; cbn [bind]; [by apply IH|done].
Qed.
Lemma identified_same ds ds0 : unnamed ds = unnamed ds0 -> identified ds0 -> identified ds.
Proof.
  intros Hu [H1 H2]. split; intros x [i Hi]%elem_of_list_lookup_1.
  - destruct (same_exchange_at _ _ _ _ Hu Hi) as (e & He & E). rewrite (unnamed_id _ _ E). apply H1. by eapply elem_of_list_lookup_2.
  - destruct (same_param_at _ _ _ _ Hu Hi) as (e & He & E). rewrite (unnamed_q_id _ _ E). apply H2. by eapply elem_of_list_lookup_2.
Qed.
Lemma find_exchange_error ds u e : identified ds -> find_exchange_or_parameter_by_id ds u = Err e -> e = ValueError.
Proof.
  intros [H1 H2] H. unfold find_exchange_or_parameter_by_id in H. destruct (find_id_total e_id u 0 _ H1) as [r Hr]. rewrite Hr in H. cbn [bind] in H.
  destruct r; [done|]. destruct (find_id_total q_id u 0 _ H2) as [r' Hr']. rewrite Hr' in H. cbn [bind] in H. destruct r'; [done|]. congruence.
Qed.
Lemma find_volume_error ds u e : identified ds -> find_production_volume_by_id ds u = Err e -> e = ValueError.
Proof.
  intros [H1 H2] H. unfold find_production_volume_by_id in H. destruct (find_id_total e_id u 0 _ H1) as [r Hr]. rewrite Hr in H. cbn [bind] in H.
  destruct r; [case_bool_decide; [done|]|]; congruence.
Qed.
Lemma replace_fine ds0 find prefix a ds r : identified ds0 -> (forall ds u e, identified ds -> find ds u = Err e -> e = ValueError) ->
  unnamed ds = unnamed ds0 -> fine ds0 (replace_reference find prefix a ds r).
Proof.
  intros Hi Hf Hu. unfold replace_reference. destruct (find ds (str r.2)) as [t|e] eqn:Et; cbn [bind].
  - cbv zeta. destruct (formula_at _ _); cbn [fine]; rewrite ?put_formula_unnamed; case_bool_decide; rewrite ?put_variable_unnamed; done.
  - cbn [fine]. eapply Hf; [|exact Et]. by eapply identified_same.
Qed.
Lemma pass_fine ds : identified ds -> fine ds (foldR replace_references_of ds (addresses ds)).
Proof.
  intros Hi. apply fine_fold; [|done]. intros ds1 a Hu. unfold replace_references_of.
  assert (fine ds (foldR (replace_reference find_exchange_or_parameter_by_id "ref_replacement_" a) ds1 (formula_references EXCHANGE_END ds1 a))) as H.
  { apply fine_fold; [|done]. intros. apply replace_fine; [done|apply find_exchange_error|done]. }
  destruct (foldR _ ds1 _) as [ds2|e]; cbn [bind]; [|done].
  apply fine_fold; [|done]. intros. apply replace_fine; [done|apply find_volume_error|done].
Qed.
(** The first reference not found is the only reason for failing. *)
Lemma rsteps_ok a S ds : (forall p, p ∈ S -> is_reference p /\ exists t, tgt ds p = Ok t) -> exists ds', foldR (rstep a) ds S = Ok ds'.
Proof.
  revert ds. induction S as [|p S IH]; intros ds H; [by eexists|]. cbn [foldR].
  destruct (H p) as (Hr & t & Ht); [apply elem_of_cons; auto|]. rewrite rstep_unfold, Ht by done. cbn [bind]. cbv zeta.
  set (ds1 := if bool_decide (variable_at ds t = None) then _ else ds).
  assert (unnamed ds1 = unnamed ds) as Hu1 by (unfold ds1; case_bool_decide; [apply put_variable_unnamed|done]).
  assert (forall ds2, unnamed ds2 = unnamed ds -> exists ds', foldR (rstep a) ds2 S = Ok ds') as Hnext.
  { intros ds2 Hu. apply IH. intros q Hq. destruct (H q) as (Hrq & tq & Htq); [apply elem_of_cons; auto|]. split; [done|]. exists tq.
    rewrite <- Htq. by apply tgt_same. }
  destruct (formula_at ds1 a); cbn [bind]; apply Hnext; [|done]. by rewrite put_formula_unnamed.
Qed.
Lemma of_ok (occ : rpiece -> Prop) (Hocc : forall p, occ p -> is_reference p /\ rpiece_ok p) ds a l : noq ds -> Forall rpiece_ok l ->
  formula_at ds a = Some (str (rtext l)) -> (forall p, p ∈ l -> is_reference p -> occ p /\ exists t, tgt ds p = Ok t) ->
  exists ds', replace_references_of ds a = Ok ds'.
Proof.
  intros Hn Hl Hf Ho. rewrite (of_unfold ds a l) by done.
  destruct (rsteps_ok a (filterb exch l) ds) as [ds1 H1].
  { intros p [Hp Hk]%elem_filterb. assert (is_reference p) by by destruct p. split; [done|]. by apply Ho. }
  rewrite H1. cbn [bind].
  apply (rsteps_spec occ Hocc a []) with (l := l) in H1 as (He1 & Ho1 & Hv1 & Hf1).
  2:{ intros p [Hp Hk]%elem_filterb. apply Ho; [done|]. by destruct p. } 2,3: done.
  2:{ intros q Hq. by apply elem_of_nil in Hq. }
  2:{ by rewrite expand_nil. }
  cbn [app] in Hf1. assert (noq ds1) as Hn1 by by eapply noq_ext.
  rewrite (volumes_unfold ds1 a (expand ds1 (filterb exch l) l)) by (done || by apply expand_ok).
  rewrite volumes_expand by by intros p [_ Hp]%elem_filterb.
  apply rsteps_ok. intros p [Hp Hk]%elem_filterb. assert (is_reference p) as Hr by by destruct p. split; [done|].
  destruct (Ho p Hp Hr) as (_ & t & Ht). exists t. rewrite <- Ht. apply tgt_same. apply He1.
Qed.
Lemma pass_ok ds : readable ds -> identified ds -> (forall p, occurs ds p -> is_reference p -> exists o, referred ds p o) ->
  exists ds', foldR replace_references_of ds (addresses ds) = Ok ds'.
Proof.
  intros Hr Hi Ha. set (occ := occ_in ds).
  assert (forall p, occ p -> exists t, tgt ds p = Ok t) as Ht.
  { intros p (Hpr & _ & Hp). destruct (tgt_total ds p Hi Hpr) as [H|[_ H]]; [done|]. destruct (Ha p Hp Hpr) as [o Ho]. by apply H in Ho. }
  assert (forall todo done d, progress occ ds done d -> exists ds', foldR replace_references_of d todo = Ok ds') as H.
  { induction todo as [|a todo IH]; intros done d Hp; [by eexists|]. cbn [foldR].
    assert (exists d', replace_references_of d a = Ok d') as [d' Hd'].
    { destruct Hp as (He & Hd & Hu). assert (noq d) as Hnd by (eapply noq_ext; [apply occ_in_ok|exact He|by apply readable_noq]).
      destruct (decide (a ∈ done)) as [Hda|Hda].
      - pose proof (Hd a Hda) as Hx. destruct (formula_at ds a) as [s|] eqn:Es.
        + destruct Hx as (l & Hl & _ & Hv & Hf). exists d. apply of_again with (l := expand d l l); [by apply expand_ok|by apply no_references|done].
        + exists d. by apply of_none.
      - pose proof (Hu a Hda) as Hx. destruct (formula_at ds a) as [s|] eqn:Es; [|exists d; by apply of_none].
        destruct (readable_formula ds a s Hr Es) as (l & Hl & -> & Ho).
        apply (of_ok occ (occ_in_ok ds) d a l Hnd Hl Hx). intros p Hp Hpr. split; [by apply Ho|].
        destruct (Ht p) as [t Htp]; [by apply Ho|]. exists t. rewrite <- Htp. apply tgt_same. apply He. }
    rewrite Hd'. cbn [bind]. eapply IH. eapply progress_step; [apply occ_in_ok|by apply readable_noq| |exact Hp|exact Hd'].
    intros b s. by apply readable_formula. }
  apply (H _ []). split; [apply ext_refl|]. split; [|done]. intros b Hb. by apply elem_of_nil in Hb.
Qed.
Lemma pass_iff ds : readable ds -> identified ds ->
  (all_found ds /\ exists ds', foldR replace_references_of ds (addresses ds) = Ok ds') \/
  (~ all_found ds /\ foldR replace_references_of ds (addresses ds) = Err ValueError).
Proof.
  intros Hr Hi. pose proof (pass_fine ds Hi) as Hf. destruct (foldR replace_references_of ds (addresses ds)) as [ds'|e] eqn:E.
  - left. split; [|by eexists]. intros p Hp Hpr. by eapply pass_found.
  - right. cbn [fine] in Hf. subst e. split; [|done]. intros Ha. destruct (pass_ok ds Hr Hi Ha) as [ds' H]. congruence.
Qed.
Lemma data_iff data : Forall readable data -> Forall identified data ->
  (Forall all_found data /\ exists data', replace_implicit_references data = Ok data') \/
  (~ Forall all_found data /\ replace_implicit_references data = Err ValueError).
Proof.
  intros F G. unfold replace_implicit_references. induction data as [|ds data IH]; [left; split; [constructor|by eexists]|].
  apply Forall_cons in F as [Hr F]. apply Forall_cons in G as [Hi G]. cbn [mapR].
  destruct (pass_iff ds Hr Hi) as [[Ha [ds' ->]]|[Ha ->]]; cbn [bind].
  - destruct (IH F G) as [[Hl [data' ->]]|[Hl ->]]; cbn [bind].
    + left. split; [by constructor|by eexists].
    + right. split; [|done]. intros H. apply Forall_cons in H as [_ H]. done.
  - right. split; [|done]. intros H. apply Forall_cons in H as [H _]. done.
Qed.

(** *** A second pass changes nothing *)
Lemma pass_idempotent ds ds' : readable ds -> foldR replace_references_of ds (addresses ds) = Ok ds' ->
  foldR replace_references_of ds' (addresses ds') = Ok ds'.
Proof.
  intros Hr H. assert (forall a, replace_references_of ds' a = Ok ds') as Ha.
  { intros a. destruct (formula_at ds' a) as [s|] eqn:Es; [|by apply of_none].
    assert (quote ∉ chars s) as Hq by (eapply pass_quotes; [exact Hr|exact H|by eapply formula_formulas]).
    apply of_again with (l := map RChar (chars s)).
    - by apply chars_ok.
    - intros q Hq' Hp. apply elem_of_list_In, in_map_iff in Hq' as (c & <- & _). done.
    - by rewrite rtext_chars, str_chars. }
  induction (addresses ds') as [|a l IH]; [done|]. cbn [foldR]. rewrite Ha. exact IH.
Qed.
Lemma data_idempotent data data' : Forall readable data -> replace_implicit_references data = Ok data' ->
  replace_implicit_references data' = Ok data'.
Proof.
  intros F H. unfold replace_implicit_references in *. apply mapR_Ok in H. revert F. induction H as [|ds ds' l l' H _ IH]; intros F; [done|].
  apply Forall_cons in F as [Hr F]. cbn [mapR]. rewrite (pass_idempotent ds ds') by done. cbn [bind]. by rewrite IH.
Qed.
Lemma data_quotes data data' ds' s : Forall readable data -> replace_implicit_references data = Ok data' ->
  ds' ∈ data' -> s ∈ formulas ds' -> quote ∉ chars s.
Proof.
  intros F H Hd. unfold replace_implicit_references in H. apply mapR_Ok in H. apply elem_of_list_lookup_1 in Hd as [i Hi].
  destruct (Forall2_lookup_r _ _ _ _ _ H Hi) as (ds & Hds & E). rewrite Forall_forall in F. eapply pass_quotes; [|exact E].
  apply F. by eapply elem_of_list_lookup_2.
Qed.
