(** The rows of tables are what was changed (C86-C88). *)
From Verif Require Import Base Types Utils Spec_Utils Utils_proofs Strings Grouping GroupUpdate Recalculation Validation
  ActivityLinks Cutoff Topology Locations Consequential Parameters Tables Spec_Tables Uncertainty Uncertainty_proofs Waste_proofs Combined_proofs Spec_Allocation Allocation_proofs RestOfWorld_proofs.

Lemma with_left {A B} (R : A -> B -> Prop) (P : A -> Prop) l l' :
  Forall2 R l l' -> Forall P l -> Forall2 (fun x y => R x y /\ P x) l l'.
Proof.
  induction 1 as [|x y l l' HR _ IH]; [constructor|]. intros [HP Hl]%Forall_cons. constructor; auto.
Qed.
Lemma each_app {A B} (f : A -> list B) l1 l2 : each f (l1 ++ l2) = each f l1 ++ each f l2.
Proof. unfold each. by rewrite map_app, concat_app. Qed.
Lemma each_cons {A B} (f : A -> list B) x l : each f (x :: l) = f x ++ each f l.
Proof. done. Qed.
Lemma each_filter {A B} (t : A -> bool) (m : A -> B) l :
  map m (filterb t l) = each (fun x => if t x then [m x] else []) l.
Proof.
  induction l as [|x l IH]; [done|]. rewrite each_cons.
  change (filterb t (x :: l)) with (if t x then x :: filterb t l else filterb t l).
  destruct (t x); cbn [map app]; by rewrite IH.
Qed.
Lemma altered_cons mk d d' l l' : altered mk (d :: l) (d' :: l') = altered_in mk d d' ++ altered mk l l'.
Proof. done. Qed.
Lemma altered_each mk g data data' : Forall2 (fun ds ds' => g ds = altered_in mk ds ds') data data' ->
  each g data = altered mk data data'.
Proof.
  induction 1 as [|d d' l l' H _ IH]; [done|]. by rewrite each_cons, altered_cons, H, IH.
Qed.
Lemma altered_in_each mk h ds ds' :
  Forall2 (fun e e' => (e <> e' /\ h e = [mk ds e e']) \/ (e = e' /\ h e = [])) (d_exchanges ds) (d_exchanges ds') ->
  each h (d_exchanges ds) = altered_in mk ds ds'.
Proof.
  unfold altered_in. generalize (d_exchanges ds) as es, (d_exchanges ds') as es'.
  induction 1 as [|e e' l l' H _ IH]; [done|]. rewrite each_cons. cbn [zip zip_with].
  change (zip_with pair l l') with (zip l l').
  destruct H as [[H1 H2]|[H1 H2]].
  - rewrite filter_cons_True by exact H1. cbn [map]. rewrite H2, IH. done.
  - rewrite filter_cons_False by (cbn; auto). by rewrite H2, IH.
Qed.
Lemma altered_datasets_cons mk d d' l l' : altered_datasets mk (d :: l) (d' :: l') =
  (if decide (d = d') then [] else [mk d d']) ++ altered_datasets mk l l'.
Proof.
  unfold altered_datasets. cbn [zip zip_with]. change (zip_with pair l l') with (zip l l'). rewrite filter_cons. cbn [fst snd].
  destruct (decide (d = d')) as [E|E]; [rewrite decide_False by auto|rewrite decide_True by done]; done.
Qed.
Lemma altered_datasets_each mk g data data' :
  Forall2 (fun d d' => (d <> d' /\ g d = [mk d d']) \/ (d = d' /\ g d = [])) data data' ->
  each g data = altered_datasets mk data data'.
Proof.
  induction 1 as [|d d' l l' H _ IH]; [done|]. rewrite each_cons, altered_datasets_cons, IH. f_equal.
  destruct H as [[H1 ->]|[H1 ->]]; [by rewrite decide_False|by rewrite decide_True].
Qed.
Lemma altered_map mk t m f data :
  (forall ds e, if t ds e : bool then e <> f ds e /\ m ds e = mk ds e (f ds e) else e = f ds e) ->
  each (fun ds => map (m ds) (filterb (t ds) (d_exchanges ds))) data =
  altered mk data (map (fun ds => set_d_exchanges (map (f ds) (d_exchanges ds)) ds) data).
Proof.
  intros H. apply altered_each. apply Forall2_fmap_r. apply Forall_Forall2_diag. apply Forall_forall. intros ds _.
  rewrite each_filter. apply altered_in_each.
  assert (d_exchanges (set_d_exchanges (map (f ds) (d_exchanges ds)) ds) = map (f ds) (d_exchanges ds)) as -> by by destruct ds.
  apply Forall2_fmap_r. apply Forall_Forall2_diag. apply Forall_forall. intros e _.
  specialize (H ds e). destruct (t ds e); [left|right].
  - destruct H as [H1 H2]. split; [done|]. by rewrite H2.
  - done.
Qed.

Lemma link_changes e : link_truthy e = true -> e <> set_e_link None e.
Proof.
  intros H E. apply (f_equal e_link) in E. unfold link_truthy in H. destruct e; cbn in *. subst. done.
Qed.

Lemma zero_links data :
  zero_link_rows data = altered (fun ds e _ => [Txt (d_name ds); Txt (e_name e)]) data (drop_zero_amount_activity_links data).
Proof.
  apply (altered_map (fun ds e _ => [Txt (d_name ds); Txt (e_name e)])
           (fun _ e => negb (Qctruthy (e_amount e)) && link_truthy e) (fun ds e => [Txt (d_name ds); Txt (e_name e)])
           (fun _ e => if negb (Qctruthy (e_amount e)) && link_truthy e then set_e_link None e else e)).
  intros ds e. destruct (negb _ && _) eqn:E; [|done].
  apply andb_true_iff in E as [_ E]. split; [by apply link_changes|done].
Qed.
Lemma product_links data :
  product_link_rows data = altered (fun ds e _ => [Txt (d_name ds); Txt (e_name e)]) data (drop_rp_activity_links data).
Proof.
  apply (altered_map (fun ds e _ => [Txt (d_name ds); Txt (e_name e)])
           (fun _ e => (bool_decide (e_type e = RefProduct) || bool_decide (e_type e = DroppedProduct)) && link_truthy e)
           (fun ds e => [Txt (d_name ds); Txt (e_name e)])
           (fun _ e => if (bool_decide (e_type e = RefProduct) || bool_decide (e_type e = DroppedProduct)) && link_truthy e
                       then set_e_link None e else e)).
  intros ds e. destruct (_ && _) eqn:E; [|done].
  apply andb_true_iff in E as [_ E]. split; [by apply link_changes|done].
Qed.

Lemma conditional_altered ds :
  conditional_rows ds = altered_in (fun ds e _ => [Txt (d_name ds); Txt (e_name e)]) ds (constrained_market_allocation ds).
Proof.
  unfold conditional_rows. rewrite each_filter. apply altered_in_each. unfold constrained_market_allocation.
  match goal with |- Forall2 _ _ ?l => assert (l = map (fun e => if bool_decide (e_type e = Byproduct) && cond_truthy e
      then nonreference_product e else e) (d_exchanges ds)) as -> by by destruct ds end.
  apply Forall2_fmap_r. apply Forall_Forall2_diag. apply Forall_forall. intros e _.
  unfold compose. destruct (_ && _) eqn:E; [left|by right]. split; [|done].
  apply andb_true_iff in E as [E _]. apply bool_decide_eq_true in E. intros E2.
  apply (f_equal e_type) in E2. rewrite E in E2. by destruct e.
Qed.

Lemma flip_altered data data' : mapR flip_non_allocatable_byproducts data = Ok data' ->
  flip_rows data = altered (fun ds e _ => [Txt (d_name ds); Txt (e_name e); Class (default Allocatable (e_class e))]) data data'.
Proof.
  intros H. apply mapR_Ok in H. apply altered_each. eapply Forall2_impl; [exact H|]. intros ds ds' Hd. cbn beta in Hd.
  unfold flip_non_allocatable_byproducts in Hd. apply bind_Ok in Hd as (es & He & Hd). apply Ok_inj in Hd as <-.
  apply altered_in_each. assert (d_exchanges (set_d_exchanges es ds) = es) as -> by by destruct ds.
  apply mapR_Ok in He. eapply Forall2_impl; [exact He|]. intros e e' Hf. cbn beta in Hf.
  unfold flip_exchange in Hf. unfold flip_row. destruct (bool_decide (e_type e = Byproduct)) eqn:Et.
  - apply bind_Ok in Hf as (c & Hc & Hf). destruct (e_class e) as [c'|]; [|discriminate Hc]. apply Ok_inj in Hc as ->.
    destruct (bool_decide (c = Allocatable)) eqn:Ec; apply Ok_inj in Hf as <-; [by right|left].
    split; [|done]. apply bool_decide_eq_true in Et. intros E. apply (f_equal e_type) in E. rewrite Et in E. by destruct e.
  - apply Ok_inj in Hf as <-. right. split; [done|]. by destruct (e_class e).
Qed.

(** *** Names without the marker *)
Lemma replace_length old k s : (String.length (replace_from old "" k s) <= String.length s)%nat.
Proof.
  revert k. induction s as [|c s IH]; intros k; [done|]. cbn [replace_from String.length].
  destruct k as [|k]; [|specialize (IH k); lia]. destruct (str_startswith old (String c s)).
  - change ("" ++ ?x)%string with x. specialize (IH (String.length old - 1)). lia.
  - cbn [String.length]. specialize (IH 0%nat). lia.
Qed.
Lemma replace_shorter old s : str_endswith old s = true -> s <> ""%string ->
  (String.length (replace_from old "" 0 s) < String.length s)%nat.
Proof.
  induction s as [|c s IH]; intros H Hn; [done|]. cbn [replace_from String.length].
  destruct (str_startswith old (String c s)) eqn:E.
  - change ("" ++ ?x)%string with x. pose proof (replace_length old (String.length old - 1) s). lia.
  - cbn [String.length]. cbn [str_endswith] in H. apply orb_true_iff in H as [H|H].
    + apply String.eqb_eq in H as <-. exfalso. revert E. generalize (String c s) as t. clear.
      induction t as [|a t IH]; [done|]. cbn. by rewrite Ascii.eqb_refl.
    + apply Nat.succ_lt_mono in IH; [lia|done|]. intros ->. cbn in H. rewrite orb_false_r in H.
      destruct old; done.
Qed.
Lemma strip_changes s : str_endswith RC_STRING s = true -> strip_marker s <> s.
Proof.
  intros H E. unfold strip_marker in E. rewrite H in E. apply (f_equal String.length) in E.
  pose proof (replace_shorter RC_STRING s H) as L. unfold str_replace in E.
  destruct s; [done|]. specialize (L ltac:(done)). lia.
Qed.

Lemma renamed_altered data : renamed_rows data =
  concat (zip_with (fun ds ds' =>
    altered_in (fun ds _ e' => [Txt (d_name ds); Txt (e_name e'); Kind (e_type e'); Txt (d_location ds)]) ds ds' ++
    (if decide (d_refprod ds = d_refprod ds') then []
     else [[Txt (d_name ds); Txt (default "" (d_refprod ds')); Txt "RP label"; Txt (d_location ds)]])%string)
    data (rename_recycled_content_products_after_linking data)).
Proof.
  unfold renamed_rows, rename_recycled_content_products_after_linking.
  induction data as [|ds data IH]; [done|]. rewrite each_cons. cbn [map zip_with concat]. rewrite IH. clear IH. f_equal. f_equal.
  - rewrite each_filter. apply altered_in_each.
    match goal with |- Forall2 _ _ ?l => assert (l = map (fun e => set_e_name (strip_marker (e_name e)) e) (d_exchanges ds)) as -> by by destruct ds end.
    apply Forall2_fmap_r. apply Forall_Forall2_diag. apply Forall_forall. intros e _. unfold compose.
    destruct (str_endswith RC_STRING (e_name e)) eqn:E; [left|right]; (split; [|by destruct e]).
    + intros E2. apply (f_equal e_name) in E2. apply (strip_changes _ E). by destruct e.
    + unfold strip_marker. rewrite E. by destruct e.
  - match goal with |- context [decide (_ = ?r)] => assert (r = option_map strip_marker (d_refprod ds)) as -> by by destruct ds end.
    destruct (d_refprod ds) as [rp|]; cbn [option_map]; [|by rewrite decide_True].
    destruct (str_endswith RC_STRING rp) eqn:E.
    + rewrite decide_False; [done|]. intros E2. apply (strip_changes _ E). by injection E2.
    + rewrite decide_True; [done|]. unfold strip_marker. by rewrite E.
Qed.

(** *** Links to parents *)
Lemma child_altered data data' : update_activity_link_parent_child data = Ok data' ->
  Forall (fun ds => d_parent ds <> Some (d_id ds)) data ->
  child_rows data = altered (fun ds e _ => [Txt (d_name ds); Txt (d_location ds); Num (e_amount e)]) data data'.
Proof.
  intros H HP. apply mapR_Ok in H. apply altered_each. eapply Forall2_impl; [exact (with_left _ _ _ _ H HP)|].
  clear. intros ds ds' [Hd HP]. cbn beta in *. unfold relink_to_child in Hd.
  assert (altered_in (fun ds e _ => [Txt (d_name ds); Txt (d_location ds); Num (e_amount e)]) ds ds = []) as Hsame.
  { rewrite <- (altered_in_each _ (fun _ => [])).
    - clear. induction (d_exchanges ds) as [|e l IH]; [done|exact IH].
    - apply Forall_Forall2_diag. apply Forall_forall. intros e _. by right. }
  destruct (d_parent ds) as [q|]; [|by apply Ok_inj in Hd as <-].
  destruct (q =? "")%string eqn:Eq; [by apply Ok_inj in Hd as <-|]. apply bind_Ok in Hd as (es & He & Hd). apply Ok_inj in Hd as <-.
  rewrite each_filter. apply altered_in_each. assert (d_exchanges (set_d_exchanges es ds) = es) as -> by by destruct ds.
  apply mapR_Ok in He. eapply Forall2_impl; [exact He|]. intros e e' Hf. cbn beta in Hf.
  apply bind_Ok in Hf as (b & Hb & Hf). apply Ok_inj in Hf as <-. rewrite Hb.
  destruct b; [by right|]. cbn [negb andb]. destruct (bool_decide (e_link e = Some q)) eqn:E; [left|by right]. split; [|done].
  apply bool_decide_eq_true in E. intros E2. apply (f_equal e_link) in E2. apply HP. rewrite <- E, E2. by destruct e.
Qed.

(** *** Links to recycled content *)
Lemma recycled_link_altered data data' rows : link_consumers_to_recycled_content_activities data = Ok data' ->
  recycled_link_rows data = Ok rows -> Forall (fun ds => d_code ds <> Some ""%string) data ->
  map (fun r => take 3 r) rows = altered (fun ds e _ => [Txt (d_name ds); Txt (e_name e); Txt (d_location ds)]) data data'.
Proof.
  unfold link_consumers_to_recycled_content_activities, recycled_link_rows. intros H HR HC.
  destruct (rc_producers data) as [ps|err] eqn:Hps; [|discriminate H]. cbn [bind] in H, HR. apply Ok_inj in HR as <-.
  assert (Forall (fun p => d_code p.2 <> Some ""%string) ps) as HP.
  { apply concat_mapR_Ok in Hps as (l & HF & ->). clear H. induction HF as [|d x l' l Hx _ IH]; [constructor|].
    apply Forall_cons in HC as [HC1 HC]. cbn [concat]. apply Forall_app. split; [|by apply IH].
    cbn beta in Hx. apply bind_Ok in Hx as (rp & _ & Hx). apply Ok_inj in Hx as <-. destruct (_ && _); [|constructor]. by constructor. }
  assert (forall mk (m : row -> row),
    (forall ds e e' p, m [Txt (d_name ds); Txt (e_name e); Txt (d_location ds); Txt (d_name p)] = mk ds e e') ->
    map m (each (fun ds => each (fun e =>
        if Locations.unlinked e then
          match filterb (fun p => (p.1 =? e_name e)%string) ps with
          | [p] => [[Txt (d_name ds); Txt (e_name e); Txt (d_location ds); Txt (d_name p.2)]]
          | _ => []
          end
        else []) (d_exchanges ds)) data) = altered mk data data') as HG.
  2: { by apply HG. }
  intros mk m Hm.
  assert (forall A B C (f : B -> C) (g : A -> list B) l, map f (each g l) = each (fun x => map f (g x)) l) as Hmap.
  { clear. intros A B C f g l. induction l as [|x l IH]; [done|]. by rewrite !each_cons, map_app, IH. }
  rewrite Hmap. apply mapR_Ok in H. apply altered_each. eapply Forall2_impl; [exact H|]. intros ds ds' Hd. cbn beta in Hd.
  apply bind_Ok in Hd as (es & He & Hd). apply Ok_inj in Hd as <-. rewrite Hmap. apply altered_in_each.
  assert (d_exchanges (set_d_exchanges es ds) = es) as -> by by destruct ds.
  apply mapR_Ok in He. eapply Forall2_impl; [exact He|]. intros e e' Hf. cbn beta in Hf. unfold link_rc in Hf.
  destruct (Locations.unlinked e) eqn:Eu; [|apply Ok_inj in Hf as <-; by right].
  destruct (filterb _ ps) as [|p [|q l]] eqn:Ef; [apply Ok_inj in Hf as <-; by right| |apply Ok_inj in Hf as <-; by right].
  apply bind_Ok in Hf as (c & Hc & Hf). apply Ok_inj in Hf as <-. left. split.
  - intros E. apply (f_equal e_code) in E.
    assert (e_code e = Some c) as Ec by (rewrite E; by destruct e).
    unfold Locations.unlinked, code_truthy in Eu. rewrite Ec in Eu. apply andb_true_iff in Eu as [_ Eu].
    assert (c = ""%string) as ->.
    { destruct c; [done|]. cbn in Eu. discriminate. }
    apply getkey_Ok in Hc. rewrite Forall_forall in HP. apply (HP p); [|done].
    assert (p ∈ filterb (fun p => (p.1 =? e_name e)%string) ps) as Hin by (rewrite Ef; by left).
    by apply filterb_In in Hin as [Hin _].
  - cbn [map]. by rewrite (Hm _ _ (set_e_code (Some c) e)).
Qed.

(** *** Volumes of by-products *)
Lemma volume_one ds scale e e' : add_pv_to_byproduct scale e = Ok e' ->
  (volume_row ds scale e = [] /\ e' = e /\ ~ (e_type e = Byproduct /\ e_class e = Some Allocatable /\ option_map v_amount (e_pv e) = Some 0%Qc)) \/
  (e_type e = Byproduct /\ e_class e = Some Allocatable /\ option_map v_amount (e_pv e) = Some 0%Qc /\
   volume_row ds scale e = [[Txt (d_name ds); Txt (e_name e); Num (Qcabs (e_amount e * scale))]] /\
   option_map v_amount (e_pv e') = Some (Qcabs (e_amount e * scale))).
Proof.
  unfold add_pv_to_byproduct, volume_row. intros H. apply bind_Ok in H as (b & Hb & H). rewrite Hb.
  unfold is_allocatable_byproduct in Hb. destruct (bool_decide (e_type e = Byproduct)) eqn:Et.
  2: { apply Ok_inj in Hb as <-. apply Ok_inj in H as <-. left. split_and!; [done..|]. apply bool_decide_eq_false in Et. tauto. }
  apply bool_decide_eq_true in Et. apply bind_Ok in Hb as (c & Hc & Hb). apply getkey_Ok in Hc. apply Ok_inj in Hb as <-.
  destruct (bool_decide (c = Allocatable)) eqn:Ec.
  2: { apply Ok_inj in H as <-. left. split_and!; [done..|]. apply bool_decide_eq_false in Ec. rewrite Hc. intros (_ & E & _). by injection E. }
  apply bool_decide_eq_true in Ec as ->. apply bind_Ok in H as (v & Hv & H). apply getkey_Ok in Hv. rewrite Hv.
  destruct (Qctruthy (v_amount v)) eqn:Eq.
  - apply Ok_inj in H as <-. left. split_and!; [done..|]. cbn [option_map]. intros (_ & _ & E). injection E as E. rewrite E in Eq. discriminate.
  - apply Ok_inj in H as <-. right. split_and!; [done..| | |by destruct e, v]; [|done]. cbn [option_map].
    unfold Qctruthy in Eq. apply negb_false_iff, Qceqb_true in Eq. by rewrite Eq.
Qed.
Lemma volume_altered data data' : add_pv_to_allocatable_byproducts data = Ok data' ->
  volume_rows data = concat (zip_with (fun ds ds' =>
    map (fun p => [Txt (d_name ds); Txt (e_name p.1); Num (default 0%Qc (option_map v_amount (e_pv p.2)))])
      (filter (fun p => e_type p.1 = Byproduct /\ e_class p.1 = Some Allocatable /\ option_map v_amount (e_pv p.1) = Some 0%Qc)
         (zip (d_exchanges ds) (d_exchanges ds')))) data data') /\
  altered (fun ds e e' => [Txt (d_name ds); Txt (e_name e); Num (default 0%Qc (option_map v_amount (e_pv e')))]) data data'
    `sublist_of` volume_rows data.
Proof.
  intros H. apply mapR_Ok in H. unfold volume_rows.
  assert (forall ds es es' g,
    Forall2 (fun e e' => (g e = [] /\ e' = e /\ ~ (e_type e = Byproduct /\ e_class e = Some Allocatable /\ option_map v_amount (e_pv e) = Some 0%Qc)) \/
      (e_type e = Byproduct /\ e_class e = Some Allocatable /\ option_map v_amount (e_pv e) = Some 0%Qc /\
       g e = [[Txt (d_name ds); Txt (e_name e); Num (default 0%Qc (option_map v_amount (e_pv e')))]])) es es' ->
    each g es = map (fun p => [Txt (d_name ds); Txt (e_name p.1); Num (default 0%Qc (option_map v_amount (e_pv p.2)))])
      (filter (fun p => e_type p.1 = Byproduct /\ e_class p.1 = Some Allocatable /\ option_map v_amount (e_pv p.1) = Some 0%Qc) (zip es es')) /\
    map (fun p => [Txt (d_name ds); Txt (e_name p.1); Num (default 0%Qc (option_map v_amount (e_pv p.2)))])
      (filter (fun p => p.1 <> p.2) (zip es es')) `sublist_of` each g es) as HG.
  { clear. intros ds es es' g. induction 1 as [|e e' l l' HR _ [IH1 IH2]]; [done|].
    rewrite each_cons. cbn [zip zip_with]. change (zip_with pair l l') with (zip l l'). rewrite !filter_cons. cbn [fst snd].
    destruct HR as [(-> & -> & HN)|(H1 & H2 & H3 & ->)].
    - rewrite decide_False by exact HN. rewrite (decide_False (P := e <> e)) by auto. done.
    - rewrite (decide_True (P := _ /\ _)) by done. split; [cbn [map app]; by rewrite IH1|].
      destruct (decide (e <> e')); cbn [map app]; [by apply sublist_skip|by apply sublist_cons]. }
  assert (Forall2 (fun ds ds' => 
    let g := fun ds => match get_biggest_pv_to_exchange_ratio ds with Ok scale => each (volume_row ds scale) (d_exchanges ds) | Err _ => [] end in
    g ds = map (fun p => [Txt (d_name ds); Txt (e_name p.1); Num (default 0%Qc (option_map v_amount (e_pv p.2)))])
      (filter (fun p => e_type p.1 = Byproduct /\ e_class p.1 = Some Allocatable /\ option_map v_amount (e_pv p.1) = Some 0%Qc)
        (zip (d_exchanges ds) (d_exchanges ds'))) /\
    altered_in (fun ds e e' => [Txt (d_name ds); Txt (e_name e); Num (default 0%Qc (option_map v_amount (e_pv e')))]) ds ds' `sublist_of` g ds) data data') as HF.
  { eapply Forall2_impl; [exact H|]. clear data data' H. intros ds ds' H g. cbn beta in H. unfold g. clear g. unfold altered_in.
    unfold add_pv_to_allocatable_byproducts_ds in H. apply bind_Ok in H as (b & Hb & H). destruct b.
    - apply bind_Ok in H as (scale & Hs & H). rewrite Hs. apply bind_Ok in H as (es & He & H). apply Ok_inj in H as <-.
      assert (d_exchanges (set_d_exchanges es ds) = es) as -> by by destruct ds. apply HG. apply mapR_Ok in He.
      eapply Forall2_impl; [exact He|]. intros e e' Hf. cbn beta in Hf. apply (volume_one ds) in Hf as [Hf|(E1 & E2 & E3 & E4 & E5)]; [by left|].
      right. split_and!; [done..|]. by rewrite E4, E5.
    - apply Ok_inj in H as <-.
      assert (Forall (fun e => is_allocatable_byproduct e = Ok false) (d_exchanges ds)) as HA.
      { clear HG. induction (d_exchanges ds) as [|e l IH]; [constructor|]. cbn [anyR] in Hb. apply bind_Ok in Hb as (x & Hx & Hb).
        destruct x; [discriminate Hb|]. constructor; [done|by apply IH]. }
      assert (match get_biggest_pv_to_exchange_ratio ds with Ok scale => each (volume_row ds scale) (d_exchanges ds) | Err _ => [] end =
              each (fun _ => []) (d_exchanges ds)) as ->.
      { destruct (get_biggest_pv_to_exchange_ratio ds) as [scale|].
        - clear -HA. induction HA as [|e l HA _ IH]; [done|]. rewrite !each_cons, IH. unfold volume_row. by rewrite HA.
        - clear. induction (d_exchanges ds) as [|e l IH]; [done|exact IH]. }
      apply HG. apply Forall_Forall2_diag. eapply Forall_impl; [exact HA|]. cbn beta. intros e He. left. split_and!; [done..|].
      intros (E1 & E2 & _). unfold is_allocatable_byproduct in He. rewrite E1, E2 in He. discriminate. }
  clear HG H. split.
  - induction HF as [|ds ds' l l' [HR _] _ IH]; [done|]. rewrite each_cons, IH. cbn [zip_with concat]. f_equal. exact HR.
  - induction HF as [|ds ds' l l' [_ HR] _ IH]; [done|]. rewrite each_cons, altered_cons. by apply sublist_app.
Qed.

(** *** Volumes of confidential datasets *)
Lemma fake_altered data data' : assign_fake_pv_to_confidential_datasets data = Ok data' ->
  Forall (fun ds => d_name ds ∈ confidential_names -> production_volume ds <> Some 1%Qc) data ->
  fake_rows data = altered_datasets (fun _ d' => [Txt (d_name d'); Txt (reference_products_as_string d'); Num (default 0%Qc (production_volume d'))]) data data'.
Proof.
  intros H HN. apply mapR_Ok in H. apply altered_datasets_each. eapply Forall2_impl; [exact (with_left _ _ _ _ H HN)|].
  clear. intros ds ds' [Hd HN]. cbn beta in *. destruct (is_type Transforming ds && bool_decide (d_name ds ∈ confidential_names)) eqn:E.
  2: { apply Ok_inj in Hd as <-. by right. }
  apply andb_true_iff in E as [_ E]. apply bool_decide_eq_true in E. specialize (HN E).
  apply bind_Ok in Hd as (rp & Hrp & Hd). rewrite Hrp. apply bind_Ok in Hd as (v & Hv & Hd). apply getkey_Ok in Hv. apply Ok_inj in Hd as <-.
  apply get_single_filter in Hrp.
  assert (forall ds rp v, filter is_refproduct (d_exchanges ds) = [rp] -> e_pv rp = Some v ->
    reference_products ds = [rp] /\ production_volume ds = Some (v_amount v) /\ reference_products_as_string ds = e_name rp) as HS.
  { clear. intros ds rp v H Hv. assert (reference_products ds = [rp]) as E.
    { rewrite <- H. unfold reference_products. apply filterb_filter. intros e _. done. }
    unfold production_volume, reference_products_as_string. rewrite E, Hv. done. }
  set (v' := set_v_amount 1%Qc v).
  assert (filter is_refproduct (d_exchanges (set_rp_pv (set_v_amount 1%Qc) ds)) = [set_e_pv (Some v') rp]) as Hrp'.
  { unfold set_rp_pv. cbn [d_exchanges set_d_exchanges]. revert Hrp. clear HN E HS. revert Hv. generalize (d_exchanges ds) as es. intros es Hv.
    assert (forall es, filter is_refproduct (map (fun e => if bool_decide (e_type e = RefProduct) then set_e_pv (option_map (set_v_amount 1%Qc) (e_pv e)) e else e) es) =
      map (fun e => set_e_pv (option_map (set_v_amount 1%Qc) (e_pv e)) e) (filter is_refproduct es)) as ->.
    { clear. induction es as [|e es IH]; [done|]. cbn [map]. rewrite !filter_cons. unfold is_refproduct in *.
      destruct (bool_decide (e_type e = RefProduct)) eqn:E.
      - apply bool_decide_eq_true in E. rewrite decide_True by (by destruct e). rewrite decide_True by done. cbn [map]. by rewrite IH.
      - apply bool_decide_eq_false in E. rewrite decide_False by done. rewrite decide_False by done. exact IH. }
    intros ->. cbn [map]. rewrite Hv. done. }
  destruct (HS _ _ _ Hrp Hv) as (_ & P1 & _). destruct (HS _ _ v' Hrp' ltac:(by destruct rp)) as (_ & P2 & P3).
  left. split.
  - intros E2. apply HN. rewrite E2, P2. by destruct v.
  - rewrite P2, P3. by destruct rp, v, ds.
Qed.

(** *** Factors and signs *)
Lemma refprods_filter ds : reference_products ds = filter is_refproduct (d_exchanges ds).
Proof. unfold reference_products. apply filterb_filter. intros e _. done. Qed.
Lemma single_string ds rp : filter is_refproduct (d_exchanges ds) = [rp] -> reference_products_as_string ds = e_name rp.
Proof. intros H. unfold reference_products_as_string. rewrite refprods_filter, H. done. Qed.
Lemma single_amount ds rp : filter is_refproduct (d_exchanges ds) = [rp] -> product_amount ds = e_amount rp.
Proof. intros H. unfold product_amount. rewrite H. cbn [map]. change (Qcsum [?x]) with (x + 0)%Qc. ring. Qed.
Lemma scaled_refprods k es es' : Forall2 (scaled_by k) es es' ->
  Qcsum (map e_amount (filter is_refproduct es')) = (Qcsum (map e_amount (filter is_refproduct es)) * k)%Qc.
Proof.
  intros H. pose proof (scaled_filter is_refproduct k _ _ is_refproduct_same H) as HF. revert HF.
  generalize (filter is_refproduct es) as l, (filter is_refproduct es') as l'. clear.
  induction 1 as [|e e' l l' [H _] _ IH]; [by cbn; ring|]. cbn [map].
  change (Qcsum (?x :: ?l)) with (x + Qcsum l)%Qc. rewrite IH, H. ring.
Qed.
Lemma factor_altered ln data data' : mapR (normalize_reference_production_amount ln) data = Ok data' ->
  factor_rows data = altered_datasets (fun d d' =>
    [Txt (d_name d); Txt (reference_products_as_string d); Num (product_amount d' / product_amount d)%Qc]) data data'.
Proof.
  intros H. apply mapR_Ok in H. apply altered_datasets_each. eapply Forall2_impl; [exact H|]. clear.
  intros ds ds' H. cbn beta in *. unfold normalize_reference_production_amount in H.
  apply bind_Ok in H as (rp & Hrp & H). rewrite Hrp. apply get_single_filter in Hrp.
  rewrite (single_string _ _ Hrp), (single_amount _ _ Hrp).
  destruct (Qctruthy (e_amount rp)) eqn:Et; [|discriminate H]. cbn [negb andb] in *.
  unfold Qctruthy in Et. apply negb_true_iff, Qceqb_false in Et.
  apply bind_Ok in H as (k & Hk & H).
  assert (Qcabs (e_amount rp) <> 0%Qc) as Ha.
  { intros E. apply Et. revert E. unfold Qcabs. destruct (Qcltb (e_amount rp) 0); intros E; [|done]. rewrite <- (Qcopp_involutive (e_amount rp)), E. done. }
  assert (k = 1 / Qcabs (e_amount rp))%Qc as ->.
  { unfold divR in Hk. destruct (Qceqb (Qcabs (e_amount rp)) 0) eqn:E; [|by apply Ok_inj in Hk]. by apply Qceqb_true in E. }
  clear Hk. set (k := (1 / Qcabs (e_amount rp))%Qc) in *. destruct (Qcltb epsilon (Qcabs (k - 1))) eqn:Ee.
  2: { apply Ok_inj in H as <-. by right. }
  apply bind_Ok in H as (es & He & H). apply Ok_inj in H as <-. apply scale_all_scaled in He.
  assert (product_amount (set_d_exchanges es ds) = e_amount rp * k)%Qc as Hp.
  { rewrite <- (single_amount _ _ Hrp). unfold product_amount. cbn [d_exchanges set_d_exchanges]. by apply scaled_refprods. }
  left. rewrite Hp. split.
  - intros E. rewrite <- E, (single_amount _ _ Hrp) in Hp.
    assert (k = 1)%Qc as Hk1.
    { assert (e_amount rp * (k - 1) = 0)%Qc as E0 by (transitivity (e_amount rp * k - e_amount rp)%Qc; [ring|rewrite <- Hp; ring]).
      apply Qcmult_integral in E0 as [E0|E0]; [done|]. rewrite <- (Qcplus_0_l 1), <- E0. ring. }
    rewrite Hk1 in Ee. by vm_compute in Ee.
  - assert (e_amount rp * k / e_amount rp = k)%Qc as -> by (by field). done.
Qed.
Lemma sign_altered ln data data' : adjust_market_signs_for_allocatable_products ln data = Ok data' ->
  Forall (fun ds => d_type ds = MarketActivity -> product_amount ds <> 0%Qc) data ->
  sign_rows data = altered_datasets (fun d _ => [Txt (d_name d); Txt (d_location d)]) data data'.
Proof.
  intros H HN. apply mapR_Ok in H. apply altered_datasets_each. eapply Forall2_impl; [exact (with_left _ _ _ _ H HN)|].
  clear. intros ds ds' [Hd HN]. cbn beta in *. unfold adjust_market_sign in Hd.
  destruct (bool_decide (d_type ds = MarketActivity)) eqn:Em; [|apply Ok_inj in Hd as <-; by right].
  apply bool_decide_eq_true in Em. specialize (HN Em).
  apply bind_Ok in Hd as (rp & Hrp & Hd). rewrite Hrp. apply get_single_filter in Hrp.
  apply bind_Ok in Hd as (c & Hc & Hd). apply getkey_Ok in Hc. rewrite Hc.
  destruct (decide (c = Waste)) as [->|Hw]; [rewrite bool_decide_eq_true_2 in Hd by done; apply Ok_inj in Hd as <-; by right|].
  rewrite bool_decide_eq_false_2 in Hd by done. rewrite bool_decide_eq_false_2 by congruence. cbn [negb andb].
  rewrite (single_amount _ _ Hrp) in HN.
  assert (forall es, Qcsum (map e_amount (filter is_refproduct es)) = (- e_amount rp)%Qc -> ds <> set_d_exchanges es ds) as HD.
  { intros es H E. apply (f_equal product_amount) in E. rewrite (single_amount _ _ Hrp) in E. unfold product_amount in E.
    cbn [d_exchanges set_d_exchanges] in E. rewrite H in E. apply HN. clear -E. qclra. }
  destruct (forallb _ _).
  - cbn [orb]. apply bind_Ok in Hd as (es & He & Hd). apply Ok_inj in Hd as <-. left. split; [|done]. apply HD.
    rewrite (scaled_refprods (- (1)) (d_exchanges ds) es).
    + rewrite Hrp. cbn [map]. change (Qcsum [?x]) with (x + 0)%Qc. ring.
    + apply mapR_Ok in He. eapply Forall2_impl; [exact He|]. intros e e' H. exact (negate_spec _ _ _ H).
  - cbn [orb]. destruct (Qcltb (e_amount rp) 0); [|apply Ok_inj in Hd as <-; by right].
    apply bind_Ok in Hd as (es & He & Hd). apply Ok_inj in Hd as <-. left. split; [|done]. apply HD.
    apply mapR_Ok in He.
    assert (Forall2 (fun e e' => scaled_by (- (1)) e e' /\ e_name e = e_name rp \/ (e' = e /\ e_name e <> e_name rp)) (d_exchanges ds) es) as HF.
    { eapply Forall2_impl; [exact He|]. intros e e' H. cbn beta in H. destruct (e_name e =? e_name rp)%string eqn:E.
      - left. split; [exact (negate_spec _ _ _ H)|]. by apply String.eqb_eq.
      - right. apply Ok_inj in H as <-. split; [done|]. by apply String.eqb_neq. }
    clear He HD.
    assert (Forall2 (fun e e' => scaled_by (- (1)) e e' /\ e_name e = e_name rp \/ (e' = e /\ e_name e <> e_name rp))
      (filter is_refproduct (d_exchanges ds)) (filter is_refproduct es)) as HF2.
    { apply (Combined_proofs.filter_Forall2 is_refproduct); [|exact HF]. clear. intros e e' [[[_ H] _]|[-> _]]; [|done]. symmetry. by apply is_refproduct_same. }
    rewrite Hrp in HF2. apply Forall2_cons_inv_l in HF2 as (rp' & l & HR & HF2 & ->). apply Forall2_nil_inv_l in HF2 as ->.
    cbn [map]. change (Qcsum [?x]) with (x + 0)%Qc. destruct HR as [[[-> _] _]|[_ HR]]; [ring|done].
Qed.

(** *** What is deleted *)
Lemma perm_filter {A} (t : A -> bool) l : Permutation l (filterb t l ++ filterb (fun x => negb (t x)) l).
Proof.
  induction l as [|x l IH]; [done|].
  change (filterb t (x :: l)) with (if t x then x :: filterb t l else filterb t l).
  change (filterb (fun x => negb (t x)) (x :: l)) with (if negb (t x) then x :: filterb (fun x => negb (t x)) l else filterb (fun x => negb (t x)) l).
  destruct (t x); cbn [negb app]; [by constructor|]. rewrite <- Permutation_middle. by constructor.
Qed.
Lemma listing_cons mk d l : listing mk (d :: l) = map (mk d) (d_exchanges d) ++ listing mk l.
Proof. done. Qed.
Lemma consequential_gone data :
  let mk := fun ds e => [Txt (d_name ds); Txt (e_name e); Num (e_amount e)] in
  Permutation (listing mk data) (consequential_rows data ++ listing mk (remove_consequential_exchanges data)).
Proof.
  intros mk. unfold consequential_rows, remove_consequential_exchanges. induction data as [|ds data IH]; [done|].
  cbn [map]. rewrite !listing_cons, each_cons.
  assert (mk (set_d_exchanges (filterb (fun e => negb (has_consequential_property e)) (d_exchanges ds)) ds) = mk ds) as -> by by destruct ds.
  cbn [d_exchanges set_d_exchanges].
  rewrite (perm_filter has_consequential_property (d_exchanges ds)) at 1. rewrite map_app, IH. fold (mk ds). rewrite <- !app_assoc.
  apply Permutation_app_head. rewrite !app_assoc. apply Permutation_app_tail. apply Permutation_app_comm.
Qed.

Lemma filterb_length_le {A} (t : A -> bool) l : (List.length (filterb t l) <= List.length l)%nat.
Proof. induction l as [|x l IH]; [done|]. unfold filterb in *. cbn. destruct (t x); cbn; lia. Qed.
Lemma filterb_same_length {A} (t : A -> bool) l : List.length (filterb t l) = List.length l -> filterb t l = l.
Proof.
  induction l as [|x l IH]; [done|]. unfold filterb in *. cbn. destruct (t x); cbn; intros H.
  - f_equal. apply IH. lia.
  - pose proof (filterb_length_le t l). unfold filterb in *. lia.
Qed.
Lemma refinery_altered data : refinery_rows data = altered_datasets (fun d d' =>
    [Txt (d_name d); Txt (d_location d); count_cell (List.length (d_exchanges d)); count_cell (List.length (d_exchanges d'))])
  data (fix_specific_ecoinvent_issues data).
Proof.
  apply altered_datasets_each. unfold fix_specific_ecoinvent_issues. apply Forall2_fmap_r. apply Forall_Forall2_diag. apply Forall_forall.
  intros ds _. unfold compose. destruct (d_name ds =? "petroleum refinery operation")%string; [|by right].
  set (es := filterb _ _). destruct (List.length (d_exchanges ds) =? List.length es)%nat eqn:E; [right|left].
  - apply Nat.eqb_eq in E. split; [|done]. unfold es in *. rewrite filterb_same_length by done. by destruct ds.
  - apply Nat.eqb_neq in E. split; [|by destruct ds]. intros E2. apply E. rewrite E2 at 1. by destruct ds.
Qed.

Lemma dropped_gone data : let mk := fun ds => [Txt (d_name ds); Txt (reference_products_as_string ds)] in
  Permutation (map mk data) (dropped_rows data ++ map mk (drop_zero_pv_row_datasets data)).
Proof.
  intros mk. set (t := fun ds => is_type MarketActivity ds && (d_location ds =? "RoW")%string && bool_decide (production_volume ds = Some 0%Qc)).
  assert (dropped_rows data = map mk (filterb t data)) as ->.
  { unfold dropped_rows, t. clear. induction data as [|ds data IH]; [done|]. unfold filterb in *. cbn [List.filter].
    destruct (is_type MarketActivity ds && (d_location ds =? "RoW")%string); cbn [andb]; [|exact IH].
    rewrite each_cons, IH. destruct (bool_decide _); done. }
  assert (drop_zero_pv_row_datasets data = filterb (fun ds => negb (t ds)) data) as ->.
  { unfold drop_zero_pv_row_datasets, t, filterb. apply filter_ext. intros ds. rewrite !negb_andb.
    destruct (is_type MarketActivity ds), (d_location ds =? "RoW")%string, (bool_decide _); done. }
  rewrite <- map_app. apply Permutation_map. apply perm_filter.
Qed.
Lemma whitelisted_gone data : let mk := fun ds => [Txt (d_name ds); Txt (default ""%string (d_refprod ds))] in
  Permutation (map mk data) (whitelisted_rows data ++ map mk (delete_whitelisted_zero_pv_market_datsets data)).
Proof. intros mk. unfold whitelisted_rows, delete_whitelisted_zero_pv_market_datsets. rewrite <- map_app. apply Permutation_map. apply perm_filter. Qed.

Lemma in_concat' {A} (x : A) ls : x ∈ concat ls <-> exists l, x ∈ l /\ l ∈ ls.
Proof.
  rewrite elem_of_list_In, in_concat. split; intros (l & H1 & H2); exists l; rewrite ?elem_of_list_In in *; done.
Qed.
Lemma idle_gone kind data data' rows : delete_global_with_zero_pv_when_regional_present kind data = Ok data' ->
  idle_rows kind data = Ok rows ->
  forall r, r ∈ rows <-> exists ds, ds ∈ data /\ ds ∉ data' /\ r = [Txt (d_name ds); Txt (default ""%string (d_refprod ds)); Txt (d_location ds)].
Proof.
  unfold delete_global_with_zero_pv_when_regional_present, idle_rows. destruct (keyed (typed_refprod [kind]) data) as [ks|] eqn:Hk; [|done].
  cbn [bind]. intros H HR. apply Ok_inj in H as <-. apply Ok_inj in HR as <-. intros r.
  assert (forall g row, g ∈ groupby ks -> row ∈ idle_row (map snd g.2) -> row ∈ data /\ d_refprod row = Some g.1) as HI.
  { intros [k xs] row Hg Hr. apply keyed_Ok in Hk as (_ & _ & HW). destruct (groupby_spec ks) as (_ & _ & HX).
    apply HX in Hg as [_ ->]. rewrite HW in Hr. cbn [fst snd] in *.
    assert (row ∈ map snd (members (typed_refprod [kind]) k data)) as Hin.
    { revert Hr. generalize (map snd (members (typed_refprod [kind]) k data)) as l. clear. intros l. unfold idle_row.
      destruct l as [|a [|b l]]; [intros H%elem_of_nil; done..|]. destruct (List.find _ _) as [x|] eqn:E; [|intros H%elem_of_nil; done].
      apply find_some in E as [E _]. intros H. apply elem_of_list_In.
      destruct (original_production_volume x) as [v|]; [destruct (Qctruthy v)|];
        first [by apply elem_of_nil in H|by apply elem_of_list_singleton in H as ->]. }
    rewrite members_snd in Hin. apply elem_of_list_filter in Hin as [Hkey Hin]. split; [done|].
    unfold key_of, typed_refprod in Hkey. destruct (bool_decide _); [|done]. unfold refprod, getkey in Hkey.
    destruct (d_refprod row) as [rp|]; cbn in Hkey; [|done]. by injection Hkey as ->. }
  unfold each. split.
  - intros H. apply in_concat' in H as (l & H & Hl). apply elem_of_list_fmap in Hl as (g & -> & Hg).
    apply elem_of_list_fmap in H as (ds & -> & Hds). destruct (HI _ _ Hg Hds) as [H1 H2]. exists ds. split; [done|]. split.
    + intros Hin. apply filterb_In in Hin as [_ Hin]. apply bool_decide_eq_true in Hin. apply Hin.
      apply in_concat'. exists (idle_row (map snd g.2)). split; [done|]. apply elem_of_list_fmap. by exists g.
    + by rewrite H2.
  - intros (ds & Hd & Hn & ->). destruct (decide (ds ∈ concat (map (fun g => idle_row (map snd g.2)) (groupby ks)))) as [Hp|Hp].
    + apply in_concat' in Hp as (l & Hl & Hp). apply elem_of_list_fmap in Hp as (g & -> & Hg).
      destruct (HI _ _ Hg Hl) as [_ H2]. rewrite H2. cbn [default]. apply in_concat'.
      eexists. split; [|apply elem_of_list_fmap; by exists g]. cbn beta. apply elem_of_list_fmap. by exists ds.
    + exfalso. apply Hn. apply filterb_In. split; [done|]. by apply bool_decide_eq_true.
Qed.

(** *** What is new *)
Lemma recycled_new data data' rows : create_recycled_content_datasets data = Ok data' -> recycled_rows data = Ok rows ->
  map (fun ds => [Txt (d_name ds)]) data' = map (fun ds => [Txt (d_name ds)]) data ++ rows.
Proof.
  unfold create_recycled_content_datasets, recycled_rows. intros H HR. apply bind_Ok in H as (new & Hn & H). rewrite Hn in HR. cbn [bind] in HR.
  apply Ok_inj in H as <-. apply Ok_inj in HR as <-. rewrite map_app, map_map. f_equal. apply map_ext_in.
  assert (forall l acc new, Forall (fun p => d_name p.2 = p.1) acc ->
    foldR (fun new ds => foldR (add_recycled_content ds) new (d_exchanges ds)) acc l = Ok new -> Forall (fun p => d_name p.2 = p.1) new) as HG.
  { clear. induction l as [|ds l IH]; intros acc new Ha H; [by apply Ok_inj in H as <-|]. cbn [foldR] in H. apply bind_Ok in H as (acc' & H1 & H).
    apply (IH acc'); [|exact H]. clear H IH new l. revert acc Ha H1. induction (d_exchanges ds) as [|e es IH]; intros acc Ha H.
    - by apply Ok_inj in H as <-.
    - cbn [foldR] in H. apply bind_Ok in H as (acc2 & H1 & H). apply (IH acc2); [|exact H]. unfold add_recycled_content in H1.
      apply bind_Ok in H1 as (b & _ & H1). destruct b; [|by apply Ok_inj in H1 as <-]. apply bind_Ok in H1 as (rc & _ & H1). apply Ok_inj in H1 as <-.
      clear -Ha. induction acc as [|[k x] acc IH]; cbn [assoc_set]; [by repeat constructor|]. apply Forall_cons in Ha as [H1 Ha].
      destruct (_ =? _)%string eqn:E.
      + apply String.eqb_eq in E. constructor; [|done]. cbn [fst snd] in *. congruence.
      + constructor; [done|by apply IH]. }
  specialize (HG data [] new ltac:(constructor) Hn). intros p Hp. rewrite Forall_forall in HG. rewrite (HG p); [done|]. by apply elem_of_list_In.
Qed.
Lemma parameter_new fresh ds : exists new, d_params (create_pv_parameters fresh ds) = d_params ds ++ new /\
  parameter_rows ds = map (fun q => [Txt (d_name ds); Txt (default ""%string (q_name q)); Num (q_amount q)]) new.
Proof.
  exists ((shift_pvs fresh 0 (d_exchanges ds)).2). split; [by destruct ds|]. unfold parameter_rows. generalize 0%nat as n.
  induction (d_exchanges ds) as [|e es IH]; intros n; [done|]. rewrite each_cons. cbn [shift_pvs].
  destruct (e_pv e) as [v|]; [|apply IH]. destruct (v_variable v) as [x|]; [|apply IH]. cbn [snd map app]. f_equal. apply IH.
Qed.

(** *** Links that were not resolved *)
Lemma unresolved_altered data data' : actualize_activity_links data = Ok data' ->
  Forall (fun ds => Forall (fun e => e_code e = None) (d_exchanges ds)) data ->
  unresolved_rows data = concat (zip_with (fun ds ds' =>
    map (fun p => [Txt (default ""%string (e_link p.1)); Txt (e_name p.1); Num (e_amount p.1)])
      (filter (fun p => e_link p.1 <> None /\ e_link p.1 <> Some ""%string /\ e_code p.2 = None)
         (zip (d_exchanges ds) (d_exchanges ds')))) data data').
Proof.
  unfold actualize_activity_links, unresolved_rows. intros H HN. apply mapR_Ok in H.
  pose proof (with_left _ _ _ _ H HN) as HF. clear H HN. revert HF.
  enough (forall all l l', Forall2 (fun ds ds' => (let? es := mapR (actualize_link all) (d_exchanges ds) in Ok (set_d_exchanges es ds)) = Ok ds' /\
      Forall (fun e => e_code e = None) (d_exchanges ds)) l l' ->
    each (fun ds => each (unresolved_row all) (d_exchanges ds)) l = concat (zip_with (fun ds ds' =>
    map (fun p => [Txt (default ""%string (e_link p.1)); Txt (e_name p.1); Num (e_amount p.1)])
      (filter (fun p => e_link p.1 <> None /\ e_link p.1 <> Some ""%string /\ e_code p.2 = None)
         (zip (d_exchanges ds) (d_exchanges ds')))) l l')) as HG by apply HG.
  clear data data'. intros all. induction 1 as [|ds ds' l l' [Hd HN] _ IH]; [done|].
  rewrite each_cons, IH. cbn [zip_with concat]. f_equal. clear IH. apply bind_Ok in Hd as (es & He & Hd). apply Ok_inj in Hd as <-.
  assert (d_exchanges (set_d_exchanges es ds) = es) as -> by by destruct ds. apply mapR_Ok in He.
  pose proof (with_left _ _ _ _ He HN) as HF. clear He HN. induction HF as [|e e' es1 es2 [He HN] _ IH]; [done|].
  rewrite each_cons, IH. cbn [zip zip_with]. change (zip_with pair es1 es2) with (zip es1 es2). rewrite filter_cons. cbn [fst snd]. clear IH.
  unfold actualize_link in He. unfold unresolved_row. destruct (e_link e) as [i|] eqn:El; [|by rewrite decide_False by (intros [[] _]; done)].
  destruct (i =? "")%string eqn:Ei.
  { apply String.eqb_eq in Ei as ->. rewrite decide_False by tauto. done. }
  apply String.eqb_neq in Ei.
  destruct (filterb (fun ds => (d_id ds =? i)%string) all) as [|x group] eqn:Eg; [discriminate He|].
  apply bind_Ok in He as (refs & Hr & He). rewrite <- Eg in Hr.
  assert (filterb (fun ds => (d_id ds =? i)%string && bool_decide (d_refprod ds = Some (e_name e))) all = refs) as ->.
  { clear -Hr. revert refs Hr. induction all as [|d all IH]; intros refs Hr; [by apply Ok_inj in Hr as <-|].
    unfold filterb in *. cbn [List.filter] in *. destruct (d_id d =? i)%string; cbn [andb]; [|by apply IH].
    cbn [filterR] in Hr. apply bind_Ok in Hr as (b & Hb & Hr). apply bind_Ok in Hb as (rp & Hrp & Hb). apply getkey_Ok in Hrp. apply Ok_inj in Hb as <-.
    apply bind_Ok in Hr as (r & Hr1 & Hr). apply Ok_inj in Hr as <-. rewrite (IH _ Hr1), Hrp.
    destruct (rp =? e_name e)%string eqn:E.
    - apply String.eqb_eq in E as ->. by rewrite bool_decide_eq_true_2.
    - apply String.eqb_neq in E. by rewrite bool_decide_eq_false_2 by congruence. }
  destruct refs as [|d [|d2 refs]].
  - apply Ok_inj in He as <-. rewrite decide_True by (split_and!; congruence). cbn [map fst app]. by rewrite El.
  - apply bind_Ok in He as (c & Hc & He). apply Ok_inj in He as <-. rewrite decide_False; [done|]. intros (_ & _ & E). by destruct e.
  - apply Ok_inj in He as <-. rewrite decide_True by (split_and!; congruence). cbn [map fst app]. by rewrite El.
Qed.

(** *** Counts *)
Lemma count_in (l : list (option string)) labels : NoDup labels -> Forall (fun o => exists s, o = Some s /\ s ∈ labels) l ->
  sum_list (map (fun x => List.length (filterb (fun o => bool_decide (o = Some x)) l)) labels) = List.length l.
Proof.
  intros HN. induction 1 as [|o l (s & -> & Hs) _ IH].
  - clear HN. induction labels as [|x labels IH]; [done|exact IH].
  - cbn [List.length]. rewrite <- IH. clear IH. induction HN as [|x labels Hx HN IH]; [by apply elem_of_nil in Hs|].
    cbn [map]. change (sum_list (?a :: ?l)) with (a + sum_list l)%nat. apply elem_of_cons in Hs. unfold filterb in *. cbn [List.filter] in *.
    destruct (decide (s = x)) as [->|Hne].
    + rewrite bool_decide_eq_true_2 by done. cbn [List.length]. rewrite Nat.add_succ_l. f_equal. f_equal. f_equal. clear -Hx.
      apply map_ext_in. intros y Hy. rewrite bool_decide_eq_false_2; [done|]. intros [= ->]. apply Hx. by apply elem_of_list_In.
    + rewrite bool_decide_eq_false_2 by congruence. rewrite IH by (destruct Hs; done). lia.
Qed.
Lemma method_counts data rows : method_rows data = Ok rows ->
  exists counts, rows = zip_with (fun l n => [Txt l; count_cell n]) Tables.method_labels counts /\ sum_list counts = List.length data.
Proof.
  unfold method_rows. intros H. apply bind_Ok in H as (data' & Hd & H). apply Ok_inj in H as <-.
  exists (map (fun l => List.length (filterb (fun ds => bool_decide (d_alloc ds = Some l)) data')) Tables.method_labels). split.
  - generalize Tables.method_labels as ls. clear. induction ls as [|l ls IH]; [done|]. cbn [map zip_with]. by rewrite IH.
  - apply mapR_Ok in Hd. rewrite (Forall2_length _ _ _ Hd). rewrite <- (map_length d_alloc data').
    rewrite <- (count_in (map d_alloc data') Tables.method_labels).
    + f_equal. apply map_ext. intros x. clear. induction data' as [|d l IH]; [done|]. unfold filterb in *. cbn [List.filter map].
      destruct (bool_decide _); cbn [List.length]; by rewrite IH.
    + apply (bool_decide_unpack (NoDup Tables.method_labels)). by vm_compute.
    + clear -Hd. induction Hd as [|d d' l l' Hd _ IH]; [constructor|]. cbn [map]. constructor; [|exact IH]. cbn beta in Hd.
      apply bind_Ok in Hd as (m & Hm & Hd). apply Ok_inj in Hd as <-. exists m. split; [by destruct d|]. apply choose_method in Hm.
      destruct Hm; apply (bool_decide_unpack (_ ∈ Tables.method_labels)); by vm_compute.
Qed.

(** *** Volumes of markets *)
Lemma market_altered t data data' rows : update_market_production_volumes t MarketActivity data = Ok data' ->
  market_rows data = Ok rows ->
  Forall2 (fun ds r => exists rp v suppliers, filter is_refproduct (d_exchanges ds) = [rp] /\ e_pv rp = Some v /\
      d_suppliers ds = Some suppliers /\
      r = [Txt (d_name ds); Txt (e_name rp); Txt (d_location ds); Num (default 0%Qc (v_original_total v));
           Num (Qcsum (map (fun v => default 0%Qc (v_subtracted v)) (omap e_pv suppliers)));
           Num (default 0%Qc (v_subtracted v)); Num (v_amount v)])
    (filter (fun ds => d_type ds = MarketActivity) data') rows.
Proof.
  unfold update_market_production_volumes, market_rows. rewrite bool_decide_eq_false_2 by done. intros H HR.
  apply mapR_Ok in H. revert rows HR. induction H as [|ds ds' l l' Hd _ IH]; intros rows HR.
  - apply Ok_inj in HR as <-. constructor.
  - cbn beta in Hd. unfold is_type in Hd. unfold filterb, is_type in *. cbn [List.filter] in HR. destruct (bool_decide (d_type ds = MarketActivity)) eqn:Em.
    + cbn [mapR] in HR. apply bind_Ok in HR as (r & Hr & HR). apply bind_Ok in HR as (rs & Hrs & HR). apply Ok_inj in HR as <-.
      apply bool_decide_eq_true in Em. unfold update_volume in Hd. apply bind_Ok in Hd as (pv & Hpv & Hd).
      apply bind_Ok in Hd as (ss & Hss & Hd). apply bind_Ok in Hd as (os & Hos & Hd). apply Ok_inj in Hd as <-.
      rewrite filter_cons_True by done. constructor; [|by apply IH].
      unfold updated_volume in Hpv. apply bind_Ok in Hpv as (rp & Hrp & Hpv). rewrite Hss in Hpv. cbn [bind] in Hpv. rewrite Hos in Hpv. cbn [bind] in Hpv.
      apply bind_Ok in Hpv as (v & Hv & Hpv). apply bind_Ok in Hpv as (pvs & Hpvs & Hpv). apply Ok_inj in Hpv as <-.
      unfold market_row in Hr. rewrite Hrp, Hss in Hr. cbn [bind] in Hr. rewrite Hos in Hr. cbn [bind] in Hr. rewrite Hv in Hr. cbn [bind] in Hr.
      apply bind_Ok in Hr as (vs & Hvs & Hr). apply Ok_inj in Hr as <-. apply getkey_Ok in Hss, Hv. apply get_single_filter in Hrp.
      assert (omap e_pv ss = vs /\ pvs = map v_amount vs) as [Ho Hp].
      { apply mapR_Ok in Hvs, Hpvs. clear -Hvs Hpvs. revert pvs Hpvs. induction Hvs as [|s v ss vs Hv _ IH]; intros pvs Hp.
        - by apply Forall2_nil_inv_l in Hp as ->.
        - apply Forall2_cons_inv_l in Hp as (q & pvs' & Hq & Hp & ->). destruct (IH _ Hp) as [I1 I2]. cbn beta in *. apply getkey_Ok in Hv.
          unfold supplier_volume in Hq. rewrite Hv in Hq. cbn [getkey bind] in Hq. apply Ok_inj in Hq as <-.
          assert (omap e_pv (s :: ss) = v :: omap e_pv ss) as -> by (cbn; by rewrite Hv). cbn [map]. by rewrite I1, I2. }
      set (g := fun v0 : pvol => set_v_amount (Qcmax (Qcsum pvs - default 0%Qc (v_subtracted v)) 0) (set_v_original_total (Some (Qcsum os)) v0)).
      exists (set_e_pv (Some (g v)) rp), (g v), ss.
      assert (forall es, filter is_refproduct (map (fun e => if bool_decide (e_type e = RefProduct) then set_e_pv (option_map g (e_pv e)) e else e) es) =
        map (fun e => set_e_pv (option_map g (e_pv e)) e) (filter is_refproduct es)) as Hmap.
      { generalize g as g0. clear. intros g. induction es as [|e es IH]; [done|]. cbn [map]. rewrite !filter_cons. unfold is_refproduct in *.
        destruct (bool_decide (e_type e = RefProduct)) eqn:E.
        - apply bool_decide_eq_true in E. rewrite decide_True by (by destruct e). rewrite decide_True by done. cbn [map]. by rewrite IH.
        - apply bool_decide_eq_false in E. rewrite decide_False by done. rewrite decide_False by done. exact IH. }
      split_and!.
      * unfold set_rp_pv. cbn [d_exchanges set_d_exchanges]. rewrite Hmap, Hrp. cbn [map]. by rewrite Hv.
      * by destruct rp.
      * unfold set_rp_pv. by destruct ds.
      * rewrite Ho, <- Hp. unfold g, set_rp_pv. by destruct ds, rp, v.
    + apply Ok_inj in Hd as <-. apply bool_decide_eq_false in Em. rewrite filter_cons_False by done. by apply IH.
Qed.
(** The numbers add up if nothing was cut at zero. *)
Lemma market_adds_up t data data' rows r : update_market_production_volumes t MarketActivity data = Ok data' ->
  market_rows data = Ok rows -> r ∈ rows ->
  Forall (fun ds => Forall (fun s => forall v, e_pv s = Some v ->
      default (v_amount v) (v_original v) = v_amount v + default 0 (v_subtracted v))%Qc (default [] (d_suppliers ds))) data ->
  exists name product location (original inputs market net : Qc),
    r = [name; product; location; Num original; Num inputs; Num market; Num net] /\
    (net = original - inputs - market \/ (original - inputs - market < 0 /\ net = 0))%Qc.
Proof.
  unfold update_market_production_volumes, market_rows. rewrite bool_decide_eq_false_2 by done. intros H HR Hr HS.
  apply mapR_Ok in HR. apply elem_of_list_lookup in Hr as [i Hi]. destruct (Forall2_lookup_r _ _ _ _ _ HR Hi) as (ds & Hds & Hr). clear HR Hi.
  apply elem_of_list_lookup_2, filterb_In in Hds as [Hds _]. rewrite Forall_forall in HS. specialize (HS ds Hds). clear H Hds.
  unfold market_row in Hr. apply bind_Ok in Hr as (rp & _ & Hr). apply bind_Ok in Hr as (ss & Hss & Hr). apply getkey_Ok in Hss. rewrite Hss in HS. cbn [default] in HS.
  apply bind_Ok in Hr as (os & Hos & Hr). apply bind_Ok in Hr as (v & _ & Hr). apply bind_Ok in Hr as (vs & Hvs & Hr). apply Ok_inj in Hr as <-.
  do 7 eexists. split; [reflexivity|].
  assert (Qcsum os = Qcsum (map v_amount vs) + Qcsum (map (fun v => default 0%Qc (v_subtracted v)) vs))%Qc as ->.
  { apply mapR_Ok in Hos, Hvs. clear -Hos Hvs HS. revert os Hos HS. induction Hvs as [|s v ss vs Hv _ IH]; intros os Ho HS.
    - by apply Forall2_nil_inv_l in Ho as ->.
    - apply Forall2_cons_inv_l in Ho as (q & os' & Hq & Ho & ->). apply Forall_cons in HS as [HS1 HS]. cbn beta in *.
      cbn [map]. change (Qcsum (?x :: ?l)) with (x + Qcsum l)%Qc. rewrite (IH _ Ho HS). apply getkey_Ok in Hv. unfold original_volume in Hq.
      rewrite Hv in Hq. cbn [getkey bind] in Hq. apply Ok_inj in Hq as <-. rewrite (HS1 _ Hv). ring. }
  generalize (Qcsum (map v_amount vs)) as a, (Qcsum (map (fun v => default 0%Qc (v_subtracted v)) vs)) as b, (default 0%Qc (v_subtracted v)) as c.
  clear. intros a b c. unfold Qcmax. destruct (Qcltb (a - c) 0) eqn:E; qc_bool; [right|left].
  - split; [|done]. assert (a + b - b - c = a - c)%Qc as -> by ring. done.
  - ring.
Qed.

(** *** Datasets that became the rest of the world *)
Lemma filter_indexed {A} (P : A -> Prop) `{forall x, Decision (P x)} (l : list A) :
  map snd (filter (fun q => P q.2) (indexed l)) = filter P l.
Proof.
  rewrite <- (indexed_snd l) at 2. generalize (indexed l) as k. induction k as [|p k IH]; [done|].
  rewrite filter_cons. cbn [map]. rewrite filter_cons. destruct (decide (P p.2)); cbn [map]; by rewrite IH.
Qed.
Lemma changed_positions (ups : list (nat * dataset)) data :
  NoDup (map fst ups) -> (forall i d', (i, d') ∈ ups -> exists d, data !! i = Some d /\ d_location d <> d_location d') ->
  Permutation (map fst ups)
    (map fst (filter (fun q => d_location q.2.1 <> d_location q.2.2) (indexed (zip data (update_all ups data))))).
Proof.
  intros HN HU. apply NoDup_Permutation; [done|apply NoDup_map_filter, indexed_fst|]. intros i.
  assert (forall i d d', (i, (d, d')) ∈ indexed (zip data (update_all ups data)) <-> data !! i = Some d /\ update_all ups data !! i = Some d') as HI.
  { clear. intros i d d'. rewrite elem_of_indexed. rewrite lookup_zip_with_Some. split.
    - intros (x & y & [= -> ->] & H1 & H2). done.
    - intros [H1 H2]. by exists d, d'. }
  rewrite !elem_of_list_fmap. split.
  - intros ([j d'] & -> & Hin). destruct (HU _ _ Hin) as (d & Hd & Hl). exists (j, (d, d')). split; [done|].
    apply elem_of_list_filter. split; [done|]. apply HI. split; [done|]. apply update_all_in; [done|done|]. by eapply lookup_lt_Some.
  - intros ([j [d d']] & -> & Hin). apply elem_of_list_filter in Hin as [Hl Hin]. apply HI in Hin as [H1 H2]. cbn [fst snd] in *.
    destruct (decide (j ∈ map fst ups)) as [Hj|Hj]; [by apply elem_of_list_fmap in Hj|].
    rewrite update_all_other in H2 by done. congruence.
Qed.
Lemma relabelled_altered data data' rows : relabel_global_to_row data = Ok data' -> relabelled_rows data = Ok rows ->
  Permutation (map (fun r => take 1 r) rows)
    (map (fun p => [Txt (d_name p.1)]) (filter (fun p => d_location p.1 <> d_location p.2) (zip data data'))).
Proof.
  unfold relabel_global_to_row, update_groups, relabelled_rows. intros H HR. apply bind_Ok in H as (ks & Hks & H). rewrite Hks in HR. cbn [bind] in HR.
  apply bind_Ok in H as (ups & Hu & H). apply Ok_inj in H as <-. apply bind_Ok in HR as (rs & Hrs & HR). apply Ok_inj in HR as <-.
  apply keyed_Ok in Hks as (_ & _ & HW). destruct (groupby_spec ks) as (HN & _ & HX).
  assert (forall g, g ∈ groupby ks -> g.2 = members row_key g.1 data) as Hg.
  { intros [k xs] Hg. apply HX in Hg as [_ ->]. by rewrite HW. }
  clear HW HX. apply mapR_Ok in Hu, Hrs.
  assert (NoDup (map fst (concat ups)) /\
    (forall i d', (i, d') ∈ concat ups -> exists d, data !! i = Some d /\ d_location d <> d_location d' /\ exists k, k ∈ map fst (groupby ks) /\ key_of row_key d = Some k) /\
    map (fun r => take 1 r) (concat rs) = map (fun i => [Txt (default ""%string (d_name <$> data !! i))]) (map fst (concat ups))) as (H1 & H2 & H3).
  { revert HN Hg Hu rs Hrs. generalize (groupby ks) as gs. clear ks. intros gs HN Hg Hu. induction Hu as [|g u gs us Hgu _ IH]; intros rs Hrs.
    - apply Forall2_nil_inv_l in Hrs as ->. split_and!; [constructor| |done]. intros i d' Hin. by apply elem_of_nil in Hin.
    - apply Forall2_cons_inv_l in Hrs as (r & rs' & Hr & Hrs & ->). cbn [map] in HN. apply NoDup_cons in HN as [Hng HN].
      destruct (IH HN (fun g' Hg' => Hg g' (elem_of_list_further _ _ _ Hg')) rs' Hrs) as (I1 & I2 & I3). clear IH.
      cbn beta in *. pose proof (Hg g ltac:(by left)) as Hg2. rewrite Hg2 in Hgu, Hr. clear Hg Hg2. rewrite Hgu in Hr. cbn [bind] in Hr. apply Ok_inj in Hr as <-.
      assert (u = [] \/ exists i glo glo', u = [(i, glo')] /\ data !! i = Some glo /\ d_location glo <> d_location glo' /\ key_of row_key glo = Some g.1) as HC.
      { apply relabel_group_spec in Hgu as [[-> _]|(i & glo & rp & v & _ & _ & Hf & _ & _ & ->)]; [by left|right].
        eexists i, glo, _. split; [reflexivity|].
        assert ((i, glo) ∈ filter (fun p => d_location p.2 = "GLO"%string) (members row_key g.1 data)) as Hin by (rewrite Hf; by left).
        apply elem_of_list_filter in Hin as [Hl Hin]. apply elem_of_members in Hin as [Hin Hk]. cbn [snd] in Hl. rewrite Hl. by destruct glo. }
      cbn [concat]. destruct HC as [->|(i & glo & glo' & -> & Hi & Hl & Hk)].
      + cbn [map app]. split_and!; [done| |done]. intros i d' Hin. destruct (I2 i d' Hin) as (d & ? & ? & k & ? & ?).
        exists d. split_and!; [done..|]. exists k. split; [by right|done].
      + cbn [map app fst]. split_and!.
        * apply NoDup_cons. split; [|done]. intros Hin. apply elem_of_list_fmap in Hin as ([j d'] & Hj & Hin). cbn [fst] in Hj. subst j.
          destruct (I2 i d' Hin) as (d & Hd & _ & k & Hk2 & Hk3). apply Hng. assert (d = glo) as -> by congruence. assert (k = g.1) as -> by congruence. done.
        * intros j d' Hin. apply elem_of_cons in Hin as [Hin|Hin].
          -- injection Hin as -> ->. exists glo. split_and!; [done..|]. exists g.1. split; [by left|done].
          -- destruct (I2 j d' Hin) as (d & ? & ? & k & ? & ?). exists d. split_and!; [done..|]. exists k. split; [by right|done].
        * f_equal; [|exact I3]. rewrite Hi. cbn. do 2 f_equal.
          unfold key_of, row_key in Hk. destruct (allocatable_production glo) as [l|]; cbn in Hk; [|done]. destruct g as [[a b] c]. cbn [fst] in *.
          injection Hk as -> _. done. }
  rewrite H3. rewrite (changed_positions (concat ups) data H1).
  2: { intros i d' Hin. destruct (H2 i d' Hin) as (d & ? & ? & _). by exists d. }
  rewrite <- (filter_indexed (fun p => d_location p.1 <> d_location p.2) (zip data (update_all (concat ups) data))).
  rewrite !map_map. apply Permutation_refl'. apply map_ext_in. intros [i [d d']] Hin. apply elem_of_list_In, elem_of_list_filter in Hin as [_ Hin].
  apply elem_of_indexed in Hin. rewrite lookup_zip_with_Some in Hin. destruct Hin as (x & y & [= -> ->] & Hx & _). cbn [fst snd]. by rewrite Hx.
Qed.

(** *** Rows and columns *)
Lemma fits_of name cols rows : List.find (fun p => (p.1 =? name)%string) columns = Some (name, cols) ->
  Forall (fun r => List.length r = List.length cols) rows -> fits name rows.
Proof. intros H HF. exists cols. split; [|exact HF]. apply elem_of_list_In. by apply find_some in H as [H _]. Qed.
Lemma each_Forall {A} (f : A -> list row) n l : (forall x, Forall (fun r => List.length r = n) (f x)) -> Forall (fun r => List.length r = n) (each f l).
Proof.
  intros H. induction l as [|x l IH]; [constructor|]. rewrite each_cons. apply Forall_app. split; [apply H|exact IH].
Qed.
Lemma map_Forall {A} (f : A -> row) n l : (forall x, List.length (f x) = n) -> Forall (fun r => List.length r = n) (map f l).
Proof. intros H. induction l as [|x l IH]; constructor; [apply H|exact IH]. Qed.
Ltac fit := repeat match goal with
  | |- Forall _ (each _ _) => apply each_Forall; intros
  | |- Forall _ (map _ _) => apply map_Forall; intros; reflexivity
  | |- Forall _ (_ ++ _) => apply Forall_app; split
  | |- Forall _ [] => constructor
  | |- Forall _ [_] => constructor; [reflexivity|constructor]
  | |- Forall _ (match ?x with _ => _ end) => destruct x
  | |- Forall _ (if ?x then _ else _) => destruct x
  end.
Lemma rows_fit data :
  fits "drop_zero_amount_activity_links" (zero_link_rows data) /\
  fits "drop_rp_activity_links" (product_link_rows data) /\
  fits "remove_consequential_exchanges" (consequential_rows data) /\
  Forall (fun ds => fits "constrained_market_allocation" (conditional_rows ds)) data /\
  fits "adjust_market_signs_for_allocatable_products" (sign_rows data) /\
  fits "rename_recycled_content_products_after_linking" (renamed_rows data) /\
  (forall rows, recycled_rows data = Ok rows -> fits "create_recycled_content_datasets" rows) /\
  fits "flip_non_allocatable_byproducts" (flip_rows data) /\
  fits "update_activity_link_parent_child" (child_rows data) /\
  fits "add_pv_to_allocatable_byproducts" (volume_rows data) /\
  Forall (fun ds => fits "create_pv_parameters" (parameter_rows ds)) data /\
  fits "fix_specific_ecoinvent_issues" (refinery_rows data) /\
  (forall rows, relabelled_rows data = Ok rows -> fits "relabel_global_to_row" rows) /\
  fits "drop_zero_pv_row_datasets" (dropped_rows data) /\
  (forall rows, market_rows data = Ok rows -> fits "update_market_production_volumes" rows) /\
  fits "delete_whitelisted_zero_pv_market_datsets" (whitelisted_rows data) /\
  fits "assign_fake_pv_to_confidential_datasets" (fake_rows data) /\
  (forall kind rows, idle_rows kind data = Ok rows -> fits "delete_global_with_zero_pv_when_regional_present" rows) /\
  fits "actualize_activity_links" (unresolved_rows data) /\
  (forall rows, recycled_link_rows data = Ok rows -> fits "link_consumers_to_recycled_content_activities" rows) /\
  fits "log_and_delete_unlinked_exchanges" (unlinked_rows data) /\
  fits "normalize_reference_production_amount" (factor_rows data) /\
  (forall rows, method_rows data = Ok rows -> fits "label_allocation_method" rows).
Proof.
  split_and!; try (apply Forall_forall; intros ds _); intros;
    (eapply fits_of; [vm_compute; reflexivity|]);
    try (unfold zero_link_rows, product_link_rows, consequential_rows, conditional_rows, sign_rows, renamed_rows, flip_rows, flip_row, child_rows,
         volume_rows, volume_row, parameter_rows, refinery_rows, dropped_rows, whitelisted_rows, fake_rows, unresolved_rows, unresolved_row, unlinked_rows, factor_rows;
       cbv zeta; by fit).
  - unfold recycled_rows in H. apply bind_Ok in H as (x & _ & H). apply Ok_inj in H as <-. fit.
  - unfold relabelled_rows in H. apply bind_Ok in H as (x & _ & H). apply bind_Ok in H as (y & Hy & H). apply Ok_inj in H as <-. apply mapR_Ok in Hy.
    induction Hy as [|g r l rs Hr _ IH]; [constructor|]. cbn [concat]. apply Forall_app. split; [|exact IH]. cbn beta in Hr.
    apply bind_Ok in Hr as (u & _ & Hr). apply Ok_inj in Hr as <-. fit.
  - unfold market_rows in H. apply mapR_Ok in H. induction H as [|g r l rs Hr _ IH]; [constructor|]. constructor; [|exact IH].
    unfold market_row in Hr. do 5 (apply bind_Ok in Hr as (? & _ & Hr)). by apply Ok_inj in Hr as <-.
  - unfold idle_rows in H. apply bind_Ok in H as (x & _ & H). apply Ok_inj in H as <-. fit.
  - unfold recycled_link_rows in H. apply bind_Ok in H as (x & _ & H). apply Ok_inj in H as <-. fit.
  - unfold method_rows in H. apply bind_Ok in H as (x & _ & H). apply Ok_inj in H as <-. fit.
Qed.

(** *** Further cells *)
Lemma recycled_producers data rows : recycled_link_rows data = Ok rows ->
  forall r, r ∈ rows -> exists ds e p, ds ∈ data /\ e ∈ d_exchanges ds /\ p ∈ data /\
    d_type p = Transforming /\ d_refprod p = Some (e_name e) /\
    r = [Txt (d_name ds); Txt (e_name e); Txt (d_location ds); Txt (d_name p)].
Proof.
  unfold recycled_link_rows. intros H r Hr. apply bind_Ok in H as (ps & Hps & H). apply Ok_inj in H as <-.
  apply in_concat' in Hr as (x & Hr & Hx). apply elem_of_list_fmap in Hx as (ds & -> & Hds).
  apply in_concat' in Hr as (x & Hr & Hx). apply elem_of_list_fmap in Hx as (e & -> & He).
  destruct (Locations.unlinked e); [|by apply elem_of_nil in Hr].
  destruct (filterb _ ps) as [|p [|q l]] eqn:Ef; [by apply elem_of_nil in Hr| |by apply elem_of_nil in Hr].
  apply elem_of_list_singleton in Hr as ->.
  assert (p ∈ filterb (fun p => (p.1 =? e_name e)%string) ps) as Hin by (rewrite Ef; by left).
  apply filterb_In in Hin as [Hin Hn]. apply String.eqb_eq in Hn.
  apply concat_mapR_Ok in Hps as (l & HF & ->). apply in_concat' in Hin as (x & Hin & Hx).
  apply elem_of_list_lookup in Hx as (i & Hi). destruct (Forall2_lookup_r _ _ _ _ _ HF Hi) as (d & Hd & Hdx). cbn beta in Hdx.
  apply bind_Ok in Hdx as (rp & Hrp & Hdx). apply Ok_inj in Hdx as <-.
  destruct (_ && _) eqn:Et; [|by apply elem_of_nil in Hin]. apply elem_of_list_singleton in Hin as ->. cbn [fst snd] in *.
  apply andb_true_iff in Et as [_ Et]. exists ds, e, d. split_and!; [done..| | | |done].
  - apply elem_of_list_lookup. by exists i.
  - unfold is_type in Et. by apply bool_decide_eq_true in Et.
  - unfold refprod in Hrp. apply getkey_Ok in Hrp. congruence.
Qed.

Lemma relabelled_products data rows : relabelled_rows data = Ok rows ->
  forall r, r ∈ rows -> exists ds prods names, ds ∈ data /\ d_location ds = "GLO"%string /\
    allocatable_production ds = Ok prods /\ StronglySorted (fun a b => str_leb a b = true) names /\
    Permutation names (map e_name (filter (fun e => e_amount e <> 0%Qc) prods)) /\
    r = [Txt (d_name ds); Txt (String.concat "; " names)].
Proof.
  unfold relabelled_rows. intros HR r Hr. apply bind_Ok in HR as (ks & Hks & HR).
  apply bind_Ok in HR as (rs & Hrs & HR). apply Ok_inj in HR as <-.
  apply keyed_Ok in Hks as (_ & _ & HW). destruct (groupby_spec ks) as (_ & _ & HX).
  apply in_concat' in Hr as (x & Hr & Hx). apply mapR_Ok in Hrs.
  apply elem_of_list_lookup in Hx as (i & Hi). destruct (Forall2_lookup_r _ _ _ _ _ Hrs Hi) as (g & Hg & Hgx). cbn beta in Hgx.
  apply bind_Ok in Hgx as (u & Hu & Hgx). apply Ok_inj in Hgx as <-.
  assert (g.2 = members row_key g.1 data) as Hg2.
  { destruct g as [k xs]. apply elem_of_list_lookup_2, HX in Hg as [_ ->]. by rewrite HW. }
  rewrite Hg2 in Hu. apply relabel_group_spec in Hu as [[-> _]|(j & glo & rp & v & _ & _ & Hf & _ & _ & ->)]; [by apply elem_of_nil in Hr|].
  assert ((j, glo) ∈ filter (fun p => d_location p.2 = "GLO"%string) (members row_key g.1 data)) as Hin by (rewrite Hf; by left).
  apply elem_of_list_filter in Hin as [Hl Hin]. apply elem_of_members in Hin as [Hin Hk]. cbn [snd fst] in *.
  cbn [map] in Hr. apply elem_of_list_singleton in Hr as ->.
  unfold key_of, row_key in Hk. destruct (allocatable_production glo) as [l|] eqn:Ea; cbn [bind] in Hk; [|done]. injection Hk as Hk.
  rewrite <- Hk. cbn [fst snd]. eexists glo, l, _. split; [by eapply elem_of_list_lookup_2|]. split; [done|]. split; [done|]. split; [|split; [|reflexivity]].
  - apply isort_sorted; [apply str_leb_total|apply str_leb_trans].
  - rewrite !isort_perm. apply Permutation_refl'. f_equal. apply filterb_filter. intros e _.
    unfold Qctruthy. destruct (Qceqb (e_amount e) 0%Qc) eqn:E; symmetry.
    + apply bool_decide_eq_false. apply Qceqb_true in E. tauto.
    + apply bool_decide_eq_true. by apply Qceqb_false in E.
Qed.

Lemma unlinked_listing data : unlinked_rows data =
  listing (fun ds e => [Txt (d_name ds); Txt (e_name e); Num (e_amount e)])
    (map (fun ds => set_d_exchanges (filter (fun e => e_type e = FromTechnosphere /\ (e_code e = None \/ e_code e = Some ""%string)) (d_exchanges ds)) ds) data).
Proof.
  unfold unlinked_rows, listing, each. rewrite map_map. f_equal. apply map_ext. intros ds.
  assert (d_exchanges (set_d_exchanges (filter (fun e => e_type e = FromTechnosphere /\ (e_code e = None \/ e_code e = Some ""%string)) (d_exchanges ds)) ds)
    = filter (fun e => e_type e = FromTechnosphere /\ (e_code e = None \/ e_code e = Some ""%string)) (d_exchanges ds)) as -> by by destruct ds.
  rewrite (filterb_filter (fun e => e_type e = FromTechnosphere /\ (e_code e = None \/ e_code e = Some ""%string))); [by destruct ds|].
  intros e _. unfold Locations.unlinked, code_truthy. destruct (bool_decide (e_type e = FromTechnosphere)) eqn:E; cbn [andb].
  - apply bool_decide_eq_true in E. destruct (e_code e) as [c|].
    + destruct (c =? "")%string eqn:Ec; cbn; symmetry.
      * apply String.eqb_eq in Ec as ->. apply bool_decide_eq_true. auto.
      * apply bool_decide_eq_false. intros [_ [?|[= ->]]]; done.
    + cbn. symmetry. apply bool_decide_eq_true. auto.
  - symmetry. apply bool_decide_eq_false. apply bool_decide_eq_false in E. tauto.
Qed.
