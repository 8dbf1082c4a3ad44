(** Proofs for C79: what markets are supplied with. *)
From stdpp Require Import gmap.
From Verif Require Import Base Strings Types Uncertainty Spec_Uncertainty Uncertainty_proofs Utils Spec_Utils Utils_proofs Grouping GroupUpdate
  Topology Cutoff Locations Consequential Spec_Waste Waste_proofs Spec_Markets Markets_proofs Spec_Mix Mix_proofs
  Spec_Codes Codes_proofs Linked_proofs Spec_Consumers Consumers_proofs ConsumerInputs_proofs SingleOutput_proofs Combined_proofs
  Spec_Untouched Untouched_proofs Pipeline Spec_Pipeline Pipeline_proofs
  Spec_Balance Balance_proofs Spec_Supply.

(** *** Names of suppliers *)
Section named.
Context (Q : string -> string -> Prop) (K : string -> string -> Prop).
Notation good := (good (fun _ => False) K).
Definition named (ds : dataset) : Prop :=
  forall l, d_suppliers ds = Some l -> exists r, d_refprod ds = Some r /\ Forall (fun s => Q r (e_name s)) l.
Definition sound (data : list dataset) : Prop := Forall good data /\ Forall named data.

Lemma named_same d d' : d_suppliers d' = d_suppliers d -> d_refprod d' = d_refprod d -> named d -> named d'.
Proof. intros Hs Hr H l. rewrite Hs, Hr. apply H. Qed.
Lemma named_none d : d_suppliers d = None -> named d.
Proof. intros E l. by rewrite E. Qed.
Lemma named_from (R : dataset -> dataset -> Prop) data data' :
  (forall d d', R d d' -> named d -> named d') -> Forall2 R data data' -> Forall named data -> Forall named data'.
Proof.
  intros HR. induction 1 as [|d d' data data' H _ IH]; intros HN; [constructor|]. apply Forall_cons in HN as [H1 H2].
  constructor; [by eapply HR|by apply IH].
Qed.

Lemma all_right (P : dataset -> Prop) (data data' : list dataset) : Forall2 (fun _ d' => P d') data data' -> Forall P data'.
Proof. induction 1; by constructor. Qed.

(** What the label of a supplier is. *)
Lemma label_name d rp r : good d -> d_refprod d = Some r -> get_single_reference_product d = Ok rp -> e_name rp = r.
Proof.
  intros (_ & H2 & _) Hr H. apply get_single_reference_product_elem in H as [H1 Ht]. rewrite Forall_forall in H2.
  specialize (H2 rp H1 Ht). congruence.
Qed.
Lemma supply_named ord t loc suppliers new n :
  Forall good suppliers -> (forall d, d ∈ suppliers -> d_refprod d = Some n) -> supply ord t loc suppliers = Ok new ->
  Forall (fun s => e_name s = n) new.
Proof.
  intros HG Hn H. unfold supply in H. apply concat_mapR_Ok in H as (rs & HF & ->). apply Forall_concat.
  apply Forall_forall. intros r Hr. apply elem_of_list_lookup in Hr as [m Hm].
  destruct (Forall2_lookup_r _ _ _ _ _ HF Hm) as (g & Hg & Hgs). apply elem_of_list_lookup_2 in Hg.
  assert (forall d, d ∈ g.2 -> d ∈ suppliers) as Hgg.
  { intros d Hd. destruct (groupby_spec (map (fun d => (d_name d, d)) suppliers)) as (_ & _ & Hgx).
    destruct g as [k xs]. apply Hgx in Hg as [_ ->]. cbn [snd] in Hd. unfold with_key in Hd.
    apply elem_of_list_fmap in Hd as ([k' d'] & -> & Hd). apply elem_of_list_filter in Hd as [_ Hd].
    apply elem_of_list_fmap in Hd as (d0 & E & Hd). injection E as -> ->. done. }
  unfold group_supply in Hgs. apply bind_Ok in Hgs as (? & _ & Hgs). apply bind_Ok in Hgs as (? & _ & Hgs).
  apply bind_Ok in Hgs as (c & _ & Hgs). apply mapR_Ok in Hgs.
  clear Hm. induction Hgs as [|l s ls ss Hl _ IH]; [done|]. constructor; [|done].
  apply bind_Ok in Hl as (obj & Hobj & Hl). apply bind_Ok in Hl as (rp & Hrp & <-%Ok_inj).
  destruct (by_location l g.2) as [o|] eqn:E; [|discriminate]. apply Ok_inj in Hobj as ->.
  apply by_location_elem, Hgg in E. change (e_name rp = n). eapply label_name; [|by apply Hn|exact Hrp].
  rewrite Forall_forall in HG. by apply HG.
Qed.
Lemma apportion_named ord t consumers suppliers ups i d' r n :
  Forall good suppliers -> (forall d, d ∈ suppliers -> d_refprod d = Some n) -> Q r n ->
  (forall p, p ∈ consumers -> named p.2 /\ d_refprod p.2 = Some r) ->
  apportion ord t consumers suppliers = Ok ups -> (i, d') ∈ ups ->
  exists d, (i, d) ∈ consumers /\ named d'.
Proof.
  intros HS Hn HQ HC H Hin. unfold apportion in H. apply bind_Ok in H as (? & _ & H). apply bind_Ok in H as (row & _ & H).
  apply mapR_Ok in H. apply elem_of_list_lookup in Hin as [m Hm].
  destruct (Forall2_lookup_r _ _ _ _ _ H Hm) as ([j d] & Hg & Hd). apply elem_of_list_lookup_2 in Hg. cbv zeta in Hd.
  apply bind_Ok in Hd as (new & Hnew & E). apply Ok_inj in E. injection E as <- <-. cbn [fst snd] in *.
  exists d. split; [done|]. destruct (HC _ Hg) as [Hd Hr]. cbn [snd] in *.
  intros l E. cbn [d_suppliers set_d_suppliers d_refprod] in *. apply Some_inj in E as <-. exists r. split; [done|].
  apply Forall_app. split.
  - destruct (d_suppliers d) as [l|] eqn:El; [|constructor]. destruct (Hd l El) as (r' & Hr' & HF). cbn [default].
    rewrite Hr in Hr'. by apply Some_inj in Hr' as <-.
  - eapply Forall_impl; [eapply supply_named; [exact HS|exact Hn|exact Hnew]|]. by intros s ->.
Qed.
Lemma refprod_key tys d k : typed_refprod tys d = Ok (Some k) -> d_refprod d = Some k.
Proof.
  unfold typed_refprod, refprod. case_bool_decide; [|discriminate]. destruct (d_refprod d); [|discriminate].
  cbn [getkey bind]. intros E. apply Ok_inj in E. by apply Some_inj in E as ->.
Qed.
Lemma sound_members tys data k p : sound data -> p ∈ members (typed_refprod tys) k data ->
  data !! p.1 = Some p.2 /\ good p.2 /\ named p.2 /\ d_refprod p.2 = Some k.
Proof.
  intros [HG HN] Hp. destruct p as [i d]. apply elem_of_members in Hp as [Hp Hk]. cbn [fst snd]. split; [done|].
  rewrite Forall_forall in HG, HN. apply elem_of_list_lookup_2 in Hp. split; [by apply HG|]. split; [by apply HN|].
  unfold key_of in Hk. destruct (typed_refprod tys d) as [o|] eqn:E; [|discriminate]. subst o. exact (refprod_key _ _ _ E).
Qed.
Lemma rc_suppliers_named ord t data data' : (forall r, Q r (r ++ RC_STRING)%string) -> sound data ->
  add_recycled_content_suppliers_to_markets ord t data = Ok data' -> Forall named data'.
Proof.
  intros HQ HS H. pose proof HS as [HG HN]. unfold add_recycled_content_suppliers_to_markets in H.
  apply bind_Ok in H as (? & _ & H). apply bind_Ok in H as (rcs & Hrcs & H).
  assert (Forall2 (fun _ d' => named d') data data') as HF; [|by apply all_right in HF].
  eapply update_groups_Forall2; [| |exact H].
  - intros y Hy. rewrite Forall_forall in HN. by apply HN.
  - intros k ups i d' Hf Hin. cbv beta zeta in Hf. apply bind_Ok in Hf as (? & _ & Hf).
    destruct (filterb _ rcs) as [|s0 ss] eqn:E; [apply Ok_inj in Hf as <-; set_solver|].
    eapply (apportion_named _ _ _ _ _ _ _ k (k ++ RC_STRING)%string) in Hf as (d & Hd & Hgo); [| | | | |exact Hin].
    + exists d. split; [|done]. by apply (sound_members _ _ _ _ HS) in Hd as [? _].
    + apply Forall_forall. intros y Hx. rewrite <- E in Hx. apply filterb_In in Hx as [Hx _].
      apply (filterR_elem _ _ _ _ Hrcs) in Hx as [Hx _]. rewrite Forall_forall in HG. by apply HG.
    + intros y Hx. rewrite <- E in Hx. apply filterb_In in Hx as [_ Hx]. by apply bool_decide_eq_true in Hx.
    + apply HQ.
    + intros p Hp. by apply (sound_members _ _ _ _ HS) in Hp as (_ & _ & ? & ?).
Qed.
Lemma add_suppliers_named ord t a b data data' : (forall r, Q r r) -> sound data ->
  add_suppliers_to_markets ord t a b data = Ok data' -> Forall named data'.
Proof.
  intros HQ HS H. pose proof HS as [HG HN]. unfold add_suppliers_to_markets in H.
  assert (Forall2 (fun _ d' => named d') data data') as HF; [|by apply all_right in HF].
  eapply update_groups_Forall2; [| |exact H].
  - intros y Hy. rewrite Forall_forall in HN. by apply HN.
  - intros k ups i d' Hf Hin. cbv beta zeta in Hf.
    destruct (filterb _ (members _ k data)) as [|c0 cs] eqn:E; [apply Ok_inj in Hf as <-; set_solver|].
    apply bind_Ok in Hf as (? & _ & Hf).
    eapply (apportion_named _ _ _ _ _ _ _ k k) in Hf as (d & Hd & Hgo); [| | | | |exact Hin].
    + exists d. split; [|done]. rewrite <- E in Hd. apply filterb_In in Hd as [Hd _]. by apply (sound_members _ _ _ _ HS) in Hd as [? _].
    + apply Forall_forall. intros y Hx. apply filterb_In in Hx as [Hx _]. apply elem_of_list_fmap in Hx as (p & -> & Hp).
      by apply (sound_members _ _ _ _ HS) in Hp as (_ & ? & _).
    + intros y Hx. apply filterb_In in Hx as [Hx _]. apply elem_of_list_fmap in Hx as (p & -> & Hp).
      by apply (sound_members _ _ _ _ HS) in Hp as (_ & _ & _ & ?).
    + apply HQ.
    + intros p Hp. rewrite <- E in Hp. apply filterb_In in Hp as [Hp _]. by apply (sound_members _ _ _ _ HS) in Hp as (_ & _ & ? & ?).
Qed.
Lemma update_volume_named d d' : named d -> update_volume d = Ok d' -> named d'.
Proof.
  intros Hd H. unfold update_volume in H. apply bind_Ok in H as (pv & _ & H). apply bind_Ok in H as (l & _ & H).
  apply bind_Ok in H as (o & _ & <-%Ok_inj). by eapply named_same; [..|exact Hd].
Qed.
Lemma propagate_named ds pv d d' : named d -> propagate ds pv d = Ok d' -> named d'.
Proof.
  intros Hd H. unfold propagate in H. case_bool_decide; [by apply Ok_inj in H as <-|].
  apply bind_Ok in H as (l & Hl & H). destruct (d_suppliers d) as [l0|] eqn:El; [|discriminate]. apply Ok_inj in Hl as ->.
  destruct l as [|s0 l]; [by apply Ok_inj in H as <-|].
  apply bind_Ok in H as (? & _ & H). apply bind_Ok in H as (code & _ & <-%Ok_inj).
  destruct (Hd _ El) as (r & Hr & HF). intros l' E. cbn [d_suppliers set_d_suppliers] in E. apply Some_inj in E as <-.
  exists r. split; [done|]. change (map ?f ?l) with (f <$> l). apply Forall_fmap. eapply Forall_impl; [exact HF|].
  intros s Hs. unfold compose, set_supplier_volume. by case_bool_decide.
Qed.
Lemma update_market_volumes_named t kind data data' : Forall named data ->
  update_market_production_volumes t kind data = Ok data' -> Forall named data'.
Proof.
  intros HG H. unfold update_market_production_volumes in H. case_bool_decide.
  - apply bind_Ok in H as (order & _ & H). revert data HG H. induction order as [|i order IH]; intros data HG H.
    + cbn [foldR] in H. by apply Ok_inj in H as <-.
    + cbn [foldR] in H. apply bind_Ok in H as (d1 & Hd1 & H). eapply IH; [|exact H].
      unfold update_group_step in Hd1. apply bind_Ok in Hd1 as (ds & Hds & Hd1). apply bind_Ok in Hd1 as (ds' & Hds' & Hd1).
      apply bind_Ok in Hd1 as (pv & _ & Hd1). cbv zeta in Hd1.
      destruct (data !! i) as [ds0|] eqn:Ei; [|discriminate]. apply Ok_inj in Hds as ->.
      assert (named ds) as Hgd by (rewrite Forall_forall in HG; apply HG; by eapply elem_of_list_lookup_2).
      apply update_volume_named in Hds'; [|done].
      assert (Forall named (<[i:=ds']> data)) as Hins by by apply Forall_insert.
      apply mapR_Ok in Hd1. eapply named_from; [|exact Hd1|exact Hins].
      intros d d' Hp Hd. cbn beta in Hp. destruct (is_type kind d); [by eapply propagate_named|].
      by apply Ok_inj in Hp as <-.
  - apply mapR_Ok in H. eapply named_from; [|exact H|done]. intros d d' Hp Hd. cbn beta in Hp. destruct (is_type kind d).
    + by eapply update_volume_named.
    + by apply Ok_inj in Hp as <-.
Qed.
Lemma allocate_named kind data data' : Forall named data -> allocate_all_market_suppliers kind data = Ok data' -> Forall named data'.
Proof.
  intros HN H. apply mapR_Ok in H. eapply named_from; [|exact H|done]. intros d d' Hp Hd. cbn beta in Hp.
  destruct (is_type kind d); [|by apply Ok_inj in Hp as <-]. apply allocate_suppliers_spec in Hp as (rp & l & _ & Hl & _ & HC).
  destruct HC as [(_ & new & -> & _)|[(s & v & new & -> & _ & _ & -> & _)|(_ & _ & ->)]]; [exact Hd| |exact Hd].
  intros l E. cbn [d_suppliers set_d_suppliers] in E. apply Some_inj in E as <-. destruct (Hd _ Hl) as (r & Hr & HF).
  exists r. split; [done|]. apply Forall_cons in HF as [HF _]. constructor; [exact HF|constructor].
Qed.
Lemma group_link_named t data data' : (forall r, Q r r) -> sound data ->
  link_market_group_suppliers t data = Ok data' -> Forall named data'.
Proof.
  intros HQ HS H. pose proof HS as [HG HN]. unfold link_market_group_suppliers in H. apply bind_Ok in H as (ks & _ & H). apply bind_Ok in H as (? & _ & H).
  assert (Forall2 (fun _ d' => named d') data data') as HF; [|by apply all_right in HF].
  eapply update_groups_Forall2; [| |exact H].
  - intros y Hy. rewrite Forall_forall in HN. by apply HN.
  - intros k ups i d' Hf Hin. cbv beta in Hf. apply bind_Ok in Hf as (markets & Hm & Hf). unfold link_group in Hf. cbv zeta in Hf.
    apply bind_Ok in Hf as (row & _ & Hf). apply bind_Ok in Hf as (ordered & _ & Hf). apply mapR_Ok in Hf.
    apply elem_of_list_lookup in Hin as [m Hmm].
    destruct (Forall2_lookup_r _ _ _ _ _ Hf Hmm) as ([j d] & Hg & Hd). apply elem_of_list_lookup_2, filterb_In in Hg as [Hg _].
    apply bind_Ok in Hd as (sup & Hsup & E). apply Ok_inj in E. injection E as <- <-. cbn [fst snd] in *.
    apply (sound_members _ _ _ _ HS) in Hg as (Hi & Hgd & Hnd & Hrd). cbn [fst snd] in *. exists d. split; [done|].
    assert (Forall (fun s => e_name s = k) sup) as HSup.
    { unfold group_suppliers in Hsup. cbv zeta in Hsup. apply bind_Ok in Hsup as (found & _ & Hsup).
      apply bind_Ok in Hsup as (objs & Hobjs & Hsup). apply bind_Ok in Hsup as (coded & Hcoded & Hsup).
      assert (Forall (fun d => good d /\ d_refprod d = Some k) objs) as HO.
      { apply mapR_Ok in Hobjs. clear -Hobjs HS HG Hm. induction Hobjs as [|c o cs os Ho _ IH]; [done|]. constructor; [|done].
        rewrite Forall_forall in HG. destruct (by_location c markets) as [x|] eqn:E1.
        - apply Ok_inj in Ho as <-. apply by_location_elem in E1. apply (filterR_elem _ _ _ _ Hm) in E1 as [E1 E2].
          split; [by apply HG|]. destruct (is_type MarketActivity x); [|discriminate]. unfold refprod in E2.
          destruct (d_refprod x); [|discriminate]. cbn [getkey bind] in E2. apply Ok_inj in E2. by apply String.eqb_eq in E2 as ->.
        - destruct (by_location c (map snd _)) as [x|] eqn:E2; [|discriminate]. apply Ok_inj in Ho as <-.
          apply by_location_elem, elem_of_list_fmap in E2 as (q & -> & E2).
          by apply (sound_members _ _ _ _ HS) in E2 as (_ & ? & _ & ?). }
      assert (Forall (fun cd : string * dataset => good cd.2 /\ d_refprod cd.2 = Some k) coded) as HC.
      { apply mapR_Ok in Hcoded. clear -Hcoded HO. induction Hcoded as [|o cd os cds Ho _ IH]; [done|].
        apply Forall_cons in HO as [? HO]. constructor; [|by apply IH]. apply bind_Ok in Ho as (c & _ & <-%Ok_inj). done. }
      apply mapR_Ok in Hsup.
      assert (Forall (fun cd : string * dataset => good cd.2 /\ d_refprod cd.2 = Some k) (isort code_leb coded)) as HC'.
      { rewrite Forall_forall in *. intros y Hx. apply HC. by apply elem_of_isort in Hx. }
      clear -Hsup HC'. induction Hsup as [|cd s cds ss Hs _ IH]; [done|]. apply Forall_cons in HC' as [[? ?] HC']. constructor; [|by apply IH].
      apply bind_Ok in Hs as (rp & Hrp & <-%Ok_inj). change (e_name rp = k). by eapply label_name. }
    destruct sup as [|s sup]; [by apply named_none|]. intros l E. cbn [d_suppliers set_d_suppliers] in E.
    apply Some_inj in E as <-. exists k. split; [done|]. eapply Forall_impl; [exact HSup|]. by intros e ->.
Qed.
Lemma best_level_sub l levels s : best_level l levels = Ok s -> forall x, x ∈ s -> x ∈ l.
Proof.
  induction levels as [|v levels IH]; intros H; [apply Ok_inj in H as <-; set_solver|]. cbn [best_level] in H.
  apply bind_Ok in H as (r & Hr & H). destruct r as [|y r]; [by apply IH|]. apply Ok_inj in H as <-. intros x Hx.
  by apply (filterR_elem _ _ _ _ Hr) in Hx as [? _].
Qed.
Lemma prune_named data data' : Forall named data -> prune_suppliers_by_technology_level data = Ok data' -> Forall named data'.
Proof.
  intros HN H. apply mapR_Ok in H. eapply named_from; [|exact H|done]. intros d d' Hp Hd. unfold prune_dataset in Hp.
  destruct (_ || _); [|by apply Ok_inj in Hp as <-].
  destruct (d_suppliers d) as [[|s0 l]|] eqn:E; [by apply Ok_inj in Hp as <-| |by apply Ok_inj in Hp as <-].
  apply bind_Ok in Hp as (best & Hb & Hp). destruct best as [|b bs]; [discriminate|]. apply Ok_inj in Hp as <-.
  destruct (Hd _ E) as (r & Hr & HF). intros l' E'. cbn [d_suppliers set_d_suppliers] in E'. apply Some_inj in E' as <-.
  exists r. split; [done|]. rewrite Forall_forall in *. intros x Hx. apply HF. by eapply best_level_sub.
Qed.
End named.
