(** Proofs for C39: what the codes on inputs lead to. *)
From Verif Require Import Base Types Uncertainty Uncertainty_proofs Utils Spec_Utils Utils_proofs Grouping GroupUpdate
  Topology Cutoff Locations Spec_RestOfWorld RestOfWorld_proofs Spec_Markets Markets_proofs SingleOutput_proofs Waste_proofs
  Consequential.

(** [K c n]: there is a producer of [n] with code [c]; [T]: types of the exchanges
    whose codes are looked at. *)
Section Codes.
Context (T : etype -> Prop) (K : string -> string -> Prop).

Definition good_input (e : exchange) : Prop :=
  T (e_type e) -> forall c, e_code e = Some c -> K c (e_name e).
Definition good_supplier (s : exchange) : Prop := exists c, e_code s = Some c /\ K c (e_name s).
Definition good (ds : dataset) : Prop :=
  (exists c n, d_code ds = Some c /\ d_refprod ds = Some n /\ K c n) /\
  Forall (fun e => e_type e = RefProduct -> d_refprod ds = Some (e_name e)) (d_exchanges ds) /\
  Forall good_input (d_exchanges ds) /\
  (forall l, d_suppliers ds = Some l -> Forall good_supplier l).
Definition static (d d' : dataset) : Prop :=
  d_code d' = d_code d /\ d_refprod d' = d_refprod d /\ d_location d' = d_location d /\ d_type d' = d_type d.
Definition goes (d d' : dataset) : Prop := static d d' /\ good d'.

Lemma static_refl d : static d d.
Proof. by repeat split. Qed.
Lemma good_goes d : good d -> goes d d.
Proof. intros H. split; [apply static_refl|done]. Qed.

Lemma get_single_reference_product_elem d rp : get_single_reference_product d = Ok rp ->
  rp ∈ d_exchanges d /\ e_type rp = RefProduct.
Proof.
  unfold get_single_reference_product. destruct (reference_products d) as [|e [|? ?]] eqn:E; try discriminate.
  intros H. apply Ok_inj in H as ->. assert (rp ∈ reference_products d) as H by (rewrite E; set_solver).
  unfold reference_products in H. apply filterb_In in H as [H1 H2]. by apply bool_decide_eq_true in H2.
Qed.
Lemma by_location_elem l group d : by_location l group = Some d -> d ∈ group.
Proof. intros H. apply by_location_Some in H as [_ H]. apply last_Some_elem_of in H. by apply elem_of_list_filter in H as [_ ?]. Qed.
Lemma filterR_elem {A} (p : A -> result bool) l l' x : filterR p l = Ok l' -> x ∈ l' -> x ∈ l /\ p x = Ok true.
Proof.
  intros H Hx. apply filterR_Ok in H as [_ ->]. apply filterb_In in Hx as [H1 H2]. split; [done|].
  unfold okb in H2. by destruct (p x) as [[]|].
Qed.

Lemma annotated d rp : good d -> get_single_reference_product d = Ok rp -> good_supplier (annotate_exchange rp d).
Proof.
  intros ((c & n & Hc & Hn & HK) & Hrp & _) H. exists c.
  apply get_single_reference_product_elem in H as [H1 H2]. rewrite Forall_forall in Hrp.
  specialize (Hrp rp H1 H2). rewrite Hn in Hrp. apply Some_inj in Hrp as ->.
  unfold annotate_exchange. rewrite Hc. done.
Qed.
Lemma good_suppliers d l : good d -> Forall good_supplier l -> good (set_d_suppliers (Some l) d).
Proof.
  intros (H1 & H2 & H3 & H4) Hl. split; [exact H1|]. split; [exact H2|]. split; [exact H3|].
  cbn [d_suppliers set_d_suppliers]. intros l' E. by apply Some_inj in E as <-.
Qed.
Lemma good_no_suppliers d : good d -> good (set_d_suppliers None d).
Proof. intros (H1 & H2 & H3 & H4). split; [exact H1|]. split; [exact H2|]. split; [exact H3|]. done. Qed.
Lemma good_exchanges d es : good d ->
  Forall (fun e => e_type e = RefProduct -> d_refprod d = Some (e_name e)) es ->
  Forall good_input es -> good (set_d_exchanges es d).
Proof. intros (H1 & H2 & H3 & H4) Ha Hb. split; [exact H1|]. split; [exact Ha|]. split; [exact Hb|]. exact H4. Qed.

(** *** Groups changed in place *)
Lemma update_all_Forall2 {A} (R : A -> A -> Prop) (ups : list (nat * A)) (l : list A) :
  (forall x, x ∈ l -> R x x) ->
  (forall i y, (i, y) ∈ ups -> exists x, l !! i = Some x /\ R x y) ->
  Forall2 R l (update_all ups l).
Proof.
  intros Hrefl. induction ups as [|[i y] ups IH] using rev_ind; intros H.
  - cbn. apply Forall2_same_length_lookup_2; [done|]. intros i x x' E E'. rewrite E in E'. apply Some_inj in E' as <-.
    apply Hrefl. by eapply elem_of_list_lookup_2.
  - unfold update_all. rewrite foldl_app. cbn [foldl fst snd].
    change (foldl _ l ups) with (update_all ups l). destruct (H i y) as (x & Hx & HR); [set_solver|].
    assert (Forall2 R l (update_all ups l)) as HF by (apply IH; intros j z Hz; apply H; set_solver).
    apply Forall2_same_length_lookup_2; [by rewrite insert_length, update_all_length|].
    intros j a b Ha Hb. destruct (decide (j = i)) as [->|Hne].
    + rewrite list_lookup_insert in Hb by (rewrite update_all_length; by apply lookup_lt_Some in Hx).
      rewrite Hx in Ha. apply Some_inj in Ha as <-. by apply Some_inj in Hb as <-.
    + rewrite list_lookup_insert_ne in Hb by done. by eapply Forall2_lookup_lr.
Qed.
Lemma update_groups_Forall2 {K'} `{EqDecision K'} (key : dataset -> result (option K')) f
    (R : dataset -> dataset -> Prop) data data' :
  (forall x, x ∈ data -> R x x) ->
  (forall k ups i d', f k (members key k data) = Ok ups -> (i, d') ∈ ups ->
     exists d, data !! i = Some d /\ R d d') ->
  update_groups key f data = Ok data' -> Forall2 R data data'.
Proof.
  intros Hrefl Hf H. unfold update_groups in H. apply bind_Ok in H as (ks & Hks & H).
  apply bind_Ok in H as (ups & Hups & <-%Ok_inj). apply update_all_Forall2; [done|].
  intros i d' Hin. apply elem_of_list_In, in_concat in Hin as (u & Hu & Hin).
  apply elem_of_list_In in Hu, Hin. apply mapR_Ok in Hups. apply elem_of_list_lookup in Hu as [m Hm].
  destruct (Forall2_lookup_r _ _ _ _ _ Hups Hm) as (g & Hg & Hgu).
  apply elem_of_list_lookup_2 in Hg. destruct (groupby_spec ks) as (_ & _ & Hgx).
  destruct g as [k xs]. apply Hgx in Hg as [_ ->]. cbn [fst snd] in Hgu.
  apply keyed_Ok in Hks as (_ & _ & Hwith). rewrite Hwith in Hgu. by eapply Hf.
Qed.
Lemma mapR_Forall2 (P : dataset -> Prop) (R : dataset -> dataset -> Prop) f data data' :
  Forall P data -> (forall d d', d ∈ data -> P d -> f d = Ok d' -> R d d') -> mapR f data = Ok data' -> Forall2 R data data'.
Proof.
  intros HP HR H. apply mapR_Ok in H. induction H as [|d d' data data' Hd _ IH]; constructor.
  - apply Forall_cons in HP as [? _]. apply HR; [by left|done|done].
  - apply IH; [by apply Forall_cons in HP as [_ ?]|]. intros x x' Hx. apply HR. by right.
Qed.
Lemma goes_good data data' : Forall2 goes data data' -> Forall good data'.
Proof. induction 1 as [|d d' data data' [_ H] _ IH]; by constructor. Qed.
Lemma good_goes_all data : Forall good data -> Forall2 goes data data.
Proof. induction 1; constructor; [by apply good_goes|done]. Qed.
Lemma goes_trans d1 d2 d3 : goes d1 d2 -> goes d2 d3 -> goes d1 d3.
Proof.
  intros [(A1 & A2 & A3 & A4) _] [(B1 & B2 & B3 & B4) H]. split; [|done].
  split_and!; congruence.
Qed.

(** *** The passes *)
Lemma actualize_good data data' : Forall good data -> actualize_activity_links data = Ok data' -> Forall2 goes data data'.
Proof.
  intros HG. apply (mapR_Forall2 good); [done|]. intros d d' _ Hd H. apply bind_Ok in H as (es & Hes & <-%Ok_inj).
  split; [by repeat split|]. apply mapR_Ok in Hes. pose proof Hd as (_ & H2 & H3 & _).
  assert (Forall2 (fun e e' => e' = e \/ exists c, e' = set_e_code (Some c) e /\ K c (e_name e)) (d_exchanges d) es) as HF.
  { eapply Forall2_impl; [exact Hes|]. cbn beta. intros e e' He. unfold actualize_link in He.
    destruct (e_link e) as [i|]; [|apply Ok_inj in He as <-; by left].
    destruct (String.eqb i ""); [apply Ok_inj in He as <-; by left|].
    destruct (filterb _ data) as [|g0 g] eqn:Eg; [discriminate|]. apply bind_Ok in He as (refs & Hrefs & He).
    destruct refs as [|p [|? ?]]; [apply Ok_inj in He as <-; by left| |apply Ok_inj in He as <-; by left].
    apply bind_Ok in He as (c & Hc & <-%Ok_inj). right. exists c. split; [done|].
    assert (p ∈ [p]) as Hp by set_solver. apply (filterR_elem _ _ _ _ Hrefs) in Hp as [Hp1 Hp2].
    rewrite <- Eg in Hp1. apply filterb_In in Hp1 as [Hp1 _]. rewrite Forall_forall in HG.
    destruct (HG p Hp1) as ((c' & n & Hc' & Hn & HK) & _).
    unfold refprod in Hp2. rewrite Hn in Hp2. cbn [getkey bind] in Hp2. injection Hp2 as Hp2.
    apply String.eqb_eq in Hp2 as <-. rewrite Hc' in Hc. by apply Ok_inj in Hc as <-. }
  apply good_exchanges; [done|..].
  - clear -HF H2. induction HF as [|e e' es es' He _ IH]; [done|]. apply Forall_cons in H2 as [H2 H2']. constructor; [|by apply IH].
    by destruct He as [->|(c & -> & _)].
  - clear -HF H3. induction HF as [|e e' es es' He _ IH]; [done|]. apply Forall_cons in H3 as [H3 H3']. constructor; [|by apply IH].
    destruct He as [->|(c & -> & HK)]; [done|]. intros _ c' E. cbn [e_code set_e_code] in E. by apply Some_inj in E as <-.
Qed.

Lemma supply_good ord t loc suppliers new :
  Forall good suppliers -> supply ord t loc suppliers = Ok new -> Forall good_supplier new.
Proof.
  intros HG H. unfold supply in H. apply concat_mapR_Ok in H as (rs & HF & ->). apply Forall_concat.
  apply Forall_forall. intros r Hr. apply elem_of_list_lookup in Hr as [m Hm].
  destruct (Forall2_lookup_r _ _ _ _ _ HF Hm) as (g & Hg & Hgs). apply elem_of_list_lookup_2 in Hg.
  assert (forall d, d ∈ g.2 -> good d) as Hgg.
  { intros d Hd. destruct (groupby_spec (map (fun d => (d_name d, d)) suppliers)) as (_ & _ & Hgx).
    destruct g as [k xs]. apply Hgx in Hg as [_ ->]. cbn [snd] in Hd. unfold with_key in Hd.
    apply elem_of_list_fmap in Hd as ([k' d'] & -> & Hd). apply elem_of_list_filter in Hd as [_ Hd].
    apply elem_of_list_fmap in Hd as (d0 & E & Hd). injection E as -> ->. cbn [snd]. rewrite Forall_forall in HG. by apply HG. }
  unfold group_supply in Hgs. apply bind_Ok in Hgs as (? & _ & Hgs). apply bind_Ok in Hgs as (? & _ & Hgs).
  apply bind_Ok in Hgs as (c & _ & Hgs). apply mapR_Ok in Hgs. 
  clear Hm. induction Hgs as [|l s ls ss Hl _ IH]; [done|]. constructor; [|done].
  apply bind_Ok in Hl as (obj & Hobj & Hl). apply bind_Ok in Hl as (rp & Hrp & <-%Ok_inj).
  apply annotated; [|done]. destruct (by_location l g.2) as [o|] eqn:E; [|discriminate]. apply Ok_inj in Hobj as ->.
  apply Hgg. by apply by_location_elem in E.
Qed.

Lemma apportion_good ord t consumers suppliers ups i d' :
  Forall good suppliers -> (forall p, p ∈ consumers -> good p.2) ->
  apportion ord t consumers suppliers = Ok ups -> (i, d') ∈ ups ->
  exists d, (i, d) ∈ consumers /\ goes d d'.
Proof.
  intros HS HC H Hin. unfold apportion in H. apply bind_Ok in H as (? & _ & H). apply bind_Ok in H as (row & _ & H).
  apply mapR_Ok in H. apply elem_of_list_lookup in Hin as [m Hm].
  destruct (Forall2_lookup_r _ _ _ _ _ H Hm) as ([j d] & Hg & Hd). apply elem_of_list_lookup_2 in Hg. cbv zeta in Hd.
  apply bind_Ok in Hd as (new & Hnew & E). apply Ok_inj in E. injection E as <- <-. cbn [fst snd] in *.
  exists d. split; [done|]. split; [by repeat split|]. pose proof (HC _ Hg) as Hgd. cbn [snd] in Hgd.
  apply good_suppliers; [done|]. apply Forall_app. split; [|by eapply supply_good].
  destruct Hgd as (_ & _ & _ & H4). destruct (d_suppliers d) as [l|]; [by apply H4|constructor].
Qed.
Lemma members_good {K'} `{EqDecision K'} (key : dataset -> result (option K')) k data p :
  Forall good data -> p ∈ members key k data -> data !! p.1 = Some p.2 /\ good p.2.
Proof.
  intros HG Hp. destruct p as [i d]. apply elem_of_members in Hp as [Hp _]. cbn [fst snd]. split; [done|].
  rewrite Forall_forall in HG. apply HG. by eapply elem_of_list_lookup_2.
Qed.
Lemma rc_suppliers_good ord t data data' : Forall good data ->
  add_recycled_content_suppliers_to_markets ord t data = Ok data' -> Forall2 goes data data'.
Proof.
  intros HG H. unfold add_recycled_content_suppliers_to_markets in H.
  apply bind_Ok in H as (? & _ & H). apply bind_Ok in H as (rcs & Hrcs & H).
  eapply update_groups_Forall2; [| |exact H].
  - intros y Hy. apply good_goes. rewrite Forall_forall in HG. by apply HG.
  - intros k ups i d' Hf Hin. cbv beta zeta in Hf. apply bind_Ok in Hf as (? & _ & Hf).
    destruct (filterb _ rcs) as [|s0 ss] eqn:E; [apply Ok_inj in Hf as <-; set_solver|].
    eapply apportion_good in Hf as (d & Hd & Hgo); [| | |exact Hin].
    + exists d. split; [|done]. by apply (members_good _ _ _ _ HG) in Hd as [? _].
    + apply Forall_forall. intros y Hx. rewrite <- E in Hx. apply filterb_In in Hx as [Hx _].
      apply (filterR_elem _ _ _ _ Hrcs) in Hx as [Hx _]. rewrite Forall_forall in HG. by apply HG.
    + intros p Hp. by apply (members_good _ _ _ _ HG) in Hp as [_ ?].
Qed.
Lemma add_suppliers_good ord t a b data data' : Forall good data ->
  add_suppliers_to_markets ord t a b data = Ok data' -> Forall2 goes data data'.
Proof.
  intros HG H. unfold add_suppliers_to_markets in H.
  eapply update_groups_Forall2; [| |exact H].
  - intros y Hy. apply good_goes. rewrite Forall_forall in HG. by apply HG.
  - intros k ups i d' Hf Hin. cbv beta zeta in Hf.
    destruct (filterb _ (members _ k data)) as [|c0 cs] eqn:E; [apply Ok_inj in Hf as <-; set_solver|].
    apply bind_Ok in Hf as (? & _ & Hf).
    eapply apportion_good in Hf as (d & Hd & Hgo); [| | |exact Hin].
    + exists d. split; [|done]. rewrite <- E in Hd. apply filterb_In in Hd as [Hd _]. by apply (members_good _ _ _ _ HG) in Hd as [? _].
    + apply Forall_forall. intros y Hx. apply filterb_In in Hx as [Hx _]. apply elem_of_list_fmap in Hx as (p & -> & Hp).
      by apply (members_good _ _ _ _ HG) in Hp as [_ ?].
    + intros p Hp. rewrite <- E in Hp. apply filterb_In in Hp as [Hp _]. by apply (members_good _ _ _ _ HG) in Hp as [_ ?].
Qed.

Lemma set_rp_pv_good f d : good d -> good (set_rp_pv f d).
Proof.
  intros Hd. pose proof Hd as (_ & H2 & H3 & _). unfold set_rp_pv. apply good_exchanges; [done|..].
  - apply Forall_fmap. eapply Forall_impl; [exact H2|]. intros e He. unfold compose. cbn beta. by case_bool_decide.
  - apply Forall_fmap. eapply Forall_impl; [exact H3|]. intros e He. unfold compose. cbn beta. by case_bool_decide.
Qed.
Lemma update_volume_good d d' : good d -> update_volume d = Ok d' -> goes d d'.
Proof.
  intros Hd H. unfold update_volume in H. apply bind_Ok in H as (pv & _ & H). apply bind_Ok in H as (l & _ & H).
  apply bind_Ok in H as (o & _ & <-%Ok_inj). split; [by repeat split|]. by apply set_rp_pv_good.
Qed.
Lemma propagate_good ds pv d d' : good d -> propagate ds pv d = Ok d' -> goes d d'.
Proof.
  intros Hd H. unfold propagate in H. case_bool_decide; [apply Ok_inj in H as <-; by apply good_goes|].
  apply bind_Ok in H as (l & Hl & H). destruct (d_suppliers d) as [l0|] eqn:El; [|discriminate]. apply Ok_inj in Hl as ->.
  pose proof Hd as (_ & _ & _ & H4). specialize (H4 l El).
  destruct l as [|s0 l]; [apply Ok_inj in H as <-; by apply good_goes|].
  apply bind_Ok in H as (? & _ & H). apply bind_Ok in H as (code & _ & <-%Ok_inj). split; [by repeat split|].
  apply good_suppliers; [done|]. apply Forall_fmap. eapply Forall_impl; [exact H4|].
  intros s (c & Hc & HK). unfold compose, set_supplier_volume. case_bool_decide; by exists c.
Qed.
Lemma update_market_volumes_good t kind data data' : Forall good data ->
  update_market_production_volumes t kind data = Ok data' -> Forall2 goes data data'.
Proof.
  intros HG H. unfold update_market_production_volumes in H. case_bool_decide.
  - apply bind_Ok in H as (order & _ & H). revert data HG H. induction order as [|i order IH]; intros data HG H.
    + cbn [foldR] in H. apply Ok_inj in H as <-. by apply good_goes_all.
    + cbn [foldR] in H. apply bind_Ok in H as (d1 & Hd1 & H).
      assert (Forall2 goes data d1) as H1.
      { unfold update_group_step in Hd1. apply bind_Ok in Hd1 as (ds & Hds & Hd1). apply bind_Ok in Hd1 as (ds' & Hds' & Hd1).
        apply bind_Ok in Hd1 as (pv & _ & Hd1). cbv zeta in Hd1.
        destruct (data !! i) as [ds0|] eqn:Ei; [|discriminate]. apply Ok_inj in Hds as ->.
        assert (good ds) as Hgd by (rewrite Forall_forall in HG; apply HG; by eapply elem_of_list_lookup_2).
        apply update_volume_good in Hds'; [|done].
        assert (Forall2 goes data (<[i:=ds']> data)) as Hins.
        { rewrite <- (list_insert_id data i ds Ei) at 1. apply Forall2_insert; [by apply good_goes_all|done]. }
        eapply Forall2_transitive; [exact goes_trans|exact Hins|].
        eapply (mapR_Forall2 good); [by eapply goes_good| |exact Hd1].
        intros d d' _ Hd Hp. cbn beta in Hp. destruct (is_type kind d); [by eapply propagate_good|].
        apply Ok_inj in Hp as <-. by apply good_goes. }
      eapply Forall2_transitive; [exact goes_trans|exact H1|]. apply IH; [by eapply goes_good|done].
  - eapply (mapR_Forall2 good); [done| |exact H]. intros d d' _ Hd Hp. cbn beta in Hp. destruct (is_type kind d).
    + by apply update_volume_good.
    + apply Ok_inj in Hp as <-. by apply good_goes.
Qed.

Lemma volumes_suppliers l suppliers total : volumes l = Ok (Some (suppliers, total)) ->
  Forall good_supplier l -> Forall good_supplier suppliers.
Proof.
  intros H HG. unfold volumes in H. apply bind_Ok in H as (pvs & _ & H). cbv zeta in H.
  destruct (Qctruthy _); [apply Ok_inj in H; injection H as <- <-; done|].
  destruct l as [|s [|? ?]]; [discriminate| |discriminate]. apply Ok_inj in H. injection H as <- <-.
  apply Forall_cons in HG as [HG _]. by constructor.
Qed.
Lemma input_of_good make total s new :
  (forall f e, make f s = Ok e -> e_type e = FromTechnosphere /\ good_input e) ->
  input_of make total s = Ok new -> Forall (fun e => e_type e = FromTechnosphere /\ good_input e) new.
Proof.
  intros Hm H. unfold input_of in H. apply bind_Ok in H as (pv & _ & H). apply bind_Ok in H as (f & _ & H).
  destruct (Qctruthy f); [|by apply Ok_inj in H as <-]. apply bind_Ok in H as (e & He & <-%Ok_inj).
  constructor; [by eapply Hm|done].
Qed.
Lemma allocate_good d d' : good d -> allocate_suppliers d = Ok d' -> goes d d'.
Proof.
  intros Hd H. unfold allocate_suppliers in H. apply bind_Ok in H as (exc & _ & H). apply bind_Ok in H as (l & Hl & H).
  destruct (d_suppliers d) as [l0|] eqn:El; [|discriminate]. apply Ok_inj in Hl as ->.
  pose proof Hd as (_ & H2 & H3 & H4). specialize (H4 l El).
  apply bind_Ok in H as (vs & Hvs & H). destruct vs as [[suppliers total]|]; [|apply Ok_inj in H as <-; by apply good_goes].
  apply bind_Ok in H as (new & Hnew & <-%Ok_inj). pose proof (volumes_suppliers _ _ _ Hvs H4) as HS.
  assert (Forall (fun e => e_type e = FromTechnosphere /\ good_input e) new) as HN.
  { apply concat_mapR_Ok in Hnew as (rs & HF & ->). apply Forall_concat. clear -HF HS.
    induction HF as [|s r ss rs Hr _ IH]; [constructor|]. apply Forall_cons in HS as [(c & Hc & HK) HS].
    constructor; [|by apply IH]. eapply input_of_good; [|exact Hr]. intros f e He. unfold market_input in He.
    rewrite Hc in He. cbn [getkey bind] in He. apply Ok_inj in He as <-. split; [done|]. intros _ c' E.
    cbn in E. apply Some_inj in E as <-. done. }
  split; [by repeat split|]. apply good_suppliers; [|done]. apply good_exchanges; [done|..].
  - apply Forall_app. split; [done|]. eapply Forall_impl; [exact HN|]. intros e [He _] E. congruence.
  - apply Forall_app. split; [done|]. eapply Forall_impl; [exact HN|]. by intros e [_ He].
Qed.
Lemma allocate_all_good kind data data' : Forall good data ->
  allocate_all_market_suppliers kind data = Ok data' -> Forall2 goes data data'.
Proof.
  intros HG. apply (mapR_Forall2 good); [done|]. intros d d' _ Hd H. cbn beta in H. destruct (is_type kind d).
  - by apply allocate_good.
  - apply Ok_inj in H as <-. by apply good_goes.
Qed.

Lemma group_link_good t data data' : Forall good data ->
  link_market_group_suppliers t data = Ok data' -> Forall2 goes data data'.
Proof.
  intros HG H. unfold link_market_group_suppliers in H. apply bind_Ok in H as (ks & _ & H). apply bind_Ok in H as (? & _ & H).
  eapply update_groups_Forall2; [| |exact H].
  - intros y Hy. apply good_goes. rewrite Forall_forall in HG. by apply HG.
  - intros k ups i d' Hf Hin. cbv beta in Hf. apply bind_Ok in Hf as (markets & Hm & Hf). unfold link_group in Hf. cbv zeta in Hf.
    apply bind_Ok in Hf as (row & _ & Hf). apply bind_Ok in Hf as (ordered & _ & Hf). apply mapR_Ok in Hf.
    apply elem_of_list_lookup in Hin as [m Hmm].
    destruct (Forall2_lookup_r _ _ _ _ _ Hf Hmm) as ([j d] & Hg & Hd). apply elem_of_list_lookup_2, filterb_In in Hg as [Hg _].
    apply bind_Ok in Hd as (sup & Hsup & E). apply Ok_inj in E. injection E as <- <-. cbn [fst snd] in *.
    apply (members_good _ _ _ _ HG) in Hg as [Hi Hgd]. cbn [fst snd] in *. exists d. split; [done|].
    split; [by repeat split|].
    assert (Forall good_supplier sup) as HS.
    { unfold group_suppliers in Hsup. cbv zeta in Hsup. apply bind_Ok in Hsup as (found & _ & Hsup).
      apply bind_Ok in Hsup as (objs & Hobjs & Hsup). apply bind_Ok in Hsup as (coded & Hcoded & Hsup).
      assert (Forall good objs) as HO.
      { apply mapR_Ok in Hobjs. clear -Hobjs HG Hm. induction Hobjs as [|c o cs os Ho _ IH]; [done|]. constructor; [|done].
        rewrite Forall_forall in HG. destruct (by_location c markets) as [x|] eqn:E1.
        - apply Ok_inj in Ho as <-. apply by_location_elem in E1. apply (filterR_elem _ _ _ _ Hm) in E1 as [E1 _]. by apply HG.
        - destruct (by_location c (map snd _)) as [x|] eqn:E2; [|discriminate]. apply Ok_inj in Ho as <-.
          apply by_location_elem, elem_of_list_fmap in E2 as ([q dq] & -> & E2). apply elem_of_members in E2 as [E2 _].
          apply HG. by eapply elem_of_list_lookup_2. }
      assert (Forall (fun cd : string * dataset => good cd.2) coded) as HC.
      { apply mapR_Ok in Hcoded. clear -Hcoded HO. induction Hcoded as [|o cd os cds Ho _ IH]; [done|].
        apply Forall_cons in HO as [? HO]. constructor; [|by apply IH]. apply bind_Ok in Ho as (c & _ & <-%Ok_inj). done. }
      apply mapR_Ok in Hsup.
      assert (Forall (fun cd : string * dataset => good cd.2) (isort code_leb coded)) as HC'.
      { rewrite Forall_forall in *. intros y Hx. apply HC. by apply elem_of_isort in Hx. }
      clear -Hsup HC'. induction Hsup as [|cd s cds ss Hs _ IH]; [done|]. apply Forall_cons in HC' as [? HC']. constructor; [|by apply IH].
      apply bind_Ok in Hs as (rp & Hrp & <-%Ok_inj). by apply annotated. }
    destruct sup as [|s sup]; [by apply good_no_suppliers|]. by apply good_suppliers.
Qed.

Lemma rc_consumers_good data data' : Forall good data ->
  link_consumers_to_recycled_content_activities data = Ok data' -> Forall2 goes data data'.
Proof.
  intros HG H. unfold link_consumers_to_recycled_content_activities in H. apply bind_Ok in H as (producers & Hp & H).
  assert (Forall (fun p : string * dataset => good p.2 /\ d_refprod p.2 = Some p.1) producers) as HP.
  { unfold rc_producers in Hp. apply concat_mapR_Ok in Hp as (rs & HF & ->). apply Forall_concat.
    clear -HF HG. induction HF as [|d r ds rs Hr _ IH]; [constructor|]. apply Forall_cons in HG as [Hd HG].
    constructor; [|by apply IH]. apply bind_Ok in Hr as (rp & Hrp & <-%Ok_inj). unfold refprod in Hrp.
    destruct (d_refprod d) as [x|] eqn:E; [|discriminate]. apply Ok_inj in Hrp as ->.
    destruct (_ && _); [|constructor]. by constructor. }
  eapply (mapR_Forall2 good); [done| |exact H]. intros d d' _ Hd Hdd. cbn beta in Hdd.
  apply bind_Ok in Hdd as (es & Hes & <-%Ok_inj). split; [by repeat split|].
  apply mapR_Ok in Hes. pose proof Hd as (_ & H2 & H3 & _).
  assert (Forall2 (fun e e' => e' = e \/ exists c, e' = set_e_code (Some c) e /\ K c (e_name e)) (d_exchanges d) es) as HF.
  { eapply Forall2_impl; [exact Hes|]. cbn beta. intros e e' He. unfold link_rc in He.
    destruct (unlinked e); [|apply Ok_inj in He as <-; by left].
    destruct (filterb _ producers) as [|p [|? ?]] eqn:Eg; [apply Ok_inj in He as <-; by left| |apply Ok_inj in He as <-; by left].
    apply bind_Ok in He as (c & Hc & <-%Ok_inj). right. exists c. split; [done|].
    assert (p ∈ [p]) as Hin by set_solver. rewrite <- Eg in Hin. apply filterb_In in Hin as [Hin En]. apply String.eqb_eq in En.
    rewrite Forall_forall in HP. destruct (HP p Hin) as [((c' & n & Hc' & Hn & HK) & _) Hrp].
    rewrite Hn in Hrp. apply Some_inj in Hrp as ->. rewrite Hc' in Hc. apply Ok_inj in Hc as <-. congruence. }
  apply good_exchanges; [done|..].
  - clear -HF H2. induction HF as [|e e' es es' He _ IH]; [done|]. apply Forall_cons in H2 as [H2 H2']. constructor; [|by apply IH].
    by destruct He as [->|(c & -> & _)].
  - clear -HF H3. induction HF as [|e e' es es' He _ IH]; [done|]. apply Forall_cons in H3 as [H3 H3']. constructor; [|by apply IH].
    destruct He as [->|(c & -> & HK)]; [done|]. intros _ c' E. cbn [e_code set_e_code] in E. by apply Some_inj in E as <-.
Qed.

Lemma rp_codes_good data data' : Forall good data -> add_reference_product_codes data = Ok data' -> Forall2 goes data data'.
Proof.
  intros HG. apply (mapR_Forall2 good); [done|]. intros d d' _ Hd H. apply bind_Ok in H as (? & _ & H).
  apply bind_Ok in H as (rp & _ & <-%Ok_inj). split; [by repeat split|]. pose proof Hd as (_ & H2 & H3 & _).
  apply good_exchanges; [done|..].
  - apply Forall_fmap. eapply Forall_impl; [exact H2|]. intros e He. unfold compose. cbn beta. by case_bool_decide.
  - pose proof Hd as ((c & n & Hc & Hn & HK) & _). rewrite Forall_forall in H2, H3. apply Forall_fmap, Forall_forall.
    intros e He. unfold compose. cbn beta. case_bool_decide as E; [|by apply H3].
    intros _ c' Ec. cbn [e_code set_e_code e_name] in *. specialize (H2 e He E). congruence.
Qed.
Lemma log_delete_good data : Forall good data -> Forall2 goes data (log_and_delete_unlinked_exchanges data).
Proof.
  induction 1 as [|d data Hd _ IH]; [constructor|]. constructor; [|done]. split; [by repeat split|].
  pose proof Hd as (_ & H2 & H3 & _). apply good_exchanges; [done|..].
  - rewrite Forall_forall in *. intros e He. apply filterb_In in He as [He _]. by apply H2.
  - rewrite Forall_forall in *. intros e He. apply filterb_In in He as [He _]. by apply H3.
Qed.
Lemma delete_suppliers_good data : Forall good data -> Forall2 goes data (delete_suppliers_list data).
Proof. induction 1 as [|d data Hd _ IH]; [constructor|]. constructor; [|done]. split; [by repeat split|]. by apply good_no_suppliers. Qed.
Lemma delete_global_good kind data data' : Forall good data ->
  delete_global_with_zero_pv_when_regional_present kind data = Ok data' ->
  Forall good data' /\ forall d, d ∈ data -> d ∈ data' \/ (d_location d = "RoW"%string /\ d_type d = kind).
Proof.
  intros HG H. unfold delete_global_with_zero_pv_when_regional_present in H. apply bind_Ok in H as (ks & Hks & <-%Ok_inj). split.
  - rewrite Forall_forall in *. intros d Hd. apply filterb_In in Hd as [Hd _]. by apply HG.
  - intros d Hd. destruct (bool_decide (d ∉ concat (map (fun g => idle_row (map snd g.2)) (groupby ks)))) eqn:E.
    + left. apply filterb_In. by split.
    + right. apply bool_decide_eq_false in E. apply dec_stable in E. apply elem_of_list_In, in_concat in E as (r & Hr & Hin).
      apply elem_of_list_In, elem_of_list_fmap in Hr as ([k xs] & -> & Hg). apply elem_of_list_In in Hin. cbn [snd] in Hin.
      destruct (groupby_spec ks) as (_ & _ & Hgx). apply Hgx in Hg as [_ ->].
      apply keyed_Ok in Hks as (_ & _ & Hwith). rewrite Hwith in Hin.
      unfold idle_row in Hin. destruct (map snd (members _ k data)) as [|a [|b l]] eqn:Em; [set_solver|set_solver|]. rewrite <- Em in Hin.
      destruct (List.find _ _) as [row|] eqn:Ef; [|set_solver].
      assert (d = row) as ->.
      { destruct (original_production_volume row) as [v|]; [destruct (Qctruthy v)|]; set_solver. }
      apply List.find_some in Ef as [Ef El]. apply String.eqb_eq in El. split; [done|].
      apply elem_of_list_In, elem_of_list_fmap in Ef as ([q dq] & -> & Ef). apply elem_of_members in Ef as [_ Ef].
      apply typed_refprod_key in Ef as [Ef _]. set_solver.
Qed.
End Codes.

Definition or_gas (K : string -> string -> Prop) (c n : string) : Prop :=
  K c n \/ (n = "refinery gas"%string /\ exists n', K c n').

Lemma good_mono T (K1 K2 : string -> string -> Prop) d : (forall c n, K1 c n -> K2 c n) -> good T K1 d -> good T K2 d.
Proof.
  intros HK ((c & n & Hc & Hn & H1) & H2 & H3 & H4). split; [exists c, n; auto|]. split; [done|]. split.
  - eapply Forall_impl; [exact H3|]. intros e He Ht c' Hc'. apply HK. by apply He.
  - intros l Hl. eapply Forall_impl; [exact (H4 l Hl)|]. intros s (c' & Hc' & Hs). exists c'. auto.
Qed.

Section Consumers.
Context (T : etype -> Prop) (K : string -> string -> Prop).
Definition candidate (name : string) (d : dataset) : Prop :=
  good T K d /\ (d_refprod d = Some name \/ name = "refinery gas"%string).
Lemma candidate_code name d : candidate name d -> exists c, d_code d = Some c /\ or_gas K c name.
Proof.
  intros [((c & n & Hc & Hn & HK) & _) H]. exists c. split; [done|]. destruct H as [H|H].
  - left. rewrite Hn in H. by apply Some_inj in H as <-.
  - right. eauto.
Qed.
Lemma candidates_good data ks before name c :
  Forall (good T K) data -> keyed (typed_refprod [MarketActivity; MarketGroup]) data = Ok ks ->
  (forall b, before = Some b -> Forall (good T K) b) ->
  candidates_for (map (fun g => (g.1, map snd g.2)) (groupby ks)) before name = Ok c ->
  Forall (candidate name) c.
Proof.
  intros HG Hks Hb H. unfold candidates_for in H. destruct (List.find _ _) as [g|] eqn:E.
  - apply Ok_inj in H as <-. apply List.find_some in E as [E1 E2]. apply String.eqb_eq in E2.
    apply elem_of_list_In, elem_of_list_fmap in E1 as ([k xs] & -> & E1). cbn [fst snd] in *. subst k.
    destruct (groupby_spec ks) as (_ & _ & Hgx). apply Hgx in E1 as [_ ->].
    apply keyed_Ok in Hks as (_ & _ & Hwith). rewrite Hwith. apply Forall_forall. intros d Hd.
    apply elem_of_list_fmap in Hd as ([i d0] & -> & Hd). apply elem_of_members in Hd as [Hd Hk]. cbn [snd].
    apply typed_refprod_key in Hk as [_ Hk]. split; [|by left]. rewrite Forall_forall in HG. apply HG. by eapply elem_of_list_lookup_2.
  - destruct (String.eqb_spec name "refinery gas") as [->|]; [|discriminate]. destruct before as [b|]; [|discriminate].
    apply Ok_inj in H as <-. eapply Forall_impl; [by apply Hb|]. intros d Hd. split; [done|by right].
Qed.
Lemma choose_markets_elem t loc row candidates chosen d :
  choose_markets t loc row candidates = Ok chosen -> d ∈ chosen -> d ∈ candidates.
Proof.
  intros H Hd. unfold choose_markets in H. cbv zeta in H. apply bind_Ok in H as (found & _ & H). apply mapR_Ok in H.
  apply elem_of_list_lookup in Hd as [m Hm]. destruct (Forall2_lookup_r _ _ _ _ _ H Hm) as (c & _ & Hc).
  destruct (by_location c (filterb (is_type MarketActivity) candidates)) as [x|] eqn:E1.
  - apply Ok_inj in Hc as <-. apply by_location_elem in E1. by apply filterb_In in E1 as [? _].
  - destruct (by_location c (filterb (is_type MarketGroup) candidates)) as [x|] eqn:E2; [|discriminate].
    apply Ok_inj in Hc as <-. apply by_location_elem in E2. by apply filterb_In in E2 as [? _].
Qed.
Lemma decide_good ln exc chosen dec :
  Forall (candidate (e_name exc)) chosen -> decide_input ln exc chosen = Ok dec ->
  match dec with
  | Keep => True
  | One c => or_gas K c (e_name exc)
  | Many new => Forall (fun e => e_type e = FromTechnosphere /\ good_input T (or_gas K) e) new
  end.
Proof.
  intros HC H. unfold decide_input in H.
  destruct chosen as [|d1 [|d2 ds]].
  - by apply Ok_inj in H as <-.
  - apply bind_Ok in H as (c & Hc & <-%Ok_inj). apply Forall_cons in HC as [HC _].
    apply candidate_code in HC as (c' & Hc' & HK). rewrite Hc' in Hc. by apply Ok_inj in Hc as <-.
  - apply bind_Ok in H as (vs & Hvs & H). destruct vs as [[suppliers total]|]; [|by apply Ok_inj in H as <-].
    apply bind_Ok in H as (new & Hnew & <-%Ok_inj).
    assert (Forall (good_supplier (fun c _ => or_gas K c (e_name exc))) suppliers) as HS.
    { eapply volumes_suppliers; [exact Hvs|]. apply Forall_fmap. eapply Forall_impl; [exact HC|].
      intros d Hd. apply candidate_code in Hd as (c & Hc & HK). exists c. split; [|done].
      unfold compose, annotate_supplier, annotate_exchange. rewrite Hc. done. }
    apply concat_mapR_Ok in Hnew as (rs & HF & ->). apply Forall_concat. clear -HF HS.
    induction HF as [|s r ss rs Hr _ IH]; [constructor|]. apply Forall_cons in HS as [(c & Hc & HK) HS].
    constructor; [|by apply IH]. eapply input_of_good; [|exact Hr]. intros f e He. unfold consumer_input in He.
    apply bind_Ok in He as (e0 & He0 & He). rewrite Hc in He. cbn [getkey bind] in He. apply Ok_inj in He as <-.
    split; [done|]. intros _ c' E. cbn [e_code set_e_code] in E. apply Some_inj in E as <-.
    apply scale_exchange_spec in He0 as [_ Hs]. assert (e_name e0 = e_name exc) as Hn by (by destruct Hs as (? & ? & _)).
    cbn [e_name set_e_code set_e_tag set_e_type]. by rewrite Hn.
Qed.

Definition entry (d : dataset) (ox : option nat * exchange) : Prop :=
  good_input T (or_gas K) ox.2 /\ (e_type ox.2 = RefProduct -> d_refprod d = Some (e_name ox.2)) /\
  forall i, ox.1 = Some i -> exists e, d_exchanges d !! i = Some e /\ e_name ox.2 = e_name e.
Lemma fold_entries ln t data ks loc row d todo acc r :
  Forall (good T K) data -> keyed (typed_refprod [MarketActivity; MarketGroup]) data = Ok ks ->
  (forall p, p ∈ todo -> d_exchanges d !! p.1 = Some p.2) ->
  (forall b, acc.1 = Some b -> Forall (good T K) b) -> Forall (entry d) acc.2.1 ->
  foldR (link_inputs_step ln t (map (fun g => (g.1, map snd g.2)) (groupby ks)) loc row) acc todo = Ok r ->
  (forall b, r.1 = Some b -> Forall (good T K) b) /\ Forall (entry d) r.2.1.
Proof.
  intros HG Hks. revert acc. induction todo as [|[i exc] todo IH]; intros acc Ht Hb He H.
  - cbn [foldR] in H. by apply Ok_inj in H as <-.
  - cbn [foldR] in H. apply bind_Ok in H as (a & Ha & H). unfold link_inputs_step in Ha. cbn [fst snd] in Ha.
    apply bind_Ok in Ha as (cs & Hcs & Ha). apply bind_Ok in Ha as (chosen & Hch & Ha). apply bind_Ok in Ha as (dec & Hdec & <-%Ok_inj).
    pose proof (candidates_good _ _ _ _ _ HG Hks Hb Hcs) as HC.
    assert (Forall (candidate (e_name exc)) chosen) as HCh.
    { apply Forall_forall. intros x Hx. rewrite Forall_forall in HC. apply HC. by apply (choose_markets_elem _ _ _ _ _ _ Hch). }
    apply decide_good in Hdec; [|done]. eapply IH; [..|exact H].
    + intros p Hp. apply Ht. by right.
    + cbn [fst]. intros b E. apply Some_inj in E as <-. eapply Forall_impl; [exact HC|]. by intros x [? _].
    + cbn [snd]. assert (d_exchanges d !! i = Some exc) as Hi by (apply (Ht (i, exc)); by left).
      destruct dec as [|c|new]; cbn [apply_decision fst].
      * done.
      * apply Forall_fmap. eapply Forall_impl; [exact He|]. intros [o x] (E1 & E2 & E3). unfold compose. cbn [fst snd] in *.
        case_bool_decide as Eo; [|done]. subst o. destruct (E3 i eq_refl) as (e0 & He0 & Hn). rewrite Hi in He0. apply Some_inj in He0 as <-.
        split; [|split].
        -- intros _ c' Ec. cbn [snd e_code set_e_code e_name] in *. apply Some_inj in Ec as <-. by rewrite Hn.
        -- exact E2.
        -- intros j Ej. cbn [fst snd] in *. injection Ej as <-. exists exc. done.
      * apply Forall_forall. intros ox Hox. apply filterb_In in Hox as [Hox _]. apply elem_of_app in Hox as [Hox|Hox].
        -- rewrite Forall_forall in He. by apply He.
        -- apply elem_of_list_fmap in Hox as (e & -> & Hx). rewrite Forall_forall in Hdec. destruct (Hdec e Hx) as [Hty Hgi].
           split; [done|]. cbn [fst snd]. split; [congruence|done].
Qed.
Lemma link_dataset_good ln t data ks before d r :
  Forall (good T K) data -> keyed (typed_refprod [MarketActivity; MarketGroup]) data = Ok ks -> good T K d ->
  (forall b, before = Some b -> Forall (good T K) b) ->
  link_dataset ln t (map (fun g => (g.1, map snd g.2)) (groupby ks)) data before d = Ok r ->
  (forall b, r.1 = Some b -> Forall (good T K) b) /\ goes T (or_gas K) d r.2.
Proof.
  intros HG Hks Hd Hb H. assert (good T (or_gas K) d) as Hd' by (eapply good_mono; [|exact Hd]; by left).
  unfold link_dataset in H. destruct (is_type MarketGroup d).
  - apply Ok_inj in H as <-. split; [done|]. by apply good_goes.
  - apply bind_Ok in H as (row & _ & H). cbv zeta in H. apply bind_Ok in H as (a & Ha & <-%Ok_inj).
    eapply (fold_entries _ _ _ _ _ _ d) in Ha as [H1 H2]; [|done|done| | |].
    + cbn [fst snd]. split; [done|].
      assert (good T (or_gas K) (set_d_exchanges (map snd a.2.1) d)) as Hg.
      { apply good_exchanges; [done|..]; apply Forall_fmap; (eapply Forall_impl; [exact H2|]); intros ox (E1 & E2 & _); done. }
      split; [by destruct a.2.2; repeat split|]. destruct a.2.2; [by apply good_no_suppliers|done].
    + intros [i e] Hp. apply filterb_In in Hp as [Hp _]. by apply elem_of_indexed in Hp.
    + done.
    + cbn [fst snd]. apply Forall_fmap. apply Forall_forall. intros [i e] Hp. apply elem_of_indexed in Hp.
      pose proof Hd' as (_ & H2 & H3 & _). rewrite Forall_forall in H2, H3. pose proof (elem_of_list_lookup_2 _ _ _ Hp) as Hin.
      unfold compose. split; [by apply H3|]. split; [by apply H2|]. cbn [fst snd]. intros j Ej. injection Ej as <-. by exists e.
Qed.
Lemma consumers_good ln t data data' : Forall (good T K) data ->
  link_consumers_to_markets ln t data = Ok data' -> Forall2 (goes T (or_gas K)) data data'.
Proof.
  intros HG H. unfold link_consumers_to_markets in H. apply bind_Ok in H as (ks & Hks & H). cbv zeta in H.
  apply bind_Ok in H as (r & Hr & <-%Ok_inj).
  assert (forall l acc r, (forall d, d ∈ l -> good T K d) -> (forall b, acc.1 = Some b -> Forall (good T K) b) ->
    foldR (fun acc ds => let? r := link_dataset ln t (map (fun g => (g.1, map snd g.2)) (groupby ks)) data acc.1 ds in
                         Ok (r.1, acc.2 ++ [r.2])) acc l = Ok r ->
    exists new, r.2 = acc.2 ++ new /\ Forall2 (goes T (or_gas K)) l new) as Hgen.
  { clear -HG Hks. induction l as [|d l IH]; intros acc r Hl Hb H.
    - cbn [foldR] in H. apply Ok_inj in H as <-. exists []. by rewrite app_nil_r.
    - cbn [foldR] in H. apply bind_Ok in H as (a & Ha & H). apply bind_Ok in Ha as (x & Hx & <-%Ok_inj).
      eapply link_dataset_good in Hx as [H1 H2]; [|done|done|apply Hl; by left|done].
      apply IH in H as (new & E & HF); [|intros y Hy; apply Hl; by right|done].
      exists (x.2 :: new). cbn [snd] in E. rewrite E, <- app_assoc. split; [done|]. by constructor. }
  destruct (Hgen data (None, []) r) as (new & E & HF); [|done|done|].
  - intros d Hd. rewrite Forall_forall in HG. by apply HG.
  - cbn [snd app] in E. by rewrite E.
Qed.
Lemma prune_good data data' : Forall (good T K) data -> prune_suppliers_by_technology_level data = Ok data' -> Forall2 (goes T K) data data'.
Proof.
  intros HG. apply (mapR_Forall2 (good T K)); [done|]. intros d d' _ Hd H. unfold prune_dataset in H.
  destruct (_ || _); [|apply Ok_inj in H as <-; by apply good_goes].
  pose proof Hd as (_ & _ & _ & H4). destruct (d_suppliers d) as [[|s0 l]|] eqn:El; [apply Ok_inj in H as <-; by apply good_goes| |apply Ok_inj in H as <-; by apply good_goes].
  specialize (H4 _ eq_refl). apply bind_Ok in H as (best & Hb & H).
  assert (Forall (good_supplier K) best) as HB.
  { revert Hb. generalize TECHNOLOGY_LEVEL_HIERARCHY as levels. induction levels as [|lv levels IH]; intros Hb.
    - apply Ok_inj in Hb as <-. constructor.
    - change (best_level (s0 :: l) (lv :: levels)) with
        (let? s := filterR (fun o => let? x := getkey "technology level" (e_tech o) in Ok (x =? lv)%string) (s0 :: l) in
         match s with [] => best_level (s0 :: l) levels | _ => Ok s end) in Hb.
      apply bind_Ok in Hb as (s & Hs & Hb). destruct s as [|x s]; [by apply IH|]. apply Ok_inj in Hb as <-.
      apply Forall_forall. intros y Hy. apply (filterR_elem _ _ _ _ Hs) in Hy as [Hy _]. rewrite Forall_forall in H4. by apply H4. }
  destruct best as [|b best]; [discriminate|]. apply Ok_inj in H as <-. split; [by repeat split|]. by apply good_suppliers.
Qed.
End Consumers.
