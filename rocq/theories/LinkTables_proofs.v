(** What the tables of linking and of combined production show (C95). *)
From Verif Require Import Base Types Uncertainty Uncertainty_proofs Utils Spec_Utils Utils_proofs Grouping GroupUpdate
  Cutoff_proofs Topology Spec_Topology Topology_proofs Recalculation Cutoff Spec_Allocation Allocation_proofs Spec_Recalculation Spec_Combined Combined_proofs Locations Spec_RestOfWorld RestOfWorld_proofs
  Spec_Markets Markets_proofs Spec_Mix Mix_proofs Spec_Consumers Consumers_proofs ConsumerInputs_proofs Tables Spec_Tables Tables_proofs LinkTables Spec_LinkTables.

(** *** Combined production *)
Lemma combined_shown ln euler order eval ds outs : unique_variables ds ->
  combined_production (recalculate ln euler order eval) ds = Ok outs ->
  Forall2 (fun r out => exists rp, filter is_refproduct (d_exchanges out) = [rp] /\
    r = [Txt (d_name out); Txt (e_name rp); Txt (d_location out)]) (combined_rows ds) outs.
Proof.
  intros HU H. apply combined_production_spec in H; [|done]. unfold combined_rows. rewrite nonzero_refs. apply Forall2_fmap_l.
  eapply Forall2_impl; [exact H|]. intros p out (part & m & (p' & dr & -> & _) & _ & (es & ps & -> & _) & (rp & Hrp & _ & Hn & _) & _).
  unfold compose. exists rp. split; [exact Hrp|]. by rewrite Hn.
Qed.

(** *** Market groups *)
Lemma each_app {A B} (h : A -> list B) a b : each h (a ++ b) = each h a ++ each h b.
Proof. unfold each. by rewrite map_app, concat_app. Qed.
Lemma each_perm {A B} (h : A -> list B) a b : Permutation a b -> Permutation (each h a) (each h b).
Proof.
  induction 1 as [|x a b _ IH|x y a|a b c _ IH1 _ IH2]; unfold each in *; cbn [map concat].
  - done.
  - by rewrite IH.
  - rewrite !app_assoc. apply Permutation_app_tail, Permutation_app_comm.
  - by rewrite IH1.
Qed.
Lemma each_update {A B} (h : A -> list B) (ups : list (nat * A)) l :
  NoDup (map fst ups) -> (forall u, u ∈ ups -> exists x, l !! u.1 = Some x /\ h x = []) ->
  Permutation (each h (update_all ups l)) (each (fun u => h u.2) ups ++ each h l).
Proof.
  revert l. induction ups as [|[i x] ups IH]; intros l HN HU; [done|]. cbn [map fst] in HN. apply NoDup_cons in HN as [Hi HN].
  change (update_all ((i, x) :: ups) l) with (update_all ups (<[i := x]> l)). rewrite IH; [|done|].
  - destruct (HU (i, x)) as (y & Hy & Hh); [by left|]. cbn [fst] in Hy.
    change (each (fun u : nat * A => h u.2) ((i, x) :: ups)) with (h x ++ each (fun u : nat * A => h u.2) ups).
    rewrite <- app_assoc, app_assoc, (Permutation_app_comm (h x)), <- app_assoc. apply Permutation_app_head.
    rewrite insert_take_drop by (by eapply lookup_lt_Some). rewrite <- (take_drop_middle l i y Hy) at 3.
    rewrite !each_app. change (each h (x :: drop (S i) l)) with (h x ++ each h (drop (S i) l)). change (each h (y :: drop (S i) l)) with (h y ++ each h (drop (S i) l)).
    rewrite Hh. cbn [app].
    rewrite !app_assoc. apply Permutation_app_tail, Permutation_app_comm.
  - intros u Hu. destruct (HU u) as (y & Hy & Hh); [by right|]. exists y. split; [|done]. rewrite list_lookup_insert_ne; [done|].
    intros ->. apply Hi. apply elem_of_list_fmap. by exists u.
Qed.
Lemma each_ext_in {A B} (f g : A -> list B) l : (forall x, x ∈ l -> f x = g x) -> each f l = each g l.
Proof. intros H. unfold each. f_equal. apply map_ext_in. intros x Hx. apply H. by apply elem_of_list_In. Qed.

Definition found_rows (ups : list (nat * dataset)) (l : string) : list row :=
  match List.find (fun u => (d_location u.2 =? l)%string) ups with
  | Some u => group_rows u.2
  | None => []
  end.
Lemma found_perm (ks : list string) (ups : list (nat * dataset)) : NoDup ks -> NoDup (map (fun u => d_location u.2) ups) ->
  (forall u, u ∈ ups -> d_location u.2 ∈ ks) ->
  Permutation (each (found_rows ups) ks) (each (fun u => group_rows u.2) ups).
Proof.
  revert ks. induction ups as [|u ups IH]; intros ks HK HN HI.
  - unfold found_rows. cbn [List.find]. unfold each. induction ks as [|k ks IHk]; [done|]. cbn [map concat app]. apply IHk; [|].
    + by apply NoDup_cons in HK as [_ ?].
    + intros u Hu. by apply elem_of_nil in Hu.
  - cbn [map] in HN. apply NoDup_cons in HN as [Hu HN]. destruct (proj1 (elem_of_Permutation ks (d_location u.2))) as [ks' Hks].
    { apply HI. by left. }
    rewrite (each_perm _ _ _ Hks). rewrite Hks in HK. apply NoDup_cons in HK as [Hn HK].
    change (each (found_rows (u :: ups)) (d_location u.2 :: ks')) with (found_rows (u :: ups) (d_location u.2) ++ each (found_rows (u :: ups)) ks').
    change (each (fun u : nat * dataset => group_rows u.2) (u :: ups)) with (group_rows u.2 ++ each (fun u : nat * dataset => group_rows u.2) ups).
    unfold found_rows at 1. cbn [List.find]. rewrite String.eqb_refl. apply Permutation_app_head. rewrite <- (IH ks').
    + erewrite each_ext_in; [reflexivity|]. intros l Hl. unfold found_rows. cbn [List.find]. destruct (String.eqb_spec (d_location u.2) l) as [E|E]; [|done].
      subst l. done.
    + done.
    + done.
    + intros v Hv. pose proof (HI v ltac:(by right)) as Hv'. rewrite Hks in Hv'. apply elem_of_cons in Hv' as [E|?]; [|done].
      exfalso. apply Hu. rewrite <- E. apply elem_of_list_fmap. by exists v.
Qed.

Lemma link_group_shape t markets group ups : NoDup (map fst group) -> link_group t markets group = Ok ups ->
  NoDup (map fst ups) /\ NoDup (map (fun u => d_location u.2) ups) /\
  forall u, u ∈ ups -> exists d, (u.1, d) ∈ group /\ d_location u.2 = d_location d /\ d_type u.2 = d_type d.
Proof.
  intros HN H. unfold link_group in H. apply bind_Ok in H as (row & _ & H). apply bind_Ok in H as (ordered & _ & H).
  apply mapR_Ok in H. set (keep := filterb _ group) in H.
  assert (NoDup (map fst keep)) as HK.
  { unfold keep. rewrite (filterb_filter (fun p : nat * dataset => match last (filterb (fun q => (d_location q.2 =? d_location p.2)%string) group) with
                       | Some q => (q.1 =? p.1)%nat
                       | None => false
                       end = true)).
    - by apply NoDup_map_filter.
    - intros p _. by destruct (match last _ with Some _ => _ | None => _ end). }
  assert (forall p p', p ∈ keep -> p' ∈ keep -> d_location p.2 = d_location p'.2 -> p.1 = p'.1) as HL.
  { unfold keep. intros p p' Hp Hp' E. apply filterb_In in Hp as [_ Hp], Hp' as [_ Hp']. rewrite E in Hp.
    destruct (last _) as [q|]; [|done]. apply Nat.eqb_eq in Hp, Hp'. congruence. }
  assert (forall p, p ∈ keep -> p ∈ group) as Hin by (unfold keep; intros p Hp; by apply filterb_In in Hp as [? _]).
  clearbody keep.
  assert (map fst ups = map fst keep /\ map (fun u => d_location u.2) ups = map (fun u => d_location u.2) keep /\
    forall u, u ∈ ups -> exists d, (u.1, d) ∈ keep /\ d_location u.2 = d_location d /\ d_type u.2 = d_type d) as (-> & -> & H3).
  { clear -H. induction H as [|p u keep ups Hp _ IH].
    - split_and!; [done..|]. intros u Hu. by apply elem_of_nil in Hu.
    - destruct IH as (E1 & E2 & E3). apply bind_Ok in Hp as (sup & _ & Hp). apply Ok_inj in Hp as <-. cbn [map]. rewrite E1, E2. split_and!.
      + done.
      + done.
      + intros v Hv. apply elem_of_cons in Hv as [->|Hv].
        * exists p.2. split; [|done]. cbn [fst]. rewrite <- surjective_pairing. by left.
        * destruct (E3 v Hv) as (d & Hd & ?). exists d. split; [by right|done]. }
  split; [done|]. split.
  - apply NoDup_alt. intros i j l Hi Hj. change (map ?f keep) with (f <$> keep) in Hi, Hj. rewrite list_lookup_fmap in Hi, Hj.
    destruct (keep !! i) as [p|] eqn:Ei; [|done]. destruct (keep !! j) as [q|] eqn:Ej; [|done]. cbn in Hi, Hj.
    assert (p.1 = q.1) as E by (apply HL; [by eapply elem_of_list_lookup_2..|congruence]).
    rewrite NoDup_alt in HK. apply (HK i j p.1); change (map fst keep) with (fst <$> keep); rewrite list_lookup_fmap; [by rewrite Ei|by rewrite Ej, E].
  - intros u Hu. destruct (H3 u Hu) as (d & Hd & ?). exists d. split; [by apply Hin|done].
Qed.

Lemma groups_shown t data data' : (forall d, d ∈ data -> d_type d = MarketGroup -> d_suppliers d = None) ->
  link_market_group_suppliers t data = Ok data' ->
  exists rows, group_link_rows t data = Ok rows /\ Permutation rows (listed_suppliers data').
Proof.
  intros HS H. unfold link_market_group_suppliers in H. apply bind_Ok in H as (ks & Hks & H). apply bind_Ok in H as (? & _ & H).
  unfold update_groups in H. rewrite Hks in H. cbn [bind] in H. apply bind_Ok in H as (ups & Hu & H). apply Ok_inj in H as <-.
  unfold group_link_rows. rewrite Hks. cbn [bind].
  destruct (keyed_Ok _ _ _ Hks) as (_ & _ & HW). destruct (groupby_spec ks) as (HN & _ & HX).
  assert (forall g, g ∈ groupby ks -> g.2 = members (typed_refprod [MarketGroup]) g.1 data) as Hg.
  { intros [k xs] Hg. apply HX in Hg as [_ ->]. by rewrite HW. }
  clear HW HX Hks. apply mapR_Ok in Hu.
  assert (exists rows, mapR (fun g : string * list (nat * dataset) =>
      let? markets := filterR (fun ds => if is_type MarketActivity ds
        then let? r := refprod ds in Ok (r =? g.1)%string else Ok false) data in
      let? ups := link_group t markets g.2 in
      Ok (by_place g.2 ups)) (groupby ks) = Ok rows /\ Permutation (concat rows) (each (fun u => group_rows u.2) (concat ups)) /\
    NoDup (map fst (concat ups)) /\
    forall u, u ∈ concat ups -> exists d k, k ∈ map fst (groupby ks) /\ data !! u.1 = Some d /\ key_of (typed_refprod [MarketGroup]) d = Some k /\
      d_type u.2 = MarketGroup /\ d_type d = MarketGroup) as (rows & HR & HP & HU & HI).
  { revert HN Hg Hu. generalize (groupby ks) as gs. clear ks. intros gs HN Hg Hu. induction Hu as [|g u gs us Hgu _ IH].
    - exists []. split_and!; [done|done|constructor|]. intros u Hu. by apply elem_of_nil in Hu.
    - cbn [map] in HN. apply NoDup_cons in HN as [Hng HN]. destruct (IH HN) as (rows & HR & HP & HU & HI); [intros g' Hg'; apply Hg; by right|].
      clear IH. cbn beta in Hgu. apply bind_Ok in Hgu as (markets & Hm & Hgu). pose proof (Hg g ltac:(by left)) as Eg. clear Hg.
      destruct (link_group_shape t markets g.2 u) as (S1 & S2 & S3); [rewrite Eg; apply members_fst|done|].
      exists (by_place g.2 u :: rows). cbn [mapR]. rewrite Hm. cbn [bind]. rewrite Hgu. cbn [bind]. rewrite HR. cbn [bind].
      assert (forall v, v ∈ u -> exists d, data !! v.1 = Some d /\ key_of (typed_refprod [MarketGroup]) d = Some g.1 /\
        d_type v.2 = MarketGroup /\ d_type d = MarketGroup) as S4.
      { intros v Hv. destruct (S3 v Hv) as (d & Hd & _ & Ht). rewrite Eg in Hd. apply elem_of_members in Hd as [Hd Hk]. exists d.
        split; [done|]. split; [done|]. apply typed_refprod_key in Hk as [Hk _]. rewrite elem_of_list_singleton in Hk. by rewrite Ht. }
      split; [done|]. cbn [concat]. split_and!.
      + rewrite each_app. rewrite HP. apply Permutation_app_tail. unfold by_place.
        destruct (groupby_spec (map (fun p : nat * dataset => (d_location p.2, p)) g.2)) as (G1 & G2 & _).
        rewrite <- (found_perm (map fst (groupby (map (fun p : nat * dataset => (d_location p.2, p)) g.2))) u G1 S2).
        * unfold each. rewrite map_map. reflexivity.
        * intros v Hv. destruct (S3 v Hv) as (d & Hd & El & _). apply G2. rewrite map_map. cbn [fst]. rewrite El. apply elem_of_list_fmap. by exists (v.1, d).
      + rewrite map_app. apply NoDup_app. split; [done|]. split; [|done]. intros i Hi Hi'. apply elem_of_list_fmap in Hi as (v & -> & Hv), Hi' as (w & E & Hw).
        destruct (S4 v Hv) as (d & Hd & Hk & _). destruct (HI w Hw) as (d' & k & Hk' & Hd' & Hkk & _). apply Hng.
        rewrite <- E in Hd'. assert (d' = d) as -> by congruence. assert (k = g.1) as -> by congruence. done.
      + intros v Hv. apply elem_of_app in Hv as [Hv|Hv].
        * destruct (S4 v Hv) as (d & ? & ? & ? & ?). exists d, g.1. split_and!; [by left|done..].
        * destruct (HI v Hv) as (d & k & ? & ?). exists d, k. split; [by right|done]. }
  clear Hu. rewrite HR. cbn [bind]. exists (concat rows). split; [done|]. rewrite HP.
  set (h := fun ds => if decide (d_type ds = MarketGroup) then group_rows ds else []).
  assert (forall l, listed_suppliers l = each h l) as ->.
  { clear. intros l. induction l as [|d l IH]; [done|]. unfold listed_suppliers in *. rewrite filter_cons. unfold each. cbn [map concat]. fold (each h l).
    rewrite <- IH. unfold h. destruct (decide (d_type d = MarketGroup)); done. }
  rewrite (each_update h (concat ups) data HU).
  - assert (each h data = []) as ->.
    { clear -HS. assert (forall d, d ∈ data -> h d = []) as Hh.
      { intros d Hd. unfold h. destruct (decide _) as [E|]; [|done]. unfold group_rows. by rewrite HS. }
      clear HS. induction data as [|d data IH]; [done|]. unfold each. cbn [map concat]. fold (each h data). rewrite IH, Hh; [done|by left|].
      intros d' Hd'. apply Hh. by right. }
    rewrite app_nil_r. erewrite each_ext_in; [reflexivity|]. intros u Hu. destruct (HI u Hu) as (d & k & _ & _ & _ & Ht & _).
    unfold h. by rewrite decide_True.
  - intros u Hu. destruct (HI u Hu) as (d & k & _ & Hd & _ & _ & Ht). exists d. split; [done|]. unfold h. rewrite decide_True by done.
    unfold group_rows. rewrite HS; [done|by eapply elem_of_list_lookup_2|done].
Qed.

(** *** Consumers *)
Section consumers.
  Context (ln : Qc -> Qc) (t : topo) (data : list dataset) (ks : list (string * (nat * dataset))).
  Context (Hks : keyed (typed_refprod [MarketActivity; MarketGroup]) data = Ok ks).
  Context (Hknown : Forall (fun d => known t (d_location d)) data).
  Context (Hgroups : forall d, d ∈ data -> d_type d = MarketGroup -> d_location d <> "RoW"%string).
  Context (Hcodes : forall d, d ∈ data -> exists c, d_code d = Some c /\ c <> ""%string).
  Notation mapping := (map (fun g => (g.1, map snd g.2)) (groupby ks)).

  Definition input_shown (ds : dataset) (row : option faces) (e : exchange) : list Tables.row :=
    match choose_markets t (d_location ds) row (filter (sells (e_name e)) data) with
    | Ok ms => input_rows ds ms
    | Err _ => []
    end.

  Lemma rows_fold ds row todo : 
    (forall p : nat * exchange, p ∈ todo -> e_name p.2 = "refinery gas"%string -> sold data "refinery gas") ->
    forall before st acc r,
    foldR (link_inputs_step ln t mapping (d_location ds) row) (before, st) todo = Ok r ->
    foldR (input_rows_step t mapping ds row) (before, acc) (map snd todo) =
      Ok (r.1, acc ++ concat (map (fun p => input_shown ds row p.2) todo)).
  Proof.
    intros Hrg. induction todo as [|p todo IH]; intros before st acc r H; cbn [foldR map] in H |- *.
    - apply Ok_inj in H as <-. cbn [concat]. by rewrite app_nil_r.
    - apply bind_Ok in H as ([before' st'] & Hstep & H). unfold link_inputs_step in Hstep.
      apply bind_Ok in Hstep as (cs & Hcs & Hstep). apply bind_Ok in Hstep as (chosen & Hch & Hstep).
      apply bind_Ok in Hstep as (d & Hd & Hstep). apply Ok_inj in Hstep. injection Hstep as <- <-.
      unfold input_rows_step at 1. cbn [fst snd] in *. rewrite Hcs. cbn [bind]. rewrite Hch. cbn [bind].
      assert (cs = filter (sells (e_name p.2)) data) as Ecs.
      { eapply candidates_spec; [exact Hks| |exact Hcs]. intros E. rewrite E. apply (Hrg p); [by left|done]. }
      erewrite IH; [|intros q Hq; apply Hrg; by right|exact H]. f_equal. f_equal. cbn [concat]. rewrite app_assoc. f_equal. f_equal.
      unfold input_shown. rewrite <- Ecs, Hch. done.
  Qed.

  Lemma unlinked_indexed (l : list exchange) : map snd (filterb (fun p : nat * exchange => unlinked p.2) (indexed l)) = filterb unlinked l.
  Proof.
    rewrite <- (indexed_snd l) at 2. generalize (indexed l) as k. clear. intros k. induction k as [|p k IH]; [done|].
    cbn [map]. rewrite !filterb_cons. destruct (unlinked p.2); cbn [map]; by rewrite IH.
  Qed.

  Lemma shown_dataset before ds r : ds ∈ data -> d_type ds <> MarketGroup ->
    (forall e, e ∈ d_exchanges ds -> open_exchange e -> e_name e = "refinery gas"%string -> sold data "refinery gas") ->
    link_dataset ln t mapping data before ds = Ok r ->
    exists rows, dataset_link_rows t mapping data before ds = Ok (r.1, rows) /\ shown_consumer t data ds (r.2, rows).
  Proof.
    intros Hds Hty Hrg H. unfold link_dataset in H. unfold dataset_link_rows. unfold is_type in *.
    rewrite bool_decide_eq_false_2 in H |- * by done. apply bind_Ok in H as (row & Hrow & H). rewrite Hrow. cbn [bind].
    apply consumer_row_spec in Hrow as (f & Hca & Hf); [|by apply (proj1 (Forall_forall _ _) Hknown ds)].
    apply bind_Ok in H as (res & Hres & H).
    assert (forall p, p ∈ indexed (d_exchanges ds) -> unlinked p.2 = true -> e_name p.2 = "refinery gas"%string -> sold data "refinery gas") as Hrg'.
    { intros [i e] Hp Hu Hn. apply elem_of_indexed in Hp. apply (Hrg e); [|by apply unlinked_iff|done]. by eapply elem_of_list_lookup_2. }
    pose proof Hres as Hrows. apply (rows_fold _ _ _) with (acc := []) in Hrows.
    2:{ intros p Hp. apply filterb_In in Hp as [Hp Hu]. by apply Hrg'. }
    rewrite unlinked_indexed in Hrows.
    eapply (inputs_fold ln t data ks Hks Hknown Hgroups Hcodes ds row f (indexed (d_exchanges ds)) _ Hf (indexed_fst _) Hrg' []) in Hres as [Hst Hall].
    2:{ cbn [app]. intros p Hp. by apply filterb_In in Hp. }
    2:{ cbn [app]. apply (NoDup_fmap_1 fst). change (NoDup (map fst (filterb (fun p : nat * exchange => unlinked p.2) (indexed (d_exchanges ds))))).
        rewrite (filterb_filter (fun p : nat * exchange => unlinked p.2 = true)).
        - apply NoDup_map_filter, indexed_fst.
        - intros x _. destruct (unlinked x.2); [by rewrite bool_decide_eq_true_2|by rewrite bool_decide_eq_false_2]. }
    2:{ rewrite state_nil. reflexivity. }
    cbn [app] in Hst, Hrows. apply Ok_inj in H. subst r. cbn [fst snd].
    rewrite Hrows. eexists. split; [reflexivity|].
    exists (map (fun e => if unlinked e then ((stays_of (choice ln t data ds row e) e, new_of (choice ln t data ds row e)), input_shown ds row e)
                             else (([e], []), [])) (d_exchanges ds)), (if res.2.2 then None else d_suppliers ds). cbn [fst snd]. split_and!.
    - apply Forall2_fmap_r, Forall_Forall2_diag. apply Forall_forall. intros e He.
      unfold compose, shown_input. cbn beta. destruct (unlinked e) eqn:Eu; cbn beta iota.
      + right. apply unlinked_iff in Eu. split; [done|]. cbn [fst snd].
        apply elem_of_list_lookup in He as [i Hi]. destruct (Hall (i, e)) as [d Hd].
        { apply filterb_In. split; [by apply elem_of_indexed|]. by apply unlinked_iff. }
        cbn [snd] in Hd. unfold choice. rewrite Hd. unfold choice_of in Hd. apply bind_Ok in Hd as (ms & Hms & Hd).
        destruct (choose_markets_spec t _ _ _ _ _ _ Hknown Hgroups Hf Hms) as (found & Hfound & HF).
        exists ms. split; [by exists f, found|]. split.
        * eapply decide_input_spec; [|exact Hd]. apply Forall_forall. intros m Hm. apply elem_of_list_lookup in Hm as [j Hj].
          destruct (Forall2_lookup_r _ _ _ _ _ HF Hj) as (c & _ & Hc). apply seller_at_in in Hc as (Hc & _).
          destruct (Hcodes m Hc) as (cc & -> & _). by eexists.
        * unfold input_shown. rewrite Hms. unfold input_rows. destruct ms as [|m [|m2 ms]]; split; done.
      + left. split; [|done]. rewrite <- unlinked_iff. congruence.
    - rewrite Hst, state_final by apply indexed_fst. rewrite indexed_snd. rewrite !map_map.
      assert (forall s, (if res.2.2 then set_d_suppliers None (set_d_exchanges s ds) else set_d_exchanges s ds) =
        set_d_suppliers (if res.2.2 then None else d_suppliers ds) (set_d_exchanges s ds)) as ->.
      { intros s. destruct (res.2.2); [done|]. by destruct ds. }
      f_equal. f_equal. f_equal; f_equal; apply map_ext; intros e; by destruct (unlinked e).
    - rewrite map_map. rewrite <- (map_map snd (input_shown ds row)), unlinked_indexed. clear.
      induction (d_exchanges ds) as [|e es IH]; [done|]. rewrite filterb_cons. cbn [map concat]. destruct (unlinked e); cbn [map concat snd]; by rewrite IH.
  Qed.
End consumers.

Lemma consumers_shown ln t data data' :
  Forall (fun d => known t (d_location d)) data ->
  (forall d, d ∈ data -> d_type d = MarketGroup -> d_location d <> "RoW"%string) ->
  (forall d, d ∈ data -> exists c, d_code d = Some c /\ c <> ""%string) ->
  (forall ds e, ds ∈ data -> e ∈ d_exchanges ds -> open_exchange e -> e_name e = "refinery gas"%string ->
     sold data "refinery gas") ->
  link_consumers_to_markets ln t data = Ok data' ->
  exists rss, consumer_link_rows t data = Ok (concat rss) /\
    Forall3 (fun ds ds' rs => (d_type ds = MarketGroup -> ds' = ds /\ rs = []) /\
      (d_type ds <> MarketGroup -> shown_consumer t data ds (ds', rs))) data data' rss.
Proof.
  intros Hk Hg Hc Hrg H. unfold link_consumers_to_markets in H. unfold consumer_link_rows. apply bind_Ok in H as (ks & Hks & H).
  rewrite Hks. cbn [bind]. apply bind_Ok in H as (r & Hr & <-%Ok_inj).
  assert (forall l before out acc r, (forall d, d ∈ l -> d ∈ data) ->
    foldR (fun acc ds => let? r := link_dataset ln t (map (fun g => (g.1, map snd g.2)) (groupby ks)) data acc.1 ds in
             Ok (r.1, acc.2 ++ [r.2])) (before, out) l = Ok r ->
    exists l' rss, r.2 = out ++ l' /\
      foldR (fun acc ds => let? r := dataset_link_rows t (map (fun g => (g.1, map snd g.2)) (groupby ks)) data acc.1 ds in
             Ok (r.1, acc.2 ++ r.2)) (before, acc) l = Ok (r.1, acc ++ concat rss) /\
      Forall3 (fun ds ds' rs => (d_type ds = MarketGroup -> ds' = ds /\ rs = []) /\
      (d_type ds <> MarketGroup -> shown_consumer t data ds (ds', rs))) l l' rss) as Hgen.
  { clear Hr r. intros l. induction l as [|ds l IH]; intros before out acc r Hin Hr; cbn [foldR] in Hr.
    - apply Ok_inj in Hr as <-. exists [], []. cbn [concat foldR]. rewrite !app_nil_r. split_and!; [done|done|constructor].
    - apply bind_Ok in Hr as ([b' out'] & Hstep & Hr). apply bind_Ok in Hstep as (x & Hx & Hstep).
      apply Ok_inj in Hstep. injection Hstep as <- <-. cbn [fst snd] in Hx.
      assert (exists rows, dataset_link_rows t (map (fun g => (g.1, map snd g.2)) (groupby ks)) data before ds = Ok (x.1, rows) /\
        (d_type ds = MarketGroup -> x.2 = ds /\ rows = []) /\
        (d_type ds <> MarketGroup -> shown_consumer t data ds (x.2, rows))) as (rows & HR & HS).
      { destruct (decide (d_type ds = MarketGroup)) as [Ht|Ht].
        - unfold link_dataset, is_type in Hx. rewrite bool_decide_eq_true_2 in Hx by done. apply Ok_inj in Hx as <-.
          exists []. unfold dataset_link_rows, is_type. rewrite bool_decide_eq_true_2 by done. done.
        - destruct (shown_dataset ln t data ks Hks Hk Hg Hc before ds x) as (rows & ? & ?); [apply Hin; by left|done| |done|].
          + intros e He. apply (Hrg ds); [apply Hin; by left|done].
          + exists rows. done. }
      destruct (IH x.1 (out ++ [x.2]) (acc ++ rows) r) as (l' & rss & Hl' & HF & H3); [intros d Hd; apply Hin; by right|exact Hr|].
      exists (x.2 :: l'), (rows :: rss). rewrite Hl', <- app_assoc. split; [done|]. split; [|by constructor].
      cbn [foldR fst snd]. rewrite HR. cbn [bind fst snd]. rewrite HF. cbn [concat]. by rewrite app_assoc. }
  destruct (Hgen data None [] [] r) as (l' & rss & Hl' & HF & H3); [done|exact Hr|].
  exists rss. cbn [app] in *. rewrite HF. cbn [bind snd]. split; [done|]. by rewrite Hl'.
Qed.

(** Inputs made by sharing an input among markets have their rows, and rows have an input. *)
Lemma seller_data product data c m : seller_at product data c m -> m ∈ data /\ sells product m /\ d_location m = c.
Proof.
  intros H. assert (forall kind, last (filter (fun d => d_location d = c) (sellers kind product data)) = Some m ->
    m ∈ data /\ d_type m = kind /\ d_refprod m = Some product /\ d_location m = c) as HK.
  { intros kind Hl. apply last_Some_elem_of in Hl. apply elem_of_list_filter in Hl as [Hc Hl]. apply elem_of_list_filter in Hl as [[? ?] ?]. done. }
  destruct H as [H|[_ H]]; apply HK in H as (? & ? & ? & ?); split_and!; [done|split; auto|done|done|split; auto|done].
Qed.
Lemma parts_shown t data ds ds' rs x : shown_consumer t data ds (ds', rs) -> x ∈ d_exchanges ds' -> x ∉ d_exchanges ds ->
  (exists e m, e ∈ d_exchanges ds /\ open_exchange e /\ m ∈ data /\ sells (e_name e) m /\ x = set_e_code (d_code m) e) \/
  (exists e m, e ∈ d_exchanges ds /\ open_exchange e /\ m ∈ data /\ sells (e_name e) m /\ e_code x = d_code m /\
     [Txt (d_name ds); Txt (d_location ds); Txt (d_location m)] ∈ rs).
Proof.
  intros (parts & s & HF & E1 & E2) Hx Hn. cbn [fst snd] in *. subst ds' rs. cbn [d_exchanges set_d_suppliers set_d_exchanges] in Hx.
  assert (exists e p, e ∈ d_exchanges ds /\ p ∈ parts /\ shown_input t data ds e p /\ x ∈ p.1.1 ++ p.1.2) as (e & p & He & Hp & HS & Hxp).
  { clear Hn. generalize dependent (d_exchanges ds). intros es HF. induction HF as [|e p es parts HS HF IH]; [by rewrite elem_of_nil in Hx|].
    cbn [map concat] in Hx. rewrite !elem_of_app in Hx.
    assert (x ∈ p.1.1 ++ p.1.2 \/ x ∈ concat (map (fun r => r.1.1) parts) ++ concat (map (fun r => r.1.2) parts)) as [H|H].
    { rewrite !elem_of_app. tauto. }
    - exists e, p. split_and!; [by left|by left|done|done].
    - destruct (IH H) as (e' & p' & ? & ? & ? & ?). exists e', p'. split_and!; [by right|by right|done|done]. }
  destruct HS as [[_ ->]|[Ho (ms & (f & found & _ & _ & HM) & HL & HR1 & HR2)]].
  { cbn [fst snd app] in Hxp. apply elem_of_list_singleton in Hxp as ->. done. }
  assert (forall m, m ∈ ms -> m ∈ data /\ sells (e_name e) m) as Hms.
  { intros m Hm. apply elem_of_list_lookup in Hm as [i Hi]. destruct (Forall2_lookup_r _ _ _ _ _ HM Hi) as (c & _ & Hc).
    by apply seller_data in Hc as (? & ? & _). }
  unfold linked_input in HL. destruct ms as [|m [|m2 ms]].
  - destruct HL as [H1 H2]. rewrite H1, H2 in Hxp. apply elem_of_list_singleton in Hxp as ->. done.
  - destruct HL as (_ & H1 & H2). rewrite H1, H2 in Hxp. apply elem_of_list_singleton in Hxp as ->. left.
    destruct (Hms m ltac:(by left)) as [? ?]. exists e, m. done.
  - destruct HL as [(_ & H1 & H2)|(_ & H1 & H2)]; rewrite H1 in Hxp.
    + rewrite H2 in Hxp. apply elem_of_list_singleton in Hxp as ->. done.
    + cbn [app] in Hxp. right. apply elem_of_list_lookup in Hxp as [i Hi]. destruct (Forall2_lookup_r _ _ _ _ _ H2 Hi) as (m' & Hm' & (x' & _ & _ & ->)).
      apply elem_of_list_lookup_2, elem_of_list_filter in Hm' as [_ Hm']. destruct (Hms m' Hm') as [? ?].
      exists e, m'. split_and!; [done..|]. apply in_concat'. exists p.2. split; [|apply elem_of_list_fmap; by exists p].
      rewrite HR2 by done. apply elem_of_list_fmap. by exists m'.
Qed.
Lemma rows_named t data ds ds' rs r : shown_consumer t data ds (ds', rs) -> r ∈ rs ->
  exists e m, e ∈ d_exchanges ds /\ open_exchange e /\ m ∈ data /\ sells (e_name e) m /\
    r = [Txt (d_name ds); Txt (d_location ds); Txt (d_location m)].
Proof.
  intros (parts & s & HF & _ & E2) Hr. cbn [fst snd] in *. subst rs. apply in_concat' in Hr as (q & Hr & Hq).
  apply elem_of_list_fmap in Hq as (p & -> & Hp). apply elem_of_list_lookup in Hp as [i Hi]. destruct (Forall2_lookup_r _ _ _ _ _ HF Hi) as (e & He & HS).
  apply elem_of_list_lookup_2 in He. destruct HS as [[_ ->]|[Ho (ms & (f & found & _ & _ & HM) & HL & HR1 & HR2)]]; [by apply elem_of_nil in Hr|].
  destruct (decide (List.length ms = 1)) as [E|E]; [rewrite (HR1 E) in Hr; by apply elem_of_nil in Hr|]. rewrite (HR2 E) in Hr.
  apply elem_of_list_fmap in Hr as (m & -> & Hm). exists e, m. apply elem_of_list_lookup in Hm as [j Hj].
  destruct (Forall2_lookup_r _ _ _ _ _ HM Hj) as (c & _ & Hc). by apply seller_data in Hc as (? & ? & _).
Qed.

(** *** Columns *)
Lemma combined_fits ds : fits_in link_columns "combined_production" (combined_rows ds).
Proof. eexists. split; [by left|]. apply Forall_fmap, Forall_forall. done. Qed.
Lemma groups_fit t data rows : group_link_rows t data = Ok rows -> fits_in link_columns "link_market_group_suppliers" rows.
Proof.
  intros H. unfold group_link_rows in H. apply bind_Ok in H as (ks & _ & H). apply bind_Ok in H as (rss & Hr & H). apply Ok_inj in H as <-.
  eexists. split; [right; by left|]. apply mapR_Ok in Hr. apply Forall_forall. intros r Hin. apply in_concat' in Hin as (rs & Hin & Hrs).
  apply elem_of_list_lookup in Hrs as [i Hi]. destruct (Forall2_lookup_r _ _ _ _ _ Hr Hi) as (g & _ & Hg).
  apply bind_Ok in Hg as (ms & _ & Hg). apply bind_Ok in Hg as (ups & _ & Hg). apply Ok_inj in Hg as <-. unfold by_place, each in Hin.
  apply in_concat' in Hin as (q & Hin & Hq). apply elem_of_list_fmap in Hq as (g' & -> & _). destruct (List.find _ ups); [|by apply elem_of_nil in Hin].
  by apply elem_of_list_fmap in Hin as (s & -> & _).
Qed.
Lemma consumers_fit t data rows : consumer_link_rows t data = Ok rows -> fits_in link_columns "link_consumers_to_markets" rows.
Proof.
  intros H. unfold consumer_link_rows in H. apply bind_Ok in H as (ks & _ & H). apply bind_Ok in H as (r & Hr & H). apply Ok_inj in H as <-.
  eexists. split; [do 2 right; by left|]. cbn [List.length].
  assert (forall A S (f : option S * list row -> A -> result (option S * list row)) l a a',
    (forall a x a', f a x = Ok a' -> Forall (fun r => List.length r = 3) a.2 -> Forall (fun r => List.length r = 3) a'.2) ->
    foldR f a l = Ok a' -> Forall (fun r => List.length r = 3) a.2 -> Forall (fun r => List.length r = 3) a'.2) as HG.
  { clear. intros A S f l. induction l as [|x l IH]; intros a a' Hf H Ha; cbn [foldR] in H; [by apply Ok_inj in H as <-|].
    apply bind_Ok in H as (b & Hb & H). eapply IH; [exact Hf|exact H|]. by eapply Hf. }
  eapply (HG _ _ _ _ (None, [])); [|exact Hr|constructor]. clear r Hr. intros a ds a' H Ha. apply bind_Ok in H as (r & Hr & H). apply Ok_inj in H as <-.
  cbn [snd]. apply Forall_app. split; [done|]. unfold dataset_link_rows in Hr. destruct (is_type MarketGroup ds); [apply Ok_inj in Hr as <-; constructor|].
  apply bind_Ok in Hr as (row & _ & Hr). eapply HG; [|exact Hr|constructor]. clear. intros a e a' H Ha. unfold input_rows_step in H.
  apply bind_Ok in H as (cs & _ & H). apply bind_Ok in H as (ms & _ & H). apply Ok_inj in H as <-. cbn [snd]. apply Forall_app. split; [done|].
  unfold input_rows. destruct ms as [|m [|m2 ms]]; [constructor|constructor|]. apply Forall_fmap, Forall_forall. done.
Qed.
