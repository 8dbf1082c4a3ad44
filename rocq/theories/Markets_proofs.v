From Verif Require Import Base Types Uncertainty Utils Spec_Utils Utils_proofs Strings StringFacts
  Grouping GroupUpdate Cutoff Cutoff_proofs SingleOutput_proofs Topology Spec_Topology Topology_proofs
  Locations Spec_Markets RestOfWorld_proofs.

Lemma eqb_decide (a b : string) : (a =? b)%string = bool_decide (a = b).
Proof.
  destruct (String.eqb_spec a b); symmetry; [by apply bool_decide_eq_true_2|by apply bool_decide_eq_false_2].
Qed.

Lemma resolve_rest t locs r : resolve_row t locs = Ok r -> rest_of t locs r.
Proof. intros H. unfold rest_of. by apply resolve_row_exact. Qed.

Lemma no_overlaps_Ok t locs u : no_overlaps t locs = Ok u -> locs <> [] -> Forall (known t) locs ->
  partition t locs.
Proof.
  unfold no_overlaps. intros (o & Ho & H)%bind_Ok Hne Hk.
  destruct (overlaps_spec t locs Hne Hk) as (b & Hb & Hap). rewrite Ho in Hb. apply Ok_inj in Hb as ->.
  destruct b; [discriminate|]. split; [by apply Hap|]. intros Hg.
  rewrite bool_decide_eq_true_2 in H by done. cbn [andb] in H.
  destruct (1 <? length locs)%nat eqn:E; [discriminate|]. apply Nat.ltb_ge in E.
  destruct locs as [|? [|? ?]]; cbn in *; [by apply elem_of_nil in Hg|done|lia].
Qed.
Lemma no_geo_Ok locs u : no_geo_duplicates locs = Ok u -> NoDup locs.
Proof.
  unfold no_geo_duplicates, assertR. case_bool_decide as E; [|discriminate]. intros _.
  induction locs as [|x l IH]; [constructor|]. cbn in E.
  destruct (decide_rel elem_of x l) as [Hin|Hn].
  - exfalso. assert (length (remove_dups l) <= length l)%nat as Hle.
    { clear. induction l as [|y l IH]; cbn; [lia|]. destruct (decide_rel _ y l); cbn; lia. }
    lia.
  - constructor; [done|]. apply IH. cbn in E. lia.
Qed.

Lemma mapR_places_all t l fs : mapR (places t) l = Ok fs -> Forall (known t) l.
Proof.
  intros H%mapR_Ok. apply Forall_forall. intros n [i Hi]%elem_of_list_lookup.
  destruct (Forall2_lookup_l _ _ _ _ _ H Hi) as (f & _ & Hf).
  apply places_Ok in Hf as [[-> _]|[_ Hf]]; [by left|right; by eexists].
Qed.
Lemma resolve_known t locs r : resolve_row t locs = Ok r -> Forall (known t) locs /\ locs <> [] /\
  is_Some (t !! "GLO"%string).
Proof.
  unfold resolve_row, union_of. intros (g & Hg & H)%bind_Ok. apply bind_Ok in H as (u & Hu & _).
  apply bind_Ok in Hu as (fs & Hfs & Hu).
  split; [by eapply mapR_places_all|]. split.
  - intros ->. cbn in Hfs. apply Ok_inj in Hfs as <-. discriminate.
  - apply places_Ok in Hg as [[? _]|[_ ?]]; [discriminate|]. by eexists.
Qed.

(** The places contained in another, with RoW resolved. *)
Lemma contained_area t loc f r s n :
  contained t loc false [] (Some r) = Ok s -> t !! "RoW"%string = None ->
  occupies t (Some r) loc f -> loc <> PName "RoW" ->
  n ∈ s <-> exists g, occupies t (Some r) (PName n) g /\ g ⊆ f /\ f <> ∅ /\ (n = "RoW"%string -> g <> ∅).
Proof.
  intros H Ht Hocc Hloc. unfold contained in H.
  rewrite (bool_decide_eq_false_2 (loc = PName "RoW")) in H by done. cbn [andb negb] in H.
  assert ((match loc with
           | PFaces f => Ok f
           | PName n => if (n =? "RoW")%string then Ok (default ∅ (Some r)) else places t n
           end) = Ok f) as E.
  { change (faces_of t (Some r) loc = Ok f). by apply faces_of_occupies. }
  rewrite E in H. cbn [bind] in H. unfold subtracted in H. cbn [bind] in H. clear E.
  case_bool_decide as Ef.
  { apply Ok_inj in H as <-. split; [set_solver|]. intros (g & _ & _ & Hf & _). done. }
  rewrite (bool_decide_eq_false_2 (Some r = None)) in H by done.
  rewrite andb_true_r, andb_false_r, andb_false_l, orb_false_r in H.
  set (res := dom _) in H.
  assert (forall m, m ∈ res <-> exists g, t !! m = Some g /\ g ⊆ f) as Hres.
  { intros m. unfold res. rewrite elem_of_dom. split.
    - intros [g Hg]. apply map_filter_lookup_Some in Hg as [Hg [Hs _]]. by exists g.
    - intros (g & Hg & Hs). exists g. apply map_filter_lookup_Some. split; [done|].
      split; [done|]. intros [_ ?]. done. }
  assert (n ∈ s <-> (n = "RoW"%string /\ r <> ∅ /\ r ⊆ f) \/ n ∈ res) as ->.
  { destruct (decide (r <> ∅ /\ r ⊆ f)) as [[H1 H2]|Hn].
    - rewrite !bool_decide_eq_true_2 in H by done. cbn [andb] in H. apply Ok_inj in H as <-. set_solver.
    - rewrite <- bool_decide_and, bool_decide_eq_false_2 in H by done. apply Ok_inj in H as <-. naive_solver. }
  split.
  - intros [(-> & H1 & H2)|(g & Hg & Hs)%Hres].
    + exists r. split; [by constructor|]. done.
    + assert (n <> "RoW"%string) as Hn by congruence. exists g. split; [by constructor|]. done.
  - intros (g & Hg & Hs & _ & Hr). inversion Hg; subst.
    + right. apply Hres. by exists g.
    + left. match goal with H : Some _ = Some _ |- _ => injection H as -> end. split; [done|]. split; [by apply Hr|done].
Qed.

Lemma occupies_area t locs r n g : rest_of t locs r ->
  occupies t (Some r) (PName n) g -> area t locs n g.
Proof.
  intros Hr H. inversion H; subst; [left|right]; [done|]. split; [done|].
  match goal with H : Some _ = Some _ |- _ => injection H as -> end. done.
Qed.
Lemma rest_of_unique t locs f g : rest_of t locs f -> rest_of t locs g -> f = g.
Proof. intros H1 H2. apply set_eq. intros x. by rewrite (H1 x), (H2 x). Qed.
Lemma area_unique t locs n f g : area t locs n f -> area t locs n g -> f = g.
Proof.
  intros [[Hn Hf]|[Hn Hf]] [[Hn' Hg]|[Hn' Hg]]; try done; [congruence|]. by eapply rest_of_unique.
Qed.
Lemma area_occupies t locs r n g : rest_of t locs r -> area t locs n g ->
  occupies t (Some r) (PName n) g.
Proof.
  intros Hr [[Hn Hg]|[-> Hg]]; [by constructor|].
  rewrite (rest_of_unique _ _ _ _ Hg Hr). by constructor.
Qed.

Lemma by_location_Some l group d :
  by_location l group = Some d <->
  d_location d = l /\ last (filter (fun x => d_location x = l) group) = Some d.
Proof.
  unfold by_location. rewrite (filterb_filter (fun x => d_location x = l)) by (intros; apply eqb_decide).
  split; [|tauto]. intros H. split; [|done].
  apply last_Some_elem_of in H. by apply elem_of_list_filter in H as [? _].
Qed.

Lemma annotate_supply sup rp s : get_single_reference_product sup = Ok rp ->
  s = annotate_exchange rp sup -> supply_of sup s.
Proof. intros H ->. exists rp. split; [by apply get_single_ok|done]. Qed.

Lemma group_supply_spec ord t location f group l :
  (forall s, ord s ≡ₚ elements s) -> t !! "RoW"%string = None ->
  (forall r, occupies t (Some r) location f) -> location <> PName "RoW" ->
  group_supply ord t location group = Ok l ->
  partition t (map d_location group) /\
  NoDup (map e_location l) /\
  forall s, s ∈ l <-> exists sup g,
    last (filter (fun x => d_location x = d_location sup) group) = Some sup /\
    area t (map d_location group) (d_location sup) g /\ g ⊆ f /\ f <> ∅ /\
    (d_location sup = "RoW"%string -> g <> ∅) /\ supply_of sup s.
Proof.
  intros Hord Ht Hocc Hloc H. unfold group_supply in H.
  apply bind_Ok in H as (u & Hno & H). apply bind_Ok in H as (r & Hr & H).
  apply bind_Ok in H as (c & Hc & H). apply mapR_Ok in H.
  pose proof (resolve_known _ _ _ Hr) as (Hk & Hne & _).
  pose proof (resolve_rest _ _ _ Hr) as Hrest.
  split; [by eapply no_overlaps_Ok|].
  assert (forall n, n ∈ ord (c ∩ list_to_set (map d_location group)) <-> n ∈ c /\ n ∈ map d_location group) as Hin.
  { intros n. rewrite Hord, elem_of_elements, elem_of_intersection, elem_of_list_to_set. done. }
  assert (NoDup (ord (c ∩ list_to_set (map d_location group)))) as Hnd.
  { rewrite Hord. apply NoDup_elements. }
  assert (Forall2 (fun n s => exists obj, by_location n group = Some obj /\ supply_of obj s)
    (ord (c ∩ list_to_set (map d_location group))) l) as HF.
  { eapply Forall2_impl; [exact H|]. intros n s Hs. apply bind_Ok in Hs as (obj & Hobj & Hs).
    apply bind_Ok in Hs as (rp & Hrp & Hs). destruct (by_location n group) as [o|]; [|discriminate].
    apply Ok_inj in Hobj as ->. exists obj. split; [done|]. eapply annotate_supply; [done|].
    by apply Ok_inj in Hs. }
  clear H. split.
  - assert (map e_location l = map Some (ord (c ∩ list_to_set (map d_location group)))) as ->.
    { clear -HF. induction HF as [|n s ns l (obj & Ho & rp & _ & ->) _ IH]; [done|].
      cbn [map]. f_equal; [|done]. apply by_location_Some in Ho as [<- _]. done. }
    clear -Hnd. induction Hnd as [|x l Hx _ IH]; cbn; constructor; [|done].
    intros H. apply elem_of_list_fmap in H as (y & [= ->] & Hy). done.
  - intros s. split.
    + intros Hs. apply elem_of_list_lookup in Hs as [i Hi].
      destruct (Forall2_lookup_r _ _ _ _ _ HF Hi) as (n & Hn & obj & Ho & Hsup).
      apply by_location_Some in Ho as [<- Hlast].
      apply elem_of_list_lookup_2 in Hn. apply Hin in Hn as [Hn _].
      apply (contained_area t location f r c _ Hc Ht (Hocc r) Hloc) in Hn as (g & Hg & H1 & H2 & H3).
      exists obj, g. split; [done|]. split; [by eapply occupies_area|]. done.
    + intros (sup & g & Hlast & Hg & H1 & H2 & H3 & Hsup).
      assert (d_location sup ∈ ord (c ∩ list_to_set (map d_location group))) as Hn.
      { apply Hin. split.
        - apply (contained_area t location f r c _ Hc Ht (Hocc r) Hloc). exists g.
          split; [by eapply area_occupies|]. done.
        - apply last_Some_elem_of, elem_of_list_filter in Hlast as [_ Hlast].
          apply elem_of_list_fmap. by exists sup. }
      apply elem_of_list_lookup in Hn as [i Hi].
      destruct (Forall2_lookup_l _ _ _ _ _ HF Hi) as (s' & Hs' & obj & Ho & Hsup').
      apply by_location_Some in Ho as [_ Ho]. rewrite Hlast in Ho. injection Ho as <-.
      destruct Hsup as (rp & Hrp & ->), Hsup' as (rp' & Hrp' & ->).
      rewrite Hrp in Hrp'. injection Hrp' as <-. by eapply elem_of_list_lookup_2.
Qed.

Lemma with_name k (l : list dataset) :
  with_key k (map (fun d => (d_name d, d)) l) = filter (fun d => d_name d = k) l.
Proof.
  unfold with_key. induction l as [|d l IH]; [done|]. cbn [map]. rewrite !filter_cons. cbn [fst].
  destruct (decide (d_name d = k)); cbn [map snd]; by rewrite IH.
Qed.

Lemma supply_spec ord t location f suppliers l :
  (forall s, ord s ≡ₚ elements s) -> t !! "RoW"%string = None ->
  (forall r, occupies t (Some r) location f) -> location <> PName "RoW" ->
  supply ord t location suppliers = Ok l ->
  (forall d, d ∈ suppliers -> partition t (namesakes suppliers (d_name d))) /\
  NoDup (map origin l) /\
  forall s, s ∈ l <-> exists sup, sup ∈ suppliers /\ effective suppliers sup /\
                                  fits t suppliers f sup /\ supply_of sup s.
Proof.
  intros Hord Ht Hocc Hloc H. unfold supply in H. apply concat_mapR_Ok in H as (ls & HF & ->).
  set (gs := groupby _) in HF.
  destruct (groupby_spec (map (fun d => (d_name d, d)) suppliers)) as (Hnd & Hgk & Hgx).
  fold gs in Hnd, Hgk, Hgx.
  assert (forall k xs, (k, xs) ∈ gs -> xs = filter (fun d => d_name d = k) suppliers) as Hg.
  { intros k xs Hin. apply Hgx in Hin as [_ ->]. apply with_name. }
  assert (forall k, k ∈ map fst gs <-> exists d, d ∈ suppliers /\ d_name d = k) as Hkeys.
  { intros k. rewrite Hgk, map_map. cbn. rewrite elem_of_list_In, in_map_iff.
    setoid_rewrite elem_of_list_In. naive_solver. }
  assert (Forall2 (fun (g : string * list dataset) (l : list exchange) =>
    partition t (namesakes suppliers g.1) /\ NoDup (map e_location l) /\
    forall s, s ∈ l <-> exists sup, sup ∈ suppliers /\ d_name sup = g.1 /\ effective suppliers sup /\
                                    fits t suppliers f sup /\ supply_of sup s) gs ls) as HF2.
  { assert (forall g, g ∈ gs -> g.2 = filter (fun d => d_name d = g.1) suppliers) as Hg' by (intros [k xs]; apply Hg).
    clear -HF Hg' Hord Ht Hocc Hloc. induction HF as [|[k xs] l gs ls Hgl _ IH]; constructor.
    2:{ apply IH. intros g Hin. apply Hg'. by right. }
    cbn [fst snd] in *. specialize (Hg' (k, xs) ltac:(by left)) as Hxs. cbn in Hxs. subst xs.
    apply (group_supply_spec _ _ _ f) in Hgl as (Hp & Hn & Hs); [|done..].
    split; [done|]. split; [done|]. intros s. rewrite Hs.
    assert (forall sup, d_name sup = k ->
      filter (fun x => d_location x = d_location sup) (filter (fun d => d_name d = k) suppliers)
      = filter (fun d => d_name d = d_name sup /\ d_location d = d_location sup) suppliers) as Hff.
    { intros sup <-. rewrite list_filter_filter. apply list_filter_iff. intros d. tauto. }
    split.
    - intros (sup & g & Hlast & Hga & H1 & H2 & H3 & H4). exists sup.
      pose proof (last_Some_elem_of _ _ Hlast) as Hin.
      apply elem_of_list_filter in Hin as [_ Hin]. apply elem_of_list_filter in Hin as [Hname Hin].
      split; [done|]. split; [done|]. split; [unfold effective; by rewrite <- Hff|].
      split; [|done]. exists g. unfold namesakes. by rewrite Hname.
    - intros (sup & Hin & Hname & Heff & (g & Hga & H1 & H2 & H3) & H4). exists sup, g.
      split; [rewrite Hff by done; exact Heff|]. unfold namesakes in Hga. rewrite Hname in Hga. done. }
  clear HF. split_and!.
  - intros d Hd. assert (d_name d ∈ map fst gs) as Hk by (apply Hkeys; eauto).
    apply elem_of_list_fmap in Hk as (g & -> & Hg'). apply elem_of_list_lookup in Hg' as [i Hi].
    destruct (Forall2_lookup_l _ _ _ _ _ HF2 Hi) as (l & _ & Hp & _). done.
  - clear -HF2 Hnd. induction HF2 as [|g l gs ls (_ & Hn & Hs) HF IH]; [constructor|].
    cbn [concat map] in *. apply NoDup_cons in Hnd as [Hg Hnd]. rewrite map_app. apply NoDup_app.
    split_and!; [| |by apply IH].
    + clear -Hn. induction l as [|s l IH]; [constructor|]. cbn [map] in *.
      apply NoDup_cons in Hn as [Hs Hn]. constructor; [|by apply IH]. intros Hc. apply Hs.
      apply elem_of_list_fmap in Hc as (y & E & Hy). unfold origin in E. injection E as _ E.
      apply elem_of_list_fmap. by exists y.
    + intros o Ho1 Ho2. apply elem_of_list_fmap in Ho1 as (s & -> & Hs1).
      apply elem_of_list_fmap in Ho2 as (s' & E & Hs2).
      apply elem_of_list_In, in_concat in Hs2 as (l' & Hl' & Hs2). apply elem_of_list_In in Hs2, Hl'.
      apply elem_of_list_lookup in Hl' as [i Hi].
      destruct (Forall2_lookup_r _ _ _ _ _ HF Hi) as (g' & Hg' & _ & _ & Hs').
      destruct (proj1 (Hs s) Hs1) as (sup & _ & Hname & _ & _ & rp & _ & Es1).
      destruct (proj1 (Hs' s') Hs2) as (sup' & _ & Hname' & _ & _ & rp' & _ & Es2).
      rewrite Es1, Es2 in E. unfold origin in E. cbn in E. injection E as E1 _. apply Hg.
      apply elem_of_list_fmap. exists g'. split; [congruence|by eapply elem_of_list_lookup_2].
  - intros s. rewrite elem_of_list_In, in_concat. setoid_rewrite <- elem_of_list_In. split.
    + intros (l & Hl & Hs). apply elem_of_list_lookup in Hl as [i Hi].
      destruct (Forall2_lookup_r _ _ _ _ _ HF2 Hi) as (g & _ & _ & _ & Hg').
      destruct (proj1 (Hg' s) Hs) as (sup & ? & ? & ? & ? & ?). by exists sup.
    + intros (sup & Hin & He & Hf & Hsup).
      assert (d_name sup ∈ map fst gs) as Hk by (apply Hkeys; eauto).
      apply elem_of_list_fmap in Hk as (g & Hgn & Hg'). apply elem_of_list_lookup in Hg' as [i Hi].
      destruct (Forall2_lookup_l _ _ _ _ _ HF2 Hi) as (l & Hl & _ & _ & Hs).
      exists l. split; [by eapply elem_of_list_lookup_2|]. apply Hs. by exists sup.
Qed.

Lemma apportion_spec ord t consumers suppliers ups :
  (forall s, ord s ≡ₚ elements s) -> t !! "RoW"%string = None ->
  apportion ord t consumers suppliers = Ok ups ->
  NoDup (map (fun p => d_location p.2) consumers) /\
  Forall (known t) (map (fun p => d_location p.2) consumers) /\
  Forall2 (fun p u => u.1 = p.1 /\ exists l,
      u.2 = set_d_suppliers (Some (default [] (d_suppliers p.2) ++ l)) p.2 /\
      supplied t (map (fun p => d_location p.2) consumers) suppliers (d_location p.2) l /\
      forall d, d ∈ suppliers -> partition t (namesakes suppliers (d_name d)))
    consumers ups.
Proof.
  intros Hord Ht H. unfold apportion in H. apply bind_Ok in H as (u & Hu & H).
  apply bind_Ok in H as (r & Hr & H). split; [by eapply no_geo_Ok|].
  pose proof (resolve_known _ _ _ Hr) as (Hk & Hne & _). pose proof (resolve_rest _ _ _ Hr) as Hrest.
  split; [done|]. apply mapR_Ok in H.
  assert (forall p, p ∈ consumers -> known t (d_location p.2)) as Hk'.
  { intros p Hp. rewrite Forall_forall in Hk. apply Hk. apply elem_of_list_fmap. by exists p. }
  set (locs := map _ consumers) in *. clearbody locs. clear Hk Hr Hne Hu.
  induction H as [|p u' consumers ups Hpu _ IH]; [constructor|].
  constructor; [|apply IH; intros q Hq; apply Hk'; by right].
  apply bind_Ok in Hpu as (l & Hl & <-%Ok_inj). cbn [fst snd]. split; [done|].
  exists l. split; [done|].
  assert (exists f, area t locs (d_location p.2) f /\
    (forall r', occupies t (Some r') (if (d_location p.2 =? "RoW")%string then PFaces r else PName (d_location p.2)) f) /\
    (if (d_location p.2 =? "RoW")%string then PFaces r else PName (d_location p.2)) <> PName "RoW")
    as (f & Hf & Hocc & Hn).
  { destruct (String.eqb_spec (d_location p.2) "RoW") as [E|E].
    - exists r. split; [right; by rewrite E|]. split; [intros; constructor|discriminate].
    - destruct (Hk' p ltac:(by left)) as [|[f Hf]]; [done|]. exists f.
      split; [by left|]. split; [intros; by constructor|congruence]. }
  apply (supply_spec _ _ _ f) in Hl as (H1 & H2 & H3); [|done..].
  split; [|done]. exists f. done.
Qed.

Lemma partition_disjoint t locs a b fa fb :
  partition t locs -> NoDup locs -> a ∈ locs -> b ∈ locs -> a <> b ->
  area t locs a fa -> area t locs b fb -> fa ## fb.
Proof.
  intros [Hap _] Hnd Ha Hb Hab HA HB.
  assert (forall n f g, n ∈ locs -> n <> "RoW"%string -> t !! n = Some f -> rest_of t locs g -> f ## g) as Hrow.
  { intros n f g Hn Hnr Hf Hg x Hx1 Hx2. apply Hg in Hx2 as [_ Hx2]. apply Hx2. by exists n, f. }
  destruct HA as [[Ha1 Ha2]|[-> Ha2]], HB as [[Hb1 Hb2]|[-> Hb2]].
  - apply elem_of_list_lookup in Ha as [i Hi]. apply elem_of_list_lookup in Hb as [j Hj].
    eapply (Hap i j a b); try done. intros ->. congruence.
  - by apply (Hrow a).
  - symmetry. by apply (Hrow b).
  - done.
Qed.

(** *** The two passes *)
Lemma waiting_open kind ds : is_type kind ds
    && match d_suppliers ds with None | Some [] => true | _ => false end = true <->
  d_type ds = kind /\ (d_suppliers ds = None \/ d_suppliers ds = Some []).
Proof.
  unfold is_type. rewrite andb_true_iff, bool_decide_eq_true. apply and_iff_compat_l.
  destruct (d_suppliers ds) as [[|? ?]|]; naive_solver.
Qed.


Lemma members_waiting from to p data :
  map (fun q : nat * dataset => d_location q.2) (filterb (fun q => is_type to q.2
     && match d_suppliers q.2 with None | Some [] => true | _ => false end)
     (members (typed_refprod [from; to]) p data))
  = waiting_locations to p data.
Proof.
  unfold waiting_locations. rewrite <- (map_map snd d_location). f_equal.
  rewrite (filterb_filter (fun q : nat * dataset => d_type q.2 = to /\
     (d_suppliers q.2 = None \/ d_suppliers q.2 = Some []))).
  2:{ intros q _. apply eq_bool_prop_intro. rewrite !Is_true_true, bool_decide_eq_true.
      apply waiting_open. }
  unfold members. rewrite list_filter_filter. rewrite <- (indexed_snd data) at 2.
  generalize (indexed data) as l. induction l as [|q l IH]; [done|]. cbn [map].
  rewrite !filter_cons.
  assert ((d_type q.2 = to /\ (d_suppliers q.2 = None \/ d_suppliers q.2 = Some [])) /\
    key_of (typed_refprod [from; to]) q.2 = Some p <-> waiting to p q.2) as Hiff.
  { rewrite typed_refprod_key. unfold waiting. set_solver. }
  destruct (decide (waiting to p q.2)) as [Hw|Hw].
  - rewrite decide_True by tauto. cbn [map]. by rewrite IH.
  - rewrite decide_False by tauto. done.
Qed.
Lemma members_makers from to p data :
  filterb (is_type from) (map snd (members (typed_refprod [from; to]) p data)) = makers from p data.
Proof.
  rewrite members_snd, (filterb_filter (fun d => d_type d = from)) by done.
  unfold makers. rewrite list_filter_filter. apply list_filter_iff. intros d.
  rewrite typed_refprod_key. set_solver.
Qed.

Lemma add_suppliers_spec ord t from to data data' :
  (forall s, ord s ≡ₚ elements s) -> t !! "RoW"%string = None ->
  add_suppliers_to_markets ord t from to data = Ok data' ->
  length data' = length data /\
  forall i ds, data !! i = Some ds -> exists ds', data' !! i = Some ds' /\
    ((forall p, ~ waiting to p ds) -> ds' = ds) /\
    forall p, waiting to p ds -> exists l,
      ds' = set_d_suppliers (Some l) ds /\
      supplied t (waiting_locations to p data) (makers from p data) (d_location ds) l /\
      NoDup (waiting_locations to p data) /\
      (to = MarketActivity -> partition t (waiting_locations to p data)) /\
      (forall d, d ∈ makers from p data -> partition t (namesakes (makers from p data) (d_name d))).
Proof.
  intros Hord Ht H. unfold add_suppliers_to_markets in H.
  set (f := fun (rp : string) (datasets : list (nat * dataset)) => _) in H.
  assert (forall k ups, f k (members (typed_refprod [from; to]) k data) = Ok ups ->
    let cs := filterb (fun q : nat * dataset => is_type to q.2
       && match d_suppliers q.2 with None | Some [] => true | _ => false end)
       (members (typed_refprod [from; to]) k data) in
    (cs = [] /\ ups = []) \/
    (cs <> [] /\ (to = MarketActivity -> partition t (waiting_locations to k data)) /\
     NoDup (waiting_locations to k data) /\
     Forall2 (fun p u => u.1 = p.1 /\ exists l,
      u.2 = set_d_suppliers (Some l) p.2 /\
      supplied t (waiting_locations to k data) (makers from k data) (d_location p.2) l /\
      forall d, d ∈ makers from k data -> partition t (namesakes (makers from k data) (d_name d))) cs ups)) as Hf.
  { intros k ups Hk. cbv zeta. unfold f in Hk. rewrite (members_makers from to k data) in Hk.
    destruct (filterb _ (members _ k data)) as [|c cs] eqn:E.
    - left. split; [done|]. by apply Ok_inj in Hk as <-.
    - right. split; [done|]. apply bind_Ok in Hk as (u & Hu & Hk).
      apply apportion_spec in Hk as (Hnd & Hkn & HF); [|done..].
      rewrite <- E in Hnd, Hkn, HF, Hu |- *. rewrite members_waiting in Hnd, Hkn, HF, Hu.
      split_and!.
      + intros ->. rewrite bool_decide_eq_true_2 in Hu by done. eapply no_overlaps_Ok; [exact Hu| |done].
        rewrite <- (members_waiting from). rewrite E. discriminate.
      + done.
      + assert (Forall (fun p : nat * dataset => d_suppliers p.2 = None \/ d_suppliers p.2 = Some [])
          (filterb (fun q : nat * dataset => is_type to q.2
            && match d_suppliers q.2 with None | Some [] => true | _ => false end)
            (members (typed_refprod [from; to]) k data))) as Hemp.
        { apply Forall_forall. intros p Hp. apply filterb_In in Hp as [_ Hp].
          by apply waiting_open in Hp as [_ Hp]. }
        clear E. revert Hemp HF. generalize (filterb (fun q : nat * dataset => is_type to q.2
            && match d_suppliers q.2 with None | Some [] => true | _ => false end)
            (members (typed_refprod [from; to]) k data)) as cs'.
        intros cs' Hemp HF. induction HF as [|p u' ps us (H1 & l & H2 & H3) _ IH]; [constructor|].
        apply Forall_cons in Hemp as [Hp Hemp]. constructor; [|by apply IH].
        split; [done|]. exists l. split; [|done]. rewrite H2. by destruct Hp as [-> | ->]. }
  assert (forall (cs : list (nat * dataset)) (ups : list (nat * dataset)) (R : nat * dataset -> nat * dataset -> Prop),
    Forall2 (fun p u => u.1 = p.1 /\ R p u) cs ups -> map fst ups = map fst cs) as Hfst.
  { clear. intros cs ups R. induction 1 as [|p u cs ups [H _] _ IH]; [done|]. cbn. by rewrite H, IH. }
  pose proof (update_groups_spec _ f data data' H) as [Hlen Hall].
  { intros k ups Hk. apply Hf in Hk. cbv zeta in Hk.
    set (cs := filterb _ _) in Hk.
    assert (NoDup (map fst cs)) as Hncs.
    { unfold cs. rewrite (filterb_filter (fun q : nat * dataset => is_type to q.2
         && match d_suppliers q.2 with None | Some [] => true | _ => false end = true)).
      - apply NoDup_map_filter, members_fst.
      - intros q _. destruct (_ && _); done. }
    destruct Hk as [[_ ->]|(_ & _ & _ & HF)].
    - split; [constructor|]. intros i Hi. by apply elem_of_nil in Hi.
    - apply Hfst in HF. rewrite HF. split; [done|]. intros i Hi.
      apply elem_of_list_fmap in Hi as (q & -> & Hq). apply elem_of_list_fmap. exists q. split; [done|].
      unfold cs in Hq. by apply filterb_In in Hq as [Hq _]. }
  split; [done|]. intros i ds Hi. destruct (Hall i ds Hi) as [[Hk Hd]|(k & ups & Hk & Hfk & Hd)].
  - exists ds. split; [done|]. split; [done|]. intros p (Hty & Hrp & _).
    apply typed_refprod_Ok in Hk as [(_ & [? ?] & ?)|[Hn _]]; [congruence|]. set_solver.
  - apply Hf in Hfk. cbv zeta in Hfk. set (cs := filterb _ _) in Hfk.
    assert (d_refprod ds = Some k) as Hrk.
    { apply typed_refprod_Ok in Hk as [(_ & _ & Hk)|[_ Hk]]; congruence. }
    assert ((i, ds) ∈ cs <-> waiting to k ds) as Hcs.
    { unfold cs. rewrite filterb_In, elem_of_members. cbn [snd].
      rewrite waiting_open. unfold waiting, key_of. rewrite Hk. naive_solver. }
    assert (forall p, waiting to p ds -> p = k) as Hpk by (intros p (_ & ? & _); congruence).
    destruct Hd as [[Hn Hd]|(ds' & Hin & Hd)].
    + exists ds. split; [done|]. split; [done|]. intros p Hp. pose proof (Hpk p Hp) as ->. exfalso.
      apply Hcs in Hp. destruct Hfk as [[Hcs0 _]|(_ & _ & _ & HF)].
      * rewrite Hcs0 in Hp. by apply elem_of_nil in Hp.
      * apply Hn. rewrite (Hfst _ _ _ HF). apply elem_of_list_fmap. by exists (i, ds).
    + exists ds'. split; [done|]. destruct Hfk as [[_ ->]|(_ & Hpart & Hnd & HF)]; [by apply elem_of_nil in Hin|].
      apply elem_of_list_lookup in Hin as [m Hm].
      destruct (Forall2_lookup_r _ _ _ _ _ HF Hm) as ([j d] & Hj & Hij & l & Hl & Hs & Hpn).
      cbn [fst snd] in *. subst j. apply elem_of_list_lookup_2 in Hj.
      assert (d = ds) as ->.
      { unfold cs in Hj. apply filterb_In in Hj as [Hj _].
        apply elem_of_members in Hj as [Hj _]. congruence. }
      apply Hcs in Hj. split.
      * intros Hno. exfalso. by apply (Hno k).
      * intros p Hp. pose proof (Hpk p Hp) as ->. exists l. done.
Qed.

Lemma supplied_exclusive t locs suppliers a b la lb s s' :
  partition t locs -> NoDup locs -> a ∈ locs -> b ∈ locs -> a <> b ->
  supplied t locs suppliers a la -> supplied t locs suppliers b lb ->
  s ∈ la -> s' ∈ lb -> origin s = origin s' ->
  exists n, e_location s = Some n /\ t !! n = Some ∅.
Proof.
  intros Hp Hnd Ha Hb Hab (fa & Hfa & _ & HA) (fb & Hfb & _ & HB) Hs Hs' Ho.
  destruct (proj1 (HA s) Hs) as (sup & _ & Heff & (g & Hg & Hga & _ & Hrow) & rp & _ & Es).
  destruct (proj1 (HB s') Hs') as (sup' & _ & Heff' & (g' & Hg' & Hgb & _ & _) & rp' & _ & Es').
  rewrite Es, Es' in Ho. unfold origin in Ho. cbn in Ho. injection Ho as Hn Hl.
  unfold effective in Heff, Heff'. rewrite Hn, Hl in Heff.
  assert (sup = sup') as <- by congruence.
  rewrite (area_unique _ _ _ _ _ Hg' Hg) in Hgb.
  pose proof (partition_disjoint _ _ _ _ _ _ Hp Hnd Ha Hb Hab Hfa Hfb) as Hdis.
  assert (g = ∅) as -> by set_solver.
  exists (d_location sup). rewrite Es. split; [reflexivity|].
  destruct Hg as [[_ ?]|[Hr _]]; [done|]. by apply Hrow in Hr.
Qed.

Lemma add_suppliers_exclusive ord t from data data' p i j di dj li lj s s' :
  (forall s, ord s ≡ₚ elements s) -> t !! "RoW"%string = None ->
  add_suppliers_to_markets ord t from MarketActivity data = Ok data' ->
  i <> j -> data !! i = Some di -> data !! j = Some dj ->
  waiting MarketActivity p di -> waiting MarketActivity p dj ->
  data' !! i = Some (set_d_suppliers (Some li) di) -> data' !! j = Some (set_d_suppliers (Some lj) dj) ->
  s ∈ li -> s' ∈ lj -> origin s = origin s' ->
  exists n, e_location s = Some n /\ t !! n = Some ∅.
Proof.
  intros Hord Ht H Hij Hi Hj Hwi Hwj Hli Hlj Hs Hs' Ho.
  apply add_suppliers_spec in H as [_ H]; [|done..].
  destruct (H i di Hi) as (di' & Hdi & _ & HA). destruct (HA p Hwi) as (la & Hla & HSa & Hnd & Hp & _).
  destruct (H j dj Hj) as (dj' & Hdj & _ & HB). destruct (HB p Hwj) as (lb & Hlb & HSb & _).
  assert (la = li) as ->.
  { rewrite Hli in Hdi. injection Hdi as Hdi. rewrite <- Hdi in Hla.
    apply (f_equal d_suppliers) in Hla. destruct di. cbn in Hla. congruence. }
  assert (lb = lj) as ->.
  { rewrite Hlj in Hdj. injection Hdj as Hdj. rewrite <- Hdj in Hlb.
    apply (f_equal d_suppliers) in Hlb. destruct dj. cbn in Hlb. congruence. }
  assert (forall k d, data !! k = Some d -> waiting MarketActivity p d ->
    d_location d ∈ waiting_locations MarketActivity p data) as Hin.
  { intros k d Hk Hw. apply elem_of_list_fmap. exists d. split; [done|].
    apply elem_of_list_filter. split; [done|by eapply elem_of_list_lookup_2]. }
  eapply (supplied_exclusive t _ _ (d_location di) (d_location dj));
    [by apply Hp|exact Hnd|by eapply Hin|by eapply Hin| |exact HSa|exact HSb|done..].
  intros E. clear -Hnd E Hij Hi Hj Hwi Hwj. unfold waiting_locations in Hnd. revert i j Hij Hi Hj.
  induction data as [|d data IH]; intros i j Hij Hi Hj; [done|].
  rewrite filter_cons in Hnd. destruct (decide (waiting MarketActivity p d)) as [Hw|Hw].
  - cbn [map] in Hnd. apply NoDup_cons in Hnd as [Hn Hnd].
    assert (forall k x, data !! k = Some x -> waiting MarketActivity p x -> d_location x <> d_location d) as Hx.
    { intros k x Hk Hwx Ex. apply Hn. rewrite <- Ex. apply elem_of_list_fmap. exists x. split; [done|].
      apply elem_of_list_filter. split; [done|by eapply elem_of_list_lookup_2]. }
    destruct i as [|i], j as [|j]; cbn in Hi, Hj; [done| | |].
    + injection Hi as ->. by apply (Hx j dj).
    + injection Hj as ->. by apply (Hx i di).
    + apply (IH Hnd i j); [congruence|done..].
  - destruct i as [|i], j as [|j]; cbn in Hi, Hj; [done|congruence..|].
    apply (IH Hnd i j); [congruence|done..].
Qed.

(** Recycled content *)
Lemma rc_suppliers_makers data rcs p : rc_suppliers data = Ok rcs ->
  filterb (fun ds => bool_decide (d_refprod ds = Some (p ++ RC_STRING)%string)) rcs
  = makers Transforming (p ++ RC_STRING)%string data.
Proof.
  unfold rc_suppliers. intros H. apply filterR_Ok in H as [_ ->].
  rewrite (filterb_filter (fun ds => d_refprod ds = Some (p ++ RC_STRING)%string)) by done.
  set (q := okb _). rewrite (filterb_filter (fun d => q d = true)).
  2:{ intros d _. destruct (q d); done. }
  unfold makers. rewrite list_filter_filter. apply list_filter_iff. intros d. unfold q, okb, is_type, refprod.
  split.
  - intros [Hr Hq]. split; [|done]. case_bool_decide; [done|discriminate].
  - intros [Ht Hr]. split; [done|]. rewrite bool_decide_eq_true_2, Hr by done. cbn [getkey bind].
    apply endswith_iff. by exists p.
Qed.

Lemma members_markets p data :
  map (fun q : nat * dataset => d_location q.2) (members (typed_refprod [MarketActivity]) p data)
  = market_locations p data.
Proof.
  unfold market_locations. rewrite <- (map_map snd d_location), members_snd. f_equal.
  unfold makers. apply list_filter_iff. intros d. rewrite typed_refprod_key, elem_of_list_singleton. done.
Qed.

Lemma add_recycled_spec ord t data data' :
  (forall s, ord s ≡ₚ elements s) -> t !! "RoW"%string = None ->
  add_recycled_content_suppliers_to_markets ord t data = Ok data' ->
  length data' = length data /\
  forall i ds, data !! i = Some ds -> exists ds', data' !! i = Some ds' /\
    (d_type ds <> MarketActivity -> ds' = ds) /\
    forall p, d_type ds = MarketActivity -> d_refprod ds = Some p ->
      (makers Transforming (p ++ RC_STRING)%string data = [] -> ds' = ds) /\
      (makers Transforming (p ++ RC_STRING)%string data <> [] -> exists l,
        ds' = set_d_suppliers (Some (default [] (d_suppliers ds) ++ l)) ds /\
        supplied t (market_locations p data) (makers Transforming (p ++ RC_STRING)%string data)
          (d_location ds) l /\
        NoDup (market_locations p data) /\ partition t (market_locations p data)).
Proof.
  intros Hord Ht H. unfold add_recycled_content_suppliers_to_markets in H.
  apply bind_Ok in H as (ks & _ & H). apply bind_Ok in H as (rcs & Hrcs & H).
  set (f := fun (rp : string) (markets : list (nat * dataset)) => _) in H.
  assert (forall k ups, f k (members (typed_refprod [MarketActivity]) k data) = Ok ups ->
    (makers Transforming (k ++ RC_STRING)%string data = [] /\ ups = []) \/
    (makers Transforming (k ++ RC_STRING)%string data <> [] /\
     (market_locations k data <> [] -> partition t (market_locations k data)) /\ NoDup (market_locations k data) /\
     Forall2 (fun p u => u.1 = p.1 /\ exists l,
      u.2 = set_d_suppliers (Some (default [] (d_suppliers p.2) ++ l)) p.2 /\
      supplied t (market_locations k data) (makers Transforming (k ++ RC_STRING)%string data) (d_location p.2) l)
      (members (typed_refprod [MarketActivity]) k data) ups)) as Hf.
  { intros k ups Hk. unfold f in Hk. apply bind_Ok in Hk as (u & Hu & Hk).
    rewrite members_markets in Hu.
    change (match filterb (fun ds => bool_decide (d_refprod ds = Some (k ++ RC_STRING)%string)) rcs with
      | [] => Ok []
      | _ => apportion ord t (members (typed_refprod [MarketActivity]) k data)
               (filterb (fun ds => bool_decide (d_refprod ds = Some (k ++ RC_STRING)%string)) rcs)
      end = Ok ups) in Hk.
    rewrite (rc_suppliers_makers data rcs k Hrcs) in Hk.
    destruct (makers Transforming (k ++ RC_STRING)%string data) as [|m ms] eqn:E.
    - left. split; [done|]. by apply Ok_inj in Hk as <-.
    - right. split; [done|]. apply apportion_spec in Hk as (Hnd & Hkn & HF); [|done..].
      rewrite members_markets in Hnd, Hkn, HF. split_and!.
      + intros Hne. by eapply no_overlaps_Ok.
      + done.
      + eapply Forall2_impl; [exact HF|]. intros p u' (H1 & l & H2 & H3 & _). split; [done|].
        by exists l. }
  assert (forall (cs : list (nat * dataset)) (ups : list (nat * dataset)) (R : nat * dataset -> nat * dataset -> Prop),
    Forall2 (fun p u => u.1 = p.1 /\ R p u) cs ups -> map fst ups = map fst cs) as Hfst.
  { clear. intros cs ups R. induction 1 as [|p u cs ups [H _] _ IH]; [done|]. cbn. by rewrite H, IH. }
  pose proof (update_groups_spec _ f data data' H) as [Hlen Hall].
  { intros k ups Hk. apply Hf in Hk. destruct Hk as [[_ ->]|(_ & _ & _ & HF)].
    - split; [constructor|]. intros i Hi. by apply elem_of_nil in Hi.
    - apply Hfst in HF. rewrite HF. split; [apply members_fst|done]. }
  split; [done|]. intros i ds Hi. destruct (Hall i ds Hi) as [[Hk Hd]|(k & ups & Hk & Hfk & Hd)].
  - exists ds. split; [done|]. split; [done|]. intros p Hty Hrp. exfalso.
    apply typed_refprod_Ok in Hk as [(_ & _ & ?)|[Hn _]]; [congruence|]. set_solver.
  - assert (d_refprod ds = Some k /\ d_type ds = MarketActivity) as [Hrk Hty].
    { apply typed_refprod_Ok in Hk as [(Hk1 & _ & Hk)|[_ Hk]]; [|done].
      apply elem_of_list_singleton in Hk1. done. }
    assert ((i, ds) ∈ members (typed_refprod [MarketActivity]) k data) as Hm.
    { apply elem_of_members. split; [done|]. unfold key_of. by rewrite Hk. }
    apply Hf in Hfk. destruct Hd as [[Hn Hd]|(ds' & Hin & Hd)].
    + exists ds. split; [done|]. split; [done|]. intros p _ Hp. assert (p = k) as -> by congruence.
      split; [done|]. intros Hne. exfalso. destruct Hfk as [[? _]|(_ & _ & _ & HF)]; [done|].
      apply Hn. rewrite (Hfst _ _ _ HF). apply elem_of_list_fmap. by exists (i, ds).
    + exists ds'. split; [done|]. split; [done|]. intros p _ Hp. assert (p = k) as -> by congruence.
      destruct Hfk as [[_ ->]|(Hne & Hpart & Hnd & HF)]; [by apply elem_of_nil in Hin|].
      split; [done|]. intros _. apply elem_of_list_lookup in Hin as [m Hmm].
      destruct (Forall2_lookup_r _ _ _ _ _ HF Hmm) as ([j d] & Hj & Hij & l & Hl & Hs).
      cbn [fst snd] in *. subst j. apply elem_of_list_lookup_2, elem_of_members in Hj as [Hj _].
      assert (d = ds) as -> by congruence. exists l. split; [done|]. split; [done|]. split; [done|].
      apply Hpart. rewrite <- members_markets. destruct (members _ k data); [by apply elem_of_nil in Hm|done].
Qed.
