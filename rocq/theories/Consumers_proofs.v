(** Proofs for C36: the places a consumer is linked to. *)
From Verif Require Import Base Types Uncertainty Utils Spec_Utils Utils_proofs Grouping GroupUpdate
  Topology Spec_Topology Topology_proofs Locations Spec_Markets Markets_proofs Spec_Mix Spec_Consumers
  SingleOutput_proofs.

(** *** The loops over candidates *)
Lemma collect_spec inside take cands : forall acc r, NoDup cands ->
  collect inside take acc cands = Ok r ->
  exists l, r = acc ++ l /\ sublist l cands /\
    forall before c after, cands = before ++ c :: after ->
      exists b, inside c (acc ++ filter (fun d => d ∈ l) before) = Ok b /\ (c ∈ l <-> b && take c = true).
Proof.
  induction cands as [|c0 cands IH]; intros acc r Hnd H; cbn [collect] in H.
  - apply Ok_inj in H as <-. exists []. rewrite app_nil_r. split; [done|]. split; [constructor|].
    intros before c after E. by destruct before.
  - apply NoDup_cons in Hnd as [Hc0 Hnd]. apply bind_Ok in H as (b & Hb & H).
    apply IH in H as (l & -> & Hsub & Hl); [|done].
    assert (forall x, x ∈ l -> x ∈ cands) as Hin by (intros x; by apply elem_of_sublist || (intros Hx; eapply sublist_submseteq, elem_of_submseteq in Hsub; [exact Hsub|exact Hx])).
    destruct (b && take c0) eqn:Eb.
    + exists (c0 :: l). rewrite <- app_assoc. split; [done|]. split; [by constructor|].
      intros before c after E. destruct before as [|b0 before].
      * cbn in E. injection E as <- <-. exists b. cbn [filter list_filter]. rewrite app_nil_r. split; [done|].
        rewrite Eb. split; [done|]. intros _. set_solver.
      * cbn in E. injection E as <- ->. destruct (Hl before c after eq_refl) as (b' & Hb' & Hiff).
        exists b'. rewrite filter_cons_True by set_solver.
        assert (filter (fun d => d ∈ c0 :: l) before = filter (fun d => d ∈ l) before) as ->.
        { apply list_filter_iff'. intros x Hx. rewrite elem_of_cons. split; [|tauto].
          intros [-> |?]; [|done]. exfalso. apply Hc0. set_solver. }
        rewrite <- app_assoc in Hb'. split; [exact Hb'|]. rewrite <- Hiff, elem_of_cons.
        split; [|tauto]. intros [-> |?]; [|done]. exfalso. apply Hc0. set_solver.
    + exists l. split; [done|]. split; [by constructor|].
      intros before c after E. destruct before as [|b0 before].
      * cbn in E. injection E as <- <-. exists b. cbn [filter list_filter]. rewrite app_nil_r. split; [done|].
        rewrite Eb. split; [|done]. intros Hc. exfalso. by apply Hc0, Hin.
      * cbn in E. injection E as <- ->. destruct (Hl before c after eq_refl) as (b' & Hb' & Hiff).
        exists b'. rewrite filter_cons_False; [by split|]. intros Hc. by apply Hc0, Hin.
Qed.

Lemma first_containing_spec inside l r : first_containing inside l = Ok r ->
  (exists before c after, l = before ++ c :: after /\ r = [c] /\ inside c = Ok true /\
     Forall (fun d => inside d = Ok false) before) \/
  (r = [] /\ Forall (fun d => inside d = Ok false) l).
Proof.
  induction l as [|x l IH]; cbn [first_containing]; intros H.
  - apply Ok_inj in H as <-. right. by split; [|constructor].
  - apply bind_Ok in H as (b & Hb & H). destruct b.
    + apply Ok_inj in H as <-. left. exists [], x, l. by split; [|split; [|split; [|constructor]]].
    + destruct (IH H) as [(before & c & after & -> & -> & Hc & Hf)|[-> Hf]].
      * left. exists (x :: before), c, after. split; [done|]. split; [done|]. split; [done|]. by constructor.
      * right. split; [done|]. by constructor.
Qed.

(** *** Areas *)
Lemma rest_of_dups t locs f : rest_of t (remove_dups locs) f -> rest_of t locs f.
Proof.
  intros H x. rewrite (H x). apply and_iff_compat_l, not_iff_compat.
  split; intros (n & g & Hn & Hr); exists n, g; (split; [|exact Hr]); by apply elem_of_remove_dups.
Qed.

Lemma markets_row_spec t mlocs row : markets_row t mlocs = Ok row ->
  ("RoW"%string ∈ mlocs /\ rest_of t mlocs row) \/ ("RoW"%string ∉ mlocs /\ row = ∅).
Proof.
  unfold markets_row. case_bool_decide as E; intros H.
  - left. split; [done|]. apply rest_of_dups. by apply resolve_rest.
  - right. split; [done|]. by apply Ok_inj in H as <-.
Qed.

Lemma candidate_area t mlocs row c g :
  markets_row t mlocs = Ok row -> (c = "RoW"%string -> c ∈ mlocs) ->
  area t mlocs c g <-> occupies t (Some row) (PName c) g.
Proof.
  intros Hrow Hc. apply markets_row_spec in Hrow as [[_ Hr]|[Hn ->]].
  - split; [by apply area_occupies|by apply occupies_area].
  - assert (c <> "RoW"%string) as Hne by (intros ->; by apply Hn, Hc). split.
    + intros [[_ H]|[? _]]; [by constructor|done].
    + intros H. inversion H; subst; [by left|done].
Qed.
Lemma candidate_known t mlocs row c :
  markets_row t mlocs = Ok row -> (c = "RoW"%string -> c ∈ mlocs) -> known t c ->
  exists g, area t mlocs c g /\ occupies t (Some row) (PName c) g.
Proof.
  intros Hrow Hc Hk. destruct (decide (c = "RoW"%string)) as [->|Hne].
  - exists row. assert (occupies t (Some row) (PName "RoW") row) as Ho by by constructor.
    split; [|done]. by apply (candidate_area t mlocs row).
  - destruct Hk as [?|[g Hg]]; [done|]. exists g. split; [by left|by constructor].
Qed.
Lemma area_fun t mlocs c g h : area t mlocs c g -> area t mlocs c h -> g = h.
Proof. apply area_unique. Qed.

Lemma consumer_occupies t loc crow f : consumer_row_fits t loc crow f ->
  occupies t (if (loc =? "RoW")%string then crow else None) (PName loc) f.
Proof.
  intros [(Hn & Hf & ->)|[-> ->]].
  - by constructor.
  - by constructor.
Qed.

Lemma covered_filter t (l before : list string) x :
  covered t (filter (fun d => d ∈ l) before) x <->
  exists d h, d ∈ before /\ d ∈ l /\ d <> "RoW"%string /\ t !! d = Some h /\ x ∈ h.
Proof.
  unfold covered. split.
  - intros (d & h & Hd & Hn & Hh & Hx). apply elem_of_list_filter in Hd as [? ?]. by exists d, h.
  - intros (d & h & Hb & Hl & Hn & Hh & Hx). exists d, h. split; [by apply elem_of_list_filter|done].
Qed.

Lemma wrapper_inside t loc c found crow row f g b :
  consumer_row_fits t loc crow f -> occupies t (Some row) (PName c) g ->
  Forall (known t) found ->
  contains_wrapper t loc c found crow (Some row) = Ok b ->
  b = true <-> (g ⊆ f /\ proper c g /\ proper loc f /\ forall x, x ∈ g -> ~ covered t found x).
Proof.
  intros Hf Hg Hk H. unfold contains_wrapper in H. pose proof (consumer_occupies _ _ _ _ Hf) as Ho.
  inversion Hg; subst.
  - match type of H with context [(c =? "RoW")%string] => destruct (String.eqb_spec c "RoW"); [done|] end.
    destruct (decide (loc = "RoW"%string /\ f = ∅)) as [[-> ->]|Hne].
    + destruct Hf as [(? & _)|[_ ->]]; [done|]. cbn [String.eqb Ascii.eqb Bool.eqb] in H.
      rewrite contains_unresolved in H by done. apply Ok_inj in H as <-.
      split; [done|]. intros (_ & _ & Hp & _). by destruct Hp.
    + edestruct contains_name as (b' & Hb' & Hiff); [exact Ho| |done|eassumption|exact Hk|].
      { intros E. injection E as ->. naive_solver. }
      rewrite H in Hb'. apply Ok_inj in Hb' as <-. rewrite Hiff. unfold proper. split.
      * intros Hx. split; [intros x Hxg; by apply Hx|]. split; [done|]. split; [naive_solver|].
        intros x Hxg. by apply Hx.
      * intros (Hs & _ & _ & Hc) x Hxg. split; [by apply Hs|by apply Hc].
  - cbn [String.eqb Ascii.eqb Bool.eqb] in H.
    match goal with E : Some _ = Some _ |- _ => injection E as -> end.
    edestruct contains_faces as (b' & Hb' & Hiff); [exact Ho|exact Hk|]. rewrite H in Hb'.
    apply Ok_inj in Hb' as <-. rewrite Hiff. unfold proper. split.
    + intros [Hne Hx]. split; [intros x Hxg; by apply Hx|]. split; [done|]. split; [|intros x Hxg; by apply Hx].
      intros _ ->. apply Hne. apply set_eq. intros x. split; [intros Hxg; by apply Hx in Hxg as [? _]|set_solver].
    + intros (Hs & Hp & _ & Hc). split; [by apply Hp|]. intros x Hxg. split; [by apply Hs|by apply Hc].
Qed.

Lemma wrapper_around t loc c crow row f g b :
  consumer_row_fits t loc crow f -> occupies t (Some row) (PName c) g ->
  contains_wrapper t c loc [] (Some row) crow = Ok b ->
  b = true <-> (f ⊆ g /\ proper c g /\ proper loc f).
Proof.
  intros Hf Hg H. unfold contains_wrapper in H.
  assert (occupies t (if (c =? "RoW")%string then Some row else None) (PName c) g) as Ho.
  { inversion Hg; subst; by constructor. }
  assert (forall x, ~ covered t [] x) as Hcov by (intros x (? & ? & Hx & _); set_solver).
  destruct Hf as [(Hn & Hf & ->)|[-> ->]].
  - match type of H with context [(loc =? "RoW")%string] => destruct (String.eqb_spec loc "RoW"); [done|] end.
    destruct (decide (c = "RoW"%string /\ g = ∅)) as [[-> ->]|Hne].
    + inversion Hg; subst; [done|]. match goal with E : Some _ = Some _ |- _ => injection E as -> end.
      cbn [String.eqb Ascii.eqb Bool.eqb] in H.
      rewrite contains_unresolved in H by done. apply Ok_inj in H as <-.
      split; [done|]. intros (_ & Hp & _). by destruct Hp.
    + edestruct contains_name as (b' & Hb' & Hiff); [exact Ho| |exact Hn|exact Hf|by apply Forall_nil|].
      { intros E. injection E as ->. naive_solver. }
      rewrite H in Hb'. apply Ok_inj in Hb' as <-. rewrite Hiff. unfold proper. split.
      * intros Hx. split; [intros x Hxg; by apply Hx|]. split; [naive_solver|done].
      * intros (Hs & _ & _) x Hxg. split; [by apply Hs|by apply Hcov].
  - cbn [String.eqb Ascii.eqb Bool.eqb] in H.
    edestruct contains_faces as (b' & Hb' & Hiff); [exact Ho|by apply Forall_nil|]. rewrite H in Hb'.
    apply Ok_inj in Hb' as <-. rewrite Hiff. unfold proper. split.
    + intros [Hne Hx]. split; [intros x Hxg; by apply Hx|]. split; [|done].
      intros _ ->. apply Hne. apply set_eq. intros x. split; [intros Hxg; by apply Hx in Hxg as [? _]|set_solver].
    + intros (Hs & Hp & Hq). split; [by apply Hq|]. intros x Hxg. split; [by apply Hs|by apply Hcov].
Qed.

(** *** The choice *)
Lemma larger_first_spec t mlocs glocs row order :
  markets_row t mlocs = Ok row -> "RoW"%string ∉ glocs -> Forall (known t) (mlocs ++ glocs) ->
  ordered_dependencies t (mlocs ++ glocs) (Some row) = Ok order ->
  larger_first t mlocs glocs order.
Proof.
  intros Hrow Hg Hk H.
  assert (forall c, c ∈ mlocs ++ glocs -> c = "RoW"%string -> c ∈ mlocs) as Hin.
  { intros c Hc ->. apply elem_of_app in Hc as [?|?]; done. }
  destruct (ordered_ok t (Some row) (mlocs ++ glocs)) as (l & Hl & Hnd & Hmem & HS).
  { rewrite Forall_forall in Hk |- *. intros c Hc.
    destruct (candidate_known t mlocs row c) as (g & _ & Ho); [done|by apply Hin|by apply Hk|]. by exists g. }
  rewrite H in Hl. apply Ok_inj in Hl as <-.
  split; [done|]. split; [intros c; rewrite Hmem; apply elem_of_app|].
  intros i j a b fa fb Hij Ha Hb HA HB.
  assert (before_in_order t (Some row) a b) as (fa' & fb' & Ha' & Hb' & Hcmp).
  { clear -HS Hij Ha Hb. revert i j Hij Ha Hb. induction HS as [|x l HS IH Hall]; intros i j Hij Ha Hb; [done|].
    destruct j as [|j]; [lia|]. destruct i as [|i].
    - cbn in Ha. injection Ha as ->. eapply Forall_lookup_1 in Hall; [|exact Hb]. exact Hall.
    - eapply (IH i j); [lia|done|done]. }
  apply (candidate_area t mlocs row) in Ha', Hb'; try done.
  - rewrite (area_unique _ _ _ _ _ HA Ha'), (area_unique _ _ _ _ _ HB Hb'). exact Hcmp.
  - apply Hin, Hmem. by eapply elem_of_list_lookup_2.
  - apply Hin, Hmem. by eapply elem_of_list_lookup_2.
Qed.

Lemma choose_locations_spec t loc crow mlocs glocs f found :
  Forall (known t) (mlocs ++ glocs) -> "RoW"%string ∉ glocs -> consumer_row_fits t loc crow f ->
  choose_locations t loc crow mlocs glocs = Ok found ->
  chosen_places t mlocs glocs loc f found.
Proof.
  intros Hk Hg Hf H. unfold choose_locations in H. apply bind_Ok in H as (row & Hrow & H).
  apply bind_Ok in H as (order & Ho & H). apply bind_Ok in H as (within & Hw & H).
  assert (larger_first t mlocs glocs order) as HL by by eapply larger_first_spec.
  assert (forall c, c ∈ order -> exists g, area t mlocs c g /\ occupies t (Some row) (PName c) g /\ known t c) as Hc.
  { intros c Hc. apply HL in Hc. rewrite Forall_forall in Hk.
    assert (known t c) as Hkc by (apply Hk, elem_of_app; exact Hc).
    destruct (candidate_known t mlocs row c) as (g & ? & ?); [done| |done|by exists g].
    intros ->. destruct Hc as [?|?]; [done|]. by exfalso. }
  exists order, within. split; [done|].
  assert (taken_within t mlocs order loc f within) as HT.
  { apply collect_spec in Hw as (l & -> & Hsub & Hl); [|apply HL]. cbn [app]. split; [done|].
    intros before c after E. destruct (Hl before c after E) as (b & Hb & ->). clear Hl.
    rewrite andb_true_r. cbn [app] in Hb.
    destruct (Hc c) as (g & HA & Hocc & _); [rewrite E; set_solver|].
    assert (Forall (known t) (filter (fun d => d ∈ l) before)) as Hkn.
    { apply Forall_forall. intros d Hd. apply elem_of_list_filter in Hd as [_ Hd].
      destruct (Hc d) as (_ & _ & _ & ?); [rewrite E; set_solver|done]. }
    rewrite (wrapper_inside t loc c _ crow row f g b Hf Hocc Hkn Hb). clear Hkn.
    split.
    - intros (Hs & Hp & Hq & Hcov). exists g. do 4 (split; [done|]).
      intros d h Hd Hdl Hdn Hh x Hx Hxh. apply (Hcov x Hx). apply covered_filter. by exists d, h.
    - intros (g' & HA' & Hs & Hp & Hq & Hdis). rewrite (area_unique _ _ _ _ _ HA HA').
      do 3 (split; [done|]). intros x Hx Hcov. apply covered_filter in Hcov as (d & h & Hd & Hdl & Hdn & Hh & Hxh).
      by apply (Hdis d h Hd Hdl Hdn Hh x). }
  split; [done|]. destruct within as [|w within]; [right|left].
  - split; [done|]. apply first_containing_spec in H as [(before & c & after & E & -> & Hin & Hall)|[-> Hall]].
    + left. apply (f_equal (@rev string)) in E. rewrite rev_involutive, rev_app_distr in E. cbn [rev] in E.
      rewrite <- app_assoc in E. exists (rev after), c, (rev before). split; [done|]. split; [done|].
      destruct (Hc c) as (g & HA & Hocc & _); [rewrite E; set_solver|]. split.
      * exists g. split; [done|]. by apply (wrapper_around t loc c crow row f g true).
      * intros d Hd (g' & HA' & Hs). rewrite Forall_forall in Hall.
        assert (d ∈ before) as Hd' by (apply elem_of_list_In; rewrite in_rev; by apply elem_of_list_In).
        destruct (Hc d) as (g'' & HA'' & Hocc' & _); [rewrite E; set_solver|].
        rewrite <- (area_unique _ _ _ _ _ HA'' HA') in Hs.
        pose proof (proj2 (wrapper_around t loc d crow row f g'' false Hf Hocc' (Hall d Hd')) Hs). done.
    + right. split; [done|]. intros d Hd (g' & HA' & Hs). rewrite Forall_forall in Hall.
      assert (d ∈ rev order) as Hd' by (apply elem_of_list_In; rewrite <- in_rev; by apply elem_of_list_In).
      destruct (Hc d Hd) as (g'' & HA'' & Hocc' & _).
      rewrite <- (area_unique _ _ _ _ _ HA'' HA') in Hs.
      pose proof (proj2 (wrapper_around t loc d crow row f g'' false Hf Hocc' (Hall d Hd')) Hs). done.
  - split; [done|]. by apply Ok_inj in H as <-.
Qed.

(** *** Consequences *)
Lemma taken_disjoint t mlocs glocs order loc f found a b g h :
  larger_first t mlocs glocs order -> taken_within t mlocs order loc f found ->
  a ∈ found -> b ∈ found -> a <> b -> a <> "RoW"%string -> b <> "RoW"%string ->
  t !! a = Some g -> t !! b = Some h -> g ## h.
Proof.
  intros HL [Hsub HT] Ha Hb Hab Han Hbn Hg Hh.
  assert (forall x, x ∈ found -> x ∈ order) as Hin.
  { intros x Hx. eapply sublist_submseteq, elem_of_submseteq in Hsub; [exact Hsub|exact Hx]. }
  assert (forall a b g h, a ∈ found -> b ∈ found -> a <> "RoW"%string -> b <> "RoW"%string ->
    t !! a = Some g -> t !! b = Some h -> (exists before after, order = before ++ b :: after /\ a ∈ before) -> g ## h)
    as Hpair.
  { clear -HT. intros a b g h Ha Hb Han Hbn Hg Hh (before & after & E & Hab).
    destruct (proj1 (HT before b after E) Hb) as (h' & HA & _ & _ & _ & Hdis).
    destruct HA as [[_ Hh']|[? _]]; [|done]. rewrite Hh in Hh'. apply Some_inj in Hh' as <-.
    intros x Hx Hx'. by apply (Hdis a g Hab Ha Han Hg x). }
  destruct (elem_of_list_split order b (Hin b Hb)) as (before & after & E).
  assert (a ∈ before \/ a ∈ after) as [Hpos|Hpos].
  { pose proof (Hin a Ha) as H. rewrite E in H. set_solver. }
  - eapply (Hpair a b); try done. by exists before, after.
  - intros x Hx Hx'. eapply (Hpair b a h g Hb Ha Hbn Han Hh Hg); [|exact Hx'|exact Hx].
    apply elem_of_list_split in Hpos as (l1 & l2 & ->). exists (before ++ b :: l1), l2.
    split; [rewrite E, <- app_assoc; done|]. set_solver.
Qed.

Lemma chosen_disjoint t mlocs glocs loc f found a b g h :
  chosen_places t mlocs glocs loc f found ->
  a ∈ found -> b ∈ found -> a <> b ->
  area t mlocs a g -> area t mlocs b h ->
  (a = "RoW"%string -> b ∈ mlocs) -> (b = "RoW"%string -> a ∈ mlocs) -> g ## h.
Proof.
  intros (order & within & HL & HT & Hf) Ha Hb Hab HA HB Hra Hrb.
  assert (found = within) as ->.
  { destruct Hf as [[_ ->]|[_ [(? & c & ? & _ & -> & _)|[-> _]]]]; [done|..].
    - apply elem_of_list_singleton in Ha as ->, Hb as ->. done.
    - by apply elem_of_nil in Ha. }
  assert (forall n g h, n ∈ mlocs -> n <> "RoW"%string -> t !! n = Some g -> rest_of t mlocs h -> g ## h) as Hrow.
  { intros n g' h' Hn Hnr Hg Hh x Hx Hx'. apply Hh in Hx' as [_ Hx']. apply Hx'. by exists n, g'. }
  destruct HA as [[Han HA]|[-> HA]], HB as [[Hbn HB]|[-> HB]].
  - by eapply (taken_disjoint t mlocs glocs order loc f within a b).
  - apply (Hrow a); [by apply Hrb|done|done|done].
  - intros x Hx Hx'. apply (Hrow b h g (Hra eq_refl) Hbn HB HA x Hx' Hx).
  - done.
Qed.

Lemma chosen_fallback t mlocs glocs loc f found :
  chosen_places t mlocs glocs loc f found ->
  (forall c, c ∈ found -> exists g, area t mlocs c g /\ (g ⊆ f \/ f ⊆ g)) /\
  ((forall c g, c ∈ mlocs \/ c ∈ glocs -> area t mlocs c g -> proper c g -> ~ g ⊆ f) ->
   (length found <= 1)%nat /\
   forall c g, found = [c] -> area t mlocs c g -> f ⊆ g /\
     forall d h, d ∈ mlocs \/ d ∈ glocs -> area t mlocs d h -> proper d h -> f ⊆ h -> (size g <= size h)%nat).
Proof.
  intros (order & within & HL & [Hsub HT] & Hf).
  assert (forall x, x ∈ within -> x ∈ order) as Hin.
  { intros x Hx. eapply sublist_submseteq, elem_of_submseteq in Hsub; [exact Hsub|exact Hx]. }
  assert (forall c, c ∈ within -> exists g, area t mlocs c g /\ g ⊆ f /\ proper c g) as Hw.
  { intros c Hc. destruct (elem_of_list_split order c (Hin c Hc)) as (before & after & E).
    destruct (proj1 (HT before c after E) Hc) as (g & HA & Hs & Hp & _). by exists g. }
  split.
  - intros c Hc. destruct Hf as [[_ ->]|[_ [(bf & c' & af & _ & -> & (g & HA & Hs & _) & _)|[-> _]]]].
    + destruct (Hw c Hc) as (g & ? & ? & _). exists g. split; [done|by left].
    + apply elem_of_list_singleton in Hc as ->. exists g. split; [done|by right].
    + by apply elem_of_nil in Hc.
  - intros Hno. destruct Hf as [[Hne ->]|[_ Hsm]].
    + exfalso. destruct within as [|c within]; [done|]. destruct (Hw c) as (g & HA & Hs & Hp); [set_solver|].
      apply (Hno c g); [|done..]. apply HL, Hin. set_solver.
    + destruct Hsm as [(before & c & after & E & -> & (g & HA & Hs & Hp & Hpl) & Hafter)|[-> _]].
      * split; [cbn; lia|]. intros c' g' E' HA'. injection E' as <-.
        rewrite (area_unique _ _ _ _ _ HA' HA). split; [done|].
        intros d h Hd HD Hpd Hsd. destruct HL as (_ & Hmem & Hord). apply Hmem in Hd. rewrite E in Hd.
        apply elem_of_app in Hd as [Hd|Hd].
        -- apply elem_of_list_lookup in Hd as [i Hi].
           assert (i < length before)%nat as Hlt by by eapply lookup_lt_Some.
           destruct (Hord i (length before) d c h g) as [?|[? _]]; try done.
           ++ rewrite E. by apply lookup_app_l_Some.
           ++ rewrite E. by apply list_lookup_middle.
           ++ lia.
           ++ lia.
        -- apply elem_of_cons in Hd as [->|Hd].
           ++ rewrite (area_unique _ _ _ _ _ HD HA). lia.
           ++ exfalso. apply (Hafter d Hd). exists h. by split; [|split; [|split]].
      * split; [cbn; lia|]. done.
Qed.
