(** Proofs for C82. *)
From Verif Require Import Base Topology Spec_Topology Topology_proofs Intersections Spec_Intersections.

Lemma intersected_spec t n f ex s c : n <> "GLO"%string -> n <> "RoW"%string -> t !! n = Some f -> intersected t n ex = Ok s ->
  c ∈ s <-> share t n c /\ ~ (c = n /\ ex = true).
Proof.
  intros Hg Hr Hf H. unfold intersected in H. apply String.eqb_neq in Hg as Eg. apply String.eqb_neq in Hr as Er. rewrite Eg, Er in H. cbn [orb] in H.
  rewrite (places_name _ _ _ Hr Hf) in H. cbn [bind] in H. apply Ok_inj in H as <-. rewrite elem_of_dom. split.
  - intros [g [Hc [H1 H2]]%map_filter_lookup_Some]. cbn [fst snd] in H1, H2. split; [|done].
    apply set_choose_L in H1 as [x [Hx1 Hx2]%elem_of_intersection]. by exists f, g, x.
  - intros [(fa & g & x & Ha & Hc & Hx1 & Hx2) Hn]. rewrite Hf in Ha. injection Ha as <-. exists g. apply map_filter_lookup_Some. split; [done|].
    cbn [fst snd]. split; [|done]. intros E. apply (not_elem_of_empty (C := faces) x). rewrite <- E. by apply elem_of_intersection.
Qed.
Lemma intersected_ok t n f ex : t !! n = Some f -> n <> "RoW"%string -> exists s, intersected t n ex = Ok s.
Proof.
  intros Hf Hr. unfold intersected. destruct ((n =? "GLO")%string || (n =? "RoW")%string); [by eexists|]. rewrite (places_name _ _ _ Hr Hf). by eexists.
Qed.
Lemma intersects_spec t n f c : n <> "GLO"%string -> n <> "RoW"%string -> t !! n = Some f ->
  exists b, intersects t n c = Ok b /\ (b = true <-> share t n c).
Proof.
  intros Hg Hr Hf. destruct (intersected_ok t n f false Hf Hr) as [s Hs]. unfold intersects. rewrite Hs. cbn [bind]. eexists. split; [done|].
  rewrite bool_decide_eq_true, (intersected_spec t n f false s c Hg Hr Hf Hs). naive_solver.
Qed.
Lemma share_sym t a b : share t a b <-> share t b a.
Proof. unfold share. naive_solver. Qed.
Lemma intersects_sym t a b fa fb : a <> "GLO"%string -> a <> "RoW"%string -> b <> "GLO"%string -> b <> "RoW"%string -> t !! a = Some fa -> t !! b = Some fb ->
  intersects t a b = intersects t b a.
Proof.
  intros Ha1 Ha2 Hb1 Hb2 Ha Hb. destruct (intersects_spec t a fa b Ha1 Ha2 Ha) as (x & -> & Hx). destruct (intersects_spec t b fb a Hb1 Hb2 Hb) as (y & -> & Hy).
  f_equal. rewrite share_sym in Hx. destruct x, y; naive_solver.
Qed.
Lemma intersects_global t n c : n = "GLO"%string \/ n = "RoW"%string -> intersects t n c = Ok false.
Proof. intros [-> | ->]; done. Qed.
Lemma contains_share t p c fp fc row : p <> "RoW"%string -> c <> "RoW"%string -> t !! p = Some fp -> t !! c = Some fc -> fc <> ∅ ->
  contains t (PName p) (PName c) [] row = Ok true -> share t p c.
Proof.
  intros Hp Hc Ep Ec Hne H. destruct (contains_name t (PName p) fp c fc [] row) as (b & E & Hb); [by constructor|by intros [= ->]|done|done|constructor|].
  rewrite H in E. apply Ok_inj in E as <-. apply set_choose_L in Hne as [x Hx]. exists fp, fc, x. split; [done|]. split; [done|].
  split; [|done]. by apply (proj1 Hb).
Qed.
Lemma overlaps_share t a b fa fb : a <> "RoW"%string -> b <> "RoW"%string -> t !! a = Some fa -> t !! b = Some fb ->
  exists o, overlaps t [a; b] = Ok (Some o) /\ (o = true <-> share t a b).
Proof.
  intros Ha Hb Ea Eb. destruct (overlaps_spec t [a; b]) as (o & E & Ho); [done| |].
  { constructor; [right; by eexists|]. constructor; [right; by eexists|constructor]. }
  exists o. split; [done|]. assert (o = true <-> ~ apart t [a; b]) as -> by (rewrite <- Ho; destruct o; naive_solver). split.
  - intros H. destruct (decide (fa ∩ fb = ∅)) as [E1|E1].
    + exfalso. apply H. intros i j x y f g Hij Hi Hj _ _ Hf Hg.
      assert (fa ## fb) as HD by (by apply disjoint_intersection_L).
      destruct i as [|[|i]], j as [|[|j]]; cbn in Hi, Hj; try done; injection Hi as <-; injection Hj as <-; simplify_eq; done.
    + apply set_choose_L in E1 as [x [H1 H2]%elem_of_intersection]. by exists fa, fb, x.
  - intros (f & g & x & Hf & Hg & H1 & H2) HA. specialize (HA 0%nat 1%nat a b f g). apply (HA ltac:(done) eq_refl eq_refl Ha Hb Hf Hg x H1 H2).
Qed.

(** *** Order by weight *)
Lemma proxy_geb_total a b : proxy_geb a b = true \/ proxy_geb b a = true.
Proof.
  destruct a as [x a], b as [y b]. unfold proxy_geb. cbn [fst snd]. destruct (Qc_dec x y) as [[H|H]|H].
  - right. rewrite (proj2 (Qcltb_true x y) H). done.
  - left. rewrite (proj2 (Qcltb_true y x) H). done.
  - subst y. rewrite !orb_true_iff, !andb_true_iff, !Qceqb_true. destruct (str_leb_total a b); [right|left]; by right.
Qed.
Lemma proxy_geb_spec a b : proxy_geb a b = true <-> (b.1 < a.1)%Qc \/ b.1 = a.1 /\ str_leb b.2 a.2 = true.
Proof. unfold proxy_geb. by rewrite orb_true_iff, andb_true_iff, Qcltb_true, Qceqb_true. Qed.
Lemma proxy_geb_trans a b c : proxy_geb a b = true -> proxy_geb b c = true -> proxy_geb a c = true.
Proof.
  rewrite !proxy_geb_spec. intros [H1|[E1 H1]] [H2|[E2 H2]].
  - left. by eapply Qclt_trans.
  - left. by rewrite E2.
  - left. by rewrite <- E1.
  - right. rewrite E2, E1. split; [done|]. by eapply str_leb_trans.
Qed.
Lemma proxied_size_occupies proxy t row n f : occupies t row (PName n) f -> proxied_size proxy t row n = Ok (proxy_size proxy f).
Proof.
  intros H. unfold proxied_size. inversion H as [n' f' Hn Hf|r Hr|]; subst.
  - apply String.eqb_neq in Hn as E. rewrite E. cbn [andb]. by rewrite (places_name _ _ _ Hn Hf).
  - cbn [default]. destruct (decide (f = ∅)) as [-> |Hne].
    + rewrite bool_decide_eq_false_2 by naive_solver. rewrite andb_false_r. by rewrite places_row.
    + rewrite bool_decide_eq_true_2 by done. done.
Qed.
Lemma proxied_ok proxy t row locs : Forall (fun n => exists f, occupies t row (PName n) f) locs ->
  exists l, proxied_dependencies proxy t locs row = Ok l /\ NoDup l /\ (forall n, n ∈ l <-> n ∈ locs) /\
    StronglySorted (heavier (proxy_size proxy) t row) l.
Proof.
  intros Hk. unfold proxied_dependencies. set (base := isort str_leb (remove_dups locs)).
  assert (forall n, n ∈ base <-> n ∈ locs) as Hbase by (intros n; unfold base; by rewrite elem_of_isort, elem_of_remove_dups).
  assert (NoDup base) as Hnd by (unfold base; rewrite isort_perm; apply NoDup_remove_dups).
  assert (exists keyed, mapR (fun l => let? n := proxied_size proxy t row l in Ok (n, l)) base = Ok keyed
    /\ map snd keyed = base
    /\ Forall (fun nl => exists f, occupies t row (PName nl.2) f /\ proxy_size proxy f = nl.1) keyed)
    as (keyed & -> & Hs & Hf).
  { assert (Forall (fun n => exists f, occupies t row (PName n) f) base) as Hkb.
    { apply Forall_forall. intros n Hn. eapply Forall_forall in Hk; [exact Hk|]. by apply Hbase. }
    clear -Hkb. induction Hkb as [|n base [f Hf] _ (keyed & IH & Hs & HF)].
    - exists []. split_and!; [reflexivity|reflexivity|constructor].
    - exists ((proxy_size proxy f, n) :: keyed). cbn [mapR]. rewrite (proxied_size_occupies _ _ _ _ _ Hf).
      cbn [bind]. rewrite IH. cbn. rewrite Hs. split_and!; [reflexivity|reflexivity|].
      constructor; [|done]. exists f. done. }
  cbn [bind]. eexists; split; [reflexivity|].
  assert (map snd (isort proxy_geb keyed) ≡ₚ base) as Hperm.
  { rewrite <- Hs. apply (Permutation_map snd). apply isort_perm. }
  split_and!.
  - by rewrite Hperm.
  - intros n. rewrite Hperm. apply Hbase.
  - pose proof (isort_sorted proxy_geb proxy_geb_total proxy_geb_trans keyed) as HS.
    assert (Forall (fun nl => exists f, occupies t row (PName nl.2) f /\ proxy_size proxy f = nl.1) (isort proxy_geb keyed)) as HF by (by rewrite isort_perm).
    clear -HS HF. revert HF. induction HS as [|[n a] l HS IH Hle]; intros HF; [constructor|]. cbn [map]. apply Forall_cons in HF as [(fa & Ha & Hsa) HF].
    constructor; [by apply IH|]. apply Forall_forall. intros b Hb.
    apply elem_of_list_fmap in Hb as ([m b'] & Hb' & Hb). cbn in Hb'. subst b'.
    eapply Forall_forall in Hle; [|exact Hb]. eapply Forall_forall in HF; [|exact Hb].
    destruct HF as (fb & Hfb & Hsb). cbn [fst snd] in *. exists fa, fb. split_and!; [done|done|].
    apply proxy_geb_spec in Hle. cbn [fst snd] in Hle. by subst.
Qed.
Lemma weight_mono proxy (fb fa : faces) : (forall x, (0 < proxy x)%Qc) -> fb ⊂ fa -> (proxy_size proxy fb < proxy_size proxy fa)%Qc.
Proof.
  intros Hp Hs. assert (fa = fb ∪ (fa ∖ fb)) as E by (apply union_difference_L; by apply subset_subseteq || by destruct Hs).
  assert (fa ∖ fb <> ∅) as Hne by (apply non_empty_difference_L; done).
  apply set_choose_L in Hne as [x Hx].
  unfold proxy_size. rewrite E at 1. rewrite (Qcsum_perm (map proxy (elements (fb ∪ fa ∖ fb))) (map proxy (elements fb ++ elements (fa ∖ fb)))).
  2:{ apply (Permutation_map proxy), elements_disj_union. set_solver. }
  rewrite map_app, Qcsum_app.
  assert (0 < Qcsum (map proxy (elements (fa ∖ fb))))%Qc as H0.
  { apply elem_of_elements in Hx. destruct (elements (fa ∖ fb)) as [|y l]; [by apply not_elem_of_nil in Hx|]. cbn [map]. change (0 < proxy y + Qcsum (map proxy l))%Qc.
    assert (0 <= Qcsum (map proxy l))%Qc as H1.
    { apply Qcsum_nonneg. apply Forall_forall. intros z Hz. apply elem_of_list_fmap in Hz as (w & -> & _). apply Qclt_le_weak, Hp. }
    specialize (Hp y). revert Hp H1. generalize (proxy y) (Qcsum (map proxy l)). intros. qclra. }
  revert H0. generalize (Qcsum (map proxy (elements fb))) (Qcsum (map proxy (elements (fa ∖ fb)))). intros. qclra.
Qed.
Lemma proxied_larger_first proxy t row locs l i j a b fa fb : (forall x, (0 < proxy x)%Qc) ->
  proxied_dependencies proxy t locs row = Ok l -> Forall (fun n => exists f, occupies t row (PName n) f) locs ->
  l !! i = Some a -> l !! j = Some b ->
  occupies t row (PName a) fa -> occupies t row (PName b) fb -> fb ⊂ fa -> (i < j)%nat.
Proof.
  intros Hp H Hk Hi Hj Ha Hb Hsub. destruct (proxied_ok proxy t row locs Hk) as (l' & H' & Hnd & _ & HS).
  rewrite H in H'. apply Ok_inj in H' as ->.
  assert (forall p f f', occupies t row p f -> occupies t row p f' -> f = f') as Hfun.
  { intros p f f' H1 H2. inversion H1; subst; inversion H2; subst; congruence. }
  pose proof (weight_mono proxy fb fa Hp Hsub) as Hlt.
  destruct (Nat.lt_trichotomy i j) as [?|[-> |Hji]]; [done|..].
  - rewrite Hi in Hj. injection Hj as ->. rewrite (Hfun _ _ _ Ha Hb) in Hlt. exfalso. by apply (Qclt_not_eq _ _ Hlt).
  - exfalso. clear H Hk Hnd. revert i j Hi Hj Hji. induction HS as [|x l' HS IH Hle]; intros i j Hi Hj Hji; [done|].
    destruct i as [|i]; [lia|]. destruct j as [|j].
    + cbn in Hi, Hj. injection Hj as ->. eapply Forall_lookup_1 in Hle; [|exact Hi].
      destruct Hle as (fb' & fa' & Hb' & Ha' & Hcmp).
      rewrite (Hfun _ _ _ Hb' Hb), (Hfun _ _ _ Ha' Ha) in Hcmp. destruct Hcmp as [Hc|[Hc _]].
      * apply (Qclt_not_le _ _ Hc). by apply Qclt_le_weak.
      * rewrite Hc in Hlt. by apply (Qclt_not_eq _ _ Hlt).
    + apply (IH i j); [done|done|lia].
Qed.
(** With the default proxy the order is that of Topology.v. *)
Lemma Qcint_lt a b : (Qcint a < Qcint b)%Qc <-> (a < b)%Z.
Proof.
  change (Qred (inject_Z a) < Qred (inject_Z b) <-> (a < b)%Z)%Q. rewrite !Qred_correct. by rewrite Zlt_Qlt.
Qed.
Lemma Qcint_eq a b : Qcint a = Qcint b <-> a = b.
Proof.
  split; [|by intros ->]. intros H. destruct (Z.lt_trichotomy a b) as [L|[L|L]]; [|done|]; apply Qcint_lt in L; rewrite H in L; by apply Qclt_not_eq in L.
Qed.
Lemma default_weight f : proxy_size default_size_proxy f = Qcint (Z.of_nat (size f)).
Proof.
  unfold proxy_size. change (size f) with (length (elements f)). generalize (elements f). intros l. induction l as [|x l IH]; [done|]. cbn [map length].
  change (Qcsum (default_size_proxy x :: map default_size_proxy l)) with (1 + Qcsum (map default_size_proxy l))%Qc. rewrite IH.
  rewrite Nat2Z.inj_succ. generalize (Z.of_nat (length l)). intros z. unfold Qcint. apply Qc_is_canon.
  change (Qred (1 + Qred (inject_Z z)) == Qred (inject_Z (Z.succ z)))%Q. rewrite !Qred_correct. unfold Qeq, inject_Z, Qplus. cbn [Qnum Qden]. lia.
Qed.
Definition as_key (a : nat * string) : Qc * string := (Qcint (Z.of_nat a.1), a.2).
Lemma geb_agree a b : proxy_geb (as_key a) (as_key b) = key_geb a b.
Proof.
  apply eq_true_iff_eq. rewrite proxy_geb_spec. unfold key_geb, as_key. cbn [fst snd]. rewrite orb_true_iff, andb_true_iff, Nat.ltb_lt, Nat.eqb_eq, Qcint_lt, Qcint_eq.
  assert ((Z.of_nat b.1 < Z.of_nat a.1)%Z <-> (b.1 < a.1)%nat) as -> by lia.
  assert (Z.of_nat b.1 = Z.of_nat a.1 <-> b.1 = a.1) as -> by lia. done.
Qed.
Lemma insert_agree a l : insert_sorted proxy_geb (as_key a) (map as_key l) = map as_key (insert_sorted key_geb a l).
Proof. induction l as [|b l IH]; [done|]. cbn [map insert_sorted]. rewrite geb_agree. destruct (key_geb a b); [done|]. cbn [map]. by rewrite IH. Qed.
Lemma isort_agree l : isort proxy_geb (map as_key l) = map as_key (isort key_geb l).
Proof. induction l as [|a l IH]; [done|]. unfold isort in *. cbn [map foldr]. by rewrite IH, insert_agree. Qed.
Lemma default_size t row n : proxied_size default_size_proxy t row n = fmapR (fun k => Qcint (Z.of_nat k)) (location_size t row n).
Proof.
  unfold proxied_size, location_size.
  generalize (if (n =? "RoW")%string && bool_decide (default ∅ row <> ∅) then Ok (default ∅ row) else places t n). intros [f|e]; [|done].
  cbn [bind fmapR]. by rewrite default_weight.
Qed.
Lemma default_dependencies t locs row : proxied_dependencies default_size_proxy t locs row = ordered_dependencies t locs row.
Proof.
  unfold proxied_dependencies, ordered_dependencies. generalize (isort str_leb (remove_dups locs)). intros base.
  assert (mapR (fun l => let? n := proxied_size default_size_proxy t row l in Ok (n, l)) base =
    fmapR (map as_key) (mapR (fun l => let? n := location_size t row l in Ok (n, l)) base)) as ->.
  { induction base as [|n base IH]; [done|]. cbn [mapR]. rewrite IH, default_size. destruct (location_size t row n) as [k|e]; [|done]. cbn [fmapR bind].
    destruct (mapR (fun l => let? n := location_size t row l in Ok (n, l)) base) as [keyed|e]; done. }
  destruct (mapR (fun l => let? n := location_size t row l in Ok (n, l)) base) as [keyed|e]; [|done]. cbn [fmapR bind].
  rewrite isort_agree, map_map. done.
Qed.
