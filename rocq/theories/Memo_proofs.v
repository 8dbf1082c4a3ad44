(** Proofs for C108. *)
From stdpp Require Import gmap.
From Verif Require Import Base Types Topology Intersections Locations Memo Spec_Memo Intersections_proofs.

Section memo.
  Context {W K V : Type} `{EqDecision K}.
  Variable f : W -> K -> result V.
  Variable maxsize : nat.
  Notation call := (call f maxsize).
  Notation happens := (happens f maxsize).
  Notation step := (step f maxsize).

  Lemma assoc_In k (l : list (K * nat)) a : assoc k l = Some a -> (k, a) ∈ l.
  Proof.
    induction l as [|[k' a'] l IH]; cbn [assoc fst snd]; [done|]. case_bool_decide as Hk.
    - intros [= ->]. subst k'. left.
    - intros H. right. by apply IH.
  Qed.
  Lemma assoc_None k (l : list (K * nat)) : assoc k l = None <-> k ∉ map fst l.
  Proof.
    induction l as [|[k' a'] l IH]; cbn [assoc fst snd map]; [set_solver|]. case_bool_decide as Hk; set_solver.
  Qed.
  Lemma assoc_app k l (l' : list (K * nat)) : assoc k (l ++ l') = match assoc k l with Some a => Some a | None => assoc k l' end.
  Proof. induction l as [|[k' a'] l IH]; cbn [assoc fst snd app]; [done|]. by case_bool_decide. Qed.
  Lemma assoc_at k (l : list (K * nat)) a l' : k ∉ map fst l -> assoc k (l ++ (k, a) :: l') = Some a.
  Proof. intros H. rewrite assoc_app. apply assoc_None in H. rewrite H. cbn. by rewrite bool_decide_true. Qed.
  Lemma without_In k (l : list (K * nat)) x : x ∈ without k l <-> x ∈ l /\ x.1 <> k.
  Proof. unfold without. rewrite filterb_In, negb_true_iff, bool_decide_eq_false. done. Qed.
  Lemma without_notin k (l : list (K * nat)) : k ∉ map fst (without k l).
  Proof. intros H. apply elem_of_list_fmap in H as (x & -> & Hx). apply without_In in Hx. tauto. Qed.
  Lemma without_other k (l : list (K * nat)) : k ∉ map fst l -> without k l = l.
  Proof.
    intros H. apply filterb_id, Forall_forall. intros x Hx. apply negb_true_iff, bool_decide_eq_false. intros <-.
    apply H, elem_of_list_fmap. by exists x.
  Qed.
  Lemma without_app k (l l' : list (K * nat)) : without k (l ++ l') = without k l ++ without k l'.
  Proof. apply filterb_app. Qed.
  Lemma without_keys k (l : list (K * nat)) : map fst (without k l) `sublist_of` map fst l.
  Proof.
    induction l as [|x l IH]; [done|]. unfold without, filterb. cbn [List.filter map].
    destruct (negb _); cbn [map]; [by apply sublist_skip|by apply sublist_cons].
  Qed.
  Lemma sublist_in {A} (l l' : list A) x : l `sublist_of` l' -> x ∈ l -> x ∈ l'.
  Proof. induction 1 as [|y l l' _ IH|y l l' _ IH]; [done| |]; intros Hx; [|right; auto]. apply elem_of_cons in Hx as [->|Hx]; [left|right; auto]. Qed.
  Lemma sublist_NoDup {A} (l l' : list A) : l `sublist_of` l' -> NoDup l' -> NoDup l.
  Proof.
    induction 1 as [|y l l' Hl IH|y l l' Hl IH]; [done| |]; intros [Hy Hn]%NoDup_cons; [|auto]. apply NoDup_cons. split; [|auto].
    intros Hin. apply Hy. by eapply sublist_in.
  Qed.
  Lemma tail_sub {A} (l : list A) : tail l `sublist_of` l.
  Proof. destruct l; [done|]. by apply sublist_cons. Qed.
  Lemma tail_In {A} (l : list A) x : x ∈ tail l -> x ∈ l.
  Proof. destruct l; [done|]. by right. Qed.

  Definition dropped (l : list (K * nat)) : list (K * nat) := if (maxsize <=? length l)%nat then tail l else l.
  Lemma dropped_In l x : x ∈ dropped l -> x ∈ l.
  Proof. unfold dropped. case_match; [apply tail_In|done]. Qed.

  (** What the entries mean; [U] tells which objects nobody changed. *)
  Definition inv (w : W) (U : nat -> Prop) (c : memo (K := K) (V := V)) : Prop :=
    forall k a, (k, a) ∈ entries c -> (a < length (objects c))%nat /\ exists v, f w k = Ok v /\ (U a -> objects c !! a = Some v).

  Lemma inv_none w U : inv w U no_memo.
  Proof. intros k a H. by apply elem_of_nil in H. Qed.
  Lemma inv_weaken w (U U' : nat -> Prop) c : (forall a, U' a -> U a) -> inv w U c -> inv w U' c.
  Proof. intros HU Hc k a Ha. destruct (Hc k a Ha) as (Hl & v & Hv & Ho). split; [done|]. exists v. auto. Qed.

  Lemma call_inv w U c k : inv w U c ->
    inv w U (call w k c).2 /\
    match seen (call w k c) with
    | Ok (a, v) => U a -> f w k = Ok v
    | Err e => f w k = Err e
    end.
  Proof.
    intros Hc. unfold seen, Memo.call. destruct (assoc k (entries c)) as [a|] eqn:Hk.
    - apply assoc_In in Hk. cbn [fst snd objects entries bind]. split.
      + intros k' a' Hin. cbn [entries objects] in *. apply Hc. apply elem_of_app in Hin as [Hin|Hin].
        * by apply without_In in Hin as [? _].
        * apply elem_of_list_singleton in Hin. by injection Hin as -> ->.
      + destruct (Hc _ _ Hk) as (Hl & v & Hv & Ho). cbn. destruct (lookup_lt_is_Some_2 _ _ Hl) as [v' Hv']. rewrite Hv'.
        intros HU. rewrite (Ho HU) in Hv'. congruence.
    - destruct (f w k) as [v|e] eqn:Hf; cbn [fst snd objects entries bind]; [|done]. fold (dropped (entries c)). split.
      + intros k' a' Hin. cbn [entries objects] in *. rewrite app_length. cbn [length]. apply elem_of_app in Hin as [Hin|Hin].
        * apply dropped_In in Hin. destruct (Hc _ _ Hin) as (Hl & v' & Hv & Ho). split; [lia|]. exists v'. split; [done|].
          intros HU. apply lookup_app_l_Some. auto.
        * apply elem_of_list_singleton in Hin. injection Hin as -> ->. split; [lia|]. exists v. split; [done|]. intros _.
          by rewrite list_lookup_middle.
      + cbn. by rewrite list_lookup_middle.
  Qed.

  Lemma happens_app s evs evs' : happens s (evs ++ evs')
    = let r := happens s evs in let r' := happens r.1 evs' in (r'.1, r.2 ++ r'.2).
  Proof.
    revert s. induction evs as [|ev evs IH]; intros s; cbn [Memo.happens app].
    - cbn. by destruct (happens s evs').
    - rewrite IH. cbn. by rewrite app_assoc.
  Qed.

  Lemma inv_happens w evs : forall (U : nat -> Prop) c, inv w U c -> steady evs ->
    (happens (w, c) evs).1.1 = w /\ inv w (fun a => U a /\ untouched a evs) (happens (w, c) evs).1.2.
  Proof.
    induction evs as [|ev evs IH]; intros U c Hc Hs; cbn [Memo.happens].
    - split; [done|]. eapply inv_weaken; [|exact Hc]. tauto.
    - assert (steady evs) as Hs' by (intros w' Hw; apply (Hs w'); by right). cbn [fst snd].
      destruct ev as [k|a v|w']; cbn [Memo.step fst snd].
      + destruct (call_inv w U c k Hc) as [Hc' _]. destruct (IH _ _ Hc' Hs') as [Hw Hi]. split; [done|].
        eapply inv_weaken; [|exact Hi]. intros a [Ha Hu]. split; [done|]. intros v Hv. apply (Hu v). by right.
      + assert (inv w (fun b => U b /\ b <> a) (Memo (entries c) (<[a := v]> (objects c)))) as Hc'.
        { intros k b Hb. cbn [entries objects] in *. rewrite insert_length. destruct (Hc _ _ Hb) as (Hl & v' & Hv & Ho).
          split; [done|]. exists v'. split; [done|]. intros [HU Hne]. rewrite list_lookup_insert_ne by done. auto. }
        destruct (IH _ _ Hc' Hs') as [Hw Hi]. split; [done|]. eapply inv_weaken; [|exact Hi]. intros b [Hb Hu]. split.
        * split; [done|]. intros ->. apply (Hu v). by left.
        * intros v' Hv'. apply (Hu v'). by right.
      + destruct (Hs w'). by left.
  Qed.

  (** An object that nobody changed is what the function gives. *)
  Lemma local_proof w evs k : steady evs ->
    (happens (w, no_memo) evs).1.1 = w /\
    match seen (call w k (happens (w, no_memo) evs).1.2) with
    | Ok (a, v) => untouched a evs -> f w k = Ok v
    | Err e => f w k = Err e
    end.
  Proof.
    intros Hs. destruct (inv_happens w evs (fun _ => True) no_memo (inv_none _ _) Hs) as [Hw Hi]. split; [done|].
    destruct (call_inv w _ _ k Hi) as [_ Hr]. destruct (seen _) as [[a v]|e]; [|done]. intros Hu. by apply Hr.
  Qed.

  Lemma calls_inv w ks : forall c, inv w (fun _ => True) c ->
    map (fun o => (o.1, fmapR snd o.2)) (happens (w, c) (map Called ks)).2 = map (fun k => (k, f w k)) ks.
  Proof.
    induction ks as [|k ks IH]; intros c Hc; cbn [map Memo.happens Memo.step fst snd app]; [done|].
    destruct (call_inv w _ c k Hc) as [Hc' Hr]. f_equal; [|by apply IH]. f_equal. destruct (seen _) as [[a v]|e]; cbn.
    - symmetry. by apply Hr.
    - done.
  Qed.
  Lemma transparent_proof w ks :
    map (fun o => (o.1, fmapR snd o.2)) (happens (w, no_memo) (map Called ks)).2 = map (fun k => (k, f w k)) ks.
  Proof. apply calls_inv, inv_none. Qed.

  (** The number of entries. *)
  Definition bounded (c : memo (K := K) (V := V)) : Prop := (length (entries c) <= maxsize)%nat /\ NoDup (map fst (entries c)).
  Lemma without_length k (l : list (K * nat)) : k ∈ map fst l -> (length (without k l) < length l)%nat.
  Proof.
    induction l as [|[k' a] l IH]; cbn [map fst]; [by intros ?%elem_of_nil|]. unfold without, filterb. cbn [List.filter fst].
    fold (filterb (fun x : K * nat => negb (bool_decide (x.1 = k))) l). fold (without k l). case_bool_decide as Hk; cbn [negb length].
    - intros _. pose proof (sublist_length _ _ (without_keys k l)) as Hl. rewrite !map_length in Hl. lia.
    - intros [->|Hin]%elem_of_cons; [done|]. specialize (IH Hin). lia.
  Qed.
  Lemma call_bounded w k c : (0 < maxsize)%nat -> bounded c -> bounded (call w k c).2.
  Proof.
    intros Hm [Hl Hn]. unfold Memo.call. destruct (assoc k (entries c)) as [a|] eqn:Hk; [|destruct (f w k) as [v|e]]; cbn [snd]; [| |done].
    - apply assoc_In in Hk. split; cbn [entries].
      + rewrite app_length. cbn [length]. assert (k ∈ map fst (entries c)) as Hin by (apply elem_of_list_fmap; by exists (k, a)).
        apply without_length in Hin. lia.
      + rewrite map_app. apply NoDup_app. split; [|split].
        * eapply sublist_NoDup; [|exact Hn]. apply without_keys.
        * intros x Hx [->|[]%elem_of_nil]%elem_of_cons. by apply without_notin in Hx.
        * apply NoDup_singleton.
    - apply assoc_None in Hk. fold (dropped (entries c)). split; cbn [entries].
      + rewrite app_length. cbn [length]. unfold dropped. case_match eqn:Hmax.
        * apply Nat.leb_le in Hmax. destruct (entries c); cbn [length tail] in *; lia.
        * apply Nat.leb_gt in Hmax. lia.
      + rewrite map_app. apply NoDup_app. split; [|split].
        * eapply sublist_NoDup; [|exact Hn]. unfold dropped. case_match; [|done]. destruct (entries c); [done|]. by apply sublist_cons.
        * intros x Hx [->|[]%elem_of_nil]%elem_of_cons. apply Hk. apply elem_of_list_fmap in Hx as (y & Hy1 & Hy).
          apply elem_of_list_fmap. exists y. split; [done|]. by apply dropped_In.
        * apply NoDup_singleton.
  Qed.
  Lemma happens_bounded evs : forall s, (0 < maxsize)%nat -> bounded s.2 -> bounded (happens s evs).1.2.
  Proof.
    induction evs as [|ev evs IH]; intros s Hm Hb; cbn [Memo.happens fst snd]; [done|]. apply IH; [done|].
    destruct ev; cbn [Memo.step fst snd]; [by apply call_bounded|exact Hb|exact Hb].
  Qed.
  Lemma bounded_proof s : (0 < maxsize)%nat -> reached f maxsize s -> bounded s.2.
  Proof. intros Hm (w & evs & <-). apply happens_bounded; [done|]. split; cbn; [lia|constructor]. Qed.

  (** Objects that callers have exist. *)
  Definition exist (c : memo (K := K) (V := V)) : Prop := forall k a, (k, a) ∈ entries c -> (a < length (objects c))%nat.
  Lemma call_exist w k c : exist c -> exist (call w k c).2 /\ forall a, (call w k c).1 = Ok a -> (a < length (objects (call w k c).2))%nat.
  Proof.
    intros Hc. unfold Memo.call. destruct (assoc k (entries c)) as [a|] eqn:Hk; [|destruct (f w k) as [v|e]]; cbn [fst snd entries objects]; [| |done].
    - apply assoc_In in Hk. split.
      + intros k' a' [Hin|Hin]%elem_of_app; cbn [objects].
        * apply without_In in Hin as [Hin _]. by eapply Hc.
        * apply elem_of_list_singleton in Hin. injection Hin as -> ->. by eapply Hc.
      + intros a' [= <-]. by eapply Hc.
    - fold (dropped (entries c)). rewrite app_length. cbn [length]. split.
      + intros k' a' [Hin|Hin]%elem_of_app; cbn [objects]; rewrite app_length; cbn [length].
        * apply dropped_In in Hin. apply Hc in Hin. lia.
        * apply elem_of_list_singleton in Hin. injection Hin as -> ->. lia.
      + intros a' [= <-]. lia.
  Qed.
  Lemma happens_exist evs : forall s, exist s.2 -> exist (happens s evs).1.2.
  Proof.
    induction evs as [|ev evs IH]; intros s Hb; cbn [Memo.happens fst snd]; [done|]. apply IH.
    destruct ev; cbn [Memo.step fst snd]; [by apply call_exist| |exact Hb].
    intros k' a' Hin. cbn [entries objects] in *. rewrite insert_length. by eapply Hb.
  Qed.
  Lemma reached_exist s : reached f maxsize s -> exist s.2.
  Proof. intros (w & evs & <-). apply happens_exist. intros k a H. by apply elem_of_nil in H. Qed.

  (** The last keys are kept, with their objects. *)
  Definition near (k : K) (a n : nat) (l : list (K * nat)) : Prop :=
    exists l1 l2, l = l1 ++ (k, a) :: l2 /\ k ∉ map fst l1 /\ k ∉ map fst l2 /\ (length l2 <= n)%nat.
  Lemma near_assoc k a n l : near k a n l -> assoc k l = Some a.
  Proof. intros (l1 & l2 & -> & H & _). by apply assoc_at. Qed.
  Lemma call_near w k c a : (call w k c).1 = Ok a -> near k a 0 (entries (call w k c).2).
  Proof.
    unfold Memo.call. destruct (assoc k (entries c)) as [b|] eqn:Hk; [|destruct (f w k) as [v|e]]; cbn [fst snd entries]; [| |done]; intros [= <-].
    - exists (without k (entries c)), []. split; [done|]. split; [apply without_notin|]. split; [by intros ?%elem_of_nil|done].
    - apply assoc_None in Hk. fold (dropped (entries c)). exists (dropped (entries c)), []. split; [done|]. split; [|by split; [intros ?%elem_of_nil|]].
      intros Hin. apply Hk. apply elem_of_list_fmap in Hin as (y & -> & Hy). apply elem_of_list_fmap. exists y. split; [done|]. by apply dropped_In.
  Qed.
  Lemma call_keeps w k k' c a n : (n + 1 < maxsize)%nat -> near k a n (entries c) -> near k a (n + 1) (entries (call w k' c).2).
  Proof.
    intros Hn (l1 & l2 & Hl & H1 & H2 & Hlen). unfold Memo.call. destruct (decide (k' = k)) as [->|Hne].
    - rewrite Hl, assoc_at by done. cbn [snd entries]. exists (without k (l1 ++ (k, a) :: l2)), []. split; [done|].
      split; [apply without_notin|]. split; [by intros ?%elem_of_nil|cbn; lia].
    - destruct (assoc k' (entries c)) as [b|] eqn:Hk; [|destruct (f w k') as [v|e]]; cbn [snd entries].
      + exists (without k' l1), (without k' l2 ++ [(k', b)]). split; [|split; [|split]].
        * rewrite Hl, without_app. unfold without at 2, filterb. cbn [List.filter fst]. rewrite bool_decide_false by done. cbn [negb].
          by rewrite <-app_assoc.
        * intros Hin. apply H1. eapply sublist_in; [apply without_keys|exact Hin].
        * rewrite map_app. intros [Hin|Hin]%elem_of_app; [|set_solver]. apply H2. eapply sublist_in; [apply without_keys|exact Hin].
        * rewrite app_length. cbn [length]. pose proof (sublist_length _ _ (without_keys k' l2)) as Hs. rewrite !map_length in Hs. lia.
      + rewrite Hl. fold (dropped (l1 ++ (k, a) :: l2)).
        assert (exists l0, dropped (l1 ++ (k, a) :: l2) = l0 ++ (k, a) :: l2 /\ k ∉ map fst l0) as (l0 & -> & H0).
        { unfold dropped. case_match eqn:Hmax; [|by exists l1]. apply Nat.leb_le in Hmax. rewrite app_length in Hmax. cbn [length] in Hmax.
          destruct l1 as [|x l1]; cbn [length app tail] in *; [lia|]. exists l1. split; [done|]. set_solver. }
        exists l0, (l2 ++ [(k', length (objects c))]). split; [by rewrite <-app_assoc|]. split; [done|]. split.
        * rewrite map_app. intros [Hin|Hin]%elem_of_app; [done|]. set_solver.
        * rewrite app_length. cbn [length]. lia.
      + exists l1, l2. split_and!; [done..|lia].
  Qed.
  Lemma happens_keeps k a evs : forall s n, (n + length evs < maxsize)%nat -> near k a n (entries s.2) ->
    near k a (n + length evs) (entries (happens s evs).1.2).
  Proof.
    induction evs as [|ev evs IH]; intros s n Hn Hs; cbn [Memo.happens fst snd length] in *; [by rewrite Nat.add_0_r|].
    replace (n + S (length evs))%nat with (n + 1 + length evs)%nat by lia. apply IH; [lia|].
    destruct ev; cbn [Memo.step fst snd entries]; [apply call_keeps; [lia|done]| |];
      destruct Hs as (l1 & l2 & ? & ? & ? & ?); exists l1, l2; split_and!; try done; lia.
  Qed.
  Lemma kept_proof w k c a evs w' : (call w k c).1 = Ok a -> (length evs < maxsize)%nat ->
    (call w' k (happens (w, (call w k c).2) evs).1.2).1 = Ok a.
  Proof.
    intros Ha Hl. pose proof (call_near w k c a Ha) as H0.
    pose proof (happens_keeps k a evs (w, (call w k c).2) 0 Hl H0) as H1. apply near_assoc in H1. unfold Memo.call at 1. by rewrite H1.
  Qed.

  Lemma seen_hit w k c a : assoc k (entries c) = Some a ->
    seen (call w k c) = match objects c !! a with Some v => Ok (a, v) | None => Err IndexError end.
  Proof. intros H. unfold seen, Memo.call. by rewrite H. Qed.

  (** So a change is what the next caller with the same arguments gets. *)
  Lemma change_proof s k a v w' : reached f maxsize s -> (call s.1 k s.2).1 = Ok a ->
    (happens s [Called k; Changed a v; Became w'; Called k]).2
    = [(k, seen (call s.1 k s.2)); (k, Ok (a, v))].
  Proof.
    intros Hr Ha. apply reached_exist in Hr. destruct (call_exist s.1 k s.2 Hr) as [_ Hx]. specialize (Hx a Ha).
    cbn [Memo.happens Memo.step fst snd app]. f_equal. f_equal. f_equal. apply call_near, near_assoc in Ha.
    rewrite (seen_hit _ _ _ a) by exact Ha. cbn [objects]. by rewrite list_lookup_insert.
  Qed.
  (** And what a call gave before the world changed it gives afterwards. *)
  Lemma stale_proof s k a v w' : seen (call s.1 k s.2) = Ok (a, v) ->
    (happens s [Called k; Became w'; Called k]).2 = [(k, Ok (a, v)); (k, Ok (a, v))].
  Proof.
    intros Hs. cbn [Memo.happens Memo.step fst snd app]. rewrite Hs. f_equal. f_equal. f_equal. unfold seen in Hs.
    apply bind_Ok in Hs as (b & Hb & Hs). destruct (objects _ !! b) as [v'|] eqn:Hv; [|done]. injection Hs as -> ->.
    pose proof Hb as Ha. apply call_near, near_assoc in Ha. rewrite (seen_hit _ _ _ a) by exact Ha. by rewrite Hv.
  Qed.
End memo.

(** * The caches of [Topology] *)
Definition good (w : world) (c : caches) : Prop :=
  inv contained_f w (fun _ => True) (c_contained c) /\ inv contains_f w (fun _ => True) (c_contains c) /\ inv ordered_f w (fun _ => True) (c_ordered c).
Lemma good_none w : good w no_caches.
Proof. split_and!; apply inv_none. Qed.
Lemma call_good {W K V} `{EqDecision K} (f : W -> K -> result V) n w k c : inv f w (fun _ => True) c ->
  inv f w (fun _ => True) (call f n w k c).2 /\ fmapR snd (seen (call f n w k c)) = f w k.
Proof.
  intros Hc. destruct (call_inv f n w _ c k Hc) as [Hi Hr]. split; [done|]. destruct (seen _) as [[a v]|e]; cbn; [symmetry; auto|done].
Qed.
Lemma ask_good w q c : good w c -> (ask w q c).1 = truth w q /\ good w (ask w q c).2.
Proof.
  intros (H1 & H2 & H3). destruct q as [i l e s row|i p ch s row|i ls row]; unfold ask, truth.
  - destruct s as [|l'|l'|l']; cbn [hashable names_given fst snd]; try (destruct (call_good contained_f 512 w (i, l, e, None, row) _ H1) as [Hi Hr]; rewrite Hr; by split_and!);
      try (destruct (call_good contained_f 512 w (i, l, e, Some l', row) _ H1) as [Hi Hr]; rewrite Hr; by split_and!). by split_and!.
  - destruct s as [|l'|l'|l']; cbn [hashable names_given fst snd]; try (destruct (call_good contains_f 512 w (i, p, ch, None, row) _ H2) as [Hi Hr]; rewrite Hr; by split_and!);
      try (destruct (call_good contains_f 512 w (i, p, ch, Some l', row) _ H2) as [Hi Hr]; rewrite Hr; by split_and!). by split_and!.
  - cbn [fst snd]. destruct (call_good ordered_f 512 w (i, isort str_leb (remove_dups ls), row) _ H3) as [Hi Hr]. rewrite Hr. by split_and!.
Qed.
Lemma prog_good {A} w (p : prog A) : forall c, good w c -> (with_caches w p c).1 = without_caches w p /\ good w (with_caches w p c).2.
Proof.
  induction p as [a|q k IH]; intros c Hc; cbn [with_caches without_caches]; [done|]. destruct (ask_good w q c Hc) as [Hr Hc'].
  rewrite Hr. by apply IH.
Qed.
Lemma progs_proof {A B} w (p : prog A) (ps : list (prog B)) :
  (with_caches w p (foldl (fun c p => (with_caches w p c).2) no_caches ps)).1 = without_caches w p.
Proof.
  assert (forall c, good w c -> good w (foldl (fun c p => (with_caches w p c).2) c ps)) as H.
  { induction ps as [|p' ps IH]; intros c Hc; cbn [foldl]; [done|]. apply IH. by apply prog_good. }
  by apply prog_good, H, good_none.
Qed.

Lemma collect_truth w inside got take : forall candidates found k,
  without_caches w (collect_p inside got take found candidates k)
  = without_caches w (k (collect (fun c l => got c l (truth w (inside c l))) take found candidates)).
Proof.
  induction candidates as [|c l IH]; intros found k; cbn [collect_p collect without_caches]; [done|].
  destruct (got c found (truth w (inside c found))) as [b|e]; cbn [bind]; [apply IH|done].
Qed.
Lemma first_truth w inside got : forall candidates,
  without_caches w (first_p inside got candidates) = first_containing (fun c => got c (truth w (inside c))) candidates.
Proof.
  induction candidates as [|c l IH]; cbn [first_p first_containing without_caches]; [done|].
  destruct (got c (truth w (inside c))) as [b|e]; cbn [bind]; [|done]. destruct b; [done|apply IH].
Qed.
Lemma choose_truth w i loc crow markets groups : i_proxy (w i) = default_size_proxy ->
  without_caches w (choose_p w i loc crow markets groups) = choose_locations (i_data (w i)) loc crow markets groups.
Proof.
  intros Hp. unfold choose_p, choose_locations. destruct (markets_row (i_data (w i)) markets) as [row|e]; cbn [bind]; [|done].
  cbn [without_caches truth]. rewrite Hp, default_dependencies. destruct (ordered_dependencies _ _ _) as [ordered|e]; cbn [bind]; [|done].
  rewrite collect_truth. change (fun c l => truth w (wrapper_q i loc c l crow (Some row))) with (fun c l => contains_wrapper (i_data (w i)) loc c l crow (Some row)).
  destruct (collect _ _ _ _) as [[|x l]|e]; cbn [bind]; [|done..].
  rewrite first_truth. done.
Qed.
Lemma choose_proof {B} w i loc crow markets groups (ps : list (prog B)) : i_proxy (w i) = default_size_proxy ->
  (with_caches w (choose_p w i loc crow markets groups) (foldl (fun c p => (with_caches w p c).2) no_caches ps)).1
  = choose_locations (i_data (w i)) loc crow markets groups.
Proof. intros Hp. rewrite progs_proof. by apply choose_truth. Qed.
Lemma set_proof w i l e ls row c :
  (ask w (Contained i l e (SetOf ls) row) c).1 = Err TypeError /\ (forall p ch, (ask w (Contains i p ch (SetOf ls) row) c).1 = Err TypeError).
Proof. done. Qed.
