(** Proofs for C77. *)
From stdpp Require Import gmap.
From Verif Require Import Base Types Uncertainty Utils Utils_proofs Validation Strings Grouping GroupUpdate Cutoff Topology
  Locations Spec_Order.

(** *** Two computations side by side *)
Lemma both_bind {A A' B B'} (R : A -> A' -> Prop) (S : B -> B' -> Prop) m m' (f : A -> result B) (f' : A' -> result B') :
  both R m m' -> (forall x y, m = Ok x -> R x y -> both S (f x) (f' y)) -> both S (bind m f) (bind m' f').
Proof. destruct m, m'; cbn; try done. intros H1 H2. by apply H2. Qed.
Lemma both_same {A B B'} (S : B -> B' -> Prop) (m : result A) (f : A -> result B) (f' : A -> result B') :
  (forall x, m = Ok x -> both S (f x) (f' x)) -> both S (bind m f) (bind m f').
Proof. destruct m; cbn; [|done]. intros H. by apply H. Qed.
Lemma both_eq {A} (m : result A) : both eq m m.
Proof. by destruct m. Qed.
Lemma both_mono {A B} (R S : A -> B -> Prop) m m' : both R m m' -> (forall x y, m = Ok x -> R x y -> S x y) -> both S m m'.
Proof. destruct m, m'; cbn; try done. auto. Qed.
Lemma both_fmap {A A' B B'} (R : A -> A' -> Prop) (S : B -> B' -> Prop) m m' (f : A -> B) (f' : A' -> B') :
  both R m m' -> (forall x y, R x y -> S (f x) (f' y)) -> both S (fmapR f m) (fmapR f' m').
Proof. destruct m, m'; cbn; try done. auto. Qed.
Lemma both_mapR {A A' B B'} (R : A -> A' -> Prop) (S : B -> B' -> Prop) (f : A -> result B) (f' : A' -> result B') l l' :
  Forall2 R l l' -> (forall x y, x ∈ l -> R x y -> both S (f x) (f' y)) -> both (Forall2 S) (mapR f l) (mapR f' l').
Proof.
  induction 1 as [|x y l l' Hxy _ IH]; intros H; cbn [mapR]; [constructor|].
  eapply both_bind; [apply H; [left|done]|]. intros a b _ Hab. eapply both_bind; [apply IH; intros ? ? ?; apply H; by right|].
  intros u v _ Huv. by constructor.
Qed.
Lemma both_mapR_perm {A B} (f : A -> result B) l l' : l ≡ₚ l' -> both (Permutation) (mapR f l) (mapR f l').
Proof.
  induction 1 as [|x l l' _ IH|x y l|l1 l2 l3 _ IH1 _ IH2]; cbn [mapR].
  - by cbn.
  - destruct (f x); [|done]. cbn [bind]. destruct (mapR f l), (mapR f l'); cbn in *; try done. by constructor.
  - destruct (f x), (f y); try done; cbn [bind]; destruct (mapR f l); cbn; try done. apply perm_swap.
  - destruct (mapR f l1), (mapR f l2), (mapR f l3); cbn in *; try done. by etransitivity.
Qed.
Lemma Permutation_concat_of {A} (l l' : list (list A)) : l ≡ₚ l' -> concat l ≡ₚ concat l'.
Proof.
  induction 1 as [|x l l' _ IH|x y l|l1 l2 l3 _ IH1 _ IH2]; cbn [concat]; [done|by rewrite IH| |by etransitivity].
  rewrite !app_assoc. by rewrite (Permutation_app_comm y x).
Qed.
Lemma concat_Forall2_perm {A} (l l' : list (list A)) : Forall2 Permutation l l' -> concat l ≡ₚ concat l'.
Proof. induction 1 as [|x y l l' H _ IH]; cbn [concat]; [done|]. by rewrite H, IH. Qed.
Lemma both_concat_perm {A B} (f : A -> result (list B)) l l' : l ≡ₚ l' -> both Permutation (concat_mapR f l) (concat_mapR f l').
Proof. intros H. eapply both_fmap; [by apply both_mapR_perm|]. apply Permutation_concat_of. Qed.
Lemma both_concat {A A' B} (R : A -> A' -> Prop) (f : A -> result (list B)) (f' : A' -> result (list B)) l l' :
  Forall2 R l l' -> (forall x y, x ∈ l -> R x y -> both Permutation (f x) (f' y)) ->
  both Permutation (concat_mapR f l) (concat_mapR f' l').
Proof. intros H Hf. eapply both_fmap; [eapply both_mapR; [exact H|exact Hf]|]. apply concat_Forall2_perm. Qed.
Lemma Forall2_concat_of {A B} (S : A -> B -> Prop) l l' : Forall2 (Forall2 S) l l' -> Forall2 S (concat l) (concat l').
Proof. induction 1; cbn [concat]; [constructor|by apply Forall2_app]. Qed.
Lemma both_concat2 {A A' B B'} (R : A -> A' -> Prop) (S : B -> B' -> Prop) (f : A -> result (list B)) (f' : A' -> result (list B')) l l' :
  Forall2 R l l' -> (forall x y, x ∈ l -> R x y -> both (Forall2 S) (f x) (f' y)) ->
  both (Forall2 S) (concat_mapR f l) (concat_mapR f' l').
Proof. intros H Hf. eapply both_fmap; [eapply both_mapR; [exact H|exact Hf]|]. apply Forall2_concat_of. Qed.
Lemma both_filterR {A A'} (R : A -> A' -> Prop) (p : A -> result bool) (p' : A' -> result bool) l l' :
  Forall2 R l l' -> (forall x y, R x y -> p x = p' y) -> both (Forall2 R) (filterR p l) (filterR p' l').
Proof.
  induction 1 as [|x y l l' Hxy _ IH]; intros H; cbn [filterR]; [constructor|]. rewrite (H x y Hxy).
  apply both_same. intros b _. eapply both_bind; [by apply IH|]. intros u v _ Huv. cbn. destruct b; [by constructor|done].
Qed.
Lemma both_filterR_perm {A} (p : A -> result bool) l l' : l ≡ₚ l' -> both Permutation (filterR p l) (filterR p l').
Proof.
  induction 1 as [|x l l' _ IH|x y l|l1 l2 l3 _ IH1 _ IH2]; cbn [filterR].
  - by cbn.
  - destruct (p x) as [b|]; [|done]. cbn [bind]. destruct (filterR p l), (filterR p l'); cbn in *; try done. destruct b; [by constructor|done].
  - destruct (p x) as [b|], (p y) as [b'|]; try done; cbn [bind]; destruct (filterR p l); cbn; try done.
    destruct b, b'; try done. apply perm_swap.
  - destruct (filterR p l1), (filterR p l2), (filterR p l3); cbn in *; try done. by etransitivity.
Qed.
Lemma both_foldR {A A' B B'} (R : A -> A' -> Prop) (S : B -> B' -> Prop) (f : B -> A -> result B) (f' : B' -> A' -> result B') l l' b b' :
  Forall2 R l l' -> S b b' -> (forall x y b b', x ∈ l -> R x y -> S b b' -> both S (f b x) (f' b' y)) ->
  both S (foldR f b l) (foldR f' b' l').
Proof.
  intros H. revert b b'. induction H as [|x y l l' Hxy _ IH]; intros b b' Hb H; cbn [foldR]; [done|].
  eapply both_bind; [apply H; [left|done|done]|]. intros u v _ Huv. apply IH; [done|]. intros ? ? ? ? ?. apply H. by right.
Qed.
Lemma filterb_Forall2 {A A'} (R : A -> A' -> Prop) (p : A -> bool) (p' : A' -> bool) l l' :
  Forall2 R l l' -> (forall x y, R x y -> p x = p' y) -> Forall2 R (filterb p l) (filterb p' l').
Proof.
  unfold filterb. induction 1 as [|x y l l' Hxy _ IH]; intros H; cbn [List.filter]; [constructor|].
  rewrite (H x y Hxy). destruct (p' y); [constructor; auto|auto].
Qed.
Lemma filterb_perm {A} (p : A -> bool) l l' : l ≡ₚ l' -> filterb p l ≡ₚ filterb p l'.
Proof.
  unfold filterb. induction 1 as [|x l l' _ IH|x y l|l1 l2 l3 _ IH1 _ IH2]; cbn [List.filter]; [done| | |by etransitivity].
  - destruct (p x); [by constructor|done].
  - destruct (p x), (p y); try done. apply perm_swap.
Qed.
Lemma last_Forall2 {A A'} (R : A -> A' -> Prop) l l' : Forall2 R l l' ->
  match last l, last l' with Some x, Some y => R x y | None, None => True | _, _ => False end.
Proof.
  induction 1 as [|x y l l' Hxy HF IH]; [done|]. rewrite !last_cons.
  destruct (last l), (last l'); done.
Qed.
Lemma indexed_Forall2 {A A'} (R : A -> A' -> Prop) l l' : Forall2 R l l' ->
  Forall2 (fun p q => p.1 = q.1 /\ R p.2 q.2) (indexed l) (indexed l').
Proof.
  intros H. unfold indexed. enough (forall k, Forall2 (fun p q : nat * _ => p.1 = q.1 /\ R p.2 q.2)
    (imap (fun i x => ((k + i)%nat, x)) l) (imap (fun i x => ((k + i)%nat, x)) l')) as E by apply (E 0%nat).
  induction H as [|x y l l' Hxy _ IH]; intros k; cbn [imap]; constructor; [done|].
  specialize (IH (S k)). erewrite (imap_ext _ (fun i x => ((S k + i)%nat, x)) l), (imap_ext _ (fun i x => ((S k + i)%nat, x)) l'); [done|..];
    intros i z _; cbn; by rewrite Nat.add_succ_r.
Qed.

(** *** Groups *)
Section groups.
Context {K A A' : Type} `{EqDecision K} (R : A -> A' -> Prop).
Definition krel (a : K * A) (b : K * A') : Prop := a.1 = b.1 /\ R a.2 b.2.
Definition grel (g : K * list A) (g' : K * list A') : Prop := g.1 = g'.1 /\ Forall2 R g.2 g'.2.
Lemma group_add_rel k x y gs gs' : R x y -> Forall2 grel gs gs' -> Forall2 grel (group_add k x gs) (group_add k y gs').
Proof.
  intros Hxy. induction 1 as [|[k1 xs] [k2 ys] gs gs' [Hk Hxs] HF IH]; cbn [group_add].
  - constructor; [|constructor]. split; [done|]. by constructor.
  - cbn in Hk, Hxs. subst k2. destruct (decide (k = k1)).
    + constructor; [|done]. split; [done|]. cbn. apply Forall2_app; [done|]. by constructor.
    + by constructor.
Qed.
Lemma groupby_rel l l' : Forall2 krel l l' -> Forall2 grel (groupby l) (groupby l').
Proof.
  unfold groupby. assert (Forall2 grel [] []) as H0 by constructor. revert H0.
  generalize (@nil (K * list A)) (@nil (K * list A')). intros gs gs' H0 H. revert gs gs' H0.
  induction H as [|[k x] [k' y] l l' [Hk Hxy] _ IH]; intros gs gs' H0; cbn [foldl]; [done|].
  cbn in Hk, Hxy. subst k'. apply IH. by apply group_add_rel.
Qed.
End groups.

Section update.
Context {K : Type} `{EqDecision K} (R : dataset -> dataset -> Prop).
Definition prel (p q : nat * dataset) : Prop := p.1 = q.1 /\ R p.2 q.2.
Lemma keyed_rel (key key' : dataset -> result (option K)) data data' :
  Forall2 R data data' -> (forall d d', R d d' -> key d = key' d') ->
  both (Forall2 (krel prel)) (keyed key data) (keyed key' data').
Proof.
  intros H Hk. unfold keyed. eapply both_concat2; [by apply (indexed_Forall2 R)|].
  intros [i d] [j d'] _ [Hi Hd]. cbn in Hi, Hd |- *. subst j. rewrite (Hk d d' Hd). apply both_same. intros [k|] _; cbn; [|constructor].
  constructor; [|constructor]. done.
Qed.
Lemma update_all_rel ups ups' data data' : Forall2 prel ups ups' -> Forall2 R data data' ->
  Forall2 R (update_all ups data) (update_all ups' data').
Proof.
  intros H. revert data data'. unfold update_all. induction H as [|[i d] [j d'] ups ups' [Hi Hd] _ IH]; intros data data' HR; [done|].
  cbn [foldl fst snd] in *. subst j. apply IH. by apply Forall2_insert.
Qed.
Lemma update_groups_rel (key key' : dataset -> result (option K)) f f' data data' :
  Forall2 R data data' -> (forall d d', R d d' -> key d = key' d') ->
  (forall k g g', (forall p, p ∈ g -> p.2 ∈ data) -> Forall2 prel g g' -> both (Forall2 prel) (f k g) (f' k g')) ->
  both (Forall2 R) (update_groups key f data) (update_groups key' f' data').
Proof.
  intros H Hk Hf. unfold update_groups. eapply both_bind; [by apply keyed_rel|]. intros ks ks' Hks Hkk.
  eapply both_bind.
  - eapply both_mapR; [by apply (groupby_rel prel)|]. intros g g' Hg [Hg1 Hg2]. rewrite <- Hg1. apply Hf; [|done].
    intros p Hp. apply keyed_Ok in Hks as (_ & _ & Hw). destruct (groupby_spec ks) as (_ & _ & Hgx). destruct g as [k xs].
    apply Hgx in Hg as [_ ->]. cbn in Hp. rewrite Hw in Hp. destruct p as [i d]. apply elem_of_members in Hp as [Hp _].
    by eapply elem_of_list_lookup_2.
  - intros ups ups' _ Hu. cbn. apply update_all_rel; [|done]. by apply Forall2_concat_of.
Qed.
End update.
