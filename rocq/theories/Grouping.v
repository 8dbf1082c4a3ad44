(** [toolz.groupby] as used by Ocelot: a dictionary from keys to the lists of
    elements with that key, in order of first appearance of the key. *)
From Verif Require Import Base.

Section groupby.
Context {K A : Type} `{EqDecision K}.

Fixpoint group_add (k : K) (x : A) (groups : list (K * list A)) : list (K * list A) :=
  match groups with
  | [] => [(k, [x])]
  | (k', xs) :: groups =>
      if decide (k = k') then (k', xs ++ [x]) :: groups
      else (k', xs) :: group_add k x groups
  end.

(** [toolz.groupby(key, seq)] with the keys already computed. *)
Definition groupby (l : list (K * A)) : list (K * list A) :=
  foldl (fun groups kx => group_add kx.1 kx.2 groups) [] l.

(** The elements of [l] with key [k], in order. *)
Definition with_key (k : K) (l : list (K * A)) : list A :=
  map snd (filter (fun kx => kx.1 = k) l).
Local Arguments with_key : simpl never.

Lemma group_add_in k x groups k' xs :
  NoDup (map fst groups) ->
  (k', xs) ∈ group_add k x groups <->
  (k' <> k /\ (k', xs) ∈ groups) \/
  (k' = k /\ exists ys, xs = ys ++ [x] /\
     ((k, ys) ∈ groups \/ (ys = [] /\ k ∉ map fst groups))).
Proof.
  induction groups as [|[k0 ys] groups IH]; intros Hnd; cbn.
  - rewrite elem_of_list_singleton. split.
    + intros [= -> ->]. right. split; [done|]. exists []. split; [done|].
      right. split; [done|]. apply not_elem_of_nil.
    + intros [[_ H]|[-> (ys & -> & [H|[-> _]])]]; try by apply elem_of_nil in H. done.
  - cbn in Hnd. apply NoDup_cons in Hnd as [Hk0 Hnd].
    destruct (decide (k = k0)) as [<-|Hne].
    + rewrite elem_of_cons. split.
      * intros [[= -> ->]|H].
        -- right. split; [done|]. exists ys. split; [done|]. left. by left.
        -- left. split.
           { intros ->. apply Hk0. apply elem_of_list_fmap. by exists (k, xs). }
           by right.
      * intros [[Hne H]|[-> (zs & -> & [H|[_ H]])]].
        -- apply elem_of_cons in H as [[= -> ->]|H]; [done|by right].
        -- apply elem_of_cons in H as [[= ->]|H]; [by left|].
           exfalso. apply Hk0. apply elem_of_list_fmap. by exists (k, zs).
        -- exfalso. apply H. by left.
    + rewrite !elem_of_cons, (IH Hnd). split.
      * intros [[= -> ->]|[[H1 H2]|[-> (zs & -> & [H|[-> H]])]]].
        -- left. split; [done|by left].
        -- left. split; [done|by right].
        -- right. split; [done|]. exists zs. split; [done|]. left. by right.
        -- right. split; [done|]. exists []. split; [done|]. right. split; [done|].
           rewrite elem_of_cons. by intros [|].
      * intros [[H1 [[= -> ->]|H2]]|[-> (zs & -> & [H|[-> H]])]].
        -- by left.
        -- right. by left.
        -- apply elem_of_cons in H as [[= -> ->]|H]; [done|].
           right. right. split; [done|]. exists zs. split; [done|by left].
        -- right. right. split; [done|]. exists []. split; [done|]. right. split; [done|].
           intros H'. apply H. by right.
Qed.

Lemma group_add_keys k x groups :
  map fst (group_add k x groups) =
  map fst groups ++ (if decide (k ∈ map fst groups) then [] else [k]).
Proof.
  induction groups as [|[k0 ys] groups IH]; cbn.
  - by rewrite decide_False by apply not_elem_of_nil.
  - destruct (decide (k = k0)) as [<-|Hne]; cbn.
    + rewrite decide_True by by left. by rewrite app_nil_r.
    + rewrite IH. f_equal. destruct (decide (k ∈ map fst groups)) as [H|H].
      * by rewrite decide_True by by right.
      * rewrite decide_False; [done|]. rewrite elem_of_cons. by intros [|].
Qed.

Lemma with_key_app k l1 l2 : with_key k (l1 ++ l2) = with_key k l1 ++ with_key k l2.
Proof. unfold with_key. by rewrite filter_app, map_app. Qed.
Lemma with_key_nil k l : k ∉ map fst l -> with_key k l = [].
Proof.
  induction l as [|[k0 x] l IH]; intros H; [done|].
  apply not_elem_of_cons in H as [H1 H2]. unfold with_key in *. cbn in H1.
  rewrite filter_cons_False by (cbn; congruence). by apply IH.
Qed.
Lemma with_key_nonempty k l : k ∈ map fst l -> with_key k l <> [].
Proof.
  intros H. apply elem_of_list_fmap in H as ([k0 x] & -> & H). cbn. intros E.
  assert (x ∈ with_key k0 l) as Hx.
  { unfold with_key. apply elem_of_list_fmap. exists (k0, x). split; [done|].
    by apply elem_of_list_filter. }
  rewrite E in Hx. by apply elem_of_nil in Hx.
Qed.

(** The groups: one per key, with all elements having that key in order. *)
Lemma groupby_spec l :
  NoDup (map fst (groupby l)) /\
  (forall k, k ∈ map fst (groupby l) <-> k ∈ map fst l) /\
  (forall k xs, (k, xs) ∈ groupby l <-> k ∈ map fst l /\ xs = with_key k l).
Proof.
  unfold groupby. induction l as [|[k x] l IH] using rev_ind; cbn.
  - split; [constructor|]. split; [done|]. intros k xs. split.
    + by intros H%elem_of_nil.
    + by intros [H%elem_of_nil _].
  - rewrite foldl_app. cbn.
    set (g := foldl _ [] l) in *. destruct IH as (Hnd & Hk & Hx).
    assert (forall k', k' ∈ map fst (group_add k x g) <-> k' ∈ map fst (l ++ [(k, x)])) as Hk'.
    { intros k'. rewrite group_add_keys, map_app, !elem_of_app, Hk. cbn.
      destruct (decide (k ∈ map fst g)) as [H|H].
      - rewrite elem_of_nil, elem_of_list_singleton. split; [intuition|].
        intros [H0| ->]; [by left|]. left. by apply Hk.
      - done. }
    split; [|split; [done|]].
    + rewrite group_add_keys. destruct (decide (k ∈ map fst g)); [by rewrite app_nil_r|].
      apply NoDup_app. split; [done|]. split; [|apply NoDup_singleton].
      intros k' Hk1 ->%elem_of_list_singleton. done.
    + intros k' xs. rewrite group_add_in by done. rewrite map_app, elem_of_app, with_key_app.
      cbn. rewrite elem_of_list_singleton.
      destruct (decide (k' = k)) as [->|Hne].
      * assert (with_key k [(k, x)] = [x]) as ->.
        { unfold with_key. by rewrite filter_cons_True, filter_nil by done. }
        split.
        -- intros [[? _]|[_ (ys & -> & [H|[-> H]])]]; [done| |].
           ++ apply Hx in H as [_ ->]. split; [by right|done].
           ++ split; [by right|]. rewrite with_key_nil; [done|]. by rewrite <- Hk.
        -- intros [_ ->]. right. split; [done|]. exists (with_key k l). split; [done|].
           destruct (decide (k ∈ map fst l)) as [H|H].
           ++ left. apply Hx. done.
           ++ right. split; [by apply with_key_nil|]. by rewrite Hk.
      * assert (with_key k' [(k, x)] = []) as ->.
        { unfold with_key. rewrite filter_cons_False by (cbn; congruence). done. }
        rewrite app_nil_r, Hx. split.
        -- intros [[_ [H1 H2]]|[? _]]; [|done]. split; [by left|done].
        -- intros [[H1|H1] H2]; [|done]. by left.
Qed.

(** Nothing is lost: the concatenated groups are a permutation of the input. *)
Lemma group_add_perm k x groups :
  concat (map snd (group_add k x groups)) ≡ₚ x :: concat (map snd groups).
Proof.
  induction groups as [|[k0 ys] groups IH]; cbn; [done|].
  destruct (decide (k = k0)); cbn.
  - rewrite <- app_assoc. cbn. by rewrite Permutation_middle.
  - rewrite IH. by rewrite Permutation_middle.
Qed.
Lemma groupby_perm l : concat (map snd (groupby l)) ≡ₚ map snd l.
Proof.
  unfold groupby. induction l as [|[k x] l IH] using rev_ind; [done|].
  rewrite foldl_app. cbn. rewrite group_add_perm, map_app, IH. cbn.
  by rewrite Permutation_app_comm.
Qed.
End groupby.

Global Arguments groupby : simpl never.
Global Arguments with_key : simpl never.
