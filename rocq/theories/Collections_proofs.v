(** Proofs for C81. *)
From Verif Require Import Base Types Runner Collections Spec_Collections.

Section proofs.
Context {T : Type} `{EqDecision T}.
Implicit Types (l : list T) (i : Z).

Lemma position_spec n i j : position n i = Some j <-> (j < n)%nat /\ (i = Z.of_nat j \/ i = Z.of_nat j - Z.of_nat n)%Z.
Proof.
  unfold position. destruct (Z.ltb_spec i 0) as [Hi|Hi].
  - destruct (Z.leb_spec 0 (i + Z.of_nat n)) as [H1|H1]; destruct (Z.ltb_spec (i + Z.of_nat n) (Z.of_nat n)) as [H2|H2]; cbn;
      (split; [intros H; try discriminate H; injection H as <-; lia|intros [H [E|E]]; subst i; try lia; f_equal; lia]).
  - destruct (Z.leb_spec 0 i) as [H1|H1]; destruct (Z.ltb_spec i (Z.of_nat n)) as [H2|H2]; cbn;
      (split; [intros H; try discriminate H; injection H as <-; lia|intros [H [E|E]]; subst i; try lia; f_equal; lia]).
Qed.
Lemma position_none n i : position n i = None <-> (i < - Z.of_nat n \/ Z.of_nat n <= i)%Z.
Proof.
  unfold position. destruct (Z.ltb_spec i 0) as [Hi|Hi].
  - destruct (Z.leb_spec 0 (i + Z.of_nat n)) as [H1|H1]; destruct (Z.ltb_spec (i + Z.of_nat n) (Z.of_nat n)) as [H2|H2]; cbn;
      (split; [intros H; try discriminate H; lia|intros H; try done; lia]).
  - destruct (Z.leb_spec 0 i) as [H1|H1]; destruct (Z.ltb_spec i (Z.of_nat n)) as [H2|H2]; cbn;
      (split; [intros H; try discriminate H; lia|intros H; try done; lia]).
Qed.
Lemma position_at l1 x l2 i : at_index i l1 l2 -> position (length (l1 ++ x :: l2)) i = Some (length l1).
Proof. intros H. apply position_spec. rewrite app_length. cbn [length]. destruct H as [->| ->]; lia. Qed.
Lemma at_position l i j : position (length l) i = Some j -> exists l1 x l2, l = l1 ++ x :: l2 /\ length l1 = j /\ at_index i l1 l2.
Proof.
  intros [Hj H]%position_spec. destruct (lookup_lt_is_Some_2 l j Hj) as [x Hx]. apply elem_of_list_split_length in Hx as (l1 & l2 & -> & ->).
  exists l1, x, l2. split; [done|]. split; [done|]. rewrite app_length in H. cbn [length] in H. unfold at_index. lia.
Qed.
Lemma get_at l1 x l2 i : at_index i l1 l2 -> getitem (l1 ++ x :: l2) i = Ok x.
Proof. intros H. unfold getitem. rewrite (position_at _ _ _ _ H). by rewrite list_lookup_middle. Qed.
Lemma getitem_spec l i x : getitem l i = Ok x <-> exists l1 l2, l = l1 ++ x :: l2 /\ at_index i l1 l2.
Proof.
  split.
  - unfold getitem. destruct (position (length l) i) as [j|] eqn:E; [|done]. apply at_position in E as (l1 & y & l2 & -> & <- & H).
    rewrite list_lookup_middle by done. intros E%Ok_inj. subst y. by exists l1, l2.
  - intros (l1 & l2 & -> & H). by apply get_at.
Qed.
Lemma getitem_err l i e : getitem l i = Err e <-> e = IndexError /\ (i < - Z.of_nat (length l) \/ Z.of_nat (length l) <= i)%Z.
Proof.
  unfold getitem. destruct (position (length l) i) as [j|] eqn:E.
  - split.
    + apply position_spec in E as [Hj _]. destruct (lookup_lt_is_Some_2 l j Hj) as [x ->]. done.
    + intros [_ H%position_none]. by rewrite E in H.
  - apply position_none in E. split; [intros [= <-]; done|by intros [-> _]].
Qed.
Lemma middle_parts (l1 : list T) x l2 : take (length l1) (l1 ++ x :: l2) = l1 /\ drop (S (length l1)) (l1 ++ x :: l2) = l2.
Proof.
  split; [by rewrite take_app|]. rewrite <- Nat.add_1_r, <- drop_drop, drop_app. done.
Qed.
Lemma set_at l1 x l2 i y : at_index i l1 l2 -> setitem (l1 ++ x :: l2) i y = Ok (l1 ++ y :: l2).
Proof. intros H. unfold setitem. rewrite (position_at _ _ _ _ H). by destruct (middle_parts l1 x l2) as [-> ->]. Qed.
Lemma setitem_spec l i y l' : setitem l i y = Ok l' <-> exists l1 x l2, l = l1 ++ x :: l2 /\ at_index i l1 l2 /\ l' = l1 ++ y :: l2.
Proof.
  split.
  - intros H. destruct (position (length l) i) as [j|] eqn:E; [|unfold setitem in H; by rewrite E in H].
    apply at_position in E as (l1 & x & l2 & -> & _ & Hi). rewrite (set_at _ _ _ _ _ Hi) in H. apply Ok_inj in H as <-. by exists l1, x, l2.
  - intros (l1 & x & l2 & -> & Hi & ->). by apply set_at.
Qed.
Lemma del_at l1 x l2 i : at_index i l1 l2 -> delitem (l1 ++ x :: l2) i = Ok (l1 ++ l2).
Proof. intros H. unfold delitem. rewrite (position_at _ _ _ _ H). by destruct (middle_parts l1 x l2) as [-> ->]. Qed.
Lemma delitem_spec l i l' : delitem l i = Ok l' <-> exists l1 x l2, l = l1 ++ x :: l2 /\ at_index i l1 l2 /\ l' = l1 ++ l2.
Proof.
  split.
  - intros H. destruct (position (length l) i) as [j|] eqn:E; [|unfold delitem in H; by rewrite E in H].
    apply at_position in E as (l1 & x & l2 & -> & _ & Hi). rewrite (del_at _ _ _ _ Hi) in H. apply Ok_inj in H as <-. by exists l1, x, l2.
  - intros (l1 & x & l2 & -> & Hi & ->). by apply del_at.
Qed.
Lemma write_err l i y e : (setitem l i y = Err e <-> getitem l i = Err e) /\ (delitem l i = Err e <-> getitem l i = Err e).
Proof.
  unfold setitem, delitem, getitem. destruct (position (length l) i) as [j|] eqn:E.
  - apply position_spec in E as [Hj _]. destruct (lookup_lt_is_Some_2 l j Hj) as [x ->]. repeat split; intros H; discriminate H.
  - repeat split; intros H; injection H as <-; done.
Qed.
Lemma cut_spec n i : (cut n i <= n)%nat /\ ((0 <= i)%Z -> cut n i = (Z.to_nat i `min` n)%nat) /\ ((i < 0)%Z -> (n - cut n i = Z.to_nat (- i) `min` n)%nat).
Proof. unfold cut. destruct (Z.ltb_spec i 0); lia. Qed.
Lemma insert_spec l i x : exists l1 l2, l = l1 ++ l2 /\ insert_at l i x = l1 ++ x :: l2 /\
  ((0 <= i)%Z -> length l1 = (Z.to_nat i `min` length l)%nat) /\ ((i < 0)%Z -> length l2 = (Z.to_nat (- i) `min` length l)%nat).
Proof.
  destruct (cut_spec (length l) i) as (H1 & H2 & H3). exists (take (cut (length l) i) l), (drop (cut (length l) i) l).
  split; [by rewrite take_drop|]. split; [done|]. rewrite take_length, drop_length. split; intros H; [rewrite H2|rewrite H3]; lia.
Qed.
Lemma append_spec l x : append l x = l ++ [x].
Proof.
  unfold append. destruct (insert_spec l (Z.of_nat (length l)) x) as (l1 & l2 & E & -> & H & _). specialize (H (Nat2Z.is_nonneg _)).
  rewrite Nat2Z.id, Nat.min_id in H. assert (l2 = []) as ->.
  { apply nil_length_inv. apply (f_equal length) in E. rewrite app_length in E. lia. }
  by rewrite E, app_nil_r.
Qed.
Lemma extend_spec values : forall l, extend l values = l ++ values.
Proof.
  induction values as [|x values IH]; intros l; [by rewrite app_nil_r|]. unfold extend in *. cbn [fold_left]. rewrite IH, append_spec.
  by rewrite <- app_assoc.
Qed.
Lemma pop_spec l i x l' : pop l i = Ok (x, l') <-> exists l1 l2, l = l1 ++ x :: l2 /\ at_index i l1 l2 /\ l' = l1 ++ l2.
Proof.
  unfold pop. split.
  - intros H. apply bind_Ok in H as (y & (l1 & l2 & -> & Hi)%getitem_spec & H). rewrite (del_at _ _ _ _ Hi) in H. cbn [bind] in H.
    apply Ok_inj in H. injection H as <- <-. by exists l1, l2.
  - intros (l1 & l2 & -> & Hi & ->). rewrite (get_at _ _ _ _ Hi). cbn [bind]. by rewrite (del_at _ _ _ _ Hi).
Qed.
Lemma pop_last l x : pop (l ++ [x]) (-1) = Ok (x, l).
Proof. apply pop_spec. exists l, []. split; [done|]. rewrite app_nil_r. split; [by right|done]. Qed.
Lemma pop_append l x : pop (append l x) (-1) = Ok (x, l).
Proof. rewrite append_spec. apply pop_last. Qed.
Lemma clear_spec n : forall l, (length l <= n)%nat -> clear n l = [].
Proof.
  induction n as [|n IH]; intros l Hn; [destruct l; [done|cbn in Hn; lia]|]. cbn [clear].
  destruct l as [|x l' _] using rev_ind; [done|].
  rewrite pop_last. apply IH. rewrite app_length in Hn. cbn in Hn. lia.
Qed.
Lemma swap_spec l1 x l2 y l3 : swap (l1 ++ x :: l2 ++ y :: l3) (Z.of_nat (length l1)) (Z.of_nat (length l1 + S (length l2))) = Ok (l1 ++ y :: l2 ++ x :: l3).
Proof.
  unfold swap. assert (forall a b, l1 ++ a :: l2 ++ b :: l3 = (l1 ++ a :: l2) ++ b :: l3) as E by (intros; by rewrite <- app_assoc).
  rewrite E, get_at. 2:{ left. rewrite app_length. cbn [length]. lia. } cbn [bind]. rewrite <- E, get_at by (by left). cbn [bind].
  rewrite set_at by (by left). cbn [bind]. rewrite E, set_at. 2:{ left. rewrite app_length. cbn [length]. lia. } by rewrite <- E.
Qed.
(** The outer [k] items have been swapped. *)
Lemma reverse_steps N m : forall a l b k, length a = k -> length b = k -> N = (2 * k + length l)%nat -> (m = length l / 2)%nat ->
  foldR (fun l' (j : nat) => swap l' (Z.of_nat j) (Z.of_nat N - Z.of_nat j - 1)) (a ++ l ++ b) (seq k m) = Ok (a ++ rev l ++ b).
Proof.
  induction m as [|m IH]; intros a l b k Ha Hb HN Hm.
  - cbn [seq foldR]. destruct l as [|x [|y l]]; [done|done|]. exfalso. cbn [length] in Hm.
    assert (S (S (length l)) = length l + 1 * 2)%nat as E by lia. rewrite E, Nat.div_add in Hm by done. lia.
  - destruct l as [|x l]; [done|]. destruct l as [|y l' _] using rev_ind; [done|].
    cbn [seq foldR]. cbn [length] in HN, Hm. rewrite app_length in HN, Hm. cbn [length] in HN, Hm.
    assert (m = length l' / 2)%nat as Hm'.
    { assert (S (length l' + 1) = length l' + 1 * 2)%nat as E by lia. rewrite E, Nat.div_add in Hm by done. lia. }
    assert (Z.of_nat N - Z.of_nat k - 1 = Z.of_nat (length a + S (length l')))%Z as -> by lia.
    rewrite <- Ha at 1. assert (a ++ (x :: l' ++ [y]) ++ b = a ++ x :: l' ++ y :: b) as -> by (cbn; by rewrite <- app_assoc).
    rewrite swap_spec. cbn [bind].
    assert (a ++ y :: l' ++ x :: b = (a ++ [y]) ++ l' ++ (x :: b)) as -> by (by rewrite <- app_assoc).
    rewrite (IH (a ++ [y]) l' (x :: b) (S k)).
    + f_equal. cbn [rev]. rewrite rev_app_distr. cbn [rev app]. rewrite <- !app_assoc. done.
    + rewrite app_length. cbn. lia.
    + cbn. lia.
    + lia.
    + done.
Qed.
Lemma reverse_spec l : reverse l = Ok (rev l).
Proof.
  unfold reverse. pose proof (reverse_steps (length l) (length l / 2) [] l [] 0 eq_refl eq_refl) as H. cbn [app] in H. rewrite !app_nil_r in H.
  by apply H.
Qed.
Lemma index_from_spec x l2 : forall n l1 i, x ∉ l1 -> (length l2 < n)%nat ->
  index_from n (l1 ++ l2) x (Z.of_nat (length l1)) = Ok i <-> exists a b, l2 = a ++ x :: b /\ x ∉ a /\ i = Z.of_nat (length l1 + length a).
Proof.
  induction l2 as [|y l2 IH]; intros n l1 i Hx Hn; (destruct n as [|n]; [cbn in Hn; lia|]); cbn [index_from].
  - assert (getitem (l1 ++ []) (Z.of_nat (length l1)) = Err IndexError) as ->.
    { apply getitem_err. split; [done|]. rewrite app_nil_r. lia. }
    split; [done|]. intros (a & b & E & _). by destruct a.
  - rewrite get_at by (by left). destruct (decide (y = x)) as [->|Hy].
    + split.
      * intros <-%Ok_inj. exists [], l2. split; [done|]. split; [by apply not_elem_of_nil|]. cbn. f_equal. lia.
      * intros (a & b & E & Ha & ->). destruct a as [|z a]; [cbn; by rewrite Nat.add_0_r|]. injection E as <- _. exfalso. apply Ha. by constructor.
    + assert (l1 ++ y :: l2 = (l1 ++ [y]) ++ l2) as -> by (by rewrite <- app_assoc).
      assert (Z.of_nat (length l1) + 1 = Z.of_nat (length (l1 ++ [y])))%Z as -> by (rewrite app_length; cbn; lia).
      rewrite IH.
      * split.
        -- intros (a & b & -> & Ha & ->). exists (y :: a), b. split; [done|]. split; [by apply not_elem_of_cons|]. rewrite app_length. cbn. f_equal. lia.
        -- intros (a & b & E & Ha & ->). destruct a as [|z a]; [by injection E as -> _|]. injection E as <- ->. exists a, b. split; [done|].
           apply not_elem_of_cons in Ha as [_ Ha]. split; [done|]. rewrite app_length. cbn. f_equal. lia.
      * rewrite elem_of_app, elem_of_list_singleton. intros [H|H]; [done|]. by apply Hy.
      * cbn in Hn. lia.
Qed.
Lemma index_spec l x i : index l x = Ok i <-> exists a b, l = a ++ x :: b /\ x ∉ a /\ i = Z.of_nat (length a).
Proof. unfold index. apply (index_from_spec x l (S (length l)) [] i); [by apply not_elem_of_nil|lia]. Qed.
Lemma index_err l x : (exists i, index l x = Ok i) <-> x ∈ l.
Proof.
  split.
  - intros (i & (a & b & -> & _)%index_spec). apply elem_of_app. right. by constructor.
  - intros H. apply elem_of_list_split_l in H as (a & b & -> & Ha). exists (Z.of_nat (length a)). apply index_spec. by exists a, b.
Qed.
Lemma remove_spec l x l' : remove l x = Ok l' <-> exists a b, l = a ++ x :: b /\ x ∉ a /\ l' = a ++ b.
Proof.
  unfold remove. split.
  - intros H. apply bind_Ok in H as (i & (a & b & -> & Ha & ->)%index_spec & H). rewrite del_at in H by (by left). apply Ok_inj in H as <-. by exists a, b.
  - intros (a & b & -> & Ha & ->). assert (index (a ++ x :: b) x = Ok (Z.of_nat (length a))) as -> by (apply index_spec; by exists a, b).
    cbn [bind]. by rewrite del_at by (by left).
Qed.
End proofs.

(** Calling a collection. *)
Section call.
Context {A : Type}.
Implicit Types (l : list (item A)).
Lemma call_nil data : call (Iterable true []) data = Ok (data, []) :> result (list A * list message).
Proof. done. Qed.
Lemma call_app l1 : forall l2 data, call (Iterable true (l1 ++ l2)) data =
  (let? (d, m) := call (Iterable true l1) data in let? (d', m') := call (Iterable true l2) d in Ok (d', m ++ m')).
Proof.
  induction l1 as [|i l1 IH]; intros l2 data.
  - cbn [app]. rewrite call_nil. cbn [bind]. destruct (call (Iterable true l2) data) as [[d m]|e]; done.
  - change (call (Iterable true ((i :: l1) ++ l2)) data) with
      (let? (data, ms) := call i data in let? (data, ms') := call (Iterable true (l1 ++ l2)) data in Ok (data, ms ++ ms')).
    change (call (Iterable true (i :: l1)) data) with
      (let? (data, ms) := call i data in let? (data, ms') := call (Iterable true l1) data in Ok (data, ms ++ ms')).
    destruct (call i data) as [[d m]|e]; [|done]. cbn [bind]. rewrite IH. destruct (call (Iterable true l1) d) as [[d1 m1]|e]; [|done]. cbn [bind].
    destruct (call (Iterable true l2) d1) as [[d2 m2]|e]; [|done]. cbn [bind]. by rewrite app_assoc.
Qed.
Lemma call_one i (data : list A) : call (Iterable true [i]) data = call i data.
Proof.
  change (call (Iterable true [i]) data) with (let? (data, ms) := call i data in let? (data, ms') := call (Iterable true []) data in Ok (data, ms ++ ms')).
  destruct (call i data) as [[d m]|e]; [|done]. cbn [bind]. rewrite call_nil. cbn [bind]. by rewrite app_nil_r.
Qed.
Lemma call_middle l1 i l2 data : call (Iterable true (l1 ++ i :: l2)) data =
  (let? (d1, m1) := call (Iterable true l1) data in let? (d2, m2) := call i d1 in let? (d3, m3) := call (Iterable true l2) d2 in Ok (d3, m1 ++ m2 ++ m3)).
Proof.
  rewrite call_app. destruct (call (Iterable true l1) data) as [[d1 m1]|e]; [|done]. cbn [bind]. change (i :: l2) with ([i] ++ l2).
  rewrite call_app, call_one. destruct (call i d1) as [[d2 m2]|e]; [|done]. cbn [bind].
  destruct (call (Iterable true l2) d2) as [[d3 m3]|e]; done.
Qed.
Lemma insert_agrees n obj l : collection_insert n obj (Iterable true l) = Ok (Iterable true (insert_at l (Z.of_nat n) obj)).
Proof.
  unfold collection_insert, insert_at. do 2 f_equal. destruct (cut_spec (length l) (Z.of_nat n)) as (_ & H & _). rewrite H by lia. rewrite Nat2Z.id.
  destruct (Nat.min_spec n (length l)) as [[_ ->]|[H1 ->]]; [done|]. by rewrite !take_ge, !drop_ge by lia.
Qed.
End call.
