From stdpp Require Import gmap.
From Verif Require Import Base Grouping Types Uncertainty Utils Validation Cutoff Heap Spec_Heap.

(** ** What may change *)
Lemma only_refl n F h : wf h -> only n F h h.
Proof. intros. split_and!; [done|lia|done]. Qed.
Lemma only_weaken n n' F F' h h' : only n' F' h h' -> (n <= n')%nat -> (forall x, x ∈ F' -> x ∈ F \/ (n <= x)%nat) -> only n F h h'.
Proof.
  intros (Hw & Hn & Ho) Hle HF. split_and!; [done..|]. intros x Hx HxF. apply Ho; [lia|]. intros Hin. destruct (HF x Hin); [done|lia].
Qed.
Lemma only_trans n F h1 h2 h3 : only n F h1 h2 -> only n F h2 h3 -> only n F h1 h3.
Proof.
  intros (Hw & Hn & Ho) (Hw' & Hn' & Ho'). split_and!; [done|lia|]. intros x Hx HxF. rewrite Ho' by done. by apply Ho.
Qed.

Lemma holds_lt h x e : wf h -> holds h x e -> (x < next h)%nat.
Proof. intros Hw H. apply Hw. by eexists. Qed.
Lemma holds_only n F h h' x e : only n F h h' -> (x < n)%nat -> x ∉ F -> holds h x e -> holds h' x e.
Proof. intros (_ & _ & Ho) Hx HF H. unfold holds. rewrite Ho; done. Qed.
Lemma Forall2_holds_lt h xs es : wf h -> Forall2 (holds h) xs es -> forall x, x ∈ xs -> (x < next h)%nat.
Proof.
  intros Hw H x Hx. apply elem_of_list_lookup in Hx as [i Hi]. destruct (Forall2_lookup_l _ _ _ _ _ H Hi) as (e & _ & He).
  by eapply holds_lt.
Qed.
Lemma Forall2_holds_only n F h h' xs es : only n F h h' -> (forall x, x ∈ xs -> (x < n)%nat /\ x ∉ F) ->
  Forall2 (holds h) xs es -> Forall2 (holds h') xs es.
Proof.
  intros Ho Hx H. induction H as [|x e xs es H _ IH]; constructor.
  - destruct (Hx x ltac:(by left)). by eapply holds_only.
  - apply IH. intros y Hy. apply Hx. by right.
Qed.
Lemma stands_lt h F a ds x : wf h -> stands h F a ds -> x ∈ F -> (x < next h)%nat.
Proof.
  intros Hw (exs & -> & Ha & He) Hx. apply elem_of_cons in Hx as [-> |Hx]; [apply Hw; by eexists|]. by eapply Forall2_holds_lt.
Qed.
Lemma stands_only n F' h h' F a ds : only n F' h h' -> (forall x, x ∈ F -> (x < n)%nat /\ x ∉ F') -> stands h F a ds -> stands h' F a ds.
Proof.
  intros Ho HF (exs & -> & Ha & He). exists exs. split; [done|]. split.
  - destruct Ho as (_ & _ & Ho). destruct (HF a ltac:(by left)). by rewrite Ho.
  - eapply Forall2_holds_only; [exact Ho| |exact He]. intros x Hx. apply HF. by right.
Qed.

(** ** Programs *)
Lemma does_weaken {A B} n n' F F' (m : M A) (v : result B) (R R' : heap -> A -> B -> Prop) h :
  does n' F' m v R h -> (n <= n')%nat -> (forall x, x ∈ F' -> x ∈ F \/ (n <= x)%nat) ->
  (forall h' a b, only n' F' h h' -> R h' a b -> R' h' a b) -> does n F m v R' h.
Proof.
  intros (r & h' & Hm & Ho & HR) Hn HF HRR. exists r, h'. split; [done|]. split; [by eapply only_weaken|].
  destruct v as [b|]; [|done]. destruct HR as (a & -> & HR). exists a. split; [done|]. by apply HRR.
Qed.
Lemma does_bind {A B C D} n1 F1 n F (m : M A) (k : A -> M C) (v : result B) (kv : B -> result D)
    (R : heap -> A -> B -> Prop) (R' : heap -> C -> D -> Prop) h :
  does n1 F1 m v R h -> (n <= n1)%nat -> (forall x, x ∈ F1 -> x ∈ F \/ (n <= x)%nat) ->
  (forall a b h', only n1 F1 h h' -> R h' a b -> does n F (k a) (kv b) R' h') ->
  does n F (bindM m k) (bind v kv) R' h.
Proof.
  intros (r & h' & Hm & Ho & HR) Hn HF Hk. unfold does, bindM. rewrite Hm. destruct v as [b|e]; cbn [bind].
  - destruct HR as (a & -> & HR). destruct (Hk a b h' Ho HR) as (r2 & h2 & Hk2 & Ho2 & HR2). exists r2, h2. split; [done|].
    split; [|done]. eapply only_trans; [|exact Ho2]. by eapply only_weaken.
  - rewrite HR. exists (Err e), h'. split; [done|]. split; [by eapply only_weaken|done].
Qed.
(** A step that has no counterpart. *)
Lemma does_step {A B C D} n1 F1 n F (m : M A) (k : A -> M C) (b : B) (v : result D)
    (R : heap -> A -> B -> Prop) (R' : heap -> C -> D -> Prop) h :
  does n1 F1 m (Ok b) R h -> (n <= n1)%nat -> (forall x, x ∈ F1 -> x ∈ F \/ (n <= x)%nat) ->
  (forall a h', only n1 F1 h h' -> R h' a b -> does n F (k a) v R' h') ->
  does n F (bindM m k) v R' h.
Proof.
  intros (r & h' & Hm & Ho & a & -> & HR) Hn HF Hk. unfold does, bindM. rewrite Hm.
  destruct (Hk a h' Ho HR) as (r2 & h2 & Hk2 & Ho2 & HR2). exists r2, h2. split; [done|].
  split; [|done]. eapply only_trans; [|exact Ho2]. by eapply only_weaken.
Qed.
Lemma does_ret {A B} n F (a : A) (b : B) (R : heap -> A -> B -> Prop) h : wf h -> R h a b -> does n F (retM a) (Ok b) R h.
Proof. intros Hw HR. exists (Ok a), h. split; [done|]. split; [by apply only_refl|]. by exists a. Qed.
Lemma does_err {A B} n F e (R : heap -> A -> B -> Prop) h : wf h -> does n F (lift (Err e) : M A) (Err e) R h.
Proof. intros Hw. exists (Err e), h. split; [done|]. split; [by apply only_refl|done]. Qed.
(** Computing without objects. *)
Lemma does_lift {A C D} n F (v : result A) (k : A -> M C) (kv : A -> result D) (R' : heap -> C -> D -> Prop) h : wf h ->
  (forall a, v = Ok a -> does n F (k a) (kv a) R' h) -> does n F (bindM (lift v) k) (bind v kv) R' h.
Proof.
  intros Hw Hk. unfold does, bindM, lift. destruct v as [a|e]; cbn [bind]; [by apply Hk|].
  exists (Err e), h. split; [done|]. split; [by apply only_refl|done].
Qed.
(** Reading. *)
Lemma does_read {A C D} n F (m : M A) (k : A -> M C) (a : A) (v : result D) (R' : heap -> C -> D -> Prop) h :
  m h = (Ok a, h) -> does n F (k a) v R' h -> does n F (bindM m k) v R' h.
Proof. intros Hm Hk. unfold does, bindM. by rewrite Hm. Qed.
Lemma getE_eq h x e : holds h x e -> getE x h = (Ok e, h).
Proof. unfold holds, getE. by intros ->. Qed.
Lemma getD_eq h F a ds : stands h F a ds -> exists exs, F = a :: exs /\ getD a h = (Ok (set_d_exchanges [] ds, exs), h) /\
  Forall2 (holds h) exs (d_exchanges ds).
Proof. intros (exs & -> & Ha & He). exists exs. split; [done|]. split; [|done]. unfold getD. by rewrite Ha. Qed.
Lemma mapM_getE h xs es : Forall2 (holds h) xs es -> mapM getE xs h = (Ok es, h).
Proof.
  induction 1 as [|x e xs es H _ IH]; [done|]. cbn [mapM]. unfold bindM. rewrite (getE_eq _ _ _ H), IH. done.
Qed.
Lemma readD_eq h F a ds : stands h F a ds -> readD a h = (Ok ds, h).
Proof.
  intros H. destruct (getD_eq _ _ _ _ H) as (exs & -> & Hg & He). unfold readD, bindM. rewrite Hg. cbn [snd].
  rewrite (mapM_getE _ _ _ He). unfold retM. cbn [fst]. do 2 f_equal. by destruct ds.
Qed.
(** The addresses of the selected exchanges, in order and once for each time. *)
Definition selected (h : heap) (p : exchange -> result bool) (xs ys : list nat) : Prop :=
  sublist ys xs /\ forall y e, holds h y e -> (y ∈ ys <-> y ∈ xs /\ p e = Ok true).
Lemma selectM_spec p h xs es : wf h -> Forall2 (holds h) xs es ->
  does (next h) [] (selectM p xs) (filterR p es) (fun h' ys fs => h' = h /\ Forall2 (holds h) ys fs /\ selected h p xs ys) h.
Proof.
  intros Hw. induction 1 as [|x e xs es H _ IH]; cbn [selectM filterR].
  { apply does_ret; [done|]. split_and!; [done|done|]. split; [done|]. intros y e _. set_solver. }
  eapply does_read; [by apply getE_eq|]. apply does_lift; [done|]. intros b Hb.
  eapply does_bind; [exact IH|done|by intros y Hy%elem_of_nil|]. intros ys fs h' _ (-> & HF & Hs & Hin). apply does_ret; [done|].
  split; [done|]. split; [destruct b; [by constructor|done]|]. split; [destruct b; by constructor|]. intros y e' Hy.
  specialize (Hin y e' Hy). destruct b.
  - rewrite !elem_of_cons, Hin. split; [|tauto]. intros [-> |?]; [|tauto]. unfold holds in *. assert (e' = e) as -> by congruence. auto.
  - rewrite elem_of_cons, Hin. split; [tauto|]. intros ([-> |?] & Hp); [|tauto]. unfold holds in *. assert (e' = e) as -> by congruence. congruence.
Qed.
Lemma selectM_pure p h xs es : wf h -> Forall2 (holds h) xs es ->
  does (next h) [] (selectM (fun e => Ok (p e)) xs) (Ok (filterb p es))
    (fun h' ys fs => h' = h /\ Forall2 (holds h) ys fs /\ selected h (fun e => Ok (p e)) xs ys) h.
Proof. intros Hw H. rewrite <- filterR_pure. by apply selectM_spec. Qed.

(** Writing. *)
Lemma put_spec h x c : wf h -> (x < next h)%nat -> does (next h) [x] (put x c) (Ok tt) (fun h' _ _ => cells h' !! x = Some c) h.
Proof.
  intros Hw Hx. eexists _, _. split; [reflexivity|]. split.
  - split_and!; cbn [cells next].
    + intros y Hy. cbn [cells next] in *. destruct (decide (x = y)) as [<-|Hne]; [done|]. rewrite lookup_insert_ne in Hy by done. by apply Hw.
    + lia.
    + intros y _ Hy. apply lookup_insert_ne. intros ->. apply Hy. by left.
  - exists tt. split; [done|]. cbn [cells]. apply lookup_insert.
Qed.
Lemma new_spec h c : wf h -> does (next h) [] (new c) (Ok tt) (fun h' y _ => cells h' !! y = Some c /\ (next h <= y)%nat) h.
Proof.
  intros Hw. eexists _, _. split; [reflexivity|]. split.
  - split_and!; cbn [cells next].
    + intros y Hy. cbn [cells next] in *. destruct (decide (next h = y)) as [<-|Hne]; [lia|]. rewrite lookup_insert_ne in Hy by done. apply Hw in Hy. lia.
    + lia.
    + intros y Hy _. apply lookup_insert_ne. lia.
  - exists (next h). split; [done|]. cbn [cells]. split; [apply lookup_insert|done].
Qed.
Lemma only_wf n F h h' : only n F h h' -> wf h'.
Proof. by intros []. Qed.
Lemma only_next n F h h' : only n F h h' -> (next h <= next h')%nat.
Proof. by intros (_ & ? & _). Qed.
Lemma not_nil {A} (x : A) : x ∉ [].
Proof. apply not_elem_of_nil. Qed.
Lemma in_nil_or {A} (x : A) (P Q : Prop) : x ∈ [] -> P \/ Q.
Proof. by intros ?%elem_of_nil. Qed.

Ltac nilF := let H := fresh in intros ? H; by apply elem_of_nil in H.
Lemma does_map {A B C} n F (m : M A) (v : result B) (g : B -> C) (R : heap -> A -> B -> Prop) (R' : heap -> A -> C -> Prop) h :
  does n F m v R h -> (forall h' a b, only n F h h' -> R h' a b -> R' h' a (g b)) -> does n F m (let? b := v in Ok (g b)) R' h.
Proof.
  intros (r & h' & Hm & Ho & HR) HRR. exists r, h'. split; [done|]. split; [done|].
  destruct v as [b|]; cbn [bind]; [|done]. destruct HR as (a & -> & HR). exists a. split; [done|]. by apply HRR.
Qed.
Lemma does_lift_end {A C} n F (v : result A) (k : A -> M C) (R' : heap -> C -> A -> Prop) h : wf h ->
  (forall a, v = Ok a -> does n F (k a) (Ok a) R' h) -> does n F (bindM (lift v) k) v R' h.
Proof.
  intros Hw Hk. unfold does, bindM, lift. destruct v as [a|e]; [by apply Hk|].
  exists (Err e), h. split; [done|]. split; [by apply only_refl|done].
Qed.
Lemma does_bind_end {A B C} n1 F1 n F (m : M A) (k : A -> M C) (v : result B)
    (R : heap -> A -> B -> Prop) (R' : heap -> C -> B -> Prop) h :
  does n1 F1 m v R h -> (n <= n1)%nat -> (forall x, x ∈ F1 -> x ∈ F \/ (n <= x)%nat) ->
  (forall a b h', only n1 F1 h h' -> R h' a b -> does n F (k a) (Ok b) R' h') ->
  does n F (bindM m k) v R' h.
Proof.
  intros (r & h' & Hm & Ho & HR) Hn HF Hk. unfold does, bindM. rewrite Hm. destruct v as [b|e].
  - destruct HR as (a & -> & HR). destruct (Hk a b h' Ho HR) as (r2 & h2 & Hk2 & Ho2 & HR2). exists r2, h2. split; [done|].
    split; [|done]. eapply only_trans; [|exact Ho2]. by eapply only_weaken.
  - rewrite HR. exists (Err e), h'. split; [done|]. split; [by eapply only_weaken|done].
Qed.

(** Only new objects. *)
Definition grows (h h' : heap) : Prop := only (next h) [] h h'.
Lemma grows_refl h : wf h -> grows h h.
Proof. apply only_refl. Qed.
Lemma grows_trans h1 h2 h3 : grows h1 h2 -> grows h2 h3 -> grows h1 h3.
Proof.
  intros H1 H2. eapply only_trans; [exact H1|]. eapply only_weaken; [exact H2|by eapply only_next|nilF].
Qed.
Lemma holds_grows h h' x e : wf h -> grows h h' -> holds h x e -> holds h' x e.
Proof. intros Hw Hg H. eapply holds_only; [exact Hg|by eapply holds_lt|apply not_nil|done]. Qed.
Lemma Forall2_grows h h' xs es : wf h -> grows h h' -> Forall2 (holds h) xs es -> Forall2 (holds h') xs es.
Proof. intros Hw Hg H. eapply Forall2_impl; [exact H|]. intros ? ?. by apply holds_grows. Qed.
Lemma stands_grows h h' F a ds : wf h -> grows h h' -> stands h F a ds -> stands h' F a ds.
Proof.
  intros Hw Hg H. eapply stands_only; [exact Hg| |exact H]. intros x Hx. split; [by eapply stands_lt|apply not_nil].
Qed.
(** A new dataset. *)
Definition made (n : nat) (h : heap) (b : nat) (ds : dataset) : Prop :=
  exists F, stands h F b ds /\ NoDup F /\ forall x, x ∈ F -> (n <= x)%nat.
Lemma made_grows n h h' b ds : wf h -> grows h h' -> made n h b ds -> made n h' b ds.
Proof. intros Hw Hg (F & H & Hn & Hx). exists F. split; [by eapply stands_grows|done]. Qed.

Lemma modE_spec f h x e : wf h -> holds h x e ->
  does (next h) [x] (modE f x) (f e) (fun h' _ e' => holds h' x e') h.
Proof.
  intros Hw H. unfold modE. eapply does_read; [by apply getE_eq|].
  apply does_lift_end; [done|]. intros e' _.
  destruct (put_spec h x (Exc e') Hw ltac:(by eapply holds_lt)) as (r & h' & Hm & Ho & a & -> & Hc).
  exists (Ok a), h'. split; [done|]. split; [done|]. by exists a.
Qed.
Lemma copyE_spec f h x e : wf h -> holds h x e ->
  does (next h) [] (copyE f x) (f e) (fun h' y e' => holds h' y e' /\ (next h <= y)%nat) h.
Proof.
  intros Hw H. unfold copyE. eapply does_read; [by apply getE_eq|].
  eapply does_step; [by apply new_spec|done|nilF|]. intros y h1 Ho1 (Hy & Hle).
  eapply does_bind_end; [apply modE_spec; [by eapply only_wf|exact Hy]|by eapply only_next| |].
  - intros z Hz. apply elem_of_list_singleton in Hz as ->. by right.
  - intros [] e' h2 Ho2 He'. apply does_ret; [by eapply only_wf|]. done.
Qed.
Lemma copies_spec f h xs es : wf h -> Forall2 (holds h) xs es ->
  does (next h) [] (mapM (copyE f) xs) (mapR f es)
    (fun h' ys es' => Forall2 (holds h') ys es' /\ NoDup ys /\ forall y, y ∈ ys -> (next h <= y)%nat) h.
Proof.
  intros Hw H. revert h Hw H. revert es. induction xs as [|x xs IH]; intros es h Hw H; inversion H as [|? e ? es' He Hes]; subst; cbn [mapM mapR].
  { apply does_ret; [done|]. split_and!; [constructor..|]. intros y Hy. by apply elem_of_nil in Hy. }
  eapply does_bind; [by apply copyE_spec|done|nilF|]. intros y e' h1 Ho1 (Hy & Hle).
  assert (wf h1) as Hw1 by by eapply only_wf.
  eapply does_bind; [apply IH; [done|by eapply (Forall2_grows h h1)]|by eapply only_next|nilF|].
  intros ys es'' h2 Ho2 (Hys & Hnd & Hfresh). apply does_ret; [by eapply only_wf|]. split_and!.
  - constructor; [by eapply (holds_grows h1 h2)|done].
  - constructor; [|done]. intros Hin%Hfresh. pose proof (holds_lt _ _ _ Hw1 Hy). lia.
  - intros z Hz. apply elem_of_cons in Hz as [-> |Hz]; [done|]. etrans; [by eapply only_next|by apply Hfresh].
Qed.
Lemma mods_spec f h xs es : wf h -> NoDup xs -> Forall2 (holds h) xs es ->
  does (next h) xs (iterM (modE f) xs) (mapR f es) (fun h' _ es' => Forall2 (holds h') xs es') h.
Proof.
  intros Hw Hnd H. revert h Hw H. revert es. induction Hnd as [|x xs Hx Hnd IH]; intros es h Hw H; inversion H as [|? e ? es' He Hes]; subst; cbn [iterM mapR].
  { apply does_ret; [done|constructor]. }
  eapply does_bind; [by apply modE_spec|done|set_solver|]. intros [] e' h1 Ho1 He'.
  assert (wf h1) as Hw1 by by eapply only_wf.
  eapply (does_map _ _ _ _ _ (fun h2 (_ : unit) es2 => only (next h1) xs h1 h2 /\ Forall2 (holds h2) xs es2));
    [eapply does_weaken; [apply (IH es' h1 Hw1)|by eapply only_next|set_solver|]|].
  - eapply Forall2_holds_only; [exact Ho1| |exact Hes]. intros z Hz. split; [by eapply Forall2_holds_lt|].
    intros ->%elem_of_list_singleton. done.
  - done.
  - intros h2 [] es2 _ (Ho2 & HR). constructor; [|done]. eapply holds_only; [exact Ho2| |exact Hx|done]. by eapply holds_lt.
Qed.

(** ** Datasets *)
Lemma copyD_spec h F a ds : wf h -> stands h F a ds ->
  does (next h) [] (copyD a) (Ok tt) (fun h' b _ => made (next h) h' b ds) h.
Proof.
  intros Hw H. destruct (getD_eq _ _ _ _ H) as (exs & -> & Hg & He). unfold copyD. eapply does_read; [exact Hg|]. cbn [fst snd].
  eapply (does_step _ _ _ _ _ _ (d_exchanges ds)); [|done|nilF|].
  { pose proof (copies_spec Ok h exs (d_exchanges ds) Hw He) as Hc. rewrite (mapR_pure (fun e => e)), map_id in Hc. exact Hc. }
  intros ys h1 Ho1 (Hys & Hnd & Hfresh). assert (wf h1) as Hw1 by by eapply only_wf.
  eapply does_weaken; [by apply new_spec|by eapply only_next|nilF|]. intros h2 b [] Ho2 (Hb & Hle).
  exists (b :: ys). split_and!.
  - exists ys. split; [done|]. split; [done|]. by eapply (Forall2_grows h1 h2).
  - constructor; [|done]. intros Hin. pose proof (Forall2_holds_lt _ _ _ Hw1 Hys b Hin). lia.
  - intros x Hx. apply elem_of_cons in Hx as [-> |Hx]; [|by apply Hfresh]. etrans; [by eapply only_next|done].
Qed.
Lemma set_exs_spec h a d old exs : wf h -> cells h !! a = Some (Dat d old) ->
  does (next h) [a] (set_exs a exs) (Ok tt) (fun h' _ _ => cells h' !! a = Some (Dat d exs)) h.
Proof.
  intros Hw H. unfold set_exs. eapply does_read; [unfold getD; by rewrite H|]. apply put_spec; [done|]. apply Hw. by eexists.
Qed.
(** Changing the exchanges of a dataset one by one. *)
Lemma mods_stands f h F a ds : wf h -> stands h F a ds -> NoDup F -> forall exs, F = a :: exs ->
  does (next h) F (iterM (modE f) exs) (mapR f (d_exchanges ds)) (fun h' _ es => stands h' F a (set_d_exchanges es ds)) h.
Proof.
  intros Hw (exs & -> & Ha & He) Hnd ? [= <-]. apply NoDup_cons in Hnd as (Hna & Hnd).
  eapply does_weaken; [by apply mods_spec|done| |].
  - intros x Hx. left. by right.
  - intros h' [] es Ho Hes. exists exs. split; [done|]. split.
    + destruct Ho as (_ & _ & Ho). rewrite Ho; [|apply Hw; by eexists|done]. rewrite Ha. by destruct ds.
    + done.
Qed.
Lemma normalize_spec ln h F a ds : wf h -> stands h F a ds -> NoDup F ->
  does (next h) F (normalize_h ln a) (normalize_reference_production_amount ln ds) (fun h' _ ds' => stands h' F a ds') h.
Proof.
  intros Hw H Hnd. unfold normalize_h, normalize_reference_production_amount. eapply does_read; [by eapply readD_eq|].
  apply does_lift; [done|]. intros p _. destruct (negb _); [by apply does_err|]. apply does_lift; [done|]. intros factor _.
  destruct (Qcltb _ _); [|by apply does_ret]. destruct (getD_eq _ _ _ _ H) as (exs & -> & Hg & He).
  eapply does_read; [exact Hg|]. cbn [snd]. eapply does_map; [by eapply mods_stands|]. done.
Qed.
Lemma choose_spec ln factor h F a x ds exc : wf h -> stands h F a ds -> holds h x exc ->
  does (next h) [] (choose_h ln a x factor) (choose_reference_product_exchange ln ds exc factor) (made (next h)) h.
Proof.
  intros Hw H Hx. unfold choose_h, choose_reference_product_exchange.
  eapply does_step; [by eapply copyD_spec|done|nilF|]. intros obj h1 G1 (Fo & Hobj & HndFo & Hfo).
  assert (wf h1) as Hw1 by by eapply only_wf. pose proof (holds_grows h h1 _ _ Hw G1 Hx) as Hx1.
  pose proof (stands_grows h h1 _ _ _ Hw G1 H) as H1. clear H Hx.
  assert (next h <= next h1)%nat as L1 by by eapply only_next.
  eapply does_read; [by apply getE_eq|]. destruct (negb _); [by apply does_err|].
  eapply does_step; [eapply (copyE_spec (fun e => Ok _) h1 x exc Hw1 Hx1)|done|nilF|]. intros rp h2 G2 (Hrp & Lrp).
  assert (wf h2) as Hw2 by by eapply only_wf. assert (next h1 <= next h2)%nat as L2 by by eapply only_next.
  pose proof (stands_grows h1 h2 _ _ _ Hw1 G2 H1) as H2. pose proof (stands_grows h1 h2 _ _ _ Hw1 G2 Hobj) as Hobj2. clear H1.
  destruct (getD_eq _ _ _ _ H2) as (exs & -> & Hg & He). eapply does_read; [exact Hg|]. cbn [snd].
  eapply does_bind; [by apply selectM_spec|lia|nilF|]. intros prods vprods ? _ (-> & Hprods & _).
  eapply does_step; [by apply selectM_pure|lia|nilF|]. intros others ? _ (-> & Hothers & _).
  eapply (does_step _ _ _ _ _ _ (map nonreference_product (filterb (fun e => bool_decide (e <> exc)) vprods))); [|shelve|nilF|].
  { pose proof (copies_spec (fun e => Ok (nonreference_product e)) h2 _ _ Hw2 Hothers) as Hc. rewrite mapR_pure in Hc. exact Hc. }
  Unshelve. 2: lia.
  intros dropped h3 G3 (Hdr & NDdr & Ldr). assert (wf h3) as Hw3 by by eapply only_wf. assert (next h2 <= next h3)%nat as L3 by by eapply only_next.
  pose proof (Forall2_grows h2 h3 _ _ Hw2 G3 He) as He3. pose proof (stands_grows h2 h3 _ _ _ Hw2 G3 Hobj2) as Hobj3.
  pose proof (holds_grows h2 h3 _ _ Hw2 G3 Hrp) as Hrp3.
  eapply does_bind; [by apply selectM_spec|lia|nilF|]. intros nonprods vnon ? _ (-> & Hnon & _).
  eapply does_bind; [by apply copies_spec|lia|nilF|]. intros scaled vscaled h4 G4 (Hsc & NDsc & Lsc).
  assert (wf h4) as Hw4 by by eapply only_wf. assert (next h3 <= next h4)%nat as L4 by by eapply only_next.
  pose proof (stands_grows h3 h4 _ _ _ Hw3 G4 Hobj3) as Hobj4. pose proof (holds_grows h3 h4 _ _ Hw3 G4 Hrp3) as Hrp4.
  pose proof (Forall2_grows h3 h4 _ _ Hw3 G4 Hdr) as Hdr4.
  destruct Hobj4 as (oexs & -> & Hobj4 & _).
  assert (obj < next h1)%nat as Lobj by (eapply stands_lt; [exact Hw1|exact Hobj|by left]).
  pose proof (holds_lt _ _ _ Hw2 Hrp) as Lrp'. pose proof (Forall2_holds_lt _ _ _ Hw3 Hdr) as Ldr'.
  assert (next h <= obj)%nat as Lobj' by (apply Hfo; by left).
  assert (NoDup (obj :: rp :: dropped ++ scaled)) as ND.
  { apply NoDup_cons. split.
    - rewrite elem_of_cons, elem_of_app. intros [-> |[Hin%Ldr|Hin%Lsc]]; lia.
    - apply NoDup_cons. split.
      + rewrite elem_of_app. intros [Hin%Ldr|Hin%Lsc]; lia.
      + apply NoDup_app. split_and!; [done| |done]. intros z Hz%Ldr' Hz'%Lsc. lia. }
  eapply does_step; [by eapply set_exs_spec|lia| |].
  { intros z ->%elem_of_list_singleton. by right. }
  intros [] h5 O5 Hset. assert (wf h5) as Hw5 by by eapply only_wf. assert (next h4 <= next h5)%nat as L5 by by eapply only_next.
  assert (stands h5 (obj :: rp :: dropped ++ scaled) obj
    (set_d_exchanges (set_e_class None (set_e_type RefProduct (remove_exchange_uncertainty exc)) :: map nonreference_product (filterb (fun e => bool_decide (e <> exc)) vprods) ++ vscaled) ds)) as Hst.
  { exists (rp :: dropped ++ scaled). split; [done|]. split; [rewrite Hset; by destruct ds|].
    apply NoDup_cons in ND as (Hno & _).
    eapply (Forall2_holds_only _ _ h4); [exact O5| |].
    - intros z Hz. split; [|intros ->%elem_of_list_singleton; by apply Hno].
      apply elem_of_cons in Hz as [-> |Hz]; [lia|]. apply elem_of_app in Hz as [Hz|Hz]; [specialize (Ldr' z Hz); lia|].
      by apply (Forall2_holds_lt _ _ _ Hw4 Hsc).
    - constructor; [done|]. by apply Forall2_app. }
  eapply does_bind_end; [by apply normalize_spec|lia| |].
  - intros z Hz. right. apply elem_of_cons in Hz as [-> |Hz]; [lia|]. apply elem_of_cons in Hz as [-> |Hz]; [lia|].
    apply elem_of_app in Hz as [Hz%Ldr|Hz%Lsc]; lia.
  - intros [] ds' h6 O6 Hst6. apply does_ret; [by eapply only_wf|]. eexists. split; [exact Hst6|]. split; [done|].
    intros z Hz. apply elem_of_cons in Hz as [-> |Hz]; [lia|]. apply elem_of_cons in Hz as [-> |Hz]; [lia|].
    apply elem_of_app in Hz as [Hz%Ldr|Hz%Lsc]; lia.
Qed.

(** ** Lists of new datasets *)
Lemma results_nil n F h : results n F h [] [].
Proof. exists []. split; [split; constructor|]. intros x Hx. by apply elem_of_nil in Hx. Qed.
Lemma results_weaken n n' F F' h xs dss : results n' F' h xs dss -> (n <= n')%nat -> (forall x, x ∈ F' -> x ∈ F \/ (n <= x)%nat) -> results n F h xs dss.
Proof.
  intros (Fs & Hs & HF) Hn HF'. exists Fs. split; [done|]. intros x Hx. destruct (HF x Hx) as [Hx'|Hx']; [by apply HF'|right; lia].
Qed.
Lemma separate_lt h Fs xs dss x : wf h -> separate h Fs xs dss -> x ∈ concat Fs -> (x < next h)%nat.
Proof.
  intros Hw (H & _). induction H as [|F a ds Fs xs dss Hst _ IH]; cbn [concat]; [set_solver|].
  rewrite elem_of_app. intros [Hx|Hx]; [by eapply stands_lt|by apply IH].
Qed.
Lemma separate_only n F h h' Fs xs dss : only n F h h' -> (forall x, x ∈ concat Fs -> (x < n)%nat /\ x ∉ F) -> separate h Fs xs dss -> separate h' Fs xs dss.
Proof.
  intros Ho HF (H & Hnd). split; [|done]. clear Hnd. induction H as [|F1 a ds Fs xs dss Hst _ IH]; constructor.
  - eapply stands_only; [exact Ho| |exact Hst]. intros x Hx. apply HF. cbn. apply elem_of_app. by left.
  - apply IH. intros x Hx. apply HF. cbn. apply elem_of_app. by right.
Qed.
Lemma separate_app h Fs1 Fs2 xs1 xs2 ds1 ds2 : separate h Fs1 xs1 ds1 -> separate h Fs2 xs2 ds2 ->
  (forall x, x ∈ concat Fs1 -> x ∉ concat Fs2) -> separate h (Fs1 ++ Fs2) (xs1 ++ xs2) (ds1 ++ ds2).
Proof.
  intros (H1 & N1) (H2 & N2) Hd. split; [by apply Forall3_app|]. rewrite concat_app. apply NoDup_app. done.
Qed.
Lemma separate_one h F a ds : stands h F a ds -> NoDup F -> separate h [F] [a] [ds].
Proof. intros H Hnd. split; [by repeat constructor|]. cbn. by rewrite app_nil_r. Qed.

(** First one part of the objects is used up, then another. *)
Lemma results_two n F1 F2 h h1 h2 ys1 ys2 o1 o2 : wf h -> only (next h) F1 h h1 ->
  (forall x, x ∈ F1 -> x ∉ F2) -> (forall x, x ∈ F2 -> (x < next h)%nat) -> n = next h ->
  results n F1 h1 ys1 o1 -> only (next h1) F2 h1 h2 -> results (next h1) F2 h2 ys2 o2 ->
  results n (F1 ++ F2) h2 (ys1 ++ ys2) (o1 ++ o2).
Proof.
  intros Hw Ho1 Hd Hlt -> (Fs1 & Hs1 & HF1) Ho2 (Fs2 & Hs2 & HF2).
  assert (wf h1) as Hw1 by by eapply only_wf. assert (next h <= next h1)%nat by by eapply only_next.
  assert (forall x, x ∈ concat Fs1 -> (x < next h1)%nat /\ x ∉ F2) as Hx1.
  { intros x Hx. split; [by eapply separate_lt|]. intros Hx2. destruct (HF1 x Hx) as [Hx1|Hx1]; [by apply (Hd x)|]. specialize (Hlt x Hx2). lia. }
  exists (Fs1 ++ Fs2). split.
  - apply separate_app; [by eapply separate_only|done|]. intros x Hx Hx2. destruct (Hx1 x Hx) as (? & ?). destruct (HF2 x Hx2); [done|lia].
  - intros x. rewrite concat_app, !elem_of_app. intros [Hx|Hx]; [apply HF1 in Hx|apply HF2 in Hx]; [tauto|]. destruct Hx; [tauto|right; lia].
Qed.

Section makers.
Context {X Y : Type} (f : X -> M nat) (g : Y -> result dataset) (Q : heap -> X -> Y -> Prop).
Context (Hmake : forall h x y, wf h -> Q h x y -> does (next h) [] (f x) (g y) (made (next h)) h).
Context (Hgrow : forall h h' x y, wf h -> grows h h' -> Q h x y -> Q h' x y).
Lemma makers_spec xs ys h : wf h -> Forall2 (Q h) xs ys -> does (next h) [] (mapM f xs) (mapR g ys) (results (next h) []) h.
Proof using Hmake Hgrow.
  intros Hw H. revert h Hw H. revert ys. induction xs as [|x xs IH]; intros ys h Hw H; inversion H as [|? y ? ys' Hxy Hxys]; subst; cbn [mapM mapR].
  { apply does_ret; [done|apply results_nil]. }
  eapply does_bind; [by apply Hmake|done|nilF|]. intros a ds h1 O1 (Fa & Ha & Hnd & HFa).
  assert (wf h1) as Hw1 by by eapply only_wf.
  eapply does_bind; [apply IH; [done|]|by eapply only_next|nilF|].
  { eapply Forall2_impl; [exact Hxys|]. intros ? ?. by apply Hgrow. }
  intros zs outs h2 O2 HR. apply does_ret; [by eapply only_wf|]. change (a :: zs) with ([a] ++ zs). change (ds :: outs) with ([ds] ++ outs).
  change [] with (([] : list nat) ++ []) at 1. eapply (results_two _ _ _ h h1); [done|exact O1|nilF|nilF|done| |exact O2|exact HR].
  exists [Fa]. split; [by apply separate_one|]. cbn. rewrite app_nil_r. auto.
Qed.
End makers.

Lemma zip_holds h (fs : list Qc) xs es (P : Prop) : P -> Forall2 (holds h) xs es ->
  Forall2 (fun p q => p.1 = q.1 /\ holds h p.2 q.2 /\ P) (zip fs xs) (zip fs es).
Proof. intros HP H. revert fs. induction H as [|x e xs es Hx _ IH]; intros [|q fs]; cbn; constructor; [done|apply IH]. Qed.

Lemma economic_copies ln : copies (economic_h ln) (economic_allocation ln).
Proof.
  intros h F a ds Hw H _. unfold economic_h, economic_allocation. eapply does_read; [by eapply readD_eq|].
  apply does_lift; [done|]. intros _ _. destruct (getD_eq _ _ _ _ H) as (exs & HF & Hg & He). eapply does_read; [exact Hg|]. cbn [snd].
  eapply does_bind; [by apply selectM_spec|done|nilF|]. intros prods vprods ? _ (-> & Hprods & _).
  eapply does_read; [by apply mapM_getE|]. apply does_lift; [done|]. intros factors _.
  eapply (makers_spec _ _ (fun h p q => p.1 = q.1 /\ holds h p.2 q.2 /\ stands h F a ds)); [| |done|by apply zip_holds].
  - intros h' [q x] [q' e] Hw' (Heq & Hx & Hst). cbn in *. subst q'. by eapply choose_spec.
  - intros h' h'' [q x] [q' e] Hw' Hgr (Heq & Hx & Hst). split_and!; [done|by eapply holds_grows|by eapply stands_grows].
Qed.
Lemma copies_refines G g : copies G g -> refines G g.
Proof.
  intros Hc h F a ds Hw H Hnd. eapply does_weaken; [exact (Hc h F a ds Hw H Hnd)|done|nilF|]. intros h' xs dss _ HR.
  eapply results_weaken; [exact HR|done|nilF].
Qed.

(** The only reference product. *)
Lemma single_spec h exs a ds : wf h -> stands h (a :: exs) a ds ->
  does (next h) [] (single_h a) (get_single_reference_product ds)
    (fun h' x e => h' = h /\ holds h x e /\ x ∈ exs /\ e_type e = RefProduct /\ forall y e', y ∈ exs -> holds h y e' -> (e_type e' = RefProduct <-> y = x)) h.
Proof.
  intros Hw H. destruct (getD_eq _ _ _ _ H) as (? & [= <-] & Hg & He). unfold single_h, get_single_reference_product, reference_products.
  eapply does_read; [exact Hg|]. cbn [snd].
  eapply does_step; [by apply selectM_pure|done|nilF|]. intros rps ? _ (-> & Hr & Hs & Hin).
  destruct Hr as [|x e rps es Hx [|]]; [by apply does_err| |by apply does_err].
  apply does_ret; [done|]. pose proof (proj1 (Hin x e Hx) ltac:(by left)) as (Hx1 & [= Hx2]). apply bool_decide_eq_true in Hx2.
  split_and!; [done..|]. intros y e' Hy Hye. pose proof (Hin y e' Hye) as Hy2. rewrite elem_of_list_singleton in Hy2. rewrite Hy2.
  split; [|intros (_ & [= ?%bool_decide_eq_true]); done]. intros Ht. split; [done|]. by rewrite Ht.
Qed.
Lemma recycling_refines ln : refines (recycling_h ln) (recycling_allocation ln).
Proof.
  intros h F a ds Hw H Hnd. unfold recycling_h, recycling_allocation. eapply does_read; [by eapply readD_eq|].
  apply does_lift; [done|]. intros _ _. destruct (getD_eq _ _ _ _ H) as (exs & -> & Hg & He).
  eapply does_bind; [by apply single_spec|done|nilF|]. intros x e ? _ (-> & Hx & Hin & Ht & Huniq).
  set (f := fun e => scale_exchange ln (set_e_type FromTechnosphere e) (- (1))%Qc).
  apply NoDup_cons in Hnd as (Hna & Hnd). apply elem_of_list_split in Hin as (xs1 & xs2 & ->).
  apply Forall2_app_inv_l in He as (es1 & es2' & He1 & He2 & Hes). inversion He2 as [|? e0 ? es2 Hx0 He2']; subst.
  assert (e0 = e) as -> by (unfold holds in *; congruence). clear Hx0 He2.
  apply NoDup_app in Hnd as (Hn1 & Hn12 & Hn2). apply NoDup_cons in Hn2 as (Hx2 & Hn2).
  assert (forall zs es, Forall2 (holds h) zs es -> (forall z, z ∈ zs -> z ∈ xs1 ++ x :: xs2 /\ z <> x) ->
    mapR (fun e => if bool_decide (e_type e = RefProduct) then f e else Ok e) es = Ok es) as Hsame.
  { clear -Huniq. induction 1 as [|z e' zs es Hz _ IH]; intros Hzs; [done|]. cbn [mapR]. destruct (Hzs z ltac:(by left)) as (Hz1 & Hz2).
    rewrite bool_decide_false by (intros Ht; by apply Hz2, (Huniq z e')). cbn [bind]. rewrite IH; [done|]. intros y Hy. apply Hzs. by right. }
  assert (flip_reference_product ln ds = let? e' := f e in Ok (set_d_exchanges (es1 ++ e' :: es2) ds)) as ->.
  { unfold flip_reference_product. rewrite Hes.
    change (mapR _ (es1 ++ e :: es2)) with (mapR (fun e => if bool_decide (e_type e = RefProduct) then f e else Ok e) (es1 ++ e :: es2)).
    rewrite mapR_app, (Hsame xs1 es1); [| |]. cbn [bind mapR].
    - rewrite bool_decide_true by done. rewrite (Hsame xs2 es2); [|done|]. { destruct (f e); done. }
      intros z Hz. split; [apply elem_of_app; right; by right|]. by intros ->.
    - done.
    - intros z Hz. split; [apply elem_of_app; by left|]. intros ->. apply (Hn12 x Hz). by left. }
  assert (stands h (a :: xs1 ++ x :: xs2) a ds -> True) as _ by done.
  eapply (does_bind (next h) [x] _ _ _ _ _ _ (fun h' _ ds' => stands h' (a :: xs1 ++ x :: xs2) a ds')); [|done| |].
  - eapply does_map; [by apply modE_spec|]. intros h' [] e' Ho He'. exists (xs1 ++ x :: xs2). split; [done|]. split.
    + destruct H as (? & [= <-] & Ha & _). destruct Ho as (_ & _ & Ho). rewrite Ho; [rewrite Ha; by destruct ds|apply Hw; by eexists|].
      intros ->%elem_of_list_singleton. apply Hna. apply elem_of_app. right. by left.
    + cbn.
      apply Forall2_app; [|constructor; [done|]].
      * eapply Forall2_holds_only; [exact Ho| |exact He1]. intros z Hz. split; [by apply (Forall2_holds_lt _ _ _ Hw He1)|].
        intros ->%elem_of_list_singleton. apply (Hn12 x Hz). by left.
      * eapply Forall2_holds_only; [exact Ho| |exact He2']. intros z Hz. split; [by apply (Forall2_holds_lt _ _ _ Hw He2')|].
        by intros ->%elem_of_list_singleton.
  - intros z ->%elem_of_list_singleton. left. right. apply elem_of_app. right. by left.
  - intros [] ds' h1 Ho Hst. eapply does_weaken; [eapply (economic_copies ln h1 _ a ds'); [by eapply only_wf|exact Hst|]|by eapply only_next|nilF|].
    + constructor; [done|]. apply NoDup_app. split_and!; [done..|]. by constructor.
    + intros h2 ys outs _ HR. eapply results_weaken; [exact HR|by eapply only_next|nilF].
Qed.

(** A byproduct without burdens. *)
Lemma free_spec ln h F a x ds e : wf h -> stands h F a ds -> holds h x e ->
  does (next h) [] (free_h ln a x) (free_byproduct ln ds e) (made (next h)) h.
Proof.
  intros Hw H Hx. unfold free_h, free_byproduct.
  eapply does_step; [by eapply copyD_spec|done|nilF|]. intros b h1 G1 (Fo & Hb & HndFo & Hfo).
  assert (wf h1) as Hw1 by by eapply only_wf. pose proof (holds_grows h h1 _ _ Hw G1 Hx) as Hx1.
  assert (next h <= next h1)%nat as L1 by by eapply only_next.
  eapply does_step; [eapply (copyE_spec Ok h1 x e Hw1 Hx1)|done|nilF|]. intros y h2 G2 (Hy & Ly).
  assert (wf h2) as Hw2 by by eapply only_wf. assert (next h1 <= next h2)%nat as L2 by by eapply only_next.
  pose proof (stands_grows h1 h2 _ _ _ Hw1 G2 Hb) as Hb2.
  assert (b < next h1)%nat as Lb by (destruct Hb as (oexs & -> & Hb & _); apply Hw1; by eexists).
  assert (next h <= b)%nat as Lb' by (destruct Hb as (oexs & -> & Hb & _); apply Hfo; by left).
  destruct Hb2 as (oexs & -> & Hb2 & _).
  eapply does_step; [by eapply set_exs_spec|lia| |].
  { intros z ->%elem_of_list_singleton. by right. }
  intros [] h3 O3 Hset. assert (wf h3) as Hw3 by by eapply only_wf. assert (next h2 <= next h3)%nat as L3 by by eapply only_next.
  assert (holds h3 y e) as Hy3.
  { eapply holds_only; [exact O3|by eapply holds_lt| |exact Hy]. intros ->%elem_of_list_singleton. lia. }
  eapply does_weaken; [eapply (choose_spec ln 1 h3 [b; y] b y (set_d_exchanges [e] ds) e Hw3)| lia|nilF|].
  - exists [y]. split; [done|]. split; [rewrite Hset; by destruct ds|]. by repeat constructor.
  - done.
  - intros h4 c ds' O4 (Fc & Hc & Hnc & Lc). exists Fc. split_and!; [done..|]. intros z Hz%Lc. lia.
Qed.
Lemma waste_copies ln : copies (waste_h ln) (waste_treatment_allocation ln).
Proof.
  intros h F a ds Hw H Hnd. unfold waste_h, waste_treatment_allocation. eapply does_read; [by eapply readD_eq|].
  apply does_lift; [done|]. intros _ _. destruct (getD_eq _ _ _ _ H) as (exs & -> & _ & He0).
  eapply does_bind; [by apply single_spec|done|nilF|]. intros x e ? _ (-> & Hx & Hin & Ht & Huniq).
  eapply does_bind; [by eapply choose_spec|done|nilF|]. intros b db h1 G1 (Fb & Hb & Hnb & Lb).
  assert (wf h1) as Hw1 by by eapply only_wf. pose proof (stands_grows h h1 _ _ _ Hw G1 H) as H1.
  destruct (getD_eq _ _ _ _ H1) as (? & [= <-] & Hg & He). eapply does_read; [exact Hg|]. cbn [snd].
  eapply does_bind; [by apply selectM_spec|by eapply only_next|nilF|]. intros prods vprods ? _ (-> & Hprods & Hsel & _).
  assert (Forall2 (fun x e => holds h1 x e /\ stands h1 (a :: exs) a ds) (filterb (fun y => negb (bool_decide (y = x))) prods)
    (filterb (fun e => negb (bool_decide (e_type e = RefProduct))) vprods)) as Hq.
  { assert (forall y e', y ∈ exs -> holds h1 y e' -> (e_type e' = RefProduct <-> y = x)) as Hu1.
    { intros y e' Hy Hye. apply Huniq; [done|]. unfold holds in *. destruct G1 as (_ & _ & G1). rewrite G1 in Hye; [done| |apply not_nil].
      by eapply Forall2_holds_lt. }
    assert (forall y, y ∈ prods -> y ∈ exs) as Hpin by (intros y Hy; eapply elem_of_submseteq; [exact Hy|by apply sublist_submseteq]).
    clear -Hprods Hu1 Hpin H1. induction Hprods as [|y e' ys es' Hy _ IH]; [constructor|]. cbn.
    assert (e_type e' = RefProduct <-> y = x) as Hy' by (apply Hu1; [apply Hpin; by left|done]).
    specialize (IH ltac:(intros z Hz; apply Hpin; by right)).
    destruct (bool_decide_reflect (y = x)), (bool_decide_reflect (e_type e' = RefProduct)); [done|tauto|tauto|]. by constructor. }
  eapply does_bind; [eapply (makers_spec _ _ (fun h x e => holds h x e /\ stands h (a :: exs) a ds)); [| |done|exact Hq]|by eapply only_next|nilF|].
  { intros h' y e' Hw' (Hy & Hst). by eapply free_spec. }
  { intros h' h'' y e' Hw' Hgr (Hy & Hst). split; [by eapply holds_grows|by eapply stands_grows]. }
  intros free vfree h2 G2 HR. apply does_ret; [by eapply only_wf|]. change (b :: free) with ([b] ++ free). change (db :: vfree) with ([db] ++ vfree).
  change [] with (([] : list nat) ++ []) at 1. eapply (results_two _ _ _ h h1); [done|exact G1|nilF|nilF|done| |exact G2|exact HR].
  exists [Fb]. split; [by apply separate_one|]. cbn. rewrite app_nil_r. auto.
Qed.

(** ** Subdivision *)
Lemma puts_spec h xs es : wf h -> NoDup xs -> length xs = length es -> (forall x, x ∈ xs -> (x < next h)%nat) ->
  does (next h) xs (iterM (fun p => put p.1 (Exc p.2)) (zip xs es)) (Ok tt) (fun h' _ _ => Forall2 (holds h') xs es) h.
Proof.
  intros Hw Hnd. revert es h Hw. induction Hnd as [|x xs Hx Hnd IH]; intros [|e es] h Hw Hl Hlt; try done; cbn [zip zip_with iterM].
  { apply does_ret; [done|constructor]. }
  cbn in Hl. injection Hl as Hl. cbn [fst snd].
  eapply does_step; [apply put_spec; [done|apply Hlt; by left]|done|set_solver|]. intros [] h1 O1 Hx1.
  assert (wf h1) as Hw1 by by eapply only_wf. assert (next h <= next h1)%nat as L1 by by eapply only_next.
  eapply does_weaken; [apply IH; [done|done|]|lia|set_solver|].
  { intros y Hy. eapply Nat.lt_le_trans; [apply Hlt; by right|done]. }
  intros h2 [] [] O2 HR. constructor; [|done]. eapply holds_only; [exact O2| |exact Hx|done]. by eapply holds_lt.
Qed.
Lemma recalc_spec recalc h F a ds : same_length recalc -> wf h -> stands h F a ds -> NoDup F ->
  does (next h) F (recalc_h recalc a) (recalc ds) (fun h' _ ds' => stands h' F a ds') h.
Proof.
  intros Hlen Hw H Hnd. unfold recalc_h. eapply does_read; [by eapply readD_eq|]. apply does_lift_end; [done|]. intros ds' Hds'.
  destruct (getD_eq _ _ _ _ H) as (exs & -> & Hg & He). eapply does_read; [exact Hg|]. cbn [snd].
  assert (forall x, x ∈ a :: exs -> (x < next h)%nat) as Hlt by by (intros; eapply stands_lt).
  apply NoDup_cons in Hnd as (Hna & Hnd).
  eapply does_step; [apply put_spec; [done|apply Hlt; by left]|done|set_solver|]. intros [] h1 O1 Ha.
  assert (wf h1) as Hw1 by by eapply only_wf. assert (next h <= next h1)%nat as L1 by by eapply only_next.
  assert (does (next h1) exs (iterM (fun p => put p.1 (Exc p.2)) (zip exs (d_exchanges ds'))) (Ok tt) (fun h' _ _ => Forall2 (holds h') exs (d_exchanges ds')) h1) as Hp.
  { apply puts_spec; [done|done| |]. - rewrite (Hlen _ _ Hds'). by eapply Forall2_length. - intros x Hx. eapply Nat.lt_le_trans; [apply Hlt; by right|done]. }
  destruct Hp as (r & h2 & Hr & O2 & [] & -> & HF). exists (Ok tt), h2. split; [done|]. split.
  - eapply only_weaken; [exact O2|lia|]. intros x Hx. left. by right.
  - exists tt. split; [done|]. exists exs. split; [done|]. split; [|done]. destruct O2 as (_ & _ & O2). rewrite O2; [done| |done]. apply Hw1. by eexists.
Qed.
Lemma filterb_and {A} (p q : A -> bool) l : filterb (fun x => p x && q x) l = filterb q (filterb p l).
Proof. unfold filterb. induction l as [|x l IH]; [done|]. cbn. destruct (p x); cbn; [|done]. by rewrite IH. Qed.
Lemma sublist_NoDup {A} (l k : list A) : sublist l k -> NoDup k -> NoDup l.
Proof.
  induction 1 as [|x l k Hs IH|x l k Hs IH]; intros Hnd; [done| |].
  - apply NoDup_cons in Hnd as (Hx & Hnd). constructor; [|by apply IH]. intros Hin. apply Hx. eapply elem_of_submseteq; [exact Hin|by apply sublist_submseteq].
  - apply NoDup_cons in Hnd as (_ & Hnd). by apply IH.
Qed.
Lemma subdivide_spec h F a x ds exc : wf h -> stands h F a ds -> holds h x exc ->
  does (next h) [] (subdivide_h a x) (Ok tt) (fun h' b _ => made (next h) h' b (subdivide ds exc)) h.
Proof.
  intros Hw H Hx. unfold subdivide_h.
  eapply does_step; [by eapply copyD_spec|done|nilF|]. intros b h1 G1 (Fo & Hb & HndFo & Hfo).
  assert (wf h1) as Hw1 by by eapply only_wf. pose proof (holds_grows h h1 _ _ Hw G1 Hx) as Hx1.
  pose proof (stands_grows h h1 _ _ _ Hw G1 H) as H1.
  assert (forall z, z ∈ F -> (z < next h)%nat) as HltF by by (intros; eapply stands_lt). clear H Hx.
  assert (next h <= next h1)%nat as L1 by by eapply only_next.
  eapply does_read; [by apply getE_eq|].
  eapply does_step; [eapply (copyE_spec (fun e => Ok (selected_product e)) h1 x exc Hw1 Hx1)|done|nilF|]. intros rp h2 G2 (Hrp & Lrp).
  assert (wf h2) as Hw2 by by eapply only_wf. assert (next h1 <= next h2)%nat as L2 by by eapply only_next.
  pose proof (stands_grows h1 h2 _ _ _ Hw1 G2 H1) as H2. pose proof (stands_grows h1 h2 _ _ _ Hw1 G2 Hb) as Hb2. clear H1.
  destruct (getD_eq _ _ _ _ Hb2) as (bexs & -> & Hgb & Heb). eapply does_read; [exact Hgb|]. cbn [snd].
  apply NoDup_cons in HndFo as (Hnb & Hndb).
  eapply does_step; [by apply selectM_pure|lia|nilF|]. intros others ? _ (-> & Hothers & Hsub & _).
  assert (forall z, z ∈ others -> z ∈ bexs) as Hob by (intros z Hz; eapply elem_of_submseteq; [exact Hz|by apply sublist_submseteq]).
  assert (NoDup others) as Hndo by by eapply sublist_NoDup.
  assert (forall z, z ∈ b :: bexs -> (z < next h1)%nat) as Hltb by by (intros; eapply stands_lt).
  set (vothers := filterb (fun e => bool_decide (e_type e = RefProduct) && bool_decide (e <> exc)) (d_exchanges ds)) in *.
  eapply (does_step (next h2) others _ _ _ _ (map nonreference_product vothers)); [|shelve| |].
  { pose proof (mods_spec (fun e => Ok (nonreference_product e)) h2 _ _ Hw2 Hndo Hothers) as Hc. rewrite mapR_pure in Hc. exact Hc. }
  { intros z Hz. right. apply Hfo. right. by apply Hob. }
  Unshelve. 2: lia.
  intros [] h3 O3 Hoth3. assert (wf h3) as Hw3 by by eapply only_wf. assert (next h2 <= next h3)%nat as L3 by by eapply only_next.
  assert (stands h3 F a ds) as H3.
  { eapply stands_only; [exact O3| |exact H2]. intros z Hz%HltF. split; [lia|]. intros Hz2%Hob. assert (next h <= z)%nat by (apply Hfo; by right). lia. }
  assert (holds h3 rp (selected_product exc)) as Hrp3.
  { eapply holds_only; [exact O3|by eapply holds_lt| |exact Hrp]. intros Hz%Hob. assert (rp < next h1)%nat by (apply Hltb; by right). lia. }
  assert (exists old, cells h3 !! b = Some (Dat (set_d_exchanges [] ds) old)) as (old & Hb3).
  { destruct Hb2 as (? & _ & Hb2 & _). destruct O3 as (_ & _ & O3). eexists. rewrite O3; [exact Hb2|apply Hw2; by eexists|]. by intros Hz%Hob. }
  destruct (getD_eq _ _ _ _ H3) as (exs & HF & Hg & He). eapply does_read; [exact Hg|]. cbn [snd].
  eapply does_step; [by apply selectM_pure|lia|nilF|]. intros rest ? _ (-> & Hrest & _).
  set (vrest := filterb (fun e => negb (bool_decide (e_type e = RefProduct))) (d_exchanges ds)) in *.
  eapply (does_step (next h3) [] _ _ _ _ vrest); [|shelve|nilF|].
  { pose proof (copies_spec Ok h3 _ _ Hw3 Hrest) as Hc. rewrite (mapR_pure (fun e => e)), map_id in Hc. exact Hc. }
  Unshelve. 2: lia.
  intros copies h4 G4 (Hcop & NDc & Lc). assert (wf h4) as Hw4 by by eapply only_wf. assert (next h3 <= next h4)%nat as L4 by by eapply only_next.
  pose proof (holds_grows h3 h4 _ _ Hw3 G4 Hrp3) as Hrp4. pose proof (Forall2_grows h3 h4 _ _ Hw3 G4 Hoth3) as Hoth4.
  assert (b < next h1)%nat as Lb by (apply Hltb; by left). assert (next h <= b)%nat as Lb' by (apply Hfo; by left).
  assert (cells h4 !! b = Some (Dat (set_d_exchanges [] ds) old)) as Hb4.
  { destruct G4 as (_ & _ & G4). rewrite G4; [done|lia|apply not_nil]. }
  pose proof (holds_lt _ _ _ Hw2 Hrp) as Lrp'.
  assert (forall z, z ∈ others -> (next h <= z)%nat /\ (z < next h1)%nat) as Lo.
  { intros z Hz%Hob. split; [apply Hfo; by right|apply Hltb; by right]. }
  assert (NoDup (b :: rp :: others ++ copies)) as ND.
  { apply NoDup_cons. split.
    - rewrite elem_of_cons, elem_of_app. intros [-> |[Hin|Hin%Lc]]; [lia| |lia]. by apply Hnb, Hob.
    - apply NoDup_cons. split.
      + rewrite elem_of_app. intros [Hin%Lo|Hin%Lc]; lia.
      + apply NoDup_app. split_and!; [done| |done]. intros z Hz%Lo Hz'%Lc. lia. }
  eapply does_step; [by eapply set_exs_spec|lia| |].
  { intros z ->%elem_of_list_singleton. by right. }
  intros [] h5 O5 Hset. apply does_ret; [by eapply only_wf|]. exists (b :: rp :: others ++ copies). split_and!; [|done|].
  - exists (rp :: others ++ copies). split; [done|]. unfold subdivide, reference_products. rewrite <- filterb_and. fold vothers vrest. split; [rewrite Hset; by destruct ds|].
    apply NoDup_cons in ND as (Hno & _).
    eapply (Forall2_holds_only _ _ h4); [exact O5| |].
    + intros z Hz. split; [|intros ->%elem_of_list_singleton; by apply Hno].
      apply elem_of_cons in Hz as [-> |Hz]; [lia|]. apply elem_of_app in Hz as [Hz|Hz]; [specialize (Lo z Hz); lia|].
      by apply (Forall2_holds_lt _ _ _ Hw4 Hcop).
    + constructor; [done|]. by apply Forall2_app.
  - intros z Hz. apply elem_of_cons in Hz as [-> |Hz]; [lia|]. apply elem_of_cons in Hz as [-> |Hz]; [lia|].
    apply elem_of_app in Hz as [Hz%Lo|Hz%Lc]; lia.
Qed.
Lemma combined_copies recalc : same_length recalc -> copies (combined_h recalc) (combined_production recalc).
Proof.
  intros Hlen h F a ds Hw H Hnd. unfold combined_h, combined_production. destruct (getD_eq _ _ _ _ H) as (exs & HF & Hg & He).
  eapply does_read; [exact Hg|]. cbn [snd]. eapply does_step; [by apply selectM_pure|done|nilF|]. intros xs ? _ (-> & Hxs & _).
  unfold nonzero_reference_product_exchanges, reference_products. rewrite <- filterb_and.
  eapply (makers_spec _ _ (fun h x e => holds h x e /\ stands h F a ds)); [| |done|].
  - intros h' x e Hw' (Hx & Hst). eapply does_step; [by eapply subdivide_spec|done|nilF|]. intros b h1 G1 (Fb & Hb & Hnb & Lb).
    eapply does_bind_end; [apply recalc_spec; [done|by eapply only_wf|exact Hb|done]|by eapply only_next|by right; apply Lb|].
    intros [] ds' h2 O2 Hst2. apply does_ret; [by eapply only_wf|]. by exists Fb.
  - intros h' h'' y e' Hw' Hgr (Hy & Hst). split; [by eapply holds_grows|by eapply stands_grows].
  - eapply Forall2_impl; [exact Hxs|]. done.
Qed.
Lemma split_refines ln : refines (split_h ln) (handle_split_dataset ln).
Proof.
  intros h F a ds Hw H Hnd. unfold split_h, handle_split_dataset. eapply does_read; [by eapply readD_eq|].
  apply does_lift; [done|]. intros rp _. apply does_lift; [done|]. intros c _.
  destruct (bool_decide (c = Waste)); [by apply (copies_refines _ _ (waste_copies ln) h F a ds)|].
  destruct (bool_decide (c = Recyclable)); [|by apply does_err].
  destruct (getD_eq _ _ _ _ H) as (exs & -> & Hg & He). eapply does_read; [exact Hg|]. cbn [fst snd].
  assert (a < next h)%nat as La by (eapply stands_lt; [done|exact H|by left]).
  eapply does_step; [by apply put_spec|done|set_solver|]. intros [] h1 O1 Ha.
  assert (wf h1) as Hw1 by by eapply only_wf. assert (next h <= next h1)%nat as L1 by by eapply only_next.
  eapply does_weaken; [apply (recycling_refines ln h1 (a :: exs)); [done| |done]|lia|by left|].
  - exists exs. split; [done|]. split; [rewrite Ha; by destruct ds|].
    assert (d_exchanges (set_d_name (d_name ds ++ ", from " ++ e_name rp) ds) = d_exchanges ds) as -> by by destruct ds.
    eapply Forall2_holds_only; [exact O1| |exact He]. intros z Hz. split; [by eapply Forall2_holds_lt|].
    intros ->%elem_of_list_singleton. apply NoDup_cons in Hnd as (Hna & _). done.
  - intros h2 ys outs _ HR. eapply results_weaken; [exact HR|lia|by left].
Qed.

(** ** Lists of datasets *)
Lemma concat_map_spec G g : refines G g -> forall h Fs xs dss, wf h -> separate h Fs xs dss ->
  does (next h) (concat Fs) (concat_mapM G xs) (concat_mapR g dss) (results (next h) (concat Fs)) h.
Proof.
  intros HG h Fs xs dss Hw Hs. unfold concat_mapM, concat_mapR, fmapR.
  eapply (does_bind (next h) (concat Fs) _ _ _ _ _ _ (fun h' yss outss => results (next h) (concat Fs) h' (concat yss) (concat outss)));
    [|done|by left|intros yss outss h' O HR; apply does_ret; [by eapply only_wf|done]].
  revert h Hw Hs. destruct 2 as (H & Hnd). revert h Hw H Hnd. revert xs dss. induction Fs as [|F Fs IH]; intros xs dss h Hw H Hnd; inversion H as [|? a ds ? xs' dss' Hst Hrest]; subst; cbn [mapM mapR concat] in *.
  { apply does_ret; [done|]. apply results_nil. }
  apply NoDup_app in Hnd as (Hn1 & Hn12 & Hn2).
  assert (forall z, z ∈ concat Fs -> (z < next h)%nat) as Hlt by (intros z Hz; eapply separate_lt; [done|split; [exact Hrest|done]|done]).
  eapply does_bind; [by apply (HG h F a ds)|done|set_solver|]. intros ys outs h1 O1 HR1.
  assert (wf h1) as Hw1 by by eapply only_wf. assert (next h <= next h1)%nat as L1 by by eapply only_next.
  assert (separate h1 Fs xs' dss') as (Hs1 & _).
  { eapply separate_only; [exact O1| |by split]. intros z Hz. split; [by apply Hlt|]. intros Hz2. by apply (Hn12 z). }
  eapply does_bind; [by apply IH|lia|set_solver|]. intros yss outss h2 O2 HR2. apply does_ret; [by eapply only_wf|]. cbn [concat].
  by eapply (results_two _ _ _ h h1).
Qed.
Lemma iter_spec m f : (forall h F a ds, wf h -> stands h F a ds -> NoDup F -> does (next h) F (m a) (f ds) (fun h' (_ : unit) ds' => stands h' F a ds') h) ->
  forall h Fs xs dss, wf h -> separate h Fs xs dss ->
  does (next h) (concat Fs) (iterM m xs) (mapR f dss) (fun h' _ dss' => separate h' Fs xs dss') h.
Proof.
  intros Hm h Fs xs dss Hw (H & Hnd). revert h Hw H Hnd. revert xs dss. induction Fs as [|F Fs IH]; intros xs dss h Hw H Hnd; inversion H as [|? a ds ? xs' dss' Hst Hrest]; subst; cbn [iterM mapR concat] in *.
  { apply does_ret; [done|]. split; constructor. }
  pose proof Hnd as Hnd'. apply NoDup_app in Hnd as (Hn1 & Hn12 & Hn2).
  assert (forall z, z ∈ concat Fs -> (z < next h)%nat) as Hlt by (intros z Hz; eapply separate_lt; [done|split; [exact Hrest|done]|done]).
  eapply does_bind; [by apply Hm|done|set_solver|]. intros [] ds' h1 O1 HR1.
  assert (wf h1) as Hw1 by by eapply only_wf. assert (next h <= next h1)%nat as L1 by by eapply only_next.
  assert (separate h1 Fs xs' dss') as (Hs1 & _).
  { eapply separate_only; [exact O1| |by split]. intros z Hz. split; [by apply Hlt|]. intros Hz2. by apply (Hn12 z). }
  eapply (does_map _ _ _ _ _ (fun h2 (_ : unit) dss2 => only (next h1) (concat Fs) h1 h2 /\ separate h2 Fs xs' dss2)).
  - eapply does_weaken; [by apply IH|lia|set_solver|]. done.
  - intros h2 [] dss2 _ (O2 & Hs2 & _). split; [|done]. constructor; [|done]. eapply stands_only; [exact O2| |exact HR1].
    intros z Hz. split; [by eapply stands_lt|]. by apply Hn12.
Qed.
Lemma modD_spec f : (forall ds ds', f ds = Ok ds' -> d_exchanges ds' = d_exchanges ds) -> forall h F a ds, wf h -> stands h F a ds -> NoDup F ->
  does (next h) F (modD f a) (f ds) (fun h' _ ds' => stands h' F a ds') h.
Proof.
  intros Hf h F a ds Hw H Hnd. unfold modD. eapply does_read; [by eapply readD_eq|]. apply does_lift_end; [done|]. intros ds' Hds'.
  destruct (getD_eq _ _ _ _ H) as (exs & -> & Hg & He). eapply does_read; [exact Hg|]. cbn [snd].
  assert (a < next h)%nat as La by (eapply stands_lt; [done|exact H|by left]).
  destruct (put_spec h a (Dat (set_d_exchanges [] ds') exs) Hw La) as (r & h' & Hm & O & [] & -> & Hc).
  exists (Ok tt), h'. split; [done|]. split; [eapply only_weaken; [exact O|done|set_solver]|]. exists tt. split; [done|].
  exists exs. split; [done|]. split; [done|]. rewrite (Hf _ _ Hds'). eapply Forall2_holds_only; [exact O| |exact He].
  intros z Hz. split; [by eapply Forall2_holds_lt|]. intros ->%elem_of_list_singleton. apply NoDup_cons in Hnd as (Hna & _). done.
Qed.
Lemma without_products_copies ln recalc : same_length recalc -> copies (without_products_h ln recalc) (combined_production_without_products ln recalc).
Proof.
  intros Hlen h F a ds Hw H Hnd. unfold without_products_h, combined_production_without_products.
  eapply does_bind; [exact (combined_copies recalc Hlen h F a ds Hw H Hnd)|done|nilF|]. intros parts vparts h1 O1 (Fs & Hs & HFs).
  assert (wf h1) as Hw1 by by eapply only_wf. assert (next h <= next h1)%nat as L1 by by eapply only_next.
  eapply does_weaken; [apply (concat_map_spec _ _ (split_refines ln)); [done|exact Hs]|done|done|].
  intros h2 ys outs _ HR. eapply results_weaken; [exact HR|done|done].
Qed.

(** ** Merging *)
Lemma elem_of_concat {A} (x : A) ls : x ∈ concat ls <-> exists l, x ∈ l /\ l ∈ ls.
Proof.
  induction ls as [|l ls IH]; cbn; [split; [by intros ?%elem_of_nil|by intros (? & _ & ?%elem_of_nil)]|]. rewrite elem_of_app, IH. split.
  - intros [?|(l' & ? & ?)]; [exists l|exists l']; (split; [done|]); [by left|by right].
  - intros (l' & ? & Hl). apply elem_of_cons in Hl as [-> |?]; [by left|right; by exists l'].
Qed.
Lemma mapR_map' {A B C} (f : B -> result C) (g : A -> B) l : mapR f (map g l) = mapR (fun x => f (g x)) l.
Proof. induction l as [|x l IH]; [done|]. cbn [map mapR]. by rewrite IH. Qed.
Lemma group_add_map {K A B} `{EqDecision K} (f : A -> B) (k : K) (x : A) groups :
  group_add k (f x) (map (fun g => (g.1, map f g.2)) groups) = map (fun g => (g.1, map f g.2)) (group_add k x groups).
Proof.
  induction groups as [|[k' xs] groups IH]; [done|]. cbn. destruct (decide (k = k')); cbn; [by rewrite map_app|]. by rewrite IH.
Qed.
Lemma groupby_map {K A B} `{EqDecision K} (f : A -> B) (l : list (K * A)) :
  groupby (map (fun p => (p.1, f p.2)) l) = map (fun g => (g.1, map f g.2)) (groupby l).
Proof.
  unfold groupby. change (@nil (K * list B)) with (map (fun g : K * list A => (g.1, map f g.2)) []).
  generalize (@nil (K * list A)). induction l as [|[k x] l IH]; intros groups; [done|]. cbn [map foldl fst snd]. rewrite group_add_map. apply IH.
Qed.

(** A dataset with its objects and its address. *)
Definition thing : Type := list nat * (nat * dataset).
Definition stand (h : heap) (t : thing) : Prop := stands h t.1 t.2.1 t.2.2.
Definition objects (ts : list thing) : list nat := concat (map (fun t => t.1) ts).
Lemma separate_things h Fs xs dss : separate h Fs xs dss -> exists ts : list thing,
  Fs = map (fun t => t.1) ts /\ xs = map (fun t => t.2.1) ts /\ dss = map (fun t => t.2.2) ts /\ Forall (stand h) ts /\ NoDup (objects ts).
Proof.
  intros (H & Hnd). assert (exists ts : list thing, Fs = map (fun t => t.1) ts /\ xs = map (fun t => t.2.1) ts /\ dss = map (fun t => t.2.2) ts /\ Forall (stand h) ts) as (ts & -> & ? & ? & ?).
  { clear Hnd. induction H as [|F a ds Fs xs dss H _ (ts & -> & -> & -> & IH)]; [by exists []|]. exists ((F, (a, ds)) :: ts). split_and!; [done..|]. by constructor. }
  by exists ts.
Qed.
Lemma things_separate h ts : Forall (stand h) ts -> NoDup (objects ts) -> separate h (map (fun t => t.1) ts) (map (fun t => t.2.1) ts) (map (fun t => t.2.2) ts).
Proof. intros H Hnd. split; [|done]. clear Hnd. induction H; cbn; constructor; done. Qed.
Lemma things_lt h ts x : wf h -> Forall (stand h) ts -> x ∈ objects ts -> (x < next h)%nat.
Proof.
  intros Hw H. induction H as [|t ts Ht _ IH]; [by intros ?%elem_of_nil|]. unfold objects. cbn. rewrite elem_of_app. intros [Hx|Hx]; [by eapply stands_lt|by apply IH].
Qed.
Lemma things_only n F h h' ts : only n F h h' -> (forall x, x ∈ objects ts -> (x < n)%nat /\ x ∉ F) -> Forall (stand h) ts -> Forall (stand h') ts.
Proof.
  intros Ho HF H. induction H as [|t ts Ht _ IH]; constructor.
  - eapply stands_only; [exact Ho| |exact Ht]. intros x Hx. apply HF. unfold objects. cbn. apply elem_of_app. by left.
  - apply IH. intros x Hx. apply HF. unfold objects. cbn. apply elem_of_app. by right.
Qed.

Lemma add_spec h (p c : thing) : wf h -> stand h p -> NoDup p.1 -> stand h c -> (forall x, x ∈ p.1 -> x ∉ c.1) ->
  does (next h) p.1 (add_h p.2.1 c.2.1) (add_exchanges p.2.2 c.2.2) (fun h' b ds => b = p.2.1 /\ stands h' p.1 b ds) h.
Proof.
  destruct p as [F [a ds]], c as [F' [a' ds']]. unfold stand. cbn [fst snd]. intros Hw H Hnd H' Hd. unfold add_h, add_exchanges.
  eapply does_read; [by eapply readD_eq|]. apply does_lift; [done|]. intros _ _.
  destruct (getD_eq _ _ _ _ H) as (exs & -> & Hg & He). eapply does_read; [exact Hg|]. cbn [snd].
  eapply does_bind; [by eapply mods_stands|done|by left|]. intros [] es h1 O1 Hst. apply does_ret; [by eapply only_wf|done].
Qed.
Lemma adds_spec cs : forall h (p : thing), wf h -> stand h p -> NoDup p.1 -> Forall (stand h) cs -> (forall x, x ∈ p.1 -> x ∉ objects cs) ->
  does (next h) p.1 (foldM add_h p.2.1 (map (fun t => t.2.1) cs)) (foldR add_exchanges p.2.2 (map (fun t => t.2.2) cs))
    (fun h' b ds => b = p.2.1 /\ stands h' p.1 b ds) h.
Proof.
  induction cs as [|c cs IH]; intros h p Hw H Hnd Hcs Hd; cbn [map foldM foldR].
  { by apply does_ret. }
  inversion Hcs as [|? ? Hc Hcs']; subst. unfold objects in Hd. cbn [map concat] in Hd.
  eapply does_bind; [apply (add_spec h p c Hw H Hnd Hc)|done|by left|].
  { intros x Hx Hx'. apply (Hd x Hx). apply elem_of_app. by left. }
  intros b ds h1 O1 (-> & Hst). assert (wf h1) as Hw1 by by eapply only_wf.
  eapply does_weaken; [apply (IH h1 (p.1, (p.2.1, ds)) Hw1 Hst Hnd)|by eapply only_next|by left|done].
  - eapply things_only; [exact O1| |exact Hcs']. intros x Hx. split; [by eapply things_lt|]. intros Hx'. apply (Hd x Hx').
    apply elem_of_app. by right.
  - intros x Hx Hx'. apply (Hd x Hx). apply elem_of_app. by right.
Qed.
Lemma groups_spec gs : forall h, wf h -> Forall (Forall (stand h)) gs -> Forall (fun g => g <> []) gs -> NoDup (objects (concat gs)) ->
  does (next h) (objects (concat gs)) (mapM (fun g => merge_group_h (map (fun t : thing => t.2.1) g)) gs) (mapR (fun g => merge_group (map (fun t : thing => t.2.2) g)) gs)
    (fun h' xs dss => results (next h) (objects (concat gs)) h' xs dss) h.
Proof.
  induction gs as [|g gs IH]; intros h Hw H Hne Hnd; cbn [mapM mapR].
  { apply does_ret; [done|]. apply results_nil. }
  inversion H as [|? ? Hg Hgs]; subst. inversion Hne as [|? ? Hg0 Hne']; subst. destruct g as [|p cs]; [done|].
  cbn [concat] in *. cbn [app] in *. unfold objects in *. cbn [map concat] in *. rewrite map_app, concat_app in *.
  inversion Hg as [|? ? Hp Hcs]; subst.
  apply NoDup_app in Hnd as (Np & Hpd & Hnd). apply NoDup_app in Hnd as (Nc & Hcd & Hnd).
  cbn [merge_group_h merge_group map].
  eapply does_bind; [apply (adds_spec cs h p Hw Hp Np Hcs)|done|set_solver|].
  { intros x Hx Hx'. apply (Hpd x Hx). apply elem_of_app. by left. }
  intros b ds h1 O1 (-> & Hst). assert (wf h1) as Hw1 by by eapply only_wf. assert (next h <= next h1)%nat as L1 by by eapply only_next.
  assert (forall x, x ∈ concat (map (fun t : thing => t.1) (concat gs)) -> (x < next h)%nat) as Hlt.
  { intros x Hx. eapply (things_lt h (concat gs)); [done|by apply Forall_concat|exact Hx]. }
  eapply does_bind; [apply (IH h1 Hw1)|lia|set_solver|].
  - apply Forall_forall. intros g' Hg'. rewrite Forall_forall in Hgs.
    eapply things_only; [exact O1| |by apply Hgs]. intros x Hx.
    assert (x ∈ concat (map (fun t : thing => t.1) (concat gs))) as Hx'.
    { unfold objects in Hx. apply elem_of_concat in Hx as (F & HxF & HF). apply elem_of_concat. exists F. split; [done|].
      apply elem_of_list_fmap in HF as (t & -> & Ht). apply elem_of_list_fmap. exists t. split; [done|]. apply elem_of_concat. by exists g'. }
    split; [by apply Hlt|]. intros Hx2. apply (Hpd x Hx2). apply elem_of_app. by right.
  - done.
  - done.
  - intros xs dss h2 O2 HR. apply does_ret; [by eapply only_wf|]. change (p.2.1 :: xs) with ([p.2.1] ++ xs). change (ds :: dss) with ([ds] ++ dss).
    eapply results_weaken; [eapply (results_two (next h) p.1 (concat (map (fun t : thing => t.1) (concat gs))) h h1); [done|exact O1| |exact Hlt|done| |exact O2|exact HR]|done|set_solver].
    + intros x Hx Hx'. apply (Hpd x Hx). apply elem_of_app. by right.
    + exists [p.1]. split; [by apply separate_one|]. cbn. rewrite app_nil_r. by left.
Qed.
Lemma mapM_readD h ts : Forall (stand h) ts -> mapM readD (map (fun t => t.2.1) ts) h = (Ok (map (fun t => t.2.2) ts), h).
Proof.
  induction 1 as [|t ts Ht _ IH]; [done|]. cbn [map mapM]. unfold bindM. rewrite (readD_eq _ _ _ _ Ht), IH. done.
Qed.
Lemma keyed_spec h ts : wf h -> Forall (stand h) ts ->
  does (next h) [] (mapM (fun a => let! ds := readD a in let! k := lift (activity_grouper ds) in retM (k, a)) (map (fun t => t.2.1) ts))
    (mapR (fun ds => let? k := activity_grouper ds in Ok (k, ds)) (map (fun t => t.2.2) ts))
    (fun h' ks vks => h' = h /\ exists l, map snd l = ts /\ ks = map (fun p => (p.1, p.2.2.1)) l /\ vks = map (fun p => (p.1, p.2.2.2)) l) h.
Proof.
  intros Hw. induction 1 as [|t ts Ht _ IH]; cbn [map mapM mapR].
  { apply does_ret; [done|]. split; [done|]. by exists []. }
  eapply (does_bind (next h) [] _ _ _ _ _ _ (fun h' kx kd => h' = h /\ exists k, kx = (k, t.2.1) /\ kd = (k, t.2.2))); [|done|nilF|].
  { eapply does_read; [by eapply readD_eq|]. apply does_lift; [done|]. intros k _. apply does_ret; [done|]. split; [done|]. by exists k. }
  intros kx kd ? _ (-> & k & -> & ->). eapply does_bind; [exact IH|done|nilF|]. intros ks vks ? _ (-> & l & Hl & -> & ->).
  apply does_ret; [done|]. split; [done|]. exists ((k, t) :: l). split_and!; [cbn; by rewrite Hl|done|done].
Qed.
Lemma merge_spec h Fs xs dss : wf h -> separate h Fs xs dss ->
  does (next h) (concat Fs) (merge_h xs) (merge_byproducts dss) (results (next h) (concat Fs)) h.
Proof.
  intros Hw Hs. destruct (separate_things _ _ _ _ Hs) as (ts & -> & -> & -> & Hts & Hnd). clear Hs. unfold merge_h, merge_byproducts.
  eapply does_read; [by apply mapM_readD|]. apply does_lift; [done|]. intros _ _.
  eapply does_bind; [by apply keyed_spec|done|nilF|]. intros ks vks ? _ (-> & l & Hl & -> & ->).
  rewrite (groupby_map (fun t : thing => t.2.1)), (groupby_map (fun t : thing => t.2.2)).
  pose proof (groupby_perm l) as Hp. rewrite Hl in Hp. set (gs := groupby l) in *.
  assert (forall x, x ∈ objects (concat (map snd gs)) <-> x ∈ objects ts) as Hobj.
  { intros x. unfold objects. by rewrite Hp. }
  assert (Forall (stand h) (concat (map snd gs))) as Hst by (by rewrite Hp).
  assert (forall {A B} (f : A -> M B) {C} (k : C -> A) (l : list C) h, mapM f (map k l) h = mapM (fun x => f (k x)) l h) as Hmm.
  { clear. intros A B f C k l. induction l as [|c l IH]; intros h; [done|]. cbn [map mapM]. unfold bindM. destruct (f (k c) h) as [[|] h']; [|done]. by rewrite IH. }
  assert (does (next h) (objects (concat (map snd gs))) (mapM (fun g => merge_group_h (map (fun t : thing => t.2.1) g)) (map snd gs))
    (mapR (fun g => merge_group (map (fun t : thing => t.2.2) g)) (map snd gs)) (results (next h) (objects (concat (map snd gs)))) h) as Hd.
  { apply groups_spec; [done| | |].
    - apply Forall_forall. intros g Hg. apply Forall_forall. intros t Ht. rewrite Forall_forall in Hst. apply Hst. apply elem_of_concat. by exists g.
    - apply Forall_forall. intros g Hg ->. apply elem_of_list_fmap in Hg as ([k g] & Heq & Hg). cbn in Heq. subst g.
      apply (proj2 (proj2 (groupby_spec l))) in Hg as (Hk & Hg). by apply (with_key_nonempty k l Hk).
    - unfold objects. by rewrite Hp. }
  destruct Hd as (r & h' & Hr & Ho & HR). exists r, h'. split_and!.
  - rewrite Hmm. rewrite Hmm in Hr. exact Hr.
  - eapply only_weaken; [exact Ho|done|]. intros x Hx. left. by apply Hobj.
  - rewrite mapR_map' in HR. rewrite mapR_map'. cbn [snd]. destruct (mapR _ gs) as [outs|]; [|done]. destruct HR as (a & -> & HR). exists a. split; [done|].
    eapply results_weaken; [exact HR|done|]. intros x Hx. left. by apply Hobj.
Qed.
Lemma with_byproducts_copies ln recalc : same_length recalc -> copies (with_byproducts_h ln recalc) (combined_production_with_byproducts ln recalc).
Proof.
  intros Hlen h F a ds Hw H Hnd. unfold with_byproducts_h, combined_production_with_byproducts.
  eapply does_bind; [exact (combined_copies recalc Hlen h F a ds Hw H Hnd)|done|nilF|]. intros parts vparts h1 O1 (Fs & Hs & HFs).
  assert (wf h1) as Hw1 by by eapply only_wf. assert (next h <= next h1)%nat as L1 by by eapply only_next.
  eapply does_bind; [apply (concat_map_spec _ _ (copies_refines _ _ (economic_copies ln))); [done|exact Hs]|done|done|].
  intros new vnew h2 O2 (Fs2 & Hs2 & HFs2). assert (wf h2) as Hw2 by by eapply only_wf. assert (next h1 <= next h2)%nat as L2 by by eapply only_next.
  assert (forall x, x ∈ concat Fs2 -> x ∈ [] \/ (next h <= x)%nat) as Hx2.
  { intros x Hx. destruct (HFs2 x Hx) as [Hx'|Hx']; [by apply HFs|right; lia]. }
  eapply does_weaken; [by apply merge_spec|lia|exact Hx2|]. intros h3 ys outs _ HR. eapply results_weaken; [exact HR|lia|exact Hx2].
Qed.

(** ** The whole allocation *)
Lemma no_allocation_refines : refines no_allocation_h no_allocation.
Proof.
  intros h F a ds Hw H Hnd. unfold no_allocation_h, no_allocation. eapply does_read; [by eapply readD_eq|]. apply does_lift; [done|]. intros ds' Hds'.
  assert (ds' = ds) as ->.
  { unfold check_single_output_activity in Hds'. apply bind_Ok in Hds' as (b & _ & Hds'). destruct (negb _), b; by inversion Hds'. }
  apply does_ret; [done|]. exists [F]. split; [by apply separate_one|]. cbn. rewrite app_nil_r. by left.
Qed.
Lemma wrapped_refines G g (filter_function : dataset -> result bool) : refines G g ->
  refines (fun a : nat => let! ds := readD a in let! b := lift (filter_function ds) in if (b : bool) then G a else retM [a])
    (fun ds => let? b := filter_function ds in if (b : bool) then g ds else Ok [ds]).
Proof.
  intros HG h F a ds Hw H Hnd. eapply does_read; [by eapply readD_eq|]. apply does_lift; [done|]. intros [] _; [by apply (HG h F a ds)|].
  apply does_ret; [done|]. exists [F]. split; [by apply separate_one|]. cbn. rewrite app_nil_r. by left.
Qed.
Lemma functions_refine ln recalc : same_length recalc ->
  Forall2 (fun f f' => f.1 = f'.1 /\ refines f.2 f'.2) (allocation_functions_h ln recalc) (allocation_functions ln recalc).
Proof.
  intros Hlen. unfold allocation_functions_h, allocation_functions. repeat first [apply List.Forall2_nil | apply List.Forall2_cons; [split; [reflexivity|cbn [snd]]|]].
  - apply no_allocation_refines.
  - apply no_allocation_refines.
  - apply copies_refines, economic_copies.
  - intros h F a ds Hw _ _. by apply does_err.
  - apply recycling_refines.
  - apply copies_refines, waste_copies.
  - by apply copies_refines, without_products_copies.
  - by apply copies_refines, combined_copies.
  - by apply copies_refines, with_byproducts_copies.
Qed.
Lemma fold_spec n F fs gs : Forall2 (fun f f' => f.1 = f'.1 /\ refines f.2 f'.2) fs gs -> forall h xs dss, wf h -> (n <= next h)%nat -> results n F h xs dss ->
  does n F (foldM (fun data lf => wrapped_h lf.2 (allocation_filter lf.1) data) xs fs)
    (foldR (fun data lf => wrapped lf.2 (allocation_filter lf.1) data) dss gs) (results n F) h.
Proof.
  induction 1 as [|f g fs gs (Hl & Hf) _ IH]; intros h xs dss Hw Hn HR; cbn [foldM foldR]; [by apply does_ret|].
  destruct HR as (Fs & Hs & HFs). unfold wrapped_h at 1, wrapped at 1. rewrite Hl.
  eapply does_bind; [apply (concat_map_spec _ _ (wrapped_refines _ _ (allocation_filter g.1) Hf)); [done|exact Hs]|done|exact HFs|].
  intros ys outs h1 O1 HR1. apply IH; [by eapply only_wf|etrans; [exact Hn|by eapply only_next]|]. eapply results_weaken; [exact HR1|done|exact HFs].
Qed.
Lemma allocation_proof ln recalc : same_length recalc -> forall h Fs xs dss, wf h -> separate h Fs xs dss ->
  does (next h) (concat Fs) (cutoff_allocation_h ln recalc xs) (cutoff_allocation ln recalc dss) (results (next h) (concat Fs)) h.
Proof.
  intros Hlen h Fs xs dss Hw Hs. unfold cutoff_allocation_h, cutoff_allocation, label_h, label_allocation_method.
  eapply does_bind; [apply (iter_spec _ (fun ds => let? l := choose_allocation_method ds in Ok (set_d_alloc (Some l) ds))); [|done|exact Hs]|done|by left|].
  { apply modD_spec. intros ds ds' (l & _ & [= <-])%bind_Ok. by destruct ds. }
  intros [] dss1 h1 O1 Hs1. assert (wf h1) as Hw1 by by eapply only_wf. assert (next h <= next h1)%nat as L1 by by eapply only_next.
  eapply does_bind; [apply (fold_spec (next h) (concat Fs) _ _ (functions_refine ln recalc Hlen) h1 xs dss1 Hw1 L1)|done|by left|].
  { exists Fs. split; [done|by left]. }
  intros ys outs h2 O2 (Fs2 & Hs2 & HFs2). assert (wf h2) as Hw2 by by eapply only_wf. assert (next h1 <= next h2)%nat as L2 by by eapply only_next.
  rewrite <- (mapR_pure delete_allocation_method).
  eapply does_bind_end; [apply (iter_spec _ (fun ds => Ok (delete_allocation_method ds))); [|done|exact Hs2]|lia|exact HFs2|].
  { apply modD_spec. intros ds ds' [= <-]. by destruct ds. }
  intros [] dss3 h3 O3 Hs3. apply does_ret; [by eapply only_wf|]. by exists Fs2.
Qed.
Lemma pass_proof f : forall h Fs xs dss, wf h -> separate h Fs xs dss ->
  does (next h) (concat Fs) (pass_h f xs)
    (mapR (on_exchanges f) dss)
    (fun h' _ dss' => separate h' Fs xs dss') h.
Proof.
  apply iter_spec. intros h F a ds Hw H Hnd. destruct (getD_eq _ _ _ _ H) as (exs & HF & Hg & He). eapply does_read; [exact Hg|]. cbn [fst snd].
  eapply does_map; [by eapply mods_stands|]. done.
Qed.

(** ** From nothing *)
Lemma news_spec es : forall h, wf h -> does (next h) [] (mapM (fun e => new (Exc e)) es) (Ok tt)
  (fun h' ys _ => Forall2 (holds h') ys es /\ NoDup ys /\ forall y, y ∈ ys -> (next h <= y)%nat) h.
Proof.
  induction es as [|e es IH]; intros h Hw; cbn [mapM].
  { apply does_ret; [done|]. split_and!; [constructor..|]. intros y Hy. by apply elem_of_nil in Hy. }
  eapply does_step; [by apply new_spec|done|nilF|]. intros y h1 G1 (Hy & Ly). assert (wf h1) as Hw1 by by eapply only_wf.
  eapply does_step; [by apply IH|by eapply only_next|nilF|]. intros ys h2 G2 (Hys & Hnd & Lys). apply does_ret; [by eapply only_wf|].
  split_and!.
  - constructor; [by eapply (holds_grows h1 h2)|done].
  - constructor; [|done]. intros Hin%Lys. pose proof (holds_lt _ _ _ Hw1 Hy). lia.
  - intros z Hz. apply elem_of_cons in Hz as [-> |Hz]; [done|]. etrans; [by eapply only_next|by apply Lys].
Qed.
Lemma store_spec h ds : wf h -> does (next h) [] (store ds) (Ok ds) (made (next h)) h.
Proof.
  intros Hw. unfold store. eapply does_step; [by apply news_spec|done|nilF|]. intros ys h1 G1 (Hys & Hnd & Hfresh).
  assert (wf h1) as Hw1 by by eapply only_wf.
  destruct (new_spec h1 (Dat (set_d_exchanges [] ds) ys) Hw1) as (r & h2 & Hr & O2 & b & -> & Hb & Lb).
  exists (Ok b), h2. split; [done|]. split; [eapply only_weaken; [exact O2|by eapply only_next|nilF]|]. exists b. split; [done|].
  exists (b :: ys). split_and!.
  - exists ys. split; [done|]. split; [done|]. by eapply (Forall2_grows h1 h2).
  - constructor; [|done]. intros Hin. pose proof (Forall2_holds_lt _ _ _ Hw1 Hys b Hin). lia.
  - intros x Hx. apply elem_of_cons in Hx as [-> |Hx]; [|by apply Hfresh]. etrans; [by eapply only_next|done].
Qed.
Lemma stores_proof h dss : wf h -> does (next h) [] (mapM store dss) (Ok dss) (results (next h) []) h.
Proof.
  intros Hw. rewrite <- (map_id dss) at 2. rewrite <- (mapR_pure (fun d => d)).
  eapply (makers_spec store (fun d => Ok d) (fun _ x y => x = y)); [|done|done|].
  - intros h' x ? Hw' <-. by apply store_spec.
  - induction dss; by constructor.
Qed.
Lemma reads_spec h Fs xs dss : separate h Fs xs dss -> mapM readD xs h = (Ok dss, h).
Proof. intros Hs. destruct (separate_things _ _ _ _ Hs) as (ts & -> & -> & -> & Hts & _). by apply mapM_readD. Qed.
Lemma wf_nothing : wf nothing.
Proof. intros x [c Hc]. unfold nothing in Hc. cbn [cells] in Hc. by rewrite lookup_empty in Hc. Qed.
Lemma run_proof ln recalc f dss : same_length recalc ->
  ((let! xs := mapM store dss in let! ys := cutoff_allocation_h ln recalc xs in let! _ := pass_h f ys in mapM readD ys) nothing).1
  = (let? outs := cutoff_allocation ln recalc dss in mapR (on_exchanges f) outs).
Proof.
  intros Hlen.
  assert (does 0 [] (let! xs := mapM store dss in let! ys := cutoff_allocation_h ln recalc xs in let! _ := pass_h f ys in mapM readD ys)
    (let? outs := cutoff_allocation ln recalc dss in mapR (on_exchanges f) outs) (fun _ a b => a = b) nothing) as (r & h' & -> & _ & H).
  - eapply does_step; [apply stores_proof, wf_nothing|lia|nilF|]. intros xs h1 O1 (Fs & Hs & _). assert (wf h1) as Hw1 by by eapply only_wf.
    eapply does_bind; [by apply allocation_proof|lia|intros; right; lia|]. intros ys outs h2 O2 (Fs2 & Hs2 & _). assert (wf h2) as Hw2 by by eapply only_wf.
    eapply does_bind_end; [by apply pass_proof|lia|intros; right; lia|]. intros [] dss3 h3 O3 Hs3.
    exists (Ok dss3), h3. split; [by eapply reads_spec|]. split; [apply only_refl; by eapply only_wf|]. by exists dss3.
  - cbn [fst]. destruct (let? outs := _ in _) as [b|]; [|done]. by destruct H as (a & -> & ->).
Qed.
Lemma untouched_proof G g : copies G g -> forall h F a ds r h', wf h -> stands h F a ds -> NoDup F -> G a h = (r, h') ->
  forall F2 b ds2, stands h F2 b ds2 -> stands h' F2 b ds2.
Proof.
  intros HG h F a ds r h' Hw H Hnd Hr F2 b ds2 H2. destruct (HG h F a ds Hw H Hnd) as (r2 & h2 & Hr2 & O & _).
  rewrite Hr in Hr2. injection Hr2 as <- <-. by eapply stands_grows.
Qed.
