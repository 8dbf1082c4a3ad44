From stdpp Require Import gmap.
From Verif Require Import Base Strings Types Utils Validation ActivityLinks Cutoff Locations Heap Spec_Heap Heap_proofs HeapLinks_proofs HeapHard.

Lemma does_same {A B} n F (m m' : M A) (v : result B) (R : heap -> A -> B -> Prop) h : m h = m' h -> does n F m' v R h -> does n F m v R h.
Proof. unfold does. by intros ->. Qed.

Lemma bindM_eq {A B} (m : M A) (k : A -> M B) h r h' : m h = (r, h') -> bindM m k h = match r with Ok a => k a h' | Err e => (Err e, h') end.
Proof. unfold bindM. by intros ->. Qed.

(** ** Datasets stay, exchanges change *)
Definition same_heads (h h' : heap) : Prop :=
  (forall a d exs, cells h !! a = Some (Dat d exs) -> cells h' !! a = Some (Dat d exs)) /\
  forall x e, holds h x e -> exists e', holds h' x e'.
Lemma same_heads_refl h : same_heads h h.
Proof. split; [done|]. intros x e H. by exists e. Qed.
Lemma same_heads_trans h1 h2 h3 : same_heads h1 h2 -> same_heads h2 h3 -> same_heads h1 h3.
Proof. intros [A B] [C D]. split; [auto|]. intros x e H. destruct (B x e H) as [e' H']. by eapply D. Qed.
Lemma modE_heads f x e h : holds h x e -> same_heads h (modE f x h).2.
Proof.
  intros H. unfold modE, bindM. rewrite (getE_eq _ _ _ H). unfold lift. destruct (f e) as [e'|]; [|apply same_heads_refl].
  unfold put, same_heads, holds in *. cbn. split.
  - intros a d exs Ha. rewrite lookup_insert_ne; [done|]. intros ->. congruence.
  - intros y e'' Hy. destruct (decide (y = x)) as [-> |Hn]; [rewrite lookup_insert; by eexists|]. rewrite lookup_insert_ne by done. by eexists.
Qed.
Lemma put_same h x e : holds h x e -> put x (Exc e) h = (Ok tt, h).
Proof. intros H. unfold put. rewrite insert_id by exact H. by destruct h. Qed.
Lemma modE_same f x e h : holds h x e -> f e = Ok e -> modE f x h = (Ok tt, h).
Proof. intros H Hf. unfold modE, bindM. rewrite (getE_eq _ _ _ H), Hf. unfold lift. by apply put_same. Qed.
Lemma modE_err f x e h er : holds h x e -> f e = Err er -> modE f x h = (Err er, h).
Proof. intros H Hf. unfold modE, bindM. rewrite (getE_eq _ _ _ H), Hf. done. Qed.
Lemma modE_as f g x e h : holds h x e -> f e = g e -> modE f x h = modE g x h.
Proof. intros H Hf. unfold modE, bindM. rewrite (getE_eq _ _ _ H), Hf. done. Qed.

Lemma iter_as P f exs : forall h0 h, same_heads h0 h ->
  (forall h' x e, same_heads h0 h' -> holds h' x e -> P x h' = modE f x h') ->
  Forall (fun x => exists e, holds h0 x e) exs -> iterM P exs h = iterM (modE f) exs h /\ same_heads h0 (iterM (modE f) exs h).2.
Proof.
  induction exs as [|x exs IH]; intros h0 h Hh HP Hx; [done|]. inversion Hx as [|? ? [e0 He0] Hxs]; subst. cbn [iterM].
  destruct (proj2 Hh x e0 He0) as [e He]. unfold bindM. rewrite (HP h x e Hh He). pose proof (modE_heads f x e h He) as Hs.
  destruct (modE f x h) as [[[]|er] h1]; cbn [snd] in Hs; [|split; [done|]; by eapply same_heads_trans].
  apply IH; [by eapply same_heads_trans|done|done].
Qed.
(** A program for each exchange which, as long as the datasets stay, changes the exchange
    with a function is a pass with that function. *)
Lemma loop_as P f h Fs xs dss : separate h Fs xs dss ->
  (forall h' x e, same_heads h h' -> holds h' x e -> P x h' = modE f x h') ->
  loop_h (fun _ => P) xs h = pass_h (fun _ => f) xs h.
Proof.
  intros (H & _) HP. unfold loop_h, pass_h.
  cut (forall h1, same_heads h h1 -> iterM (fun a => let! d := getD a in iterM P d.2) xs h1 = iterM (fun a => let! d := getD a in iterM (modE f) d.2) xs h1).
  { intros Hc. apply Hc, same_heads_refl. }
  induction H as [|F a ds Fs xs dss Hst _ IH]; intros h1 Hh; [done|]. cbn [iterM]. destruct Hst as (exs & -> & Ha & He).
  assert (forall Q : nat -> M unit, (let! d := getD a in iterM Q d.2) h1 = iterM Q exs h1) as Hg.
  { intros Q. rewrite (bindM_read _ _ _ (set_d_exchanges [] ds, exs)); [done|]. unfold getD. by rewrite (proj1 Hh _ _ _ Ha). }
  unfold bindM at 1. rewrite Hg. unfold bindM at 2. rewrite Hg.
  destruct (iter_as P f exs h h1 Hh HP) as (E & Hs).
  { apply Forall_forall. intros x Hx. apply elem_of_list_lookup in Hx as [i Hi]. destruct (Forall2_lookup_l _ _ _ _ _ He Hi) as (e & _ & Hxe). by exists e. }
  rewrite E. destruct (iterM (modE f) exs h1) as [[[]|er] h2]; [|done]. by apply IH.
Qed.

(** ** Reading heads *)
Definition head (h : heap) (a : nat) (ds : dataset) : Prop := exists exs, cells h !! a = Some (Dat (set_d_exchanges [] ds) exs).
Lemma head_get h a ds : head h a ds -> exists exs, getD a h = (Ok (set_d_exchanges [] ds, exs), h).
Proof. intros [exs H]. exists exs. unfold getD. by rewrite H. Qed.
Lemma head_stays h h' a ds : same_heads h h' -> head h a ds -> head h' a ds.
Proof. intros [H _] [exs Ha]. exists exs. by apply H. Qed.
Lemma separate_heads h Fs xs dss : separate h Fs xs dss -> Forall2 (head h) xs dss.
Proof. intros [H _]. induction H as [|F a ds Fs xs dss (exs & _ & Ha & _) _ IH]; constructor; [by exists exs|done]. Qed.

Lemma ids_read h xs dss : Forall2 (head h) xs dss -> ids_h xs h = (Ok (zip (map d_id dss) xs), h).
Proof.
  unfold ids_h. induction 1 as [|a ds xs dss H _ IH]; [done|]. cbn [mapM map zip zip_with]. destruct (head_get _ _ _ H) as (exs & Hg).
  unfold bindM at 1 2. rewrite Hg. cbn. unfold bindM at 1. rewrite IH. by destruct ds.
Qed.
Lemma concat_mapM_read {A B C} (f : A -> M (list B)) (g : C -> result (list B)) h xs cs :
  Forall2 (fun x c => f x h = (g c, h)) xs cs -> concat_mapM f xs h = (concat_mapR g cs, h).
Proof.
  intros H. unfold concat_mapM.
  assert (mapM f xs h = (mapR g cs, h)) as E.
  { induction H as [|x c xs cs Hx _ IH]; [done|]. cbn [mapM mapR]. unfold bindM at 1. rewrite Hx. destruct (g c); [|done]. unfold bindM. rewrite IH. by destruct (mapR g cs). }
  unfold bindM. rewrite E. unfold concat_mapR. by destruct (mapR g cs).
Qed.

(** ** [actualize_activity_links] *)
Lemma group_heads h xs dss i : Forall2 (head h) xs dss ->
  Forall2 (fun p ds => head h p.2 ds) (filterb (fun p => (p.1 =? i)%string) (zip (map d_id dss) xs)) (filterb (fun ds => (d_id ds =? i)%string) dss).
Proof.
  induction 1 as [|a ds xs dss H _ IH]; [constructor|]. unfold filterb in *. cbn [map zip zip_with List.filter fst]. destruct (d_id ds =? i)%string; [by constructor|done].
Qed.
Lemma same_products h name group dgroup : Forall2 (fun (p : string * nat) ds => head h p.2 ds) group dgroup ->
  match filterR (fun ds => let? rp := refprod ds in Ok (rp =? name)%string) dgroup with
  | Ok refs => exists bs, concat_mapM (fun p : string * nat => same_product_h name p.2) group h = (Ok bs, h) /\ Forall2 (head h) bs refs
  | Err er => concat_mapM (fun p : string * nat => same_product_h name p.2) group h = (Err er, h)
  end.
Proof.
  intros H. unfold concat_mapM.
  assert (match filterR (fun ds => let? rp := refprod ds in Ok (rp =? name)%string) dgroup with
    | Ok refs => exists bss, mapM (fun p : string * nat => same_product_h name p.2) group h = (Ok bss, h) /\ Forall2 (head h) (concat bss) refs
    | Err er => mapM (fun p : string * nat => same_product_h name p.2) group h = (Err er, h)
    end) as Hm.
  { induction H as [|p ds group dgroup Hp _ IH]; [exists []; split; [done|constructor]|]. cbn [filterR mapM]. destruct (head_get _ _ _ Hp) as (exs & Hg).
    assert (same_product_h name p.2 h = (let? rp := refprod ds in Ok (if (rp =? name)%string then [p.2] else []), h)) as E.
    { unfold same_product_h. erewrite bindM_read by exact Hg. cbn [fst]. unfold bindM, lift. destruct ds. unfold refprod. cbn. by destruct (getkey _ _). }
    rewrite (bindM_eq _ _ _ _ _ E). destruct (refprod ds) as [rp|]; cbn [bind]; [|reflexivity].
    destruct (filterR _ dgroup) as [refs|er]; cbn [bind].
    - destruct IH as (bss & IH & HF). exists ((if (rp =? name)%string then [p.2] else []) :: bss). split; [unfold bindM; by rewrite IH|].
      destruct (rp =? name)%string; cbn; [by constructor|done].
    - unfold bindM. by rewrite IH. }
  destruct (filterR _ dgroup) as [refs|er].
  - destruct Hm as (bss & Hm & HF). exists (concat bss). split; [|done]. unfold bindM. by rewrite Hm.
  - unfold bindM. by rewrite Hm.
Qed.
Lemma code_as h x e b ds : holds h x e -> head h b ds ->
  (let! d := getD b in let! c := lift (getkey "code" (d_code d.1)) in modE (fun e => Ok (set_e_code (Some c) e)) x) h
  = modE (fun e => let? c := getkey "code" (d_code ds) in Ok (set_e_code (Some c) e)) x h.
Proof.
  intros Hx Hb. destruct (head_get _ _ _ Hb) as (exs & Hg). erewrite bindM_read by exact Hg. cbn [fst]. unfold bindM at 1, lift.
  assert (d_code (set_d_exchanges [] ds) = d_code ds) as -> by by destruct ds. destruct (getkey _ (d_code ds)) as [c|er] eqn:E; [by apply (modE_as _ _ _ e)|]. symmetry. by apply (modE_err _ _ e).
Qed.
Lemma actualize_as h xs dss x e : Forall2 (head h) xs dss -> holds h x e ->
  actualize_link_h (zip (map d_id dss) xs) x h = modE (actualize_link dss) x h.
Proof.
  intros Hh Hx. unfold actualize_link_h. erewrite bindM_read by by apply getE_eq.
  destruct (e_link e) as [i|] eqn:El; [|by rewrite (modE_same _ _ e) by (unfold actualize_link; by rewrite ?El)].
  destruct (i =? "")%string eqn:Ei; [by rewrite (modE_same _ _ e) by (unfold actualize_link; by rewrite ?El, ?Ei)|].
  pose proof (group_heads h xs dss i Hh) as Hg.
  assert (actualize_link dss e = match filterb (fun ds => (d_id ds =? i)%string) dss with
     | [] => Err (KeyError i)
     | group => let? refs := filterR (fun ds => let? rp := refprod ds in Ok (rp =? e_name e)%string) group in
            match refs with [ds] => let? c := getkey "code" (d_code ds) in Ok (set_e_code (Some c) e) | _ => Ok e end end) as Ea.
  { unfold actualize_link. by rewrite El, Ei. }
  destruct Hg as [|p ds group dgroup Hp Hg]; [symmetry; by rewrite (modE_err _ _ e _ _ Hx Ea)|].
  pose proof (same_products h (e_name e) (p :: group) (ds :: dgroup) ltac:(by constructor)) as Hs.
  destruct (filterR _ (ds :: dgroup)) as [refs|er]; cbn [bind] in Ea.
  - destruct Hs as (bs & Hs & HF). erewrite bindM_read by exact Hs. destruct HF as [|b d1 bs refs Hb [|]].
    + symmetry. by apply (modE_same _ _ e).
    + rewrite (code_as h x e b d1 Hx Hb). symmetry. by apply (modE_as _ _ _ e).
    + symmetry. by apply (modE_same _ _ e).
  - unfold bindM. rewrite Hs. symmetry. by apply (modE_err _ _ e).
Qed.
Lemma Forall2_heads_stay h h' xs dss : same_heads h h' -> Forall2 (head h) xs dss -> Forall2 (head h') xs dss.
Proof. intros Hs H. eapply Forall2_impl; [exact H|]. intros. by eapply head_stays. Qed.
Lemma actualize_proof h Fs xs dss : wf h -> separate h Fs xs dss ->
  does (next h) (concat Fs) (actualize_h xs) (actualize_activity_links dss) (fun h' _ dss' => separate h' Fs xs dss') h.
Proof.
  intros Hw Hs. pose proof (separate_heads _ _ _ _ Hs) as Hh. unfold actualize_h. eapply does_read; [by apply ids_read|].
  eapply does_same; [|apply (pass_proof (fun _ => actualize_link dss) h Fs xs dss Hw Hs)].
  eapply loop_as; [exact Hs|]. intros h' x e Hsh Hx. apply (actualize_as _ _ _ _ e); [|done]. by eapply Forall2_heads_stay.
Qed.

(** ** [link_consumers_to_recycled_content_activities] *)
Lemma producers_read h xs dss : Forall2 (head h) xs dss ->
  match rc_producers dss with
  | Ok ps => exists qs, rc_producers_h xs h = (Ok qs, h) /\ Forall2 (fun q p => q.1 = p.1 /\ head h q.2 p.2) qs ps
  | Err er => rc_producers_h xs h = (Err er, h)
  end.
Proof.
  intros H. unfold rc_producers, rc_producers_h, concat_mapM, concat_mapR.
  set (f := fun a : nat => let! d := getD a in let! rp := lift (refprod d.1) in
    retM (if str_contains RC_STRING rp && is_type Transforming d.1 then [(rp, a)] else [])).
  set (g := fun ds => let? rp := refprod ds in Ok (if str_contains RC_STRING rp && is_type Transforming ds then [(rp, ds)] else [])).
  assert (match mapR g dss with
    | Ok ps => exists qs, mapM f xs h = (Ok qs, h) /\ Forall2 (fun q p => q.1 = p.1 /\ head h q.2 p.2) (concat qs) (concat ps)
    | Err er => mapM f xs h = (Err er, h)
    end) as Hm.
  { induction H as [|a ds xs dss Hp _ IH]; [exists []; split; [done|constructor]|]. cbn [mapR mapM]. destruct (head_get _ _ _ Hp) as (exs & Hg).
    assert (f a h = (let? rp := refprod ds in Ok (if str_contains RC_STRING rp && is_type Transforming ds then [(rp, a)] else []), h)) as E.
    { unfold f. erewrite bindM_read by exact Hg. cbn [fst]. change (refprod (set_d_exchanges [] ds)) with (refprod ds). unfold bindM, lift. by destruct (refprod ds). }
    rewrite (bindM_eq _ _ _ _ _ E). unfold g at 1. destruct (refprod ds) as [rp|]; cbn [bind]; [|reflexivity].
    destruct (mapR g dss) as [ps|er]; cbn [bind].
    - destruct IH as (qs & IH & HF). eexists. split; [unfold bindM; by rewrite IH|]. cbn [concat].
      destruct (_ && _); cbn; [by constructor|done].
    - unfold bindM. by rewrite IH. }
  destruct (mapR g dss) as [ps|er]; cbn [fmapR bind].
  - destruct Hm as (qs & Hm & HF). exists (concat qs). split; [|done]. unfold bindM. by rewrite Hm.
  - unfold bindM. by rewrite Hm.
Qed.
Lemma link_rc_as h qs ps x e : Forall2 (fun (q : string * nat) (p : string * dataset) => q.1 = p.1 /\ head h q.2 p.2) qs ps -> holds h x e ->
  link_rc_h qs x h = modE (link_rc ps) x h.
Proof.
  intros Hq Hx. unfold link_rc_h. erewrite bindM_read by by apply getE_eq.
  destruct (unlinked e) eqn:Eu; [|by rewrite (modE_same _ _ e) by (unfold link_rc; by rewrite ?Eu)].
  assert (Forall2 (fun (q : string * nat) (p : string * dataset) => q.1 = p.1 /\ head h q.2 p.2)
    (filterb (fun q => (q.1 =? e_name e)%string) qs) (filterb (fun p => (p.1 =? e_name e)%string) ps)) as Hf.
  { unfold filterb. induction Hq as [|q p qs ps [E1 E2] _ IH]; [constructor|]. cbn. rewrite E1. destruct (_ =? _)%string; [by constructor|done]. }
  assert (link_rc ps e = match filterb (fun p => (p.1 =? e_name e)%string) ps with
    | [p] => let? c := getkey "code" (d_code p.2) in Ok (set_e_code (Some c) e) | _ => Ok e end) as El by (unfold link_rc; by rewrite Eu).
  destruct Hf as [|q p qs' ps' [_ Hh] [|]].
  - symmetry. by apply (modE_same _ _ e).
  - rewrite (code_as h x e q.2 p.2 Hx Hh). symmetry. by apply (modE_as _ _ _ e).
  - symmetry. by apply (modE_same _ _ e).
Qed.
Lemma recycled_proof h Fs xs dss : wf h -> separate h Fs xs dss ->
  does (next h) (concat Fs) (link_recycled_h xs) (link_consumers_to_recycled_content_activities dss) (fun h' _ dss' => separate h' Fs xs dss') h.
Proof.
  intros Hw Hs. pose proof (separate_heads _ _ _ _ Hs) as Hh. unfold link_recycled_h, link_consumers_to_recycled_content_activities.
  pose proof (producers_read h xs dss Hh) as Hp. destruct (rc_producers dss) as [ps|er]; cbn [bind].
  - destruct Hp as (qs & Hp & HF). eapply does_read; [exact Hp|].
    eapply does_same; [|apply (pass_proof (fun _ => link_rc ps) h Fs xs dss Hw Hs)].
    eapply loop_as; [exact Hs|]. intros h' x e Hsh Hx. apply (link_rc_as _ _ _ _ e); [|done].
    eapply Forall2_impl; [exact HF|]. intros q p [? ?]. split; [done|]. by eapply head_stays.
  - exists (Err er), h. split; [unfold bindM; by rewrite Hp|]. split; [by apply only_refl|done].
Qed.

(** ** [add_hard_linked_production_volumes] *)
(** What is kept of an exchange and of a dataset: all that is read. *)
Definition like (e e' : exchange) : Prop :=
  e_type e' = e_type e /\ e_class e' = e_class e /\ e_link e' = e_link e /\ e_name e' = e_name e /\ e_amount e' = e_amount e /\
  option_map v_amount (e_pv e') = option_map v_amount (e_pv e).
Definition likeD (d d' : dataset) : Prop := d_id d' = d_id d /\ Forall2 like (d_exchanges d) (d_exchanges d').
Lemma like_refl e : like e e.
Proof. done. Qed.
Lemma likeD_refl d : likeD d d.
Proof. split; [done|]. induction (d_exchanges d); constructor; done. Qed.
Lemma like_added x e e0 e' : like e0 e -> add_subtracted x e = Ok e' -> like e0 e'.
Proof.
  intros (H1 & H2 & H3 & H4 & H5 & H6). unfold add_subtracted. intros (v & Hv & [= <-])%bind_Ok. destruct (e_pv e) as [v'|] eqn:E; [|done]. cbn in Hv. injection Hv as ->.
  unfold like. destruct e. cbn in *. split_and!; done.
Qed.
Lemma like_link e e' : like e e' -> link_truthy e' = link_truthy e.
Proof. intros (_ & _ & H & _). unfold link_truthy. by rewrite H. Qed.
Lemma like_ratio d d' : likeD d d' -> get_biggest_pv_to_exchange_ratio d' = get_biggest_pv_to_exchange_ratio d.
Proof.
  intros [_ H]. unfold get_biggest_pv_to_exchange_ratio, reference_products.
  assert (forall (f : exchange -> result Qc), True) as _ by done.
  match goal with |- bind ?A _ = bind ?B _ => assert (A = B) as ->; [|done] end.
  unfold filterb. induction H as [|e e' es es' (H1 & _ & _ & _ & H5 & H6) _ IH]; [done|]. cbn [List.filter]. rewrite H1.
  destruct (bool_decide _); [|done]. cbn [List.filter]. rewrite H5. destruct (Qctruthy _); [|done]. cbn [mapR]. rewrite IH, H5.
  destruct (e_pv e) as [v|], (e_pv e') as [v'|]; try done. cbn in *. injection H6 as ->. done.
Qed.

Lemma target_split i : forall xs cur, length xs = length cur ->
  match last_with i (zip (map d_id cur) xs) with
  | None => dataset_by_id cur i = None
  | Some b => exists m d, xs !! m = Some b /\ cur !! m = Some d /\ dataset_by_id cur i = Some d /\
      forall f, update_by_id cur i f = let? d' := f d in Ok (<[m := d']> cur)
  end.
Proof.
  unfold last_with. induction xs as [|a xs IH]; intros [|d cur] Hl; try done. injection Hl as Hl. specialize (IH cur Hl).
  cbn [map zip zip_with]. unfold filterb in *. cbn [List.filter fst].
  destruct (last (map snd (List.filter _ (zip (map d_id cur) xs)))) as [b|] eqn:El.
  - destruct IH as (m & d1 & H1 & H2 & H3 & H4).
    assert (last (map snd (if (d_id d =? i)%string then (d_id d, a) :: List.filter (fun p => (p.1 =? i)%string) (zip (map d_id cur) xs)
      else List.filter (fun p => (p.1 =? i)%string) (zip (map d_id cur) xs))) = Some b) as ->.
    { destruct (d_id d =? i)%string; [|done]. cbn [map snd]. rewrite last_cons. by rewrite El. }
    exists (S m), d1. cbn [lookup list_lookup dataset_by_id update_by_id]. rewrite H3. split_and!; [done..|]. intros f. rewrite H4. by destruct (f d1).
  - cbn [dataset_by_id update_by_id]. rewrite IH. destruct (d_id d =? i)%string; [|by rewrite El]. cbn [map snd]. rewrite last_cons, El.
    exists 0, d. split_and!; [done..|]. intros f. by destruct (f d).
Qed.

Lemma mod_one g (c : exchange -> bool) h ys es y : wf h -> Forall2 (holds h) ys es -> NoDup ys -> y ∈ ys ->
  (forall z e, z ∈ ys -> holds h z e -> (c e = true <-> z = y)) ->
  does (next h) [y] (modE g y) (mapR (fun e => if c e then g e else Ok e) es)
    (fun h' _ es' => Forall2 (holds h') ys es' /\ exists e e', g e = Ok e' /\ Forall2 (fun x x' => x' = x \/ x = e /\ x' = e') es es') h.
Proof.
  intros Hw He Hnd Hy Huniq. apply elem_of_list_split in Hy as (xs1 & xs2 & ->).
  apply Forall2_app_inv_l in He as (es1 & es2' & He1 & He2 & ->). inversion He2 as [|? e ? es2 Hx He2']; subst. clear He2.
  apply NoDup_app in Hnd as (Hn1 & Hn12 & Hn2). apply NoDup_cons in Hn2 as (Hx2 & Hn2).
  assert (forall zs es, Forall2 (holds h) zs es -> (forall z, z ∈ zs -> z ∈ xs1 ++ y :: xs2 /\ z <> y) ->
    mapR (fun e => if c e then g e else Ok e) es = Ok es) as Hsame.
  { clear -Huniq. induction 1 as [|z e' zs es Hz _ IH]; intros Hzs; [done|]. cbn [mapR]. destruct (Hzs z ltac:(by left)) as (Hz1 & Hz2).
    destruct (c e') eqn:Ec; [by destruct Hz2; apply (Huniq z e')|]. cbn [bind]. rewrite IH; [done|]. intros x Hx. apply Hzs. by right. }
  assert (mapR (fun e => if c e then g e else Ok e) (es1 ++ e :: es2) = let? e' := g e in Ok (es1 ++ e' :: es2)) as ->.
  { rewrite mapR_app, (Hsame xs1 es1 He1).
    - cbn [bind mapR]. assert (c e = true) as -> by (apply (Huniq y e); [apply elem_of_app; right; by left|done|done]).
      rewrite (Hsame xs2 es2 He2'). { by destruct (g e). } intros z Hz. split; [apply elem_of_app; right; by right|]. by intros ->.
    - intros z Hz. split; [apply elem_of_app; by left|]. intros ->. apply (Hn12 y Hz). by left. }
  assert (does (next h) [y] (modE g y) (g e) (fun h' _ e' => holds h' y e' /\ g e = Ok e') h) as Hd.
  { destruct (modE_spec g h y e Hw Hx) as (r & h' & E1 & E2 & E3). exists r, h'. split; [done|]. split; [done|].
    destruct (g e) as [e'|]; [|done]. destruct E3 as (u & -> & E3). by exists u. }
  eapply does_map; [exact Hd|]. intros h' [] e' Ho (He' & Hg). split.
  - apply Forall2_app; [|constructor; [done|]].
    + eapply Forall2_holds_only; [exact Ho| |exact He1]. intros z Hz. split; [by apply (Forall2_holds_lt _ _ _ Hw He1)|].
      intros ->%elem_of_list_singleton. apply (Hn12 y Hz). by left.
    + eapply Forall2_holds_only; [exact Ho| |exact He2']. intros z Hz. split; [by apply (Forall2_holds_lt _ _ _ Hw He2')|].
      by intros ->%elem_of_list_singleton.
  - exists e, e'. split; [done|]. apply Forall2_app; [apply Forall_Forall2_diag, Forall_forall; by left|]. constructor; [by right|]. apply Forall_Forall2_diag, Forall_forall. by left.
Qed.

Lemma separate_update y h h' Fs xs cur m G b d' : wf h -> separate h Fs xs cur -> only (next h) [y] h h' ->
  Fs !! m = Some G -> xs !! m = Some b -> y ∈ G -> stands h' G b d' -> separate h' Fs xs (<[m := d']> cur).
Proof.
  intros Hw Hs Ho HG Hb Hy Hst. pose proof (fun x => separate_lt h Fs xs cur x Hw Hs) as Hlt. destruct Hs as (H & Hnd). split; [|done].
  revert m HG Hb. induction H as [|F a ds Fs xs dss Ha Hrest IH]; intros m HG Hb; [done|]. cbn [concat] in *. apply NoDup_app in Hnd as (N1 & N2 & N3).
  destruct m as [|m].
  - cbn in HG, Hb. injection HG as ->. injection Hb as ->. cbn. constructor; [done|].
    assert (separate h Fs xs dss) as Hs by done.
    apply (separate_only (next h) [y] h h') in Hs as [Hs _]; [exact Hs|exact Ho|]. intros x Hx. split; [apply Hlt, elem_of_app; by right|].
    intros ->%elem_of_list_singleton. by apply (N2 y).
  - cbn in HG, Hb |- *. constructor; [|apply IH; try done; intros x Hx; apply Hlt, elem_of_app; by right].
    eapply stands_only; [exact Ho| |exact Ha]. intros x Hx. split; [apply Hlt, elem_of_app; by left|].
    intros ->%elem_of_list_singleton. apply (N2 y Hx). apply elem_of_concat. exists G. split; [done|]. by eapply elem_of_list_lookup_2.
Qed.
Lemma separate_at h Fs xs cur k a : separate h Fs xs cur -> xs !! k = Some a -> exists F c, Fs !! k = Some F /\ cur !! k = Some c /\ stands h F a c /\ NoDup F.
Proof.
  intros (H & Hnd). revert k. induction H as [|F b ds Fs xs cur Hst _ IH]; intros k Hk; [done|]. cbn in Hnd. apply NoDup_app in Hnd as (N1 & _ & N3).
  destruct k as [|k]; [injection Hk as ->; by exists F, ds|]. by apply (IH N3 k).
Qed.

Lemma bind_pure {A B C} (r : result A) (g : A -> B) (k : B -> result C) : bind (let? x := r in Ok (g x)) k = let? x := r in k (g x).
Proof. by destruct r. Qed.
Lemma ids_like dss cur : Forall2 likeD dss cur -> map d_id dss = map d_id cur.
Proof. induction 1 as [|d d' dss cur [H _] _ IH]; [done|]. cbn. by rewrite IH, H. Qed.
Lemma separate_length h Fs xs cur : separate h Fs xs cur -> length xs = length cur.
Proof. intros [H _]. induction H; cbn; congruence. Qed.

Section Hard.
Context (Fs : list (list nat)) (xs : list nat) (dss : list dataset).
Local Notation ids := (zip (map d_id dss) xs).
Definition hard_state (h : heap) (cur : list dataset) : Prop := separate h Fs xs cur /\ Forall2 likeD dss cur.

Lemma hard_step h cur k a ds F exs j x exc : wf h -> hard_state h cur -> xs !! k = Some a -> dss !! k = Some ds -> Fs !! k = Some F -> F = a :: exs ->
  exs !! j = Some x -> d_exchanges ds !! j = Some exc ->
  does (next h) (concat Fs) (hard_link_h ids a x) (add_hard_link ds cur exc) (fun h' _ cur' => hard_state h' cur') h.
Proof.
  intros Hw [Hs Hl] Ha Hds HF HFe Hx Hexc. destruct (separate_at h Fs xs cur k a Hs Ha) as (F' & c & HF' & Hc & Hst & Hnd).
  assert (F' = F) as -> by congruence. subst F. destruct (getD_eq _ _ _ _ Hst) as (exs' & [= <-] & Hg & He).
  destruct (Forall2_lookup_l _ _ _ _ _ Hl Hds) as (c' & Hc' & Hlc). assert (c' = c) as -> by congruence. clear Hc'. destruct Hlc as [Hid Hex].
  destruct (Forall2_lookup_l _ _ _ _ _ Hex Hexc) as (e & Hej & Hle).
  destruct (Forall2_lookup_l _ _ _ _ _ He Hx) as (e1 & He1 & Hxe). assert (e1 = e) as -> by congruence. clear He1.
  unfold hard_link_h, add_hard_link. eapply does_read; [by apply getE_eq|]. rewrite (like_link _ _ Hle).
  destruct (link_truthy exc) eqn:Et; [|by apply does_ret]. pose proof Hle as (_ & _ & El & En & Eamt & _). rewrite El. cbv zeta. set (link := default "" (e_link exc)).
  eapply does_read; [exact Hg|]. cbn [fst snd]. change (d_id (set_d_exchanges [] c)) with (d_id c). rewrite Hid.
  destruct (link =? d_id ds)%string; [by apply does_ret|].
  rewrite (ids_like _ _ Hl). pose proof (target_split link xs cur (separate_length _ _ _ _ Hs)) as Ht. destruct (last_with link _) as [b|].
  2: { rewrite Ht. exists (Err (KeyError link)), h. split; [done|]. split; [by apply only_refl|done]. }
  destruct Ht as (m & d & Hb & Hd & -> & Hup). cbn [getkey].
  eapply (does_read _ _ _ _ b); [done|]. cbn [bind].
  destruct (separate_at h Fs xs cur m b Hs Hb) as (G & d1 & HG & Hd1 & Hstb & Hndb). assert (d1 = d) as -> by congruence. clear Hd1.
  destruct (getD_eq _ _ _ _ Hstb) as (ys & -> & Hgb & Heb). eapply does_read; [exact Hgb|]. cbn [snd].
  unfold production_named. rewrite bind_pure. eapply does_bind; [by apply selectM_spec|done|nilF|]. intros prods fs ? _ (-> & Hp & Hp1 & Hp2).
  eapply does_step; [by apply selectM_pure|done|nilF|]. intros found ? _ (-> & Hf & Hf1 & Hf2). rewrite En in Hf.
  destruct Hf as [|y ey found fs' Hy [|]]; [by apply does_err| |by apply does_err].
  cbn [length assertR bool_decide]. rewrite bool_decide_true by done. cbn [assertR bind].
  eapply does_read; [by eapply readD_eq|]. rewrite (like_ratio ds c) by done. apply does_lift; [done|]. intros scale _. rewrite Hup, Eamt.
  unfold add_subtracted_named. rewrite bind_pure.
  pose proof (proj1 (Hf2 y ey Hy) ltac:(by left)) as (Hyp & _). apply (Hp2 y ey Hy) in Hyp as (Hyy & _).
  apply NoDup_cons in Hndb as (Hbn & Hndy).
  eapply does_weaken; [|done| |].
  - eapply does_map.
    + apply (mod_one _ (fun e => okb production_exchange e && (e_name e =? e_name exc)%string) h ys (d_exchanges d) y Hw Heb Hndy Hyy).
      intros z ez Hz Hze. pose proof (Hf2 z ez Hze) as H2. rewrite elem_of_list_singleton, (Hp2 z ez Hze), En in H2. rewrite H2. unfold okb.
      destruct (production_exchange ez) as [[]|]; cbn [andb]; split.
      * by intros ->.
      * by intros (_ & [= ?]).
      * by intros [=].
      * by intros ((_ & [=]) & _).
      * by intros [=].
      * by intros ((_ & [=]) & _).
    + intros h' [] es' Ho (Hes & e0 & e' & Hadd & Hch). instantiate (1 := fun h' _ cur' => hard_state h' cur'). cbv beta.
      assert (stands h' (b :: ys) b (set_d_exchanges es' d)) as Hst'.
      { exists ys. split; [done|]. split; [|by destruct d]. destruct Hstb as (? & [= <-] & Hbc & _). destruct Ho as (_ & _ & Ho).
        rewrite Ho; [rewrite Hbc; by destruct d|apply Hw; by eexists|]. intros ->%elem_of_list_singleton. done. }
      split.
      * eapply (separate_update y h h'); try done. by right.
      * destruct (Forall2_lookup_r _ _ _ _ _ Hl Hd) as (d0 & Hd0 & Hld). rewrite <- (list_insert_id dss m d0 Hd0). apply Forall2_insert; [done|].
        destruct Hld as [Hi Hx0]. split; [by destruct d|]. assert (d_exchanges (set_d_exchanges es' d) = es') as -> by by destruct d.
        clear -Hx0 Hch Hadd. revert es' Hch. induction Hx0 as [|p q ps qs Hpq _ IH]; intros es' Hch; inversion Hch as [|? q' ? es'' Hq Hqs]; subst; constructor; [|by apply IH].
        destruct Hq as [-> |[-> ->]]; [done|]. by eapply like_added.
  - intros z Hz%elem_of_list_singleton. subst z. left. apply elem_of_concat. exists (b :: ys). split; [by right|]. by eapply elem_of_list_lookup_2.
  - done.
Qed.
Lemma hard_inner h cur k a ds exs : wf h -> hard_state h cur -> xs !! k = Some a -> dss !! k = Some ds -> Fs !! k = Some (a :: exs) ->
  forall ys es, Forall2 (fun x e => exists j, exs !! j = Some x /\ d_exchanges ds !! j = Some e) ys es ->
  does (next h) (concat Fs) (iterM (hard_link_h ids a) ys) (foldR (add_hard_link ds) cur es) (fun h' _ cur' => hard_state h' cur') h.
Proof.
  intros Hw Hs Ha Hds HF ys es H. revert h cur Hw Hs. induction H as [|x e ys es (j & Hx & He) _ IH]; intros h cur Hw Hs; cbn [iterM foldR]; [by apply does_ret|].
  eapply does_bind; [by eapply hard_step|done|by left|]. intros [] cur1 h1 O1 Hs1. eapply does_weaken; [apply IH; [by eapply only_wf|done]|by eapply only_next|by left|done].
Qed.
Lemma hard_outer : forall todo dtodo, Forall2 (fun a ds => exists k, xs !! k = Some a /\ dss !! k = Some ds) todo dtodo ->
  forall h cur, wf h -> hard_state h cur ->
  does (next h) (concat Fs) (loop_h (hard_link_h ids) todo) (foldR (fun cur ds => foldR (add_hard_link ds) cur (d_exchanges ds)) cur dtodo) (fun h' _ cur' => hard_state h' cur') h.
Proof.
  unfold loop_h. induction 1 as [|a ds todo dtodo (k & Ha & Hds) _ IH]; intros h cur Hw Hs; cbn [iterM foldR]; [by apply does_ret|].
  eapply (does_bind (next h) (concat Fs)); [|done|by left|].
  - destruct (separate_at h Fs xs cur k a (proj1 Hs) Ha) as (F & c & HF & Hc & Hst & _). destruct (getD_eq _ _ _ _ Hst) as (exs & -> & Hg & He).
    eapply does_read; [exact Hg|]. cbn [snd]. apply (hard_inner h cur k a ds exs Hw Hs Ha Hds HF).
    destruct (Forall2_lookup_l _ _ _ _ _ (proj2 Hs) Hds) as (c' & Hc' & [_ Hlc]). assert (c' = c) as -> by congruence.
    apply Forall2_same_length_lookup_2; [rewrite (Forall2_length _ _ _ He); symmetry; by eapply Forall2_length|]. intros i x e Hx Hxe. by exists i.
  - intros [] cur1 h1 O1 Hs1. eapply does_weaken; [apply IH; [by eapply only_wf|done]|by eapply only_next|by left|done].
Qed.
End Hard.
Lemma hard_proof h Fs xs dss : wf h -> separate h Fs xs dss ->
  does (next h) (concat Fs) (add_hard_h xs) (add_hard_linked_production_volumes dss) (fun h' _ dss' => separate h' Fs xs dss') h.
Proof.
  intros Hw Hs. unfold add_hard_h. eapply does_read; [by apply ids_read; eapply separate_heads|].
  eapply does_weaken; [apply (hard_outer Fs xs dss xs dss)|done|by left|].
  - apply Forall2_same_length_lookup_2; [by eapply separate_length|]. intros i a ds Ha Hd. by exists i.
  - done.
  - split; [done|]. apply Forall_Forall2_diag, Forall_forall. intros d _. apply likeD_refl.
  - by intros h' [] cur _ [H _].
Qed.

(** ** A run *)
Lemma hard_run_proof ln t recalc dss : same_length recalc ->
  ((let! xs := mapM store dss in let! _ := add_hard_h xs in let! ys := cutoff_allocation_h ln recalc xs in let! _ := actualize_h ys in
    let! _ := link_recycled_h ys in let! _ := HeapLinks.link_consumers_h ln t ys in mapM readD ys) nothing).1
  = (let? d1 := add_hard_linked_production_volumes dss in let? d2 := cutoff_allocation ln recalc d1 in let? d3 := actualize_activity_links d2 in
     let? d4 := link_consumers_to_recycled_content_activities d3 in link_consumers_to_markets ln t d4).
Proof.
  intros Hlen.
  match goal with |- (?m nothing).1 = ?v => assert (does 0 [] m v (fun _ a b => a = b) nothing) as (r & h' & -> & _ & H) end.
  - eapply does_step; [apply stores_proof, wf_nothing|lia|nilF|]. intros xs h1 O1 (Fs & Hs & _). assert (wf h1) as Hw1 by by eapply only_wf.
    eapply does_bind; [by apply hard_proof|lia|intros; right; lia|]. intros [] d1 h2 O2 Hs2. assert (wf h2) as Hw2 by by eapply only_wf.
    eapply does_bind; [by apply allocation_proof|lia|intros; right; lia|]. intros ys d2 h3 O3 (Fs3 & Hs3 & _). assert (wf h3) as Hw3 by by eapply only_wf.
    eapply does_bind; [by apply actualize_proof|lia|intros; right; lia|]. intros [] d3 h4 O4 Hs4. assert (wf h4) as Hw4 by by eapply only_wf.
    eapply does_bind; [by apply recycled_proof|lia|intros; right; lia|]. intros [] d4 h5 O5 Hs5. assert (wf h5) as Hw5 by by eapply only_wf.
    eapply does_bind_end; [by apply links_proof|lia|intros; right; lia|]. intros [] d5 h6 O6 (Fs6 & Hs6 & _).
    exists (Ok d5), h6. split; [by eapply reads_spec|]. split; [apply only_refl; by eapply only_wf|]. by exists d5.
  - cbn [fst]. destruct (let? d1 := _ in _) as [b|]; [|done]. by destruct H as (a & -> & ->).
Qed.
