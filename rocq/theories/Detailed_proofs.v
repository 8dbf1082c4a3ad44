From Coq Require Import Ascii.
From Verif Require Import Base Types Utils Spec_Utils Utils_proofs Grouping GroupUpdate Validation ActivityLinks Spec_ActivityLinks
  ActivityLinks_proofs Cutoff Cutoff_proofs Topology Spec_Topology Topology_proofs Locations Spec_RestOfWorld Spec_Mix Mix_proofs RestOfWorld_proofs Spec_Consumers
  ConsumerInputs_proofs Consumers_proofs Tables Tables_proofs LinkTables_proofs Detailed Spec_Detailed.

(** *** Files *)
Lemma has_slash_iff s : has_slash s = true <-> "/"%char ∈ characters s.
Proof.
  induction s as [|c s IH]; cbn [has_slash characters]; [split; [done|intros H; by apply elem_of_nil in H]|].
  rewrite orb_true_iff, IH, Ascii.eqb_eq, elem_of_cons. intuition congruence.
Qed.
Lemma basename_spec s : file_of s (basename s).
Proof.
  induction s as [|c s [IH1 (dir & IH2 & IH3)]]; cbn [basename].
  - split; [cbn; apply not_elem_of_nil|]. exists []. split; [done|by left].
  - destruct (has_slash (String c s)) eqn:E.
    + split; [done|]. exists (c :: dir). cbn [characters app]. rewrite IH2 at 1. split; [done|]. right.
      destruct dir as [|d dir]; [|destruct IH3 as [?|IH3]; [done|exact IH3]].
      cbn [has_slash] in E. apply orb_true_iff in E as [E|E]; [by apply Ascii.eqb_eq in E as ->|].
      apply has_slash_iff in E. rewrite IH2 in E. done.
    + split; [|exists []; split; [done|by left]]. rewrite <- has_slash_iff. congruence.
Qed.
Lemma file_of_unique s a b : file_of s a -> file_of s b -> a = b.
Proof.
  assert (forall x y, characters x = characters y -> x = y) as Hinj.
  { induction x as [|c x IH]; intros [|d y] H; [done..|]. cbn in H. injection H as -> H. f_equal. by apply IH. }
  intros (Ha & da & Ea & La) (Hb & db & Eb & Lb). apply Hinj. rewrite Ea in Eb. clear Ea.
  assert (forall (da db : list ascii) xa xb, da ++ xa = db ++ xb -> "/"%char ∉ xa -> "/"%char ∉ xb ->
    (da = [] \/ last da = Some "/"%char) -> (db = [] \/ last db = Some "/"%char) -> xa = xb) as H; [|by eapply H].
  clear. induction da as [|c da IH]; intros db xa xb E Ha Hb La Lb.
  - destruct Lb as [->|Lb]; [done|]. cbn in E. subst xa. exfalso. apply Ha. apply elem_of_app. left. by apply last_Some_elem_of.
  - destruct db as [|d db].
    + destruct La as [?|La]; [done|]. cbn [app] in E. subst xb. exfalso. apply Hb. change (c :: da ++ xa) with ((c :: da) ++ xa). apply elem_of_app. left.
      by apply last_Some_elem_of.
    + cbn in E. injection E as -> E. eapply IH; [exact E|done|done| |].
      * destruct da; [by left|]. destruct La as [?|La]; [done|by right].
      * destruct db; [by left|]. destruct Lb as [?|Lb]; [done|by right].
Qed.
Lemma about_describes ds f m : describes ds (about ds f m).
Proof. split; [done|]. split; [apply basename_spec|done]. Qed.

(** *** Hard links *)
Definition subtracted_of (e : exchange) : Qc := default 0%Qc (e_pv e ≫= v_subtracted).
Lemma Qcsum_cons x l : Qcsum (x :: l) = (x + Qcsum l)%Qc.
Proof. done. Qed.
Lemma said_app i l1 l2 : said_taken i (l1 ++ l2) = (said_taken i l1 + said_taken i l2)%Qc.
Proof. unfold said_taken. by rewrite filter_app, map_app, Qcsum_app. Qed.

Lemma add_subtracted_sum n x es es2 :
  mapR (fun e => if okb production_exchange e && (e_name e =? n)%string then add_subtracted x e else Ok e) es = Ok es2 ->
  Qcsum (map subtracted_of es2) = (Qcsum (map subtracted_of es) +
    Qcsum (map (fun _ => x) (filterb (fun e => okb production_exchange e && (e_name e =? n)%string) es)))%Qc.
Proof.
  intros H%mapR_Ok. induction H as [|e e2 es es2 He _ IH]; [done|]. cbn [map]. rewrite filterb_cons, !Qcsum_cons, IH.
  destruct (_ && _).
  - unfold add_subtracted in He. apply bind_Ok in He as (v & Hv & He). apply Ok_inj in He as <-. cbn [map]. rewrite Qcsum_cons.
    destruct (e_pv e) as [w|] eqn:E; [|done]. cbn in Hv. apply Ok_inj in Hv as ->. unfold subtracted_of at 1 3. rewrite E. cbn. ring.
  - apply Ok_inj in He as <-. ring.
Qed.

Lemma classified_frame l ds ds' : recorded l ds ds' -> classified ds' -> classified ds.
Proof.
  intros Hr Hc. apply recorded_frame in Hr as [_ H]. unfold classified in *.
  induction H as [|e e' es es' (Ht & Hcl & _) Hes IH]; [constructor|].
  inversion Hc as [|? ? Hce Hc']; subst. constructor; [|auto]. by rewrite Ht, Hcl in Hce.
Qed.

Lemma hard_link_step data l ds cur exc cur' :
  NoDup (map d_id data) -> ds ∈ data -> Forall2 (recorded l) data cur -> add_hard_link ds cur exc = Ok cur' ->
  exists ls, hard_link_line data ds exc = Ok ls /\
    Forall2 (fun d1 d2 => d_id d2 = d_id d1 /\ taken_from d2 = (taken_from d1 + said_taken (d_id d1) ls)%Qc) cur cur' /\
    Forall (fun li => exists d, d ∈ data /\ describes d li) ls.
Proof.
  intros Hnd Hds Hcur H. unfold add_hard_link in H. unfold hard_link_line.
  assert (forall ls, (forall i, said_taken i ls = 0%Qc) -> Forall2 (fun d1 d2 => d_id d2 = d_id d1 /\ taken_from d2 = (taken_from d1 + said_taken (d_id d1) ls)%Qc) cur cur) as Hsame.
  { intros ls Hls. apply Forall_Forall2_diag, Forall_forall. intros d _. split; [done|]. rewrite Hls. ring. }
  destruct (link_truthy exc) eqn:El.
  2:{ apply Ok_inj in H as <-. exists []. split; [done|]. split; [by apply Hsame|constructor]. }
  set (L := default "" (e_link exc)) in *.
  destruct (L =? d_id ds)%string eqn:Eself.
  { apply Ok_inj in H as <-. eexists. split; [reflexivity|]. split.
    - apply Hsame. intros i. unfold said_taken. rewrite filter_cons. destruct (decide _); done.
    - constructor; [|constructor]. exists ds. split; [done|apply about_describes]. }
  apply bind_Ok in H as (v & Hv & H). apply bind_Ok in H as (found & Hf & H). apply bind_Ok in H as ([] & Hlen & H).
  apply bind_Ok in H as (scale & Hs & H).
  assert (dataset_by_id cur L = Some v) as Hv' by (destruct (dataset_by_id cur L); [by apply Ok_inj in Hv as ->|done]).
  apply dataset_by_id_some in Hv' as [Hvin Hvid].
  apply elem_of_list_lookup in Hvin as [i Hi]. destruct (Forall2_lookup_r _ _ _ _ _ Hcur Hi) as (d & Hd & Hrec).
  destruct (recorded_frame _ _ _ Hrec) as [Hid _].
  assert (d ∈ data) as Hdin by by eapply elem_of_list_lookup_2.
  assert (dataset_by_id data L = Some d) as ->. { rewrite <- Hvid, Hid. by apply dataset_by_id_in. }
  cbn [getkey bind]. apply production_named_ok in Hf as [Hcl ->].
  pose proof (classified_frame _ _ _ Hrec Hcl) as Hcld.
  rewrite (proj2 (production_named_ok d (e_name exc) _) (conj Hcld eq_refl)). cbn [bind].
  assert (length (filter (fun o => alloc_output o /\ e_name o = e_name exc) (d_exchanges v)) = 1%nat) as Hl1.
  { unfold assertR in Hlen. case_bool_decide; [done|discriminate]. }
  pose proof (proj2 (recorded_production l d v (e_name exc) Hrec Hcld)) as Hl2. rewrite Hl1 in Hl2.
  symmetry in Hl2. apply length_one in Hl2 as [h Hh]. rewrite Hh, Hs. cbn [bind].
  assert (Hids : NoDup (map d_id cur)) by (by rewrite (recorded_ids _ _ _ Hcur)).
  apply update_by_id_ok in H; [|done].
  destruct (Forall2_lookup_l _ _ _ _ _ H Hi) as (v2 & Hv2 & Hu & _). specialize (Hu Hvid).
  assert (exists w, e_pv h = Some w) as [w Hw].
  { assert (h ∈ filter (fun o => alloc_output o /\ e_name o = e_name exc) (d_exchanges d)) as Hin by (rewrite Hh; by left).
    apply elem_of_list_filter in Hin as [[Ha Hn] Hin]. apply elem_of_list_lookup in Hin as [j Hj].
    destruct Hrec as (es1 & -> & HF). destruct (Forall2_lookup_l _ _ _ _ _ HF Hj) as (h1 & Hh1 & Hr1 & _). specialize (Hr1 Ha).
    unfold add_subtracted_named in Hu. apply bind_Ok in Hu as (es2 & Hes2 & _). apply mapR_Ok in Hes2. cbn [d_exchanges set_d_exchanges] in *.
    destruct (Forall2_lookup_l _ _ _ _ _ Hes2 Hh1) as (h2 & _ & Hh2).
    destruct (volume_recorded_frame _ _ _ Hr1) as (Ht & Hc & Hnn).
    assert (okb production_exchange h1 && (e_name h1 =? e_name exc)%string = true) as Ho.
    { apply andb_true_iff. split; [|apply String.eqb_eq; congruence]. rewrite okb_production.
      - apply bool_decide_eq_true_2. by apply (alloc_output_frame h h1).
      - rewrite Ht, Hc. unfold classified in Hcld. rewrite Forall_forall in Hcld. apply Hcld. by eapply elem_of_list_lookup_2. }
    rewrite Ho in Hh2. unfold add_subtracted in Hh2. apply bind_Ok in Hh2 as (w & Hw & _).
    destruct (l (d_id d) (e_name h)) as [|y ys] eqn:Ely; cbn in Hr1.
    - subst h1. destruct (e_pv h); [by eexists|done].
    - destruct Hr1 as (w' & -> & _). by eexists. }
  rewrite Hw. cbn [getkey bind]. eexists. split; [reflexivity|]. split; [|constructor; [|constructor]; exists d; split; [done|apply about_describes]].
  apply Forall2_lookup. intros k. destruct (cur !! k) as [c1|] eqn:E1.
  2:{ destruct (cur' !! k) eqn:E2; [|constructor]. destruct (Forall2_lookup_r _ _ _ _ _ H E2) as (? & ? & _). congruence. }
  destruct (Forall2_lookup_l _ _ _ _ _ H E1) as (c2 & E2 & Hu1 & Hu2). rewrite E2. constructor.
  unfold said_taken. rewrite filter_cons, filter_nil. cbn [about l_id]. destruct (decide (d_id d = d_id c1)) as [Ed|Ed].
  - assert (d_id c1 = L) as Hc1 by congruence. specialize (Hu1 Hc1).
    assert (c1 = v) as ->. { eapply nodup_ids_eq; [exact Hids| | |congruence]; by eapply elem_of_list_lookup_2. }
    unfold add_subtracted_named in Hu1. apply bind_Ok in Hu1 as (es2 & Hes2 & Hu1). apply Ok_inj in Hu1 as <-. split; [done|].
    apply add_subtracted_sum in Hes2. unfold taken_from. cbn [d_exchanges set_d_exchanges]. fold subtracted_of. rewrite Hes2. f_equal.
    rewrite (filterb_filter (fun o => alloc_output o /\ e_name o = e_name exc)).
    + apply length_one in Hl1 as [y ->]. cbn. ring.
    + intros y Hy. unfold classified in Hcl. rewrite Forall_forall in Hcl. rewrite okb_production by by apply Hcl.
      destruct (String.eqb_spec (e_name y) (e_name exc)).
      * rewrite andb_true_r. apply bool_decide_ext. tauto.
      * rewrite andb_false_r. symmetry. apply bool_decide_eq_false. tauto.
  - rewrite (Hu2 ltac:(congruence)). split; [done|]. cbn. ring.
Qed.

Definition accounted (ls : list line) (a b : list dataset) : Prop :=
  Forall2 (fun d1 d2 => d_id d2 = d_id d1 /\ taken_from d2 = (taken_from d1 + said_taken (d_id d1) ls)%Qc) a b.
Lemma accounted_trans ls1 ls2 a b c : accounted ls1 a b -> accounted ls2 b c -> accounted (ls1 ++ ls2) a c.
Proof.
  intros H. revert c. induction H as [|x y a b (Hi & Ht) _ IH]; intros c H2.
  - apply Forall2_nil_inv_l in H2 as ->. constructor.
  - apply Forall2_cons_inv_l in H2 as (z & c' & (Hi2 & Ht2) & H2 & ->). constructor; [|by apply IH].
    split; [congruence|]. rewrite Ht2, Ht, Hi, said_app. ring.
Qed.
Lemma hard_link_lines_inner data l ds cur es cur' :
  NoDup (map d_id data) -> ds ∈ data -> Forall2 (recorded l) data cur -> foldR (add_hard_link ds) cur es = Ok cur' ->
  exists ls : list line, concat_mapR (hard_link_line data ds) es = Ok ls /\ accounted ls cur cur' /\ Forall (fun li => exists d, d ∈ data /\ describes d li) ls.
Proof.
  intros Hnd Hds. revert l cur. induction es as [|e es IH]; intros l cur Hcur H; cbn [foldR] in H.
  - apply Ok_inj in H as <-. exists []. split; [done|]. split; [|constructor]. apply Forall_Forall2_diag, Forall_forall. intros d _. split; [done|]. cbn. ring.
  - apply bind_Ok in H as (c1 & H1 & H). destruct (hard_link_step _ _ _ _ _ _ Hnd Hds Hcur H1) as (ls & Hls & Ha & Hd).
    apply (add_hard_link_recorded _ _ _ _ _ _ Hnd Hcur) in H1 as [H1 _]. destruct (IH _ _ H1 H) as (ls2 & Hls2 & Ha2 & Hd2).
    unfold concat_mapR in Hls2 |- *. cbn [mapR]. rewrite Hls. cbn [bind]. apply bind_Ok in Hls2 as (r & Hr & Hls2). apply Ok_inj in Hls2 as <-.
    rewrite Hr. cbn [bind concat]. exists (ls ++ concat r). split; [done|]. split; [by eapply accounted_trans|]. by apply Forall_app.
Qed.
Lemma hard_link_lines_outer data l cur todo cur' :
  NoDup (map d_id data) -> (forall d, d ∈ todo -> d ∈ data) -> Forall2 (recorded l) data cur ->
  foldR (fun cur ds => foldR (add_hard_link ds) cur (d_exchanges ds)) cur todo = Ok cur' ->
  exists ls, concat_mapR (fun ds => concat_mapR (hard_link_line data ds) (d_exchanges ds)) todo = Ok ls /\ accounted ls cur cur' /\ Forall (fun li => exists d, d ∈ data /\ describes d li) ls.
Proof.
  intros Hnd. revert l cur. induction todo as [|ds todo IH]; intros l cur Hin Hcur H; cbn [foldR] in H.
  - apply Ok_inj in H as <-. exists []. split; [done|]. split; [|constructor]. apply Forall_Forall2_diag, Forall_forall. intros d _. split; [done|]. cbn. ring.
  - apply bind_Ok in H as (c1 & H1 & H). destruct (hard_link_lines_inner _ _ ds _ _ _ Hnd (Hin ds ltac:(by left)) Hcur H1) as (ls & Hls & Ha & Hd).
    apply (hard_links_inner _ _ _ _ _ _ Hnd Hcur) in H1 as [H1 _].
    destruct (IH _ _ (fun d Hd => Hin d (elem_of_list_further _ _ _ Hd)) H1 H) as (ls2 & Hls2 & Ha2 & Hd2).
    unfold concat_mapR at 1. unfold concat_mapR at 1 in Hls2. cbn [mapR]. rewrite Hls. cbn [bind]. apply bind_Ok in Hls2 as (r & Hr & Hls2). apply Ok_inj in Hls2 as <-.
    rewrite Hr. cbn [bind concat]. exists (ls ++ concat r). split; [done|]. split; [by eapply accounted_trans|]. by apply Forall_app.
Qed.
Lemma subtracted_proof data data' :
  NoDup (map d_id data) -> add_hard_linked_production_volumes data = Ok data' ->
  exists ls, hard_link_lines data = Ok ls /\ Forall2 (fun d d' => d_id d' = d_id d /\ taken_from d' = (taken_from d + said_taken (d_id d) ls)%Qc) data data' /\ Forall (fun li => exists d, d ∈ data /\ describes d li) ls.
Proof.
  intros Hnd H. eapply (hard_link_lines_outer data (fun _ _ => [])); [done|done| |exact H].
  apply Forall_Forall2_diag, Forall_forall. intros d _. apply recorded_nil.
Qed.

(** *** Net volumes *)
Lemma each_messages {A} (f : A -> list line) l : map l_message (each f l) = each (fun x => map l_message (f x)) l.
Proof. unfold each. induction l as [|x l IH]; [done|]. cbn [map concat]. by rewrite map_app, IH. Qed.
Lemma net_proof data data' : update_transforming_activity_production_volumes data = Ok data' ->
  exists lss, hard_linked_lines data = concat lss /\ Forall3 (fun ds ds' ls => Forall (describes ds) ls /\ (d_type ds <> Transforming -> ds' = ds /\ ls = []) /\ (d_type ds = Transforming -> exists es' mss, ds' = set_d_exchanges es' ds /\ map l_message ls = concat mss /\ Forall3 told_net (d_exchanges ds) es' mss)) data data' lss.
Proof.
  intros H%mapR_Ok. unfold hard_linked_lines, each. eexists. split; [reflexivity|].
  induction H as [|ds ds' data data' Hd _ IH]; [constructor|]. cbn [map]. constructor; [|exact IH]. clear IH.
  case_bool_decide as E.
  - split; [|split; [done|intros _]].
    + apply Forall_forall. intros li Hli. apply in_concat' in Hli as (x & Hli & Hx). apply elem_of_list_fmap in Hx as (e & -> & _).
      unfold hard_linked_line in Hli. destruct (okb _ _); [|by apply elem_of_nil in Hli]. destruct (e_pv e) as [v|]; [|by apply elem_of_nil in Hli].
      destruct (v_subtracted v); [|by apply elem_of_nil in Hli]. apply elem_of_list_singleton in Hli as ->. apply about_describes.
    + unfold subtract_volumes in Hd. apply bind_Ok in Hd as (es' & Hes & Hd). apply Ok_inj in Hd as <-. apply mapR_Ok in Hes.
      exists es', (map (fun e => map l_message (hard_linked_line ds e)) (d_exchanges ds)). split; [done|].
      split; [fold (each (hard_linked_line ds) (d_exchanges ds)); by rewrite each_messages|].
      induction Hes as [|e e' es es' He _ IH]; [constructor|]. cbn [map]. constructor; [|exact IH].
      unfold subtract_volume in He. apply bind_Ok in He as (b & Hb & He). unfold hard_linked_line, okb. rewrite Hb.
      apply production_exchange_ok in Hb as [_ ->]. case_bool_decide as Ha; [|apply Ok_inj in He as <-; by left].
      apply bind_Ok in He as (v & Hv & He). destruct (e_pv e) as [w|] eqn:Ew; [|done]. cbn in Hv. apply Ok_inj in Hv as ->.
      destruct (v_subtracted v) as [s|] eqn:Es; [|apply Ok_inj in He as <-; by left].
      apply Ok_inj in He as <-. right. exists v, s. split_and!; done.
  - apply Ok_inj in Hd as <-. split; [constructor|]. done.
Qed.

(** *** Methods *)
Lemma method_proof data data' : label_allocation_method data = Ok data' ->
  exists ls, method_lines data = Ok ls /\ Forall2 (fun ds' l => describes ds' l /\ exists m, d_alloc ds' = Some m /\ l_message l = Method m) data' ls.
Proof.
  intros H%mapR_Ok. unfold method_lines. induction H as [|ds ds' data data' Hd _ IH]; [exists []; split; [done|constructor]|].
  destruct IH as (ls & Hls & IH). apply bind_Ok in Hd as (m & Hm & Hd). apply Ok_inj in Hd as <-.
  cbn [mapR]. rewrite Hm. cbn [bind]. rewrite Hls. cbn [bind]. eexists. split; [reflexivity|]. constructor; [|done].
  split; [apply about_describes|]. by exists m.
Qed.

(** *** Markets *)
Lemma input_lines_spec ds exc total l : total <> 0%Qc -> Forall (fun s => is_Some (e_pv s)) l ->
  concat_mapR (input_line ds exc total) l =
    Ok (map (fun s => about ds "allocate_suppliers"
          (Input (volume_of s / total * e_amount exc)%Qc (e_unit s) (e_name exc) (e_name s) (default "" (e_location s)))) (sharing l)).
Proof.
  intros Ht Hp. unfold concat_mapR. induction Hp as [|s l Hs _ IH]; [done|]. cbn [mapR].
  unfold input_line at 1. rewrite (proj2 (supplier_volume_Ok s _) (conj Hs eq_refl)). cbn [bind].
  rewrite (proj2 (divR_Ok _ _ _) (conj Ht eq_refl)). cbn [bind].
  apply bind_Ok in IH as (r & Hr & IH). apply Ok_inj in IH. rewrite Hr. cbn [bind fmapR concat]. rewrite IH.
  unfold sharing. rewrite filter_cons. fold (sharing l). unfold Qctruthy, Qceqb.
  assert ((volume_of s / total = 0)%Qc <-> volume_of s = 0%Qc) as Hz.
  { split; intros E; [|rewrite E; field; done].
    replace (volume_of s) with (volume_of s / total * total)%Qc by (field; done). rewrite E. ring. }
  case_bool_decide as E; cbn [negb].
  - rewrite decide_False by tauto. done.
  - rewrite decide_True by tauto. done.
Qed.
Lemma filter_inputs ls : Forall (fun li => is_input li = true) ls -> filter (fun li => is_input li = true) ls = ls.
Proof. induction 1 as [|li ls H _ IH]; [done|]. rewrite filter_cons_True by done. by rewrite IH. Qed.
Lemma market_proof ds ds' : allocate_suppliers ds = Ok ds' ->
  exists rp ls new, filter is_refproduct (d_exchanges ds) = [rp] /\ market_lines ds = Ok ls /\ Forall (describes ds) ls /\ d_exchanges ds' = d_exchanges ds ++ new /\ Forall2 (told_input (e_name rp)) new (inputs ls) /\ (ls = [] /\ new = [] \/ Qcsum (map input_amount (inputs ls)) = e_amount rp).
Proof.
  unfold allocate_suppliers, market_lines. intros H. apply bind_Ok in H as (rp & Hrp & H). rewrite Hrp. cbn [bind].
  apply get_single_ok in Hrp. apply bind_Ok in H as (l & Hl & H). rewrite Hl. cbn [bind].
  apply bind_Ok in H as (vs & Hvs & H). unfold volumes in Hvs. unfold supply_lines.
  apply bind_Ok in Hvs as (pvs & Hpvs & Hvs). rewrite Hpvs. cbn [bind]. apply mapR_volumes in Hpvs as [Hp ->].
  change (Qcsum (map volume_of l)) with (total_volume l) in *.
  unfold Qctruthy, Qceqb in *. case_bool_decide as Et; cbn [negb] in *.
  - destruct l as [|s [|s2 l]].
    + apply Ok_inj in Hvs as <-. apply Ok_inj in H as <-. exists rp, [], []. rewrite app_nil_r. split_and!; [done|done|constructor|done|constructor|by left].
    + apply Ok_inj in Hvs as <-. apply bind_Ok in H as (new & Hnew & <-%Ok_inj).
      apply inputs_spec in Hnew as [_ HF]; [|discriminate]. apply Forall_cons in Hp as [[v Hv] _].
      assert (volume_of (fake_volume s) = Qcint 4321) as Hf by (unfold fake_volume, volume_of; by rewrite Hv).
      pose proof (input_lines_spec ds rp (Qcint 4321) [fake_volume s] ltac:(discriminate)) as HI.
      assert (Forall (fun s => is_Some (e_pv s)) [fake_volume s]) as Hp1 by (constructor; [|constructor]; unfold fake_volume; rewrite Hv; by eexists).
      specialize (HI Hp1). unfold concat_mapR in HI. cbn [mapR] in HI.
      destruct (input_line ds rp (Qcint 4321) (fake_volume s)) as [il|]; [|done]. cbn [bind fmapR concat] in HI |- *. rewrite app_nil_r in HI. apply Ok_inj in HI as ->.
      unfold sharing in HF |- *. rewrite filter_cons, Hf, decide_True, filter_nil in HF |- * by discriminate.
      apply Forall2_cons_inv_l in HF as (e & r & He & HF & ->). apply Forall2_nil_inv_l in HF as ->.
      eexists rp, _, [e]. split; [done|]. split; [reflexivity|]. split.
      { constructor; [apply about_describes|]. constructor; [apply about_describes|constructor]. }
      split; [done|]. unfold market_input in He. apply bind_Ok in He as (c & _ & He). apply Ok_inj in He as <-.
      cbn [map]. unfold inputs. rewrite filter_cons_False by done. rewrite filter_cons_True by done. rewrite filter_nil. split.
      * constructor; [|constructor]. eexists. cbn [about l_message]. rewrite Hf. reflexivity.
      * right. cbn [map input_amount l_message about]. rewrite Hf. cbn. field. discriminate.
    + apply Ok_inj in Hvs as <-. apply Ok_inj in H as <-. exists rp, [], []. rewrite app_nil_r. split_and!; [done|done|constructor|done|constructor|by left].
  - apply Ok_inj in Hvs as <-. apply bind_Ok in H as (new & Hnew & <-%Ok_inj).
    apply inputs_spec in Hnew as [_ HF]; [|done]. rewrite input_lines_spec by done. cbn [bind].
    eexists rp, _, new. split; [done|]. split; [reflexivity|].
    assert (Forall (fun li => is_input li = true) (map (fun s => about ds "allocate_suppliers"
        (Input (volume_of s / total_volume l * e_amount rp)%Qc (e_unit s) (e_name rp) (e_name s) (default "" (e_location s)))) (sharing l))) as HI.
    { apply Forall_forall. intros li Hli. apply elem_of_list_fmap in Hli as (s & -> & _). done. }
    split; [constructor; [apply about_describes|]; apply Forall_forall; intros li Hli; apply elem_of_list_fmap in Hli as (s & -> & _); apply about_describes|].
    split; [done|]. unfold inputs. rewrite filter_cons_False by done. rewrite (filter_inputs _ HI).
    assert (Forall2 (mix_input (e_amount rp) (total_volume l)) (sharing l) new) as HF'.
    { eapply Forall2_impl; [exact HF|]. intros s e He. unfold market_input in He.
      destruct (e_code s) as [c|] eqn:Ec; [|discriminate]. cbn [getkey bind] in He. apply Ok_inj in He as <-.
      split; [by eexists|]. rewrite Ec. reflexivity. }
    assert (Forall2 (told_input (e_name rp)) new (map (fun s => about ds "allocate_suppliers"
        (Input (volume_of s / total_volume l * e_amount rp)%Qc (e_unit s) (e_name rp) (e_name s) (default "" (e_location s)))) (sharing l))) as HT.
    { apply Forall2_fmap_r, Forall2_flip. eapply Forall2_impl; [exact HF'|]. intros s e [_ ->]. eexists. reflexivity. }
    split; [exact HT|]. right. transitivity (Qcsum (map e_amount new)).
    + f_equal. clear -HT. induction HT as [|e li new ls (p & Hp) _ IH]; [done|]. cbn [map]. rewrite IH. unfold input_amount. by rewrite Hp.
    + rewrite (mix_amounts _ _ _ _ Et HF'). field. done.
Qed.

(** *** Links *)
Lemma refs_filter data i n refs :
  filterR (fun ds => let? rp := refprod ds in Ok (rp =? n)%string) (filterb (fun ds => (d_id ds =? i)%string) data) = Ok refs ->
  refs = filter (fun d => d_id d = i /\ d_refprod d = Some n) data.
Proof.
  intros H. apply filterR_Ok in H as [HF ->]. induction data as [|d data IH]; [done|].
  rewrite filterb_cons in HF |- *. rewrite filter_cons. destruct (String.eqb_spec (d_id d) i) as [E|E].
  - rewrite filterb_cons. inversion HF as [|? ? Hd HF']; subst. specialize (IH HF').
    unfold okb, refprod in *. destruct (d_refprod d) as [rp|]; cbn [getkey bind is_ok] in *; [|done].
    destruct (String.eqb_spec rp n) as [Er|Hn].
    + rewrite decide_True by (by rewrite Er). by rewrite IH.
    + rewrite decide_False by (intros [_ [= ?]]; done). done.
  - rewrite decide_False by tauto. by apply IH.
Qed.
Lemma links_proof data data' : actualize_activity_links data = Ok data' ->
  exists lss, actual_lines data = Ok (concat lss) /\
    Forall3 (fun ds ds' ls => Forall (describes ds) ls /\ exists es' mss, ds' = set_d_exchanges es' ds /\
      map l_message ls = concat mss /\ Forall3 (told_link data) (d_exchanges ds) es' mss) data data' lss.
Proof.
  intros H%mapR_Ok. unfold actual_lines, concat_mapR at 1.
  assert (forall todo todo', Forall2 (fun ds ds' => (let? es := mapR (actualize_link data) (d_exchanges ds) in Ok (set_d_exchanges es ds)) = Ok ds') todo todo' ->
    exists lss, mapR (fun ds => concat_mapR (actual_line data ds) (d_exchanges ds)) todo = Ok lss /\
    Forall3 (fun ds ds' ls => Forall (describes ds) ls /\ exists es' mss, ds' = set_d_exchanges es' ds /\
      map l_message ls = concat mss /\ Forall3 (told_link data) (d_exchanges ds) es' mss) todo todo' lss) as HG.
  2:{ destruct (HG _ _ H) as (lss & -> & HF). by exists lss. }
  clear H data'. intros todo todo' H. induction H as [|ds ds' todo todo' Hd _ IH]; [exists []; split; [done|constructor]|].
  destruct IH as (lss & Hlss & IH). apply bind_Ok in Hd as (es' & Hes & Hd). apply Ok_inj in Hd as <-. apply mapR_Ok in Hes.
  assert (exists ls mss, concat_mapR (actual_line data ds) (d_exchanges ds) = Ok ls /\ Forall (describes ds) ls /\
    map l_message ls = concat mss /\ Forall3 (told_link data) (d_exchanges ds) es' mss) as (ls & mss & H1 & H2 & H3 & H4).
  { clear -Hes. unfold concat_mapR. induction Hes as [|e e' es es' He _ IH].
    - exists [], []. split_and!; [done|constructor|done|constructor].
    - destruct IH as (ls & mss & H1 & H2 & H3 & H4). cbn [mapR].
      assert (exists l1 m1, actual_line data ds e = Ok l1 /\ Forall (describes ds) l1 /\ map l_message l1 = m1 /\ told_link data e e' m1)
        as (l1 & m1 & A1 & A2 & A3 & A4).
      { unfold actualize_link in He. unfold actual_line. destruct (e_link e) as [i|] eqn:El.
        2:{ apply Ok_inj in He as <-. eexists [], _. split; [done|]. split; [constructor|]. split; [reflexivity|]. right. split; [|done].
            intros found (i & Hi & _). congruence. }
        destruct (String.eqb_spec i "") as [->|Hi].
        { apply Ok_inj in He as <-. eexists [], _. split; [done|]. split; [constructor|]. split; [reflexivity|]. right. split; [|done].
          intros found (i & Hi & Hn & _). congruence. }
        destruct (filterb (fun ds => (d_id ds =? i)%string) data) as [|g0 gs] eqn:Eg; [done|].
        apply bind_Ok in He as (refs & Hr & He). rewrite Hr. cbn [bind]. rewrite <- Eg in Hr. apply refs_filter in Hr.
        destruct refs as [|r [|r2 rs]].
        - apply Ok_inj in He as <-. eexists [], _. split; [done|]. split; [constructor|]. split; [reflexivity|]. right. split; [|done].
          intros found (j & Hj & _ & Hf). assert (j = i) as -> by congruence. congruence.
        - apply bind_Ok in He as (c & Hc & He). apply Ok_inj in He as <-. eexists _, _. split; [reflexivity|].
          split; [constructor; [apply about_describes|constructor]|]. split; [reflexivity|]. left. exists r. split; [by exists i|].
          split; [done|]. destruct (d_code r); [|done]. cbn in Hc. apply Ok_inj in Hc as ->. split; [by eexists|done].
        - apply Ok_inj in He as <-. eexists [], _. split; [done|]. split; [constructor|]. split; [reflexivity|]. right. split; [|done].
          intros found (j & Hj & _ & Hf). assert (j = i) as -> by congruence. congruence. }
      destruct (mapR (actual_line data ds) es) as [r|] eqn:Er; [|done]. cbn [fmapR] in H1. apply Ok_inj in H1 as <-.
      rewrite A1. cbn [bind fmapR concat]. exists (l1 ++ concat r), (m1 :: mss). split; [done|].
      split; [by apply Forall_app|]. split; [|by constructor]. rewrite map_app. cbn [concat]. by rewrite A3, H3. }
  cbn [mapR]. rewrite H1. cbn [bind]. rewrite Hlss. cbn [bind]. exists (ls :: lss). split; [done|]. constructor; [|done].
  split; [done|]. by exists es', mss.
Qed.

(** *** The rest of the world *)
Lemma refproducts_pv f ds : filter is_refproduct (d_exchanges (set_rp_pv f ds)) =
  map (fun e => set_e_pv (option_map f (e_pv e)) e) (filter is_refproduct (d_exchanges ds)).
Proof.
  unfold set_rp_pv. cbn [d_exchanges set_d_exchanges]. induction (d_exchanges ds) as [|e es IH]; [done|]. cbn [map]. rewrite !filter_cons.
  unfold is_refproduct in *. case_bool_decide as E.
  - rewrite decide_True by done. rewrite decide_True by done. cbn [map]. by rewrite IH.
  - rewrite decide_False by done. rewrite decide_False by done. done.
Qed.
Lemma find_at (i : nat) (g : list (nat * dataset)) d : NoDup (map fst g) -> (i, d) ∈ g ->
  List.find (fun p => (p.1 =? i)%nat) g = Some (i, d).
Proof.
  intros HN Hin. induction g as [|[j x] g IH]; [by apply elem_of_nil in Hin|]. cbn [List.find map fst] in HN |- *. apply NoDup_cons in HN as [Hj HN].
  apply elem_of_cons in Hin as [Hin|Hin].
  - injection Hin as -> ->. by rewrite Nat.eqb_refl.
  - destruct (Nat.eqb_spec j i) as [->|]; [|by apply IH]. exfalso. apply Hj. apply elem_of_list_fmap. by exists (i, d).
Qed.
Lemma created_proof data data' : relabel_global_to_row data = Ok data' ->
  exists ls ls', created_lines data = Ok ls /\ Permutation ls ls' /\
    Forall2 (fun p l => told_created p.1 p.2 l) (filter (fun p => d_location p.1 <> d_location p.2) (zip data data')) ls'.
Proof.
  unfold relabel_global_to_row, update_groups, created_lines. intros H. apply bind_Ok in H as (ks & Hks & H). rewrite Hks. cbn [bind].
  apply bind_Ok in H as (ups & Hu & H). apply Ok_inj in H as <-.
  apply keyed_Ok in Hks as (_ & _ & HW). destruct (groupby_spec ks) as (HN & _ & HX).
  assert (forall g, g ∈ groupby ks -> g.2 = members row_key g.1 data) as Hg.
  { intros [k xs] Hg. apply HX in Hg as [_ ->]. by rewrite HW. }
  clear HW HX. apply mapR_Ok in Hu.
  match goal with |- context [concat_mapR ?f (groupby ks)] => set (F := f) end.
  assert (NoDup (map fst (concat ups)) /\
    (forall i d', (i, d') ∈ concat ups -> exists d, data !! i = Some d /\ d_location d <> d_location d' /\ exists k, k ∈ map fst (groupby ks) /\ key_of row_key d = Some k) /\
    exists lss, mapR F (groupby ks) = Ok lss /\ Forall2 (fun u l => exists d, data !! u.1 = Some d /\ told_created d u.2 l) (concat ups) (concat lss)) as (H1 & H2 & lss & H3 & H4).
  { revert HN Hg Hu. generalize (groupby ks) as gs. intros gs HN Hg Hu. induction Hu as [|g u gs us Hgu _ IH].
    - split_and!; [constructor| |]; [intros i d' Hin; by apply elem_of_nil in Hin|]. exists []. split; [done|constructor].
    - cbn [map] in HN. apply NoDup_cons in HN as [Hng HN].
      destruct (IH HN (fun g' Hg' => Hg g' (elem_of_list_further _ _ _ Hg'))) as (I1 & I2 & lss & I3 & I4). clear IH.
      cbn beta in *. pose proof (Hg g ltac:(by left)) as Hg2. clear Hg.
      assert (u = [] /\ F g = Ok [] \/ exists i glo glo' l, u = [(i, glo')] /\ data !! i = Some glo /\ d_location glo <> d_location glo' /\ key_of row_key glo = Some g.1 /\
        F g = Ok [l] /\ told_created glo glo' l) as HC.
      { unfold F. rewrite Hgu. cbn [bind]. pose proof Hgu as Hsp. apply relabel_group_spec in Hsp as [[-> _]|(i & glo & rp & v & _ & _ & Hf & Hrp & Hv & ->)]; [by left|right].
        assert ((i, glo) ∈ filter (fun p => d_location p.2 = "GLO"%string) g.2) as Hin by (rewrite Hf; by left).
        apply elem_of_list_filter in Hin as [Hl Hin]. cbn [snd] in Hl.
        assert (NoDup (map fst g.2)) as Hnd by (rewrite Hg2; apply members_fst).
        unfold concat_mapR. cbn [mapR fst snd]. rewrite (find_at i g.2 glo Hnd Hin). unfold created_line. cbn [fst snd]. rewrite Hrp. cbn [bind].
        rewrite Hv. cbn [getkey bind fmapR concat app].
        pose proof Hin as Hin'. rewrite Hg2 in Hin'. apply elem_of_members in Hin' as [Hi Hk].
        eexists i, glo, _, _. split; [reflexivity|]. split; [done|]. split; [rewrite Hl; done|]. split; [done|]. split; [reflexivity|].
        rewrite (filterb_filter (fun p => p.2 <> glo)) by done.
        rewrite (map_ext (fun p : nat * dataset => default (Q2Qc 0) (original_production_volume p.2))
               (fun p => recorded_volume p.2)) by (intros p; apply original_recorded).
        set (r := Qcsum _). apply get_single_ok in Hrp.
        split; [split; [done|]; split; [apply basename_spec|done]|]. exists rp, v, r. split; [done|]. split; [done|]. split; [done|].
        eexists. split; [|].
        - match goal with |- filter is_refproduct (d_exchanges (set_d_location _ ?x)) = _ => change (d_exchanges (set_d_location "RoW" x)) with (d_exchanges x) end.
          rewrite refproducts_pv, Hrp. reflexivity.
        - cbn [e_pv set_e_pv]. by rewrite Hv. }
      cbn [concat mapR]. destruct HC as [[-> HF]|(i & glo & glo' & l & -> & Hi & Hl & Hk & HF & Ht)].
      + split_and!; [done| |].
        * intros i d' Hin. destruct (I2 i d' Hin) as (d & ? & ? & k & ? & ?).
          exists d. split_and!; [done..|]. exists k. split; [by right|done].
        * rewrite HF. cbn [bind]. rewrite I3. cbn [bind]. eexists. split; [reflexivity|]. done.
      + cbn [map app fst]. split_and!.
        * apply NoDup_cons. split; [|done]. intros Hin. apply elem_of_list_fmap in Hin as ([j d'] & Hj & Hin). cbn [fst] in Hj. subst j.
          destruct (I2 i d' Hin) as (d & Hd & _ & k & Hk2 & Hk3). apply Hng. assert (d = glo) as -> by congruence. assert (k = g.1) as -> by congruence. done.
        * intros j d' Hin. apply elem_of_cons in Hin as [Hin|Hin].
          -- injection Hin as -> ->. exists glo. split_and!; [done..|]. exists g.1. split; [by left|done].
          -- destruct (I2 j d' Hin) as (d & ? & ? & k & ? & ?). exists d. split_and!; [done..|]. exists k. split; [by right|done].
        * rewrite HF. cbn [bind]. rewrite I3. cbn [bind]. eexists. split; [reflexivity|]. cbn [concat app]. constructor; [|done]. by exists glo. }
  unfold concat_mapR. rewrite H3. cbn [fmapR]. exists (concat lss).
  pose proof (changed_positions (concat ups) data H1) as HP.
  specialize (HP ltac:(intros i d' Hin; destruct (H2 i d' Hin) as (d & ? & ? & _); by exists d)).
  set (h := fun i => (default dataset0 (data !! i), default dataset0 (update_all (concat ups) data !! i))).
  apply (Permutation_map h) in HP. rewrite !map_map in HP.
  assert (Forall2 (fun p l => told_created p.1 p.2 l) (map (fun u => h u.1) (concat ups)) (concat lss)) as H5.
  { assert (forall us ls, Forall (fun u => u ∈ concat ups) us ->
      Forall2 (fun u l => exists d, data !! u.1 = Some d /\ told_created d u.2 l) us ls ->
      Forall2 (fun p l => told_created p.1 p.2 l) (map (fun u => h u.1) us) ls) as HG.
    { clear HP H2 H4. intros us ls Hself H4. induction H4 as [|u l us ls (d & Hd & Ht) _ IH]; cbn [map].
      - constructor.
      - apply Forall_cons in Hself as [Huin Hself]. constructor; [|by apply IH]. unfold h. cbn [fst snd]. rewrite Hd.
        rewrite (update_all_in (concat ups) data u.1 u.2); [exact Ht|done|by destruct u|]. by eapply lookup_lt_Some. }
    apply HG; [|exact H4]. by apply Forall_forall. }
  destruct (Permutation_Forall2 HP H5) as (ls' & HP' & H6). exists ls'. split; [done|]. split; [exact HP'|].
  rewrite <- (filter_indexed (fun p => d_location p.1 <> d_location p.2) (zip data (update_all (concat ups) data))).
  erewrite map_ext_in; [exact H6|]. intros [i [d d']] Hin. apply elem_of_list_In, elem_of_list_filter in Hin as [_ Hin].
  apply elem_of_indexed in Hin. rewrite lookup_zip_with_Some in Hin. destruct Hin as (x & y & [= -> ->] & Hx & Hy). unfold h. cbn [fst snd].
  by rewrite Hx, Hy.
Qed.

(** *** Consumers *)
Lemma supplies_spec ds e ms : let total := Qcsum (map market_volume ms) in (2 <= length ms)%nat ->
  exists ls, consumer_input_lines ds e ms = Ok ls /\ Forall (describes ds) ls /\ told_choice e ms (map l_message ls).
Proof.
  intros total Hlen. destruct ms as [|m1 [|m2 ms]]; [cbn in Hlen; lia..|]. unfold consumer_input_lines, told_choice.
  set (l := m1 :: m2 :: ms) in *. fold total.
  assert (map volume_of (map (annotate_supplier e) l) = map market_volume l) as Hv.
  { rewrite map_map. apply map_ext. apply market_volume_annotated. }
  assert (Forall (fun s => is_Some (e_pv s)) (map (annotate_supplier e) l)) as Hp.
  { apply Forall_forall. intros s Hs. apply elem_of_list_fmap in Hs as (x & -> & _). by eexists. }
  unfold supply_lines. rewrite (proj2 (mapR_volumes _ _) (conj Hp eq_refl)). cbn [bind]. rewrite Hv. fold total.
  unfold Qctruthy, Qceqb. case_bool_decide as E; cbn [negb].
  - rewrite decide_True by done. cbn [map bind].
    change (annotate_supplier e m1 :: annotate_supplier e m2 :: map (annotate_supplier e) ms) with (map (annotate_supplier e) l).
    eexists. split; [reflexivity|]. split.
    + rewrite app_nil_r. apply Forall_forall. intros li Hli. apply elem_of_list_fmap in Hli as (s & -> & _). apply about_describes.
    + rewrite !app_nil_r, !map_map. done.
  - rewrite decide_False by done. rewrite input_lines_spec by done. cbn [bind].
    eexists. split; [reflexivity|]. split.
    + apply Forall_app. split; [|constructor; [apply about_describes|]]; apply Forall_forall; intros li Hli; apply elem_of_list_fmap in Hli as (s & -> & _);
        apply about_describes.
    + rewrite map_app, !map_map. f_equal. cbn [map l_message about]. rewrite map_length. f_equal. rewrite map_map.
      assert (sharing (map (annotate_supplier e) l)
              = map (annotate_supplier e) (filter (fun m => market_volume m <> 0%Qc) l)) as ->.
      { unfold sharing. clear. induction l as [|x l IH]; [done|]. cbn [map]. rewrite !filter_cons.
        rewrite market_volume_annotated. destruct (decide _); cbn [map]; by rewrite IH. }
      rewrite map_map. apply map_ext. intros m. cbn [l_message about]. rewrite market_volume_annotated. done.
Qed.
Lemma choice_lines ds e ms : exists ls, consumer_input_lines ds e ms = Ok ls /\ Forall (describes ds) ls /\ told_choice e ms (map l_message ls).
Proof.
  destruct ms as [|m [|m2 ms]].
  - exists []. split; [done|]. split; [constructor|done].
  - eexists. split; [reflexivity|]. split; [|done]. constructor; [apply about_describes|constructor].
  - apply supplies_spec. cbn. lia.
Qed.

Section consumers.
  Context (ln : Qc -> Qc) (t : topo) (data : list dataset) (ks : list (string * (nat * dataset))).
  Context (Hks : keyed (typed_refprod [MarketActivity; MarketGroup]) data = Ok ks).
  Context (Hknown : Forall (fun d => known t (d_location d)) data).
  Context (Hgroups : forall d, d ∈ data -> d_type d = MarketGroup -> d_location d <> "RoW"%string).
  Context (Hcodes : forall d, d ∈ data -> exists c, d_code d = Some c /\ c <> ""%string).
  Notation mapping := (map (fun g => (g.1, map snd g.2)) (groupby ks)).

  Definition lines_about (ds : dataset) (row : option faces) (e : exchange) : list line :=
    match choose_markets t (d_location ds) row (filter (sells (e_name e)) data) with
    | Ok ms => match consumer_input_lines ds e ms with Ok ls => ls | Err _ => [] end
    | Err _ => []
    end.

  Lemma lines_fold ds row todo : 
    (forall p : nat * exchange, p ∈ todo -> e_name p.2 = "refinery gas"%string -> sold data "refinery gas") ->
    forall before st acc r,
    foldR (link_inputs_step ln t mapping (d_location ds) row) (before, st) todo = Ok r ->
    foldR (consumer_lines_step t mapping ds row) (before, acc) (map snd todo) =
      Ok (r.1, acc ++ concat (map (fun p => lines_about ds row p.2) todo)).
  Proof using Hks.
    intros Hrg. induction todo as [|p todo IH]; intros before st acc r H; cbn [foldR map] in H |- *.
    - apply Ok_inj in H as <-. cbn [concat]. by rewrite app_nil_r.
    - apply bind_Ok in H as ([before' st'] & Hstep & H). unfold link_inputs_step in Hstep.
      apply bind_Ok in Hstep as (cs & Hcs & Hstep). apply bind_Ok in Hstep as (chosen & Hch & Hstep).
      apply bind_Ok in Hstep as (d & Hd & Hstep). apply Ok_inj in Hstep. injection Hstep as <- <-.
      unfold consumer_lines_step at 1. cbn [fst snd] in *. rewrite Hcs. cbn [bind]. rewrite Hch. cbn [bind].
      destruct (choice_lines ds p.2 chosen) as (ls & Hls & _). rewrite Hls. cbn [bind].
      assert (cs = filter (sells (e_name p.2)) data) as Ecs.
      { eapply candidates_spec; [exact Hks| |exact Hcs]. intros E. rewrite E. apply (Hrg p); [by left|done]. }
      erewrite IH; [|intros q Hq; apply Hrg; by right|exact H]. f_equal. f_equal. cbn [concat]. rewrite app_assoc. f_equal. f_equal.
      unfold lines_about. rewrite <- Ecs, Hch, Hls. done.
  Qed.

  Lemma told_dataset before ds r : ds ∈ data -> d_type ds <> MarketGroup ->
    (forall e, e ∈ d_exchanges ds -> open_exchange e -> e_name e = "refinery gas"%string -> sold data "refinery gas") ->
    link_dataset ln t mapping data before ds = Ok r ->
    exists ls, dataset_lines t mapping data before ds = Ok (r.1, ls) /\ told_consumer t data ds r.2 ls.
  Proof using Hks Hknown Hgroups Hcodes.
    intros Hds Hty Hrg H. unfold link_dataset in H. unfold dataset_lines. unfold is_type in *.
    rewrite bool_decide_eq_false_2 in H |- * by done. apply bind_Ok in H as (row & Hrow & H). rewrite Hrow. cbn [bind].
    apply consumer_row_spec in Hrow as (f & Hca & Hf); [|by apply (proj1 (Forall_forall _ _) Hknown ds)].
    apply bind_Ok in H as (res & Hres & H).
    assert (forall p, p ∈ indexed (d_exchanges ds) -> unlinked p.2 = true -> e_name p.2 = "refinery gas"%string -> sold data "refinery gas") as Hrg'.
    { intros [i e] Hp Hu Hn. apply elem_of_indexed in Hp. apply (Hrg e); [|by apply unlinked_iff|done]. by eapply elem_of_list_lookup_2. }
    pose proof Hres as Hrows. apply (lines_fold _ _ _) with (acc := []) in Hrows.
    2:{ intros p Hp. apply filterb_In in Hp as [Hp Hu]. by apply Hrg'. }
    rewrite unlinked_indexed in Hrows.
    eapply (inputs_fold ln t data ks Hks Hknown Hgroups Hcodes ds row f (indexed (d_exchanges ds)) _ Hf (indexed_fst _) Hrg' []) in Hres as [Hst Hall].
    2:{ cbn [app]. intros p Hp. by apply filterb_In in Hp. }
    2:{ cbn [app]. apply (NoDup_fmap_1 fst). change (NoDup (map fst (filterb (fun p : nat * exchange => unlinked p.2) (indexed (d_exchanges ds))))).
        rewrite (filterb_filter (fun p : nat * exchange => unlinked p.2 = true)).
        - apply NoDup_map_filter, indexed_fst.
        - intros x _. destruct (unlinked x.2); [by rewrite bool_decide_eq_true_2|by rewrite bool_decide_eq_false_2]. }
    2:{ rewrite state_nil. reflexivity. }
    cbn [app] in Hst, Hrows. apply Ok_inj in H. subst r. cbn [fst snd].
    rewrite Hrows. eexists. split; [reflexivity|]. split.
    { apply Forall_forall. intros li Hli. apply in_concat' in Hli as (x & Hli & Hx). apply elem_of_list_fmap in Hx as (p & -> & _).
      unfold lines_about in Hli. destruct (choose_markets _ _ _ _) as [ms|]; [|by apply elem_of_nil in Hli].
      destruct (choice_lines ds p.2 ms) as (ls & Hls & HD & _). rewrite Hls in Hli. rewrite Forall_forall in HD. by apply HD. }
    exists (map (fun e => if unlinked e then ((stays_of (choice ln t data ds row e) e, new_of (choice ln t data ds row e)), map l_message (lines_about ds row e))
                             else (([e], []), [])) (d_exchanges ds)), (if res.2.2 then None else d_suppliers ds). cbn [fst snd]. split_and!.
    - apply Forall2_fmap_r, Forall_Forall2_diag. apply Forall_forall. intros e He.
      unfold compose, told_exchange. cbn beta. destruct (unlinked e) eqn:Eu; cbn beta iota.
      + right. apply unlinked_iff in Eu. split; [done|]. cbn [fst snd].
        apply elem_of_list_lookup in He as [i Hi]. destruct (Hall (i, e)) as [d Hd].
        { apply filterb_In. split; [by apply elem_of_indexed|]. by apply unlinked_iff. }
        cbn [snd] in Hd. unfold choice. rewrite Hd. unfold choice_of in Hd. apply bind_Ok in Hd as (ms & Hms & Hd).
        destruct (choose_markets_spec t _ _ _ _ _ _ Hknown Hgroups Hf Hms) as (found & Hfound & HF).
        exists ms. split; [by exists f, found|]. split.
        * eapply decide_input_spec; [|exact Hd]. apply Forall_forall. intros m Hm. apply elem_of_list_lookup in Hm as [j Hj].
          destruct (Forall2_lookup_r _ _ _ _ _ HF Hj) as (c & _ & Hc). apply seller_at_in in Hc as (Hc & _).
          destruct (Hcodes m Hc) as (cc & -> & _). by eexists.
        * unfold lines_about. rewrite Hms. destruct (choice_lines ds e ms) as (ls & -> & _ & HT). exact HT.
      + left. split; [|done]. rewrite <- unlinked_iff. congruence.
    - rewrite Hst, state_final by apply indexed_fst. rewrite indexed_snd. rewrite !map_map.
      assert (forall s, (if res.2.2 then set_d_suppliers None (set_d_exchanges s ds) else set_d_exchanges s ds) =
        set_d_suppliers (if res.2.2 then None else d_suppliers ds) (set_d_exchanges s ds)) as ->.
      { intros s. destruct (res.2.2); [done|]. by destruct ds. }
      f_equal. f_equal. f_equal; f_equal; apply map_ext; intros e; by destruct (unlinked e).
    - rewrite map_map. rewrite <- (map_map snd (lines_about ds row)), unlinked_indexed. clear.
      induction (d_exchanges ds) as [|e es IH]; [done|]. rewrite filterb_cons. cbn [map concat]. destruct (unlinked e); cbn [map concat snd].
      + by rewrite map_app, IH.
      + done.
  Qed.
End consumers.

Lemma consumers_proof ln t data data' :
  Forall (fun d => known t (d_location d)) data ->
  (forall d, d ∈ data -> d_type d = MarketGroup -> d_location d <> "RoW"%string) ->
  (forall d, d ∈ data -> exists c, d_code d = Some c /\ c <> ""%string) ->
  (forall ds e, ds ∈ data -> e ∈ d_exchanges ds -> open_exchange e -> e_name e = "refinery gas"%string ->
     sold data "refinery gas") ->
  link_consumers_to_markets ln t data = Ok data' ->
  exists lss, consumer_lines t data = Ok (concat lss) /\
    Forall3 (fun ds ds' ls => (d_type ds = MarketGroup -> ds' = ds /\ ls = []) /\
      (d_type ds <> MarketGroup -> told_consumer t data ds ds' ls)) data data' lss.
Proof.
  intros Hk Hg Hc Hrg H. unfold link_consumers_to_markets in H. unfold consumer_lines. apply bind_Ok in H as (ks & Hks & H).
  rewrite Hks. cbn [bind]. apply bind_Ok in H as (r & Hr & <-%Ok_inj).
  assert (forall l before out acc r, (forall d, d ∈ l -> d ∈ data) ->
    foldR (fun acc ds => let? r := link_dataset ln t (map (fun g => (g.1, map snd g.2)) (groupby ks)) data acc.1 ds in
             Ok (r.1, acc.2 ++ [r.2])) (before, out) l = Ok r ->
    exists l' lss, r.2 = out ++ l' /\
      foldR (fun acc ds => let? r := dataset_lines t (map (fun g => (g.1, map snd g.2)) (groupby ks)) data acc.1 ds in
             Ok (r.1, acc.2 ++ r.2)) (before, acc) l = Ok (r.1, acc ++ concat lss) /\
      Forall3 (fun ds ds' ls => (d_type ds = MarketGroup -> ds' = ds /\ ls = []) /\
      (d_type ds <> MarketGroup -> told_consumer t data ds ds' ls)) l l' lss) as Hgen.
  { clear Hr r. intros l. induction l as [|ds l IH]; intros before out acc r Hin Hr; cbn [foldR] in Hr.
    - apply Ok_inj in Hr as <-. exists [], []. cbn [concat foldR]. rewrite !app_nil_r. split_and!; [done|done|constructor].
    - apply bind_Ok in Hr as ([b' out'] & Hstep & Hr). apply bind_Ok in Hstep as (x & Hx & Hstep).
      apply Ok_inj in Hstep. injection Hstep as <- <-. cbn [fst snd] in Hx.
      assert (exists ls, dataset_lines t (map (fun g => (g.1, map snd g.2)) (groupby ks)) data before ds = Ok (x.1, ls) /\
        (d_type ds = MarketGroup -> x.2 = ds /\ ls = []) /\
        (d_type ds <> MarketGroup -> told_consumer t data ds x.2 ls)) as (ls & HR & HS).
      { destruct (decide (d_type ds = MarketGroup)) as [Ht|Ht].
        - unfold link_dataset, is_type in Hx. rewrite bool_decide_eq_true_2 in Hx by done. apply Ok_inj in Hx as <-.
          exists []. unfold dataset_lines, is_type. rewrite bool_decide_eq_true_2 by done. done.
        - destruct (told_dataset ln t data ks Hks Hk Hg Hc before ds x) as (ls & ? & ?); [apply Hin; by left|done| |done|].
          + intros e He. apply (Hrg ds); [apply Hin; by left|done].
          + exists ls. done. }
      destruct (IH x.1 (out ++ [x.2]) (acc ++ ls) r) as (l' & lss & Hl' & HF & H3); [intros d Hd; apply Hin; by right|exact Hr|].
      exists (x.2 :: l'), (ls :: lss). rewrite Hl', <- app_assoc. split; [done|]. split; [|by constructor].
      cbn [foldR fst snd]. rewrite HR. cbn [bind fst snd]. rewrite HF. cbn [concat]. by rewrite app_assoc. }
  destruct (Hgen data None [] [] r) as (l' & lss & Hl' & HF & H3); [done|exact Hr|].
  exists lss. cbn [app] in *. rewrite HF. cbn [bind snd]. split; [done|]. by rewrite Hl'.
Qed.

(** *** Who writes what *)
Lemma concat_mapR_Forall {A B} (P : B -> Prop) (f : A -> result (list B)) l ls :
  (forall x l', f x = Ok l' -> Forall P l') -> concat_mapR f l = Ok ls -> Forall P ls.
Proof.
  intros Hf H. unfold concat_mapR in H. destruct (mapR f l) as [lss|] eqn:E; [|done]. apply Ok_inj in H as <-.
  apply mapR_Ok in E. induction E as [|x y l lss Hx _ IH]; [constructor|]. cbn [concat]. apply Forall_app. split; [by eapply Hf|done].
Qed.
Lemma hard_links_signed data ls : hard_link_lines data = Ok ls -> Forall signed ls.
Proof.
  apply concat_mapR_Forall. intros ds l'. apply concat_mapR_Forall. intros e l. unfold hard_link_line.
  destruct (link_truthy e); [|by intros <-%Ok_inj]. destruct (_ =? _)%string.
  - intros <-%Ok_inj. by repeat constructor.
  - intros H. apply bind_Ok in H as (target & _ & H). apply bind_Ok in H as ([|x []] & _ & H); [done| |done].
    apply bind_Ok in H as (scale & _ & H). apply bind_Ok in H as (v & _ & <-%Ok_inj). by repeat constructor.
Qed.
Lemma each_Forall {A B} (P : B -> Prop) (f : A -> list B) l : (forall x, Forall P (f x)) -> Forall P (each f l).
Proof. intros Hf. unfold each. induction l as [|x l IH]; [constructor|]. cbn [map concat]. apply Forall_app. by split. Qed.
Lemma net_signed data : Forall signed (hard_linked_lines data).
Proof.
  apply each_Forall. intros ds. case_bool_decide; [|constructor]. apply each_Forall. intros e. unfold hard_linked_line.
  destruct (okb _ _); [|constructor]. destruct (e_pv e) as [v|]; [|constructor]. destruct (v_subtracted v); by repeat constructor.
Qed.
Lemma methods_signed data ls : method_lines data = Ok ls -> Forall signed ls.
Proof.
  unfold method_lines. intros H%mapR_Ok. induction H as [|ds l data ls H _ IH]; [constructor|]. constructor; [|done].
  apply bind_Ok in H as (m & _ & <-%Ok_inj). done.
Qed.
Lemma created_signed data ls : created_lines data = Ok ls -> Forall signed ls.
Proof.
  unfold created_lines. intros H. apply bind_Ok in H as (ks & _ & H). revert H. apply concat_mapR_Forall. intros g l H.
  apply bind_Ok in H as (ups & _ & H). revert H. apply concat_mapR_Forall. intros u l' H. destruct (List.find _ _) as [p|]; [|by apply Ok_inj in H as <-].
  apply bind_Ok in H as (li & H & <-%Ok_inj). unfold created_line in H. apply bind_Ok in H as (rp & _ & H). apply bind_Ok in H as (v & _ & <-%Ok_inj).
  by repeat constructor.
Qed.
Lemma input_signed ds exc total s ls : input_line ds exc total s = Ok ls -> Forall signed ls.
Proof.
  unfold input_line. intros H. apply bind_Ok in H as (pv & _ & H). apply bind_Ok in H as (f & _ & <-%Ok_inj). destruct (Qctruthy f); by repeat constructor.
Qed.
Lemma supply_signed ds exc l ls : supply_lines ds exc l = Ok ls -> Forall signed ls.
Proof.
  unfold supply_lines. intros H. apply bind_Ok in H as (pvs & _ & H). destruct (Qctruthy _).
  - apply bind_Ok in H as (inputs & H & <-%Ok_inj). constructor; [done|]. revert H. apply concat_mapR_Forall. intros s l'. apply input_signed.
  - destruct l as [|s []]; [by apply Ok_inj in H as <-| |by apply Ok_inj in H as <-].
    apply bind_Ok in H as (inputs & H & <-%Ok_inj). constructor; [done|]. by eapply input_signed.
Qed.
Lemma markets_signed kind data ls : all_market_lines kind data = Ok ls -> Forall signed ls.
Proof.
  apply concat_mapR_Forall. intros ds l. destruct (is_type kind ds); [|by intros <-%Ok_inj]. unfold market_lines. intros H.
  apply bind_Ok in H as (exc & _ & H). apply bind_Ok in H as (s & _ & H). by eapply supply_signed.
Qed.
Lemma links_signed data ls : actual_lines data = Ok ls -> Forall signed ls.
Proof.
  apply concat_mapR_Forall. intros ds l'. apply concat_mapR_Forall. intros e l. unfold actual_line. destruct (e_link e); [|by intros <-%Ok_inj].
  destruct (_ =? _)%string; [by intros <-%Ok_inj|]. intros H. apply bind_Ok in H as ([|x []] & _ & <-%Ok_inj); by repeat constructor.
Qed.
Lemma consumers_signed t data ls : consumer_lines t data = Ok ls -> Forall signed ls.
Proof.
  unfold consumer_lines. intros H. apply bind_Ok in H as (ks & _ & H). apply bind_Ok in H as (r & H & <-%Ok_inj).
  revert H. generalize (map (fun g : string * list (nat * dataset) => (g.1, map snd g.2)) (groupby ks)). intros mapping.
  generalize data at 1. intros data'.
  assert (Forall signed (@nil line)) as Hacc by constructor. revert Hacc. generalize (@nil line). generalize (@None (list dataset)).
  induction data as [|ds data IH]; intros before acc Hacc H; cbn [foldR] in H; [by apply Ok_inj in H as <-|].
  apply bind_Ok in H as ([b' acc'] & H1 & H). eapply IH; [|exact H]. clear H IH.
  apply bind_Ok in H1 as ([b1 l1] & H & [= <- <-]%Ok_inj). cbn [fst snd] in *. apply Forall_app. split; [done|].
  unfold dataset_lines in H. destruct (is_type _ _); [by apply Ok_inj in H as [= <- <-]|].
  apply bind_Ok in H as (row & _ & H).
  revert H. assert (Forall signed (@nil line)) as Hn by constructor. revert Hn. generalize (@nil line). clear Hacc.
  revert before. induction (filterb unlinked (d_exchanges ds)) as [|e es IH]; intros before l Hl H; cbn [foldR] in H;
    [by apply Ok_inj in H as [= <- <-]|].
  apply bind_Ok in H as ([b2 l2] & H1 & H). eapply IH; [|exact H]. clear H IH.
  unfold consumer_lines_step in H1. apply bind_Ok in H1 as (cs & _ & H1). apply bind_Ok in H1 as (ms & _ & H1). apply bind_Ok in H1 as (l3 & H3 & H1).
  apply Ok_inj in H1 as [= <- <-]. cbn [fst snd]. apply Forall_app. split; [done|]. unfold consumer_input_lines in H3.
  destruct ms as [|m [|m2 ms]]; [by apply Ok_inj in H3 as <-|apply Ok_inj in H3 as <-; by repeat constructor|].
  apply bind_Ok in H3 as (rest & H3 & <-%Ok_inj). apply Forall_app. split; [|by eapply supply_signed].
  apply Forall_forall. intros li Hli. apply elem_of_list_fmap in Hli as (s & -> & _). done.
Qed.
Lemma all_signed t kind data ls :
  hard_link_lines data = Ok ls \/ hard_linked_lines data = ls \/ method_lines data = Ok ls \/ created_lines data = Ok ls \/
  all_market_lines kind data = Ok ls \/ actual_lines data = Ok ls \/ consumer_lines t data = Ok ls -> Forall signed ls.
Proof.
  intros [H|[<-|[H|[H|[H|[H|H]]]]]]; [by eapply hard_links_signed|apply net_signed|by eapply methods_signed|by eapply created_signed|
    by eapply markets_signed|by eapply links_signed|by eapply consumers_signed].
Qed.

Lemma hard_link_told data ds e ls : hard_link_line data ds e = Ok ls -> told_hard_link data ds e ls.
Proof.
  unfold hard_link_line, link_truthy. intros H. destruct (e_link e) as [i|] eqn:El; [|left; injection H as <-; auto].
  cbv zeta in H. change (default ""%string (Some i)) with i in H.
  destruct (String.eqb_spec i "") as [-> |Hi]; cbn [negb default] in H; [left; injection H as <-; auto|]. right.
  destruct (String.eqb_spec i (d_id ds)) as [-> |Hne].
  - left. injection H as <-. split; [done|]. eexists _, _. split; [done|]. split; [apply about_describes|]. split; [done|].
    cbn. destruct (production_volume ds); auto.
  - right. apply bind_Ok in H as (target & Ht & H). unfold getkey in Ht. destruct (dataset_by_id data i) as [d|] eqn:Ed; [|done].
    injection Ht as ->. apply dataset_by_id_some in Ed as (Hin & Hid). apply bind_Ok in H as (found & Hf & H).
    unfold production_named in Hf. apply bind_Ok in Hf as (es & Hes & [= <-]).
    destruct (filterb _ es) as [|e' [|]] eqn:Ef; try done. apply bind_Ok in H as (scale & Hs & H). apply bind_Ok in H as (v & Hv & [= <-]).
    unfold getkey in Hv. destruct (e_pv e') as [v'|] eqn:Epv; [|done]. inversion Hv; subst v'.
    assert (e' ∈ filterb (fun e0 => (e_name e0 =? e_name e)%string) es) as He' by (rewrite Ef; by left).
    apply elem_of_list_In, filter_In in He' as (He' & Hn). apply String.eqb_eq in Hn.
    exists i, target, e', v, scale. eexists. split_and!; try done; [|apply about_describes].
    apply filterR_Ok in Hes as (_ & ->). apply elem_of_list_In. apply filter_In in He' as (He' & _). done.
Qed.
Lemma hard_links_told data ls : hard_link_lines data = Ok ls -> exists lss,
  ls = concat (map (@concat line) lss) /\ Forall2 (fun ds ls => Forall2 (told_hard_link data ds) (d_exchanges ds) ls) data lss.
Proof.
  unfold hard_link_lines. intros H. apply concat_mapR_Ok in H as (yss & H & ->).
  assert (forall part yss, Forall2 (fun ds ys => concat_mapR (hard_link_line data ds) (d_exchanges ds) = Ok ys) part yss -> exists lss,
    yss = map (@concat line) lss /\ Forall2 (fun ds ls => Forall2 (told_hard_link data ds) (d_exchanges ds) ls) part lss) as Hall.
  { clear. induction 1 as [|ds ys part yss Hd _ (lss & -> & IH)]; [exists []; split; [done|constructor]|].
    apply concat_mapR_Ok in Hd as (es & Hd & ->). exists (es :: lss). split; [done|]. constructor; [|done].
    eapply Forall2_impl; [exact Hd|]. intros e l. apply hard_link_told. }
  destruct (Hall _ _ H) as (lss & -> & HF). by exists lss.
Qed.

Lemma input_line_inputs ds exc total s ls : input_line ds exc total s = Ok ls -> Forall (fun l => is_input l = true) ls.
Proof.
  unfold input_line. intros H. apply bind_Ok in H as (pv & _ & H). apply bind_Ok in H as (factor & _ & [= <-]).
  destruct (Qctruthy factor); by repeat constructor.
Qed.
Lemma market_told ds ls : market_lines ds = Ok ls -> exists rp suppliers before,
  filter is_refproduct (d_exchanges ds) = [rp] /\ d_suppliers ds = Some suppliers /\
  ls = before ++ inputs ls /\ told_market ds rp suppliers (map l_message before).
Proof.
  unfold market_lines. intros H. apply bind_Ok in H as (rp & Hrp & H). apply bind_Ok in H as (suppliers & Hs & H).
  unfold getkey in Hs. destruct (d_suppliers ds) as [ss|]; [|done]. inversion Hs; subst ss.
  assert (filter is_refproduct (d_exchanges ds) = [rp]) as Hf by by apply get_single_ok.
  unfold supply_lines in H. apply bind_Ok in H as (pvs & Hp & H).
  assert (pvs = map (fun s => default 0%Qc (v_amount <$> e_pv s)) suppliers) as ->.
  { apply mapR_Ok in Hp. clear -Hp. induction Hp as [|s q ss qs Hq _ IH]; [done|]. cbn. f_equal; [|done].
    unfold supplier_volume, getkey in Hq. destruct (e_pv s); cbn in *; by inversion Hq. }
  assert (forall l, Forall (fun l => is_input l = true) l -> inputs l = l) as Hall.
  { clear. intros l H. unfold inputs. induction H as [|x l Hx _ IH]; [done|]. rewrite filter_cons_True by done. by rewrite IH. }
  unfold Qctruthy, Qceqb in H. unfold told_market. case_bool_decide as E; cbn [negb] in H.
  - destruct suppliers as [|s [|s2 ss]].
    + injection H as <-. exists rp, [], []. split_and!; [done..|]. by right.
    + apply bind_Ok in H as (ins & Hi & [= <-]). eexists rp, [s], [_]. split; [done|]. split; [done|]. split.
      { unfold inputs. rewrite filter_cons_False by (cbn; congruence). cbn [app]. f_equal. symmetry. apply Hall. by eapply input_line_inputs. }
      right. done.
    + injection H as <-. exists rp, (s :: s2 :: ss), []. split_and!; [done..|]. by right.
  - apply bind_Ok in H as (ins & Hi & [= <-]). eexists rp, suppliers, [_]. split; [done|]. split; [done|]. split; [|shelve].
    unfold inputs. rewrite filter_cons_False by (cbn; congruence). cbn [app]. f_equal. symmetry. apply Hall.
    apply concat_mapR_Ok in Hi as (yss & Hy & ->). apply Forall_concat. clear -Hy. induction Hy as [|x l xs ls Hl _ IH]; constructor; [by eapply input_line_inputs|done].
    Unshelve. left. split; [exact E|reflexivity].
Qed.
