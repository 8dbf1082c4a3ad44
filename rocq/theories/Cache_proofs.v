(** Proofs on the cache. *)
From Verif Require Import Base Strings Types Utils Formulas Files Brightway Spec_Files Files_proofs.
From stdpp Require Import gmap.
From Coq Require Import Ascii String.

Lemma qmax_le a b t : (qmax a b < t)%Qc <-> (a < t)%Qc /\ (b < t)%Qc.
Proof.
  unfold qmax. destruct (Qcltb a b) eqn:E.
  - apply Qcltb_spec in E. split; [intros H; split; [|done]; eapply Qclt_trans; eauto|tauto].
  - assert (~ (a < b)%Qc) as Hn by (rewrite <- Qcltb_spec; by rewrite E). apply Qcnot_lt_le in Hn.
    split; [intros H; split; [done|]; eapply Qcle_lt_trans; eauto|tauto].
Qed.
Lemma fold_qmax l x t : (fold_left qmax l x < t)%Qc <-> (x < t)%Qc /\ Forall (fun y => (y < t)%Qc) l.
Proof.
  revert x. induction l as [|y l IH]; intros x; cbn [fold_left]; [intuition constructor|].
  rewrite IH, qmax_le, Forall_cons. tauto.
Qed.
Lemma pymax_spec l m t : pymax l = Ok m -> ((m < t)%Qc <-> Forall (fun y => (y < t)%Qc) l).
Proof. destruct l as [|x l]; [done|]. cbn [pymax]. intros H. apply Ok_inj in H as <-. by rewrite fold_qmax, Forall_cons. Qed.

Section cache.
  Context {C D : Type} (extract : gmap string C -> result D).
  Notation world := (world (C:=C) (D:=D)).
  Notation event := (event (C:=C)).

  Definition visible (w : world) (n : string) (f : file) : Prop := w_files w !! n = Some f /\ is_hidden n = false.

  (** When the cache is used. *)
  Lemma check_spec w : no_visible_file w \/
    exists b, check_cache_directory w = Ok b /\
      (b = true <-> exists c t, w_cache w = Some (c, t) /\ (w_dir w < t)%Qc /\ forall n f, visible w n f -> (fi_mtime f < t)%Qc).
  Proof.
    unfold check_cache_directory.
    set (l := map _ (map_to_list _)).
    assert (forall t, Forall (fun y => (y < t)%Qc) l <-> forall n f, visible w n f -> (fi_mtime f < t)%Qc) as Hl.
    { intros t. unfold l. rewrite Forall_forall. split.
      - intros H n f [Hf Hh]. apply H. apply elem_of_list_In, in_map_iff. exists (n, f). split; [done|].
        apply elem_of_list_In, elem_of_map_to_list. by apply map_filter_lookup_Some.
      - intros H y Hy. apply elem_of_list_In, in_map_iff in Hy as ([n f] & <- & Hy).
        apply elem_of_list_In, elem_of_map_to_list, map_filter_lookup_Some in Hy as [Hf Hh]. by apply (H n f). }
    destruct l as [|x l'] eqn:El.
    - left. intros n f Hf. destruct (str_startswith "." n) eqn:Hh; [done|]. exfalso.
      assert (fi_mtime f ∈ l) as Hin.
      { unfold l. apply elem_of_list_In, in_map_iff. exists (n, f). split; [done|].
        apply elem_of_list_In, elem_of_map_to_list. by apply map_filter_lookup_Some. }
      rewrite El in Hin. by apply elem_of_nil in Hin.
    - right. destruct (w_cache w) as [[c t]|]; [|exists false; split; [done|]; split; [done|intros (? & ? & ? & _); done]].
      cbn [pymax bind]. eexists. split; [reflexivity|]. rewrite Qcltb_spec. cbn [fold_left]. rewrite qmax_le.
      assert ((fold_left qmax l' x < t)%Qc <-> Forall (fun y => (y < t)%Qc) (x :: l')) as -> by by rewrite fold_qmax, Forall_cons.
      rewrite Hl. split; [intros [H1 H2]; by exists c, t|]. intros (c' & t' & [= <- <-] & ?). done.
  Qed.

  (** The cache is not newer than the source, or agrees with it. *)
  Definition inv (crashed : Prop) (w : world) : Prop :=
    (w_dir w <= w_now w)%Qc /\
    (forall n f, w_files w !! n = Some f -> (fi_mtime f <= w_now w)%Qc) /\
    (forall d, w_pending w = Some d -> extract (source (w_files w)) = Ok d) /\
    match w_cache w with
    | None => True
    | Some (c, t) => (t <= w_now w)%Qc /\
        ((t <= w_dir w)%Qc \/ (exists n f, visible w n f /\ (t <= fi_mtime f)%Qc) \/
         match c with Whole d => extract (source (w_files w)) = Ok d | Truncated => crashed end)
    end.

  Lemma inv_start w : untouched w -> inv False w.
  Proof. intros (H1 & H2 & H3 & H4). split; [done|]. split; [done|]. rewrite H1, H2. done. Qed.
  Lemma inv_crashed (P Q : Prop) w : (P -> Q) -> inv P w -> inv Q w.
  Proof.
    intros H (H1 & H2 & H3 & H4). split; [done|]. split; [done|]. split; [done|]. destruct (w_cache w) as [[c t]|]; [|done].
    destruct H4 as [H4 [?|[?|H5]]]; split; [done|tauto|done|tauto|done|]. right. right. destruct c; tauto.
  Qed.

  Lemma source_insert_other fs n f : is_spold n = false -> source (C:=C) (<[n := f]> fs) = source fs.
  Proof.
    intros H. unfold source. apply map_eq. intros m. rewrite !lookup_fmap. f_equal. apply option_eq. intros g.
    rewrite !map_filter_lookup_Some. destruct (decide (n = m)) as [->|Hn].
    - rewrite lookup_insert. split; intros [_ Hg]; change (is_spold m = true) in Hg; congruence.
    - by rewrite lookup_insert_ne.
  Qed.

  (** After a change to the directory. *)
  Lemma inv_dir P w fs : inv P w -> w_pending w = None ->
    (forall n f, fs !! n = Some f -> (fi_mtime f <= w_now w)%Qc) -> inv P (set_files fs (w_now w) w).
  Proof.
    intros (H1 & H2 & H3 & H4) Hp Hfs. unfold inv. cbn [set_files w_dir w_now w_files w_pending w_cache].
    split; [apply Qcle_refl|]. split; [done|]. split; [congruence|]. destruct (w_cache w) as [[c t]|]; [|done]. destruct H4 as [H4 _]. tauto.
  Qed.

  Lemma inv_step P ev w : inv P w -> harmless ev w -> inv (P \/ ev = CrashInCache) (happen extract ev w).1.
  Proof.
    intros Hinv Hh. destruct ev as [dt|n c|n|from to|n t|use| | |]; cbn [harmless] in Hh; cbn [happen].
    - (* Wait *) apply (inv_crashed P); [tauto|]. destruct Hinv as (H1 & H2 & H3 & H4). unfold inv. cbn [fst w_dir w_now w_files w_pending w_cache].
      assert (forall x, (x <= w_now w)%Qc -> (x <= w_now w + dt)%Qc) as Hle by (intros x Hx; qclra).
      split; [by apply Hle|]. split; [intros n f Hf; by apply Hle, (H2 n)|]. split; [done|].
      destruct (w_cache w) as [[c t]|]; [|done]. destruct H4 as [H4 H5]. split; [by apply Hle|exact H5].
    - (* Write *) apply (inv_crashed P); [tauto|]. destruct Hh as [Hp Hhid]. cbn [fst].
      assert (forall m f, <[n:=File c (w_now w)]> (w_files w) !! m = Some f -> (fi_mtime f <= w_now w)%Qc) as Hfs.
      { intros m f Hf. apply lookup_insert_Some in Hf as [[_ <-]|[_ Hf]]; [apply Qcle_refl|]. by apply (proj1 (proj2 Hinv) m). }
      destruct (w_files w !! n) as [f0|] eqn:Hn; [|by apply inv_dir].
      destruct Hinv as (H1 & H2 & H3 & H4). unfold inv. cbn [set_files w_dir w_now w_files w_pending w_cache].
      split; [done|]. split; [done|]. split; [congruence|].
      destruct (w_cache w) as [[k t]|]; [|done]. destruct H4 as [H4 H5]. split; [done|].
      destruct (is_hidden n) eqn:Hid.
      + destruct (is_spold n) eqn:Hsp; [exfalso; pose proof (Hhid Hid Hsp) as Hno; congruence|]. rewrite source_insert_other by done.
        destruct H5 as [H5|[(m & f & [Hf Hv] & Ht)|H5]]; [tauto| |tauto]. right. left. exists m, f. split; [|done].
        split; [|done]. cbn [w_files set_files]. rewrite lookup_insert_ne; [done|congruence].
      + right. left. exists n, (File c (w_now w)). split; [split; [cbn [w_files set_files]; by rewrite lookup_insert|done]|done].
    - (* Remove *) apply (inv_crashed P); [tauto|]. destruct (w_files w !! n) as [f0|]; [|done]. cbn [fst]. apply inv_dir; [done|done|].
      intros m f Hf. apply lookup_delete_Some in Hf as [_ Hf]. by apply (proj1 (proj2 Hinv) m).
    - (* Move *) apply (inv_crashed P); [tauto|]. destruct (w_files w !! from) as [g|] eqn:Hg; [|done]. cbn [fst]. apply inv_dir; [done|done|].
      intros m f Hf. apply lookup_insert_Some in Hf as [[_ <-]|[_ Hf]]; [by apply (proj1 (proj2 Hinv) from)|].
      apply lookup_delete_Some in Hf as [_ Hf]. by apply (proj1 (proj2 Hinv) m).
    - done.
    - (* Begin *) apply (inv_crashed P); [tauto|].
      assert (inv P (match extract (source (w_files w)) with
                     | Ok d => if use then (set_pending (Some d) w, None) else (w, Some (Ok d))
                     | Err e => (w, Some (Err e)) end).1) as Hread.
      { destruct (extract (source (w_files w))) as [d|e] eqn:E; [|done]. destruct use; [|done].
        destruct Hinv as (H1 & H2 & H3 & H4). unfold inv. cbn [fst set_pending w_dir w_now w_files w_pending w_cache].
        split; [done|]. split; [done|]. split; [intros ? [= <-]; done|done]. }
      destruct use; [|exact Hread]. destruct (check_cache_directory w) as [[|]|]; [done|exact Hread|done].
    - (* Finish *) apply (inv_crashed P); [tauto|]. destruct (w_pending w) as [d|] eqn:Hp; [|done].
      destruct Hinv as (H1 & H2 & H3 & H4). unfold inv. cbn [fst set_cache w_dir w_now w_files w_pending w_cache].
      split; [done|]. split; [done|]. split; [done|]. split; [apply Qcle_refl|]. right. right. by apply H3.
    - (* Crash *) apply (inv_crashed P); [tauto|]. destruct Hinv as (H1 & H2 & H3 & H4). unfold inv.
      cbn [fst set_pending w_dir w_now w_files w_pending w_cache]. done.
    - (* CrashInCache *) destruct (w_pending w) as [d|]; [|apply (inv_crashed P); [tauto|done]].
      destruct Hinv as (H1 & H2 & H3 & H4). unfold inv. cbn [fst set_cache w_dir w_now w_files w_pending w_cache].
      split; [done|]. split; [done|]. split; [done|]. split; [apply Qcle_refl|]. tauto.
  Qed.

  Lemma uncached_eq w : uncached extract w = Some (extract (source (w_files w))).
  Proof. unfold uncached. cbn [happen]. by destruct (extract _). Qed.

  (** What is returned. *)
  Lemma returned P ev w r : inv P w -> (happen extract ev w).2 = Some r ->
    uncached extract w = Some r \/ (r = Err EOFError /\ P) \/ (r = Err ValueError /\ no_visible_file w).
  Proof.
    intros Hinv H. rewrite uncached_eq. destruct ev as [dt|n c|n|from to|n t|use| | |]; cbn [happen snd] in H; try done.
    - by destruct (w_files w !! n).
    - by destruct (w_files w !! from).
    - by destruct (w_files w !! n).
    - assert ((match extract (source (w_files w)) with
               | Ok d => if use then (set_pending (Some d) w, None) else (w, Some (Ok d))
               | Err e => (w, Some (Err e)) end).2 = Some r -> Some (extract (source (w_files w))) = Some r) as Hread.
      { destruct (extract (source (w_files w))); [destruct use|]; cbn; congruence. }
      destruct use; [|tauto].
      destruct (check_spec w) as [Hv|(b & Hb & Hiff)].
      + unfold check_cache_directory in H at 1.
        assert (map_to_list (filter (fun x : string * file => is_hidden x.1 = false) (w_files w)) = []) as E.
        { replace (filter (fun x : string * file => is_hidden x.1 = false) (w_files w)) with (∅ : gmap string (file (C:=C))); [apply map_to_list_empty|].
          symmetry. apply map_empty. intros n. apply eq_None_not_Some. intros [f Hf]. apply map_filter_lookup_Some in Hf as [Hf Hh].
          change (str_startswith "." n = false) in Hh. by rewrite (Hv n f Hf) in Hh. }
        rewrite E in H. destruct (w_cache w) as [[c t]|]; [|tauto]. cbn in H. injection H as <-. tauto.
      + rewrite Hb in H. destruct b; [|tauto]. destruct (proj1 Hiff eq_refl) as (c & t & Hc & Hd & Hf).
        destruct Hinv as (_ & _ & _ & H4). rewrite Hc in H4. destruct H4 as [_ [H5|[(n & f & Hv & Ht)|H5]]].
        * exfalso. apply (Qclt_not_le _ _ Hd H5).
        * exfalso. apply (Qclt_not_le _ _ (Hf n f Hv) Ht).
        * cbn [snd] in H. unfold get_from_cache in H. rewrite Hc in H. destruct c as [d|]; injection H as <-; [left; by rewrite H5|tauto].
    - destruct (w_pending w) as [d|] eqn:Hp; [|done]. cbn in H. injection H as <-. left. f_equal. by apply Hinv.
    - by destruct (w_pending w).
  Qed.

  Theorem cache_history evs w0 : untouched w0 -> harmless_history extract evs w0 ->
    forall w r, (w, r) ∈ (history extract evs w0).2 ->
      uncached extract w = Some r \/ (r = Err EOFError /\ CrashInCache ∈ evs) \/ (r = Err ValueError /\ no_visible_file w).
  Proof.
    intros Hs Hh.
    assert (forall P evs w0, inv P w0 -> harmless_history extract evs w0 -> forall w r, (w, r) ∈ (history extract evs w0).2 ->
      uncached extract w = Some r \/ (r = Err EOFError /\ (P \/ CrashInCache ∈ evs)) \/ (r = Err ValueError /\ no_visible_file w)) as Hgen.
    { clear. intros P evs. revert P. induction evs as [|ev evs IH]; intros P w0 Hinv Hh w r Hin; cbn [history snd] in Hin; [by apply elem_of_nil in Hin|].
      cbn [harmless_history] in Hh. destruct Hh as [Hev Hh].
      pose proof (inv_step P ev w0 Hinv Hev) as Hinv'. specialize (IH (P \/ ev = CrashInCache) (happen extract ev w0).1 Hinv' Hh w r).
      pose proof (returned P ev w0) as Hret.
      destruct (happen extract ev w0) as [w' o]. cbn [fst snd] in *. destruct (history extract evs w') as [w'' os]. cbn [snd] in *.
      assert ((w, r) ∈ os -> uncached extract w = Some r \/ (r = Err EOFError /\ (P \/ CrashInCache ∈ ev :: evs)) \/ (r = Err ValueError /\ no_visible_file w)) as Hrest.
      { intros Hi. destruct (IH Hi) as [?|[[? [[?| ->]|?]]|?]]; [tauto|tauto|right; left; split; [done|]; right; by left|right; left; split; [done|]; right; by right|tauto]. }
      destruct o as [r'|]; [|by apply Hrest]. apply elem_of_cons in Hin as [[= <- <-]|Hi]; [|by apply Hrest].
      destruct (Hret r Hinv eq_refl) as [?|[?|?]]; tauto. }
    intros w r Hin. destruct (Hgen False evs w0 (inv_start _ Hs) Hh w r Hin) as [?|[[? [[]|?]]|?]]; tauto.
  Qed.

  (** The cache is used as long as nothing changes. *)
  Theorem cache_used w d dt : w_pending w = Some d ->
    (w_dir w < w_now w)%Qc -> (forall n f, w_files w !! n = Some f -> (fi_mtime f < w_now w)%Qc) -> ~ no_visible_file w ->
    exists w', history extract [Finish; Wait dt; Begin true] w = (w', [(w, Ok d); (w', Ok d)]).
  Proof.
    intros Hp Hd Hf Hv. cbn [history happen]. rewrite Hp. cbn [set_cache w_files w_dir w_cache w_now w_pending].
    set (w1 := World _ _ _ _ _). exists w1. destruct (check_spec w1) as [Hno|(b & Hb & Hiff)]; [by destruct Hv|].
    rewrite Hb. replace b with true.
    - cbn. done.
    - symmetry. apply Hiff. exists (Whole d), (w_now w). split; [done|]. split; [done|]. intros n f [Hn _]. by apply (Hf n).
  Qed.
End cache.
