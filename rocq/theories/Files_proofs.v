(** Proofs on file names, cleaning up and the cache. *)
From Verif Require Import Base Strings Types Utils Formulas Parameters_proofs Files Brightway Spec_Files.
From stdpp Require Import gmap pretty.
From Coq Require Import Ascii String.

(** ** File names *)

Lemma wordlike_spec c : wordlike c = true <-> letter_digit c.
Proof.
  unfold wordlike, letter_digit, nat_of_ascii. set (n := N_of_ascii c).
  rewrite !orb_true_iff, !andb_true_iff, !N.leb_le, N.eqb_eq. lia.
Qed.

Lemma join_gaps_chars inside s : Forall (fun c => slug_char c = true) s ->
  Forall (fun c => letter_digit c \/ c = hyphen) (join_gaps inside s).
Proof.
  intros H. revert inside. induction H as [|c s Hc _ IH]; intros inside; cbn [join_gaps]; [constructor|].
  destruct (gap c) eqn:E.
  - destruct inside; [apply IH|]. constructor; [by right|apply IH].
  - constructor; [|apply IH]. left. apply wordlike_spec. unfold slug_char in Hc. unfold gap in E.
    apply orb_false_iff in E as [E1 E2]. rewrite E1, E2 in Hc. by destruct (wordlike c).
Qed.

Lemma lstrip_incl s : exists p, s = p ++ lstrip s.
Proof.
  induction s as [|c s [p IH]]; cbn [lstrip]; [by exists []|]. destruct (blank c); [|by exists []].
  exists (c :: p). cbn. by f_equal.
Qed.
Lemma strip_Forall (P : ascii -> Prop) s : Forall P s -> Forall P (strip s).
Proof.
  intros H. unfold strip. destruct (lstrip_incl s) as [p Hp]. rewrite Hp in H. apply Forall_app in H as [_ H].
  destruct (lstrip_incl (rev (lstrip s))) as [q Hq]. apply Forall_rev in H. rewrite Hq in H. apply Forall_app in H as [_ H].
  by apply Forall_rev.
Qed.

Lemma slug_chars s : Forall (fun c => letter_digit c \/ c = hyphen) (slug s).
Proof.
  apply join_gaps_chars, strip_Forall. apply Forall_forall. intros c Hc. by apply filterb_In in Hc as [_ Hc].
Qed.

Lemma slug_no_dot s : dot ∉ slug s.
Proof.
  intros H. pose proof (slug_chars s) as Hs. rewrite Forall_forall in Hs. destruct (Hs _ H) as [Hd|Hd]; [|done].
  unfold letter_digit in Hd. vm_compute in Hd. lia.
Qed.

Theorem safe_chars md5 s : Forall letter_digit (md5 s) ->
  Forall (fun c => letter_digit c \/ c = dot \/ c = hyphen) (safe_filename md5 s).
Proof.
  intros H. unfold safe_filename. apply Forall_app. split.
  - eapply Forall_impl; [apply slug_chars|]. intros c Hc. cbn in Hc. tauto.
  - constructor; [tauto|]. eapply Forall_impl; [exact H|]. intros c Hc. by left.
Qed.

Lemma split_unique {A} (x : A) l1 r1 l2 r2 : x ∉ l1 -> x ∉ l2 -> l1 ++ x :: r1 = l2 ++ x :: r2 -> l1 = l2 /\ r1 = r2.
Proof.
  revert l2. induction l1 as [|y l1 IH]; intros [|z l2] H1 H2 E; cbn in E.
  - by injection E as ->.
  - injection E as E1 E2. subst z. destruct H2. by left.
  - injection E as E1 E2. subst y. destruct H1. by left.
  - injection E as E1 E2. subst z. destruct (IH l2) as [-> ->]; [by intros ?; apply H1; right|by intros ?; apply H2; right|done|done].
Qed.

Theorem safe_distinct md5 s t : (forall x y, md5 x = md5 y -> x = y) -> safe_filename md5 s = safe_filename md5 t -> s = t.
Proof.
  intros Hinj E. unfold safe_filename in E. apply split_unique in E as [_ E]; [by apply Hinj|apply slug_no_dot|apply slug_no_dot].
Qed.

(** Decimal numbers. *)
Definition digit_char (c : ascii) : Prop := (48 <= nat_of_ascii c <= 57)%nat.
Lemma pretty_N_char_digit x : digit_char (pretty_N_char x).
Proof.
  unfold digit_char. unfold pretty_N_char.
  destruct x as [|p]; [vm_compute; lia|].
  do 4 (destruct p as [p|p|]; try (vm_compute; lia)).
Qed.
Lemma pretty_N_go_digits x s : Forall digit_char (chars s) -> Forall digit_char (chars (pretty_N_go x s)).
Proof.
  revert s. induction (N.lt_wf_0 x) as [x _ IH]. intros s Hs. destruct (decide (x = 0)%N) as [->|Hx].
  - by rewrite pretty_N_go_0.
  - rewrite pretty_N_go_step by lia. apply IH; [apply N.div_lt; lia|]. cbn. constructor; [apply pretty_N_char_digit|done].
Qed.
Lemma decimal_digits n : Forall digit_char (decimal_text n).
Proof.
  unfold decimal_text. unfold pretty, pretty_nat. unfold pretty, pretty_N. destruct (decide _).
  - cbn. repeat constructor; vm_compute; lia.
  - apply pretty_N_go_digits. constructor.
Qed.
Lemma decimal_inj n m : decimal_text n = decimal_text m -> n = m.
Proof. intros H. apply chars_inj in H. by apply (inj pretty) in H. Qed.
Lemma decimal_no_dot n : dot ∉ decimal_text n.
Proof.
  intros H. pose proof (decimal_digits n) as Hs. rewrite Forall_forall in Hs. specialize (Hs _ H). vm_compute in Hs. lia.
Qed.

Theorem intermediate_distinct md5 i j a b : (forall x y, md5 x = md5 y -> x = y) ->
  intermediate_name md5 i a = intermediate_name md5 j b -> i = j /\ a = b.
Proof.
  intros Hinj. unfold intermediate_name. intros E.
  assert (forall o, exists r, match o with None => [] | Some n => dot :: safe_filename md5 n end ++ pickle = dot :: r) as Hdot
    by (intros [n|]; by eexists).
  destruct (Hdot a) as [ra Ha], (Hdot b) as [rb Hb].
  assert (decimal_text i ++ dot :: ra = decimal_text j ++ dot :: rb) as E' by by rewrite <- Ha, <- Hb.
  apply split_unique in E' as [E1 E2]; [|apply decimal_no_dot..]. apply decimal_inj in E1 as ->. split; [done|].
  apply app_inv_head in E. destruct a as [a|], b as [b|]; cbn [app] in E.
  - f_equal. injection E as E. apply app_inv_tail in E. by apply safe_distinct in E.
  - injection E as E. exfalso. assert (dot ∈ safe_filename md5 a ++ chars ".pickle") as H
      by (unfold safe_filename; rewrite !elem_of_app; left; right; by left).
    unfold pickle in E. rewrite E in H. revert H; by_compute.
  - injection E as E. exfalso. assert (dot ∈ safe_filename md5 b ++ chars ".pickle") as H
      by (unfold safe_filename; rewrite !elem_of_app; left; right; by left).
    unfold pickle in E. rewrite <- E in H. revert H; by_compute.
  - done.
Qed.

Theorem follow_distinct i j s t : follow_name i s = follow_name j t -> i = j /\ s = t.
Proof.
  unfold follow_name. intros E. apply split_unique in E as [E1 E2]; [|apply decimal_no_dot..].
  apply decimal_inj in E1 as ->. by apply app_inv_tail in E2 as ->.
Qed.

(** ** Cleaning up *)

Lemma one_week_seconds : one_week = Qcint 604800.
Proof. reflexivity. Qed.

Lemma Qcltb_spec a b : Qcltb a b = true <-> (a < b)%Qc.
Proof. unfold Qcltb. split; intros H; [by apply bool_decide_eq_true_1 in H|by apply bool_decide_eq_true_2]. Qed.

Lemma to_delete_spec now d : to_delete now d = true <-> old_folder now d \/ old_link now d.
Proof.
  unfold to_delete, old_folder, old_link. rewrite andb_true_iff, Qcltb_spec, one_week_seconds.
  destruct (de_kind d); [rewrite bool_decide_eq_false_2 by tauto|rewrite bool_decide_eq_true_2 by done..]; intuition congruence.
Qed.

Lemma rmtrees_spec l dir :
  (Forall (fun d => de_kind d <> LinkToFolder) l ->
   rmtrees l dir = (filterb (fun x => negb (bool_decide (de_name x ∈ map de_name l))) dir, Ok tt)) /\
  (forall d, d ∈ dir -> d ∉ (rmtrees l dir).1 -> exists d', d' ∈ l /\ de_name d' = de_name d /\ de_kind d' <> LinkToFolder) /\
  sublist (rmtrees l dir).1 dir /\
  (forall e, (rmtrees l dir).2 = Err e -> e = OSError /\ exists d, d ∈ l /\ de_kind d = LinkToFolder).
Proof.
  revert dir. induction l as [|d l IH]; intros dir; cbn [rmtrees].
  - split; [|split; [|split]]; cbn [fst snd]; [|done|done|done]. intros _. f_equal. unfold filterb. induction dir as [|x dir IH]; [done|].
    cbn [List.filter map]. rewrite bool_decide_eq_false_2 by apply not_elem_of_nil. cbn [negb]. by f_equal.
  - unfold rmtree. destruct (decide (de_kind d = LinkToFolder)) as [E|E].
    + rewrite bool_decide_eq_true_2 by done. cbn [fst snd]. split; [|split; [|split]].
      * intros H. by inversion H.
      * done.
      * done.
      * intros e [= <-]. split; [done|]. exists d. split; [by left|done].
    + rewrite bool_decide_eq_false_2 by done.
      set (p := fun x => negb (bool_decide (de_name x = de_name d))). destruct (IH (filterb p dir)) as (H1 & H2 & H3 & H4).
      split; [|split; [|split]].
      * intros H. inversion H; subst. rewrite H1 by done. f_equal. unfold filterb. clear. induction dir as [|x dir IH]; [done|].
        cbn [List.filter map]. unfold p at 1. destruct (decide (de_name x = de_name d)) as [E|E].
        -- rewrite bool_decide_eq_true_2 by done. rewrite (bool_decide_eq_true_2 (de_name x ∈ _)) by (rewrite E; left). cbn [negb]. exact IH.
        -- rewrite bool_decide_eq_false_2 by done. cbn [negb List.filter].
           assert (bool_decide (de_name x ∈ de_name d :: map de_name l) = bool_decide (de_name x ∈ map de_name l)) as ->.
           { apply bool_decide_ext. rewrite elem_of_cons. tauto. }
           destruct (bool_decide _); cbn [negb]; [exact IH|]. by f_equal.
      * intros x Hx Hn. destruct (decide (de_name x = de_name d)) as [Ex|Ex].
        -- exists d. split; [by left|]. done.
        -- destruct (H2 x) as (d' & Hd & ?); [|done|exists d'; split; [by right|done]].
           apply filterb_In. split; [done|]. unfold p. by rewrite bool_decide_eq_false_2.
      * etrans; [exact H3|]. unfold filterb. clear. induction dir as [|x dir IH]; [done|]. cbn [List.filter]. destruct (p x); by constructor.
      * intros e He. destruct (H4 e He) as [-> (d' & ? & ?)]. split; [done|]. exists d'. split; [by right|done].
Qed.

Lemma NoDup_map_name (dir : list dirent) d d' : NoDup (map de_name dir) -> d ∈ dir -> d' ∈ dir -> de_name d = de_name d' -> d = d'.
Proof.
  induction dir as [|x dir IH]; cbn [map]; intros H Hd Hd' E; [by apply elem_of_nil in Hd|].
  apply NoDup_cons in H as [Hx H]. apply elem_of_cons in Hd as [->|Hd], Hd' as [->|Hd']; [done| | |by apply IH].
  - destruct Hx. rewrite E. apply elem_of_list_In, in_map, elem_of_list_In, Hd'.
  - destruct Hx. rewrite <- E. apply elem_of_list_In, in_map, elem_of_list_In, Hd.
Qed.

Lemma listed now dir d : d ∈ isort dirent_leb (filterb (to_delete now) dir) <-> d ∈ dir /\ (old_folder now d \/ old_link now d).
Proof. rewrite elem_of_isort, filterb_In, to_delete_spec. done. Qed.

Theorem cleanup_all now dir : NoDup (map de_name dir) -> (forall d, d ∈ dir -> ~ old_link now d) ->
  exists kept, cleanup_data_directory now dir = (kept, Ok tt) /\ sublist kept dir /\
    forall d, d ∈ kept <-> d ∈ dir /\ ~ old_folder now d.
Proof.
  intros Hnd Hl. unfold cleanup_data_directory. set (l := isort dirent_leb _).
  destruct (rmtrees_spec l dir) as (H1 & _ & H3 & _). rewrite H1 in H3 |- *.
  2,3: (apply Forall_forall; intros d Hd; apply listed in Hd as [Hd [Ho|Ho]]; [destruct Ho as [-> _]; done|by destruct (Hl d Hd)]).
  eexists. split; [reflexivity|]. split; [exact H3|]. intros d. rewrite filterb_In. split; intros [Hd H]; split; try done.
  - intros Ho. rewrite bool_decide_eq_true_2 in H; [done|]. apply elem_of_list_In, in_map, elem_of_list_In, listed. tauto.
  - rewrite bool_decide_eq_false_2; [done|]. intros Hin. apply elem_of_list_In, in_map_iff in Hin as (d' & E & Hd').
    apply elem_of_list_In, listed in Hd' as [Hd' Ho]. assert (d' = d) as -> by by apply (NoDup_map_name dir).
    destruct Ho as [Ho|Ho]; [done|]. by destruct (Hl d Hd).
Qed.

(** Whatever happens, only old folders go. *)
Theorem cleanup_only now dir : NoDup (map de_name dir) ->
  sublist (cleanup_data_directory now dir).1 dir /\
  (forall d, d ∈ dir -> d ∉ (cleanup_data_directory now dir).1 -> old_folder now d) /\
  (forall e, (cleanup_data_directory now dir).2 = Err e -> e = OSError /\ exists d, d ∈ dir /\ old_link now d).
Proof.
  intros Hnd. unfold cleanup_data_directory. set (l := isort dirent_leb _).
  destruct (rmtrees_spec l dir) as (_ & H2 & H3 & H4). split; [done|]. split.
  - intros d Hd Hn. destruct (H2 d Hd Hn) as (d' & Hd' & E & Hk). apply listed in Hd' as [Hd' Ho].
    assert (d' = d) as -> by by apply (NoDup_map_name dir). destruct Ho as [Ho|[Ho _]]; done.
  - intros e He. destruct (H4 e He) as [-> (d & Hd & Hk)]. split; [done|]. apply listed in Hd as [Hd [[Ho _]|Ho]]; [congruence|by exists d].
Qed.

Theorem cleanup_again now now' dir kept : NoDup (map de_name dir) -> (now' <= now)%Qc ->
  cleanup_data_directory now dir = (kept, Ok tt) -> (forall d, d ∈ dir -> ~ old_link now d) ->
  cleanup_data_directory now' kept = (kept, Ok tt).
Proof.
  intros Hnd Hnow H Hl. destruct (cleanup_all now dir Hnd Hl) as (k & Hk & Hs & Hin). rewrite H in Hk. injection Hk as <-.
  unfold cleanup_data_directory. replace (filterb (to_delete now') kept) with (@nil dirent); [done|].
  destruct (filterb (to_delete now') kept) as [|d l] eqn:E; [done|]. exfalso.
  assert (d ∈ filterb (to_delete now') kept) as Hd by (rewrite E; by left). apply filterb_In in Hd as [Hd Ho].
  apply Hin in Hd as [Hd Hno]. apply to_delete_spec in Ho. unfold old_folder, old_link in Ho.
  assert ((now' - Qcint 604800 <= now - Qcint 604800)%Qc) as Hle by qclra.
  destruct Ho as [[Hk Hc]|[Hk Hc]]; [apply Hno|apply (Hl d Hd)]; (split; [done|]); eapply Qclt_le_trans; eauto.
Qed.
