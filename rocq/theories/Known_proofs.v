(** Proofs for C74. *)
From Coq Require Import Ascii.
From Verif Require Import Base Types Uncertainty Utils Strings StringFacts Recalculation Formulas Parameters Spec_Parameters
  Parameters_proofs Spec_Formulas Formulas_proofs Reserved_proofs Utils_proofs Brightway_proofs Spec_Known.

(** *** Replacing *)
Lemma occurs_cons bad c s : occurs_in bad (c :: s) -> starts bad (c :: s) = true \/ occurs_in bad s.
Proof.
  intros (pre & post & E). destruct pre as [|d pre].
  - left. cbn [app] in E. rewrite E. apply starts_app.
  - right. injection E as -> ->. by exists pre, post.
Qed.
Lemma starts_occurs bad s : starts bad s = true -> occurs_in bad s.
Proof. intros [r ->]%starts_true. by exists [], r. Qed.
Lemma cons_occurs bad c s : occurs_in bad s -> occurs_in bad (c :: s).
Proof. intros (pre & post & ->). by exists (c :: pre), post. Qed.
Lemma treplace_replaced bad good s : bad <> [] -> replaced bad good s (treplace bad good s).
Proof.
  intros Hb. remember (length s) as n eqn:En. revert s En. induction (lt_wf n) as [n _ IH]. intros s ->.
  assert (~ occurs_in bad s \/ exists pre post, s = pre ++ bad ++ post /\ ~ occurs_in bad (pre ++ removelast bad)) as Hs.
  { clear IH. induction s as [|c s IHs].
    - left. intros (pre & post & E). destruct pre; [|done]. destruct bad; done.
    - destruct (starts bad (c :: s)) eqn:E.
      + right. apply starts_true in E as [r ->]. exists [], r. split; [done|]. intros (pre & post & E).
        apply (f_equal length) in E. cbn [app] in E. rewrite !app_length in E.
        rewrite (app_removelast_last "a"%char Hb) in E at 2. rewrite app_length in E. cbn in E. lia.
      + destruct IHs as [H|(pre & post & -> & H)].
        * left. intros Ho. apply occurs_cons in Ho as [Ho|Ho]; [congruence|done].
        * right. exists (c :: pre), post. split; [done|]. intros Ho. cbn [app] in Ho. apply occurs_cons in Ho as [Ho|Ho]; [|done].
          apply starts_true in Ho as [r Hr]. assert (starts bad (c :: pre ++ bad ++ post) = true) as Es; [|congruence].
          rewrite (app_removelast_last "a"%char Hb) at 2. rewrite <- !app_assoc, (app_assoc pre), app_comm_cons, Hr, <- app_assoc. apply starts_app. }
  destruct Hs as [Hs|(pre & post & -> & Hs)].
  - assert (treplace bad good s = s) as ->; [|by constructor]. clear IH. induction s as [|c s IH]; [done|].
    rewrite treplace_other, IH; [done| |].
    + intros H. by apply Hs, cons_occurs.
    + destruct (starts bad (c :: s)) eqn:E; [|done]. by apply starts_occurs in E.
  - assert (treplace bad good (pre ++ bad ++ post) = pre ++ good ++ treplace bad good post) as ->.
    { clear IH. induction pre as [|c pre IH]; cbn [app] in *; [by apply treplace_match|]. rewrite treplace_other, IH; [done| |].
      - intros H. by apply Hs, cons_occurs.
      - destruct (starts bad (c :: pre ++ bad ++ post)) eqn:E; [|done]. exfalso. apply Hs. apply starts_occurs.
        apply starts_true in E as [r E]. destruct r as [|x r _] using rev_ind.
        + apply (f_equal length) in E. rewrite app_nil_r in E. cbn [length] in E. rewrite !app_length in E. lia.
        + assert (exists k, k ++ bad ++ post = bad ++ (r ++ [x]) /\ c :: pre ++ removelast bad = take (length bad) (c :: pre ++ bad ++ post) ++ drop (length bad) (c :: pre ++ removelast bad)) as Hk.
          { exists (c :: pre). split; [done|]. rewrite <- (take_drop (length bad) (c :: pre ++ removelast bad)) at 1. f_equal.
            assert (c :: pre ++ bad ++ post = (c :: pre ++ removelast bad) ++ [List.last bad "a"%char] ++ post) as ->.
            { rewrite (app_removelast_last "a"%char Hb) at 1. cbn [app]. by rewrite <- !app_assoc. }
            rewrite take_app_le; [done|]. cbn [length]. rewrite app_length. rewrite (app_removelast_last "a"%char Hb) at 1. rewrite app_length. cbn. lia. }
          destruct Hk as (_ & _ & ->). rewrite E, take_app. apply starts_app. }
    constructor; [done|]. apply (IH (length post)); [|done]. rewrite !app_length. destruct bad; [done|]. cbn. lia.
Qed.

(** *** Nothing is left *)
Fixpoint tails (s : text) : list text := match s with [] => [] | _ :: s' => s :: tails s' end.
(** Neither text can begin inside the other. *)
Definition meets (a b : text) : bool := starts a b || starts b a.
Definition separate (bad good : text) : bool :=
  forallb (fun t => negb (meets t good)) (tails (drop 1 bad)) && forallb (fun t => negb (meets t bad)) (tails good).
Lemma tails_spec a b : b <> [] -> b ∈ tails (a ++ b).
Proof. intros H. induction a as [|c a IH]; cbn [app]; [destruct b; [done|by left]|]. right. apply IH. Qed.
Lemma app_meets (x a y b : text) : x ++ a = y ++ b -> meets x y = true.
Proof.
  revert y. unfold meets. induction x as [|c x IH]; intros y E; [done|]. destruct y as [|d y]; [apply orb_true_iff; by right|].
  cbn [app] in E. injection E as -> E. specialize (IH y E). cbn. by rewrite !bool_decide_eq_true_2 by done.
Qed.
Lemma treplace_none_left bad good s : bad <> [] -> separate bad good = true -> ~ occurs_in bad (treplace bad good s).
Proof.
  intros Hb Hsep. apply andb_true_iff in Hsep as [H1 H2]. rewrite forallb_forall in H1, H2.
  assert (forall x r y post, x <> [] -> y <> [] -> bad = x ++ y -> y ++ post = good ++ r -> False) as K1.
  { intros x r y post Hx Hy E E2. destruct x as [|c x]; [done|]. assert (y ∈ tails (drop 1 bad)) as Hin by (rewrite E; cbn; by apply tails_spec).
    apply elem_of_list_In in Hin. apply H1 in Hin. apply app_meets in E2. by rewrite E2 in Hin. }
  assert (forall g1 g2 r post, g2 <> [] -> good = g1 ++ g2 -> g2 ++ r = bad ++ post -> False) as K2.
  { intros g1 g2 r post Hg E E2. assert (g2 ∈ tails good) as Hin by (rewrite E; by apply tails_spec).
    apply elem_of_list_In in Hin. apply H2 in Hin. apply app_meets in E2. by rewrite E2 in Hin. }
  pose proof (treplace_replaced bad good s Hb) as H. induction H as [s H|pre post post' Hp _ IH]; [done|].
  intros (a & b & E). revert a E. induction pre as [|c pre IHp]; intros a E.
  - cbn [app] in E. clear Hp. remember good as g eqn:Eg in E. assert (exists g1, good = g1 ++ g) as Hg by (by exists []). clear Eg.
    revert a E Hg. induction g as [|c g IHg]; intros a E Hg; cbn [app] in E.
    + apply IH. by exists a, b.
    + destruct Hg as [g1 Hg]. destruct a as [|d a].
      * cbn [app] in E. by eapply (K2 g1 (c :: g) post' b).
      * injection E as -> E. apply (IHg a E). exists (g1 ++ [d]). by rewrite <- app_assoc.
  - destruct a as [|d a].
    + cbn [app] in E. clear IHp. assert (length bad <= length (c :: pre) \/ length (c :: pre) < length bad)%nat as [L|L] by lia.
      * apply Hp. exists [], (drop (length bad) (c :: pre) ++ removelast bad).
        rewrite <- (take_drop (length bad) (c :: pre)) at 1. rewrite <- app_assoc. cbn [app]. f_equal.
        assert (take (length bad) (c :: pre ++ good ++ post') = take (length bad) (bad ++ b)) as Et by by rewrite E.
        rewrite take_app in Et. rewrite app_comm_cons, take_app_le in Et by done. done.
      * assert (bad = (c :: pre) ++ drop (length (c :: pre)) bad) as Eb.
        { rewrite <- (take_drop (length (c :: pre)) bad) at 1. f_equal.
          assert (take (length (c :: pre)) (c :: pre ++ good ++ post') = take (length (c :: pre)) (bad ++ b)) as Et by by rewrite E.
          rewrite app_comm_cons, take_app in Et. rewrite take_app_le in Et by lia. done. }
        apply (K1 (c :: pre) post' (drop (length (c :: pre)) bad) b); [done| |done|].
        -- intros E0. apply (f_equal length) in E0. rewrite drop_length in E0. cbn [length] in *. lia.
        -- assert (drop (length (c :: pre)) (c :: pre ++ good ++ post') = drop (length (c :: pre)) (bad ++ b)) as Et by by rewrite E.
           rewrite app_comm_cons, drop_app in Et. rewrite drop_app_le in Et by lia. done.
    + cbn [app] in E. injection E as -> E. apply (IHp ltac:(intros Ho; apply Hp; by apply cons_occurs) a E).
Qed.
Lemma treplace_id bad good s : ~ occurs_in bad s -> treplace bad good s = s.
Proof.
  intros Hs. induction s as [|c s IH]; [done|]. rewrite treplace_other, IH; [done| |].
  - intros H. by apply Hs, cons_occurs.
  - destruct (starts bad (c :: s)) eqn:E; [|done]. by apply starts_occurs in E.
Qed.

(** *** Formulas *)
Definition correct_by (bad good : string) (ds : dataset) : result dataset :=
  change_dataset (fun n => Ok (n.1, str_replace bad good <$> n.2)) ds.
Lemma change_name f ds ds' : change_dataset f ds = Ok ds' -> d_name ds' = d_name ds.
Proof. intros [H _]%change_dataset_spec. apply (f_equal d_name) in H. by destruct ds, ds'. Qed.
Lemma fix_known_cases ds :
  (exists bad good, correction (d_name ds) bad good /\ fix_known_bad ds = correct_by bad good ds) \/
  ((forall bad good, ~ correction (d_name ds) bad good) /\ fix_known_bad ds = Ok ds).
Proof.
  unfold fix_known_bad, KNOWN_SUBSTITUTIONS. cbn [foldR fst snd].
  assert (forall (f : named -> result named) n m ds1 (x : result dataset), d_name ds = n -> n <> m -> change_dataset f ds = Ok ds1 ->
    (if (d_name ds1 =? m)%string then x else Ok ds1) = Ok ds1) as Hskip.
  { intros f n m ds1 x Hn Hm H. apply change_name in H. destruct (String.eqb_spec (d_name ds1) m) as [E|E]; [congruence|done]. }
  destruct (String.eqb_spec (d_name ds) "thermoforming of plastic sheets") as [E1|E1].
  { left. eexists _, _. split; [rewrite E1; constructor|]. unfold correct_by.
    match goal with |- context [change_dataset ?f ds] => destruct (change_dataset f ds) as [ds1|x] eqn:E end; [|done]. cbn [bind].
    do 3 (rewrite (fun m x (H : _ <> m) => Hskip _ _ m _ x E1 H E) by discriminate; cbn [bind]). done. }
  cbn [bind]. destruct (String.eqb_spec (d_name ds) "benzene chlorination") as [E2|E2].
  { left. eexists _, _. split; [rewrite E2; constructor|]. unfold correct_by.
    match goal with |- context [change_dataset ?f ds] => destruct (change_dataset f ds) as [ds1|x] eqn:E end; [|done]. cbn [bind].
    do 2 (rewrite (fun m x (H : _ <> m) => Hskip _ _ m _ x E2 H E) by discriminate; cbn [bind]). done. }
  cbn [bind]. destruct (String.eqb_spec (d_name ds) "glued laminated timber production, for indoor use") as [E3|E3].
  { left. eexists _, _. split; [rewrite E3; constructor|]. unfold correct_by.
    match goal with |- context [change_dataset ?f ds] => destruct (change_dataset f ds) as [ds1|x] eqn:E end; [|done]. cbn [bind].
    rewrite (fun m x (H : _ <> m) => Hskip _ _ m _ x E3 H E) by discriminate; cbn [bind]. done. }
  cbn [bind]. destruct (String.eqb_spec (d_name ds) "cement production, alternative constituents 6-20%") as [E4|E4].
  { left. eexists _, _. split; [rewrite E4; constructor|]. unfold correct_by. by destruct (change_dataset _ ds). }
  right. split; [|done]. intros bad good H. inversion H; congruence.
Qed.
Lemma correct_spec bad good ds ds' : bad <> ""%string -> correct_by bad good ds = Ok ds' ->
  renamed (fun o o' => o_variable o' = o_variable o /\
    match o_formula o with
    | None => o_formula o' = None
    | Some f => exists f', o_formula o' = Some f' /\ replaced (chars bad) (chars good) (chars f) (chars f')
    end) ds ds'.
Proof.
  intros Hb H. apply change_dataset_spec in H as [H1 H2]. split; [done|]. eapply Forall2_impl; [exact H2|]. cbv beta. intros o o' [Hv Ho]. split; [done|].
  apply Ok_inj in Ho. cbn [fst snd] in Ho. injection Ho as E1 E2. split; [done|]. destruct (o_formula o) as [f|]; cbn in E2; [|done].
  exists (str_replace bad good f). split; [done|]. replace (chars (str_replace bad good f)) with (treplace (chars bad) (chars good) (chars f)).
  - apply treplace_replaced. intros E. apply Hb. rewrite <- (str_chars bad), E. done.
  - unfold treplace. by rewrite !str_chars.
Qed.
Lemma correction_nonempty n bad good : correction n bad good -> bad <> ""%string /\ separate (chars bad) (chars good) = true.
Proof. by destruct 1. Qed.
Lemma known_total data : exists data', fix_known_bad_formula_strings data = Ok data'.
Proof.
  apply mapR_ok_all. intros ds _. destruct (fix_known_cases ds) as [(bad & good & _ & ->)|[_ ->]]; [|by eexists].
  apply change_dataset_total. intros o _. by eexists.
Qed.
Lemma known_corrected data data' : fix_known_bad_formula_strings data = Ok data' -> Forall2 corrected data data'.
Proof.
  intros H. apply mapR_Ok in H. eapply Forall2_impl; [exact H|]. cbv beta. intros ds ds' E.
  destruct (fix_known_cases ds) as [(bad & good & Hc & E')|[Hc E']]; rewrite E' in E.
  - right. exists bad, good. split; [done|]. apply correct_spec in E; [done|]. by apply correction_nonempty in Hc as [? _].
  - left. by apply Ok_inj in E as <-.
Qed.
Lemma known_none_left data data' ds' bad good o f : fix_known_bad_formula_strings data = Ok data' -> ds' ∈ data' ->
  correction (d_name ds') bad good -> o ∈ all_objs ds' -> o_formula o = Some f -> ~ occurs_in (chars bad) (chars f).
Proof.
  intros H Hds Hc Ho Hf. apply mapR_Ok in H. apply elem_of_list_lookup in Hds as [i Hi]. destruct (Forall2_lookup_r _ _ _ _ _ H Hi) as (ds & _ & E).
  cbv beta in E. destruct (fix_known_cases ds) as [(bad' & good' & Hc' & E')|[Hc' E']]; rewrite E' in E.
  - pose proof (change_name _ _ _ E) as En. rewrite En in Hc.
    assert (bad' = bad /\ good' = good) as [-> ->].
    { clear - Hc Hc'. destruct Hc; inversion Hc'; done. }
    apply change_dataset_spec in E as [_ E]. apply elem_of_list_lookup in Ho as [j Hj]. destruct (Forall2_lookup_r _ _ _ _ _ E Hj) as (o0 & _ & _ & Eo).
    apply Ok_inj in Eo. cbn [fst snd] in Eo. injection Eo as _ Eo. rewrite Hf in Eo. destruct (o_formula o0) as [f0|]; [|done]. cbn in Eo. injection Eo as <-.
    apply correction_nonempty in Hc as [Hb Hs]. replace (chars (str_replace bad good f0)) with (treplace (chars bad) (chars good) (chars f0)).
    + apply treplace_none_left; [|done]. intros E0. apply Hb. by rewrite <- (str_chars bad), E0.
    + unfold treplace. by rewrite !str_chars.
  - apply Ok_inj in E as <-. by apply Hc' in Hc.
Qed.
Lemma known_idempotent data data' : fix_known_bad_formula_strings data = Ok data' -> fix_known_bad_formula_strings data' = Ok data'.
Proof.
  intros H. assert (forall ds', ds' ∈ data' -> fix_known_bad ds' = Ok ds') as Hall.
  { intros ds' Hds. destruct (fix_known_cases ds') as [(bad & good & Hc & ->)|[_ ->]]; [|done]. unfold correct_by. apply change_dataset_id. intros o Ho.
    cbn [fst snd]. destruct (o_formula o) as [f|] eqn:Ef; [|done]. cbn. do 2 f_equal. f_equal.
    pose proof (known_none_left _ _ _ _ _ _ _ H Hds Hc Ho Ef) as Hn. apply (treplace_id _ (chars good)) in Hn. unfold treplace in Hn.
    rewrite !str_chars in Hn. by rewrite <- (str_chars (str_replace _ _ _)), Hn, str_chars. }
  clear H. unfold fix_known_bad_formula_strings. induction data' as [|d l IH]; [done|]. cbn [mapR]. rewrite Hall by by left. cbn [bind].
  rewrite IH; [done|]. intros ds Hds. apply Hall. by right.
Qed.

(** *** Refinery gas *)
Lemma refinery_spec data : Forall2 (fun ds ds' =>
    (d_name ds <> "petroleum refinery operation"%string /\ ds' = ds) \/
    (d_name ds = "petroleum refinery operation"%string /\ ds' = set_d_exchanges (d_exchanges ds') ds /\
     d_exchanges ds' = filter (fun e => ~ idle_gas e) (d_exchanges ds))) data (fix_specific_ecoinvent_issues data).
Proof.
  unfold fix_specific_ecoinvent_issues. induction data as [|ds data IH]; [constructor|]. cbn [map]. constructor; [|exact IH].
  destruct (String.eqb_spec (d_name ds) "petroleum refinery operation") as [E|E]; [right|by left]. split; [done|]. split; [by destruct ds|].
  assert (forall l x, d_exchanges (set_d_exchanges l x) = l) as Hs by (intros l x; by destruct x). rewrite Hs. apply filterb_filter. intros e _.
  destruct (String.eqb_spec (e_name e) "refinery gas") as [En|En]; cbn [negb orb].
  - destruct (Qctruthy (e_amount e)) eqn:Et; symmetry.
    + apply bool_decide_eq_true. intros [_ Ha]. apply truthy_spec in Et. done.
    + apply bool_decide_eq_false. intros Hn. apply Hn. split; [done|]. destruct (decide (e_amount e = 0%Qc)) as [Ha|Ha]; [done|]. apply truthy_spec in Ha. congruence.
  - symmetry. apply bool_decide_eq_true. intros [? _]. done.
Qed.

(** *** Formulas that cannot be read *)
Lemma unparsable_total parses data : exists data', delete_unparsable_formulas parses data = Ok data'.
Proof. apply change_all_pure. Qed.
Lemma unparsable_spec parses data data' : delete_unparsable_formulas parses data = Ok data' ->
  Forall2 (renamed (fun o o' => o_variable o' = o_variable o /\ forall f, o_formula o' = Some f <-> o_formula o = Some f /\ parses f = true)) data data'.
Proof.
  intros H. apply change_all_spec in H. eapply Forall2_impl; [exact H|]. intros ds ds' [H1 H2]. split; [done|].
  eapply Forall2_impl; [exact H2|]. cbv beta. intros o o' [Hv Ho]. split; [done|]. apply Ok_inj in Ho. cbn [fst snd] in Ho. injection Ho as E1 E2.
  split; [done|]. intros f. rewrite <- E2. destruct (o_formula o) as [g|]; [|naive_solver]. destruct (parses g) eqn:Eg; naive_solver congruence.
Qed.
