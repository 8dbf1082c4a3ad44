(** Proofs for C53 and C58: every text as a save strategy and as the name of a file. *)
From Coq Require Import Ascii.
From Verif Require Import Base Types Strings Formulas Runner Files Spec_Extraction Spec_Runner Spec_Files Spec_Strategy Extraction_proofs Runner_proofs Files_proofs.
Import Runner.

Lemma digit_iff c z : digit c = Some z <-> is_digit c /\ z = digit_value c.
Proof.
  split.
  - intros H. assert (is_digit c) as Hc; [|split; [done|]; rewrite digit_spec in H by done; congruence].
    unfold digit in H. unfold is_digit, nat_of_ascii.
    destruct (48 <=? _)%Z eqn:E1; [|done]. destruct (_ <=? 57)%Z eqn:E2; [|done]. lia.
  - intros [H ->]. by apply digit_spec.
Qed.
Lemma digit_none c : digit c = None <-> ~ is_digit c.
Proof.
  destruct (digit c) as [z|] eqn:E; split; intros H; try done.
  - by apply digit_iff in E as [? _].
  - intros Hd. rewrite digit_spec in E; done.
Qed.
Lemma under_not_digit : ~ is_digit "_"%char.
Proof. unfold is_digit. vm_compute. lia. Qed.
Lemma digits_after_iff n : forall s z y, (length s <= n)%nat ->
  digits_after z s = Some y <-> s = [] /\ y = z \/
    exists ds, y = decimal z ds /\ (grouped s ds \/ exists s', s = "_"%char :: s' /\ grouped s' ds).
Proof.
  induction n as [|n IH]; intros [|c s] z y Hn; cbn in Hn; try lia.
  - cbn. split; [intros [= ->]; by left|]. intros [[_ ->]|(ds & _ & [H|(s' & H & _)])]; [done|inversion H|done].
  - cbn. split; [intros [= ->]; by left|]. intros [[_ ->]|(ds & _ & [H|(s' & H & _)])]; [done|inversion H|done].
  - cbn [digits_after]. destruct (digit c) as [d|] eqn:Ed.
    + apply digit_iff in Ed as [Hc ->]. rewrite IH by lia. split.
      * intros [[-> ->]|(ds & -> & [H|(s' & -> & H)])]; right.
        -- exists [c]. split; [done|]. left. by constructor.
        -- exists (c :: ds). split; [done|]. left. by constructor.
        -- exists (c :: ds). split; [done|]. left. by constructor.
      * intros [[? _]|(ds & -> & [H|(s' & E & H)])]; [done| |].
        -- inversion H; subst.
           ++ by left.
           ++ right. eexists. split; [done|]. by left.
           ++ right. eexists. split; [done|]. right. eauto.
        -- injection E as -> ->. by apply under_not_digit in Hc.
    + apply digit_none in Ed. destruct (decide (c = "_"%char)) as [->|Hne].
      * rewrite bool_decide_eq_true_2 by done. destruct s as [|c' s].
        -- split; [done|]. intros [[? _]|(ds & -> & [H|(s' & E & H)])]; [done| |].
           ++ inversion H; subst; done.
           ++ injection E as <-. inversion H.
        -- destruct (digit c') as [d|] eqn:Ed'.
           ++ apply digit_iff in Ed' as [Hc ->]. cbn in Hn. rewrite IH by lia. split.
              ** intros [[-> ->]|(ds & -> & [H|(s' & -> & H)])]; right.
                 --- exists [c']. split; [done|]. right. exists [c']. split; [done|]. by constructor.
                 --- exists (c' :: ds). split; [done|]. right. eexists. split; [done|]. by constructor.
                 --- exists (c' :: ds). split; [done|]. right. eexists. split; [done|]. by constructor.
              ** intros [[? _]|(ds & -> & [H|(s' & E & H)])]; [done| |].
                 --- inversion H; subst; done.
                 --- injection E as <-. inversion H; subst.
                     +++ by left.
                     +++ right. eexists. split; [done|]. by left.
                     +++ right. eexists. split; [done|]. right. eauto.
           ++ apply digit_none in Ed'. split; [done|]. intros [[? _]|(ds & -> & [H|(s' & E & H)])]; [done| |].
              ** inversion H; subst; done.
              ** injection E as <-. inversion H; subst; done.
      * rewrite bool_decide_eq_false_2 by done. split; [done|]. intros [[? _]|(ds & -> & [H|(s' & E & H)])]; [done| |].
        -- inversion H; subst; done.
        -- congruence.
Qed.
Lemma digits_iff s y : digits s = Some y <-> exists ds, grouped s ds /\ y = decimal 0 ds.
Proof.
  destruct s as [|c s]; cbn [digits].
  - split; [done|]. intros (ds & H & _). inversion H.
  - destruct (digit c) as [d|] eqn:Ed.
    + apply digit_iff in Ed as [Hc ->]. rewrite (digits_after_iff (length s)) by done. split.
      * intros [[-> ->]|(ds & -> & [H|(s' & -> & H)])].
        -- exists [c]. split; [by constructor|done].
        -- exists (c :: ds). split; [by constructor|done].
        -- exists (c :: ds). split; [by constructor|done].
      * intros (ds & H & ->). inversion H; subst.
        -- by left.
        -- right. eexists. split; [done|]. by left.
        -- right. eexists. split; [done|]. right. eauto.
    + apply digit_none in Ed. split; [done|]. intros (ds & H & _). inversion H; subst; done.
Qed.

Lemma grouped_first s ds : grouped s ds -> exists c s', s = c :: s' /\ is_digit c.
Proof. destruct 1; eauto. Qed.
Lemma grouped_last s ds : grouped s ds -> exists c s', s = s' ++ [c] /\ is_digit c.
Proof.
  induction 1 as [c H|c s ds H _ (d & s' & -> & Hd)|c s ds H _ (d & s' & -> & Hd)].
  - by exists c, [].
  - by exists d, (c :: s').
  - by exists d, (c :: "_"%char :: s').
Qed.
Lemma digit_not_white c : is_digit c -> ~ white c.
Proof. intros H Hw%white_blank. by rewrite digit_not_blank in Hw. Qed.
Lemma signed_ends s z : signed s z -> (forall c l, s = c :: l -> ~ white c) /\ (forall c l, s = l ++ [c] -> ~ white c).
Proof.
  intros (t & ds & H & Hs). destruct (grouped_first t ds H) as (c1 & t1 & E1 & H1).
  destruct (grouped_last t ds H) as (c2 & t2 & E2 & H2). apply digit_not_white in H1, H2.
  assert (~ white "+"%char /\ ~ white "-"%char) as [Hp Hm].
  { split; rewrite white_blank; by vm_compute. }
  assert (forall x : ascii, (forall c l, x :: t = c :: l -> c = x) /\ (forall c l, x :: t = l ++ [c] -> c = c2)) as Hx.
  { intros x. split; [by intros c l [= -> ->]|]. intros c l E. rewrite E2, app_comm_cons in E. by apply app_inj_2 in E as [_ [=]]. }
  destruct Hs as [[[-> | ->] _]|[-> _]].
  - split; [intros c l E; rewrite E1 in E; by injection E as <- <-|].
    intros c l E. rewrite E2 in E. apply app_inj_2 in E as [_ E]; [|done]. by injection E as <-.
  - destruct (Hx "+"%char) as [Ha Hb]. split; [by intros c l ->%Ha|by intros c l ->%Hb].
  - destruct (Hx "-"%char) as [Ha Hb]. split; [by intros c l ->%Ha|by intros c l ->%Hb].
Qed.
Lemma signed_stripped s z : signed s z <->
  match s with
  | c :: s' => if bool_decide (c = "-"%char) then Z.opp <$> digits s'
               else if bool_decide (c = "+"%char) then digits s'
               else digits (c :: s')
  | [] => None
  end = Some z.
Proof.
  assert (~ is_digit "+"%char /\ ~ is_digit "-"%char) as [Hp Hm].
  { split; unfold is_digit; vm_compute; lia. }
  split.
  - intros (t & ds & H & Hs). assert (digits t = Some (decimal 0 ds)) as E by (apply digits_iff; eauto).
    destruct Hs as [[[-> | ->] ->]|[-> ->]].
    + destruct (grouped_first t ds H) as (c & t' & -> & Hc).
      rewrite !bool_decide_eq_false_2 by (by intros ->). done.
    + rewrite bool_decide_eq_false_2, bool_decide_eq_true_2 by done. done.
    + rewrite bool_decide_eq_true_2 by done. by rewrite E.
  - destruct s as [|c s]; [done|]. case_bool_decide as E1; [|case_bool_decide as E2].
    + intros H. apply fmap_Some in H as (y & Hy & ->). apply digits_iff in Hy as (ds & H & ->). subst c. exists s, ds. split; [done|]. by right.
    + intros (ds & H & ->)%digits_iff. subst c. exists s, ds. split; [done|]. left. split; [by right|done].
    + intros (ds & H & ->)%digits_iff. eexists _, ds. split; [done|]. left. split; [by left|done].
Qed.
Lemma pyint_iff s z : pyint s = Some z <-> python_int s z.
Proof.
  unfold pyint, python_int. rewrite <- signed_stripped. split.
  - intros H. destruct (proj1 (strip_spec s (strip s)) eq_refl) as (a & b & E & Ha & Hb & _). eauto 8.
  - intros (a & body & b & E & Ha & Hb & H). destruct (signed_ends body z H) as [H1 H2].
    assert (body = strip s) as <-; [|done]. apply strip_spec. eauto 8.
Qed.
Lemma python_int_unique s z z' : python_int s z -> python_int s z' -> z = z'.
Proof. rewrite <- !pyint_iff. congruence. Qed.
Lemma writes_python s z : writes s z -> python_int s z.
Proof. intros H. apply pyint_iff. by apply pyint_writes. Qed.

(** ** Pieces *)
Lemma split_joined s : pieces_of colon s (split_colons s).
Proof.
  induction s as [|c s (Hne & Hs & Hf)].
  - split; [done|]. split; [done|]. constructor; [set_solver|constructor].
  - cbn [split_colons]. case_bool_decide as E.
    + subst c. split; [done|]. split.
      * destruct (split_colons s) as [|w ws]; [done|]. cbn [joined]. cbn. by f_equal.
      * constructor; [set_solver|done].
    + destruct (split_colons s) as [|w ws]; [done|]. inversion Hf; subst. split; [done|]. split.
      * destruct ws; cbn in *; done.
      * constructor; [|done]. rewrite not_elem_of_cons. split; [congruence|done].
Qed.
Lemma split_pieces s ps : pieces_of colon s ps -> split_colons s = ps.
Proof.
  intros (Hne & -> & Hf). induction ps as [|p ps IH]; [done|]. inversion Hf; subst. destruct ps as [|q ps].
  - cbn [joined]. by apply split_colons_one.
  - change (joined colon (p :: q :: ps)) with (p ++ colon :: joined colon (q :: ps)).
    rewrite split_colons_cons by done. f_equal. by apply IH.
Qed.
Lemma pieces_colon s ps : pieces_of colon s ps -> colon ∈ s <-> (2 <= length ps)%nat.
Proof.
  intros (Hne & -> & Hf). destruct ps as [|p [|q ps]]; [done| |].
  - inversion Hf; subst. cbn. split; [done|lia].
  - cbn [length]. split; [lia|]. intros _. cbn [joined]. apply elem_of_app. right. left.
Qed.
Lemma ints_mapM ps zs : Forall2 python_int ps zs <-> mapM pyint ps = Some zs.
Proof.
  rewrite mapM_Some. split; intros H; (eapply Forall2_impl; [exact H|]); intros x y; cbn; by rewrite pyint_iff.
Qed.
Lemma ints_none ps : Exists (fun p => forall z, ~ python_int p z) ps <-> mapM pyint ps = None.
Proof.
  induction ps as [|p ps IH]; [split; [intros H; inversion H|done]|]. rewrite Exists_cons, IH. cbn.
  destruct (pyint p) as [z|] eqn:E; cbn.
  - destruct (mapM pyint ps) eqn:E2; cbn; split; try done.
    + intros [H|H]; [|done]. exfalso. apply (H z). by apply pyint_iff.
    + by right.
  - split; [done|]. intros _. left. intros z Hz%pyint_iff. congruence.
Qed.
Lemma strategy_meaning s ps : pieces_of colon s ps ->
  (forall zs, Forall2 python_int ps zs -> meaning zs (save_strategy (Text s))) /\
  (Exists (fun p => forall z, ~ python_int p z) ps -> save_strategy (Text s) = Err ValueError).
Proof.
  intros Hp. pose proof (split_pieces s ps Hp) as Hs. pose proof (pieces_colon s ps Hp) as Hc. cbn [save_strategy]. split.
  - intros zs Hz. destruct ps as [|p [|q ps]].
    + by destruct Hp.
    + rewrite bool_decide_eq_false_2 by (rewrite Hc; cbn; lia).
      inversion Hz as [|? n ? ? Hn Hnil]; subst. inversion Hnil; subst.
      destruct Hp as (_ & -> & _). cbn [joined]. apply pyint_iff in Hn. rewrite Hn. unfold meaning, saves_at, refuses.
      pose proof (every_spec n) as H. case_bool_decide; destruct (n <? 1)%Z eqn:E; try lia; done.
    + rewrite bool_decide_eq_true_2 by (rewrite Hc; cbn; lia). pose proof (proj1 (ints_mapM _ _) Hz) as Hm. rewrite Hs, Hm.
      pose proof (Forall2_length _ _ _ Hz) as Hl. destruct zs as [|a [|b [|c [|d zs]]]]; try done.
      * unfold meaning, saves_at, from_to. eexists. split; [done|]. intros x. rewrite in_range_positive by done.
        split; intros (k & ? & -> & ?); exists k; lia.
      * unfold meaning, saves_at, from_to, down_to, refuses. case_bool_decide as E.
        -- by rewrite E.
        -- rewrite (proj2 (Z.eqb_neq c 0) E). case_bool_decide as E'; (eexists; split; [done|]; intros x).
           ++ rewrite in_range_positive by done. split; intros (k & ? & -> & ?); exists k; lia.
           ++ rewrite in_range_negative by lia. done.
  - intros Hz. apply ints_none in Hz. rewrite <- Hs in Hz. case_bool_decide as E; [by rewrite Hz|].
    rewrite (split_colons_one s E) in Hz. cbn in Hz. by destruct (pyint s).
Qed.

(** ** Names of files *)
Lemma gap_iff c : gap c = true <-> breaks c.
Proof.
  unfold gap, breaks. rewrite orb_true_iff, bool_decide_eq_true. rewrite <- white_blank. done.
Qed.
Lemma slug_char_iff c : slug_char c = true <-> usable c.
Proof.
  unfold slug_char, usable, breaks. rewrite !orb_true_iff, bool_decide_eq_true, wordlike_spec. rewrite <- white_blank.
  change (white c) with (space c). unfold hyphen. tauto.
Qed.
Lemma cleared_iff s : forall u, cleared s u <-> u = filterb slug_char s.
Proof.
  induction s as [|c s IH]; intros u.
  - split; [by inversion 1|intros ->; constructor].
  - cbn. destruct (slug_char c) eqn:E; fold (filterb slug_char s).
    + split.
      * inversion 1; subst; [f_equal; by apply IH|]. apply slug_char_iff in E. done.
      * intros ->. constructor; [by apply slug_char_iff|by apply IH].
    + split.
      * inversion 1; subst; [|by apply IH]. assert (slug_char c = true) by (by apply slug_char_iff). congruence.
      * intros ->. apply cleared_drop; [|by apply IH]. intros H%slug_char_iff. congruence.
Qed.
Lemma bare_iff s t : bare_of s t <-> t = strip s.
Proof. by rewrite strip_spec. Qed.
Lemma join_run run s : Forall breaks run -> join_gaps true (run ++ s) = join_gaps true s.
Proof. induction 1 as [|c run Hc%gap_iff _ IH]; [done|]. cbn. by rewrite Hc. Qed.
Lemma join_start s : (forall c l, s = c :: l -> ~ breaks c) -> join_gaps true s = join_gaps false s.
Proof.
  destruct s as [|c s]; [done|]. intros H. cbn. destruct (gap c) eqn:E; [|done]. apply gap_iff in E. by destruct (H c s).
Qed.
Lemma hyphenated_join s t : hyphenated s t -> join_gaps false s = t.
Proof.
  induction 1 as [|c s t Hc _ IH|run s t Hne Hr Hs _ IH]; [done| |].
  - cbn. destruct (gap c) eqn:E; [by apply gap_iff in E|]. by rewrite IH.
  - destruct Hr as [|c run Hc Hr]; [done|]. apply gap_iff in Hc. cbn. rewrite Hc, join_run by done. by rewrite join_start, IH.
Qed.
Lemma join_split s : exists run s', s = run ++ s' /\ Forall breaks run /\ (forall c l, s' = c :: l -> ~ breaks c).
Proof.
  induction s as [|c s (run & s' & -> & Hr & Hs)]; [by exists [], []|]. destruct (gap c) eqn:E.
  - apply gap_iff in E. exists (c :: run), s'. split; [done|]. split; [by constructor|done].
  - exists [], (c :: run ++ s'). split; [done|]. split; [constructor|]. intros c' l [= <- <-] H%gap_iff. congruence.
Qed.
Lemma hyphenated_total n : forall s, (length s <= n)%nat -> exists t, hyphenated s t.
Proof.
  induction n as [|n IH]; intros s Hn.
  - destruct s; [|cbn in Hn; lia]. exists []. constructor.
  - destruct (join_split s) as (run & s' & -> & Hr & Hs). destruct run as [|c run].
    + cbn in *. destruct s' as [|c s']; [exists []; constructor|]. destruct (IH s') as [t Ht]; [cbn in Hn; lia|].
      exists (c :: t). constructor; [by eapply Hs|done].
    + destruct (IH s') as [t Ht]; [rewrite app_length in Hn; cbn in Hn; lia|]. exists ("-"%char :: t). by constructor.
Qed.
Lemma hyphenated_iff s t : hyphenated s t <-> t = join_gaps false s.
Proof.
  split; [intros H; symmetry; by apply hyphenated_join|]. intros ->.
  destruct (hyphenated_total (length s) s) as [t Ht]; [done|]. by rewrite (hyphenated_join s t Ht).
Qed.
Lemma slug_iff s t : slug_of s t <-> t = slug s.
Proof.
  unfold slug_of, slug. split.
  - intros (u & v & ->%cleared_iff & ->%bare_iff & ->%hyphenated_iff). done.
  - intros ->. eexists _, _. split; [by apply cleared_iff|]. split; [by apply bare_iff|by apply hyphenated_iff].
Qed.
