(** Proofs about what model runs leave on the disk (C98): how runs end. *)
From stdpp Require Import gmap.
From Verif Require Import Base Types Runner Spec_Runner Runner_proofs Outputs Spec_Outputs Outputs_proofs.

Section proofs.
Context {A : Type}.
Context (before : func A -> list A -> list message) (clock : nat -> Qc).
Implicit Types (ops : list (op A)) (w : gmap string (rundir A)).

Lemma after_run_own id follow ops e w (d : rundir A) : w !! id = None -> after_run id follow ops e w !! id = Some d ->
  exists n, does (take n ops) None = Some d.
Proof.
  intros Hw. unfold after_run. destruct e as [|n|n].
  - rewrite lookup_partial_alter, Hw. intros H. exists (length ops). by rewrite firstn_all.
  - destruct (_ && _); [by rewrite lookup_delete|]. rewrite lookup_partial_alter, Hw. eauto.
  - rewrite lookup_partial_alter, Hw. eauto.
Qed.
Lemma after_run_Ends id follow ops w : w !! id = None -> after_run id follow ops Ends w !! id = does ops None.
Proof. intros Hw. unfold after_run. by rewrite lookup_partial_alter, Hw. Qed.

(** ** The shape of a script *)
Definition report_ops rep : list (op A) := [Assets; OpenReport; WriteReport rep].
Lemma script_shape dflt b (fs : list (func A)) uuid save follow data : fs <> [] -> Forall (fun f => f_name f <> None) fs ->
  exists fs1 fs2 tr data1 rest tail, fs = fs1 ++ fs2 /\ steps fs1 data tr data1 /\
    (script before clock dflt (Iterable b (map Function fs)) uuid (Ok save) follow data).1 =
      body follow uuid data (steps_ops save follow 0 tr ++ rest) ++ tail /\
    (fs2 = [] /\ rest = finish data1 /\ (tail = [] \/ exists rep, tail = report_ops rep /\
       read_log (stamp clock 0 (ReportStart uuid (length data) :: events 0 tr ++ [ReportEnd])) = Ok rep) \/
     tail = [] /\ exists f fs2' e, fs2 = f :: fs2' /\ f_run f data1 = Err e /\
       rest = Line (FunctionStart (meta_of f) (length fs1) (length data1)) :: map (fun m => Line (Logged m)) (before f data1)).
Proof.
  intros Hne Hn.
  destruct (script_cases before clock dflt b fs uuid save follow data Hne Hn) as [(tr & data' & Hs & [(rep & E & Hr)|(e & E & Hr)])|(fs1 & f & fs2 & tr & data1 & e & Hfs & Hs & Hf & E)].
  - exists fs, [], tr, data', (finish data'), (report_ops rep). rewrite app_nil_r, E. cbn. split; [done|]. split; [done|]. split; [done|]. left. eauto 10.
  - exists fs, [], tr, data', (finish data'), []. rewrite app_nil_r, E. cbn. rewrite app_nil_r. split; [done|]. split; [done|]. split; [done|]. left. eauto 10.
  - exists fs1, (f :: fs2), tr, data1. eexists _, []. rewrite E. cbn. rewrite app_nil_r. split; [done|]. split; [done|]. split; [done|]. right. eauto 10.
Qed.

Lemma body_save follow uuid (data : list A) ops f x : Save f x ∈ body follow uuid data ops <-> Save f x ∈ ops.
Proof.
  unfold body, setup. rewrite !elem_of_app. split; [|tauto]. intros [Hs|[Hs|Hs]]; [exfalso..|done].
  - destruct follow; repeat (apply elem_of_cons in Hs as [?|Hs]; [done|]); by apply elem_of_nil in Hs.
  - repeat (apply elem_of_cons in Hs as [?|Hs]; [done|]). by apply elem_of_nil in Hs.
Qed.
Lemma report_bracketed rep : bracketed (report_ops rep).
Proof. unfold report_ops. do 3 (apply bracketed_other; [done|]). constructor. Qed.

Section script.
Context (dflt : item A) (b : bool) (fs : list (func A)) (uuid : string) (save : Z -> bool) (follow : option (A -> bool)) (data : list A).
Hypothesis (Hne : fs <> []) (Hn : Forall (fun f => f_name f <> None) fs).
Let s := script before clock dflt (Iterable b (map Function fs)) uuid (Ok save) follow data.

Lemma script_bracketed : bracketed s.1.
Proof.
  destruct (script_shape dflt b fs uuid save follow data Hne Hn) as (fs1 & fs2 & tr & data1 & rest & tail & _ & _ & E & H).
  unfold s. rewrite E. apply bracketed_app.
  - apply body_bracketed, bracketed_app; [apply steps_ops_bracketed|]. destruct H as [(_ & -> & _)|(_ & ? & ? & ? & _ & _ & ->)]; [apply finish_bracketed|].
    apply bracketed_other; [done|]. apply bracketed_lines.
  - destruct H as [(_ & _ & [->|(rep & -> & _)])|(-> & _)]; [constructor|apply report_bracketed|constructor].
Qed.
Lemma script_saves f x : Save f x ∈ s.1 -> belongs fs data save follow f x.
Proof.
  destruct (script_shape dflt b fs uuid save follow data Hne Hn) as (fs1 & fs2 & tr & data1 & rest & tail & -> & Hs & E & H).
  unfold s. rewrite E. rewrite elem_of_app, body_save. intros [Hin|Hin].
  - destruct H as [(-> & -> & _)|(_ & f' & fs2' & e & -> & Hf & ->)].
    + rewrite app_nil_r in *. by eapply completed_saves.
    + by eapply raised_saves.
  - exfalso. destruct H as [(_ & _ & [->|(rep & -> & _)])|(-> & _)]; [by apply elem_of_nil in Hin| |by apply elem_of_nil in Hin].
    unfold report_ops in Hin. repeat (apply elem_of_cons in Hin as [?|Hin]; [done|]). by apply elem_of_nil in Hin.
Qed.
Lemma files_right id e w d f x : w !! id = None -> after_run id follow s.1 e w !! id = Some d ->
  rd_files d !! f = Some (Whole x) -> belongs fs data save follow f x.
Proof.
  intros Hw H Hf. destruct (after_run_own _ _ _ _ _ _ Hw H) as (n & Hd). apply script_saves.
  pose proof (does_whole _ _ _ _ Hd Hf) as Hin. apply elem_of_take in Hin as (i & Hi & _). by eapply elem_of_list_lookup_2.
Qed.
Lemma one_incomplete id e w d f g : w !! id = None -> after_run id follow s.1 e w !! id = Some d ->
  rd_files d !! f = Some Partial -> rd_files d !! g = Some Partial -> f = g.
Proof. intros Hw H. destruct (after_run_own _ _ _ _ _ _ Hw H) as (n & Hd). by eapply one_partial; [apply script_bracketed|]. Qed.

(** ** Completed runs *)
Lemma completed_body tr data' d : steps fs data tr data' ->
  does (body follow uuid data (steps_ops save follow 0 tr ++ finish data')) None = Some d ->
  rd_log d = Some (ReportStart uuid (length data) :: events 0 tr ++ [ReportEnd]) /\ rd_report d = None /\
  forall f c, rd_files d !! f = Some c <-> exists x, c = Whole x /\ belongs fs data save follow f x.
Proof.
  intros Hs Hd. destruct (body_dir _ _ _ _ _ (proj2 (Forall_app _ _ _) (conj (plain_steps save follow tr 0%nat) (finish_plain data'))) Hd) as (L & _ & R).
  split; [|split; [done|]].
  - rewrite L, lines_app, lines_steps. done.
  - eapply (body_files fs save follow uuid data _ d); [| |exact Hd].
    + apply bracketed_app; [apply steps_ops_bracketed|apply finish_bracketed].
    + intros f x. by apply completed_saves.
Qed.
Lemma does_body_Some ops : exists d, does (body follow uuid data ops) None = Some d.
Proof.
  unfold body. rewrite does_app. assert (does (setup follow) None = Some (empty_dir (A := A))) as -> by (unfold setup; by destruct follow).
  apply does_is_Some.
Qed.
Lemma completed id w tr data' : w !! id = None -> steps fs data tr data' ->
  Forall (fun s => Forall (message_fits (s_func s)) (s_messages s)) tr ->
  s.2 = Ok data' /\ exists d rep, after_run id follow s.1 Ends w !! id = Some d /\
    rd_log d = Some (ReportStart uuid (length data) :: events 0 tr ++ [ReportEnd]) /\
    rd_assets d = true /\ rd_report d = Some (Some rep) /\
    read_log (stamp clock 0 (ReportStart uuid (length data) :: events 0 tr ++ [ReportEnd])) = Ok rep /\
    forall f c, rd_files d !! f = Some c <-> exists x, c = Whole x /\ belongs fs data save follow f x.
Proof.
  intros Hw Hs Hms. rewrite after_run_Ends by done.
  destruct (script_cases before clock dflt b fs uuid save follow data Hne Hn) as [(tr' & data1 & Hs' & H)|(fs1 & f & fs2 & tr' & data1 & e & Hfs & Hs' & Hf & _)].
  2:{ exfalso. subst fs. exact (steps_stuck _ _ _ _ _ _ _ Hs' Hf _ _ Hs). }
  destruct (steps_det _ _ _ _ Hs _ _ Hs') as [<- <-].
  pose proof (report_run clock uuid (length data) tr Hms) as Hrep. cbn in Hrep.
  destruct H as [(rep & E & Hr)|(e & _ & Hr)]; [|by cbn in Hr; rewrite Hrep in Hr].
  unfold s. rewrite E. cbn [fst snd]. split; [done|]. destruct (does_body_Some (steps_ops save follow 0 tr ++ finish data')) as (d & Hd).
  rewrite does_app, Hd. destruct (completed_body _ _ _ Hs Hd) as (L & R & F).
  eexists _, rep. split; [reflexivity|]. cbn. split; [exact L|]. split; [done|]. split; [done|]. split; [exact Hr|exact F].
Qed.
Lemma raised id w fs1 f fs2 tr data1 e : w !! id = None -> fs = fs1 ++ f :: fs2 -> steps fs1 data tr data1 -> f_run f data1 = Err e ->
  s.2 = Err e /\ exists d, after_run id follow s.1 Ends w !! id = Some d /\
    rd_log d = Some (ReportStart uuid (length data) :: events 0 tr ++
      FunctionStart (meta_of f) (length fs1) (length data1) :: map Logged (before f data1)) /\
    rd_report d = None /\
    forall f c, rd_files d !! f = Some c <-> exists x, c = Whole x /\ belongs fs data save follow f x.
Proof.
  intros Hw Hfs Hs Hf. rewrite after_run_Ends by done.
  destruct (script_cases before clock dflt b fs uuid save follow data Hne Hn) as [(tr' & data' & Hs' & _)|(fs1' & f' & fs2' & tr' & data1' & e' & Hfs' & Hs' & Hf' & E)].
  { exfalso. subst fs. exact (steps_stuck _ _ _ _ _ _ _ Hs Hf _ _ Hs'). }
  assert (fs1' = fs1 /\ f' = f /\ tr' = tr /\ data1' = data1) as (-> & -> & -> & ->).
  { assert (forall (k1 : list (func A)) g k2 t1 x1 k1' g' k2' t1' x1' d0 y y', steps k1 d0 t1 x1 -> f_run g x1 = Err y -> steps k1' d0 t1' x1' -> f_run g' x1' = Err y' ->
      k1 ++ g :: k2 = k1' ++ g' :: k2' -> k1' = k1 /\ g' = g /\ t1' = t1 /\ x1' = x1) as Hgen.
    { intros k1 g k2 t1 x1 k1' g' k2' t1' x1' d0 y y' H1. revert k1' t1'. induction H1 as [|h k1 d0 d1 ms t1 x1 Hr H1 IH]; intros k1' t1' Hy H2 Hy' Heq.
      - destruct k1' as [|h' k1']; [injection Heq as <- _; by inversion H2; subst|]. injection Heq as <- ->. inversion H2; subst. congruence.
      - destruct k1' as [|h' k1']; injection Heq as <- Heq; [inversion H2; subst; congruence|]. inversion H2; subst.
        rewrite Hr in *. match goal with H : Ok _ = Ok _ |- _ => injection H as <- <- end.
        match goal with H : steps k1' d1 _ _ |- _ => destruct (IH _ _ Hy H Hy' Heq) as (-> & -> & -> & ->) end. done. }
    eapply Hgen; [exact Hs|exact Hf|exact Hs'|exact Hf'|by rewrite <- Hfs, <- Hfs']. }
  rewrite Hf in Hf'. injection Hf' as <-. unfold s. rewrite E. cbn [fst snd]. split; [done|].
  set (rest := Line (FunctionStart (meta_of f) (length fs1) (length data1)) :: map (fun m => Line (Logged m)) (before f data1)) in *.
  destruct (does_body_Some (steps_ops save follow 0 tr ++ rest)) as (d & Hd). exists d. split; [exact Hd|].
  destruct (body_dir follow uuid data (steps_ops save follow 0 tr ++ rest) d) as (L & _ & R); [|exact Hd|].
  { apply Forall_app. split; [apply plain_steps|]. constructor; [done|]. apply plain_lines. }
  split; [|split; [done|]].
  - rewrite L, lines_app, lines_steps. unfold rest. change (lines_of (?a :: ?l)) with (lines_of [a] ++ lines_of l). by rewrite lines_logged.
  - eapply (body_files fs save follow uuid data _ d); [| |exact Hd].
    + apply bracketed_app; [apply steps_ops_bracketed|]. apply bracketed_other; [done|]. apply bracketed_lines.
    + intros g x. rewrite Hfs. eapply raised_saves; [exact Hs|exact Hf].
Qed.

(** ** What a report shows was completed *)
Lemma does_report ops o d : does ops o = Some d -> (forall d0, o = Some d0 -> rd_report d0 = None) -> rd_report d <> None ->
  OpenReport ∈ ops \/ exists r, WriteReport r ∈ ops.
Proof.
  revert o. induction ops as [|x ops IH]; intros o H Ho Hd; [by exfalso; apply Hd, Ho|]. cbn in H.
  assert ((exists d1, match x with MakeDir => Some (default empty_dir o) | _ => option_map (act x) o end = Some d1 /\ rd_report d1 <> None) \/
    forall d1, match x with MakeDir => Some (default empty_dir o) | _ => option_map (act x) o end = Some d1 -> rd_report d1 = None) as [(d1 & H1 & H2)|H1].
  { destruct (match x with MakeDir => Some (default empty_dir o) | _ => option_map (act x) o end) as [d1|]; [|by right].
    destruct (rd_report d1) eqn:E; [left; exists d1; by rewrite E|right; by intros ? [= <-]]. }
  - destruct x; destruct o as [d0|]; cbn in H1; try done; injection H1 as <-; cbn in H2;
      try (by exfalso; apply H2, (Ho d0)); try done; [left|right; eexists]; apply elem_of_cons; by left.
  - destruct (IH _ H H1 Hd) as [?|(r & ?)]; [left|right; exists r]; apply elem_of_cons; by right.
Qed.
Lemma reported id e w d : w !! id = None -> after_run id follow s.1 e w !! id = Some d -> rd_report d <> None ->
  exists tr data', steps fs data tr data' /\
    rd_log d = Some (ReportStart uuid (length data) :: events 0 tr ++ [ReportEnd]) /\
    (forall rep, rd_report d = Some (Some rep) -> read_log (stamp clock 0 (ReportStart uuid (length data) :: events 0 tr ++ [ReportEnd])) = Ok rep) /\
    forall f c, rd_files d !! f = Some c <-> exists x, c = Whole x /\ belongs fs data save follow f x.
Proof.
  intros Hw H Hr. destruct (after_run_own _ _ _ _ _ _ Hw H) as (n & Hd). clear H.
  destruct (script_shape dflt b fs uuid save follow data Hne Hn) as (fs1 & fs2 & tr & data1 & rest & tail & Hfs & Hs & E & H).
  fold s in E. rewrite E in Hd.
  assert (forall ops, Forall plain ops -> OpenReport ∉ body follow uuid data ops /\ forall r, WriteReport r ∉ body follow uuid data ops) as Hnot.
  { intros ops Hp. unfold body, setup. split; [|intros r]; rewrite !elem_of_app; intros [Hi|[Hi|Hi]].
    1,4: destruct follow; repeat (apply elem_of_cons in Hi as [?|Hi]; [done|]); by apply elem_of_nil in Hi.
    1,3: repeat (apply elem_of_cons in Hi as [?|Hi]; [done|]); by apply elem_of_nil in Hi.
    all: rewrite Forall_forall in Hp; by apply Hp in Hi. }
  assert (Forall plain (steps_ops save follow 0 tr ++ rest)) as Hp.
  { apply Forall_app. split; [apply plain_steps|]. destruct H as [(_ & -> & _)|(_ & ? & ? & ? & _ & _ & ->)]; [apply finish_plain|].
    constructor; [done|]. apply plain_lines. }
  destruct (Hnot _ Hp) as [Hn1 Hn2].
  destruct (decide (n <= length (body follow uuid data (steps_ops save follow 0 tr ++ rest)))%nat) as [Hle|Hgt].
  { exfalso. rewrite take_app_le in Hd by done. destruct (does_report _ _ _ Hd) as [Hi|(r & Hi)]; [done|done| |];
      apply elem_of_take in Hi as (i & Hi & _); apply elem_of_list_lookup_2 in Hi; [done|by eapply Hn2]. }
  rewrite take_app_ge in Hd by lia. rewrite does_app in Hd.
  destruct (does_body_Some (steps_ops save follow 0 tr ++ rest)) as (d0 & Hd0). rewrite Hd0 in Hd.
  destruct H as [(-> & -> & [->|(rep & -> & Hrep)])|(-> & f & fs2' & e' & _ & _ & ->)].
  - rewrite app_nil_r in Hfs. subst fs1. destruct (completed_body _ _ _ Hs Hd0) as (L & R & F).
    exfalso. rewrite take_nil in Hd. injection Hd as <-. done.
  - rewrite app_nil_r in Hfs. subst fs1. destruct (completed_body _ _ _ Hs Hd0) as (L & R & F).
    exists tr, data1. split; [done|].
    assert (rd_log d = rd_log d0 /\ rd_files d = rd_files d0 /\ (forall rep', rd_report d = Some (Some rep') -> rep' = rep)) as (-> & -> & Hrep').
    { revert Hd. generalize (n - length (body follow uuid data (steps_ops save follow 0 tr ++ finish data1)))%nat as m. intros m Hd.
      destruct m as [|[|[|m]]]; cbn in Hd; [| | |rewrite take_nil in Hd; cbn in Hd]; injection Hd as <-; cbn; (split; [done|split; [done|]]); rewrite ?R; try done.
      by intros ? [= ->]. }
    split; [done|]. split; [|done]. intros rep' H'. by rewrite (Hrep' _ H').
  - exfalso. rewrite take_nil in Hd. injection Hd as <-. destruct (body_dir _ _ _ _ _ Hp Hd0) as (_ & _ & R). done.
Qed.

(** ** Lines of the log are written after the files *)
Lemma bracketed_before pre (o : op A) post : (forall f x, o <> Save f x) -> bracketed (pre ++ o :: post) -> bracketed pre.
Proof.
  intros Ho Hb. remember (pre ++ o :: post) as l eqn:El. revert pre El. induction Hb as [|o' ops Ho' Hb IH|f x ops Hb IH]; intros pre El.
  - by destruct pre.
  - destruct pre as [|o1 pre]; [constructor|]. injection El as -> ->. apply bracketed_other; [done|]. by apply IH.
  - destruct pre as [|o1 [|o2 pre]]; [constructor| |].
    + injection El as <- El. by exfalso; eapply Ho.
    + injection El as <- <- ->. apply bracketed_write. by apply IH.
Qed.
Lemma does_still ops d d' f x : does ops (Some d) = Some d' -> rd_files d !! f = Some (Whole x) -> Open f ∉ ops ->
  (forall y, Save f y ∈ ops -> y = x) -> rd_files d' !! f = Some (Whole x).
Proof.
  revert d. induction ops as [|o ops IH]; intros d H Hf Ho Hs; [by injection H as <-|].
  apply not_elem_of_cons in Ho as [Ho1 Ho2]. assert (forall y, Save f y ∈ ops -> y = x) as Hs2 by (intros; apply Hs, elem_of_cons; by right).
  destruct o; cbn in H; (eapply IH; [exact H| |done|done]); cbn; try done.
  - rewrite lookup_insert_ne; [done|]. intros ->. done.
  - destruct (decide (f0 = f)) as [->|]; [rewrite lookup_insert; f_equal; f_equal; apply Hs, elem_of_cons; by left|by rewrite lookup_insert_ne].
Qed.
Lemma lines_elem e ops : e ∈ lines_of ops -> Line e ∈ ops.
Proof.
  intros H. apply elem_of_list_In, in_flat_map in H as (o & Ho & He). destruct o; cbn in He; try done. destruct He as [->|[]]. by apply elem_of_list_In.
Qed.
Lemma does_log ops o d l e : does ops o = Some d -> rd_log d = Some l -> e ∈ l ->
  Line e ∈ ops \/ exists d0 l0, o = Some d0 /\ rd_log d0 = Some l0 /\ e ∈ l0.
Proof.
  revert o. induction ops as [|x ops IH]; intros o H Hl He; [right; cbn in H; eauto|]. cbn in H.
  destruct (IH _ H Hl He) as [?|(d0 & l0 & H0 & Hl0 & He0)]; [left; apply elem_of_cons; by right|].
  destruct x; destruct o as [d1|]; cbn in H0; try done; injection H0 as <-; cbn in Hl0; try (right; by eauto); try done.
  - injection Hl0 as <-. by apply elem_of_nil in He0.
  - destruct (rd_log d1) as [l1|] eqn:E1; [|done]. cbn in Hl0. injection Hl0 as <-. apply elem_of_app in He0 as [?|He0]; [right; eauto|].
    apply elem_of_list_singleton in He0 as ->. left. apply elem_of_cons. by left.
Qed.

Lemma step_ops_opens i x f : Open f ∈ step_ops save follow i x -> of_step i f.
Proof.
  unfold step_ops. rewrite elem_of_cons, !elem_of_app. intros [?|[H|[H|[H|H]]]]; [done|..].
  - apply elem_of_list_fmap in H as (? & ? & _). done.
  - destruct (save (Z.of_nat i)); [|by apply elem_of_nil in H]. unfold write in H. rewrite !elem_of_cons in H.
    destruct H as [[= ->]|[?|H]]; [done|done|by apply elem_of_nil in H].
  - destruct follow as [p|]; [|by apply elem_of_nil in H]. rewrite filterb_match in H. destruct (decide _) as [|Hne']; [by apply elem_of_nil in H|].
    unfold write in H. rewrite !elem_of_cons in H. destruct H as [[= ->]|[?|H]]; [done|done|by apply elem_of_nil in H].
  - apply elem_of_list_singleton in H. done.
Qed.
Lemma steps_ops_opens tr : forall k f, Open f ∈ steps_ops save follow k tr -> exists i, (k <= i)%nat /\ of_step i f.
Proof.
  induction tr as [|x tr IH]; intros k f; cbn [steps_ops]; [by rewrite elem_of_nil|]. rewrite elem_of_app. intros [H|H].
  - exists k. split; [done|]. by apply step_ops_opens in H.
  - apply IH in H as (i & ? & ?). exists i. split; [lia|done].
Qed.
Lemma of_step_eq i j f : of_step i f -> of_step j f -> i = j.
Proof. destruct f; cbn; intros; subst; done. Qed.
Lemma ends_after tr rest m i n : (forall m i n, Line (FunctionEnd m i n) ∉ rest) -> (forall f j, Open f ∈ rest -> ~ of_step j f) ->
  forall k pre post, steps_ops save follow k tr ++ rest = pre ++ Line (FunctionEnd m i n) :: post ->
  exists j x, i = (k + j)%nat /\ tr !! j = Some x /\ m = meta_of (s_func x) /\ n = length (s_after x) /\
    (save (Z.of_nat i) = true -> Save (Intermediate i (name_of (s_func x))) (s_after x) ∈ pre) /\
    (forall p, follow = Some p -> filterb p (s_after x) <> [] -> Save (Followed i) (filterb p (s_after x)) ∈ pre) /\
    (forall f, of_step i f -> Open f ∉ post).
Proof.
  intros Hrest Hrest2. induction tr as [|x tr IH]; intros k pre post E; cbn [steps_ops] in E.
  { exfalso. cbn in E. apply (Hrest m i n). rewrite E. apply elem_of_app. right. apply elem_of_cons. by left. }
  assert (forall pre' k', pre' ++ Line (FunctionEnd m i n) :: post = steps_ops save follow (S k) tr ++ rest -> pre = k' ++ pre' ->
    exists j x0, i = (k + j)%nat /\ (x :: tr) !! j = Some x0 /\ m = meta_of (s_func x0) /\ n = length (s_after x0) /\
    (save (Z.of_nat i) = true -> Save (Intermediate i (name_of (s_func x0))) (s_after x0) ∈ pre) /\
    (forall p, follow = Some p -> filterb p (s_after x0) <> [] -> Save (Followed i) (filterb p (s_after x0)) ∈ pre) /\
    (forall f, of_step i f -> Open f ∉ post)) as Hrec.
  { intros pre' k' E' ->. destruct (IH (S k) pre' post (eq_sym E')) as (j & x0 & -> & Hj & Hm & Hl & H1 & H2 & H3).
    exists (S j), x0. split; [lia|]. split; [done|]. split; [done|]. split; [done|]. split; [|split; [|done]].
    - intros Hs. apply elem_of_app. right. by apply H1.
    - intros p Hp Hf. apply elem_of_app. right. by apply H2. }
  rewrite <- app_assoc in E. apply app_eq_inv in E as [(k' & E1 & E2)|(k' & E1 & E2)].
  - destruct k' as [|o k'].
    + apply (Hrec [] pre); [done|]. by rewrite app_nil_r.
    + injection E2 as <- E2. clear Hrec.
      set (front := Line (FunctionStart (meta_of (s_func x)) k (length (s_before x))) :: map (fun m => Line (Logged m)) (s_messages x) ++
        (if save (Z.of_nat k) then write (Intermediate k (name_of (s_func x))) (s_after x) else []) ++
        match follow with Some p => match filterb p (s_after x) with [] => [] | l => write (Followed k) l end | None => [] end).
      assert (step_ops save follow k x = front ++ [Line (FunctionEnd (meta_of (s_func x)) k (length (s_after x)))]) as Ef.
      { unfold step_ops, front. cbn. by rewrite <- !app_assoc. }
      assert (forall m i n, Line (FunctionEnd m i n) ∉ front) as Hfront.
      { intros m' i' n'. unfold front. rewrite elem_of_cons, !elem_of_app. intros [?|[H|[H|H]]]; [done|..].
        - apply elem_of_list_fmap in H as (? & ? & _). done.
        - destruct (save (Z.of_nat k)); [|by apply elem_of_nil in H]. unfold write in H. repeat (apply elem_of_cons in H as [?|H]; [done|]). by apply elem_of_nil in H.
        - destruct follow as [p|]; [|by apply elem_of_nil in H]. rewrite filterb_match in H. destruct (decide _); [by apply elem_of_nil in H|].
          unfold write in H. repeat (apply elem_of_cons in H as [?|H]; [done|]). by apply elem_of_nil in H. }
      rewrite Ef in E1. destruct k' as [|o2 k' _] using rev_ind.
      * apply app_inj_tail in E1 as [<- [= <- <- <-]]. exists 0%nat, x. rewrite Nat.add_0_r.
        split; [done|]. split; [done|]. split; [done|]. split; [done|]. split; [|split].
        -- intros Hs. unfold front. rewrite Hs. apply elem_of_cons. right. rewrite !elem_of_app. right. left. by apply elem_of_cons; right; apply elem_of_cons; left.
        -- intros p -> Hf. unfold front. apply elem_of_cons. right. rewrite !elem_of_app. right. right. rewrite filterb_match, decide_False by done. by apply elem_of_cons; right; apply elem_of_cons; left.
        -- intros f Hf Ho. cbn in E2. subst post. apply elem_of_app in Ho as [Ho|Ho]; [|by eapply Hrest2].
           apply steps_ops_opens in Ho as (i' & Hle & Hi'). pose proof (of_step_eq _ _ _ Hf Hi'). lia.
      * exfalso. rewrite app_comm_cons, app_assoc in E1. apply app_inj_tail in E1 as [E1 _].
        apply (Hfront m i n). rewrite E1. apply elem_of_app. right. apply elem_of_cons. by left.
  - by apply (Hrec k' (step_ops save follow k x)).
Qed.
Lemma still n p e q d f x : does (take n s.1) None = Some d -> take n s.1 = p ++ Line e :: q -> (exists p', p = setup follow ++ p') ->
  Save f x ∈ p -> Open f ∉ q -> rd_files d !! f = Some (Whole x).
Proof.
  intros Hd E [p' Ep] Hs Ho.
  assert (s.1 = p ++ Line e :: (q ++ drop n s.1)) as Es.
  { rewrite <- (take_drop n s.1) at 1. rewrite E. rewrite <- app_assoc. done. }
  assert (bracketed p) as Hb. { eapply (bracketed_before p (Line e)); [done|]. rewrite <- Es. apply script_bracketed. }
  assert (forall y, Save f y ∈ s.1 -> y = x) as Hall.
  { intros y Hy. eapply belongs_det; apply script_saves; [exact Hy|]. rewrite Es. apply elem_of_app. by left. }
  assert (exists dp, does p None = Some dp /\ rd_files dp !! f = Some (Whole x)) as (dp & Hdp & Hf).
  { assert (does (setup follow) None = Some (empty_dir (A := A))) as E0 by (unfold setup; by destruct follow).
    destruct (does_is_Some p' (empty_dir (A := A))) as (dp & Hdp).
    assert (does p None = Some dp) as Hdp2 by (by rewrite Ep, does_app, E0). exists dp. split; [done|].
    assert (bracketed p') as Hb'.
    { rewrite Ep in Hb. revert Hb. unfold setup. destruct follow; cbn; intros Hb; inversion Hb as [|? ? _ Hb1|]; subst; [|done]; by inversion Hb1. }
    assert (Save f x ∈ p') as Hs'. { rewrite Ep in Hs. apply elem_of_app in Hs as [Hs|Hs]; [exfalso|done]. unfold setup in Hs.
      destruct follow; repeat (apply elem_of_cons in Hs as [?|Hs]; [done|]); by apply elem_of_nil in Hs. }
    destruct (does_saved _ _ _ _ _ Hdp Hs') as (c & Hc). destruct c as [|y]; [exfalso; eapply (bracketed_whole p' Hb' empty_dir); [|done|exact Hc]; done|].
    rewrite Hc. f_equal. f_equal. apply Hall. rewrite Es. apply elem_of_app. left. by eapply does_whole. }
  rewrite E, does_app, Hdp in Hd. eapply does_still; [exact Hd|done| |].
  - apply not_elem_of_cons. done.
  - intros y Hy. apply Hall. rewrite Es. apply elem_of_app. right. apply elem_of_cons in Hy as [?|Hy]; [done|]. apply elem_of_cons. right. apply elem_of_app. by left.
Qed.
Lemma split_once {X} (a : X) (l1 l2 k1 k2 : list X) : a ∉ l1 -> a ∉ l2 -> l1 ++ a :: l2 = k1 ++ a :: k2 -> l1 = k1 /\ l2 = k2.
Proof.
  revert k1. induction l1 as [|y l1 IH]; intros [|z k1] H1 H2 E.
  - by injection E.
  - injection E as <- ->. exfalso. apply H2. apply elem_of_app. right. apply elem_of_cons. by left.
  - injection E as -> _. exfalso. apply H1. apply elem_of_cons. by left.
  - injection E as -> E. apply not_elem_of_cons in H1 as [_ H1]. destruct (IH _ H1 H2 E) as [-> ->]. done.
Qed.

Lemma log_line id e w d l x : w !! id = None -> after_run id follow s.1 e w !! id = Some d -> rd_log d = Some l -> x ∈ l ->
  exists n p q r, does (take n s.1) None = Some d /\ take n s.1 = p ++ Line x :: q /\ s.1 = p ++ Line x :: q ++ r.
Proof.
  intros Hw H Hl Hx. destruct (after_run_own _ _ _ _ _ _ Hw H) as (n & Hd).
  destruct (does_log _ _ _ _ _ Hd Hl Hx) as [Hin|(? & ? & ? & _)]; [|done]. apply elem_of_list_split in Hin as (p & q & E).
  exists n, p, q, (drop n s.1). split; [done|]. split; [done|]. rewrite <- (take_drop n s.1) at 1. rewrite E. by rewrite <- app_assoc.
Qed.
Lemma function_ended id e w d l m i n f x : w !! id = None -> after_run id follow s.1 e w !! id = Some d -> rd_log d = Some l ->
  FunctionEnd m i n ∈ l -> of_step i f -> belongs fs data save follow f x -> rd_files d !! f = Some (Whole x).
Proof.
  intros Hw H Hl Hx Hf Hb. destruct (log_line _ _ _ _ _ _ Hw H Hl Hx) as (n0 & p & q & r & Hd & Et & Es).
  destruct (script_shape dflt b fs uuid save follow data Hne Hn) as (fs1 & fs2 & tr & data1 & rest & tail & Hfs & Hs & E & Hcase).
  fold s in E. rewrite E in Es. unfold body in Es.
  set (hdr := [OpenLog; Line (ReportStart uuid (length data))]) in *.
  assert (Line (FunctionEnd m i n) ∉ (setup follow ++ hdr)) as Hh.
  { unfold setup, hdr. rewrite elem_of_app. intros [Hi|Hi]; [destruct follow|]; repeat (apply elem_of_cons in Hi as [?|Hi]; [done|]); by apply elem_of_nil in Hi. }
  replace ((setup follow ++ hdr ++ steps_ops save follow 0 tr ++ rest) ++ tail) with
    ((setup follow ++ hdr) ++ (steps_ops save follow 0 tr ++ (rest ++ tail))) in Es by (by rewrite <- !app_assoc).
  assert (exists p', p = (setup follow ++ hdr) ++ p' /\ steps_ops save follow 0 tr ++ (rest ++ tail) = p' ++ Line (FunctionEnd m i n) :: q ++ r) as (p' & Ep & E').
  { apply app_eq_inv in Es as [(k & E1 & E2)|(k & E1 & E2)].
    - destruct k as [|o k].
      + exists []. rewrite app_nil_r in E1. rewrite app_nil_r. split; [done|]. symmetry. exact E2.
      + injection E2 as <- _. exfalso. apply Hh. rewrite E1. apply elem_of_app. right. apply elem_of_cons. by left.
    - by exists k. }
  assert (forall f j, Open f ∈ rest ++ tail -> ~ of_step j f) as Hopen.
  { intros f' j Ho. assert (f' = Final) as ->; [|by intros ?]. apply elem_of_app in Ho as [Ho|Ho].
    - destruct Hcase as [(_ & -> & _)|(_ & ? & ? & ? & _ & _ & ->)].
      + unfold finish, write in Ho. cbn in Ho. apply elem_of_cons in Ho as [[= ->]|Ho]; [done|]. repeat (apply elem_of_cons in Ho as [?|Ho]; [done|]). by apply elem_of_nil in Ho.
      + apply elem_of_cons in Ho as [?|Ho]; [done|]. apply elem_of_list_fmap in Ho as (? & ? & _). done.
    - destruct Hcase as [(_ & _ & [->|(rep & -> & _)])|(-> & _)]; unfold report_ops in Ho; repeat (apply elem_of_cons in Ho as [?|Ho]; [done|]); by apply elem_of_nil in Ho. }
  destruct (ends_after tr (rest ++ tail) m i n) with (k := 0%nat) (pre := p') (post := q ++ r) as (j & y & -> & Hj & _ & _ & H1 & H2 & H3); [|done|done|].
  { intros m' i' n' Ho. apply elem_of_app in Ho as [Ho|Ho].
    - destruct Hcase as [(_ & -> & _)|(_ & ? & ? & ? & _ & _ & ->)].
      + unfold finish, write in Ho. cbn in Ho. repeat (apply elem_of_cons in Ho as [?|Ho]; [done|]). by apply elem_of_nil in Ho.
      + apply elem_of_cons in Ho as [?|Ho]; [done|]. apply elem_of_list_fmap in Ho as (? & ? & _). done.
    - destruct Hcase as [(_ & _ & [->|(rep & -> & _)])|(-> & _)]; unfold report_ops in Ho; repeat (apply elem_of_cons in Ho as [?|Ho]; [done|]); by apply elem_of_nil in Ho. }
  cbn [plus] in *. destruct (steps_prefix _ fs2 _ _ _ _ _ Hs Hj) as [Hfj Htj]. rewrite <- Hfs in Hfj, Htj.
  eapply still; [exact Hd|exact Et|exists (hdr ++ p'); by rewrite Ep, <- app_assoc| |intros Ho; eapply H3; [exact Hf|]; apply elem_of_app; by left].
  rewrite Ep. apply elem_of_app. right. destruct f as [i0 n1| |i0]; cbn in Hf; [|done|]; subst i0; cbn in Hb.
  - destruct Hb as (Hsv & g & tr' & Hg & -> & Ht). rewrite Hfj in Hg. injection Hg as <-. destruct (steps_det _ _ _ _ Ht _ _ Htj) as [_ ->]. by apply H1.
  - destruct Hb as (pr & tr' & d' & Hfo & _ & Ht & -> & Hnn). destruct (steps_det _ _ _ _ Ht _ _ Htj) as [_ ->]. by apply H2.
Qed.
Lemma run_ended id e w d l f x : w !! id = None -> after_run id follow s.1 e w !! id = Some d -> rd_log d = Some l ->
  ReportEnd ∈ l -> belongs fs data save follow f x -> rd_files d !! f = Some (Whole x).
Proof.
  intros Hw H Hl Hx Hb. destruct (log_line _ _ _ _ _ _ Hw H Hl Hx) as (n0 & p & q & r & Hd & Et & Es).
  destruct (script_shape dflt b fs uuid save follow data Hne Hn) as (fs1 & fs2 & tr & data1 & rest & tail & Hfs & Hs & E & Hcase).
  fold s in E. rewrite E in Es. unfold body in Es.
  set (hdr := [OpenLog; Line (ReportStart uuid (length data))]) in *.
  assert (Line ReportEnd ∉ (setup follow ++ hdr)) as Hh.
  { unfold setup, hdr. rewrite elem_of_app. intros [Hi|Hi]; [destruct follow|]; repeat (apply elem_of_cons in Hi as [?|Hi]; [done|]); by apply elem_of_nil in Hi. }
  assert (Line ReportEnd ∉ steps_ops save follow 0 tr) as Hst.
  { intros Hi. assert (ReportEnd ∈ events 0 tr) as Hi2.
    { rewrite <- (lines_steps save follow). apply elem_of_list_In, in_flat_map. eexists. split; [by apply elem_of_list_In|]. by left. }
    revert Hi2. generalize 0%nat as k. clear. induction tr as [|y tr IH]; intros k; [by rewrite elem_of_nil|]. cbn [events]. rewrite elem_of_app. intros [Hi|Hi]; [|by eapply IH].
    unfold step_events in Hi. apply elem_of_cons in Hi as [?|Hi]; [done|]. apply elem_of_app in Hi as [Hi|Hi]; [apply elem_of_list_fmap in Hi as (? & ? & _); done|].
    by apply elem_of_list_singleton in Hi. }
  assert (Line ReportEnd ∉ tail) as Htl.
  { intros Ho. destruct Hcase as [(_ & _ & [->|(rep & -> & _)])|(-> & _)]; unfold report_ops in Ho; repeat (apply elem_of_cons in Ho as [?|Ho]; [done|]); by apply elem_of_nil in Ho. }
  destruct Hcase as [(-> & -> & Htail)|(-> & g & ? & ? & _ & _ & ->)].
  - rewrite app_nil_r in Hfs. subst fs1. unfold finish in Es.
    replace ((setup follow ++ hdr ++ steps_ops save follow 0 tr ++ write Final data1 ++ [Line ReportEnd]) ++ tail) with
      ((setup follow ++ hdr ++ steps_ops save follow 0 tr ++ write Final data1) ++ Line ReportEnd :: tail) in Es by (by rewrite <- !app_assoc).
    apply split_once in Es as [Ep Eq]; [|rewrite app_assoc; intros [Ho|[Ho|Ho]%elem_of_app]%elem_of_app; [done|done|]|done].
    2:{ unfold write in Ho. repeat (apply elem_of_cons in Ho as [?|Ho]; [done|]). by apply elem_of_nil in Ho. }
    eapply still; [exact Hd|exact Et|exists (hdr ++ steps_ops save follow 0 tr ++ write Final data1); by rewrite <- Ep| |].
    + rewrite <- Ep. rewrite app_assoc. apply elem_of_app. right.
      apply (completed_saves _ _ _ _ _ _ _ _ Hs) in Hb. unfold finish in Hb. rewrite app_assoc in Hb. apply elem_of_app in Hb as [Hb|Hb]; [done|].
      by apply elem_of_list_singleton in Hb.
    + intros Ho. assert (Open f ∈ tail) as Ho2 by (rewrite Eq; apply elem_of_app; by left).
      destruct Htail as [->|(rep & -> & _)]; unfold report_ops in Ho2; repeat (apply elem_of_cons in Ho2 as [?|Ho2]; [done|]); by apply elem_of_nil in Ho2.
  - exfalso. rewrite app_nil_r in Es. assert (Line ReportEnd ∈ p ++ Line ReportEnd :: q ++ r) as Hi by (apply elem_of_app; right; apply elem_of_cons; by left).
    rewrite <- Es, app_assoc in Hi. apply elem_of_app in Hi as [?|[?|Hi]%elem_of_app]; [done|done|].
    apply elem_of_cons in Hi as [?|Hi]; [done|]. apply elem_of_list_fmap in Hi as (? & ? & _). done.
Qed.

(** ** The log so far *)
Lemma does_log_grows ops d d' : OpenLog ∉ ops -> does ops (Some d) = Some d' -> forall l, rd_log d = Some l -> exists l', rd_log d' = Some l' /\ l `prefix_of` l'.
Proof.
  intros Ho. revert d. induction ops as [|o ops IH]; intros d H l Hl; [injection H as <-; eauto|].
  apply not_elem_of_cons in Ho as [Ho1 Ho2]. destruct o; cbn in H; try done; try (eapply (IH Ho2); [exact H|done]).
  destruct (IH Ho2 _ H (l ++ [e])) as (l' & Hl' & Hp); [cbn; by rewrite Hl|]. exists l'. split; [done|]. etrans; [|done]. by apply prefix_app_r.
Qed.
Lemma log_so_far id e w d d' l : w !! id = None -> after_run id follow s.1 e w !! id = Some d -> after_run id follow s.1 Ends w !! id = Some d' ->
  rd_log d = Some l -> exists l', rd_log d' = Some l' /\ l `prefix_of` l'.
Proof.
  intros Hw H H' Hl. destruct (after_run_own _ _ _ _ _ _ Hw H) as (n & Hd). rewrite after_run_Ends in H' by done.
  rewrite <- (take_drop n s.1), does_app, Hd in H'. apply (does_log_grows _ _ _) with (l := l) in H'; [done| |done].
  destruct (script_shape dflt b fs uuid save follow data Hne Hn) as (fs1 & fs2 & tr & data1 & rest & tail & Hfs & Hs & E & Hcase).
  fold s in E.
  assert (OpenLog ∉ Line (ReportStart uuid (length data)) :: steps_ops save follow 0 tr ++ rest ++ tail) as Hno.
  { rewrite elem_of_cons, !elem_of_app. intros [?|[Hi|[Hi|Hi]]]; [done|..].
    - pose proof (plain_steps save follow tr 0) as Hp. rewrite Forall_forall in Hp. by apply Hp in Hi.
    - destruct Hcase as [(_ & -> & _)|(_ & ? & ? & ? & _ & _ & ->)].
      + pose proof (finish_plain data1) as Hp. rewrite Forall_forall in Hp. by apply Hp in Hi.
      + apply elem_of_cons in Hi as [?|Hi]; [done|]. apply elem_of_list_fmap in Hi as (? & ? & _). done.
    - destruct Hcase as [(_ & _ & [->|(rep & -> & _)])|(-> & _)]; unfold report_ops in Hi; repeat (apply elem_of_cons in Hi as [?|Hi]; [done|]); by apply elem_of_nil in Hi. }
  assert (s.1 = (setup follow ++ [OpenLog]) ++ Line (ReportStart uuid (length data)) :: steps_ops save follow 0 tr ++ rest ++ tail) as Es.
  { rewrite E. unfold body. by rewrite <- !app_assoc. }
  destruct (decide (length (setup follow ++ [OpenLog (A := A)]) <= n)%nat) as [Hle|Hgt].
  - rewrite Es, drop_app_ge by done. intros Hi. apply Hno. apply elem_of_list_lookup in Hi as (k & Hk). rewrite lookup_drop in Hk. by eapply elem_of_list_lookup_2.
  - exfalso. rewrite Es, take_app_le in Hd by lia. revert Hd Hl. unfold setup in *. revert Hgt. clear.
    destruct follow; cbn; intros Hgt; (destruct n as [|[|[|n]]]; cbn; [done|..]); try lia; intros [= <-]; cbn; done.
Qed.
End script.

(** ** Histories *)
Lemma happens_other w h id :
  match h with RunHappens id' _ _ _ => id' <> id | CleanupHappens old => id ∉ old end -> happens w h !! id = w !! id.
Proof.
  destruct h as [id' fo ops e|old]; cbn; intros H; [apply after_run_other; congruence|].
  induction old as [|x old IH]; [done|]. cbn. apply not_elem_of_cons in H as [H1 H2]. rewrite lookup_delete_ne by congruence. by apply IH.
Qed.
Lemma after_run_own_eq id fo ops e w1 w2 : w1 !! id = w2 !! id -> after_run id fo ops e w1 !! id = after_run id fo ops e w2 !! id.
Proof.
  intros H. unfold after_run. destruct e; [by rewrite !lookup_partial_alter, H| |by rewrite !lookup_partial_alter, H].
  destruct (_ && _); [by rewrite !lookup_delete|by rewrite !lookup_partial_alter, H].
Qed.
Lemma foldl_other hs w id :
  Forall (fun h => match h with RunHappens id' _ _ _ => id' <> id | CleanupHappens old => id ∉ old end) hs -> foldl happens w hs !! id = w !! id.
Proof.
  intros H. revert w. induction H as [|h hs Hh _ IH]; intros w; [done|]. cbn. rewrite IH. by apply happens_other.
Qed.
Lemma history_own w hs1 hs2 id fo ops e : w !! id = None ->
  Forall (fun h => match h with RunHappens id' _ _ _ => id' <> id | CleanupHappens _ => True end) (hs1 ++ hs2) ->
  Forall (fun h => match h with RunHappens _ _ _ _ => True | CleanupHappens old => id ∉ old end) hs2 ->
  foldl happens w (hs1 ++ RunHappens id fo ops e :: hs2) !! id = after_run id fo ops e ∅ !! id.
Proof.
  intros Hw H1 H2. rewrite foldl_app. cbn. apply Forall_app in H1 as [Ha Hb]. rewrite foldl_other.
  - apply after_run_own_eq. rewrite lookup_empty. clear -Hw Ha. revert w Hw. induction Ha as [|h hs Hh _ IH]; intros w Hw; [done|]. cbn. apply IH.
    destruct h as [id' fo ops e|old]; cbn; [by rewrite after_run_other by congruence|].
    induction old as [|x old IHo]; [done|]. cbn. destruct (decide (x = id)) as [->|]; [by rewrite lookup_delete|by rewrite lookup_delete_ne].
  - clear -Hb H2. rewrite Forall_forall in *. intros h Hh. specialize (Hb h Hh). specialize (H2 h Hh). by destruct h.
Qed.
End proofs.

(** ** Where *)
Lemma output_dir_env fs p base :
  p <> ""%string -> fs !! p = Some (Dir true) \/ fs !! p = Some (Missing true) -> output_dir fs (Some p) base = Ok (Some p).
Proof.
  intros Hp H. unfold output_dir, get_output_directory, create_dir.
  destruct (String.eqb_spec p ""%string) as [|_]; [done|]. destruct H as [H|H]; rewrite H; cbn; [by rewrite H|by rewrite lookup_insert].
Qed.
Lemma output_dir_fallback fs env base :
  env = None \/ (exists p, env = Some p /\ (fs !! p = Some (Missing false) \/ fs !! p = Some NoDir \/ fs !! p = None)) ->
  fs !! base = Some (Dir true) \/ fs !! base = Some (Missing true) -> output_dir fs env base = Ok (Some base).
Proof.
  intros He Hb. unfold output_dir, get_output_directory.
  assert ((let? (p, fs) := let? fs := create_dir fs base in Ok (base, fs) in Ok (match fs !! p with Some (Dir true) => Some p | _ => None end)) = Ok (Some base)) as Hf.
  { unfold create_dir. destruct Hb as [H|H]; rewrite H; cbn; [by rewrite H|by rewrite lookup_insert]. }
  destruct He as [->|(p & -> & He)]; [exact Hf|]. unfold create_dir at 1. by destruct He as [->|[->| ->]].
Qed.
Lemma output_dir_where fs env base p : output_dir fs env base = Ok (Some p) ->
  (env = Some p /\ p <> ""%string \/ p = base) /\ (fs !! p = Some (Dir true) \/ fs !! p = Some (Missing true)).
Proof.
  assert (forall q fs', create_dir fs q = Ok fs' -> match fs' !! q with Some (Dir true) => Some q | _ => None end = Some p ->
    p = q /\ (fs !! p = Some (Dir true) \/ fs !! p = Some (Missing true))) as Hc.
  { intros q fs'. unfold create_dir. destruct (fs !! q) as [[[]|u|]|] eqn:E; intros [= <-].
    - rewrite lookup_insert. intros [= ->]. auto.
    - rewrite E. destruct u; [|done]. intros [= ->]. auto. }
  intros H. unfold output_dir in H. apply bind_Ok in H as ([q fs'] & Hg & H). apply Ok_inj in H.
  assert (forall r, (let? fs := create_dir fs base in Ok (base, fs)) = Ok r -> r = (q, fs') ->
    (env = Some p /\ p <> ""%string \/ p = base) /\ (fs !! p = Some (Dir true) \/ fs !! p = Some (Missing true))) as Hb.
  { intros r Hr ->. apply bind_Ok in Hr as (fs1 & Hr & Hq). apply Ok_inj in Hq. injection Hq as <- <-. destruct (Hc _ _ Hr H) as [-> ?]. auto. }
  unfold get_output_directory in Hg. destruct env as [p0|]; [|by eapply Hb].
  destruct (create_dir fs p0) as [fs1|] eqn:E; [|by eapply Hb].
  destruct (String.eqb_spec p0 ""%string) as [|Hne]; [by eapply Hb|]. apply Ok_inj in Hg. injection Hg as <- <-.
  destruct (Hc _ _ E H) as [-> ?]. auto.
Qed.
