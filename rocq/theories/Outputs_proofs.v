(** Proofs about what model runs leave on the disk (C98). *)
From stdpp Require Import gmap.
From Verif Require Import Base Types Runner Spec_Runner Runner_proofs Outputs Spec_Outputs.

Section proofs.
Context {A : Type}.
Implicit Types (ops : list (op A)) (w : gmap string (rundir A)).

(** ** Other directories *)
Lemma after_run_other id follow ops e w id' : id' <> id -> after_run id follow ops e w !! id' = w !! id'.
Proof.
  intros H. unfold after_run. destruct e; [by rewrite lookup_partial_alter_ne| |by rewrite lookup_partial_alter_ne].
  destruct (_ && _); [rewrite lookup_delete_ne by done|]; by rewrite lookup_partial_alter_ne.
Qed.
Lemma after_interrupt id follow ops n w : w !! id = None -> (length (setup (A := A) follow) <= n <= length ops)%nat ->
  after_run id follow ops (Interrupted n) w = w.
Proof.
  intros H [H1 H2]. unfold after_run. rewrite (proj2 (Nat.leb_le _ _) H1), (proj2 (Nat.leb_le _ _) H2). cbn.
  apply map_eq. intros i. destruct (decide (i = id)) as [->|Hne].
  - by rewrite lookup_delete.
  - by rewrite lookup_delete_ne, lookup_partial_alter_ne.
Qed.

(** ** What is written was saved *)
Lemma does_app ops1 ops2 o : does (ops1 ++ ops2) o = does ops2 (does ops1 o).
Proof. apply foldl_app. Qed.
Lemma does_snoc ops o x : does (ops ++ [x]) o = match x with MakeDir => Some (default empty_dir (does ops o)) | _ => option_map (act x) (does ops o) end.
Proof. rewrite does_app. reflexivity. Qed.
Lemma does_whole ops f x d : does ops None = Some d -> rd_files d !! f = Some (Whole x) -> Save f x ∈ ops.
Proof.
  revert d. induction ops as [|o ops IH] using rev_ind; intros d H Hf; [done|].
  rewrite does_snoc in H. apply elem_of_app.
  assert (forall d0, does ops None = Some d0 -> rd_files d0 !! f = Some (Whole x) -> Save f x ∈ ops \/ Save f x ∈ [o]) as IH' by eauto.
  destruct (does ops None) as [d0|] eqn:E; destruct o; cbn in H; try done; injection H as <-; cbn in Hf; try (exact (IH' _ eq_refl Hf)); try (by rewrite lookup_empty in Hf).
  - apply lookup_insert_Some in Hf as [[_ ?]|[_ ?]]; [done|by eapply IH'].
  - apply lookup_insert_Some in Hf as [[-> [= ->]]|[_ ?]]; [right; by apply elem_of_list_singleton|by eapply (IH' d0)].
Qed.
Lemma does_file ops f c d : does ops None = Some d -> rd_files d !! f = Some c -> Open f ∈ ops \/ exists x, Save f x ∈ ops.
Proof.
  revert d. induction ops as [|o ops IH] using rev_ind; intros d H Hf; [done|].
  rewrite does_snoc in H.
  assert (forall d0, does ops None = Some d0 -> rd_files d0 !! f = Some c -> Open f ∈ ops ++ [o] \/ exists x, Save f x ∈ ops ++ [o]) as IH'.
  { intros d0 H0 H1. destruct (IH d0 H0 H1) as [?|[x ?]]; [left|right; exists x]; apply elem_of_app; by left. }
  destruct (does ops None) as [d0|] eqn:E; destruct o; cbn in H; try done; injection H as <-; cbn in Hf; try (exact (IH' _ eq_refl Hf)); try (by rewrite lookup_empty in Hf).
  - apply lookup_insert_Some in Hf as [[-> _]|[_ ?]]; [left; apply elem_of_app; right; by apply elem_of_list_singleton|by eapply IH'].
  - apply lookup_insert_Some in Hf as [[-> _]|[_ ?]]; [right; exists data; apply elem_of_app; right; by apply elem_of_list_singleton|by eapply IH'].
Qed.

(** ** Only one file is incomplete *)
Inductive bracketed : list (op A) -> Prop :=
  | bracketed_nil : bracketed []
  | bracketed_other o ops : (forall f, o <> Open f) -> bracketed ops -> bracketed (o :: ops)
  | bracketed_write f x ops : bracketed ops -> bracketed (Open f :: Save f x :: ops).
Lemma bracketed_app ops1 ops2 : bracketed ops1 -> bracketed ops2 -> bracketed (ops1 ++ ops2).
Proof. induction 1; intros; cbn; [done|apply bracketed_other; auto|apply bracketed_write; auto]. Qed.
Lemma bracketed_lines ms : bracketed (map (fun m => Line (Logged m)) ms).
Proof. induction ms; cbn; [constructor|apply bracketed_other; done]. Qed.
Lemma bracketed_partial ops n f g : bracketed ops ->
  forall o, match o with Some d => forall h, rd_files d !! h <> Some Partial | None => True end ->
    forall d, does (take n ops) o = Some d -> rd_files d !! f = Some Partial -> rd_files d !! g = Some Partial -> f = g.
Proof.
  intros Hb. revert n. induction Hb as [|o ops Ho Hb IH|h x ops Hb IH]; intros n o0 H0 d Hd Hf Hg.
  - rewrite take_nil in Hd. cbn in Hd. subst o0. by exfalso; eapply H0.
  - destruct n as [|n]; cbn in Hd; [subst o0; by exfalso; eapply H0|]. eapply (IH n); [|exact Hd|done|done].
    destruct o; cbn; try (destruct o0 as [dd|]; cbn; [solve [exact H0]|done]).
    + by exfalso; eapply Ho.
    + destruct o0 as [dd|]; cbn; [|done]. intros h. destruct (decide (f0 = h)) as [->|Hne]; [by rewrite lookup_insert|rewrite lookup_insert_ne by done; apply H0].
  - destruct n as [|[|n]]; cbn in Hd.
    + subst o0. by exfalso; eapply H0.
    + destruct o0 as [dd|]; cbn in Hd; [|done]. injection Hd as <-. cbn in Hf, Hg.
      apply lookup_insert_Some in Hf as [[-> _]|[_ Hf]]; [|by exfalso; eapply H0].
      apply lookup_insert_Some in Hg as [[-> _]|[_ Hg]]; [done|by exfalso; eapply H0].
    + eapply (IH n); [|exact Hd|done|done]. destruct o0 as [dd|]; cbn; [|done]. intros f'.
      destruct (decide (h = f')) as [->|Hne]; [by rewrite lookup_insert|rewrite !lookup_insert_ne by done; apply H0].
Qed.
Lemma one_partial ops n d f g : bracketed ops -> does (take n ops) None = Some d ->
  rd_files d !! f = Some Partial -> rd_files d !! g = Some Partial -> f = g.
Proof. intros Hb. by apply (bracketed_partial ops n f g Hb None). Qed.

Context (before : func A -> list A -> list message) (clock : nat -> Qc).

(** ** The operations of functions *)
Lemma function_ops_Ok save follow i f data ops data' :
  function_ops before save follow i f data = (ops, Ok data') <->
  exists n ms, f_name f = Some n /\ f_run f data = Ok (data', ms) /\
   ops = Line (FunctionStart (meta_of f) i (length data)) :: map (fun m => Line (Logged m)) ms ++
           (if save (Z.of_nat i) then write (Intermediate i n) data' else []) ++
           match follow with
           | Some p => match filterb p data' with [] => [] | l => write (Followed i) l end
           | None => []
           end ++ [Line (FunctionEnd (meta_of f) i (length data'))].
Proof.
  unfold function_ops, get_function_meta, meta_of, name_of. destruct (f_name f) as [n|]; cbn.
  - destruct (f_run f data) as [[d ms]|e]; split.
    + intros [= <- <-]. eauto.
    + intros (n' & ms' & [= <-] & [= -> ->] & ->). done.
    + done.
    + intros (? & ? & _ & ? & _). done.
  - split; [done|]. intros (? & ? & ? & _). done.
Qed.
Lemma function_ops_Err save follow i f data ops e n : f_name f = Some n ->
  function_ops before save follow i f data = (ops, Err e) <->
  f_run f data = Err e /\ ops = Line (FunctionStart (meta_of f) i (length data)) :: map (fun m => Line (Logged m)) (before f data).
Proof.
  intros Hn. unfold function_ops, get_function_meta, meta_of, name_of. rewrite Hn. cbn.
  destruct (f_run f data) as [[d ms]|e']; split; try done; [by intros [? _]|intros [= <- <-]; done|by intros [[= ->] ->]].
Qed.
Definition step_ops (save : Z -> bool) (follow : option (A -> bool)) (i : nat) (s : step A) : list (op A) :=
  Line (FunctionStart (meta_of (s_func s)) i (length (s_before s))) :: map (fun m => Line (Logged m)) (s_messages s) ++
    (if save (Z.of_nat i) then write (Intermediate i (name_of (s_func s))) (s_after s) else []) ++
    match follow with
    | Some p => match filterb p (s_after s) with [] => [] | l => write (Followed i) l end
    | None => []
    end ++ [Line (FunctionEnd (meta_of (s_func s)) i (length (s_after s)))].
Fixpoint steps_ops (save : Z -> bool) (follow : option (A -> bool)) (i : nat) (tr : list (step A)) : list (op A) :=
  match tr with [] => [] | s :: tr => step_ops save follow i s ++ steps_ops save follow (S i) tr end.

Lemma items_ops_Ok save follow fs i data ops data' : Forall (fun f => f_name f <> None) fs ->
  items_ops before save follow i (map Function fs) data = (ops, Ok data') <->
  exists tr, steps fs data tr data' /\ ops = steps_ops save follow i tr.
Proof.
  revert i data ops data'. induction fs as [|f fs IH]; intros i data ops data' Hn; cbn.
  - split.
    + intros [= <- <-]. exists []. split; [constructor|done].
    + intros (tr & H & ->). by inversion H; subst.
  - apply Forall_cons in Hn as [Hf Hn]. destruct (f_name f) as [n|] eqn:En; [|done].
    destruct (function_ops before save follow i f data) as [ops1 [data1|e]] eqn:E.
    + apply function_ops_Ok in E as (n' & ms & Hn' & Hr & ->). rewrite En in Hn'. injection Hn' as <-.
      destruct (items_ops before save follow (S i) (map Function fs) data1) as [ops2 r] eqn:E2. split.
      * intros [= <- ->]. apply (IH _ _ _ _ Hn) in E2 as (tr & Htr & ->). exists (Step f data ms data1 :: tr).
        split; [by econstructor|]. cbn. unfold step_ops, name_of. cbn. by rewrite En.
      * intros (tr & H & ->). inversion H as [|? ? ? d1 ms1 tr1 ? Hr1 Hs]; subst. rewrite Hr in Hr1. injection Hr1 as <- <-.
        assert (items_ops before save follow (S i) (map Function fs) data1 = (steps_ops save follow (S i) tr1, Ok data')) as E3 by (apply IH; eauto).
        rewrite E3 in E2. injection E2 as <- <-. cbn [steps_ops]. unfold step_ops, name_of. cbn. by rewrite En.
    + apply (function_ops_Err _ _ _ _ _ _ _ n) in E as [Hr _]; [|done]. split; [done|].
      intros (tr & H & _). inversion H; subst. congruence.
Qed.
Lemma items_ops_Err save follow fs i data ops e : Forall (fun f => f_name f <> None) fs ->
  items_ops before save follow i (map Function fs) data = (ops, Err e) <->
  exists fs1 f fs2 tr data1, fs = fs1 ++ f :: fs2 /\ steps fs1 data tr data1 /\ f_run f data1 = Err e /\
    ops = steps_ops save follow i tr ++ Line (FunctionStart (meta_of f) (i + length fs1) (length data1)) :: map (fun m => Line (Logged m)) (before f data1).
Proof.
  revert i data ops. induction fs as [|f fs IH]; intros i data ops Hn; cbn.
  - split; [done|]. intros ([|] & ? & ? & ? & ? & ? & _); done.
  - apply Forall_cons in Hn as [Hf Hn]. destruct (f_name f) as [n|] eqn:En; [|done].
    destruct (function_ops before save follow i f data) as [ops1 [data1|e']] eqn:E.
    + apply function_ops_Ok in E as (n' & ms & Hn' & Hr & ->). rewrite En in Hn'. injection Hn' as <-.
      destruct (items_ops before save follow (S i) (map Function fs) data1) as [ops2 r] eqn:E2. split.
      * intros [= <- ->]. apply (IH _ _ _ Hn) in E2 as (fs1 & g & fs2 & tr & d1 & -> & Htr & Hg & ->).
        exists (f :: fs1), g, fs2, (Step f data ms data1 :: tr), d1. split; [done|]. split; [by econstructor|]. split; [done|].
        cbn. unfold step_ops, name_of. cbn. rewrite En. cbn. rewrite <- !app_assoc. cbn. by rewrite Nat.add_succ_r.
      * intros (fs1 & g & fs2 & tr & d1 & Hfs & Htr & Hg & ->). destruct fs1 as [|f' fs1].
        { inversion Htr; subst. injection Hfs as <- <-. congruence. }
        injection Hfs as <- ->. inversion Htr as [|? ? ? d2 ms1 tr1 ? Hr1 Hs]; subst. rewrite Hr in Hr1. injection Hr1 as <- <-.
        assert (items_ops before save follow (S i) (map Function (fs1 ++ g :: fs2)) data1 =
          (steps_ops save follow (S i) tr1 ++ Line (FunctionStart (meta_of g) (S i + length fs1) (length d1)) :: map (fun m => Line (Logged m)) (before g d1), Err e)) as E3.
        { apply IH; [done|]. by exists fs1, g, fs2, tr1, d1. }
        rewrite E3 in E2. injection E2 as <- <-. cbn. unfold step_ops, name_of. cbn. rewrite En. cbn. rewrite <- !app_assoc. cbn. by rewrite Nat.add_succ_r.
    + apply (function_ops_Err _ _ _ _ _ _ _ n) in E as [Hr ->]; [|done]. split.
      * intros [= <- <-]. exists [], f, fs, [], data. split; [done|]. split; [constructor|]. split; [done|]. cbn. by rewrite Nat.add_0_r.
      * intros (fs1 & g & fs2 & tr & d1 & Hfs & Htr & Hg & ->). destruct fs1 as [|f' fs1].
        { inversion Htr; subst. injection Hfs as <- <-. cbn. rewrite Nat.add_0_r. rewrite Hr in Hg. by injection Hg as ->. }
        injection Hfs as <- ->. inversion Htr; subst. congruence.
Qed.

(** The names and data of what steps save. *)
Lemma filterb_match {B} (p : A -> bool) (l : list A) (b : B) k :
  match filterb p l with [] => b | l => k l end = if decide (filterb p l = []) then b else k (filterb p l).
Proof using. by destruct (filterb p l). Qed.
Lemma step_ops_save save follow i s f x : Save f x ∈ step_ops save follow i s ->
  (save (Z.of_nat i) = true /\ f = Intermediate i (name_of (s_func s)) /\ x = s_after s) \/
  (exists p, follow = Some p /\ f = Followed i /\ x = filterb p (s_after s) /\ x <> []).
Proof using.
  unfold step_ops. rewrite elem_of_cons, !elem_of_app. intros [?|[H|[H|[H|H]]]]; [done|..].
  - apply elem_of_list_fmap in H as (? & ? & _). done.
  - destruct (save (Z.of_nat i)); [|by apply elem_of_nil in H]. unfold write in H. rewrite !elem_of_cons in H.
    destruct H as [?|[[= -> ->]|H]]; [done| |by apply elem_of_nil in H]. left. done.
  - destruct follow as [p|]; [|by apply elem_of_nil in H]. rewrite filterb_match in H. destruct (decide _) as [|Hne]; [by apply elem_of_nil in H|].
    unfold write in H. rewrite !elem_of_cons in H. destruct H as [?|[[= -> ->]|H]]; [done| |by apply elem_of_nil in H]. right. eauto.
  - apply elem_of_list_singleton in H. done.
Qed.
Lemma steps_take (fs : list (func A)) data tr data' i s : steps fs data tr data' -> tr !! i = Some s ->
  fs !! i = Some (s_func s) /\ steps (take (S i) fs) data (take (S i) tr) (s_after s).
Proof using.
  intros H. revert i. induction H as [|f fs data data1 ms tr data2 Hr Hs IH]; intros i Hi; [done|]. destruct i as [|i]; cbn in *.
  - injection Hi as <-. cbn. split; [done|]. rewrite !take_0. econstructor; [done|]. constructor.
  - apply IH in Hi as [? ?]. split; [done|]. by econstructor.
Qed.
Lemma steps_ops_save save follow k tr f x : Save f x ∈ steps_ops save follow k tr ->
  exists i s, tr !! i = Some s /\
   ((save (Z.of_nat (k + i)) = true /\ f = Intermediate (k + i) (name_of (s_func s)) /\ x = s_after s) \/
    (exists p, follow = Some p /\ f = Followed (k + i) /\ x = filterb p (s_after s) /\ x <> [])).
Proof using.
  revert k. induction tr as [|s tr IH]; intros k; cbn [steps_ops]; [by rewrite elem_of_nil|]. rewrite elem_of_app. intros [H|H].
  - exists 0%nat, s. rewrite Nat.add_0_r. split; [done|]. by apply step_ops_save.
  - apply IH in H as (i & s' & Hi & H). exists (S i), s'. split; [done|]. by rewrite Nat.add_succ_r.
Qed.
Lemma steps_prefix (fs1 fs2 : list (func A)) data tr data1 i s : steps fs1 data tr data1 -> tr !! i = Some s ->
  (fs1 ++ fs2) !! i = Some (s_func s) /\ steps (take (S i) (fs1 ++ fs2)) data (take (S i) tr) (s_after s).
Proof using.
  intros H Hi. destruct (steps_take _ _ _ _ _ _ H Hi) as [Hf Hs]. pose proof (lookup_lt_Some _ _ _ Hf).
  split; [by rewrite lookup_app_l|]. by rewrite take_app_le by lia.
Qed.
Lemma steps_ops_belongs save follow (fs1 fs2 : list (func A)) data tr data1 f x : steps fs1 data tr data1 ->
  Save f x ∈ steps_ops save follow 0 tr -> belongs (fs1 ++ fs2) data save follow f x.
Proof using.
  intros Hs H. apply steps_ops_save in H as (i & s & Hi & H). cbn in H. destruct (steps_prefix _ fs2 _ _ _ _ _ Hs Hi) as [Hf Ht].
  destruct H as [(Hsv & -> & ->)|(p & -> & -> & -> & Hne)]; cbn.
  - split; [done|]. eauto.
  - exists p, (take (S i) tr), (s_after s). eauto.
Qed.
Lemma step_ops_bracketed save follow i s : bracketed (step_ops save follow i s).
Proof using.
  unfold step_ops. apply bracketed_other; [done|]. apply bracketed_app; [apply bracketed_lines|]. apply bracketed_app.
  - destruct (save _); [apply bracketed_write|]; constructor.
  - apply bracketed_app; [|by apply bracketed_other; [|constructor]]. destruct follow as [p|]; [|constructor]. rewrite filterb_match.
    destruct (decide _); [|apply bracketed_write]; constructor.
Qed.
Lemma steps_ops_bracketed save follow tr : forall i, bracketed (steps_ops save follow i tr).
Proof using. induction tr as [|s tr IH]; intros i; cbn [steps_ops]; [constructor|]. apply bracketed_app; [apply step_ops_bracketed|apply IH]. Qed.

(** ** The whole script *)
(** What is done before the report, by functions that have names. *)
Definition body (follow : option (A -> bool)) (uuid : string) (data : list A) ops : list (op A) :=
  setup follow ++ [OpenLog; Line (ReportStart uuid (length data))] ++ ops.
Definition finish (data' : list A) : list (op A) := write Final data' ++ [Line ReportEnd].
Lemma script_cases default b fs uuid save follow data : fs <> [] -> Forall (fun f => f_name f <> None) fs ->
  let s := script before clock default (Iterable b (map Function fs)) uuid (Ok save) follow data in
  (exists tr data', steps fs data tr data' /\
     ((exists rep, s = (body follow uuid data (steps_ops save follow 0 tr ++ finish data') ++ [Assets; OpenReport; WriteReport rep], Ok data') /\
        read_log (stamp clock 0 (ReportStart uuid (length data) :: events 0 tr ++ [ReportEnd])) = Ok rep) \/
      (exists e, s = (body follow uuid data (steps_ops save follow 0 tr ++ finish data'), Err e) /\
        read_log (stamp clock 0 (ReportStart uuid (length data) :: events 0 tr ++ [ReportEnd])) = Err e))) \/
  (exists fs1 f fs2 tr data1 e, fs = fs1 ++ f :: fs2 /\ steps fs1 data tr data1 /\ f_run f data1 = Err e /\
     s = (body follow uuid data (steps_ops save follow 0 tr ++
            Line (FunctionStart (meta_of f) (length fs1) (length data1)) :: map (fun m => Line (Logged m)) (before f data1)), Err e)).
Proof.
  intros Hne Hn. cbv zeta. unfold script.
  assert (match Iterable b (map Function fs) with Iterable _ [] => default | _ => Iterable b (map Function fs) end
      = Iterable b (map Function fs)) as -> by (by destruct fs).
  assert (validate_configuration (Iterable b (map Function fs)) = Ok (Iterable b (map Function fs))) as ->.
  { apply validate_Ok. by rewrite unwrap_flat. }
  cbn [items]. destruct (items_ops before save follow 0 (map Function fs) data) as [ops [data'|e]] eqn:E.
  - apply items_ops_Ok in E as (tr & Htr & ->); [|done]. left. exists tr, data'. split; [done|].
    assert (lines_of ([OpenLog; Line (ReportStart uuid (length data))] ++ steps_ops save follow 0 tr ++ write Final data' ++ [Line ReportEnd]) =
      ReportStart uuid (length data) :: events 0 tr ++ [ReportEnd]) as ->.
    { unfold lines_of. cbn [app flat_map]. f_equal. rewrite flat_map_app. cbn. f_equal.
      generalize 0%nat as i. clear. induction tr as [|s tr IH]; intros i; [done|]. cbn [steps_ops events]. rewrite flat_map_app, IH. f_equal.
      unfold step_ops, step_events. cbn. f_equal. rewrite !flat_map_app. cbn.
      assert (flat_map (fun o : op A => match o with Line e => [e] | _ => [] end) (map (fun m => Line (Logged m)) (s_messages s)) = map Logged (s_messages s)) as ->
        by (induction (s_messages s) as [|m ms IHm]; [done|]; cbn; by rewrite IHm). f_equal.
      destruct (save _); cbn; (destruct follow as [p|]; [rewrite filterb_match; by destruct (decide _)|done]). }
    destruct (read_log _) as [rep|e]; [left|right]; eexists; (split; [|reflexivity]); unfold body, finish; by rewrite <- ?app_assoc.
  - apply items_ops_Err in E as (fs1 & f & fs2 & tr & data1 & -> & Htr & Hf & ->); [|done]. right.
    exists fs1, f, fs2, tr, data1, e. split; [done|]. split; [done|]. split; [done|]. done.
Qed.

(** ** The directory *)
Lemma steps_det (fs : list (func A)) data tr1 d1 : steps fs data tr1 d1 -> forall tr2 d2, steps fs data tr2 d2 -> tr1 = tr2 /\ d1 = d2.
Proof using.
  induction 1 as [|f fs data data1 ms tr data2 Hr Hs IH]; intros tr2 d2 H2; inversion H2; subst; [done|].
  rewrite Hr in *. match goal with H : Ok _ = Ok _ |- _ => injection H as <- <- end.
  match goal with H : steps fs data1 _ _ |- _ => apply IH in H as [-> ->] end. done.
Qed.
Lemma steps_prefix_of (fs : list (func A)) data tr d : steps fs data tr d -> forall n, exists d', steps (take n fs) data (take n tr) d'.
Proof using.
  induction 1 as [|f fs data data1 ms tr data2 Hr Hs IH]; intros n.
  - rewrite !take_nil. exists data. constructor.
  - destruct n as [|n]; cbn; [eexists; constructor|]. destruct (IH n) as (d' & Hd). exists d'. by econstructor.
Qed.
Lemma belongs_det (fs : list (func A)) data save follow f x y : belongs fs data save follow f x -> belongs fs data save follow f y -> x = y.
Proof using.
  destruct f; cbn.
  - intros (_ & g & tr & _ & _ & H1) (_ & g' & tr' & _ & _ & H2). by destruct (steps_det _ _ _ _ H1 _ _ H2).
  - intros (tr & H1) (tr' & H2). by destruct (steps_det _ _ _ _ H1 _ _ H2).
  - intros (p & tr & d & Hp & _ & H1 & -> & _) (p' & tr' & d' & Hp' & _ & H2 & -> & _).
    destruct (steps_det _ _ _ _ H1 _ _ H2) as [_ ->]. rewrite Hp in Hp'. by injection Hp' as ->.
Qed.

(** Every file opened is there, and whole at the end of what is bracketed. *)
Lemma does_is_Some ops d : exists d', does ops (Some d) = Some d'.
Proof using. revert d. induction ops as [|o ops IH]; intros d; [by exists d|]. destruct o; cbn; apply IH. Qed.
Lemma does_keeps ops d d' f : does ops (Some d) = Some d' -> is_Some (rd_files d !! f) -> is_Some (rd_files d' !! f).
Proof using.
  revert d. induction ops as [|o ops IH]; intros d H Hf; [by injection H as <-|].
  destruct o; cbn in H; (eapply IH; [exact H|]); cbn; try done.
  - destruct (decide (f0 = f)) as [->|]; [rewrite lookup_insert; eauto|by rewrite lookup_insert_ne].
  - destruct (decide (f0 = f)) as [->|]; [rewrite lookup_insert; eauto|by rewrite lookup_insert_ne].
Qed.
Lemma does_saved ops d d' f x : does ops (Some d) = Some d' -> Save f x ∈ ops -> is_Some (rd_files d' !! f).
Proof using.
  revert d. induction ops as [|o ops IH]; intros d H Hf; [by apply elem_of_nil in Hf|].
  apply elem_of_cons in Hf as [<-|Hf].
  - cbn in H. eapply does_keeps; [exact H|]. cbn. rewrite lookup_insert. eauto.
  - destruct o; cbn in H; eapply IH; eauto.
Qed.
Lemma bracketed_whole ops : bracketed ops -> forall d d', (forall h, rd_files d !! h <> Some Partial) -> does ops (Some d) = Some d' ->
  forall h, rd_files d' !! h <> Some Partial.
Proof using.
  induction 1 as [|o ops Ho Hb IH|f x ops Hb IH]; intros d d' Hd H; [by injection H as <-|..].
  - destruct o; cbn in H; (eapply IH; [|exact H]); try exact Hd.
    + by exfalso; eapply Ho.
    + intros h. cbn. destruct (decide (f = h)) as [->|]; [by rewrite lookup_insert|rewrite lookup_insert_ne by done; apply Hd].
  - cbn in H. eapply IH; [|exact H]. intros h. cbn.
    destruct (decide (f = h)) as [->|]; [by rewrite lookup_insert|rewrite !lookup_insert_ne by done; apply Hd].
Qed.
(** The log and the page. *)
Definition plain (o : op A) : Prop := match o with Line _ | Open _ | Save _ _ => True | _ => False end.
Lemma does_plain ops d d' : Forall plain ops -> does ops (Some d) = Some d' ->
  rd_log d' = option_map (fun l => l ++ lines_of ops) (rd_log d) /\ rd_assets d' = rd_assets d /\ rd_report d' = rd_report d.
Proof using.
  intros Hp. revert d. induction Hp as [|o ops Ho Hp IH]; intros d H.
  - injection H as <-. destruct (rd_log d); cbn; [by rewrite app_nil_r|done].
  - destruct o; cbn in Ho; try done; cbn in H; apply IH in H as (-> & -> & ->); cbn; try done.
    destruct (rd_log d); cbn; [by rewrite <- app_assoc|done].
Qed.
Lemma plain_lines ms : Forall plain (map (fun m => Line (Logged m)) ms).
Proof using. induction ms; constructor; done. Qed.
Lemma plain_step save follow i s : Forall plain (step_ops save follow i s).
Proof using.
  unfold step_ops. constructor; [done|]. rewrite !Forall_app. split; [apply plain_lines|]. split; [|split].
  - destruct (save _); repeat constructor.
  - destruct follow as [p|]; [|constructor]. rewrite filterb_match. destruct (decide _); repeat constructor.
  - repeat constructor.
Qed.
Lemma plain_steps save follow tr : forall i, Forall plain (steps_ops save follow i tr).
Proof using. induction tr as [|s tr IH]; intros i; cbn [steps_ops]; [constructor|]. apply Forall_app. split; [apply plain_step|apply IH]. Qed.
Lemma lines_app ops1 ops2 : lines_of (ops1 ++ ops2) = lines_of ops1 ++ lines_of ops2.
Proof using. apply flat_map_app. Qed.
Lemma lines_logged ms : lines_of (map (fun m => Line (A := A) (Logged m)) ms) = map Logged ms.
Proof using. induction ms as [|m ms IH]; [done|]. cbn. by f_equal. Qed.
Lemma lines_steps save follow tr : forall i, lines_of (steps_ops save follow i tr) = events i tr.
Proof using.
  induction tr as [|s tr IH]; intros i; [done|]. cbn [steps_ops events]. rewrite lines_app, IH. f_equal.
  unfold step_ops, step_events. change (lines_of (?a :: ?l)) with (lines_of [a] ++ lines_of l). rewrite !lines_app, lines_logged. cbn. f_equal. f_equal.
  destruct (save _); cbn; (destruct follow as [p|]; [rewrite filterb_match; by destruct (decide _)|done]).
Qed.

(** What the directory is after a body of plain operations. *)
Lemma body_dir follow uuid data ops d : Forall plain ops -> does (body follow uuid data ops) None = Some d ->
  rd_log d = Some (ReportStart uuid (length data) :: lines_of ops) /\ rd_assets d = false /\ rd_report d = None.
Proof using.
  intros Hp H. unfold body in H. rewrite !does_app in H.
  assert (does [OpenLog; Line (ReportStart uuid (length data))] (does (setup follow) None) =
    Some (RunDir (Some [ReportStart uuid (length data)]) ∅ false (None : option (option report)))) as E.
  { unfold setup. by destruct follow. }
  rewrite E in H. apply does_plain in H as (-> & -> & ->); done.
Qed.
Lemma body_bracketed follow uuid data ops : bracketed ops -> bracketed (body follow uuid data ops).
Proof using.
  intros H. unfold body. apply bracketed_app.
  - unfold setup. apply bracketed_other; [done|]. destruct follow; [apply bracketed_other; [done|]|]; constructor.
  - cbn. apply bracketed_other; [done|]. by apply bracketed_other.
Qed.
Lemma body_files (fs : list (func A)) save follow uuid data ops d : bracketed ops ->
  (forall f x, Save f x ∈ ops <-> belongs fs data save follow f x) ->
  does (body follow uuid data ops) None = Some d ->
  forall f c, rd_files d !! f = Some c <-> exists x, c = Whole x /\ belongs fs data save follow f x.
Proof using.
  intros Hb Hops H f c.
  assert (forall f x, Save f x ∈ body follow uuid data ops <-> Save f x ∈ ops) as Hin.
  { intros f' x. unfold body, setup. rewrite !elem_of_app. split; [|tauto]. intros [Hs|[Hs|Hs]]; [exfalso..|done].
    - destruct follow; repeat (apply elem_of_cons in Hs as [?|Hs]; [done|]); by apply elem_of_nil in Hs.
    - repeat (apply elem_of_cons in Hs as [?|Hs]; [done|]). by apply elem_of_nil in Hs. }
  pose proof H as Hd. unfold body in Hd. rewrite does_app in Hd.
  assert (does (setup follow) None = Some (empty_dir (A := A))) as E by (unfold setup; by destruct follow).
  rewrite E in Hd.
  assert (forall h, rd_files d !! h <> Some Partial) as Hw.
  { eapply bracketed_whole; [|..|exact Hd]; [|done]. cbn. apply bracketed_other; [done|]. by apply bracketed_other. }
  split.
  - intros Hf. destruct c as [|x]; [by exfalso; eapply Hw|]. exists x. split; [done|]. apply Hops, Hin. by eapply does_whole.
  - intros (x & -> & Hx). assert (Save f x ∈ [OpenLog; Line (ReportStart uuid (length data))] ++ ops) as Hs.
    { apply elem_of_app. right. by apply Hops. }
    destruct (does_saved _ _ _ _ _ Hd Hs) as (c & Hc). rewrite Hc. destruct c as [|y]; [by exfalso; eapply Hw|].
    f_equal. f_equal. apply (belongs_det fs data save follow f); [|done]. apply Hops, Hin. by eapply does_whole.
Qed.

(** What belongs is saved. *)
Lemma step_saves save follow k tr i s : tr !! i = Some s ->
  (save (Z.of_nat (k + i)) = true -> Save (Intermediate (k + i) (name_of (s_func s))) (s_after s) ∈ steps_ops save follow k tr) /\
  (forall p, follow = Some p -> filterb p (s_after s) <> [] -> Save (Followed (k + i)) (filterb p (s_after s)) ∈ steps_ops save follow k tr).
Proof using.
  revert k i. induction tr as [|s' tr IH]; intros k i Hi; [done|]. destruct i as [|i]; cbn [steps_ops].
  - injection Hi as ->. rewrite Nat.add_0_r. split.
    + intros Hs. apply elem_of_app. left. unfold step_ops. rewrite Hs. apply elem_of_cons. right. rewrite !elem_of_app. right. left. by apply elem_of_cons; right; apply elem_of_cons; left.
    + intros p -> Hne. apply elem_of_app. left. unfold step_ops. apply elem_of_cons. right. rewrite !elem_of_app. right. right. left.
      rewrite filterb_match. rewrite decide_False by done. by apply elem_of_cons; right; apply elem_of_cons; left.
  - destruct (IH (S k) i Hi) as [H1 H2]. rewrite Nat.add_succ_r. split.
    + intros Hs. apply elem_of_app. right. by apply H1.
    + intros p Hp Hne. apply elem_of_app. right. by apply H2.
Qed.
Lemma step_of (fs : list (func A)) data tr d i g : steps fs data tr d -> fs !! i = Some g -> exists s, tr !! i = Some s /\ s_func s = g.
Proof using.
  intros H. revert i. induction H as [|f fs data data1 ms tr data2 Hr Hs IH]; intros i Hi; [done|].
  destruct i as [|i]; cbn in *; [injection Hi as <-; by eexists|by apply IH].
Qed.
Lemma completed_saves (fs : list (func A)) data tr data' save follow f x : steps fs data tr data' ->
  Save f x ∈ steps_ops save follow 0 tr ++ finish data' <-> belongs fs data save follow f x.
Proof using.
  intros Hs. rewrite elem_of_app. split.
  - intros [H|H].
    + rewrite <- (app_nil_r fs). by eapply steps_ops_belongs.
    + unfold finish, write in H. cbn in H. rewrite !elem_of_cons in H. destruct H as [?|[[= -> ->]|[?|H]]]; [done| |done|by apply elem_of_nil in H]. cbn. eauto.
  - destruct f as [i n| |i]; cbn.
    + intros (Hsv & g & tr' & Hg & -> & Ht). destruct (step_of _ _ _ _ _ _ Hs Hg) as (s & Hi & <-).
      destruct (steps_take _ _ _ _ _ _ Hs Hi) as [_ Ht']. destruct (steps_det _ _ _ _ Ht _ _ Ht') as [_ ->]. left.
      by apply (step_saves save follow 0 tr i s Hi).
    + intros (tr' & Ht). destruct (steps_det _ _ _ _ Ht _ _ Hs) as [_ ->]. right. by apply elem_of_cons; right; apply elem_of_cons; left.
    + intros (p & tr' & d' & -> & [g Hg] & Ht & -> & Hne). destruct (step_of _ _ _ _ _ _ Hs Hg) as (s & Hi & <-).
      destruct (steps_take _ _ _ _ _ _ Hs Hi) as [_ Ht']. destruct (steps_det _ _ _ _ Ht _ _ Ht') as [_ ->]. left.
      by apply (step_saves save (Some p) 0 tr i s Hi).
Qed.
Lemma steps_stuck (fs1 fs2 : list (func A)) f data tr data1 e : steps fs1 data tr data1 -> f_run f data1 = Err e ->
  forall tr' d', ~ steps (fs1 ++ f :: fs2) data tr' d'.
Proof using.
  induction 1 as [|g fs data data1 ms tr data2 Hr Hs IH]; intros Hf tr' d' H; inversion H; subst; [congruence|].
  rewrite Hr in *. match goal with H : Ok _ = Ok _ |- _ => injection H as <- <- end. by eapply IH.
Qed.
Lemma raised_saves (fs1 fs2 : list (func A)) g data tr data1 e save follow i0 n0 ms f x : steps fs1 data tr data1 -> f_run g data1 = Err e ->
  Save f x ∈ steps_ops save follow 0 tr ++ Line (FunctionStart (meta_of g) i0 n0) :: map (fun m => Line (Logged m)) ms <->
  belongs (fs1 ++ g :: fs2) data save follow f x.
Proof using.
  intros Hs Hg. rewrite elem_of_app. split.
  - intros [H|H]; [by eapply steps_ops_belongs|]. apply elem_of_cons in H as [?|H]; [done|]. apply elem_of_list_fmap in H as (? & ? & _). done.
  - assert (forall i tr' d', is_Some ((fs1 ++ g :: fs2) !! i) -> steps (take (S i) (fs1 ++ g :: fs2)) data tr' d' ->
      exists s, tr !! i = Some s /\ (fs1 ++ g :: fs2) !! i = Some (s_func s) /\ d' = s_after s) as Hin.
    { intros i tr' d' Hi H. destruct (decide (i < length fs1)%nat) as [Hlt|Hge].
      - apply lookup_lt_is_Some in Hlt as (h & Hh). destruct (step_of _ _ _ _ _ _ Hs Hh) as (s & Hts & <-).
        destruct (steps_prefix _ (g :: fs2) _ _ _ _ _ Hs Hts) as [Hf Ht]. exists s. split; [done|]. split; [done|].
        by destruct (steps_det _ _ _ _ H _ _ Ht).
      - exfalso. assert (take (S i) (fs1 ++ g :: fs2) = fs1 ++ g :: take (i - length fs1) fs2) as E.
        { rewrite take_app_ge by lia. f_equal. replace (S i - length fs1)%nat with (S (i - length fs1)) by lia. done. }
        rewrite E in H. exact (steps_stuck _ _ _ _ _ _ _ Hs Hg _ _ H). }
    destruct f as [i n| |i]; cbn.
    + intros (Hsv & h & tr' & Hh & -> & Ht). destruct (Hin i tr' x) as (s & Hi & Hf & ->); [by exists h|done|]. rewrite Hf in Hh. injection Hh as <-. left.
      by apply (step_saves save follow 0 tr i s Hi).
    + intros (tr' & Ht). exfalso. exact (steps_stuck _ _ _ _ _ _ _ Hs Hg _ _ Ht).
    + intros (p & tr' & d' & -> & Hh & Ht & -> & Hne). destruct (Hin i tr' d') as (s & Hi & Hf & ->); [done|done|]. left.
      by apply (step_saves save (Some p) 0 tr i s Hi).
Qed.
Lemma finish_bracketed data' : bracketed (finish data').
Proof using. unfold finish, write. cbn. apply bracketed_write. apply bracketed_other; [done|constructor]. Qed.
Lemma finish_plain (data' : list A) : Forall plain (finish data').
Proof using. unfold finish, write. cbn. repeat constructor. Qed.
End proofs.
