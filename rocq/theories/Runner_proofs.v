(** Proofs for C51, C52, C53 and C56. *)
From Coq Require Import Ascii.
From Verif Require Import Base Types Strings Formulas Runner Spec_Runner.

Section proofs.
Context {A : Type}.
Implicit Types (f : func A) (fs : list (func A)) (data : list A) (tr : list (step A)) (r : run A).

(** ** Collections *)
Lemma unwrap_flat fs : unwrap_functions (map Function fs) = fs.
Proof. induction fs as [|f fs IH]; [done|]. cbn. by rewrite <- IH at 2. Qed.
Lemma unwrap_app (l k : list (item A)) : unwrap_functions (l ++ k) = unwrap_functions l ++ unwrap_functions k.
Proof. apply flat_map_app. Qed.
Lemma unwrap_nested (pre mid post : list (item A)) b :
  unwrap_functions (pre ++ Iterable b mid :: post) = unwrap_functions (pre ++ mid ++ post).
Proof. rewrite !unwrap_app. cbn. done. Qed.

Definition go := fix go (l : list (item A)) (data : list A) : result (list A * list message) :=
  match l with
  | [] => Ok (data, [])
  | i :: l => let? (data, ms) := call i data in
              let? (data, ms') := go l data in Ok (data, ms ++ ms')
  end.
Lemma call_collection (l : list (item A)) data : call (collection l) data = go (map Function (unwrap_functions l)) data.
Proof. done. Qed.

Lemma go_Ok fs data data' ms :
  go (map Function fs) data = Ok (data', ms) <-> exists tr, steps fs data tr data' /\ ms = flat_map s_messages tr.
Proof.
  revert data ms. induction fs as [|f fs IH]; intros data ms; cbn [map go].
  - split.
    + intros [= -> <-]. exists []. split; [constructor|done].
    + intros (tr & H & ->). inversion H; subst. done.
  - cbn [call]. split.
    + intros H. apply bind_Ok in H as ([d1 m1] & H1 & H). apply bind_Ok in H as ([d2 m2] & H2 & H).
      injection H as -> <-. apply IH in H2 as (tr & Htr & ->). exists (Step f data m1 d1 :: tr).
      split; [by econstructor|done].
    + intros (tr & H & ->). inversion H as [|f' fs' ? d1 m1 tr' d2 H1 H2]; subst.
      rewrite H1. cbn [bind]. assert (go (map Function fs) d1 = Ok (data', flat_map s_messages tr')) as -> by (apply IH; eauto).
      done.
Qed.
Lemma go_Err fs data e :
  go (map Function fs) data = Err e <->
  exists fs1 f fs2 tr data1, fs = fs1 ++ f :: fs2 /\ steps fs1 data tr data1 /\ f_run f data1 = Err e.
Proof.
  revert data. induction fs as [|f fs IH]; intros data; cbn [map go].
  - split; [done|]. intros ([|] & ? & ? & ? & ? & ? & ?); done.
  - cbn [call]. destruct (f_run f data) as [[d1 m1]|e1] eqn:E; cbn [bind].
    + destruct (go (map Function fs) d1) as [[d2 m2]|e2] eqn:E2; cbn [bind].
      * split; [done|]. intros (fs1 & g & fs2 & tr & d' & Heq & Hs & Hg).
        destruct fs1 as [|f1 fs1]; cbn in Heq; injection Heq as -> ->.
        { inversion Hs; subst. congruence. }
        inversion Hs as [|f' fs' ? d1' m1' tr' d2' H1 H2]; subst. rewrite E in H1. injection H1 as <- <-.
        assert (go (map Function (fs1 ++ g :: fs2)) d1 = Err e) by (apply IH; naive_solver). congruence.
      * split.
        -- intros [= ->]. apply IH in E2 as (fs1 & g & fs2 & tr & d' & -> & Hs & Hg).
           exists (f :: fs1), g, fs2, (Step f data m1 d1 :: tr), d'. split; [done|]. split; [by econstructor|done].
        -- intros (fs1 & g & fs2 & tr & d' & Heq & Hs & Hg).
           destruct fs1 as [|f1 fs1]; cbn in Heq; injection Heq as -> ->.
           { inversion Hs; subst. congruence. }
           inversion Hs as [|f' fs' ? d1' m1' tr' d2' H1 H2]; subst. rewrite E in H1. injection H1 as <- <-.
           assert (go (map Function (fs1 ++ g :: fs2)) d1 = Err e) by (apply IH; naive_solver). congruence.
    + split.
      * intros [= ->]. exists [], f, fs, [], data. split; [done|]. split; [constructor|done].
      * intros (fs1 & g & fs2 & tr & d' & Heq & Hs & Hg).
        destruct fs1 as [|f1 fs1]; cbn in Heq; injection Heq as -> ->.
        { inversion Hs; subst. congruence. }
        inversion Hs as [|f' fs' ? d1' m1' tr' d2' H1 H2]; subst. congruence.
Qed.

(** ** The run *)
Context (clock : nat -> Qc).
Lemma stamp_app n l k : stamp clock n (l ++ k) = stamp clock n l ++ stamp clock (n + length l) k.
Proof.
  revert n. induction l as [|e l IH]; intros n; cbn.
  - by rewrite Nat.add_0_r.
  - rewrite IH. do 2 f_equal. f_equal. lia.
Qed.
Lemma stamp_length n l : length (stamp clock n l) = length l.
Proof. revert n. induction l; intros; cbn; auto. Qed.

Lemma log_spec e r evs : r_log r = stamp clock 0 evs ->
  r_log (log clock e r) = stamp clock 0 (evs ++ [e]) /\ r_next (log clock e r) = r_next r /\
  r_saved (log clock e r) = r_saved r /\ r_followed (log clock e r) = r_followed r /\ r_data (log clock e r) = r_data r.
Proof. intros H. unfold log. cbn. rewrite H, stamp_app, stamp_length. done. Qed.
Lemma log_messages ms r evs : r_log r = stamp clock 0 evs ->
  let r' := foldl (fun r m => log clock (Logged m) r) r ms in
  r_log r' = stamp clock 0 (evs ++ map Logged ms) /\ r_next r' = r_next r /\
  r_saved r' = r_saved r /\ r_followed r' = r_followed r /\ r_data r' = r_data r.
Proof.
  revert r evs. induction ms as [|m ms IH]; intros r evs H; cbn.
  - by rewrite app_nil_r.
  - destruct (log_spec (Logged m) r evs H) as (H1 & H2 & H3 & H4 & H5).
    destruct (IH _ _ H1) as (K1 & K2 & K3 & K4 & K5).
    rewrite K1, K2, K3, K4, K5, H2, H3, H4, H5. by rewrite <- app_assoc.
Qed.

Definition follow_step (follow : option (A -> bool)) (i : nat) (data : list A) : list (nat * list A) :=
  match follow with
  | Some p => if existsb p data then [(i, filterb p data)] else []
  | None => []
  end.
Lemma filterb_nil (p : A -> bool) l : existsb p l = false -> filterb p l = [].
Proof. induction l as [|x l IH]; [done|]. cbn. destruct (p x); [done|]. apply IH. Qed.
Lemma filterb_not_nil (p : A -> bool) l : existsb p l = true -> filterb p l <> [].
Proof. induction l as [|x l IH]; [done|]. cbn. destruct (p x); [done|]. apply IH. Qed.
Lemma save_followed_spec (p : A -> bool) i r :
  save_followed p i r = Run (r_next r) (r_log r) (r_saved r) (r_followed r ++ follow_step (Some p) i (r_data r)) (r_data r).
Proof.
  unfold save_followed, follow_step. destruct (existsb p (r_data r)) eqn:E.
  - apply filterb_not_nil in E. by destruct (filterb p (r_data r)).
  - rewrite (filterb_nil _ _ E), app_nil_r. by destruct r.
Qed.

Lemma apply_function_Ok save follow r f evs data ms : r_log r = stamp clock 0 evs ->
  f_name f <> None -> f_run f (r_data r) = Ok (data, ms) ->
  exists r', apply_function clock save follow r f = Ok r' /\
  r_log r' = stamp clock 0 (evs ++ step_events (r_next r) (Step f (r_data r) ms data)) /\
  r_next r' = S (r_next r) /\
  r_saved r' = r_saved r ++ (if save (Z.of_nat (r_next r)) then [(Some (r_next r, name_of f), data)] else []) /\
  r_followed r' = r_followed r ++ follow_step follow (r_next r) data /\
  r_data r' = data.
Proof.
  intros H Hn Hf. unfold apply_function, get_function_meta. destruct (f_name f) as [n|] eqn:En; [|done]. cbn [bind].
  cbn [r_data r_next].
  set (m := Meta n _ _). assert (m = meta_of f) as Em. { unfold m, meta_of, name_of. by rewrite En. }
  set (r0 := Run (S (r_next r)) (r_log r) (r_saved r) (r_followed r) (r_data r)).
  destruct (log_spec (FunctionStart m (r_next r) (length (r_data r))) r0 evs H) as (H1 & H2 & H3 & H4 & H5).
  set (r1 := log clock _ r0) in *. rewrite H5. cbn [r_data r0]. subst r0. cbn [r_data] in *. rewrite Hf. cbn [bind].
  destruct (log_messages ms r1 _ H1) as (K1 & K2 & K3 & K4 & K5). set (r2 := foldl _ r1 ms) in *.
  set (r3 := Run (r_next r2) (r_log r2) (r_saved r2) (r_followed r2) data).
  set (r4 := if save (Z.of_nat (r_next r)) then save_result (Some (r_next r, m_name m)) r3 else r3).
  assert (r_log r4 = r_log r2 /\ r_next r4 = S (r_next r) /\
    r_saved r4 = r_saved r ++ (if save (Z.of_nat (r_next r)) then [(Some (r_next r, name_of f), data)] else []) /\
    r_followed r4 = r_followed r /\ r_data r4 = data) as (L1 & L2 & L3 & L4 & L5).
  { unfold r4. rewrite Em. destruct (save (Z.of_nat (r_next r))); cbn; rewrite ?K2, ?K3, ?K4, ?H2, ?H3, ?H4, ?app_nil_r; done. }
  set (r5 := match follow with Some p => save_followed p (r_next r) r4 | None => r4 end).
  assert (r5 = Run (r_next r4) (r_log r4) (r_saved r4) (r_followed r4 ++ follow_step follow (r_next r) data) (r_data r4)) as E5.
  { unfold r5. destruct follow as [p|].
    - rewrite save_followed_spec. by rewrite L5.
    - cbn. rewrite app_nil_r. by destruct r4. }
  eexists. split; [reflexivity|].
  assert (r_log r5 = stamp clock 0 ((evs ++ [FunctionStart m (r_next r) (length (r_data r))]) ++ map Logged ms)) as H6.
  { rewrite E5. cbn. by rewrite L1, K1. }
  destruct (log_spec (FunctionEnd m (r_next r) (length data)) r5 _ H6) as (M1 & M2 & M3 & M4 & M5).
  rewrite M1, M2, M3, M4, M5, E5. cbn. rewrite L2, L3, L4, L5. unfold step_events. cbn. rewrite Em.
  split; [|done]. f_equal. by rewrite <- !app_assoc.
Qed.
Lemma apply_function_inv save follow r f r' : apply_function clock save follow r f = Ok r' ->
  r_log r = r_log r -> f_name f <> None /\ exists data ms, f_run f (r_data r) = Ok (data, ms).
Proof.
  intros H _. unfold apply_function in H. apply bind_Ok in H as (m & Hm & H).
  unfold get_function_meta in Hm. destruct (f_name f); [|done]. split; [done|].
  apply bind_Ok in H as ([data ms] & H & _). cbn [log r_data] in H. eauto.
Qed.

Definition run_after save follow evs r tr data r' : Prop :=
  r_log r' = stamp clock 0 (evs ++ events (r_next r) tr) /\
  r_next r' = (r_next r + length tr)%nat /\
  r_saved r' = r_saved r ++ saved save (r_next r) tr /\
  r_followed r' = r_followed r ++ followed follow (r_next r) tr /\
  r_data r' = data.
Lemma run_after_unique save follow evs r tr data r1 r2 :
  run_after save follow evs r tr data r1 -> run_after save follow evs r tr data r2 -> r1 = r2.
Proof.
  intros (A1 & A2 & A3 & A4 & A5) (B1 & B2 & B3 & B4 & B5).
  destruct r1, r2; cbn in *. subst. done.
Qed.
Lemma run_functions save follow fs : forall r evs tr data', r_log r = stamp clock 0 evs ->
  Forall (fun f => f_name f <> None) fs -> steps fs (r_data r) tr data' ->
  exists r', foldR (apply_transformation clock save follow) r (map Function fs) = Ok r' /\
    run_after save follow evs r tr data' r'.
Proof.
  induction fs as [|f fs IH]; intros r evs tr data' H Hn Hs; cbn [map foldR].
  - inversion Hs; subst. exists r. split; [done|]. unfold run_after. cbn. rewrite !app_nil_r. repeat split; try done; lia.
  - inversion Hs as [|f' fs' ? d1 ms tr' d2 H1 H2]; subst. inversion Hn as [|? ? Hf Hn']; subst.
    destruct (apply_function_Ok save follow r f evs d1 ms H Hf H1) as (r1 & E1 & K1 & K2 & K3 & K4 & K5).
    cbn [apply_transformation]. rewrite E1. cbn [bind]. rewrite <- K5 in H2.
    destruct (IH r1 _ tr' data' K1 Hn' H2) as (r' & E & L1 & L2 & L3 & L4 & L5).
    exists r'. split; [done|]. unfold run_after. rewrite L1, L2, L3, L4, L5, K2, K3, K4. cbn [events saved followed s_func s_after length].
    rewrite <- !app_assoc. repeat split; try done; lia.
Qed.
Lemma run_functions_inv save follow fs : forall r evs r', r_log r = stamp clock 0 evs ->
  foldR (apply_transformation clock save follow) r (map Function fs) = Ok r' ->
  exists tr, steps fs (r_data r) tr (r_data r').
Proof.
  induction fs as [|f fs IH]; intros r evs r' H E; cbn [map foldR] in E.
  - apply Ok_inj in E as <-. exists []. constructor.
  - apply bind_Ok in E as (r1 & E1 & E). cbn [apply_transformation] in E1.
    destruct (apply_function_inv _ _ _ _ _ E1 eq_refl) as (Hf & d1 & ms & H1).
    destruct (apply_function_Ok save follow r f evs d1 ms H Hf H1) as (r2 & E2 & K1 & K2 & K3 & K4 & K5).
    rewrite E1 in E2. apply Ok_inj in E2 as <-.
    destruct (IH r1 _ r' K1 E) as (tr & Htr). exists (Step f (r_data r) ms d1 :: tr). econstructor; [exact H1|]. by rewrite <- K5.
Qed.

Lemma validate_Ok b (l : list (item A)) : validate_configuration (Iterable b l) = Ok (Iterable b l) <->
  Forall (fun f => f_name f <> None) (unwrap_functions l).
Proof.
  cbn. split.
  - intros H. apply bind_Ok in H as (us & H & _). apply mapR_Ok in H.
    apply Forall_forall. intros f Hf. apply elem_of_list_lookup in Hf as (i & Hi).
    destruct (Forall2_lookup_l _ _ _ _ _ H Hi) as (u & _ & Hu). unfold get_function_meta in Hu. by destruct (f_name f).
  - intros H. assert (exists us, mapR (fun f => match get_function_meta f with Ok _ => Ok tt | Err _ => Err InvalidTransformationFunction end) (unwrap_functions l) = Ok us) as (us & ->); [|done].
    induction H as [|f fs Hf _ IH]; [by exists []|]. destruct IH as (us & IH). cbn. unfold get_function_meta at 1.
    destruct (f_name f); [|done]. cbn. rewrite IH. cbn. eauto.
Qed.
Lemma validate_Err b (l : list (item A)) : ~ Forall (fun f => f_name f <> None) (unwrap_functions l) ->
  validate_configuration (Iterable b l) = Err InvalidTransformationFunction.
Proof.
  intros H. cbn. destruct (mapR _ _) as [us|e] eqn:E.
  - exfalso. apply H. apply (validate_Ok b). cbn. by rewrite E.
  - cbn. f_equal. apply mapR_Err in E as (? & f & ? & _ & E & _). destruct (get_function_meta f); [done|]. by injection E as <-.
Qed.

Lemma system_model_flat dflt b fs uuid save follow data r : fs <> [] ->
  system_model clock dflt (Iterable b (map Function fs)) uuid (Ok save) follow data = Ok r <->
  Forall (fun f => f_name f <> None) fs /\
  exists tr data', steps fs data tr data' /\
    r_log r = stamp clock 0 (ReportStart uuid (length data) :: events 0 tr ++ [ReportEnd]) /\
    r_next r = length fs /\ r_saved r = saved save 0 tr ++ [(None, data')] /\
    r_followed r = followed follow 0 tr /\ r_data r = data'.
Proof.
  intros Hne.
  assert (forall fs data tr data', steps fs data tr data' -> length tr = length fs) as Hlen.
  { intros ? ? ? ?. induction 1; cbn; auto. }
  assert (forall tr data', Forall (fun f => f_name f <> None) fs -> steps fs data tr data' ->
    exists r', system_model clock dflt (Iterable b (map Function fs)) uuid (Ok save) follow data = Ok r' /\
    r_log r' = stamp clock 0 (ReportStart uuid (length data) :: events 0 tr ++ [ReportEnd]) /\
    r_next r' = length fs /\ r_saved r' = saved save 0 tr ++ [(None, data')] /\
    r_followed r' = followed follow 0 tr /\ r_data r' = data') as Hex.
  { intros tr data' Hn Hs. unfold system_model.
    assert (match Iterable b (map Function fs) with Iterable _ [] => dflt | _ => Iterable b (map Function fs) end
      = Iterable b (map Function fs)) as -> by (by destruct fs).
    assert (validate_configuration (Iterable b (map Function fs)) = Ok (Iterable b (map Function fs))) as ->.
    { apply validate_Ok. by rewrite unwrap_flat. }
    cbn [bind items].
    set (r0 := Run 0 [] [] [] data). destruct (log_spec (ReportStart uuid (length data)) r0 [] eq_refl) as (H1 & H2 & H3 & H4 & H5).
    set (r1 := log clock _ r0) in *.
    assert (steps fs (r_data r1) tr data') as Hs' by (by rewrite H5).
    destruct (run_functions save follow fs r1 _ tr data' H1 Hn Hs') as (r2 & E & L1 & L2 & L3 & L4 & L5).
    rewrite E. cbn [bind]. eexists. split; [reflexivity|].
    assert (r_log (save_result None r2) = stamp clock 0 ([ReportStart uuid (length data)] ++ events 0 tr)) as H6.
    { cbn [save_result r_log]. rewrite L1, H2. done. }
    destruct (log_spec ReportEnd (save_result None r2) _ H6) as (M1 & M2 & M3 & M4 & M5).
    rewrite M1, M2, M3, M4, M5. cbn [save_result r_next r_saved r_followed r_data]. rewrite L2, L3, L4, L5, H2, H3, H4.
    cbn [r0 r_next r_saved r_followed]. subst r0. cbn. repeat split; try done. by apply Hlen in Hs. }
  split.
  - intros H.
    assert (Forall (fun f => f_name f <> None) fs) as Hn.
    { unfold system_model in H. replace (match Iterable b (map Function fs) with Iterable _ [] => dflt | _ => Iterable b (map Function fs) end)
        with (Iterable b (map Function fs)) in H by (by destruct fs).
      destruct (decide (Forall (fun f => f_name f <> None) fs)) as [|Hnot]; [done|].
      rewrite (validate_Err b) in H; [done|]. by rewrite unwrap_flat. }
    split; [done|].
    assert (exists tr data', steps fs data tr data') as (tr & data' & Hs).
    { unfold system_model in H. replace (match Iterable b (map Function fs) with Iterable _ [] => dflt | _ => Iterable b (map Function fs) end)
        with (Iterable b (map Function fs)) in H by (by destruct fs).
      assert (validate_configuration (Iterable b (map Function fs)) = Ok (Iterable b (map Function fs))) as E.
      { apply validate_Ok. by rewrite unwrap_flat. }
      rewrite E in H. cbn [bind items] in H. apply bind_Ok in H as (r2 & H & _).
      destruct (log_spec (ReportStart uuid (length data)) (Run 0 [] [] [] data) [] eq_refl) as (H1 & H2 & H3 & H4 & H5).
      destruct (run_functions_inv _ _ _ _ _ _ H1 H) as (tr & Htr). rewrite H5 in Htr. eauto. }
    destruct (Hex tr data' Hn Hs) as (r' & E & K). rewrite H in E. apply Ok_inj in E as <-. eauto.
  - intros (Hn & tr & data' & Hs & K1 & K2 & K3 & K4 & K5).
    destruct (Hex tr data' Hn Hs) as (r' & E & L1 & L2 & L3 & L4 & L5). rewrite E. f_equal.
    destruct r, r'; cbn in *. congruence.
Qed.

(** ** The report *)
Lemma get_last {B} i (x : B) l : Forall (fun y => y.1 <> i) l -> get i (l ++ [(i, x)]) = Some x.
Proof.
  induction 1 as [|[j y] l Hj _ IH]; cbn; [by rewrite Nat.eqb_refl|]. cbn in Hj.
  by rewrite (proj2 (Nat.eqb_neq i j)) by congruence.
Qed.
Lemma put_last {B} i (x x' : B) l : Forall (fun y => y.1 <> i) l -> put i x' (l ++ [(i, x)]) = l ++ [(i, x')].
Proof.
  induction 1 as [|[j y] l Hj _ IH]; cbn; [by rewrite Nat.eqb_refl|]. cbn in Hj.
  rewrite (proj2 (Nat.eqb_neq i j)) by congruence. by rewrite IH.
Qed.
Lemma put_new {B} i (x : B) l : Forall (fun y => y.1 <> i) l -> put i x l = l ++ [(i, x)].
Proof.
  induction 1 as [|[j y] l Hj _ IH]; cbn; [done|]. cbn in Hj.
  rewrite (proj2 (Nat.eqb_neq i j)) by congruence. by rewrite IH.
Qed.
Lemma foldR_app {X Y} (g : Y -> X -> result Y) acc l k :
  foldR g acc (l ++ k) = bind (foldR g acc l) (fun acc => foldR g acc k).
Proof.
  revert acc. induction l as [|x l IH]; intros acc; cbn [app foldR bind]; [done|].
  destruct (g acc x); cbn [bind]; [apply IH|done].
Qed.

Lemma handle_messages f ms : forall k counts times fns i t0 l,
  Forall (fun y => y.1 <> i) fns -> Forall (message_fits f) ms ->
  let e := fun l => Entry t0 (if f_table f then Some l else None) (if f_table f then None else Some l) None in
  foldR handle_line (Page counts times (fns ++ [(i, e l)]) (Some i)) (stamp clock k (map Logged ms)) =
  Ok (Page counts times (fns ++ [(i, e (l ++ map message_data ms))]) (Some i)).
Proof.
  induction ms as [|m ms IH]; intros k counts times fns i t0 l Hfns Hms e; cbn [map stamp foldR].
  - by rewrite app_nil_r.
  - inversion Hms as [|? ? Hm Hms']; subst.
    assert (handle_line (Page counts times (fns ++ [(i, e l)]) (Some i)) (Logged m, clock k) =
      Ok (Page counts times (fns ++ [(i, e (l ++ [message_data m]))]) (Some i))) as ->.
    { unfold handle_line, current. cbn [fst snd pg_index pg_functions pg_counts pg_times].
      rewrite (get_last i (e l) fns Hfns). unfold message_fits in Hm. unfold e.
      destruct m as [d|d]; destruct (f_table f); try done;
        cbn [getkey bind en_tabledata en_listdata en_start en_end message_data]; by rewrite (put_last i _ _ fns Hfns). }
    cbn [bind]. unfold e. rewrite (IH (S k) counts times fns i t0 (l ++ [message_data m]) Hfns Hms').
    by rewrite <- app_assoc.
Qed.

Lemma handle_step i k (s : step A) counts times fns idx :
  Forall (fun y => y.1 <> i) fns -> Forall (message_fits (s_func s)) (s_messages s) ->
  foldR handle_line (Page (Some counts) (Some times) fns idx) (stamp clock k (step_events i s)) =
  Ok (Page (Some (counts ++ [(name_of (s_func s), length (s_after s))]))
           (Some (times ++ [(name_of (s_func s), clock (last_line k s))]))
           (fns ++ [(i, entry_of clock k s)]) (Some i)).
Proof.
  intros Hfns Hms. unfold step_events. cbn [stamp foldR].
  set (l0 := @nil string).
  assert (handle_line (Page (Some counts) (Some times) fns idx) (FunctionStart (meta_of (s_func s)) i (length (s_before s)), clock k)
    = Ok (Page (Some counts) (Some times) (fns ++ [(i, Entry (clock k) (if f_table (s_func s) then Some l0 else None)
            (if f_table (s_func s) then None else Some l0) None)]) (Some i))) as ->.
  { unfold handle_line. cbn [fst snd pg_functions pg_counts pg_times]. rewrite put_new by done. cbn [meta_of m_table].
    by destruct (f_table (s_func s)). }
  cbn [bind]. rewrite stamp_app, foldR_app.
  rewrite (handle_messages (s_func s) (s_messages s) (S k) (Some counts) (Some times) fns i (clock k) l0 Hfns Hms).
  cbn [bind stamp foldR]. unfold handle_line, current. cbn [fst snd pg_index pg_functions pg_counts pg_times getkey bind].
  rewrite get_last by done. cbn [getkey bind en_start en_tabledata en_listdata]. rewrite put_last by done.
  replace (S k + length (map Logged (s_messages s)))%nat with (last_line k s)
    by (unfold last_line; rewrite map_length; lia). done.
Qed.

Lemma handle_events tr : forall i k counts times fns idx,
  Forall (fun y => (y.1 < i)%nat) fns -> Forall (fun s => Forall (message_fits (s_func s)) (s_messages s)) tr ->
  foldR handle_line (Page (Some counts) (Some times) fns idx) (stamp clock k (events i tr)) =
  Ok (Page (Some (counts ++ map (fun s => (name_of (s_func s), length (s_after s))) tr))
           (Some (times ++ ends clock k tr)) (fns ++ entries clock i k tr)
           (match tr with [] => idx | _ => Some (i + length tr - 1)%nat end)).
Proof.
  induction tr as [|s tr IH]; intros i k counts times fns idx Hfns Hms.
  - cbn. by rewrite !app_nil_r.
  - inversion Hms as [|? ? Hm Hms']; subst. cbn [events]. rewrite stamp_app, foldR_app.
    rewrite handle_step; [|eapply Forall_impl; [exact Hfns|cbn; intros; lia]|done]. cbn [bind].
    assert (k + length (step_events i s) = S (last_line k s))%nat as Ek.
    { unfold step_events, last_line. cbn. rewrite app_length, map_length. cbn. lia. }
    rewrite Ek. rewrite IH; [|apply Forall_app; split; [eapply Forall_impl; [exact Hfns|cbn; intros; lia]|repeat constructor; cbn; lia]|done].
    cbn [map ends entries length]. rewrite <- !app_assoc. cbn [app].
    do 2 f_equal. destruct tr; cbn; f_equal; lia.
Qed.

Lemma isort_increasing {B} (l : list (nat * B)) i : (forall j x, l !! j = Some x -> x.1 = (i + j)%nat) ->
  isort (fun x y => (x.1 <=? y.1)%nat) l = l.
Proof.
  revert i. induction l as [|x l IH]; intros i H; [done|]. unfold isort in *. cbn [foldr].
  rewrite (IH (S i)) by (intros j y Hj; rewrite (H (S j) y Hj); lia).
  destruct l as [|y l]; [done|]. cbn [insert_sorted].
  rewrite (H O x eq_refl), (H 1%nat y eq_refl). by rewrite (proj2 (Nat.leb_le _ _)) by lia.
Qed.
Lemma entries_index tr : forall i k j x, entries clock i k tr !! j = Some x -> x.1 = (i + j)%nat.
Proof.
  induction tr as [|s tr IH]; intros i k [|j] x H; cbn in H; try done.
  - injection H as <-. cbn. lia.
  - apply IH in H. lia.
Qed.
Lemma ends_names k tr : map fst (ends clock k tr) = map (fun s => name_of (s_func s)) tr.
Proof. revert k. induction tr as [|s tr IH]; intros k; cbn; [done|]. by rewrite IH. Qed.
Lemma last_cons_app {B} (x y d : B) l : List.last (x :: l ++ [y]) d = y.
Proof. change (x :: l ++ [y]) with ((x :: l) ++ [y]). apply List.last_last. Qed.

Lemma report_run uuid count tr :
  Forall (fun s => Forall (message_fits (s_func s)) (s_messages s)) tr ->
  let log := ReportStart uuid count :: events 0 tr ++ [ReportEnd] in
  let last := S (length (events 0 tr)) in
  read_log (stamp clock 0 log) =
  Ok (Report (("Start"%string, count) :: map (fun s => (name_of (s_func s), length (s_after s))) tr)
        (map (fun x => (x.1, (x.2 - clock 0)%Qc)) (("Start"%string, clock 0) :: ends clock 1 tr ++ [("End"%string, clock last)]))
        (clock last - clock 0)%Qc (entries clock 0 1 tr)).
Proof.
  intros Hms log last. unfold read_log, log. cbn [stamp foldR handle_line page0 fst snd pg_functions pg_index bind].
  rewrite stamp_app, foldR_app. rewrite handle_events by done. cbn [bind stamp foldR handle_line fst snd pg_times pg_counts getkey app pg_functions].
  unfold handle_line. cbn [fst snd pg_times pg_counts getkey bind pg_functions app].
  rewrite (isort_increasing _ 0 (entries_index tr 0 1)). f_equal. f_equal.
  rewrite map_cons, map_app. cbn [map snd]. rewrite last_cons_app. done.
Qed.

Lemma events_length i tr : length (events i tr) = lines tr.
Proof.
  unfold lines. revert i. induction tr as [|s tr IH]; intros i; cbn; [done|].
  rewrite !app_length, IH, map_length. cbn. lia.
Qed.
Lemma entries_lookup tr : forall i k j s, tr !! j = Some s ->
  entries clock i k tr !! j = Some ((i + j)%nat, entry_of clock (k + lines (take j tr)) s).
Proof.
  unfold lines. induction tr as [|s' tr IH]; intros i k [|j] s H; cbn in H; try done.
  - injection H as ->. cbn. by rewrite !Nat.add_0_r.
  - cbn [entries take map sum_list lookup list_lookup]. change (list_lookup j ?l) with (l !! j).
    rewrite (IH (S i) _ j s H). cbn [map sum_list sum_list_with]. do 2 f_equal; [lia|]. f_equal. unfold last_line. unfold sum_list. cbn. lia.
Qed.
Lemma entries_length tr : forall i k, length (entries clock i k tr) = length tr.
Proof. induction tr; intros; cbn; auto. Qed.
End proofs.

(** ** Save strategies *)
Lemma digit_spec c : is_digit c -> digit c = Some (digit_value c).
Proof.
  unfold digit, is_digit, digit_value, nat_of_ascii. intros H.
  assert (Z.of_N (N_of_ascii c) = Z.of_nat (N.to_nat (N_of_ascii c))) as -> by lia.
  rewrite (proj2 (Z.leb_le _ _)), (proj2 (Z.leb_le _ _)) by lia. done.
Qed.
Lemma digits_after_decimal s : forall z, Forall is_digit s -> digits_after z s = Some (decimal z s).
Proof.
  induction s as [|c s IH]; intros z H; [done|]. inversion H; subst. cbn. rewrite digit_spec by done. by apply IH.
Qed.
Lemma digits_decimal s : s <> [] -> Forall is_digit s -> digits s = Some (decimal 0 s).
Proof.
  destruct s as [|c s]; [done|]. intros _ H. inversion H; subst. cbn [digits decimal]. rewrite digit_spec by done.
  by apply digits_after_decimal.
Qed.
Lemma lstrip_id c s : blank c = false -> lstrip (c :: s) = c :: s.
Proof. intros H. cbn. by rewrite H. Qed.
Lemma strip_id s : Forall (fun c => blank c = false) s -> strip s = s.
Proof.
  intros H. unfold strip. assert (forall l, Forall (fun c => blank c = false) l -> lstrip l = l) as E.
  { intros [|c l] Hl; [done|]. inversion Hl; subst. by apply lstrip_id. }
  rewrite (E s H), E by (by apply Forall_rev). apply rev_involutive.
Qed.
Lemma digit_not_blank c : is_digit c -> blank c = false.
Proof.
  unfold is_digit, blank, nat_of_ascii. intros H.
  set (n := N_of_ascii c) in *. destruct (N.leb_spec 9 n), (N.leb_spec n 13), (N.leb_spec 28 n), (N.leb_spec n 32); cbn; try done; lia.
Qed.
Lemma digit_not c d : is_digit c -> (nat_of_ascii d < 48 \/ 57 < nat_of_ascii d)%nat -> c <> d.
Proof. unfold is_digit. intros H1 H2 ->. lia. Qed.
Lemma pyint_writes s z : writes s z -> pyint s = Some z.
Proof.
  intros (ds & Hne & Hds & H). unfold pyint.
  assert (Forall (fun c => blank c = false) ds) as Hb by (eapply Forall_impl; [exact Hds|apply digit_not_blank]).
  assert (Forall (fun c => blank c = false) s) as Hs.
  { destruct H as [[[->| ->] _]|[-> _]]; [done| |]; constructor; done. }
  rewrite (strip_id s Hs). destruct H as [[[->| ->] ->]|[-> ->]].
  - destruct ds as [|c ds]; [done|]. inversion Hds as [|? ? Hc ?]; subst.
    rewrite !bool_decide_eq_false_2; [by apply digits_decimal| |]; apply digit_not; try done; vm_compute; lia.
  - rewrite bool_decide_eq_false_2 by done. rewrite bool_decide_eq_true_2 by done. by apply digits_decimal.
  - rewrite bool_decide_eq_true_2 by done. rewrite digits_decimal by done. done.
Qed.
Lemma writes_no_colon s z : writes s z -> colon ∉ s.
Proof.
  intros (ds & Hne & Hds & H).
  assert (colon ∉ ds) as Hc.
  { intros Hc. rewrite Forall_forall in Hds. apply Hds in Hc. revert Hc. unfold is_digit. vm_compute. lia. }
  destruct H as [[[->| ->] _]|[-> _]]; [done| |]; rewrite not_elem_of_cons; done.
Qed.
Lemma split_colons_one s : colon ∉ s -> split_colons s = [s].
Proof.
  induction s as [|c s IH]; [done|]. rewrite not_elem_of_cons. intros [Hc Hs]. cbn.
  rewrite bool_decide_eq_false_2 by congruence. by rewrite IH.
Qed.
Lemma split_colons_cons a s : colon ∉ a -> split_colons (a ++ colon :: s) = a :: split_colons s.
Proof.
  induction a as [|c a IH]; [done|]. rewrite not_elem_of_cons. intros [Hc Hs]. cbn [app split_colons].
  rewrite bool_decide_eq_false_2 by congruence. by rewrite IH.
Qed.

Lemma every_spec n : if (n <? 1)%Z then every n = Err ValueError
  else exists f, every n = Ok f /\ forall x, f x = true <-> (n | x)%Z.
Proof.
  unfold every. destruct (n <? 1)%Z eqn:E; [done|]. eexists. split; [done|]. intros x. cbn.
  rewrite Z.eqb_eq. apply Z.mod_divide. lia.
Qed.
Lemma in_range_positive a b c x : (0 < c)%Z -> in_range a b c x = true <-> exists k, (0 <= k)%Z /\ x = (a + k * c)%Z /\ (x < b)%Z.
Proof.
  intros Hc. unfold in_range. rewrite (proj2 (Z.ltb_lt _ _) Hc). rewrite !andb_true_iff, Z.leb_le, Z.ltb_lt, Z.eqb_eq.
  rewrite Z.mod_divide by lia. split.
  - intros [[H1 H2] [k Hk]]. exists k. split; [nia|]. split; lia.
  - intros (k & H1 & -> & H3). split; [nia|]. exists k. lia.
Qed.
Lemma in_range_negative a b c x : (c < 0)%Z -> in_range a b c x = true <-> exists k, (0 <= k)%Z /\ x = (a + k * c)%Z /\ (b < x)%Z.
Proof.
  intros Hc. unfold in_range. assert (0 <? c = false)%Z as -> by lia. rewrite !andb_true_iff, Z.leb_le, Z.ltb_lt, Z.eqb_eq.
  rewrite Z.mod_divide by lia. split.
  - intros [[H1 H2] [k Hk]]. exists k. split; [nia|]. split; lia.
  - intros (k & H1 & -> & H3). split; [nia|]. exists k. lia.
Qed.

Lemma strategy_number s z : writes s z -> save_strategy (Text s) = every z.
Proof.
  intros H. cbn. rewrite bool_decide_eq_false_2 by (by eapply writes_no_colon). by rewrite (pyint_writes s z H).
Qed.
Lemma strategy_two s t a b : writes s a -> writes t b ->
  save_strategy (Text (s ++ colon :: t)) = Ok (in_range a (b + 1) 1).
Proof.
  intros Ha Hb. cbn. rewrite bool_decide_eq_true_2 by (apply elem_of_app; right; left).
  rewrite split_colons_cons by (by eapply writes_no_colon). rewrite split_colons_one by (by eapply writes_no_colon).
  cbn. rewrite (pyint_writes s a Ha), (pyint_writes t b Hb). done.
Qed.
Lemma strategy_three s t u a b c : writes s a -> writes t b -> writes u c ->
  save_strategy (Text (s ++ colon :: t ++ colon :: u)) =
  if (c =? 0)%Z then Err ValueError else Ok (in_range a (b + 1) c).
Proof.
  intros Ha Hb Hc. cbn. rewrite bool_decide_eq_true_2 by (apply elem_of_app; right; left).
  rewrite !split_colons_cons by (by eapply writes_no_colon). rewrite split_colons_one by (by eapply writes_no_colon).
  cbn. rewrite (pyint_writes s a Ha), (pyint_writes t b Hb), (pyint_writes u c Hc). done.
Qed.

(** ** Wrapper *)
Lemma concat_mapR_Ok {X Y} (f : X -> result (list Y)) l ys :
  concat_mapR f l = Ok ys <-> exists yss, Forall2 (fun x y => f x = Ok y) l yss /\ ys = concat yss.
Proof.
  unfold concat_mapR. split.
  - intros H. destruct (mapR f l) as [yss|] eqn:E; [|done]. apply mapR_Ok in E. exists yss. split; [done|].
    cbn in H. by injection H.
  - intros (yss & H & ->). apply mapR_Ok in H. by rewrite H.
Qed.
Lemma concat_map_inl {X Y} (parts : list (list X)) : concat (map (map (@inl X Y)) parts) = map inl (concat parts).
Proof. induction parts as [|p parts IH]; [done|]. cbn. by rewrite map_app, IH. Qed.
Lemma wrapper_lists {X} (keys : X -> list string) func (p : X -> result bool) data out :
  (forall x r, func x = Ok r -> exists l, r = Many l) ->
  transformation_wrapper keys func (Some p) data = Ok out <->
  exists parts, Forall2 (fun x part => p x = Ok true /\ func x = Ok (Many part) \/ p x = Ok false /\ part = [x]) data parts /\
    out = map inl (concat parts).
Proof.
  intros Hf. cbn. rewrite concat_mapR_Ok. split.
  - intros (yss & H & ->).
    assert (exists parts, Forall2 (fun x part => p x = Ok true /\ func x = Ok (Many part) \/ p x = Ok false /\ part = [x]) data parts /\
      yss = map (map inl) parts) as (parts & Hp & ->).
    { induction H as [|x ys data yss Hx _ IH]; [by exists []|]. destruct IH as (parts & Hp & ->).
      apply bind_Ok in Hx as (b & Hb & Hx). destruct b.
      - destruct (func x) as [r|] eqn:Er; [|done]. destruct (Hf x r Er) as (l & ->). cbn in Hx. injection Hx as <-.
        exists (l :: parts). split; [|done]. constructor; [by left|done].
      - injection Hx as <-. exists ([x] :: parts). split; [|done]. constructor; [by right|done]. }
    exists parts. split; [done|]. apply concat_map_inl.
  - intros (parts & H & ->). exists (map (map inl) parts). split; [|by rewrite concat_map_inl].
    induction H as [|x part data parts Hx _ IH]; [constructor|]. cbn [map]. constructor; [|done].
    destruct Hx as [[-> ->]|[-> ->]]; done.
Qed.
Lemma wrapper_no_filter {X} (keys : X -> list string) func (data : list X) :
  transformation_wrapper keys func None data = transformation_wrapper keys func (Some (fun _ => Ok true)) data.
Proof. done. Qed.

(** ** Lines of the log *)
Section lines.
Context {A : Type} (clock : nat -> Qc).
Implicit Types (tr : list (step A)).
Lemma stamp_lookup l : forall k n e, l !! n = Some e -> stamp clock k l !! n = Some (e, clock (k + n)%nat).
Proof.
  induction l as [|x l IH]; intros k [|n] e H; cbn in *; try done.
  - injection H as ->. by rewrite Nat.add_0_r.
  - etransitivity; [exact (IH (S k) n e H)|]. do 3 f_equal. lia.
Qed.
Lemma events_app i tr1 tr2 : events i (tr1 ++ tr2) = events i tr1 ++ events (i + length tr1) tr2.
Proof.
  revert i. induction tr1 as [|s tr1 IH]; intros i; cbn.
  - by rewrite Nat.add_0_r.
  - rewrite IH, <- !app_assoc. do 5 f_equal. lia.
Qed.
Lemma lookup_S {B} (x : B) l i : (x :: l) !! S i = l !! i.
Proof. done. Qed.
Lemma entries_spec tr j (s : step A) : tr !! j = Some s ->
  let n := S (lines (take j tr)) in
  let m := (n + 1 + length (s_messages s))%nat in
  let logged := map message_data (s_messages s) in
  length (entries clock 0 1 tr) = length tr /\
  entries clock 0 1 tr !! j = Some (j,
    Entry (clock n) (if f_table (s_func s) then Some logged else None) (if f_table (s_func s) then None else Some logged)
      (Some ((clock m - clock n)%Qc, clock m, length (s_after s), name_of (s_func s), f_table (s_func s)))) /\
  stamp clock 0 (ReportStart "" 0 :: events 0 tr ++ [ReportEnd]) !! n =
    Some (FunctionStart (meta_of (s_func s)) j (length (s_before s)), clock n) /\
  stamp clock 0 (ReportStart "" 0 :: events 0 tr ++ [ReportEnd]) !! m =
    Some (FunctionEnd (meta_of (s_func s)) j (length (s_after s)), clock m).
Proof.
  intros H n m logged. split; [apply entries_length|].
  split; [by rewrite (entries_lookup clock tr 0 1 j s H)|].
  assert (j < length tr)%nat as Hlt by (by eapply lookup_lt_Some).
  assert (events 0 tr = events 0 (take j tr) ++ step_events j s ++ events (S j) (drop (S j) tr)) as E.
  { rewrite <- (take_drop_middle tr j s H) at 1. rewrite events_app. rewrite take_length_le by lia. done. }
  rewrite E.
  assert (length (events 0 (take j tr)) = lines (take j tr)) as El by apply events_length.
  split.
  - apply stamp_lookup. unfold n. rewrite lookup_S.
    rewrite <- app_assoc, lookup_app_r by lia. rewrite El, Nat.sub_diag. done.
  - change m with (0 + m)%nat at 2. apply stamp_lookup. unfold m, n. cbn [Nat.add]. rewrite lookup_S.
    rewrite <- !app_assoc, lookup_app_r by lia. rewrite El.
    replace (lines (take j tr) + 1 + length (s_messages s) - lines (take j tr))%nat with (S (length (s_messages s))) by lia.
    unfold step_events. cbn [app]. rewrite lookup_S.
    rewrite <- !app_assoc, lookup_app_r by (rewrite map_length; lia). rewrite map_length, Nat.sub_diag. done.
Qed.
Lemma ends_sorted_from tr : (forall i j, (i <= j)%nat -> (clock i <= clock j)%Qc) -> forall k,
  StronglySorted (fun x y => (x.2 <= y.2)%Qc) (ends clock k tr ++ [("End"%string, clock (k + lines tr)%nat)]) /\
  Forall (fun x => (clock k <= x.2)%Qc) (ends clock k tr ++ [("End"%string, clock (k + lines tr)%nat)]).
Proof.
  intros Hm. induction tr as [|s tr IH]; intros k; cbn [ends app].
  - split; [repeat constructor|]. constructor; [|done]. cbn. apply Hm. lia.
  - assert (lines (s :: tr) = 2 + length (s_messages s) + lines tr)%nat as El by (unfold lines; cbn; lia).
    destruct (IH (S (last_line k s))) as [IH1 IH2].
    replace (S (last_line k s) + lines tr)%nat with (k + lines (s :: tr))%nat in IH1, IH2
      by (rewrite El; unfold last_line; lia).
    assert (Forall (fun x => (clock (last_line k s) <= x.2)%Qc) (ends clock (S (last_line k s)) tr ++ [("End"%string, clock (k + lines (s :: tr))%nat)])) as H3.
    { eapply Forall_impl; [exact IH2|]. cbn. intros x Hx. eapply Qcle_trans; [|exact Hx]. apply Hm. lia. }
    split; [by constructor|]. constructor; [cbn; apply Hm; unfold last_line; lia|].
    eapply Forall_impl; [exact H3|]. cbn. intros x Hx. eapply Qcle_trans; [|exact Hx]. apply Hm. unfold last_line. lia.
Qed.
Lemma ends_sorted tr : (forall i j, (i <= j)%nat -> (clock i <= clock j)%Qc) ->
  StronglySorted (fun x y => (x.2 <= y.2)%Qc)
    (("Start"%string, clock 0%nat) :: ends clock 1 tr ++ [("End"%string, clock (S (lines tr)))]).
Proof.
  intros Hm. destruct (ends_sorted_from tr Hm 1) as [H1 H2]. constructor; [done|].
  eapply Forall_impl; [exact H2|]. cbn. intros x Hx. eapply Qcle_trans; [|exact Hx]. apply Hm. lia.
Qed.
End lines.
