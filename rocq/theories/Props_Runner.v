(** C51, C52, C53, C56: the runner. *)
From Coq Require Import Ascii.
From Verif Require Import Base Types Strings Formulas Cutoff Runner Spec_Runner Runner_proofs.

(** ** C51 *)

(** Nesting does not matter, the order is kept. *)
Theorem C51_unwrap : forall A (fs : list (func A)) pre mid post b,
  unwrap_functions (map Function fs) = fs /\
  unwrap_functions (pre ++ Iterable b mid :: post) = unwrap_functions (A := A) (pre ++ mid ++ post).
Proof. intros A fs pre mid post b. split; [apply unwrap_flat|apply unwrap_nested]. Qed.
Print Assumptions C51_unwrap.

(** A collection is called like its functions one after another; what they log is
    logged in the same order. *)
Theorem C51_call : forall A (l : list (item A)) data data' ms,
  call (collection l) data = Ok (data', ms) <->
  exists tr, steps (unwrap_functions l) data tr data' /\ ms = flat_map s_messages tr.
Proof. intros A l data data' ms. rewrite call_collection. apply go_Ok. Qed.
Print Assumptions C51_call.

(** It raises what the first failing function raises. *)
Theorem C51_call_error : forall A (l : list (item A)) data e,
  call (collection l) data = Err e <->
  exists fs1 f fs2 tr data1, unwrap_functions l = fs1 ++ f :: fs2 /\ steps fs1 data tr data1 /\ f_run f data1 = Err e.
Proof. intros A l data e. rewrite call_collection. apply go_Err. Qed.
Print Assumptions C51_call_error.

(** So does the system model, for a collection or a list of functions, not empty: each
    function runs once, is numbered and logged, and results are saved as the strategy
    says. *)
Theorem C51_system_model : forall A clock default b (fs : list (func A)) uuid save follow data r, fs <> [] ->
  system_model clock default (Iterable b (map Function fs)) uuid (Ok save) follow data = Ok r <->
  Forall (fun f => f_name f <> None) fs /\
  exists tr data', steps fs data tr data' /\
    r_log r = stamp clock 0 (ReportStart uuid (length data) :: events 0 tr ++ [ReportEnd]) /\
    r_next r = length fs /\ r_saved r = saved save 0 tr ++ [(None, data')] /\
    r_followed r = followed follow 0 tr /\ r_data r = data'.
Proof. intros A. exact (@system_model_flat A). Qed.
Print Assumptions C51_system_model.

(** A function without a name is found before anything runs, however deeply nested. *)
Theorem C51_validate : forall A b (l : list (item A)),
  (Forall (fun f => f_name f <> None) (unwrap_functions l) -> validate_configuration (Iterable b l) = Ok (Iterable b l)) /\
  (~ Forall (fun f => f_name f <> None) (unwrap_functions l) ->
   validate_configuration (Iterable b l) = Err InvalidTransformationFunction).
Proof. intros A b l. split; [apply validate_Ok|apply validate_Err]. Qed.
Print Assumptions C51_validate.

Definition adds (s : string) (n : nat) : func nat :=
  Func (Some s) None (Some "columns"%string) (fun data => Ok (data ++ [n], [TableElement s])).
Definition ex_nested : list (item nat) :=
  [Function (adds "a" 1); collection [Function (adds "b" 2); Iterable false [collection [Function (adds "c" 3)]; Function (adds "d" 4)]]].
Example ex_unwrapped : unwrap_functions ex_nested = [adds "a" 1; adds "b" 2; adds "c" 3; adds "d" 4].
Proof. reflexivity. Qed.
Example ex_called : call (collection ex_nested) [0]%nat =
  Ok ([0; 1; 2; 3; 4]%nat, [TableElement "a"; TableElement "b"; TableElement "c"; TableElement "d"]).
Proof. reflexivity. Qed.
Definition fails : func nat := Func (Some "f"%string) None None (fun _ => Err ZeroProduction).
Example ex_failed : call (collection (ex_nested ++ [Function fails])) [0]%nat = Err ZeroProduction.
Proof. reflexivity. Qed.
Example ex_system_model : fmapR (fun r => (r_data r, r_next r, r_saved r, r_followed r))
    (system_model (fun n => Qcint (Z.of_nat n)) (collection []) (collection ex_nested) "id" (save_strategy (Text (chars "1:2"))) (Some Nat.even) [0; 7]%nat) =
  Ok ([0; 7; 1; 2; 3; 4]%nat, 4%nat,
    [(Some (1, "b"%string), [0; 7; 1; 2]); (Some (2, "c"%string), [0; 7; 1; 2; 3]); (None, [0; 7; 1; 2; 3; 4])]%nat,
    [(0, [0]); (1, [0; 2]); (2, [0; 2]); (3, [0; 2; 4])]%nat).
Proof. by_compute. Qed.
Example ex_no_name : validate_configuration (collection [Iterable false [Function (Func None None None (fun data : list nat => Ok (data, [])))]])
  = Err InvalidTransformationFunction.
Proof. reflexivity. Qed.

(** A collection inside a list is accepted, and then stops the run: the recursive call
    of [apply_transformation] lacks an argument. *)
Theorem C51_nested_refuted : exists (config : item nat) data data' ms,
  validate_configuration config = Ok config /\ call (collection [config]) data = Ok (data', ms) /\
  forall clock default uuid save follow,
    system_model clock default config uuid (Ok save) follow data = Err TypeError.
Proof. exists (Iterable false [collection ex_nested]), [0%nat]. eexists _, _. split; [reflexivity|]. split; reflexivity. Qed.
Print Assumptions C51_nested_refuted.

(** [insert] does not unwrap: after it the collection can be called, but not run. *)
Theorem C51_insert_refuted : exists (c : item nat) data data' ms,
  collection_insert 1 (collection ex_nested) (collection [Function (adds "x" 9)]) = Ok c /\
  call c data = Ok (data', ms) /\
  forall clock default uuid save follow, system_model clock default c uuid (Ok save) follow data = Err TypeError.
Proof. eexists _, [0%nat], _, _. split; [reflexivity|]. split; reflexivity. Qed.
Print Assumptions C51_insert_refuted.

(** ** C52 *)

(** With functions that return lists of datasets. *)
Theorem C52_wrapped : forall X (keys : X -> list string) func (p : X -> result bool) data out,
  (forall x r, func x = Ok r -> exists l, r = Many l) ->
  transformation_wrapper keys func (Some p) data = Ok out <->
  exists parts, Forall2 (fun x part => p x = Ok true /\ func x = Ok (Many part) \/ p x = Ok false /\ part = [x]) data parts /\
    out = map inl (concat parts).
Proof. intros X. exact (@wrapper_lists X). Qed.
Print Assumptions C52_wrapped.

(** Without a filter all are selected. *)
Theorem C52_unfiltered : forall X (keys : X -> list string) func data out,
  (forall x r, func x = Ok r -> exists l, r = Many l) ->
  transformation_wrapper keys func None data = Ok out <->
  exists parts, Forall2 (fun x part => func x = Ok (Many part)) data parts /\ out = map inl (concat parts).
Proof.
  intros X keys func data out H. rewrite wrapper_no_filter, wrapper_lists by done.
  split; intros (parts & Hp & ->); exists parts; (split; [|done]); (eapply Forall2_impl; [exact Hp|]); cbn; naive_solver.
Qed.
Print Assumptions C52_unfiltered.

(** The wrapper used in the model of the allocation is this one. *)
Theorem C52_allocation : forall keys func p data,
  transformation_wrapper keys (fun ds => fmapR Many (func ds)) (Some p) data = fmapR (map inl) (wrapped func p data).
Proof.
  intros keys func p data. unfold wrapped. cbn. unfold concat_mapR.
  set (F := fun ds => let? b := p ds in if b then func ds else Ok [ds]).
  rewrite (mapR_ext _ (fun x => fmapR (map inl) (F x))).
  - induction data as [|x data IH]; [done|]. cbn [mapR]. destruct (F x) as [l|]; [|done]. cbn [fmapR bind].
    destruct (mapR (fun x => fmapR (map inl) (F x)) data), (mapR F data); cbn in *; try done.
    injection IH as IH. by rewrite IH, map_app.
  - intros x _. unfold F. destruct (p x) as [[]|]; [|done|done]. cbn. by destruct (func x).
Qed.
Print Assumptions C52_allocation.

Definition ex_func (n : nat) : result (returned nat) := Ok (Many [n; n + 10]%nat).
Example ex_wrapped : transformation_wrapper (fun _ => ["k"%string]) ex_func (Some (fun n => Ok (Nat.even n))) [1; 2; 3; 4]%nat
  = Ok (map inl [1; 2; 12; 3; 4; 14]%nat).
Proof. reflexivity. Qed.
Example ex_wrapped_many : forall x r, ex_func x = Ok r -> exists l, r = Many l.
Proof. intros x r [= <-]. eauto. Qed.

(** A function that returns a dataset instead of a list: the keys of the dataset take
    its place. *)
Theorem C52_single_refuted : exists (func : nat -> result (returned nat)) keys,
  (forall x, func x = Ok (Single x)) /\
  transformation_wrapper keys func None [5%nat] = Ok [inr "name"; inr "exchanges"]%string.
Proof. exists (fun x => Ok (Single x)), (fun _ => ["name"; "exchanges"]%string). split; reflexivity. Qed.
Print Assumptions C52_single_refuted.

(** ** C53 *)

(** A number: all multiples. *)
Theorem C53_number : forall n,
  ((n < 1)%Z -> save_strategy (Number n) = Err ValueError) /\
  ((1 <= n)%Z -> exists f, save_strategy (Number n) = Ok f /\ forall x, f x = true <-> (n | x)%Z).
Proof. intros n. pose proof (every_spec n) as H. cbn [save_strategy]. destruct (n <? 1)%Z eqn:E; split; intros; done || lia. Qed.
Print Assumptions C53_number.

Theorem C53_text : forall s z, writes s z -> save_strategy (Text s) = save_strategy (Number z).
Proof. exact strategy_number. Qed.
Print Assumptions C53_text.

(** "a:b": from a to b. *)
Theorem C53_range : forall s t a b, writes s a -> writes t b ->
  exists f, save_strategy (Text (s ++ colon :: t)) = Ok f /\ forall x, f x = true <-> (a <= x <= b)%Z.
Proof.
  intros s t a b Ha Hb. eexists. split; [by apply strategy_two|]. intros x. rewrite in_range_positive by done. split.
  - intros (k & ? & -> & ?). lia.
  - intros H. exists (x - a)%Z. lia.
Qed.
Print Assumptions C53_range.

(** "a:b:c" with a positive step. *)
Theorem C53_step : forall s t u a b c, writes s a -> writes t b -> writes u c -> (0 < c)%Z ->
  exists f, save_strategy (Text (s ++ colon :: t ++ colon :: u)) = Ok f /\
    forall x, f x = true <-> exists k, (0 <= k)%Z /\ x = (a + k * c)%Z /\ (x <= b)%Z.
Proof.
  intros s t u a b c Ha Hb Hc Hpos. eexists. split.
  - rewrite (strategy_three s t u a b c) by done. by rewrite (proj2 (Z.eqb_neq _ _)) by lia.
  - intros x. rewrite in_range_positive by done. split; intros (k & ? & -> & ?); exists k; lia.
Qed.
Print Assumptions C53_step.

Theorem C53_step_zero : forall s t u a b, writes s a -> writes t b -> writes u 0 ->
  save_strategy (Text (s ++ colon :: t ++ colon :: u)) = Err ValueError.
Proof. intros s t u a b Ha Hb Hc. by rewrite (strategy_three s t u a b 0) by done. Qed.
Print Assumptions C53_step_zero.

Example ex_writes : writes (chars "2") 2 /\ writes (chars "+8") 8 /\ writes (chars "-30") (-30).
Proof.
  split; [|split].
  - exists (chars "2"). split; [done|]. split; [by_compute|]. left. split; [by left|done].
  - exists (chars "8"). split; [done|]. split; [by_compute|]. left. split; [by right|done].
  - exists (chars "30"). split; [done|]. split; [by_compute|]. by right.
Qed.
Example ex_strategy : exists f, save_strategy (Text (chars "2:8:3")) = Ok f /\
  filterb f [0; 1; 2; 3; 4; 5; 6; 7; 8; 9; 10; 11]%Z = [2; 5; 8]%Z.
Proof. eexists. split; [reflexivity|]. by_compute. Qed.
Example ex_strategy_number : exists f, save_strategy (Text (chars "3")) = Ok f /\
  filterb f [0; 1; 2; 3; 4; 5; 6]%Z = [0; 3; 6]%Z.
Proof. eexists. split; [reflexivity|]. by_compute. Qed.

(** The documented default is every five functions; it is every thousand. *)
Theorem C53_default_refuted : exists f, save_strategy Nothing = Ok f /\ f 5%Z = false /\
  forall x, f x = true <-> (1000 | x)%Z.
Proof.
  eexists. split; [reflexivity|]. split; [reflexivity|]. intros x. rewrite Z.eqb_eq. by apply Z.mod_divide.
Qed.
Print Assumptions C53_default_refuted.

(** With a negative step the end is not included. *)
Theorem C53_negative : forall s t u a b c, writes s a -> writes t b -> writes u c -> (c < 0)%Z ->
  exists f, save_strategy (Text (s ++ colon :: t ++ colon :: u)) = Ok f /\ f b = false /\
    forall x, f x = true <-> exists k, (0 <= k)%Z /\ x = (a + k * c)%Z /\ (b + 1 < x)%Z.
Proof.
  intros s t u a b c Ha Hb Hc Hneg. eexists. split; [|split].
  - rewrite (strategy_three s t u a b c) by done. by rewrite (proj2 (Z.eqb_neq _ _)) by lia.
  - apply not_true_is_false. rewrite in_range_negative by done. intros (k & _ & _ & H). lia.
  - intros x. by apply in_range_negative.
Qed.
Print Assumptions C53_negative.
Theorem C53_negative_refuted : exists f, save_strategy (Text (chars "8:2:-3")) = Ok f /\
  filterb f [0; 1; 2; 3; 4; 5; 6; 7; 8; 9]%Z = [5; 8]%Z /\ f 2%Z = false.
Proof. eexists. split; [reflexivity|]. split; by_compute. Qed.
Print Assumptions C53_negative_refuted.

(** ** C56 *)

(** The report of the log of a run: one entry for each function, in order. *)
Theorem C56_report : forall A clock uuid count (tr : list (step A)),
  Forall (fun s => Forall (message_fits (s_func s)) (s_messages s)) tr ->
  let log := ReportStart uuid count :: events 0 tr ++ [ReportEnd] in
  let last := S (lines tr) in
  read_log (stamp clock 0 log) =
  Ok (Report (("Start"%string, count) :: map (fun s => (name_of (s_func s), length (s_after s))) tr)
        (map (fun x => (x.1, (x.2 - clock 0%nat)%Qc)) (("Start"%string, clock 0%nat) :: ends clock 1 tr ++ [("End"%string, clock last)]))
        (clock last - clock 0%nat)%Qc (entries clock 0 1 tr)).
Proof. intros A clock uuid count tr H log last. unfold last. rewrite <- (events_length 0 tr). by apply report_run. Qed.
Print Assumptions C56_report.

(** The entry of step [j], which starts in line [n] of the log: what it logged, how many
    datasets there were afterwards, when it started and ended. *)
Theorem C56_entries : forall A clock (tr : list (step A)) j s, tr !! j = Some s ->
  let n := S (lines (take j tr)) in
  let m := (n + 1 + length (s_messages s))%nat in
  let logged := map message_data (s_messages s) in
  length (entries clock 0 1 tr) = length tr /\
  entries clock 0 1 tr !! j = Some (j,
    Entry (clock n) (if f_table (s_func s) then Some logged else None) (if f_table (s_func s) then None else Some logged)
      (Some ((clock m - clock n)%Qc, clock m, length (s_after s), name_of (s_func s), f_table (s_func s)))) /\
  stamp clock 0 (ReportStart "" 0 :: events 0 tr ++ [ReportEnd]) !! n =
    Some (FunctionStart (meta_of (s_func s)) j (length (s_before s)), clock n) /\
  stamp clock 0 (ReportStart "" 0 :: events 0 tr ++ [ReportEnd]) !! m =
    Some (FunctionEnd (meta_of (s_func s)) j (length (s_after s)), clock m).
Proof. exact @entries_spec. Qed.
Print Assumptions C56_entries.

(** Times do not decrease if the clock does not. *)
Theorem C56_times : forall A clock (tr : list (step A)), (forall i j, (i <= j)%nat -> (clock i <= clock j)%Qc) ->
  StronglySorted (fun x y => (x.2 <= y.2)%Qc)
    (("Start"%string, clock 0%nat) :: ends clock 1 tr ++ [("End"%string, clock (S (lines tr)))]) /\
  map fst (ends clock 1 tr) = map (fun s => name_of (s_func s)) tr.
Proof. intros A clock tr H. split; [by apply ends_sorted|apply ends_names]. Qed.
Print Assumptions C56_times.

Definition ex_trace : list (step nat) :=
  [Step (adds "a" 1) [0] [TableElement "x"; TableElement "y"] [0; 1];
   Step (Func (Some "b"%string) None None (fun _ => Err ValueError)) [0; 1] [ListElement "z"] [0]]%nat.
Example ex_fits : Forall (fun s => Forall (message_fits (s_func s)) (s_messages s)) ex_trace.
Proof. repeat constructor. Qed.
Example ex_report : let clock n := Qcint (Z.of_nat n * 3) in
  fmapR (fun r => (rep_counts r, map fst (rep_times r), rep_elapsed r, map (fun e => (e.1, en_tabledata e.2, en_listdata e.2)) (rep_functions r)))
    (read_log (stamp clock 0 (ReportStart "id" 1 :: events 0 ex_trace ++ [ReportEnd]))) =
  Ok ([("Start", 1); ("a", 2); ("b", 1)]%nat, ["Start"; "a"; "b"; "End"], Qcint 24,
      [(0%nat, Some ["x"; "y"], None); (1%nat, None, Some ["z"])])%string.
Proof. by_compute. Qed.
Example ex_clock : forall i j, (i <= j)%nat -> (Qcint (Z.of_nat i * 3) <= Qcint (Z.of_nat j * 3))%Qc.
Proof. intros i j H. unfold Qcint. apply qc_le. rewrite !this_Q2Qc. unfold Qle. cbn. lia. Qed.
Example ex_clock_steps : ex_trace !! 1%nat <> None /\ length ex_trace = 2%nat.
Proof. split; done. Qed.

(** There is one time more than there are counts. *)
Theorem C56_lengths_refuted : exists (tr : list (step nat)) clock rep,
  read_log (stamp clock 0 (ReportStart "id" 1 :: events 0 tr ++ [ReportEnd])) = Ok rep /\
  length (rep_times rep) = S (length (rep_counts rep)).
Proof. exists ex_trace, (fun n => Qcint (Z.of_nat n)). eexists. split; [vm_compute; reflexivity|by_compute]. Qed.
Print Assumptions C56_lengths_refuted.

(** A row of a table logged by a function without a table: the run is fine, the report
    fails. *)
Theorem C56_table_refuted : exists (f : func nat) r, forall clock default, let run := system_model clock default (Iterable true [Function f]) "id" (Ok (fun _ => false)) None [] in
  run = Ok (r clock) /\ read_log (r_log (r clock)) = Err (KeyError "tabledata").
Proof.
  exists (Func (Some "f"%string) None None (fun data => Ok (data, [TableElement "x"]))). eexists (fun clock => _).
  intros clock default. split; reflexivity.
Qed.
Print Assumptions C56_table_refuted.

(** Rows are shown as they were logged, not sorted. *)
Theorem C56_sorted_refuted : exists (tr : list (step nat)) rep e,
  read_log (stamp (fun n => Qcint (Z.of_nat n)) 0 (ReportStart "id" 1 :: events 0 tr ++ [ReportEnd])) = Ok rep /\
  rep_functions rep = [(0%nat, e)] /\ en_tabledata e = Some ["b"; "a"]%string.
Proof.
  exists [Step (adds "a" 1) [] [TableElement "b"; TableElement "a"] []]. eexists _, _.
  split; [vm_compute; reflexivity|]. split; reflexivity.
Qed.
Print Assumptions C56_sorted_refuted.

(** After a second run in the same process its lines are also in the log of the first. *)
Theorem C56_second_run : forall log1 log2, logged_run log2 (logged_run log1 []) = [log1 ++ log2; log2].
Proof. reflexivity. Qed.
Print Assumptions C56_second_run.
Theorem C56_second_run_refuted : exists clock (tr1 tr2 : list (step nat)) first rep,
  let log tr := stamp clock 0 (ReportStart "id" 1 :: events 0 tr ++ [ReportEnd]) in
  logged_run (log tr2) (logged_run (log tr1) []) !! 0%nat = Some first /\
  read_log first = Ok rep /\ map fst (rep_counts rep) = ["Start"; "b"]%string.
Proof.
  exists (fun n => Qcint (Z.of_nat n)), [Step (adds "a" 1) [] [] []], [Step (adds "b" 1) [] [] []].
  eexists _, _. split; [reflexivity|]. split; [vm_compute; reflexivity|by_compute].
Qed.
Print Assumptions C56_second_run_refuted.
