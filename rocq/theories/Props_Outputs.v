(** C98: what model runs leave on the disk. *)
From stdpp Require Import gmap.
From Verif Require Import Base Types Runner Spec_Runner Runner_proofs Outputs Spec_Outputs Outputs_proofs Outputs2_proofs.

Section C98.
Context {A : Type} (before : func A -> list A -> list message) (clock : nat -> Qc).
(** A run of functions with names whose directory is a new one. *)
Context (dflt : item A) (b : bool) (fs : list (func A)) (uuid : string) (save : Z -> bool) (follow : option (A -> bool)) (data : list A).
Notation run_ops := (script before clock dflt (Iterable b (map Function fs)) uuid (Ok save) follow data).1.
Notation run_result := (script before clock dflt (Iterable b (map Function fs)) uuid (Ok save) follow data).2.
Notation "'right_files' d" := (forall f c, rd_files d !! f = Some c <-> exists x, c = Whole x /\ belongs fs data save follow f x) (at level 10).

(** Completed: log, report and exactly the files that belong. *)
Theorem C98_completed : fs <> [] -> Forall (fun f => f_name f <> None) fs ->
  forall id (w : gmap string (rundir A)) tr data', w !! id = None -> steps fs data tr data' ->
  Forall (fun s => Forall (message_fits (s_func s)) (s_messages s)) tr ->
  run_result = Ok data' /\ exists d rep, after_run id follow run_ops Ends w !! id = Some d /\
    rd_log d = Some (ReportStart uuid (length data) :: events 0 tr ++ [ReportEnd]) /\
    rd_assets d = true /\ rd_report d = Some (Some rep) /\
    read_log (stamp clock 0 (ReportStart uuid (length data) :: events 0 tr ++ [ReportEnd])) = Ok rep /\
    right_files d.
Proof. exact (completed before clock dflt b fs uuid save follow data). Qed.

(** A function raises: all that had been saved is kept, the log ends with what the function
    logged, there is no report. *)
Theorem C98_raised : fs <> [] -> Forall (fun f => f_name f <> None) fs ->
  forall id (w : gmap string (rundir A)) fs1 f fs2 tr data1 e, w !! id = None ->
  fs = fs1 ++ f :: fs2 -> steps fs1 data tr data1 -> f_run f data1 = Err e ->
  run_result = Err e /\ exists d, after_run id follow run_ops Ends w !! id = Some d /\
    rd_log d = Some (ReportStart uuid (length data) :: events 0 tr ++
      FunctionStart (meta_of f) (length fs1) (length data1) :: map Logged (before f data1)) /\
    rd_report d = None /\ right_files d.
Proof. exact (raised before clock dflt b fs uuid save follow data). Qed.

(** However it ends: whole files are the right ones, and at most one is not whole. *)
Theorem C98_files : fs <> [] -> Forall (fun f => f_name f <> None) fs ->
  forall id e (w : gmap string (rundir A)) d, w !! id = None -> after_run id follow run_ops e w !! id = Some d ->
  (forall f x, rd_files d !! f = Some (Whole x) -> belongs fs data save follow f x) /\
  (forall f g, rd_files d !! f = Some Partial -> rd_files d !! g = Some Partial -> f = g).
Proof.
  exact (fun Hne Hn id e w d Hw H => conj (fun f x => files_right before clock dflt b fs uuid save follow data Hne Hn id e w d f x Hw H)
    (fun f g => one_incomplete before clock dflt b fs uuid save follow data Hne Hn id e w d f g Hw H)).
Qed.

(** However it ends: the log is a beginning of the log of the run that is not stopped. *)
Theorem C98_log : fs <> [] -> Forall (fun f => f_name f <> None) fs ->
  forall id e (w : gmap string (rundir A)) d d' l, w !! id = None ->
  after_run id follow run_ops e w !! id = Some d -> after_run id follow run_ops Ends w !! id = Some d' ->
  rd_log d = Some l -> exists l', rd_log d' = Some l' /\ l `prefix_of` l'.
Proof. exact (log_so_far before clock dflt b fs uuid save follow data). Qed.

(** However it ends: if the log says that a function has ended, then its files are there
    and whole; if it says that the run has ended, all files are. *)
Theorem C98_log_after_files : fs <> [] -> Forall (fun f => f_name f <> None) fs ->
  forall id e (w : gmap string (rundir A)) d l f x, w !! id = None -> after_run id follow run_ops e w !! id = Some d ->
  rd_log d = Some l -> belongs fs data save follow f x ->
  (exists m i n, FunctionEnd m i n ∈ l /\ of_step i f) \/ ReportEnd ∈ l -> rd_files d !! f = Some (Whole x).
Proof.
  exact (fun Hne Hn id e w d l f x Hw H Hl Hb Hor => match Hor with
    | or_introl (ex_intro _ m (ex_intro _ i (ex_intro _ n (conj Hin Hs)))) =>
        function_ended before clock dflt b fs uuid save follow data Hne Hn id e w d l m i n f x Hw H Hl Hin Hs Hb
    | or_intror Hin => run_ended before clock dflt b fs uuid save follow data Hne Hn id e w d l f x Hw H Hl Hin Hb
    end).
Qed.

(** However it ends: a page of a report, even an empty one, is there only if all functions
    were run and everything was saved. *)
Theorem C98_report : fs <> [] -> Forall (fun f => f_name f <> None) fs ->
  forall id e (w : gmap string (rundir A)) d, w !! id = None -> after_run id follow run_ops e w !! id = Some d ->
  rd_report d <> None ->
  exists tr data', steps fs data tr data' /\
    rd_log d = Some (ReportStart uuid (length data) :: events 0 tr ++ [ReportEnd]) /\
    (forall rep, rd_report d = Some (Some rep) ->
       read_log (stamp clock 0 (ReportStart uuid (length data) :: events 0 tr ++ [ReportEnd])) = Ok rep) /\
    right_files d.
Proof. exact (reported before clock dflt b fs uuid save follow data). Qed.
End C98.

(** Directories of other runs stay as they are; an interrupt of a new run leaves all as it
    was, unless it comes while the directory is being made. *)
Theorem C98_others : forall {A : Type} id follow (ops : list (op A)) e (w : gmap string (rundir A)) id',
  id' <> id -> after_run id follow ops e w !! id' = w !! id'.
Proof. exact (fun A => after_run_other). Qed.
Theorem C98_interrupt : forall {A : Type} id follow (ops : list (op A)) n (w : gmap string (rundir A)),
  w !! id = None -> (length (setup (A := A) follow) <= n <= length ops)%nat -> after_run id follow ops (Interrupted n) w = w.
Proof. exact (fun A => after_interrupt). Qed.

(** In any history of runs with names of their own and of deletions of old directories,
    what is in the directory of a run is what it would be for this run alone. *)
Theorem C98_history : forall {A : Type} (w : gmap string (rundir A)) hs1 hs2 id follow (ops : list (op A)) e, w !! id = None ->
  Forall (fun h => match h with RunHappens id' _ _ _ => id' <> id | CleanupHappens _ => True end) (hs1 ++ hs2) ->
  Forall (fun h => match h with RunHappens _ _ _ _ => True | CleanupHappens old => id ∉ old end) hs2 ->
  foldl happens w (hs1 ++ RunHappens id follow ops e :: hs2) !! id = after_run id follow ops e ∅ !! id.
Proof. exact (fun A => history_own). Qed.

(** ** A run *)
Definition c98_double : func nat := Func (Some "double"%string) None None (fun l => Ok (map (fun n => 2 * n)%nat l, [ListElement "doubled"])).
Definition c98_drop : func nat := Func (Some "drop"%string) None (Some "rows"%string)
  (fun l => match l with [] => Err IndexError | _ :: l => Ok (l, [TableElement "gone"]) end).
Definition c98_before (_ : func nat) (_ : list nat) : list message := [ListElement "oh"].
Definition c98_script (fs : list (func nat)) := script c98_before (fun n => Q2Qc (inject_Z (Z.of_nat n))) (Iterable true [])
  (Iterable true (map Function fs)) "u" (Ok (fun i => (i mod 2 =? 0)%Z)) (Some (fun n => (5 <? n)%nat)).
Definition c98_disk : gmap string (rundir nat) := {["old"%string := empty_dir]}.
Definition c98_see (w : gmap string (rundir nat)) :=
  option_map (fun d => (length <$> rd_log d, rd_files d !! Final, rd_files d !! Intermediate 0 "double",
    rd_files d !! Intermediate 1 "drop", rd_files d !! Followed 0, rd_files d !! Followed 1, match rd_report d with Some (Some _) => 2 | Some None => 1 | None => 0 end)) (w !! "new"%string).

Example C98_completed_example :
  c98_see (after_run "new" (Some (fun n => (5 <? n)%nat)) (c98_script [c98_double; c98_drop] [1; 3; 4]%nat).1 Ends c98_disk) =
  Some (Some 8%nat, Some (Whole [6; 8]%nat), Some (Whole [2; 6; 8]%nat), None, Some (Whole [6; 8]%nat), Some (Whole [6; 8]%nat), 2).
Proof. vm_compute. reflexivity. Qed.
Example C98_completed_premises : exists tr data',
  steps [c98_double; c98_drop] [1; 3; 4]%nat tr data' /\ Forall (fun s => Forall (message_fits (s_func s)) (s_messages s)) tr /\
  Forall (fun f : func nat => f_name f <> None) [c98_double; c98_drop] /\ c98_disk !! "new"%string = None.
Proof. eexists _, _. split; [econstructor; [reflexivity|]; econstructor; [reflexivity|]; constructor|]. repeat constructor; done. Qed.
Example C98_raised_example :
  c98_see (after_run "new" (Some (fun n => (5 <? n)%nat)) (c98_script [c98_double; c98_drop; c98_drop] [3]%nat).1 Ends c98_disk) =
  Some (Some 9%nat, None, Some (Whole [6]%nat), None, Some (Whole [6]%nat), None, 0).
Proof. vm_compute. reflexivity. Qed.
(** Killed while the data after the first function, then the final data are written. *)
Example C98_files_example :
  c98_see (after_run "new" (Some (fun n => (5 <? n)%nat)) (c98_script [c98_double; c98_drop] [1; 3; 4]%nat).1 (Stopped 7) c98_disk) =
  Some (Some 3%nat, None, Some Partial, None, None, None, 0).
Proof. vm_compute. reflexivity. Qed.
Example C98_history_example :
  let ops := (c98_script [c98_double] [3]%nat).1 in
  let fo := Some (fun n => (5 <? n)%nat) in
  let w := foldl happens c98_disk [RunHappens "a" fo ops Ends; RunHappens "new" fo ops Ends; CleanupHappens ["a"%string; "old"%string];
             RunHappens "b" fo ops (Interrupted 4); RunHappens "c" fo ops (Stopped 4)] in
  c98_see w = Some (Some 5%nat, Some (Whole [6]%nat), Some (Whole [6]%nat), None, Some (Whole [6]%nat), None, 2) /\
  w !! "a"%string = None /\ w !! "b"%string = None /\ is_Some (w !! "c"%string).
Proof. vm_compute. repeat split; eauto. Qed.

(** ** Findings *)

(** "Interrupting will delete the partially completed report": it also deletes the final
    results that are complete, if it comes while the report is made. *)
Theorem C98_interrupt_keeps_results_refuted : exists n d,
  let ops := (c98_script [c98_double; c98_drop] [1; 3; 4]%nat).1 in
  does (take n ops) None = Some d /\ rd_files d !! Final = Some (Whole [6; 8]%nat) /\ List.last (default [] (rd_log d)) ReportEnd = ReportEnd /\
  after_run "new" (Some (fun n => (5 <? n)%nat)) ops (Interrupted n) c98_disk !! "new"%string = None.
Proof. exists 19%nat. eexists. split; [vm_compute; reflexivity|]. vm_compute. done. Qed.
(** A file with the name of the final results need not be one: it is written in place. *)
Theorem C98_final_results_whole_refuted : exists n d,
  after_run "new" (Some (fun n => (5 <? n)%nat)) (c98_script [c98_double; c98_drop] [1; 3; 4]%nat).1 (Stopped n) c98_disk !! "new"%string = Some d /\
  rd_files d !! Final = Some Partial.
Proof. exists 17%nat. eexists. split; [vm_compute; reflexivity|]. vm_compute. done. Qed.
(** An interrupt while the directory is made leaves it there. *)
Theorem C98_interrupt_early_refuted :
  after_run "new" (Some (fun n => (5 <? n)%nat)) (c98_script [c98_double] [1]%nat).1 (Interrupted 1) c98_disk !! "new"%string = Some empty_dir.
Proof. vm_compute. reflexivity. Qed.

(** ** Where *)

(** The directory of a run is made in a directory that is there and can be written to: the
    one named in the environment, or the one of the user. *)
Theorem C98_where : forall fs env base p, output_dir fs env base = Ok (Some p) ->
  (env = Some p /\ p <> ""%string \/ p = base) /\
  (fs !! p = Some (Dir true) \/ fs !! p = Some (Missing true)).
Proof. exact output_dir_where. Qed.
(** It is the one named in the environment whenever this is there or can be made. *)
Theorem C98_environment : forall fs p base,
  p <> ""%string -> fs !! p = Some (Dir true) \/ fs !! p = Some (Missing true) -> output_dir fs (Some p) base = Ok (Some p).
Proof. exact output_dir_env. Qed.
(** It is the one of the user if the one in the environment is not given, or is neither
    there nor can be made. *)
Theorem C98_fallback : forall fs env base,
  env = None \/ (exists p, env = Some p /\ (fs !! p = Some (Missing false) \/ fs !! p = Some NoDir \/ fs !! p = None)) ->
  fs !! base = Some (Dir true) \/ fs !! base = Some (Missing true) -> output_dir fs env base = Ok (Some base).
Proof. exact output_dir_fallback. Qed.
Example C98_where_example :
  let fs := {["/env"%string := Missing false; "/home"%string := Missing true]} in
  output_dir fs (Some "/env"%string) "/home" = Ok (Some "/home"%string) /\ output_dir fs (Some "/home"%string) "/home" = Ok (Some "/home"%string).
Proof. vm_compute. done. Qed.
(** If the one in the environment is there but cannot be written to there is no fallback:
    the run fails, after all data have been extracted. *)
Theorem C98_fallback_read_only_refuted : exists fs p base,
  fs !! p = Some (Dir false) /\ fs !! base = Some (Dir true) /\ output_dir fs (Some p) base = Ok None.
Proof. exists {["/env"%string := Dir false; "/home"%string := Dir true]}, "/env"%string, "/home"%string. vm_compute. done. Qed.

Print Assumptions C98_completed.
Print Assumptions C98_raised.
Print Assumptions C98_files.
Print Assumptions C98_log.
Print Assumptions C98_log_after_files.
Print Assumptions C98_report.
Print Assumptions C98_others.
Print Assumptions C98_interrupt.
Print Assumptions C98_history.
Print Assumptions C98_where.
Print Assumptions C98_environment.
Print Assumptions C98_fallback.
