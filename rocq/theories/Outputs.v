(** What a model run does to the disk: ocelot/model.py lines 34-143, ocelot/filesystem.py
    lines 38-59 and 123-172, ocelot/logger.py, ocelot/report.py lines 50-81.

    A run is a list of operations on its directory, each of which is done or not; writing
    a file is two of them, opening it (what is there is gone) and filling it.  Names of
    files are those of C55; the detailed log is left out.  Every run is in a process of
    its own (in one process the log of a run also gets the lines of later ones, C56).  An
    interrupt while the directory is deleted after an interrupt is not modelled. *)
From stdpp Require Import gmap.
From Verif Require Import Base Types Runner Spec_Runner.

(** filesystem.py lines 143-172: the files written by [save_intermediate_result], with and
    without the name of a function, and [save_specific_dataset]. *)
Inductive file := Intermediate (index : nat) (name : string) | Final | Followed (index : nat).
Global Instance file_eq_dec : EqDecision file.
Proof. solve_decision. Defined.
Global Instance file_countable : Countable file.
Proof.
  refine (inj_countable'
    (fun f => match f with Intermediate i n => inl (i, n) | Final => inr None | Followed i => inr (Some i) end)
    (fun x => match x with inl (i, n) => Intermediate i n | inr None => Final | inr (Some i) => Followed i end) _).
  by intros [].
Defined.

Section outputs.
Context {A : Type}.
Inductive content := Partial | Whole (data : list A).
(** [rd_report] is the page: [Some None] while it is empty. *)
Record rundir := RunDir {
  rd_log : option (list event);
  rd_files : gmap file content;
  rd_assets : bool;
  rd_report : option (option report) }.
Definition empty_dir : rundir := RunDir None ∅ false None.

Inductive op :=
  | MakeDir | MakeFollow | OpenLog | Line (e : event)
  | Open (f : file) | Save (f : file) (data : list A)
  | Assets | OpenReport | WriteReport (r : report).
Definition act (o : op) (d : rundir) : rundir :=
  match o with
  | MakeDir | MakeFollow => d
  | OpenLog => RunDir (Some []) (rd_files d) (rd_assets d) (rd_report d)
  | Line e => RunDir (option_map (fun l => l ++ [e]) (rd_log d)) (rd_files d) (rd_assets d) (rd_report d)
  | Open f => RunDir (rd_log d) (<[f := Partial]> (rd_files d)) (rd_assets d) (rd_report d)
  | Save f data => RunDir (rd_log d) (<[f := Whole data]> (rd_files d)) (rd_assets d) (rd_report d)
  | Assets => RunDir (rd_log d) (rd_files d) true (rd_report d)
  | OpenReport => RunDir (rd_log d) (rd_files d) (rd_assets d) (Some None)
  | WriteReport r => RunDir (rd_log d) (rd_files d) (rd_assets d) (Some (Some r))
  end.

(** ** What is done *)

(** [before f data]: what [f] logs on [data] before it raises an exception. *)
Context (before : func A -> list A -> list message) (clock : nat -> Qc).

Definition write (f : file) (data : list A) : list op := [Open f; Save f data].
(** model.py lines 43-68. *)
Definition function_ops (save : Z -> bool) (follow : option (A -> bool)) (index : nat) (f : func A) (data : list A)
  : list op * result (list A) :=
  match get_function_meta f with
  | Err e => ([], Err e)
  | Ok m =>
      let start := Line (FunctionStart m index (length data)) in
      match f_run f data with
      | Err e => (start :: map (fun m => Line (Logged m)) (before f data), Err e)
      | Ok (data', ms) =>
          (start :: map (fun m => Line (Logged m)) ms ++
           (if save (Z.of_nat index) then write (Intermediate index (m_name m)) data' else []) ++
           match follow with
           | Some p => match filterb p data' with [] => [] | l => write (Followed index) l end
           | None => []
           end ++ [Line (FunctionEnd m index (length data'))], Ok data')
      end
  end.
(** model.py lines 121-124 with 34-42. *)
Fixpoint items_ops (save : Z -> bool) (follow : option (A -> bool)) (index : nat) (l : list (item A)) (data : list A)
  : list op * result (list A) :=
  match l with
  | [] => ([], Ok data)
  | Iterable _ [] :: l => items_ops save follow index l data
  | Iterable _ (_ :: _) :: _ => ([], Err TypeError)
  | Function f :: l =>
      match function_ops save follow index f data with
      | (ops, Ok data') => let '(ops', r) := items_ops save follow (S index) l data' in (ops ++ ops', r)
      | (ops, Err e) => (ops, Err e)
      end
  end.
(** The lines of the log written by operations. *)
Definition lines_of (ops : list op) : list event :=
  flat_map (fun o => match o with Line e => [e] | _ => [] end) ops.
(** filesystem.py lines 123-141, [OutputDir]. *)
Definition setup (follow : option (A -> bool)) : list op :=
  MakeDir :: match follow with Some _ => [MakeFollow] | None => [] end.
(** model.py lines 71-137, [system_model], after extraction: what is done until it
    returns or raises. *)
Definition script (default config : item A) (uuid : string) (strategy : result (Z -> bool)) (follow : option (A -> bool))
    (data : list A) : list op * result (list A) :=
  let config := match config with Iterable _ [] => default | _ => config end in
  match validate_configuration config with
  | Err e => ([], Err e)
  | Ok config =>
      let start := [OpenLog; Line (ReportStart uuid (length data))] in
      match strategy with
      | Err e => (setup follow ++ start, Err e)
      | Ok save =>
          match items_ops save follow 0 (items config) data with
          | (ops, Err e) => (setup follow ++ start ++ ops, Err e)
          | (ops, Ok data') =>
              let ops := start ++ ops ++ write Final data' ++ [Line ReportEnd] in
              match read_log (stamp clock 0 (lines_of ops)) with
              | Err e => (setup follow ++ ops, Err e)
              | Ok rep => (setup follow ++ ops ++ [Assets; OpenReport; WriteReport rep], Ok data')
              end
          end
      end
  end.

(** ** How it ends *)

(** By itself; by an interrupt after [n] operations; or by anything else that stops it
    there: the process is killed, an operation fails. *)
Inductive ending := Ends | Interrupted (n : nat) | Stopped (n : nat).
Notation disk := (gmap string rundir).
Definition does (ops : list op) (o : option rundir) : option rundir :=
  foldl (fun d o => match o with MakeDir => Some (default empty_dir d) | _ => option_map (act o) d end) o ops.
(** model.py lines 139-143: an interrupt after [OutputDir] has been made deletes the
    directory. *)
Definition after_run (id : string) (follow : option (A -> bool)) (ops : list op) (e : ending) (w : disk) : disk :=
  match e with
  | Ends => partial_alter (does ops) id w
  | Stopped n => partial_alter (does (take n ops)) id w
  | Interrupted n =>
      if (length (setup follow) <=? n)%nat && (n <=? length ops)%nat then delete id (partial_alter (does (take n ops)) id w)
      else partial_alter (does (take n ops)) id w
  end.

(** A history of runs and of deletions of directories, as by [cleanup_data_directory]. *)
Inductive happening :=
  | RunHappens (id : string) (follow : option (A -> bool)) (ops : list op) (e : ending)
  | CleanupHappens (old : list string).
Definition happens (w : disk) (h : happening) : disk :=
  match h with
  | RunHappens id follow ops e => after_run id follow ops e w
  | CleanupHappens old => foldr delete w old
  end.
End outputs.
Arguments content : clear implicits.
Arguments rundir : clear implicits.
Arguments op : clear implicits.
Arguments happening : clear implicits.

(** ** Where the directory is made *)

(** What is known of a path. *)
Inductive path_state := Missing (creatable : bool) | Dir (writable : bool) | NoDir.
(** filesystem.py lines 38-42, [create_dir]. *)
Definition create_dir (fs : gmap string path_state) (p : string) : result (gmap string path_state) :=
  match fs !! p with
  | Some (Dir _) => Ok fs
  | Some (Missing true) => Ok (<[p := Dir true]> fs)
  | _ => Err OSError
  end.
(** filesystem.py lines 49-59, [get_output_directory]; [base] is "model-runs" in the
    directory for data of the user. *)
Definition get_output_directory (fs : gmap string path_state) (env : option string) (base : string)
  : result (string * gmap string path_state) :=
  let fallback := let? fs := create_dir fs base in Ok (base, fs) in
  match env with
  | None => fallback
  | Some p => match create_dir fs p with
              | Ok fs => if (p =? "")%string then fallback else Ok (p, fs)
              | Err _ => fallback
              end
  end.
(** filesystem.py lines 126-141, [OutputDir()]: the directory of the run is made in it;
    [None] is OutputDirectoryError. *)
Definition output_dir (fs : gmap string path_state) (env : option string) (base : string) : result (option string) :=
  let? (p, fs) := get_output_directory fs env base in
  Ok (match fs !! p with Some (Dir true) => Some p | _ => None end).
