(** Model of the runner: collection.py, wrapper.py, utils.py, results.py, model.py,
    logger.py and report.py.

    Data are lists of anything ([A] for datasets).  Transformation functions are
    arbitrary functions on data which may raise an exception and which log messages.
    Simplifications: names of configurations ("cutoff", ...) are looked up in Configuration.v; no
    KeyboardInterrupt; JSON and HTML are not rendered; the clock is an argument,
    [clock n] is the time at which line [n] of the log is formatted; the detailed log
    is left out. *)
From Coq Require Import Ascii.
From stdpp Require Export gmap.
From Verif Require Import Base Types Strings Formulas.

(** What a function logs with [logger.info({'type': ..., 'data': ...})]. *)
Inductive message := TableElement (data : string) | ListElement (data : string).

Section runner.
Context {A : Type}.

(** utils.py lines 8-21: [f_name] is [__name__], missing from some callables;
    [f_table] is [__table__], [None] if missing or empty. *)
Record func := Func {
  f_name : option string;
  f_doc : option string;
  f_table : option string;
  f_run : list A -> result (list A * list message) }.

(** ** collection.py *)

(** What a configuration consists of: functions, collections ([true]) and other
    iterables ([false]). *)
Inductive item := Function (f : func) | Iterable (collection : bool) (l : list item).

(** Lines 58-70, [unwrap_functions]. *)
Fixpoint unwrap (i : item) : list func :=
  match i with
  | Function f => [f]
  | Iterable _ l => flat_map unwrap l
  end.
Definition unwrap_functions (l : list item) : list func := flat_map unwrap l.

(** Lines 14-20, [Collection(name, *functions)]; the name is not used. *)
Definition collection (l : list item) : item := Iterable true (map Function (unwrap_functions l)).

(** Lines 37-38, [insert], for an index that is not negative. *)
Definition collection_insert (index : nat) (obj c : item) : result item :=
  match c with
  | Iterable true l => Ok (Iterable true (take index l ++ [obj] ++ drop index l))
  | _ => Err AttributeError
  end.

(** Lines 47-50, [__call__]; a list is not callable. *)
Fixpoint call (i : item) (data : list A) : result (list A * list message) :=
  match i with
  | Function f => f_run f data
  | Iterable false _ => Err TypeError
  | Iterable true l =>
      (fix go (l : list item) (data : list A) : result (list A * list message) :=
         match l with
         | [] => Ok (data, [])
         | i :: l => let? (data, ms) := call i data in
                     let? (data, ms') := go l data in Ok (data, ms ++ ms')
         end) l data
  end.

(** ** utils.py *)
Record meta := Meta { m_name : string; m_doc : option string; m_table : option string }.
(** Lines 8-21, [get_function_meta]. *)
Definition get_function_meta (f : func) : result meta :=
  match f_name f with
  | Some n => Ok (Meta n (f_doc f) (f_table f))
  | None => Err AttributeError
  end.
(** Lines 24-36, [validate_configuration]. *)
Definition validate_configuration (config : item) : result item :=
  match config with
  | Function _ => Err TypeError
  | Iterable _ l =>
      let? _ := mapR (fun f => match get_function_meta f with
                               | Ok _ => Ok tt
                               | Err _ => Err InvalidTransformationFunction
                               end) (unwrap_functions l) in
      Ok config
  end.

(** ** wrapper.py lines 27-32, [TransformationWrapper.__call__]

    A function for one dataset gives a list of datasets, or, by mistake, a single
    dataset; iterating over a dataset gives its keys. *)
Inductive returned := Many (l : list A) | Single (x : A).
Context (keys : A -> list string).
Definition children (r : returned) : list (A + string) :=
  match r with Many l => map inl l | Single x => map inr (keys x) end.
Definition transformation_wrapper (func : A -> result returned) (filter_function : option (A -> result bool))
    (data : list A) : result (list (A + string)) :=
  match filter_function with
  | Some p => concat_mapR (fun ds => let? b := p ds in
                                     if b then fmapR children (func ds) else Ok [inl ds]) data
  | None => concat_mapR (fun ds => fmapR children (func ds)) data
  end.

(** ** model.py *)
Inductive event :=
  | ReportStart (uuid : string) (count : nat)
  | ReportEnd
  | FunctionStart (m : meta) (index : nat) (count : nat)
  | FunctionEnd (m : meta) (index : nat) (count : nat)
  | Logged (m : message).

(** The intermediate results: step and name of the function, [None] for the final
    result. *)
Record run := Run {
  r_next : nat;
  r_log : list (event * Qc);
  r_saved : list (option (nat * string) * list A);
  r_followed : list (nat * list A);
  r_data : list A }.

Context (clock : nat -> Qc).
(** logger.py lines 8-14: the time is added when a line is formatted. *)
Definition log (e : event) (r : run) : run :=
  Run (r_next r) (r_log r ++ [(e, clock (length (r_log r)))]) (r_saved r) (r_followed r) (r_data r).
(** filesystem.py lines 143-153, [save_intermediate_result]. *)
Definition save_result (what : option (nat * string)) (r : run) : run :=
  Run (r_next r) (r_log r) (r_saved r ++ [(what, r_data r)]) (r_followed r) (r_data r).
(** filesystem.py lines 156-172, [save_specific_dataset]. *)
Definition save_followed (follow : A -> bool) (index : nat) (r : run) : run :=
  let selected := filterb follow (r_data r) in
  match selected with
  | [] => r
  | _ => Run (r_next r) (r_log r) (r_saved r) (r_followed r ++ [(index, selected)]) (r_data r)
  end.
(** model.py lines 43-68, the second branch of [apply_transformation]. *)
Definition apply_function (save : Z -> bool) (follow : option (A -> bool)) (r : run) (f : func) : result run :=
  let? m := get_function_meta f in
  let index := r_next r in
  let r := Run (S index) (r_log r) (r_saved r) (r_followed r) (r_data r) in
  let r := log (FunctionStart m index (length (r_data r))) r in
  let? (data, ms) := f_run f (r_data r) in
  let r := foldl (fun r m => log (Logged m) r) r ms in
  let r := Run (r_next r) (r_log r) (r_saved r) (r_followed r) data in
  let r := if save (Z.of_nat index) then save_result (Some (index, m_name m)) r else r in
  let r := match follow with Some p => save_followed p index r | None => r end in
  Ok (log (FunctionEnd m index (length data)) r).
(** Lines 34-42: the recursive call lacks an argument. *)
Definition apply_transformation (save : Z -> bool) (follow : option (A -> bool)) (r : run) (i : item) : result run :=
  match i with
  | Function f => apply_function save follow r f
  | Iterable _ [] => Ok r
  | Iterable _ (_ :: _) => Err TypeError
  end.
(** Lines 71-143, [system_model], after the data have been extracted; [default] is the
    configuration used instead of an empty one, [strategy] the save strategy, or the
    exception of its constructor. *)
Definition items (config : item) : list item :=
  match config with Iterable _ l => l | Function f => [Function f] end.
Definition system_model (default : item) (config : item) (uuid : string) (strategy : result (Z -> bool))
    (follow : option (A -> bool)) (data : list A) : result run :=
  let config := match config with Iterable _ [] => default | _ => config end in
  let? config := validate_configuration config in
  let r := log (ReportStart uuid (length data)) (Run 0 [] [] [] data) in
  let? save := strategy in
  let? r := foldR (apply_transformation save follow) r (items config) in
  Ok (log ReportEnd (save_result None r)).
End runner.
Arguments func : clear implicits.
Arguments item : clear implicits.
Arguments run : clear implicits.
Arguments returned : clear implicits.

(** ** results.py, [SaveStrategy] *)

(** [int(s)] for ASCII: blanks, sign, digits with single underscores between them.
    Simplification: the separators 28-31 count as blanks, as for [str.strip]. *)
Definition digit (c : ascii) : option Z :=
  let n := Z.of_N (N_of_ascii c) in
  if ((48 <=? n) && (n <=? 57))%Z then Some (n - 48)%Z else None.
Fixpoint digits_after (z : Z) (s : text) : option Z :=
  match s with
  | [] => Some z
  | c :: s =>
      match digit c with
      | Some d => digits_after (10 * z + d) s
      | None => if bool_decide (c = "_"%char)
                then match s with
                     | c' :: s => match digit c' with
                                  | Some d => digits_after (10 * z + d) s
                                  | None => None
                                  end
                     | [] => None
                     end
                else None
      end
  end.
Definition digits (s : text) : option Z :=
  match s with
  | c :: s => match digit c with Some d => digits_after d s | None => None end
  | [] => None
  end.
Definition pyint (s : text) : option Z :=
  match strip s with
  | c :: s' => if bool_decide (c = "-"%char) then Z.opp <$> digits s'
               else if bool_decide (c = "+"%char) then digits s'
               else digits (c :: s')
  | [] => None
  end.
(** [s.split(":")]. *)
Definition colon : ascii := ":"%char.
Fixpoint split_colons (s : text) : list text :=
  match s with
  | [] => [[]]
  | c :: s => if bool_decide (c = colon) then [] :: split_colons s
              else match split_colons s with
                   | w :: ws => (c :: w) :: ws
                   | [] => [[c]]
                   end
  end.
Inductive strategy := Nothing | Number (z : Z) | Text (s : text).
(** [x in list(range(a, b, c))]. *)
Definition in_range (a b c x : Z) : bool :=
  if (0 <? c)%Z then ((a <=? x) && (x <? b) && ((x - a) mod c =? 0))%Z
  else ((x <=? a) && (b <? x) && ((x - a) mod c =? 0))%Z.
(** Lines 34-60.  DEFAULT is 1000; [int(arg)] and [range(0)] give ValueError, [range]
    with more than three arguments TypeError. *)
Definition every (n : Z) : result (Z -> bool) :=
  if (n <? 1)%Z then Err ValueError else Ok (fun x => (x mod n =? 0)%Z).
Definition save_strategy (s : strategy) : result (Z -> bool) :=
  match s with
  | Nothing => Ok (fun x => (x mod 1000 =? 0)%Z)
  | Number n => every n
  | Text s =>
      if bool_decide (colon ∈ s) then
        match mapM pyint (split_colons s) with
        | None => Err ValueError
        | Some [a; b] => Ok (in_range a (b + 1) 1)
        | Some [a; b; c] => if (c =? 0)%Z then Err ValueError else Ok (in_range a (b + 1) c)
        | Some _ => Err TypeError
        end
      else match pyint s with Some n => every n | None => Err ValueError end
  end.

(** ** report.py *)
Record entry := Entry {
  en_start : Qc;
  en_tabledata : option (list string);
  en_listdata : option (list string);
  (** time, end, count, name, table: set at the end of the function *)
  en_end : option (Qc * Qc * nat * string * option string) }.
Record page := Page {
  pg_counts : option (list (string * nat));
  pg_times : option (list (string * Qc));
  pg_functions : list (nat * entry);
  (** [self.index] *)
  pg_index : option nat }.
Definition page0 : page := Page None None [] None.

(** A dictionary with keys in order of insertion. *)
Fixpoint put {B} (i : nat) (x : B) (l : list (nat * B)) : list (nat * B) :=
  match l with
  | [] => [(i, x)]
  | (j, y) :: l => if (i =? j)%nat then (i, x) :: l else (j, y) :: put i x l
  end.
Fixpoint get {B} (i : nat) (l : list (nat * B)) : option B :=
  match l with
  | [] => None
  | (j, y) :: l => if (i =? j)%nat then Some y else get i l
  end.
Definition current (p : page) : result (nat * entry) :=
  match pg_index p with
  | None => Err AttributeError
  | Some i => let? e := getkey "index" (get i (pg_functions p)) in Ok (i, e)
  end.

(** Lines 83-116, [handle_line]. *)
Definition handle_line (p : page) (line : event * Qc) : result page :=
  let t := line.2 in
  match line.1 with
  | ReportStart _ count =>
      Ok (Page (Some [("Start"%string, count)]) (Some [("Start"%string, t)]) (pg_functions p) (pg_index p))
  | ReportEnd =>
      let? times := getkey "times" (pg_times p) in
      Ok (Page (pg_counts p) (Some (times ++ [("End"%string, t)])) (pg_functions p) (pg_index p))
  | FunctionStart m index _ =>
      let e := match m_table m with
               | Some _ => Entry t (Some []) None None
               | None => Entry t None (Some []) None
               end in
      Ok (Page (pg_counts p) (pg_times p) (put index e (pg_functions p)) (Some index))
  | FunctionEnd m _ count =>
      let? counts := getkey "counts" (pg_counts p) in
      let? times := getkey "times" (pg_times p) in
      let? (i, e) := current p in
      let e := Entry (en_start e) (en_tabledata e) (en_listdata e)
                 (Some ((t - en_start e)%Qc, t, count, m_name m, m_table m)) in
      Ok (Page (Some (counts ++ [(m_name m, count)])) (Some (times ++ [(m_name m, t)]))
            (put i e (pg_functions p)) (pg_index p))
  | Logged (TableElement d) =>
      let? (i, e) := current p in
      let? l := getkey "tabledata" (en_tabledata e) in
      Ok (Page (pg_counts p) (pg_times p)
            (put i (Entry (en_start e) (Some (l ++ [d])) (en_listdata e) (en_end e)) (pg_functions p)) (pg_index p))
  | Logged (ListElement d) =>
      let? (i, e) := current p in
      let? l := getkey "listdata" (en_listdata e) in
      Ok (Page (pg_counts p) (pg_times p)
            (put i (Entry (en_start e) (en_tabledata e) (Some (l ++ [d])) (en_end e)) (pg_functions p)) (pg_index p))
  end.

(** Lines 61-67 and 21-36, [read_log] and [jsonize].  [hasattr(v, "tabledata")] is false
    for a dictionary, so the rows are neither sorted nor made into JSON. *)
Record report := Report {
  rep_counts : list (string * nat);
  rep_times : list (string * Qc);
  rep_elapsed : Qc;
  rep_functions : list (nat * entry) }.
Definition read_log (lines : list (event * Qc)) : result report :=
  let? p := foldR handle_line page0 lines in
  let? times := getkey "times" (pg_times p) in
  let? first := match times with [] => Err IndexError | (_, t) :: _ => Ok t end in
  let? counts := getkey "counts" (pg_counts p) in
  Ok (Report counts (map (fun x => (x.1, (x.2 - first)%Qc)) times)
        (List.last (map snd times) first - first)%Qc
        (isort (fun x y => (x.1 <=? y.1)%nat) (pg_functions p))).

(** logger.py lines 43-53, [create_log] adds a handler to the logger of the process and
    none is ever removed: the files that are open and what is in them. *)
Definition logged_run (log : list (event * Qc)) (files : list (list (event * Qc))) : list (list (event * Qc)) :=
  map (fun f => f ++ log) (files ++ [[]]).
