(** File names, the cache of extracted data and the cleaning up of old runs:
    ocelot/filesystem.py lines 12-35, 77-120, 143-172, ocelot/io/__init__.py
    lines 15-30, ocelot/io/extract_ecospold2.py lines 218-227, ocelot/io/cleanup.py.
    Texts are lists of ASCII characters (on which NFKD normalisation does
    nothing); the hash is an argument. *)
From Verif Require Import Base Strings Types Utils Formulas.
From stdpp Require Import gmap pretty.
From Coq Require Import Ascii String.

(** ** File names *)

(** [\w] for ASCII characters. *)
Definition wordlike (c : ascii) : bool :=
  let n := N_of_ascii c in
  ((97 <=? n) && (n <=? 122) || (65 <=? n) && (n <=? 90) || (n =? 95) || (48 <=? n) && (n <=? 57))%N.
Definition hyphen : ascii := "-"%char.
Definition dot : ascii := "."%char.

(** filesystem.py line 14: characters that are not removed. *)
Definition slug_char (c : ascii) : bool := wordlike c || blank c || bool_decide (c = hyphen).
Definition gap (c : ascii) : bool := blank c || bool_decide (c = hyphen).
(** filesystem.py lines 23-25: [re.sub('[-\s]+', '-', s)]; [inside] if the last
    character was part of a match. *)
Fixpoint join_gaps (inside : bool) (s : text) : text :=
  match s with
  | [] => []
  | c :: s => if gap c then (if inside then join_gaps true s else hyphen :: join_gaps true s)
              else c :: join_gaps false s
  end.
Definition slug (s : text) : text := join_gaps false (strip (filterb slug_char s)).
(** filesystem.py lines 17-35, [safe_filename]; [md5] gives the digest as text. *)
Definition safe_filename (md5 : text -> text) (s : text) : text := slug s ++ dot :: md5 s.

(** filesystem.py lines 143-153, [save_intermediate_result]: the name of the file. *)
Definition decimal_text (n : nat) : text := chars (pretty n).
Definition pickle : text := chars ".pickle".
Definition intermediate_name (md5 : text -> text) (index : nat) (name : option text) : text :=
  decimal_text index ++
  match name with None => [] | Some name => dot :: safe_filename md5 name end ++ pickle.
(** filesystem.py lines 156-172, [save_specific_dataset]: the name of the file in
    the directory [follow]. *)
Definition follow_name (index : nat) (follow : text) : text :=
  decimal_text index ++ dot :: follow ++ pickle.

(** ** Cleaning up *)

Inductive kind := PlainFile | Folder | LinkToFolder.
Global Instance kind_eq_dec : EqDecision kind.
Proof. solve_decision. Defined.
(** An entry of the output directory; [de_run] if it was made by a model run, which
    the code does not look at. *)
Record dirent := Dirent { de_name : string; de_kind : kind; de_ctime : Qc; de_run : bool }.
Global Instance dirent_eq_dec : EqDecision dirent.
Proof. solve_decision. Defined.

Definition one_week : Qc := Qcint (7 * 24 * 60 * 60).
(** cleanup.py lines 13-19: [isdir] follows links. *)
Definition to_delete (now : Qc) (d : dirent) : bool :=
  bool_decide (de_kind d <> PlainFile) && Qcltb (de_ctime d) (now - one_week).
(** cleanup.py line 24: tuples are compared by time, then name. *)
Definition dirent_leb (a b : dirent) : bool :=
  Qcltb (de_ctime a) (de_ctime b) ||
  bool_decide (de_ctime a = de_ctime b) && str_leb (de_name a) (de_name b).
(** [shutil.rmtree] of a folder; refuses links. *)
Definition rmtree (d : dirent) (dir : list dirent) : list dirent * result unit :=
  if bool_decide (de_kind d = LinkToFolder) then (dir, Err OSError)
  else (filterb (fun x => negb (bool_decide (de_name x = de_name d))) dir, Ok tt).
(** cleanup.py lines 29-30: stops at the first exception; what was deleted is gone. *)
Fixpoint rmtrees (l : list dirent) (dir : list dirent) : list dirent * result unit :=
  match l with
  | [] => (dir, Ok tt)
  | d :: l => match rmtree d dir with
              | (dir', Ok _) => rmtrees l dir'
              | (dir', Err e) => (dir', Err e)
              end
  end.
(** cleanup.py lines 8-30, [cleanup_data_directory]. *)
Definition cleanup_data_directory (now : Qc) (dir : list dirent) : list dirent * result unit :=
  rmtrees (isort dirent_leb (filterb (to_delete now) dir)) dir.

(** ** The cache *)

Section cache.
  (** Contents of files and extracted data; extraction of the files it reads. *)
  Context {C D : Type} (extract : gmap string C -> result D).

  Record file := File { fi_content : C; fi_mtime : Qc }.
  (** What is in the cache file: a whole pickle or only the beginning of one. *)
  Inductive cached := Whole (d : D) | Truncated.
  (** The source directory with its own modification time, the cache file, the
      clock, and what was extracted but not yet written to the cache. *)
  Record world := World {
    w_files : gmap string file;
    w_dir : Qc;
    w_cache : option (cached * Qc);
    w_now : Qc;
    w_pending : option D
  }.

  (** extract_ecospold2.py line 225. *)
  Definition is_spold (name : string) : bool := str_endswith ".spold" (lower name).
  (** filesystem.py line 104. *)
  Definition is_hidden (name : string) : bool := str_startswith "." name.
  (** The files that are extracted. *)
  Definition source (fs : gmap string file) : gmap string C :=
    fi_content <$> filter (fun x => is_spold x.1 = true) fs.

  Definition qmax (a b : Qc) : Qc := if Qcltb a b then b else a.
  (** [max] of an iterable, ValueError if it is empty. *)
  Definition pymax (l : list Qc) : result Qc :=
    match l with [] => Err ValueError | x :: l => Ok (fold_left qmax l x) end.

  (** filesystem.py lines 91-107, [check_cache_directory]. *)
  Definition check_cache_directory (w : world) : result bool :=
    match w_cache w with
    | None => Ok false
    | Some (_, cache_time) =>
        let? m := pymax (map (fun x => fi_mtime x.2)
                    (map_to_list (filter (fun x => is_hidden x.1 = false) (w_files w)))) in
        let? source_time := pymax [w_dir w; m] in
        Ok (Qcltb source_time cache_time)
    end.
  (** filesystem.py lines 110-114, [get_from_cache]: [pickle.load]. *)
  Definition get_from_cache (w : world) : result D :=
    match w_cache w with
    | None => Err OSError
    | Some (Truncated, _) => Err EOFError
    | Some (Whole d, _) => Ok d
    end.

  (** What happens: time passes; files are written (in place, or created), removed
      or moved; modification times are set; data is extracted (the two halves of
      [extract_directory]: reading, and writing the cache and returning); the
      program dies, perhaps while it writes the cache. *)
  Inductive event :=
    | Wait (dt : Qc)
    | Write (name : string) (c : C)
    | Remove (name : string)
    | Move (from to : string)
    | SetTime (name : string) (t : Qc)
    | Begin (use_cache : bool)
    | Finish
    | Crash
    | CrashInCache.

  Definition set_files fs dir (w : world) : world := World fs dir (w_cache w) (w_now w) (w_pending w).
  Definition set_cache c (w : world) : world := World (w_files w) (w_dir w) c (w_now w) None.
  Definition set_pending p (w : world) : world := World (w_files w) (w_dir w) (w_cache w) (w_now w) p.

  (** One event: the world afterwards and what [extract_directory] returns or
      raises, if it does.  io/__init__.py lines 15-30 with filesystem.py lines
      117-120, [cache_data]. *)
  Definition happen (ev : event) (w : world) : world * option (result D) :=
    match ev with
    | Wait dt => (World (w_files w) (w_dir w) (w_cache w) (w_now w + dt) (w_pending w), None)
    | Write name c =>
        let dir := match w_files w !! name with Some _ => w_dir w | None => w_now w end in
        (set_files (<[name := File c (w_now w)]> (w_files w)) dir w, None)
    | Remove name =>
        match w_files w !! name with
        | None => (w, None)
        | Some _ => (set_files (delete name (w_files w)) (w_now w) w, None)
        end
    | Move from to =>
        match w_files w !! from with
        | None => (w, None)
        | Some f => (set_files (<[to := f]> (delete from (w_files w))) (w_now w) w, None)
        end
    | SetTime name t =>
        match w_files w !! name with
        | None => (w, None)
        | Some f => (set_files (<[name := File (fi_content f) t]> (w_files w)) (w_dir w) w, None)
        end
    | Begin use_cache =>
        let read := match extract (source (w_files w)) with
                    | Ok d => if use_cache then (set_pending (Some d) w, None) else (w, Some (Ok d))
                    | Err e => (w, Some (Err e))
                    end in
        if use_cache then
          match check_cache_directory w with
          | Err e => (w, Some (Err e))
          | Ok true => (w, Some (get_from_cache w))
          | Ok false => read
          end
        else read
    | Finish =>
        match w_pending w with
        | None => (w, None)
        | Some d => (set_cache (Some (Whole d, w_now w)) w, Some (Ok d))
        end
    | Crash => (set_pending None w, None)
    | CrashInCache =>
        match w_pending w with
        | None => (w, None)
        | Some _ => (set_cache (Some (Truncated, w_now w)) w, None)
        end
    end.

  (** A history: the last world and everything returned, with the world it was
      returned in. *)
  Fixpoint history (evs : list event) (w : world) : world * list (world * result D) :=
    match evs with
    | [] => (w, [])
    | ev :: evs =>
        let '(w', o) := happen ev w in
        let '(w'', os) := history evs w' in
        (w'', match o with Some r => (w, r) :: os | None => os end)
    end.
End cache.
