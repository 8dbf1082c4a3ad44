(** Model of [import_into_brightway2], io/brightway2.py lines 155-190, and of
    [validate_directory_against_xsd], io/validate_ecospold2.py lines 10-37.

    Brightway is installed.  Its importer is given by its functions: the default
    strategies, the matching with "biosphere3" and the number of unlinked exchanges are
    arguments.  Simplifications: strategies give activities of the same shape; they do
    not change the list they are given but return another one; writing a database does
    not fail.  A schema is what it accepts. *)
From stdpp Require Import gmap.
From Verif Require Import Base Types Utils Strings Files Brightway.

(** ** io/brightway2.py *)

(** What the caller's list can hold: datasets, or after an import activities. *)
Inductive entry := Dataset (ds : dataset) | Activity (a : bw_activity).

(** Lines 95-121 for an entry: an activity has all the fields that are copied, but
    none of its exchanges has the type "reference product" (transformations/utils.py
    lines 90-102). *)
Definition translate_entry (database : string) (x : entry) : result bw_activity :=
  match x with
  | Dataset ds => translate_activity database ds
  | Activity _ => Err ValueError
  end.

(** The importer of line 168: its strategies (line 173), the matching with
    "biosphere3" and the number of unlinked exchanges. *)
Notation strategy := (list bw_activity -> result (list bw_activity)).
Record importer := Importer {
  im_strategies : list strategy;
  im_match : strategy;
  im_unlinked : list bw_activity -> nat
}.
(** [del l[n]]. *)
Definition del {A} (n : nat) (l : list A) : result (list A) :=
  if n <? length l then Ok (take n l ++ drop (S n) l) else Err IndexError.

(** What is returned: the database, or the importer with its data. *)
Inductive imported := Written | Unwritten (data : list bw_activity).
(** The databases of the project and the caller's list, before and after. *)
Record project := Project { p_databases : gmap string (list bw_activity); p_data : list entry }.

(** Lines 155-190, [import_into_brightway2]; [name] is [None] if it is not a text. *)
Definition import_into_brightway2 (im : importer) (name : option string) (p : project) : project * result imported :=
  match name with
  | None => (p, Err AssertionError)
  | Some name =>
      if bool_decide (is_Some (p_databases p !! name)) then (p, Err AssertionError)
      else match mapR (translate_entry name) (p_data p) with
           | Err e => (p, Err e)
           | Ok converted =>
               (* line 174: [data[:] = ...] *)
               let p := Project (p_databases p) (map Activity converted) in
               match del 2 (im_strategies im) with
               | Err e => (p, Err e)
               | Ok strategies =>
                   match (let? data := foldR (fun data (f : strategy) => f data) converted strategies in im_match im data) with
                   | Err e => (p, Err e)
                   | Ok data =>
                       if im_unlinked im data =? 0
                       then (Project (<[name := data]> (p_databases p)) (p_data p), Ok Written)
                       else (p, Ok (Unwritten data))
                   end
               end
           end
  end.

(** ** io/validate_ecospold2.py *)

(** What a name in a directory stands for; [X] are XML trees. *)
Inductive node (X : Type) := Document (x : X) | Garbled | NotAFile.
Arguments Document {X} x. Arguments Garbled {X}. Arguments NotAFile {X}.

(** How it fails: line 14, line 15, line 25 (the schema cannot be read), line 28. *)
Inductive xsd_failure := NoDirectory | NoSchema | BadSchema | BadFile (name : string).
(** What is printed at the end: nothing wrong, or the names. *)
Inductive xsd_report := AllValid | NotValid (names : list string).

Section xsd.
Context {X : Type}.
(** Lines 27-30: one file after the other, [inl] for an exception. *)
Fixpoint invalid_files (accepts : X -> bool) (files : list (string * node X)) : xsd_failure + list string :=
  match files with
  | [] => inr []
  | (name, Document x) :: files =>
      match invalid_files accepts files with
      | inl e => inl e
      | inr names => inr (if accepts x then names else name :: names)
      end
  | (name, _) :: files => inl (BadFile name)
  end.
(** Lines 10-37; [dir] is [None] if it is not a directory; [schema] is [None] if it is
    not a file, [Some None] if it is not a schema. *)
Definition validate_directory_against_xsd (dir : option (list (string * node X))) (schema : option (option (X -> bool)))
    : xsd_failure + xsd_report :=
  match dir, schema with
  | None, _ => inl NoDirectory
  | Some _, None => inl NoSchema
  | Some _, Some None => inl BadSchema
  | Some dir, Some (Some accepts) =>
      match invalid_files accepts (filterb (fun f => is_spold (fst f)) dir) with
      | inl e => inl e
      | inr [] => inr AllValid
      | inr names => inr (NotValid names)
      end
  end.
End xsd.
