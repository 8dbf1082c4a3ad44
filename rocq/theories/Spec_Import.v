(** Import into Brightway (C102) and validation against the XSD (C103), said without the
    programs. *)
From stdpp Require Import gmap.
From Verif Require Import Base Types Utils Strings Formulas Files Brightway Import.

(** ** Import *)
(** The list holds only datasets, and [acts] are these as activities. *)
Definition ready (n : string) (l : list entry) (acts : list bw_activity) : Prop :=
  Forall2 (fun x a => exists ds, x = Dataset ds /\ translate_activity n ds = Ok a) l acts.
(** One function after the other. *)
Inductive chain : list strategy -> list bw_activity -> list bw_activity -> Prop :=
  | chain_nil d : chain [] d d
  | chain_cons (f : strategy) fs d d' d'' : f d = Ok d' -> chain fs d' d'' -> chain (f :: fs) d d''.
(** All default strategies but the third, then the matching. *)
Definition prepared (im : importer) (acts data : list bw_activity) : Prop :=
  exists f1 f2 f3 fs mid, im_strategies im = f1 :: f2 :: f3 :: fs /\ chain (f1 :: f2 :: fs) acts mid /\
    im_match im mid = Ok data.

(** ** Validation *)
Section xsd.
Context {X : Type}.
(** A name as the program wants it: it ends with ".spold", in any case. *)
Definition ends_spold (name : string) : Prop := exists stem, lower name = (stem ++ ".spold")%string.
Definition readable (f : string * node X) : Prop := exists x, snd f = Document x.
(** The names in [names] are, in order, those of the files in [files] that fail. *)
Inductive rejected (accepts : X -> bool) : list (string * node X) -> list string -> Prop :=
  | rejected_nil : rejected accepts [] []
  | rejected_yes n x files names : ends_spold n -> accepts x = false -> rejected accepts files names ->
      rejected accepts ((n, Document x) :: files) (n :: names)
  | rejected_no n x files names : ends_spold n -> accepts x = true -> rejected accepts files names ->
      rejected accepts ((n, Document x) :: files) names
  | rejected_other f files names : ~ ends_spold (fst f) -> rejected accepts files names ->
      rejected accepts (f :: files) names.
End xsd.
