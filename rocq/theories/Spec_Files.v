(** What the theorems on file names, cleaning up, the cache and the export to
    Brightway talk about. *)
From Verif Require Import Base Strings Types Utils Formulas Files Brightway.
From stdpp Require Import gmap.
From Coq Require Import Ascii String.

(** Letters, digits and the underscore. *)
Definition letter_digit (c : ascii) : Prop :=
  let n := nat_of_ascii c in
  (48 <= n <= 57 \/ 65 <= n <= 90 \/ n = 95 \/ 97 <= n <= 122)%nat.

(** Folders last changed more than a week ago. *)
Definition old_folder (now : Qc) (d : dirent) : Prop :=
  de_kind d = Folder /\ (de_ctime d < now - Qcint 604800)%Qc.
Definition old_link (now : Qc) (d : dirent) : Prop :=
  de_kind d = LinkToFolder /\ (de_ctime d < now - Qcint 604800)%Qc.

Section cache.
  Context {C D : Type} (extract : gmap string C -> result D).
  (** Nobody has extracted anything yet. *)
  Definition untouched (w : world (C:=C) (D:=D)) : Prop :=
    w_cache w = None /\ w_pending w = None /\ (w_dir w <= w_now w)%Qc /\
    forall n f, w_files w !! n = Some f -> (fi_mtime f <= w_now w)%Qc.
  (** The clock does not go backwards, nobody sets modification times, the directory
      does not change during extraction, and hidden ecospold files are not modified in
      place. *)
  Definition harmless (ev : event (C:=C)) (w : world (C:=C) (D:=D)) : Prop :=
    match ev with
    | Wait dt => (0 <= dt)%Qc
    | Write name _ => w_pending w = None /\
        (str_startswith "." name = true -> str_endswith ".spold" (lower name) = true -> w_files w !! name = None)
    | Remove _ | Move _ _ => w_pending w = None
    | SetTime _ _ => False
    | Begin _ | Finish | Crash | CrashInCache => True
    end.
  Fixpoint harmless_history (evs : list (event (C:=C))) (w : world) : Prop :=
    match evs with
    | [] => True
    | ev :: evs => harmless ev w /\ harmless_history evs (happen extract ev w).1
    end.
  (** What extraction without cache gives. *)
  Definition uncached (w : world) : option (result D) := (happen extract (Begin false) w).2.
  Definition no_visible_file (w : world (C:=C) (D:=D)) : Prop :=
    forall n f, w_files w !! n = Some f -> str_startswith "." n = true.
End cache.

(** Coefficient of product [code] in the column of a dataset. *)
Definition coefficient (code : string) (e : exchange) : Qc :=
  if decide (e_code e = Some code) then
    match e_type e with
    | RefProduct | Byproduct => e_amount e
    | FromTechnosphere => (- e_amount e)%Qc
    | _ => 0
    end
  else 0.
Definition net (code : string) (es : list exchange) : Qc := Qcsum (map (coefficient code) es).
Definition bw_coefficient (input : string * string) (b : bw_exchange) : Qc :=
  match b with
  | BwProduction a i => if decide (i = input) then a else 0
  | BwTechnosphere a i => if decide (i = input) then (- a)%Qc else 0
  | BwBiosphere _ _ _ _ => 0
  end.
Definition bw_net (input : string * string) (bs : list bw_exchange) : Qc := Qcsum (map (bw_coefficient input) bs).
(** Amount of an elementary flow. *)
Definition is_flow (n u c s : string) (e : exchange) : Prop :=
  (e_type e = FromEnvironment \/ e_type e = ToEnvironment) /\
  e_name e = n /\ e_unit e = u /\ e_compartment e = Some c /\ e_subcompartment e = Some s.
Global Instance is_flow_dec n u c s e : Decision (is_flow n u c s e).
Proof. unfold is_flow. apply _. Defined.
Definition flow (n u c s : string) (es : list exchange) : Qc :=
  Qcsum (map (fun e => if decide (is_flow n u c s e) then e_amount e else 0%Qc) es).
Definition bw_flow (n u c s : string) (bs : list bw_exchange) : Qc :=
  Qcsum (map (fun b => match b with
                       | BwBiosphere a n' u' cs => if decide ((n', u', cs) = (n, u, (c, s))) then a else 0%Qc
                       | _ => 0%Qc
                       end) bs).
(** An exchange that can be exported. *)
Definition exportable (e : exchange) : Prop :=
  match e_type e with
  | RefProduct | Byproduct | FromTechnosphere => exists c, e_code e = Some c
  | FromEnvironment | ToEnvironment =>
      exists c s, e_compartment e = Some c /\ e_subcompartment e = Some s
  | _ => False
  end.
Definition production_codes (bs : list bw_exchange) : list (Qc * (string * string)) :=
  omap (fun b => match b with BwProduction a i => Some (a, i) | _ => None end) bs.
