(** C102: importing into Brightway.  C103: validating files against the XSD. *)
From stdpp Require Import gmap.
From Verif Require Import Base Types Utils Strings Formulas Files Brightway Import Spec_Import Import_proofs.

(** ** C102 *)

(** A database that exists is never replaced, and then nothing at all happens. *)
Theorem C102_existing : forall im n p, is_Some (p_databases p !! n) ->
  import_into_brightway2 im (Some n) p = (p, Err AssertionError).
Proof. exact existing_proof. Qed.
Print Assumptions C102_existing.

(** No other database is ever changed. *)
Theorem C102_others : forall im name p n, name <> Some n ->
  p_databases (fst (import_into_brightway2 im name p)) !! n = p_databases p !! n.
Proof. exact others_proof. Qed.
Print Assumptions C102_others.

(** When the database is written, and with what: every exchange is linked. *)
Theorem C102_written : forall im n p p', import_into_brightway2 im (Some n) p = (p', Ok Written) <->
  p_databases p !! n = None /\ exists acts data, ready n (p_data p) acts /\ prepared im acts data /\
    im_unlinked im data = 0 /\ p' = Project (<[n := data]> (p_databases p)) (map Activity acts).
Proof. exact written_proof. Qed.
Print Assumptions C102_written.

(** When it is not: no database is made, but the caller's datasets are gone. *)
Theorem C102_unwritten : forall im n p p' data, import_into_brightway2 im (Some n) p = (p', Ok (Unwritten data)) <->
  p_databases p !! n = None /\ im_unlinked im data <> 0 /\ exists acts, ready n (p_data p) acts /\ prepared im acts data /\
    p' = Project (p_databases p) (map Activity acts).
Proof. exact unwritten_proof. Qed.
Print Assumptions C102_unwritten.

(** After an error the databases are as before; the caller's list is as before, or
    holds the activities of all its datasets. *)
Theorem C102_failed : forall im name p p' e, import_into_brightway2 im name p = (p', Err e) ->
  p_databases p' = p_databases p /\
  (p_data p' = p_data p \/ exists n acts, name = Some n /\ ready n (p_data p) acts /\ p_data p' = map Activity acts).
Proof. exact failed_proof. Qed.
Print Assumptions C102_failed.

(** Finding: a list that was used up by an import, written or not, can never be imported
    again, under no name and with no importer. *)
Theorem C102_again_refuted : forall im im' name n p p' r, import_into_brightway2 im name p = (p', r) ->
  p_data p' <> p_data p -> p_databases p' !! n = None ->
  import_into_brightway2 im' (Some n) p' = (p', Err ValueError).
Proof. exact again_proof. Qed.
Print Assumptions C102_again_refuted.

Definition ex_exchange (t : etype) (n : string) (a : Z) (code : option string) : exchange :=
  set_e_type t (set_e_name n (set_e_amount (Qcint a) (set_e_code code exchange0))).
Definition ex_steel : dataset :=
  set_d_code (Some "me"%string)
    (set_d_exchanges [ex_exchange RefProduct "steel" 2 (Some "me"%string); ex_exchange FromTechnosphere "heat" 3 (Some "h"%string)] dataset0).
(** An importer whose third strategy would drop everything, and which counts links to
    activities that are not there. *)
Definition ex_importer : importer :=
  Importer [Ok; Ok; fun _ => Ok []; Ok] Ok
    (fun acts => length (filterb (fun b => match b with BwTechnosphere _ (_, c) => negb (existsb (fun a => bool_decide (b_code a = c)) acts) | _ => false end)
                           (concat (map b_exchanges acts)))).
Definition ex_heat : dataset :=
  set_d_code (Some "h"%string) (set_d_exchanges [ex_exchange RefProduct "heat" 1 (Some "h"%string)] dataset0).
Example written_example :
  snd (import_into_brightway2 ex_importer (Some "db"%string) (Project ∅ [Dataset ex_steel; Dataset ex_heat])) = Ok Written.
Proof. by vm_compute. Qed.
Example unwritten_example : exists data,
  snd (import_into_brightway2 ex_importer (Some "db"%string) (Project ∅ [Dataset ex_steel])) = Ok (Unwritten data) /\ length data = 1.
Proof. eexists. by vm_compute. Qed.
Example again_example :
  snd (import_into_brightway2 ex_importer (Some "again"%string)
    (fst (import_into_brightway2 ex_importer (Some "db"%string) (Project ∅ [Dataset ex_steel])))) = Err ValueError.
Proof. by vm_compute. Qed.
Example existing_example : forall d,
  snd (import_into_brightway2 ex_importer (Some "db"%string) (Project {[ "db"%string := d ]} [Dataset ex_steel])) = Err AssertionError.
Proof. intros d. by rewrite existing_proof by (by eexists; apply lookup_singleton). Qed.

(** ** C103 *)

(** What is reported, if all ".spold" files can be read: exactly the files that the
    schema rejects, in the order of the directory. *)
Theorem C103_report : forall X (dir : list (string * node X)) accepts,
  (validate_directory_against_xsd (Some dir) (Some (Some accepts)) = inr AllValid <-> rejected accepts dir []) /\
  (forall names, validate_directory_against_xsd (Some dir) (Some (Some accepts)) = inr (NotValid names) <->
     names <> [] /\ rejected accepts dir names).
Proof. intros X dir accepts. apply report_proof. Qed.
Print Assumptions C103_report.

(** The only other way it ends, given a directory and a schema: the first ".spold" file
    that is no XML. *)
Theorem C103_broken : forall X (dir : list (string * node X)) accepts e,
  validate_directory_against_xsd (Some dir) (Some (Some accepts)) = inl e <->
  exists before n d after, dir = before ++ (n, d) :: after /\ e = BadFile n /\ ends_spold n /\ ~ readable (n, d) /\
    Forall (fun f => ends_spold (fst f) -> readable f) before.
Proof. intros X dir accepts e. apply broken_proof. Qed.
Print Assumptions C103_broken.

(** What is missing is found before any file is read. *)
Theorem C103_missing : forall X (dir : option (list (string * node X))) schema,
  (dir = None -> validate_directory_against_xsd dir schema = inl NoDirectory) /\
  (dir <> None -> schema = None -> validate_directory_against_xsd dir schema = inl NoSchema) /\
  (dir <> None -> schema = Some None -> validate_directory_against_xsd dir schema = inl BadSchema).
Proof. intros X [dir|] schema; split_and!; intros; subst; done. Qed.
Print Assumptions C103_missing.

(** The files are those that extraction reads. *)
Theorem C103_same_files : forall X (fs : gmap string (file (C:=node X))) name,
  is_Some (source fs !! name) <-> is_Some (fs !! name) /\ ends_spold name.
Proof.
  intros X fs name. unfold source. rewrite lookup_fmap, fmap_is_Some, <- is_spold_iff. split.
  - intros [f H]. apply map_filter_lookup_Some in H as [H1 H2]. split; [by eexists|done].
  - intros [[f H1] H2]. exists f. by apply map_filter_lookup_Some.
Qed.
Print Assumptions C103_same_files.

(** Finding: a file that is no XML hides the files found before it: nothing is reported. *)
Theorem C103_garbled_refuted : forall X (before after : list (string * node X)) n d accepts,
  Forall (fun f => ends_spold (fst f) -> readable f) before -> ends_spold n -> ~ readable (n, d) ->
  validate_directory_against_xsd (Some (before ++ (n, d) :: after)) (Some (Some accepts)) = inl (BadFile n).
Proof. intros X before after n d accepts H1 H2 H3. apply broken_proof. by exists before, n, d, after. Qed.
Print Assumptions C103_garbled_refuted.

Example report_example :
  validate_directory_against_xsd
    (Some [("a.spold", Document 1); ("notes.txt", Garbled); ("B.SPOLD", Document 7); ("c.spold", Document 9)]%string)
    (Some (Some (fun n => n <? 5))) = inr (NotValid ["B.SPOLD"; "c.spold"]%string).
Proof. by vm_compute. Qed.
Example garbled_example :
  validate_directory_against_xsd
    (Some [("a.spold", Document 1); ("B.SPOLD", Document 7); ("c.spold", Garbled); ("d.spold", NotAFile)]%string)
    (Some (Some (fun n => n <? 5))) = inl (BadFile "c.spold").
Proof. by vm_compute. Qed.
Example valid_example :
  validate_directory_against_xsd (Some [("a.spold", Document 1); ("sub", NotAFile)]%string) (Some (Some (fun n => n <? 5))) = inr AllValid.
Proof. by vm_compute. Qed.
