(** Model of both tables of ocelot/transformations/uncertainty/pedigree.py. *)
From Verif Require Import Base Types Uncertainty.

(** pedigree.py lines 18-25, table 'Ciroth et al'. *)
Definition ciroth_row (label : string) : option (list Qc) :=
  if (label =? "reliability")%string then
    Some [0%Qc; frac 47 1000; frac 57 1000; frac 69 1000; frac 69 1000]
  else if (label =? "completeness")%string then
    Some [0%Qc; frac 22 100000; frac 38 100000; frac 15 10000; frac 15 10000]
  else if (label =? "temporal correlation")%string then
    Some [0%Qc; frac 22 100000; frac 23 10000; frac 76 10000; frac 16 1000]
  else if (label =? "geographical correlation")%string then
    Some [0%Qc; frac 22 100000; frac 23 10000; frac 76 10000; frac 16 1000]
  else if (label =? "further technological correlation")%string then
    Some [0%Qc; frac 22 100000; frac 23 10000; frac 76 10000; frac 16 1000]
  else if (label =? "sample size")%string then
    Some [0%Qc; 0%Qc; 0%Qc; 0%Qc; 0%Qc]
  else None.
Global Arguments ciroth_row : simpl never.

(** pedigree.py lines 5-26, [PEDIGREE_MATRIX_VALUES]. *)
Definition pedigree_table (version : string) : option (string -> option (list Qc)) :=
  if (version =? "original")%string then Some pedigree_row
  else if (version =? "Ciroth et al")%string then Some ciroth_row
  else None.
Global Arguments pedigree_table : simpl never.

(** pedigree.py lines 29-32, [get_pedigree_variance] with both arguments.  The table is
    looked up for each score, so never for an empty matrix. *)
Definition get_pedigree_variance_of (version : string) (pm : pedigree) : result Qc :=
  let? l := mapR (fun kv : string * Z =>
    let? table := getkey version (pedigree_table version) in
    let? row := getkey kv.1 (table kv.1) in
    py_index row (kv.2 - 1)%Z) pm in
  Ok (Qcsum l).
