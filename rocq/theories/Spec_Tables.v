(** What the tables of the report should show (C86-C88). *)
From Verif Require Import Base Types Utils Spec_Utils Tables.

(** A row for every exchange that is not what it was; the exchanges of a dataset before and
    after are compared one by one. *)
Definition altered_in (mk : dataset -> exchange -> exchange -> row) (ds ds' : dataset) : list row :=
  map (fun p => mk ds p.1 p.2) (filter (fun p => p.1 <> p.2) (zip (d_exchanges ds) (d_exchanges ds'))).
Definition altered (mk : dataset -> exchange -> exchange -> row) (data data' : list dataset) : list row :=
  concat (zip_with (altered_in mk) data data').

(** A row for every dataset that is not what it was. *)
Definition altered_datasets (mk : dataset -> dataset -> row) (data data' : list dataset) : list row :=
  map (fun p => mk p.1 p.2) (filter (fun p => p.1 <> p.2) (zip data data')).

(** A row for every exchange. *)
Definition listing (mk : dataset -> exchange -> row) (data : list dataset) : list row :=
  concat (map (fun ds => map (mk ds) (d_exchanges ds)) data).

(** How much of its reference products a dataset makes. *)
Definition product_amount (ds : dataset) : Qc := Qcsum (map e_amount (filter is_refproduct (d_exchanges ds))).

(** Each row has a cell for each column of the table of the function [name]. *)
Definition fits (name : string) (rows : list row) : Prop :=
  exists cols, (name, cols) ∈ columns /\ Forall (fun r => List.length r = List.length cols) rows.
