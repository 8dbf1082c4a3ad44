(** Specification for C15: the function that handles a dataset of each label.
    There is none for constrained markets. *)
From Verif Require Import Base Types Validation Cutoff.

Inductive handled (ln : Qc -> Qc) (recalc : dataset -> result dataset) (ds : dataset)
  : string -> list dataset -> Prop :=
| H_single : handled ln recalc ds "single product" [ds]
| H_group outs : no_allocation ds = Ok outs -> handled ln recalc ds "market group" outs
| H_market outs : no_allocation ds = Ok outs -> handled ln recalc ds "unconstrained market" outs
| H_economic outs : economic_allocation ln ds = Ok outs -> handled ln recalc ds "economic" outs
| H_recycling outs : recycling_allocation ln ds = Ok outs -> handled ln recalc ds "recycling" outs
| H_waste outs : waste_treatment_allocation ln ds = Ok outs ->
    handled ln recalc ds "waste treatment" outs
| H_without outs : combined_production_without_products ln recalc ds = Ok outs ->
    handled ln recalc ds "combined production without products" outs
| H_combined outs : combined_production recalc ds = Ok outs ->
    handled ln recalc ds "combined production" outs
| H_with outs : combined_production_with_byproducts ln recalc ds = Ok outs ->
    handled ln recalc ds "combined production with byproducts" outs.
