(** What the tables of linking should show. *)
From Verif Require Import Base Types Utils Topology Spec_Consumers Tables.

(** The suppliers that market groups list. *)
Definition listed_suppliers (data : list dataset) : list row :=
  concat (map (fun ds => map (fun s => [Txt (d_name ds); Txt (d_location ds);
                                        Txt (default ""%string (e_location s))]) (default [] (d_suppliers ds)))
    (filter (fun ds => d_type ds = MarketGroup) data)).

(** An input, what becomes of it and the rows for it: the markets, if there is not one only. *)
Definition shown_input (t : topo) (data : list dataset) (ds : dataset) (e : exchange)
    (r : (list exchange * list exchange) * list row) : Prop :=
  (~ open_exchange e /\ r = (([e], []), [])) \/
  (open_exchange e /\ exists ms, chosen_markets t data ds (e_name e) ms /\ linked_input ms e r.1.1 r.1.2 /\
     (List.length ms = 1 -> r.2 = []) /\
     (List.length ms <> 1 -> r.2 = map (fun m => [Txt (d_name ds); Txt (d_location ds); Txt (d_location m)]) ms)).
Definition shown_consumer (t : topo) (data : list dataset) (ds : dataset) (out : dataset * list row) : Prop :=
  exists rs s, Forall2 (shown_input t data ds) (d_exchanges ds) rs /\
    out.1 = set_d_suppliers s (set_d_exchanges (concat (map (fun r => r.1.1) rs) ++ concat (map (fun r => r.1.2) rs)) ds) /\
    out.2 = concat (map snd rs).

(** The number of cells. *)
Definition fits_in (tables : list (string * list string)) (name : string) (rows : list row) : Prop :=
  exists cols, (name, cols) ∈ tables /\ Forall (fun r => List.length r = List.length cols) rows.
