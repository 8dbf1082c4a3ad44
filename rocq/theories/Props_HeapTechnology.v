(** Property theorems C114: the collection [link_markets_by_technology_level] as a whole on
    objects. *)
From stdpp Require Import gmap.
From Verif Require Import Base Types Utils Topology Locations Consequential Heap Spec_Heap HeapMarkets Spec_HeapGroups HeapTechnology
  Heap_proofs HeapTechnology_proofs Props_Topology Props_Locations Props_Consequential.

(** ** C114 Consequential linking on objects *)
(** Choosing suppliers by technology level and deleting the lists of suppliers on objects that
    share nothing gives what the values give, and the datasets keep their objects. *)
Theorem C114_suppliers : forall h Fs xs dss, wf h -> separate h Fs xs dss ->
  does (next h) (concat Fs) (prune_h xs) (prune_suppliers_by_technology_level dss) (fun h' _ dss' => separate h' Fs xs dss') h /\
  does (next h) (concat Fs) (delete_suppliers_h xs) (Ok (delete_suppliers_list dss)) (fun h' _ dss' => separate h' Fs xs dss') h.
Proof. exact (fun h Fs xs dss Hw Hs => conj (prune_proof h Fs xs dss Hw Hs) (delete_suppliers_proof h Fs xs dss Hw Hs)). Qed.
Print Assumptions C114_suppliers.
(** From newly made objects: the whole collection. *)
Theorem C114_run : forall md5 ln ord t dss,
  same_outcome ((let! xs := mapM store dss in let! ys := technology_h md5 ln ord t xs in mapM readD ys) nothing).1
    (link_markets_by_technology_level md5 ln ord t dss).
Proof. exact technology_run_proof. Qed.
Print Assumptions C114_run.

Example C114_suppliers_nonvacuous :
  fmapR (map (fun ds => option_map (map e_tech) (d_suppliers ds)))
    ((let! xs := mapM store [ex_levels "a" MarketActivity ["old"; "current"; "current"]; ex_levels "b" MarketGroup ["modern"; "new"];
                             ex_levels "c" Transforming ["old"; "new"]]%string in
      let! _ := prune_h xs in mapM readD xs) nothing).1
  = Ok [Some [Some "current"; Some "current"]; Some [Some "new"]; Some [Some "old"; Some "new"]]%string.
Proof. by_compute. Qed.
Example C114_run_nonvacuous :
  fmapR (map (fun ds => (d_location ds, d_suppliers ds, map (fun e => (e_name e, e_code e)) (d_exchanges ds))))
    ((let! xs := mapM store ex_consequential in let! ys := technology_h id id (fun s => elements s) ex_world xs in mapM readD ys) nothing).1
  = Ok [("FR", None, [("steel", None)]); ("DE", None, [("steel", None)]);
        ("FR", None, [("steel", None); ("steel", Some "steelmakingsteelfr")]);
        ("DE", None, [("steel", None); ("steel", Some "steelmakingsteelde")]);
        ("RER", None, [("steel", None)]);
        ("RER", None, [("car", None); ("steel", Some "market group for steelsteelrer")])]%string.
Proof. by_compute. Qed.
