(** Property theorems C113: the collection [link_markets_by_pv] as a whole on objects. *)
From stdpp Require Import gmap.
From Verif Require Import Base Types Utils ActivityLinks Cutoff Topology Locations Heap Spec_Heap HeapMarkets Spec_HeapGroups HeapLinking HeapRow
  Heap_proofs HeapRow_proofs Props_Topology Props_ActivityLinks Props_Locations Props_Markets Props_HeapHard Props_HeapMarkets Props_HeapLinking.

(** ** C113 The collection of linking on objects *)
(** Making rest-of-world datasets group by group on objects that share nothing gives what the
    values give, and the datasets keep their objects. *)
Theorem C113_relabel : forall h Fs xs dss, wf h -> separate h Fs xs dss ->
  does (next h) (concat Fs) (relabel_h xs) (relabel_global_to_row dss) (fun h' _ dss' => separate h' Fs xs dss') h.
Proof. exact relabel_proof. Qed.
Print Assumptions C113_relabel.
(** So do codes of datasets and of reference products, ... *)
Theorem C113_codes : forall md5 h Fs xs dss, wf h -> separate h Fs xs dss ->
  does (next h) (concat Fs) (codes_h md5 [] xs) (add_unique_codes md5 dss) (fun h' _ dss' => separate h' Fs xs dss') h /\
  does (next h) (concat Fs) (refcodes_h xs) (add_reference_product_codes dss) (fun h' _ dss' => separate h' Fs xs dss') h.
Proof. exact (fun md5 h Fs xs dss Hw Hs => conj (codes_proof md5 h Fs xs dss Hw Hs) (refcodes_proof h Fs xs dss Hw Hs)). Qed.
Print Assumptions C113_codes.
(** ... labels, volumes that are made up and the place of the pipeline. *)
Theorem C113_before : forall h Fs xs dss, wf h -> separate h Fs xs dss ->
  does (next h) (concat Fs) (label_h xs) (label_reference_product dss) (fun h' _ dss' => separate h' Fs xs dss') h /\
  does (next h) (concat Fs) (fake_pv_h xs) (assign_fake_pv_to_confidential_datasets dss) (fun h' _ dss' => separate h' Fs xs dss') h /\
  does (next h) (concat Fs) (pipeline_h xs) (Ok (correct_natural_gas_pipeline_location dss)) (fun h' _ dss' => separate h' Fs xs dss') h.
Proof.
  exact (fun h Fs xs dss Hw Hs => conj (label_proof h Fs xs dss Hw Hs) (conj (fake_proof h Fs xs dss Hw Hs) (pipeline_proof h Fs xs dss Hw Hs))).
Qed.
Print Assumptions C113_before.
(** From newly made objects: the whole collection. *)
Theorem C113_run : forall md5 ln ord t dss,
  same_outcome ((let! xs := mapM store dss in let! ys := link_all_h md5 ln ord t xs in mapM readD ys) nothing).1
    (link_markets_by_pv md5 ln ord t dss).
Proof. exact link_all_run_proof. Qed.
Print Assumptions C113_run.

Definition ex_all : list dataset :=
  [ex_place "" "coal mining" "GLO" "coal" Transforming 10; ex_place "" "coal mining" "FR" "coal" Transforming 8;
   ex_place "" "coal mining" "DE" "coal" Transforming 1; ex_place "" "market for coal" "GLO" "coal" MarketActivity 0;
   ex_place "" "ore mining" "GLO" "ore" Transforming 5; ex_place "" "market for ore" "GLO" "ore" MarketActivity 0;
   ex_place "" "feldspar production" "FR" "feldspar" Transforming 0;
   ex_place "" "market for refinery gas" "GLO" "gas" MarketActivity 0;
   ex_place "" "transport, pipeline, long distance, natural gas" "RER w/o DE+NL+NO" "gas" Transforming 1].
Definition ex_volume (ds : dataset) : string * list (option Qc) := (d_location ds, omap (fun e => option_map (fun v => Some (v_amount v)) (e_pv e)) (d_exchanges ds)).
Example C113_relabel_nonvacuous :
  fmapR (map ex_volume) ((let! xs := mapM store ex_all in let! _ := relabel_h xs in mapM readD xs) nothing).1
  = Ok (map (fun p : string * Z => (p.1, [Some (Qcint p.2)]))
      [("RoW", 1%Z); ("FR", 8%Z); ("DE", 1%Z); ("GLO", 0%Z); ("GLO", 5%Z); ("GLO", 0%Z); ("FR", 0%Z); ("GLO", 0%Z); ("RER w/o DE+NL+NO", 1%Z)]%string).
Proof. by_compute. Qed.
Example C113_before_nonvacuous :
  fmapR (map ex_volume) ((let! xs := mapM store ex_all in let! _ := label_h xs in let! _ := fake_pv_h xs in let! _ := pipeline_h xs in mapM readD xs) nothing).1
  = Ok (map (fun p : string * Z => (p.1, [Some (Qcint p.2)]))
      [("GLO", 10%Z); ("FR", 8%Z); ("DE", 1%Z); ("GLO", 0%Z); ("GLO", 5%Z); ("GLO", 0%Z); ("FR", 1%Z); ("GLO", 0%Z); ("RER w/o DE+NL+NO+RU", 1%Z)]%string).
Proof. by_compute. Qed.
Example C113_codes_nonvacuous :
  fmapR (map (fun ds => (d_code ds, map e_code (d_exchanges ds))))
    ((let! xs := mapM store (take 2 ex_all) in let! _ := codes_h id [] xs in let! _ := refcodes_h xs in mapM readD xs) nothing).1
  = Ok [(Some "coal miningcoalglo", [Some "coal miningcoalglo"; None]); (Some "coal miningcoalfr", [Some "coal miningcoalfr"; None])]%string /\
  ((let! xs := mapM store (take 1 ex_all ++ take 1 ex_all) in codes_h id [] xs) nothing).1 = Err IdenticalDatasets.
Proof. split; by_compute. Qed.
(** One market is deleted; a market gets inputs from the new dataset of the rest of the
    world, too. *)
Example C113_run_nonvacuous :
  fmapR (map (fun ds => (d_code ds, map e_code (d_exchanges ds))))
    ((let! xs := mapM store (take 8 ex_all) in let! ys := link_all_h id id ex_sorted ex_world xs in mapM readD ys) nothing).1
  = Ok [(Some "coal miningcoalrow", [Some "coal miningcoalrow"; Some "market for oreoreglo"]);
        (Some "coal miningcoalfr", [Some "coal miningcoalfr"; Some "market for oreoreglo"]);
        (Some "coal miningcoalde", [Some "coal miningcoalde"; Some "market for oreoreglo"]);
        (Some "market for coalcoalglo",
         [Some "market for coalcoalglo"; Some "market for oreoreglo"; Some "coal miningcoalde"; Some "coal miningcoalfr"; Some "coal miningcoalrow"]);
        (Some "ore miningoreglo", [Some "ore miningoreglo"; Some "market for oreoreglo"]);
        (Some "market for oreoreglo", [Some "market for oreoreglo"; Some "market for oreoreglo"; Some "ore miningoreglo"]);
        (Some "feldspar productionfeldsparfr", [Some "feldspar productionfeldsparfr"; Some "market for oreoreglo"])]%string.
Proof. by_compute. Qed.
