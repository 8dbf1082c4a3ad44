(** What the detailed log should tell. *)
From Coq Require Import Ascii.
From Verif Require Import Base Types Utils Spec_Utils Topology Spec_Consumers Detailed.

(** The file of a path: what is left without its directory. *)
Fixpoint characters (s : string) : list ascii :=
  match s with EmptyString => [] | String c s => c :: characters s end.
Definition file_of (path name : string) : Prop :=
  "/"%char ∉ characters name /\
  exists dir, characters path = dir ++ characters name /\ (dir = [] \/ last dir = Some "/"%char).

(** A line is about a dataset. *)
Definition describes (ds : dataset) (l : line) : Prop :=
  l_id l = d_id ds /\ file_of (d_filepath ds) (l_file l) /\ l_code l = d_code ds.

(** ** Hard-linked volumes *)
(** What is recorded as subtracted from the products of a dataset. *)
Definition taken_from (ds : dataset) : Qc :=
  Qcsum (map (fun e => default 0%Qc (e_pv e ≫= v_subtracted)) (d_exchanges ds)).
(** What the log says was subtracted from the dataset called [i]. *)
Definition said_taken (i : string) (ls : list line) : Qc :=
  Qcsum (map (fun l => match l_message l with Subtracting x _ _ _ => x | _ => 0%Qc end)
           (filter (fun l => l_id l = i) ls)).
(** The lines about one exchange of [ds]: none without link; for a link to itself, how much
    of which volume (zero if there is none) is not counted; else how much is taken from
    which volume of the dataset with that id, and for whom. *)
Definition told_hard_link (data : list dataset) (ds : dataset) (e : exchange) (ls : list line) : Prop :=
  ((e_link e = None \/ e_link e = Some ""%string) /\ ls = []) \/
  (e_link e = Some (d_id ds) /\ exists l v, ls = [l] /\ describes ds l /\ l_message l = Ignoring (e_amount e) v /\
     (production_volume ds = Some v \/ production_volume ds = None /\ v = 0%Qc)) \/
  (exists i target e' v scale l, e_link e = Some i /\ i <> d_id ds /\ target ∈ data /\ d_id target = i /\
     e' ∈ d_exchanges target /\ e_name e' = e_name e /\ e_pv e' = Some v /\ get_biggest_pv_to_exchange_ratio ds = Ok scale /\
     ls = [l] /\ describes target l /\ l_message l = Subtracting (e_amount e * scale)%Qc (v_amount v) (d_name ds) (d_location ds)).
(** An exchange before and after, and the messages about it. *)
Definition told_net (e e' : exchange) (ms : list message) : Prop :=
  (e' = e /\ ms = []) \/
  (exists v s, alloc_output e /\ e_pv e = Some v /\ v_subtracted v = Some s /\ ms = [HardLinked s (v_amount v)] /\
     e_pv e' = Some (set_v_amount (Qcmax (v_amount v - s) 0) (set_v_original (Some (v_amount v)) v))).

(** ** The rest of the world *)
(** A dataset before and after, and the line about it. *)
Definition told_created (ds ds' : dataset) (l : line) : Prop :=
  describes ds l /\ exists rp v r, filter is_refproduct (d_exchanges ds) = [rp] /\ e_pv rp = Some v /\
    l_message l = Created (d_name ds) (Qcmax (v_amount v - r) 0) (e_unit rp) (v_amount v) r /\
    exists rp', filter is_refproduct (d_exchanges ds') = [rp'] /\
      e_pv rp' = Some (set_v_amount (Qcmax (v_amount v - r) 0) (set_v_global (Some (v_amount v)) v)).

(** ** Markets *)
Definition is_input (l : line) : bool := match l_message l with Input _ _ _ _ _ => true | _ => false end.
Definition input_amount (l : line) : Qc := match l_message l with Input x _ _ _ _ => x | _ => 0%Qc end.
Definition inputs (ls : list line) : list line := filter (fun l => is_input l = true) ls.
(** The line about a new input for [product]. *)
Definition told_input (product : string) (e : exchange) (l : line) : Prop :=
  exists place, l_message l = Input (e_amount e) (e_unit e) product (e_name e) place.

(** The line before those about inputs: what is divided among how many, or that the only
    supplier has no volume. *)
Definition told_market (ds : dataset) (rp : exchange) (suppliers : list exchange) (before : list message) : Prop :=
  let total := Qcsum (map (fun s => default 0%Qc (v_amount <$> e_pv s)) suppliers) in
  (total <> 0%Qc /\ before = [Divided total (e_name rp) (List.length suppliers)]) \/
  (total = 0%Qc /\ before = match suppliers with
    | [s] => [DefaultVolume (d_name ds) (default ""%string (d_refprod ds)) (d_location ds) (e_name s) (default ""%string (e_location s))]
    | _ => []
    end).

(** ** Consumers *)
(** The messages about an input for which the markets [ms] were chosen. *)
Definition told_choice (e : exchange) (ms : list dataset) (msgs : list message) : Prop :=
  let total := Qcsum (map market_volume ms) in
  match ms with
  | [] => msgs = []
  | [m] => msgs = [Complete (e_name e) (e_amount e) (d_name m) (d_location m)]
  | _ => msgs = map (fun m => Consumption (e_name e) (e_name e) (d_location m)) ms ++
           (if decide (total = 0%Qc) then []
            else Divided total (e_name e) (List.length ms) ::
                 map (fun m => Input (market_volume m / total * e_amount e)%Qc (e_unit e) (e_name e) (e_name e) (d_location m))
                   (filter (fun m => market_volume m <> 0%Qc) ms))
  end.
(** An exchange, what becomes of it, and the messages about it. *)
Definition told_exchange (t : topo) (data : list dataset) (ds : dataset) (e : exchange)
    (r : (list exchange * list exchange) * list message) : Prop :=
  (~ open_exchange e /\ r = (([e], []), [])) \/
  (open_exchange e /\ exists ms, chosen_markets t data ds (e_name e) ms /\ linked_input ms e r.1.1 r.1.2 /\
     told_choice e ms r.2).
Definition told_consumer (t : topo) (data : list dataset) (ds ds' : dataset) (ls : list line) : Prop :=
  Forall (describes ds) ls /\
  exists rs s, Forall2 (told_exchange t data ds) (d_exchanges ds) rs /\
    ds' = set_d_suppliers s (set_d_exchanges (concat (map (fun r => r.1.1) rs) ++ concat (map (fun r => r.1.2) rs)) ds) /\
    map l_message ls = concat (map snd rs).

(** ** Links that became codes *)
(** The dataset a link refers to: the only one with the id and the product. *)
Definition referred (data : list dataset) (e : exchange) (found : dataset) : Prop :=
  exists i, e_link e = Some i /\ i <> ""%string /\
    filter (fun d => d_id d = i /\ d_refprod d = Some (e_name e)) data = [found].
Definition told_link (data : list dataset) (e e' : exchange) (ms : list message) : Prop :=
  (exists found, referred data e found /\ ms = [LinkedTo (e_name e) (d_name found) (d_location found)] /\
     is_Some (d_code found) /\ e' = set_e_code (d_code found) e) \/
  ((forall found, ~ referred data e found) /\ ms = [] /\ e' = e).

(** ** The function a message comes from *)
Definition writer (m : message) : string :=
  match m with
  | Ignoring _ _ | Subtracting _ _ _ _ => "add_hard_linked_production_volumes"
  | HardLinked _ _ => "update_transforming_activity_production_volumes"
  | Method _ => "label_allocation_method"
  | Created _ _ _ _ _ => "relabel_global_to_row"
  | DefaultVolume _ _ _ _ _ | Divided _ _ _ | Input _ _ _ _ _ => "allocate_suppliers"
  | LinkedTo _ _ _ => "actualize_activity_links"
  | Complete _ _ _ _ | Consumption _ _ _ => "link_consumers_to_markets"
  end.
Definition signed (l : line) : Prop := l_function l = writer (l_message l).
