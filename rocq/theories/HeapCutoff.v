(** Objects with identity, continued: the cutoff model from allocation to its end
    (ocelot/configuration.py lines 61-68). *)
From stdpp Require Import gmap.
From Verif Require Import Base Types Utils Validation Cutoff Topology Pipeline Heap HeapRow.

(** cutoff/cleanup.py lines 28-46; the condition is looked at when the loop comes to the
    exchange. *)
Definition drop_rp_links_h (data : list addr) : M unit :=
  pass_h (fun _ e => Ok (if (bool_decide (e_type e = RefProduct) || bool_decide (e_type e = DroppedProduct)) && link_truthy e
                         then set_e_link None e else e)) data.
(** cutoff/wastes.py lines 106-119. *)
Definition rename_h (data : list addr) : M unit :=
  iterM (fun a =>
    let! d := getD a in
    let! _ := iterM (modE (fun e => Ok (set_e_name (strip_marker (e_name e)) e))) d.2 in
    modD (fun ds => Ok (set_d_refprod (option_map strip_marker (d_refprod ds)) ds)) a) data.
(** cutoff/wastes.py lines 179-203. *)
Definition flip_h (data : list addr) : M unit := pass_h (fun _ => flip_exchange) data.
(** cutoff/markets.py lines 43-68, one dataset. *)
Definition adjust_h (ln : Qc -> Qc) (a : addr) : M unit :=
  let! ds := readD a in
  let! d := getD a in
  if bool_decide (d_type ds = MarketActivity) then
    let! rp := lift (get_single_reference_product ds) in
    let! c := lift (getkey "byproduct classification" (e_class rp)) in
    if bool_decide (c = Waste) then retM tt
    else if forallb (fun e => Qcleb (e_amount e) 0) (d_exchanges ds) then iterM (modE (negate_exchange ln)) d.2
    else if Qcltb (e_amount rp) 0 then
      iterM (modE (fun e => if (e_name e =? e_name rp)%string then negate_exchange ln e else Ok e)) d.2
    else retM tt
  else retM tt.

(** configuration.py lines 61-68. *)
Definition cutoff_h (w : world) (data : list addr) : M (list addr) :=
  let! data := cutoff_allocation_h (w_ln w) (w_recalc w) data in
  let! _ := drop_rp_links_h data in
  let! data := link_all_h (w_md5 w) (w_ln w) (w_ord w) (w_topo w) data in
  let! _ := rename_h data in
  let! _ := flip_h data in
  let! _ := iterM (normalize_h (w_ln w)) data in
  let! _ := iterM (adjust_h (w_ln w)) data in
  retM data.
