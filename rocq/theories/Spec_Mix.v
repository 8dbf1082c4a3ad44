(** Specifications for C33, C34 and C35: production volumes and market mixes. *)
From Verif Require Import Base Types Spec_Utils.

(** The production volume of a supplying exchange. *)
Definition volume_of (s : exchange) : Qc :=
  match e_pv s with Some v => v_amount v | None => 0%Qc end.
Definition first_volume_of (s : exchange) : Qc :=
  match e_pv s with
  | Some v => match v_original v with Some x => x | None => v_amount v end
  | None => 0%Qc
  end.
Definition total_volume (l : list exchange) : Qc := Qcsum (map volume_of l).
Definition sharing (l : list exchange) : list exchange := filter (fun s => volume_of s <> 0%Qc) l.

(** The input of a market from one supplier: a bare exchange with the share of
    the supplier in the output [amount]. *)
Definition mix_input (amount total : Qc) (s e : exchange) : Prop :=
  is_Some (e_code s) /\
  e = set_e_unc None (set_e_code (e_code s) (set_e_tag (Some "intermediateExchange"%string)
        (set_e_type FromTechnosphere (set_e_unit (e_unit s) (set_e_name (e_name s)
          (set_e_amount (volume_of s / total * amount)%Qc exchange0)))))).

(** A market is given inputs from its suppliers. *)
Definition mixed (ds ds' : dataset) : Prop :=
  exists rp suppliers, filter is_refproduct (d_exchanges ds) = [rp] /\
    d_suppliers ds = Some suppliers /\ Forall (fun s => is_Some (e_pv s)) suppliers /\
    ((* by volume *)
     (total_volume suppliers <> 0%Qc /\ exists new,
        ds' = set_d_exchanges (d_exchanges ds ++ new) ds /\
        Forall2 (mix_input (e_amount rp) (total_volume suppliers)) (sharing suppliers) new /\
        Qcsum (map e_amount new) = e_amount rp)
     (* a single supplier without volume *)
     \/ (exists s v new, suppliers = [s] /\ volume_of s = 0%Qc /\ e_pv s = Some v /\
          ds' = set_d_suppliers (Some [set_e_pv (Some (set_v_amount (Qcint 4321) v)) s])
                  (set_d_exchanges (d_exchanges ds ++ [new]) ds) /\
          is_Some (e_code s) /\
          new = set_e_unc None (set_e_code (e_code s) (set_e_tag (Some "intermediateExchange"%string)
                  (set_e_type FromTechnosphere (set_e_unit (e_unit s) (set_e_name (e_name s)
                    (set_e_amount (e_amount rp) exchange0)))))))
     (* no or several suppliers, without volume *)
     \/ (total_volume suppliers = 0%Qc /\ length suppliers <> 1%nat /\ ds' = ds)).

(** [ds'] is [ds] with the volume [amount] and first volume [first] on its only
    reference product. *)
Definition revalued (amount first : Qc) (ds ds' : dataset) : Prop :=
  exists rp v before after,
    d_exchanges ds = before ++ rp :: after /\ is_refproduct rp /\ e_pv rp = Some v /\
    Forall (fun e => ~ is_refproduct e) (before ++ after) /\
    ds' = set_d_exchanges (before ++ set_e_pv (Some (set_v_amount amount
            (set_v_original_total (Some first) v))) rp :: after) ds.
(** What hard links take from the only reference product. *)
Definition taken (ds : dataset) : Qc :=
  match filter is_refproduct (d_exchanges ds) with
  | [rp] => match e_pv rp with
            | Some v => match v_subtracted v with Some x => x | None => 0%Qc end
            | None => 0%Qc
            end
  | _ => 0%Qc
  end.
(** The production volume of a dataset. *)
Definition output_volume (ds : dataset) : option Qc :=
  match filter is_refproduct (d_exchanges ds) with
  | [rp] => match e_pv rp with Some v => Some (v_amount v) | None => None end
  | _ => None
  end.

(** ** Market groups *)
Definition is_group (data : list dataset) (i : nat) (d : dataset) : Prop :=
  data !! i = Some d /\ d_type d = MarketGroup.

(** A supplier which is itself a market group of the database has the volume
    that group has in the end; others keep theirs. *)
Definition supplier_revalued (data data' : list dataset) (s s' : exchange) : Prop :=
  (exists j d d' pv, is_group data j d /\ e_code s = d_code d /\ data' !! j = Some d' /\
     output_volume d' = Some pv /\ s' = set_e_pv (Some (set_v_amount pv pvol0)) s) \/
  ((forall j d, is_group data j d -> e_code s <> d_code d) /\ s' = s).
