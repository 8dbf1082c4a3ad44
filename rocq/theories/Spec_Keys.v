(** C100: which missing key is reported.  A pass reads keys in some order; the first one
    that is missing is the one the error names. *)
From Verif Require Import Base Types Uncertainty.

Definition has {A} (o : option A) : bool := match o with Some _ => true | None => false end.
(** Keys in the order in which they are read, and whether they are there. *)
Definition reads := list (string * bool).
Fixpoint first_missing (l : reads) : option string :=
  match l with
  | [] => None
  | (k, true) :: l => first_missing l
  | (k, false) :: _ => Some k
  end.
(** KeyError for the first missing key, and for no other. *)
Definition complains {A} (r : result A) (l : reads) : Prop :=
  forall k, r = Err (KeyError k) <-> first_missing l = Some k.
(** The same, and there is no other error. *)
Definition only_complains {A} (r : result A) (l : reads) : Prop :=
  match first_missing l with
  | Some k => r = Err (KeyError k)
  | None => exists a, r = Ok a
  end.

(** ** What is read *)
Definition uncertainty_reads (o : uobj) (of : uncert -> reads) : reads :=
  ("uncertainty"%string, has (o_unc o)) :: match o_unc o with Some u => of u | None => [] end.
Definition minimum (u : uncert) : string * bool := ("minimum"%string, has (u_min u)).
Definition maximum (u : uncert) : string * bool := ("maximum"%string, has (u_max u)).
Definition mode (u : uncert) : string * bool := ("mode"%string, has (u_mode u)).
Definition mean (u : uncert) : string * bool := ("mean"%string, has (u_mean u)).
Definition mu (u : uncert) : string * bool := ("mu"%string, has (u_mu u)).
Definition variance (u : uncert) : string * bool := ("variance"%string, has (u_variance u)).
Definition with_pedigree (u : uncert) : string * bool := ("variance with pedigree uncertainty"%string, has (u_vwpu u)).
(** By-products have to be classified. *)
Definition class_reads (e : exchange) : reads :=
  match e_type e with Byproduct => [("byproduct classification"%string, has (e_class e))] | _ => [] end.
Definition id_reads (e : exchange) : reads := [("id"%string, has (e_id e))].
Definition volume_reads (e : exchange) : reads := [("production volume"%string, has (e_pv e))].
Definition code_reads (e : exchange) : reads := [("code"%string, has (e_code e))].
Definition produces_output (e : exchange) : bool :=
  match e_type e with
  | RefProduct => true
  | Byproduct => bool_decide (e_class e = Some Allocatable)
  | _ => false
  end.
Definition everywhere (of : exchange -> reads) (data : list dataset) : reads :=
  concat (map (fun ds => concat (map of (d_exchanges ds))) data).
(** The volume of a supplier. *)
Definition volume_of (s : exchange) : Qc := match e_pv s with Some v => v_amount v | None => 0%Qc end.
(** What a market reads to link its suppliers: their volumes, then the codes of those that get
    a share. *)
Definition market_reads (ds : dataset) : reads :=
  ("suppliers"%string, has (d_suppliers ds)) ::
  match d_suppliers ds with
  | None => []
  | Some l => concat (map volume_reads l) ++
      if Qctruthy (Qcsum (map volume_of l)) then concat (map code_reads (filterb (fun s => Qctruthy (volume_of s)) l))
      else match l with [s] => code_reads s | _ => [] end
  end.
Definition total_reads (ds : dataset) (rp : exchange) : reads :=
  ("suppliers"%string, has (d_suppliers ds)) ::
  match d_suppliers ds with None => [] | Some l => concat (map volume_reads l) ++ volume_reads rp end.
(** What scaling, repairing and sampling a distribution read. *)
Definition scaling_reads (f : Qc) (o : uobj) : reads :=
  match o_unc o with
  | None => []
  | Some u => match u_type u with
    | None | Some (UOther _) => []
    | Some UUndefined | Some UUniform => [minimum u; maximum u]
    | Some ULognormal => []
    | Some UNormal => if Qceqb f 0 || Qceqb (o_amount o) 0 then [] else [variance u]
    | Some UTriangular => [minimum u; mode u; maximum u]
    end
  end.
Definition repair_reads (o : uobj) : reads :=
  match o_unc o with
  | None => []
  | Some u => match u_type u with
    | None | Some (UOther _) | Some UUndefined => []
    | Some ULognormal => if Qceqb (o_amount o) 0 then [] else [with_pedigree u]
    | Some UNormal => [with_pedigree u]
    | Some UTriangular | Some UUniform => [minimum u; maximum u]
    end
  end.
Definition sampling_reads (o : uobj) : reads :=
  match o_unc o with
  | None => []
  | Some u => match u_type u with
    | None | Some (UOther _) | Some UUndefined => []
    | Some ULognormal => [mu u; with_pedigree u]
    | Some UNormal => [mean u; with_pedigree u]
    | Some UTriangular => [mode u; minimum u; maximum u]
    | Some UUniform => [minimum u; maximum u]
    end
  end.
