(** The arithmetic of normalisation, economic allocation and market shares as
    it is done on a machine: every [+], [*] and [/] is followed by [fl], which
    stands for the rounding of its exact result.  Only the amounts are kept;
    names, types and distributions are as in [Utils], [Cutoff] and [Locations].
    With [fl] the identity these are the definitions there. *)
From Coq Require Import QArith.Qround.
From Verif Require Import Base Types Uncertainty Utils Cutoff Spec_Float.

(** ** A rounding
    Rounding to 53 significant bits, to nearest, ties to even; the exponent is
    unbounded.  (Python's [float] is IEEE 754 binary64.) *)
Definition near_int (q : Qc) : Z :=
  let f := Qfloor (this q) in
  let r := (q - Qcint f)%Qc in
  if Qcltb r (frac 1 2) then f
  else if Qcltb (frac 1 2) r then (f + 1)%Z
  else if Z.even f then f else (f + 1)%Z.
(** The exponent of the leading bit of [x <> 0]. *)
Definition magnitude (x : Qc) : Z :=
  let k := (Z.log2 (Z.abs (Qnum (this x))) - Z.log2 (Zpos (Qden (this x))))%Z in
  if Qcltb (Qcabs x) (pow2 k) then (k - 1)%Z else k.
Definition fl64 (x : Qc) : Qc :=
  if Qceqb x 0 then 0%Qc
  else let w := pow2 (magnitude x - 52) in (Qcint (near_int (x / w)) * w)%Qc.

(** ** Orders of addition *)
(** Python's [sum] (CPython before 3.12): from zero, left to right. *)
Definition python_sum (fl : Qc -> Qc) (l : list Qc) : Qc :=
  fold_left (fun s x => fl (s + x)%Qc) l 0%Qc.

Section float.
  Context (fl : Qc -> Qc) (add : list Qc -> Qc).

  (** uncertainty/__init__.py lines 39-45 [scale_exchange] and
      uncertainty/distributions.py lines 31-35, 69, 144, 222, 316, 370: [amount *= factor] unless the
      factor is one. *)
  Definition float_scale (amount factor : Qc) : Qc :=
    if Qceqb factor 1 then amount else fl (amount * factor)%Qc.

  (** transformations/utils.py lines 228-243,
      [normalize_reference_production_amount]: [product] is the amount of the
      reference product, [amounts] those of all exchanges.  The literal
      [1e-14] is rounded too. *)
  Definition float_normalize (product : Qc) (amounts : list Qc) : result (list Qc) :=
    if negb (Qctruthy product) then Err ZeroProduction
    else
      let factor := fl (1 / Qcabs product)%Qc in
      if Qcltb (fl epsilon) (Qcabs (fl (factor - 1)%Qc))
      then Ok (map (fun a => float_scale a factor) amounts)
      else Ok amounts.

  (** transformations/utils.py lines 280-317,
      [choose_reference_product_exchange]: the reference product, [dropped]
      other products of amount zero, and the other exchanges, scaled. *)
  Definition float_choose (product factor : Qc) (dropped : nat) (others : list Qc)
    : result (list Qc) :=
    if negb (Qctruthy product) then Err ZeroProduction
    else float_normalize product
           (product :: repeat 0%Qc dropped ++ map (fun a => float_scale a factor) others).

  (** cutoff/economic.py lines 41-51 with transformations/utils.py lines
      199-223: the allocation factors. *)
  Definition float_revenue (e : exchange) : Qc := fl (price e * e_amount e)%Qc.
  Definition float_true_value (e : exchange) : Qc := fl (true_value e * e_amount e)%Qc.
  Definition float_factors (prods : list exchange) : result (list Qc) :=
    match prods with
    | [] => Err (KeyError "price")
    | _ =>
        let total := add (map float_revenue prods) in
        let mask := filterb has_true_value prods in
        let tv_total := add (map float_true_value prods) in
        let fraction := fl (add (map float_revenue mask) / total)%Qc in
        if Qceqb total 0 then Err NotANumber
        else if negb (bool_decide (mask = [])) && Qceqb tv_total 0 then Err NotANumber
        else Ok (map (fun e => if has_true_value e
                               then fl (fl (float_true_value e / tv_total) * fraction)%Qc
                               else fl (float_revenue e / total)%Qc) prods)
    end.

  (** transformations/locations/markets.py lines 169-250,
      [allocate_suppliers]: [pvs] are the production volumes of the suppliers,
      [amount] that of the exchange to be divided.  [None]: skipped.  A market
      multiplies the amount itself; a consumer calls [scale_exchange]. *)
  Definition float_input (is_market : bool) (amount total pv : Qc) : list Qc :=
    let factor := fl (pv / total)%Qc in
    if Qctruthy factor
    then [if is_market then fl (factor * amount)%Qc else float_scale amount factor]
    else [].
  Definition float_inputs (is_market : bool) (amount : Qc) (pvs : list Qc) : option (list Qc) :=
    let total := add pvs in
    if Qctruthy total then Some (concat (map (float_input is_market amount total) pvs))
    else match pvs with
         | [_] => Some (float_input is_market amount (Qcint 4321) (Qcint 4321))
         | _ => None
         end.
End float.

Global Arguments near_int : simpl never.
Global Arguments fl64 : simpl never.
Global Arguments pow2 : simpl never.
