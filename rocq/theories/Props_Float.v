(** C99: what is left of normalisation, allocation and market shares in
    floating point. *)
From Coq Require Import Floats.SpecFloat.
From Verif Require Import Base Types Spec_Float Uncertainty Utils Spec_Utils Cutoff Spec_Cutoff Locations Spec_Mix
  Float Float_proofs Float2_proofs Float3_proofs Float4_proofs.

(** ** The arithmetic *)
(** There is such an arithmetic, and it can be computed with. *)
Theorem C99_exists : rounding fl64.
Proof. exact fl64_rounding. Qed.
Print Assumptions C99_exists.

(** The error of one operation. *)
Theorem C99_error : forall fl x, rounding fl -> near unit_roundoff (fl x) x.
Proof. exact rounding_error. Qed.
Print Assumptions C99_error.

Theorem C99_order : forall fl x y, rounding fl -> (x <= y)%Qc -> (fl x <= fl y)%Qc.
Proof. exact rounding_order. Qed.
Print Assumptions C99_order.

Theorem C99_stored : forall fl x, rounding fl -> binary64 x -> fl x = x.
Proof. intros fl x H. exact (fl_exact fl H x). Qed.
Print Assumptions C99_stored.

(** Left to right, as Python does, or by halves, as numpy does. *)
Theorem C99_sums : forall fl, adds_up fl (python_sum fl) /\ adds_up fl (pairwise_sum fl).
Proof. intros fl. split; [exact (python_sum_adds fl)|exact (pairwise_sum_adds fl)]. Qed.
Print Assumptions C99_sums.

(** ** The programs are the modelled ones *)
Theorem C99_normalize_is : forall ln ds ds' rp, get_single_reference_product ds = Ok rp ->
  normalize_reference_production_amount ln ds = Ok ds' ->
  float_normalize id (e_amount rp) (map e_amount (d_exchanges ds)) = Ok (map e_amount (d_exchanges ds')).
Proof. exact normalize_exact. Qed.
Print Assumptions C99_normalize_is.

Theorem C99_choose_is : forall ln ds exc f ds', choose_reference_product_exchange ln ds exc f = Ok ds' ->
  exists d, nonproduction_exchanges ds = Ok d /\
  exists n, float_choose id (e_amount exc) f n (map e_amount d) = Ok (map e_amount (d_exchanges ds')).
Proof. exact choose_exact. Qed.
Print Assumptions C99_choose_is.

Theorem C99_factors_are : forall prods, float_factors id Qcsum prods = economic_factors prods.
Proof. exact factors_exact. Qed.
Print Assumptions C99_factors_are.

Theorem C99_suppliers_are : forall ds ds' rp l, get_single_reference_product ds = Ok rp -> d_suppliers ds = Some l ->
  allocate_suppliers ds = Ok ds' ->
  match float_inputs id Qcsum true (e_amount rp) (map volume_of l) with
  | None => ds' = ds
  | Some xs => map e_amount (d_exchanges ds') = map e_amount (d_exchanges ds) ++ xs
  end.
Proof. exact suppliers_exact. Qed.
Print Assumptions C99_suppliers_are.

(** ** Normalisation *)
(** The amount of the reference product afterwards: one, or the number just
    below it, or what it was before if that was within about 1e-14 of one. *)
Theorem C99_normalised : forall fl p l out i p', rounding fl -> float_normalize fl p l = Ok out ->
  l !! i = Some p -> out !! i = Some p' ->
  p' = sign p \/ p' = (sign p * (1 - unit_roundoff))%Qc \/
  (out = l /\ p' = p /\ Qcabs (Qcabs p - 1) <= frac 102 10000000000000000)%Qc.
Proof. intros fl p l out i p' H. exact (normalised_amount fl H p l out i p'). Qed.
Print Assumptions C99_normalised.

(** Normalising what is normalised changes nothing, to the last bit. *)
Theorem C99_twice : forall fl p l out i p', rounding fl -> float_normalize fl p l = Ok out ->
  l !! i = Some p -> out !! i = Some p' -> float_normalize fl p' out = Ok out.
Proof. intros fl p l out i p' H. exact (normalise_twice fl H p l out i p'). Qed.
Print Assumptions C99_twice.

(** Every amount is divided by that of the product, up to about 1e-14 of it. *)
Theorem C99_amounts : forall fl p l out, rounding fl -> float_normalize fl p l = Ok out ->
  Forall2 (fun a a' => near (frac 102 10000000000000000) a' (a / Qcabs p)) l out.
Proof. exact amounts_close. Qed.
Print Assumptions C99_amounts.

(** ** Allocation *)
(** Whatever the order of the additions, the factors are the exact ones up to
    3n + 7 steps, and so is their sum. *)
Theorem C99_factors : forall fl add prods fs', rounding fl -> adds_up fl add -> sound_prices prods ->
  few (3 * length prods + 7) -> float_factors fl add prods = Ok fs' ->
  exists fs, economic_factors prods = Ok fs /\
    Forall2 (near (units (3 * length prods + 7))) fs' fs /\ near (units (3 * length prods + 7)) (Qcsum fs') 1.
Proof. exact factors_close. Qed.
Print Assumptions C99_factors.

(** They fail to exist when the exact ones do. *)
Theorem C99_factors_fail : forall fl add prods e, rounding fl -> adds_up fl add -> sound_prices prods ->
  float_factors fl add prods = Err e <-> economic_factors prods = Err e.
Proof. exact factors_fail. Qed.
Print Assumptions C99_factors_fail.

(** Allocation, normalisation and all: the processes together, each as often
    as its product is made, have the burdens of the one there was. *)
Theorem C99_burdens : forall fl add prods fs' n others outs j b, rounding fl -> adds_up fl add -> sound_prices prods ->
  few (3 * length prods + 7) -> float_factors fl add prods = Ok fs' ->
  mapR (fun fp => float_choose fl fp.2 fp.1 n others) (zip fs' (map e_amount prods)) = Ok outs ->
  others !! j = Some b ->
  near (units (3 * length prods + 7) + frac 21 1000000000000000)
    (Qcsum (zip_with (in_total (S n + j)) outs (map e_amount prods))) b.
Proof. exact burdens_close. Qed.
Print Assumptions C99_burdens.

(** ** Markets and consumers *)
Theorem C99_shares : forall fl add is_market amount pvs l, rounding fl -> adds_up fl add -> Forall (fun x => 0 <= x)%Qc pvs ->
  few (length pvs + 2) -> Qcsum pvs <> 0%Qc -> float_inputs fl add is_market amount pvs = Some l ->
  Forall2 (fun pv x => near (units (length pvs + 2)) x (pv / Qcsum pvs * amount)) (giving pvs) l /\
  near (units (length pvs + 2)) (Qcsum l) amount.
Proof. exact shares_close. Qed.
Print Assumptions C99_shares.

Theorem C99_lone_supplier : forall fl add is_market amount, rounding fl -> adds_up fl add ->
  exists x, float_inputs fl add is_market amount [0%Qc] = Some [x] /\ near (units 1) x amount.
Proof. exact lone_supplier. Qed.
Print Assumptions C99_lone_supplier.

(** Rounding decides nothing: a market is skipped when it is in exact
    arithmetic. *)
Theorem C99_skipped : forall fl add is_market amount pvs, rounding fl -> adds_up fl add -> Forall (fun x => 0 <= x)%Qc pvs ->
  float_inputs fl add is_market amount pvs = None <-> Qcsum pvs = 0%Qc /\ length pvs <> 1%nat.
Proof. intros fl add m a pvs H1 H2. exact (inputs_skipped fl H1 add H2 m a pvs). Qed.
Print Assumptions C99_skipped.

(** ** Findings *)
(** utils.py line 229 says the amount becomes one: forty-nine does not. *)
Theorem C99_exactly_one_refuted : exists p out, binary64 p /\ float_normalize fl64 p [p] = Ok out /\
  out = [(1 - unit_roundoff)%Qc] /\ out <> [1%Qc].
Proof.
  exists (Qcint 49), [(1 - unit_roundoff)%Qc]. split; [by apply bits_int|]. split; [by_compute|]. split; [done|]. by_compute.
Qed.
Print Assumptions C99_exactly_one_refuted.

(** A number close to one stays as it is. *)
Theorem C99_left_alone_refuted : exists p, binary64 p /\ p <> 1%Qc /\ float_normalize fl64 p [p; Qcint 3] = Ok [p; Qcint 3].
Proof.
  exists (1 + pow2 (-47))%Qc. split; [exists (2 ^ 47 + 1)%Z, (-47)%Z; split; [by vm_compute|by_compute]|]. split; by_compute.
Qed.
Print Assumptions C99_left_alone_refuted.

(** Three equal shares of one are not one. *)
Theorem C99_whole_refuted : exists pvs l, Forall binary64 pvs /\
  float_inputs fl64 (python_sum fl64) true 1 pvs = Some l /\ Qcsum l <> 1%Qc.
Proof.
  exists [1%Qc; 1%Qc; 1%Qc], [fl64 (1 / Qcint 3); fl64 (1 / Qcint 3); fl64 (1 / Qcint 3)].
  split; [repeat constructor; apply bits_1|]. split; by_compute.
Qed.
Print Assumptions C99_whole_refuted.

(** With a negative volume among them the total can vanish by rounding: the
    market is skipped, though its total is one. *)
Theorem C99_cancelled_refuted : exists pvs, Forall binary64 pvs /\ Qcsum pvs = 1%Qc /\
  float_inputs fl64 (python_sum fl64) true 1 pvs = None /\ float_inputs fl64 (python_sum fl64) true 1 (rev pvs) <> None.
Proof.
  exists [Qcint (2 ^ 53); 1%Qc; Qcint (- 2 ^ 53)]. split; [repeat constructor; [by apply bits_int|apply bits_1|by apply bits_int]|].
  split; [by_compute|]. split; [by_compute|]. by_compute.
Qed.
Print Assumptions C99_cancelled_refuted.

(** ** Examples *)
(** [fl64] is the binary64 of Coq's own specification of floats, on numbers
    that stay in its range: quotients, products and sums. *)
Definition sf_int (z : Z) : spec_float := binary_normalize 53 1024 z 0 false.
Definition sf_value (f : spec_float) : option Qc :=
  match f with
  | S754_zero _ => Some 0%Qc
  | S754_finite s m e => Some (Qcint (if s then Zneg m else Zpos m) * pow2 e)%Qc
  | _ => None
  end.
Definition ex_numbers : list Z := [1; -1; 3; 7; 10; 49; -98; 1000003; 123456789123; 2 ^ 53 - 1; - (2 ^ 52 + 1); 2 ^ 60]%Z.
Example C99_specfloat :
  Forall (fun a => Forall (fun b =>
    sf_value (SFdiv 53 1024 (sf_int a) (sf_int b)) = Some (fl64 (Qcint a / Qcint b)) /\
    sf_value (SFmul 53 1024 (sf_int a) (SFdiv 53 1024 (sf_int 1) (sf_int b))) = Some (fl64 (Qcint a * fl64 (1 / Qcint b))) /\
    sf_value (SFadd 53 1024 (sf_int a) (SFdiv 53 1024 (sf_int 1) (sf_int b))) = Some (fl64 (Qcint a + fl64 (1 / Qcint b))))
    ex_numbers) ex_numbers.
Proof. by_compute. Qed.

(** A tie goes to the even neighbour, up or down. *)
Example C99_ties :
  fl64 (Qcint (2 ^ 53 + 1)) = Qcint (2 ^ 53) /\ fl64 (Qcint (2 ^ 53 + 3)) = Qcint (2 ^ 53 + 4) /\
  fl64 (- Qcint (2 ^ 53 + 3)) = (- Qcint (2 ^ 53 + 4))%Qc.
Proof. by_compute. Qed.

(** Heat at 10, power at 5 and steam at 20, the last two of true value 1 and 3,
    from 80 kilograms of coal. *)
Definition ex_of (n : string) (a : Qc) : prop := set_p_name n (set_p_amount a prop0).
Definition ex_prods : list exchange :=
  [set_e_props [ex_of "price" (Qcint 10)] (set_e_type RefProduct (set_e_amount (Qcint 7) exchange0));
   set_e_props [ex_of "price" (Qcint 5); ex_of "true value relation" 1] (set_e_type Byproduct (set_e_amount (Qcint 4) exchange0));
   set_e_props [ex_of "price" (Qcint 20); ex_of "true value relation" (Qcint 3)] (set_e_type Byproduct (set_e_amount (Qcint 3) exchange0))].
Definition ex_outs : result (list Qc * list (list Qc)) :=
  let? fs := float_factors fl64 (pairwise_sum fl64) ex_prods in
  let? outs := mapR (fun fp => float_choose fl64 fp.2 fp.1 2 [Qcint 80]) (zip fs (map e_amount ex_prods)) in
  Ok (fs, outs).
Example C99_nonvacuous_prices : sound_prices ex_prods /\ few (3 * length ex_prods + 7).
Proof. split; [repeat constructor; by_compute|]. unfold few. cbn. lia. Qed.
Definition ex_factors : list Qc := match ex_outs with Ok o => o.1 | Err _ => [] end.
Definition ex_coal : Qc :=
  match ex_outs with Ok o => Qcsum (zip_with (in_total 3) o.2 (map e_amount ex_prods)) | Err _ => 0%Qc end.
(** The three processes burn the 80 kilograms between them, less the last bits. *)
Example C99_nonvacuous :
  economic_factors ex_prods = Ok [frac 7 15; frac 32 195; frac 24 65] /\
  Qcsum ex_factors = (1 - pow2 (-55))%Qc /\ ex_coal = (Qcint 80 - Qcint 7 * pow2 (-50))%Qc.
Proof. by_compute. Qed.
(** Minus ninety-eight: the sign is kept, and once is enough. *)
Definition ex_once : list Qc := match float_normalize fl64 (Qcint (-98)) [Qcint (-98); Qcint 5] with Ok l => l | Err _ => [] end.
Example C99_nonvacuous_normalize :
  ex_once = [(- (1 - unit_roundoff))%Qc; fl64 (Qcint 5 * fl64 (1 / Qcint 98))] /\
  float_normalize fl64 (- (1 - unit_roundoff)) ex_once = Ok ex_once.
Proof. by_compute. Qed.
