(** Proofs on the export to Brightway. *)
From Verif Require Import Base Types Utils Brightway Spec_Files.
From Coq Require Import String.

Definition exported (e : exchange) : bool := Qctruthy (e_amount e) && not_refinery_gas e.

Lemma translate_exchange_coefficient db e b code : translate_exchange db e = Ok b ->
  bw_coefficient (db, code) b = coefficient code e.
Proof.
  unfold translate_exchange, translate_production_exchange, translate_byproduct_exchange, translate_technosphere_exchange,
    translate_biosphere_exchange, exchange_code, coefficient.
  intros H. destruct (e_type e) eqn:T; try done.
  1-3: destruct (e_code e) as [c|]; cbn [from_option bind] in H; [|done]; apply Ok_inj in H as <-; cbn [bw_coefficient];
    destruct (decide ((db, c) = (db, code))) as [E|E], (decide (Some c = Some code)) as [E'|E']; try done; try congruence; try ring.
  all: destruct (e_compartment e) as [c|]; cbn [from_option bind] in H; [|done];
    destruct (e_subcompartment e) as [c'|]; cbn [from_option bind] in H; [|done]; apply Ok_inj in H as <-; cbn [bw_coefficient];
    by destruct (decide _).
Qed.

Lemma translate_exchange_flow db e b n u c s : translate_exchange db e = Ok b ->
  match b with
  | BwBiosphere a n' u' cs => if decide ((n', u', cs) = (n, u, (c, s))) then a else 0%Qc
  | _ => 0%Qc
  end = if decide (is_flow n u c s e) then e_amount e else 0%Qc.
Proof.
  unfold translate_exchange, translate_production_exchange, translate_byproduct_exchange, translate_technosphere_exchange,
    translate_biosphere_exchange, exchange_code.
  intros H. destruct (e_type e) eqn:T; try done.
  1-3: destruct (e_code e) as [k|]; cbn [from_option bind] in H; [|done]; apply Ok_inj in H as <-;
    rewrite decide_False; [done|]; intros [[|] _]; congruence.
  all: destruct (e_compartment e) as [k|] eqn:K; cbn [from_option bind] in H; [|done];
    destruct (e_subcompartment e) as [k'|] eqn:K'; cbn [from_option bind] in H; [|done]; apply Ok_inj in H as <-;
    destruct (decide (is_flow n u c s e)) as [(Ht & <- & <- & Hc & Hs)|Hn];
    [rewrite decide_True; [done|congruence]|rewrite decide_False; [done|]];
    intros E; apply Hn; injection E as E1 E2 E3 E4; unfold is_flow; rewrite T, K, K', E1, E2, E3, E4; tauto.
Qed.

Lemma Qcsum_filterb {A} (p : A -> bool) (f : A -> Qc) l : (forall x, x ∈ l -> p x = false -> f x = 0%Qc) ->
  Qcsum (map f (filterb p l)) = Qcsum (map f l).
Proof.
  unfold filterb. induction l as [|x l IH]; intros H; cbn [map List.filter Qcsum foldr]; [done|].
  fold (Qcsum (map f l)). rewrite <- IH by (intros; apply H; [by right|done]).
  destruct (p x) eqn:E; cbn [map Qcsum foldr]; fold (Qcsum (map f (List.filter p l))); [done|].
  rewrite (H x) by (done || by left). ring.
Qed.

Lemma Qcsum_Forall2 {A B} (f : A -> Qc) (g : B -> Qc) l m : Forall2 (fun x y => f x = g y) l m ->
  Qcsum (map f l) = Qcsum (map g m).
Proof. induction 1 as [|x y l m H _ IH]; cbn [map Qcsum foldr]; [done|]. fold (Qcsum (map f l)) (Qcsum (map g m)). by rewrite H, IH. Qed.

Lemma translate_activity_Ok db ds a : translate_activity db ds = Ok a ->
  exists code rp es, d_code ds = Some code /\ get_single_reference_product ds = Ok rp /\
    Forall2 (fun e b => translate_exchange db e = Ok b) (filterb exported (d_exchanges ds)) es /\
    a = BwActivity code (d_scenario ds) (d_end ds) (d_filepath ds) (d_location ds) (d_name ds)
        (d_start ds) (d_tech ds) (d_author ds) (d_entry ds) db (e_unit rp) (e_name rp) (e_amount rp) es.
Proof.
  unfold translate_activity. intros H.
  apply bind_Ok in H as (code & Hc & H). apply bind_Ok in H as (rp & Hr & H). apply bind_Ok in H as (es & He & H).
  apply Ok_inj in H as <-. exists code, rp, es. destruct (d_code ds); cbn in Hc; [|done]. apply Ok_inj in Hc as ->.
  split; [done|]. split; [done|]. split; [|done]. by apply mapR_Ok.
Qed.

Lemma truthy_spec q : Qctruthy q = true <-> q <> 0%Qc.
Proof. unfold Qctruthy. rewrite negb_true_iff. split; intros H; [by apply bool_decide_eq_false in H|by apply bool_decide_eq_false_2]. Qed.

Theorem matrix db ds a code : translate_activity db ds = Ok a -> code <> ""%string ->
  bw_net (db, code) (b_exchanges a) = net code (d_exchanges ds).
Proof.
  intros (c & rp & es & _ & _ & H & ->)%translate_activity_Ok Hcode. cbn [b_exchanges]. unfold bw_net, net.
  rewrite <- (Qcsum_filterb exported).
  - symmetry. apply Qcsum_Forall2. eapply Forall2_impl; [exact H|]. intros e b Hb. cbn. symmetry.
    by apply translate_exchange_coefficient.
  - intros e He. unfold exported. rewrite andb_false_iff. intros [Hz|Hr]; unfold coefficient.
    + apply not_true_iff_false in Hz. rewrite truthy_spec in Hz. apply dec_stable in Hz.
      destruct (decide _); [|done]. rewrite Hz. by destruct (e_type e).
    + unfold not_refinery_gas in Hr. apply orb_false_iff in Hr as [_ Hr]. destruct (e_code e) as [k|]; [|by rewrite decide_False].
      apply bool_decide_eq_false in Hr. apply dec_stable in Hr as ->. rewrite decide_False; [done|congruence].
Qed.

Theorem flows db ds a n u c s : translate_activity db ds = Ok a -> n <> "refinery gas"%string ->
  bw_flow n u c s (b_exchanges a) = flow n u c s (d_exchanges ds).
Proof.
  intros (c' & rp & es & _ & _ & H & ->)%translate_activity_Ok Hn. cbn [b_exchanges]. unfold bw_flow, flow.
  rewrite <- (Qcsum_filterb exported).
  - symmetry. apply Qcsum_Forall2. eapply Forall2_impl; [exact H|]. intros e b Hb. cbn. symmetry.
    by apply (translate_exchange_flow db).
  - intros e He. unfold exported. rewrite andb_false_iff. intros [Hz|Hr].
    + apply not_true_iff_false in Hz. rewrite truthy_spec in Hz. apply dec_stable in Hz. rewrite Hz. by destruct (decide _).
    + unfold not_refinery_gas in Hr. apply orb_false_iff in Hr as [Hr _]. apply bool_decide_eq_false in Hr. apply dec_stable in Hr.
      rewrite decide_False; [done|]. intros (_ & E & _). congruence.
Qed.

Definition bw_amount (b : bw_exchange) : Qc :=
  match b with BwBiosphere a _ _ _ | BwTechnosphere a _ | BwProduction a _ => a end.

Lemma translate_exchange_amount db e b : translate_exchange db e = Ok b -> bw_amount b = e_amount e \/ bw_amount b = (- e_amount e)%Qc.
Proof.
  unfold translate_exchange, translate_production_exchange, translate_byproduct_exchange, translate_technosphere_exchange,
    translate_biosphere_exchange, exchange_code.
  intros H. destruct (e_type e) eqn:T; try done.
  1-3: destruct (e_code e) as [k|]; cbn [from_option bind] in H; [|done]; apply Ok_inj in H as <-; cbn; tauto.
  all: destruct (e_compartment e) as [k|] eqn:K; cbn [from_option bind] in H; [|done];
    destruct (e_subcompartment e) as [k'|] eqn:K'; cbn [from_option bind] in H; [|done]; apply Ok_inj in H as <-; cbn; tauto.
Qed.

Theorem nonzero db ds a : translate_activity db ds = Ok a -> Forall (fun b => bw_amount b <> 0%Qc) (b_exchanges a).
Proof.
  intros (c' & rp & es & _ & _ & H & ->)%translate_activity_Ok. cbn [b_exchanges]. apply Forall_forall. intros b Hb.
  apply elem_of_list_lookup in Hb as [i Hb]. destruct (Forall2_lookup_r _ _ _ _ _ H Hb) as (e & He & Ht).
  apply elem_of_list_lookup_2 in He. apply filterb_In in He as [_ He]. unfold exported in He. apply andb_true_iff in He as [He _].
  apply truthy_spec in He. destruct (translate_exchange_amount _ _ _ Ht) as [->| ->]; [done|].
  intros E. apply He. rewrite <- (Qcopp_involutive (e_amount e)), E. ring.
Qed.

(** Which datasets can be exported. *)
Lemma translate_exchange_ok db e : (exists b, translate_exchange db e = Ok b) <-> exportable e.
Proof.
  unfold translate_exchange, translate_production_exchange, translate_byproduct_exchange, translate_technosphere_exchange,
    translate_biosphere_exchange, exchange_code, exportable.
  destruct (e_type e); try (split; [intros [b Hb]; done|done]).
  1-3: destruct (e_code e) as [k|]; cbn [from_option bind]; split; [by eauto|by eauto|intros [b Hb]; done|intros [b Hb]; done].
  all: destruct (e_compartment e) as [k|]; cbn [from_option bind];
    [destruct (e_subcompartment e) as [k'|]; cbn [from_option bind]|]; split; try (by eauto);
    try (intros [b Hb]; done); try (intros (x & y & Hx & Hy); done).
Qed.

Theorem succeeds db ds : (exists a, translate_activity db ds = Ok a) <->
  (exists c, d_code ds = Some c) /\ (exists rp, get_single_reference_product ds = Ok rp) /\
  forall e, e ∈ d_exchanges ds -> e_amount e <> 0%Qc -> e_name e <> "refinery gas"%string \/ (exists c, e_code e = Some c /\ c <> ""%string) ->
    exportable e.
Proof.
  split.
  - intros [a (c & rp & es & Hc & Hr & H & _)%translate_activity_Ok]. split; [by eauto|]. split; [by eauto|].
    intros e He Hz Hg. apply (translate_exchange_ok db).
    assert (e ∈ filterb exported (d_exchanges ds)) as Hin.
    { apply filterb_In. split; [done|]. unfold exported, not_refinery_gas. apply andb_true_iff. split; [by apply truthy_spec|].
      apply orb_true_iff. destruct Hg as [Hg|(k & -> & Hk)]; [left|right]; by apply bool_decide_eq_true_2. }
    apply elem_of_list_lookup in Hin as [i Hi]. destruct (Forall2_lookup_l _ _ _ _ _ H Hi) as (b & _ & Hb). by exists b.
  - intros ([c Hc] & [rp Hr] & H). unfold translate_activity. rewrite Hc, Hr. cbn [from_option bind].
    destruct (mapR_ok_all (translate_exchange db) (filterb exported (d_exchanges ds))) as [es Hes].
    + intros e He. apply filterb_In in He as [He Hx]. apply (translate_exchange_ok db). unfold exported in Hx.
      apply andb_true_iff in Hx as [Hz Hg]. apply H; [done|by apply truthy_spec|]. unfold not_refinery_gas in Hg.
      apply orb_true_iff in Hg as [Hg|Hg]; [left; by apply bool_decide_eq_true_1 in Hg|right].
      destruct (e_code e) as [k|]; [|done]. apply bool_decide_eq_true_1 in Hg. by exists k.
    + unfold exported in Hes. rewrite Hes. cbn [bind]. by eexists.
Qed.

(** There is one production exchange. *)
Lemma translate_production db e b : translate_exchange db e = Ok b ->
  match b with BwProduction a i => Some (a, i) | _ => None end =
  if decide (e_type e = RefProduct) then (fun c => (e_amount e, (db, c))) <$> e_code e else None.
Proof.
  unfold translate_exchange, translate_production_exchange, translate_byproduct_exchange, translate_technosphere_exchange,
    translate_biosphere_exchange, exchange_code.
  intros H. destruct (e_type e) eqn:T; try done.
  1-3: destruct (e_code e) as [k|]; cbn [from_option bind] in H; [|done]; by apply Ok_inj in H as <-.
  all: destruct (e_compartment e) as [k|] eqn:K; cbn [from_option bind] in H; [|done];
    destruct (e_subcompartment e) as [k'|] eqn:K'; cbn [from_option bind] in H; [|done]; by apply Ok_inj in H as <-.
Qed.

Lemma production_list db es bs : Forall2 (fun e b => translate_exchange db e = Ok b) es bs ->
  production_codes bs =
  omap (fun e => (fun c => (e_amount e, (db, c))) <$> e_code e) (filterb (fun e => bool_decide (e_type e = RefProduct)) es).
Proof.
  unfold production_codes, filterb. induction 1 as [|e b es bs H _ IH]; [done|]. cbn [omap list_omap List.filter].
  rewrite (translate_production _ _ _ H). destruct (decide (e_type e = RefProduct)) as [E|E].
  - rewrite bool_decide_eq_true_2 by done. cbn [omap list_omap]. destruct (e_code e); cbn [fmap option_fmap option_map]; [by rewrite <- IH|exact IH].
  - rewrite bool_decide_eq_false_2 by done. exact IH.
Qed.

Theorem production db ds a rp : translate_activity db ds = Ok a -> get_single_reference_product ds = Ok rp ->
  e_amount rp <> 0%Qc -> e_name rp <> "refinery gas"%string \/ e_code rp <> None /\ e_code rp <> Some ""%string ->
  exists c, e_code rp = Some c /\ production_codes (b_exchanges a) = [(e_amount rp, (db, c))].
Proof.
  intros (c' & rp' & es & _ & Hr' & H & ->)%translate_activity_Ok Hr Hz Hg. cbn [b_exchanges].
  assert (exported rp = true) as Hx.
  { unfold exported, not_refinery_gas. apply andb_true_iff. split; [by apply truthy_spec|]. apply orb_true_iff.
    destruct Hg as [Hg|[Hg Hg']]; [left; by apply bool_decide_eq_true_2|right].
    destruct (e_code rp); [|done]. apply bool_decide_eq_true_2. congruence. }
  rewrite (production_list db _ _ H).
  assert (filterb (fun e => bool_decide (e_type e = RefProduct)) (filterb exported (d_exchanges ds)) = [rp]) as E.
  { assert (filterb (fun e => bool_decide (e_type e = RefProduct)) (d_exchanges ds) = [rp]) as E.
    { unfold get_single_reference_product in Hr. destruct (reference_products ds) as [|x [|y l]] eqn:E; try done.
      apply Ok_inj in Hr as ->. exact E. }
    unfold filterb in *. revert E Hx. clear. generalize (d_exchanges ds) as l. intros l.
    assert (List.filter (fun e => bool_decide (e_type e = RefProduct)) (List.filter exported l) =
            List.filter exported (List.filter (fun e => bool_decide (e_type e = RefProduct)) l)) as ->.
    { induction l as [|x l IH]; [done|]. cbn [List.filter]. destruct (exported x) eqn:E1, (bool_decide (e_type x = RefProduct)) eqn:E2;
        cbn [List.filter]; rewrite ?E1, ?E2, ?IH; done. }
    intros -> Hx. cbn [List.filter]. by rewrite Hx. }
  rewrite E. cbn [omap list_omap].
  assert (rp ∈ filterb exported (d_exchanges ds)) as Hin.
  { assert (rp ∈ [rp]) as Hi by by left. rewrite <- E in Hi. by apply filterb_In in Hi as [Hi _]. }
  assert (e_type rp = RefProduct) as Ht.
  { assert (rp ∈ [rp]) as Hi by by left. rewrite <- E in Hi. apply filterb_In in Hi as [_ Hi]. by apply bool_decide_eq_true_1 in Hi. }
  apply elem_of_list_lookup in Hin as [i Hi]. destruct (Forall2_lookup_l _ _ _ _ _ H Hi) as (b & _ & Hb).
  unfold translate_exchange in Hb. rewrite Ht in Hb. unfold translate_production_exchange, exchange_code in Hb.
  destruct (e_code rp) as [c|]; [|done]. by exists c.
Qed.
