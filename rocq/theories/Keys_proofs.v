(** Proofs for C100: which missing key is reported. *)
From Verif Require Import Base Types Utils Uncertainty Sampling ActivityLinks Consequential Cutoff Locations Parameters Brightway
  Tables Spec_Keys.

(** ** Reads *)
Lemma first_missing_app a b : first_missing (a ++ b) = match first_missing a with Some k => Some k | None => first_missing b end.
Proof. induction a as [|[k []] a IH]; done. Qed.
Lemma only_weaken {A} (r : result A) l : only_complains r l -> complains r l.
Proof.
  unfold only_complains, complains. intros H k. destruct (first_missing l) as [k'|].
  - subst r. split; intros [= ->]; done.
  - destruct H as [a ->]. done.
Qed.
Lemma only_bind {A B} (r : result A) (f : A -> result B) l m :
  only_complains r l -> (forall a, r = Ok a -> only_complains (f a) m) -> only_complains (bind r f) (l ++ m).
Proof.
  unfold only_complains. rewrite first_missing_app. intros H Hf. destruct (first_missing l) as [k|].
  - by rewrite H.
  - destruct H as [a ->]. cbn. by apply Hf.
Qed.
Lemma only_bind_ok {A B} (r : result A) (f : A -> result B) l :
  only_complains r l -> (forall a, r = Ok a -> exists b, f a = Ok b) -> only_complains (bind r f) l.
Proof.
  intros H Hf. rewrite <- (app_nil_r l). apply only_bind; [done|]. intros a Ha. unfold only_complains. cbn. by apply Hf.
Qed.
Lemma only_mapR {A B} (f : A -> result B) (of : A -> reads) l :
  (forall x, x ∈ l -> only_complains (f x) (of x)) -> only_complains (mapR f l) (concat (map of l)).
Proof.
  induction l as [|x l IH]; intros H; [by exists []|]. cbn [mapR map concat].
  apply only_bind; [apply H; left|]. intros a _. apply only_bind_ok; [|eauto]. apply IH. intros y Hy. apply H. by right.
Qed.
Lemma only_filterR {A} (f : A -> result bool) (of : A -> reads) l :
  (forall x, x ∈ l -> only_complains (f x) (of x)) -> only_complains (filterR f l) (concat (map of l)).
Proof.
  induction l as [|x l IH]; intros H; [by exists []|]. cbn [filterR map concat].
  apply only_bind; [apply H; left|]. intros a _. apply only_bind_ok; [|eauto]. apply IH. intros y Hy. apply H. by right.
Qed.

(** Cases on everything that is read. *)
Ltac read := repeat match goal with
  | |- context [match ?o with Some _ => _ | None => _ end] => destruct o eqn:?; cbn
  | |- context [if ?b then _ else _] => destruct b eqn:?; cbn
  end.
Ltac naming := unfold complains, uncertainty_reads, minimum, maximum, mode, mean, mu, variance, with_pedigree, has, getunc, getkey; cbn;
  read; try (intros k; split; congruence).

Lemma undefined_rescale_keys o f : complains (undefined_rescale o f) (uncertainty_reads o (fun u => [minimum u; maximum u])).
Proof. unfold undefined_rescale. naming. Qed.
Lemma logR_keys ln x : (exists y, logR ln x = Ok y) \/ logR ln x = Err ValueError.
Proof. unfold logR. destruct (Qcleb x 0); eauto. Qed.
Lemma lognormal_pos_keys ln o f : complains (lognormal_rescale_pos ln o f) (uncertainty_reads o (fun _ => [])).
Proof.
  unfold lognormal_rescale_pos, getunc. cbn. unfold complains, uncertainty_reads, has. destruct (o_unc o) as [u|]; cbn.
  - intros k. destruct (logR_keys ln (Qcabs (o_amount o * f))) as [[y ->]| ->]; done.
  - intros k. split; congruence.
Qed.
Lemma lognormal_rescale_keys ln o f : complains (lognormal_rescale ln o f) (if Qceqb f 0 then [] else uncertainty_reads o (fun _ => [])).
Proof.
  unfold lognormal_rescale. destruct (Qcltb f 0) eqn:E1.
  - assert (Qceqb f 0 = false) as ->. { apply Qceqb_false. qc_bool. intros ->. qclra. }
    unfold getunc. cbn. unfold uncertainty_reads. destruct (o_unc o) as [u|] eqn:Eu; cbn.
    + apply lognormal_pos_keys.
    + intros k. split; cbn; congruence.
  - destruct (Qceqb f 0); [|apply lognormal_pos_keys]. intros k. cbn. done.
Qed.
Lemma normal_rescale_keys o f : complains (normal_rescale o f)
  (if Qceqb f 0 || Qceqb (o_amount o) 0 then [] else uncertainty_reads o (fun u => [variance u])).
Proof.
  unfold normal_rescale, divR. destruct (Qceqb f 0); cbn [orb]; [intros k; done|].
  destruct (Qceqb (o_amount o) 0); [intros k; done|]. naming.
Qed.
Lemma triangular_repair_keys o : complains (triangular_repair o) (uncertainty_reads o (fun u => [minimum u; maximum u])).
Proof. unfold triangular_repair. naming. Qed.
Lemma repair_given u o : o_unc o = Some u -> has (u_min u) = true -> has (u_max u) = true -> forall k, triangular_repair o <> Err (KeyError k).
Proof.
  intros Hu H1 H2 k H. apply triangular_repair_keys in H. revert H. unfold uncertainty_reads. rewrite Hu. cbn. by rewrite H1, H2.
Qed.
Lemma triangular_rescale_keys o f : complains (triangular_rescale o f) (uncertainty_reads o (fun u => [minimum u; mode u; maximum u])).
Proof.
  unfold triangular_rescale, getunc. unfold uncertainty_reads, complains. destruct (o_unc o) as [u|]; cbn; [|intros k; split; congruence].
  destruct (u_min u) as [mn|]; cbn; [|intros k; split; congruence].
  destruct (u_mode u) as [md|]; cbn; [|intros k; split; congruence].
  destruct (u_max u) as [mx|]; cbn; [|intros k; split; congruence].
  intros k. split; [|done]. intros H. exfalso. revert H. by eapply repair_given.
Qed.
Lemma uniform_repair_keys o : complains (uniform_repair o) (uncertainty_reads o (fun u => [minimum u; maximum u])).
Proof.
  unfold uniform_repair, getunc. unfold uncertainty_reads, complains. destruct (o_unc o) as [u|]; cbn; [|intros k; split; congruence].
  destruct (u_min u) as [mn|]; cbn; [|intros k; split; congruence].
  destruct (u_max u) as [mx|]; cbn; [|intros k; split; congruence].
  intros k. split; [|done].
  repeat match goal with |- (if ?b then _ else _) = _ -> _ => destruct b end; try done.
  all: intros H; exfalso; revert H; by eapply repair_given.
Qed.
Lemma uniform_given u o : o_unc o = Some u -> has (u_min u) = true -> has (u_max u) = true -> forall k, uniform_repair o <> Err (KeyError k).
Proof.
  intros Hu H1 H2 k H. apply uniform_repair_keys in H. revert H. unfold uncertainty_reads. rewrite Hu. cbn. by rewrite H1, H2.
Qed.
Lemma uniform_rescale_keys o f : complains (uniform_rescale o f) (uncertainty_reads o (fun u => [minimum u; maximum u])).
Proof.
  unfold uniform_rescale, getunc. unfold uncertainty_reads, complains. destruct (o_unc o) as [u|]; cbn; [|intros k; split; congruence].
  destruct (u_min u) as [mn|]; cbn; [|intros k; split; congruence].
  destruct (u_max u) as [mx|]; cbn; [|intros k; split; congruence].
  intros k. split; [|done]. intros H. exfalso. revert H. by eapply uniform_given.
Qed.
Lemma normal_repair_keys o : complains (normal_repair o) (uncertainty_reads o (fun u => [with_pedigree u])).
Proof. unfold normal_repair. naming. Qed.

(** Dispatch.  What scaling reads, by the type of distribution. *)
Lemma rescale_keys ln o f : complains (rescale ln o f)
  match o_unc o with
  | None => []
  | Some u => match u_type u with
    | None | Some (UOther _) => []
    | Some UUndefined | Some UUniform => [minimum u; maximum u]
    | Some ULognormal => []
    | Some UNormal => if Qceqb f 0 || Qceqb (o_amount o) 0 then [] else [variance u]
    | Some UTriangular => [minimum u; mode u; maximum u]
    end
  end.
Proof.
  unfold rescale, get_uncertainty_class. destruct (o_unc o) as [u|] eqn:Eu; cbn [mbind option_bind]; [|intros k; done].
  assert (forall of, uncertainty_reads o of = ("uncertainty"%string, true) :: of u) as E by (intros of; unfold uncertainty_reads; by rewrite Eu).
  destruct (u_type u) as [[]|]; cbn [bind]; intros k; try done.
  - pose proof (lognormal_rescale_keys ln o f k) as H. rewrite E in H. by destruct (Qceqb f 0).
  - pose proof (normal_rescale_keys o f k) as H. rewrite E in H. by destruct (Qceqb f 0 || Qceqb (o_amount o) 0).
  - pose proof (triangular_rescale_keys o f k) as H. by rewrite E in H.
  - pose proof (undefined_rescale_keys o f k) as H. by rewrite E in H.
  - pose proof (uniform_rescale_keys o f k) as H. by rewrite E in H.
Qed.
Lemma lognormal_repair_keys ln euler o : (exists v, get_pedigree_variance (default [] (o_ped o)) = Ok v) ->
  complains (lognormal_repair ln euler o) (if Qceqb (o_amount o) 0 then [] else uncertainty_reads o (fun u => [with_pedigree u])).
Proof.
  intros [v Hv]. unfold lognormal_repair, getunc. destruct (Qceqb (o_amount o) 0); [intros k; done|].
  unfold uncertainty_reads, complains. destruct (o_unc o) as [u|]; cbn; [|intros k; split; congruence].
  destruct (u_vwpu u) as [vw|]; cbn; [|intros k; split; congruence]. intros k. split; [|done].
  destruct (Qceqb vw 0); [done|]. destruct (logR_keys ln (Qcabs (o_amount o))) as [[y ->]| ->]; [|done]. cbn. rewrite Hv. cbn.
  destruct (Qcleb 1 _ && _); [|by destruct (Qcltb euler _)]. destruct (logR_keys ln (vw - v)) as [[z ->]| ->]; done.
Qed.
Lemma repair_keys ln euler o : (exists v, get_pedigree_variance (default [] (o_ped o)) = Ok v) -> complains (repair ln euler o)
  match o_unc o with
  | None => []
  | Some u => match u_type u with
    | None | Some (UOther _) | Some UUndefined => []
    | Some ULognormal => if Qceqb (o_amount o) 0 then [] else [with_pedigree u]
    | Some UNormal => [with_pedigree u]
    | Some UTriangular | Some UUniform => [minimum u; maximum u]
    end
  end.
Proof.
  intros Hv. unfold repair, get_uncertainty_class. destruct (o_unc o) as [u|] eqn:Eu; cbn [mbind option_bind]; [|intros k; done].
  assert (forall of, uncertainty_reads o of = ("uncertainty"%string, true) :: of u) as E by (intros of; unfold uncertainty_reads; by rewrite Eu).
  destruct (u_type u) as [[]|]; cbn [bind]; intros k; try done.
  - pose proof (lognormal_repair_keys ln euler o Hv k) as H. rewrite E in H. by destruct (Qceqb (o_amount o) 0).
  - pose proof (normal_repair_keys o k) as H. by rewrite E in H.
  - pose proof (triangular_repair_keys o k) as H. by rewrite E in H.
  - pose proof (uniform_repair_keys o k) as H. by rewrite E in H.
Qed.
Lemma sqrtR_keys sqrt x : (exists y, sqrtR sqrt x = Ok y) \/ sqrtR sqrt x = Err ValueError.
Proof. unfold sqrtR. destruct (Qcltb x 0); eauto. Qed.
Lemma sampled_keys sqrt o : complains (to_stats_arrays sqrt o)
  match o_unc o with
  | None => []
  | Some u => match u_type u with
    | None | Some (UOther _) | Some UUndefined => []
    | Some ULognormal => [mu u; with_pedigree u]
    | Some UNormal => [mean u; with_pedigree u]
    | Some UTriangular => [mode u; minimum u; maximum u]
    | Some UUniform => [minimum u; maximum u]
    end
  end.
Proof.
  unfold to_stats_arrays, get_uncertainty_class. destruct (o_unc o) as [u|] eqn:Eu; cbn [mbind option_bind]; [|intros k; done].
  destruct (u_type u) as [[]|]; cbn [bind]; intros k; try done;
    unfold lognormal_sampled, normal_sampled, triangular_sampled, uniform_sampled, getunc; rewrite Eu; cbn;
    unfold mu, mean, mode, minimum, maximum, with_pedigree, has.
  - destruct (u_mu u); cbn; [|split; congruence]. destruct (u_vwpu u) as [x|]; cbn; [|split; congruence].
    destruct (sqrtR_keys sqrt x) as [[y ->]| ->]; done.
  - destruct (u_mean u); cbn; [|split; congruence]. destruct (u_vwpu u) as [x|]; cbn; [|split; congruence].
    destruct (sqrtR_keys sqrt x) as [[y ->]| ->]; done.
  - destruct (u_mode u); cbn; [|split; congruence]. destruct (u_min u); cbn; [|split; congruence].
    destruct (u_max u); cbn; [|split; congruence]. done.
  - destruct (u_min u); cbn; [|split; congruence]. destruct (u_max u); cbn; [|split; congruence]. done.
Qed.
(** Ageing: a matrix needs its temporal score; recalculating a lognormal distribution its variance. *)
Lemma age_keys end_year o year : only_complains (adjust_pedigree_matrix_time end_year o year)
  match o_ped o with None => [] | Some pm => [("temporal correlation"%string, has (assoc_get "temporal correlation" pm))] end.
Proof.
  unfold adjust_pedigree_matrix_time, only_complains. destruct (o_ped o) as [pm|]; [|by eexists].
  destruct (assoc_get "temporal correlation" pm); cbn; eauto.
Qed.
Lemma recalculate_keys o : (exists v, get_pedigree_variance (default [] (o_ped o)) = Ok v) ->
  only_complains (lognormal_recalculate o) (uncertainty_reads o (fun u => [variance u])).
Proof.
  intros [v Hv]. unfold lognormal_recalculate, only_complains, uncertainty_reads, variance, has, getunc.
  destruct (o_unc o) as [u|]; cbn; [|done]. destruct (u_variance u); cbn; [|done]. rewrite Hv. cbn. eauto.
Qed.

(** ** Exchanges *)
Lemma production_keys e : only_complains (production_exchange e) (class_reads e).
Proof.
  unfold production_exchange, only_complains, class_reads. destruct (e_type e); cbn; eauto. destruct (e_class e); cbn; eauto.
Qed.
Lemma production_value e b : production_exchange e = Ok b -> b = produces_output e.
Proof.
  unfold production_exchange, produces_output. destruct (e_type e); cbn; try (by intros [= <-]).
  destruct (e_class e) as [c|]; cbn; [|done]. intros [= <-]. apply bool_decide_ext. naive_solver.
Qed.
Lemma recyclable_keys e : only_complains (is_recyclable_byproduct e) (class_reads e).
Proof. unfold is_recyclable_byproduct, only_complains, class_reads. destruct (e_type e); cbn; eauto. destruct (e_class e); cbn; eauto. Qed.
Lemma allocatable_keys e : only_complains (is_allocatable_byproduct e) (class_reads e).
Proof. unfold is_allocatable_byproduct, only_complains, class_reads. destruct (e_type e); cbn; eauto. destruct (e_class e); cbn; eauto. Qed.
Lemma flip_keys e : only_complains (flip_exchange e) (class_reads e).
Proof.
  unfold flip_exchange, only_complains, class_reads. destruct (e_type e); cbn; eauto. destruct (e_class e) as [c|]; cbn; [|done].
  destruct (bool_decide (c = Allocatable)); by eexists.
Qed.
Lemma subtract_keys e : only_complains (subtract_volume e) (class_reads e ++ if produces_output e then volume_reads e else []).
Proof.
  unfold subtract_volume. apply only_bind; [apply production_keys|]. intros b ->%production_value.
  destruct (produces_output e); [|by eexists]. unfold only_complains, volume_reads. destruct (e_pv e) as [v|]; cbn; [|done].
  destruct (v_subtracted v); eauto.
Qed.
Lemma byproduct_volume_keys scale e : only_complains (add_pv_to_byproduct scale e)
  (class_reads e ++ if bool_decide (e_type e = Byproduct) && bool_decide (e_class e = Some Allocatable) then volume_reads e else []).
Proof.
  unfold add_pv_to_byproduct. apply only_bind; [apply allocatable_keys|]. intros b Hb.
  assert (b = bool_decide (e_type e = Byproduct) && bool_decide (e_class e = Some Allocatable)) as ->.
  { revert Hb. unfold is_allocatable_byproduct. case_bool_decide; [|by intros [= <-]]. destruct (e_class e) as [c|]; cbn; [|done].
    intros [= <-]. apply bool_decide_ext. naive_solver. }
  destruct (_ && _); [|by eexists]. unfold only_complains, volume_reads. destruct (e_pv e) as [v|]; cbn; [|done].
  destruct (Qctruthy _); eauto.
Qed.
Lemma add_subtracted_keys x e : only_complains (add_subtracted x e) (volume_reads e).
Proof. unfold add_subtracted, only_complains, volume_reads. destruct (e_pv e); cbn; eauto. Qed.
Lemma supplier_volume_keys e : only_complains (supplier_volume e) (volume_reads e).
Proof. unfold supplier_volume, only_complains, volume_reads. destruct (e_pv e); cbn; eauto. Qed.
Lemma original_volume_keys e : only_complains (original_volume e) (volume_reads e).
Proof. unfold original_volume, only_complains, volume_reads. destruct (e_pv e); cbn; eauto. Qed.
Lemma market_input_keys a s : only_complains (market_input a s) (code_reads s).
Proof. unfold market_input, only_complains, code_reads. destruct (e_code s); cbn; eauto. Qed.
Lemma consumer_input_keys ln e f s e' : scale_exchange ln e f = Ok e' -> only_complains (consumer_input ln e f s) (code_reads s).
Proof. intros H. unfold consumer_input. rewrite H. cbn. unfold only_complains, code_reads. destruct (e_code s); cbn; eauto. Qed.
Lemma add_exchange_keys others e : only_complains (add_exchange others e) (id_reads e).
Proof. unfold add_exchange, only_complains, id_reads. destruct (e_id e); cbn; eauto. Qed.
Lemma recycled_keys ds e : only_complains (create_new_recycled_content_dataset ds e) (id_reads e).
Proof. unfold create_new_recycled_content_dataset, only_complains, id_reads. destruct (e_id e); cbn; eauto. Qed.
Lemma bw_code_keys e : only_complains (exchange_code e) (code_reads e).
Proof. unfold exchange_code, only_complains, code_reads. destruct (e_code e); cbn; eauto. Qed.
Lemma bw_exchange_keys database e : only_complains (translate_exchange database e)
  match e_type e with
  | RefProduct | Byproduct | FromTechnosphere => code_reads e
  | FromEnvironment | ToEnvironment => [("compartment"%string, has (e_compartment e)); ("subcompartment"%string, has (e_subcompartment e))]
  | DroppedProduct => [("dropped product"%string, false)]
  | EOther name => [(name, false)]
  end.
Proof.
  unfold translate_exchange, translate_production_exchange, translate_byproduct_exchange, translate_technosphere_exchange, translate_biosphere_exchange.
  destruct (e_type e); try done; try (apply only_bind_ok; [apply bw_code_keys|eauto]);
    (unfold only_complains; destruct (e_compartment e), (e_subcompartment e); cbn; eauto).
Qed.

(** ** Passes *)
Lemma iterR_only {A} (f : A -> result unit) (of : A -> reads) l :
  (forall x, x ∈ l -> only_complains (f x) (of x)) -> only_complains (iterR f l) (concat (map of l)).
Proof.
  induction l as [|x l IH]; intros H; [by eexists|]. cbn [iterR map concat].
  apply only_bind; [apply H; left|]. intros a _. apply IH. intros y Hy. apply H. by right.
Qed.
Lemma over_exchanges (f : exchange -> result exchange) of data : (forall e, only_complains (f e) (of e)) ->
  only_complains (mapR (fun ds => let? es := mapR f (d_exchanges ds) in Ok (set_d_exchanges es ds)) data) (everywhere of data).
Proof.
  intros H. unfold everywhere. apply (only_mapR _ (fun ds => concat (map of (d_exchanges ds)))). intros ds _.
  apply only_bind_ok; [|eauto]. apply only_mapR. intros e _. apply H.
Qed.
Lemma copy_ids_keys data : only_complains (copy_original_exchange_id data) (everywhere id_reads data).
Proof. apply over_exchanges. intros e. unfold only_complains, id_reads. destruct (e_id e); cbn; eauto. Qed.
Lemma rename_keys data : only_complains (rename_recyclable_content_exchanges data) (everywhere class_reads data).
Proof. apply over_exchanges. intros e. unfold rename_recyclable. apply only_bind_ok; [apply recyclable_keys|eauto]. Qed.
Lemma flip_all_keys ds : only_complains (flip_non_allocatable_byproducts ds) (concat (map class_reads (d_exchanges ds))).
Proof. unfold flip_non_allocatable_byproducts. apply only_bind_ok; [|eauto]. apply only_mapR. intros e _. apply flip_keys. Qed.
Lemma outputs_keys ds : only_complains (allocatable_production ds) (concat (map class_reads (d_exchanges ds))).
Proof. apply only_filterR. intros e _. apply production_keys. Qed.
Lemma add_exchanges_keys a b : only_complains (add_exchanges a b)
  (concat (map id_reads (d_exchanges b)) ++ concat (map id_reads (d_exchanges a))).
Proof.
  unfold add_exchanges. apply only_bind.
  - apply iterR_only. intros e _. unfold only_complains, id_reads. destruct (e_id e); cbn; eauto.
  - intros u _. apply only_bind_ok; [|eauto]. apply only_mapR. intros e _. apply add_exchange_keys.
Qed.
Lemma delete_links_keys data : only_complains (delete_activity_links_to_constrained_markets data)
  (everywhere (fun e => if cond_truthy e then [("activity link"%string, has (e_link e))] else []) data).
Proof.
  unfold delete_activity_links_to_constrained_markets. apply only_bind_ok; [|eauto].
  apply (only_mapR _ (fun ds => concat (map (fun e => if cond_truthy e then [("activity link"%string, has (e_link e))] else []) (d_exchanges ds)))).
  intros ds _. apply only_mapR. intros e _. unfold only_complains. destruct (cond_truthy e); [|by eexists].
  destruct (e_link e); cbn; eauto.
Qed.
Lemma volumes_keys suppliers : only_complains (volumes suppliers) (concat (map volume_reads suppliers)).
Proof.
  unfold volumes. apply only_bind_ok; [apply only_mapR; intros; apply supplier_volume_keys|].
  intros pvs _. destruct (Qctruthy _); [eauto|]. destruct suppliers as [|? [|]]; eauto.
Qed.
Lemma concat_filterb {A B} (p : A -> bool) (g : A -> list B) l :
  concat (map (fun x => if p x then g x else []) l) = concat (map g (filterb p l)).
Proof. induction l as [|x l IH]; [done|]. cbn. destruct (p x); cbn; by rewrite IH. Qed.
Lemma subtract_all_keys data : only_complains (update_transforming_activity_production_volumes data)
  (everywhere (fun e => class_reads e ++ if produces_output e then volume_reads e else [])
     (filterb (fun ds => bool_decide (d_type ds = Transforming)) data)).
Proof.
  unfold update_transforming_activity_production_volumes, everywhere. rewrite <- concat_filterb.
  apply (only_mapR _ (fun ds => if bool_decide (d_type ds = Transforming)
    then concat (map (fun e => class_reads e ++ if produces_output e then volume_reads e else []) (d_exchanges ds)) else [])).
  intros ds _. case_bool_decide; [|by eexists].
  unfold subtract_volumes. apply only_bind_ok; [|eauto]. apply only_mapR. intros e _. apply subtract_keys.
Qed.
Lemma ratio_keys ds : complains (get_biggest_pv_to_exchange_ratio ds)
  (concat (map volume_reads (filterb (fun e => Qctruthy (e_amount e)) (reference_products ds)))).
Proof.
  unfold get_biggest_pv_to_exchange_ratio. set (l := filterb _ _).
  assert (only_complains (mapR (fun e => let? v := getkey "production volume" (e_pv e) in divR (v_amount v) (e_amount e)) l) (concat (map volume_reads l))) as H.
  { apply only_mapR. intros e He. apply filterb_In in He as [_ Ht]. apply Qctruthy_true in Ht.
    unfold only_complains, volume_reads. destruct (e_pv e) as [v|]; cbn; [|done]. unfold divR.
    destruct (Qceqb (e_amount e) 0) eqn:E; [by apply Qceqb_true in E|eauto]. }
  unfold only_complains in H. intros k. destruct (first_missing _) as [k'|].
  - rewrite H. cbn. split; congruence.
  - destruct H as [rs ->]. cbn. destruct rs; split; congruence.
Qed.
Lemma find_keys {A} (id : A -> option string) uuid l : forall i, only_complains (find_id id uuid i l)
  (map (fun x => ("id"%string, has (id x))) (take (S (default (length l) (fst <$> list_find (fun x => id x = Some uuid) l))) l)).
Proof.
  induction l as [|x l IH]; intros i; [by eexists|]. cbn [find_id list_find].
  destruct (decide (id x = Some uuid)) as [E|E].
  - cbn. rewrite E. cbn. rewrite take_0. cbn. unfold only_complains. cbn. rewrite String.eqb_refl. eauto.
  - destruct (id x) as [k|] eqn:Ex; cbn; [|].
    + assert ((k =? uuid)%string = false) as -> by (apply String.eqb_neq; congruence).
      specialize (IH (S i)). unfold only_complains in *.
      destruct (list_find (fun x => id x = Some uuid) l) as [[j y]|] eqn:El; cbn in *; rewrite Ex; cbn; exact IH.
    + unfold only_complains. destruct (list_find (fun x => id x = Some uuid) l) as [[j y]|]; cbn; by rewrite Ex.
Qed.

(** ** Datasets *)
Lemma refprod_keys ds : only_complains (refprod ds) [("reference product"%string, has (d_refprod ds))].
Proof. unfold refprod, only_complains. destruct (d_refprod ds); cbn; eauto. Qed.
Lemma label_keys label ds : only_complains (allocation_filter label ds) [("allocation method"%string, has (d_alloc ds))].
Proof. unfold allocation_filter, only_complains. destruct (d_alloc ds); cbn; eauto. Qed.
Lemma supplier_volume_value s q : supplier_volume s = Ok q -> q = volume_of s.
Proof. unfold supplier_volume, volume_of. destruct (e_pv s); cbn; [by intros [= <-]|done]. Qed.
Lemma supplier_volumes l qs : mapR supplier_volume l = Ok qs -> qs = map volume_of l.
Proof.
  intros H. apply mapR_Ok in H. induction H as [|s q l qs Hs _ IH]; [done|]. cbn. by rewrite (supplier_volume_value s q Hs), IH.
Qed.
Lemma concat_only {A B} (f : A -> result (list B)) (of : A -> reads) l :
  (forall x, x ∈ l -> only_complains (f x) (of x)) -> only_complains (concat_mapR f l) (concat (map of l)).
Proof. intros H. unfold concat_mapR. apply only_bind_ok; [by apply only_mapR|eauto]. Qed.
Lemma input_keys make total s : (forall f s, only_complains (make f s) (code_reads s)) -> total <> 0%Qc -> has (e_pv s) = true ->
  only_complains (input_of make total s) (if Qctruthy (volume_of s) then code_reads s else []).
Proof.
  intros Hm Ht Hv. unfold input_of, supplier_volume, volume_of. destruct (e_pv s) as [v|]; [|done]. cbn. unfold divR.
  destruct (Qceqb total 0) eqn:E; [by apply Qceqb_true in E|]. cbn. clear E.
  assert (Qctruthy (v_amount v / total) = Qctruthy (v_amount v)) as ->.
  { destruct (Qctruthy (v_amount v)) eqn:E.
    - apply Qctruthy_true in E. apply Qctruthy_true. intros H. apply E.
      assert (v_amount v = v_amount v / total * total)%Qc as -> by (field; done). rewrite H. apply Qcmult_0_l.
    - apply Qctruthy_false in E. apply Qctruthy_false. rewrite E. unfold Qcdiv. apply Qcmult_0_l. }
  destruct (Qctruthy (v_amount v)); [|by eexists]. apply only_bind_ok; [apply Hm|eauto].
Qed.
Lemma allocate_keys ds exc : get_single_reference_product ds = Ok exc -> only_complains (allocate_suppliers ds)
  (("suppliers"%string, has (d_suppliers ds)) ::
   match d_suppliers ds with
   | None => []
   | Some l => concat (map volume_reads l) ++
       if Qctruthy (Qcsum (map volume_of l)) then concat (map code_reads (filterb (fun s => Qctruthy (volume_of s)) l))
       else match l with [s] => code_reads s | _ => [] end
   end).
Proof.
  intros H. unfold allocate_suppliers. rewrite H. cbn [bind]. destruct (d_suppliers ds) as [l|]; [|done].
  cbn [getkey has]. change (only_complains ?r ((?k, true) :: ?m)) with (only_complains r m). cbn [bind].
  apply only_bind; [apply volumes_keys|]. intros vs Hvs. unfold volumes in Hvs. apply bind_Ok in Hvs as (qs & Hqs & Hvs).
  pose proof (supplier_volumes l qs Hqs) as ->.
  assert (Forall (fun s => has (e_pv s) = true) l) as Hpv.
  { apply mapR_Ok in Hqs. clear -Hqs. remember (map volume_of l) as qs. clear Heqqs. induction Hqs as [|s q l qs Hs _ IH]; constructor; [|done].
    revert Hs. unfold supplier_volume. by destruct (e_pv s). }
  rewrite Forall_forall in Hpv. destruct (Qctruthy (Qcsum (map volume_of l))) eqn:Et.
  - injection Hvs as <-. apply Qctruthy_true in Et.
    assert (concat (map code_reads (filterb (fun s => Qctruthy (volume_of s)) l)) =
      concat (map (fun s => if Qctruthy (volume_of s) then code_reads s else []) l)) as -> by (symmetry; apply concat_filterb). apply only_bind_ok; [|eauto].
    apply concat_only. intros s Hs. apply input_keys; [|done|by apply Hpv]. intros f s'. apply market_input_keys.
  - destruct l as [|s [|s' l]]; injection Hvs as <-; [by eexists| |by eexists].
    rewrite <- (app_nil_r (code_reads s)). change (code_reads s ++ []) with (concat (map code_reads [s])).
    apply only_bind_ok; [|eauto].
    assert (Qctruthy (Qcint 4321) = true) as E by by_compute.
    pose proof (input_keys (fun f s => market_input (f * e_amount exc)%Qc s) (Qcint 4321) (fake_volume s)) as Hi.
    assert (volume_of (fake_volume s) = Qcint 4321) as Ev.
    { unfold volume_of, fake_volume. specialize (Hpv s ltac:(left)). cbn. by destruct (e_pv s). }
    rewrite Ev, E in Hi. change (concat (map code_reads [s])) with (concat (map code_reads [fake_volume s])).
    apply concat_only. intros x Hx. apply elem_of_list_singleton in Hx as ->. apply Hi.
    + intros f x. apply market_input_keys.
    + by apply Qctruthy_true.
    + cbn. specialize (Hpv s ltac:(left)). by destruct (e_pv s).
Qed.
Lemma updated_keys ds rp : get_single_reference_product ds = Ok rp -> only_complains (updated_volume ds)
  (("suppliers"%string, has (d_suppliers ds)) ::
   match d_suppliers ds with None => [] | Some l => concat (map volume_reads l) ++ volume_reads rp end).
Proof.
  intros H. unfold updated_volume. rewrite H. cbn [bind]. destruct (d_suppliers ds) as [l|]; [|done].
  cbn [getkey has]. change (only_complains ?r ((?k, true) :: ?m)) with (only_complains r m). cbn [bind].
  apply only_bind; [apply only_mapR; intros; apply original_volume_keys|]. intros qs Hqs.
  unfold only_complains, volume_reads at 1. destruct (e_pv rp) as [v|]; cbn; [|done].
  assert (exists pvs, mapR supplier_volume l = Ok pvs) as [pvs ->]; [|cbn; eauto].
  apply mapR_Ok in Hqs. clear -Hqs. induction Hqs as [|s q l qs Hs _ [pvs IH]]; [by eexists|]. cbn. rewrite IH.
  revert Hs. unfold original_volume, supplier_volume. destruct (e_pv s); cbn; eauto. done.
Qed.
Lemma update_keys ds rp : get_single_reference_product ds = Ok rp -> only_complains (update_volume ds)
  (("suppliers"%string, has (d_suppliers ds)) ::
   match d_suppliers ds with None => [] | Some l => concat (map volume_reads l) ++ volume_reads rp end).
Proof.
  intros H. unfold update_volume. apply only_bind_ok; [by apply updated_keys|]. intros pv Hpv.
  unfold updated_volume in Hpv. rewrite H in Hpv. cbn [bind] in Hpv. apply bind_Ok in Hpv as (l & -> & Hpv). cbn [bind].
  apply bind_Ok in Hpv as (qs & -> & _). cbn. eauto.
Qed.
Lemma propagate_keys ds pv other l : other <> ds -> d_suppliers other = Some l -> l <> [] ->
  only_complains (propagate ds pv other) (concat (map code_reads l) ++ [("code"%string, has (d_code ds))]).
Proof.
  intros Hne Hl Hnil. unfold propagate. rewrite bool_decide_eq_false_2 by done. rewrite Hl. cbn [getkey bind].
  destruct l as [|s l]; [done|]. apply only_bind.
  - apply only_mapR. intros e _. unfold only_complains, code_reads. destruct (e_code e); cbn; eauto.
  - intros codes _. unfold only_complains. destruct (d_code ds); cbn; eauto.
Qed.
Lemma propagate_missing ds pv other : other <> ds -> d_suppliers other = None -> propagate ds pv other = Err (KeyError "suppliers").
Proof. intros Hne H. unfold propagate. rewrite bool_decide_eq_false_2 by done. by rewrite H. Qed.
Lemma market_row_keys ds rp : get_single_reference_product ds = Ok rp -> only_complains (market_row ds)
  (("suppliers"%string, has (d_suppliers ds)) ::
   match d_suppliers ds with None => [] | Some l => concat (map volume_reads l) ++ volume_reads rp end).
Proof.
  intros H. unfold market_row. rewrite H. cbn [bind]. destruct (d_suppliers ds) as [l|]; [|done].
  cbn [getkey has]. change (only_complains ?r ((?k, true) :: ?m)) with (only_complains r m). cbn [bind].
  apply only_bind; [apply only_mapR; intros; apply original_volume_keys|]. intros qs Hqs.
  unfold only_complains, volume_reads at 1. destruct (e_pv rp) as [v|]; cbn; [|done].
  assert (exists pvs, mapR (fun s => getkey "production volume" (e_pv s)) l = Ok pvs) as [pvs ->]; [|cbn; eauto].
  apply mapR_Ok in Hqs. clear -Hqs. induction Hqs as [|s q l qs Hs _ [pvs IH]]; [by eexists|]. cbn. rewrite IH.
  revert Hs. unfold original_volume. destruct (e_pv s); cbn; eauto. done.
Qed.
Lemma best_level_keys suppliers levels : levels <> [] -> only_complains (best_level suppliers levels)
  (map (fun s => ("technology level"%string, has (e_tech s))) suppliers).
Proof.
  intros Hne.
  assert (forall level, only_complains (filterR (fun o => let? l := getkey "technology level" (e_tech o) in Ok (l =? level)%string) suppliers)
    (map (fun s => ("technology level"%string, has (e_tech s))) suppliers)) as H.
  { intros level. assert (map (fun s => ("technology level"%string, has (e_tech s))) suppliers =
      concat (map (fun s => [("technology level"%string, has (e_tech s))]) suppliers)) as ->.
    { clear. induction suppliers as [|s l IH]; [done|]. cbn. by rewrite IH. }
    apply only_filterR. intros s _. unfold only_complains. destruct (e_tech s); cbn; eauto. }
  unfold only_complains in *. induction levels as [|level levels IH]; [done|]. unfold best_level; fold best_level. specialize (H level).
  destruct (first_missing _) as [k|] eqn:E; [by rewrite H|]. destruct H as [s ->]. cbn. destruct s; [|eauto].
  destruct levels; [by eexists|]. by apply IH.
Qed.
Lemma decide_one_keys ln exc ds : only_complains (decide_input ln exc [ds]) [("code"%string, has (d_code ds))].
Proof. unfold decide_input, only_complains. destruct (d_code ds); cbn; eauto. Qed.
Lemma split_missing ln ds rp : get_single_reference_product ds = Ok rp -> e_class rp = None ->
  handle_split_dataset ln ds = Err (KeyError "byproduct classification").
Proof. intros H E. unfold handle_split_dataset. rewrite H. cbn [bind]. by rewrite E. Qed.
Lemma sign_missing ln ds rp : d_type ds = MarketActivity -> get_single_reference_product ds = Ok rp -> e_class rp = None ->
  adjust_market_sign ln ds = Err (KeyError "byproduct classification").
Proof. intros Ht H E. unfold adjust_market_sign. rewrite bool_decide_eq_true_2, H by done. cbn [bind]. by rewrite E. Qed.
Lemma link_missing data p exc : exchange_at p.1 p.2 data = Some exc ->
  (e_link exc = None -> handle_constrained_exchange data p = Err (KeyError "activity link")) /\
  (forall link, e_link exc = Some link -> position_of_id data link = None -> handle_constrained_exchange data p = Err (KeyError link)).
Proof.
  intros H. unfold handle_constrained_exchange. rewrite H. cbn. split; [by intros ->|]. intros link ->. cbn. by intros ->.
Qed.
Lemma actualize_missing data e i ds : e_link e = Some i -> i <> ""%string ->
  filterb (fun ds => (d_id ds =? i)%string) data = [ds] -> d_refprod ds = Some (e_name e) -> d_code ds = None ->
  actualize_link data e = Err (KeyError "code").
Proof.
  intros Hl Hi Hf Hr Hc. unfold actualize_link. rewrite Hl. apply String.eqb_neq in Hi. rewrite Hi, Hf. cbn. unfold refprod. rewrite Hr. cbn.
  rewrite String.eqb_refl. cbn. by rewrite Hc.
Qed.
Lemma recycled_code_missing producers e p : unlinked e = true -> filterb (fun p => (p.1 =? e_name e)%string) producers = [p] ->
  only_complains (link_rc producers e) [("code"%string, has (d_code p.2))].
Proof. intros Hu Hf. unfold link_rc. rewrite Hu, Hf. unfold only_complains. destruct (d_code p.2); cbn; eauto. Qed.
