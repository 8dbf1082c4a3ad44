(** Proofs for C72, second part: objects of datasets. *)
From Coq Require Import Ascii.
From Verif Require Import Base Types Uncertainty Utils Strings StringFacts Recalculation Formulas Parameters Spec_Parameters
  Parameters_proofs Spec_Formulas Formulas_proofs Reserved_proofs Spec_References References_proofs.

(** *** Objects *)
Global Instance address_eq_dec : EqDecision address.
Proof. solve_decision. Defined.
Definition obj_at (ds : dataset) (a : address) : option pobj :=
  match a with
  | AtExchange i => e_obj <$> d_exchanges ds !! i
  | AtVolume i => v_obj <$> (d_exchanges ds !! i ≫= e_pv)
  | AtProperty i j => p_obj <$> (d_exchanges ds !! i ≫= (fun e => e_props e !! j))
  | AtParameter k => q_obj <$> d_params ds !! k
  end.
Lemma variable_obj ds a : variable_at ds a = obj_at ds a ≫= o_variable.
Proof.
  destruct a as [i|i|i j|k]; cbn [variable_at obj_at].
  - by destruct (d_exchanges ds !! i).
  - destruct (d_exchanges ds !! i) as [e|]; [|done]. cbn. by destruct (e_pv e).
  - destruct (d_exchanges ds !! i) as [e|]; [|done]. cbn. by destruct (e_props e !! j).
  - by destruct (d_params ds !! k).
Qed.
Lemma formula_obj ds a : formula_at ds a = obj_at ds a ≫= o_formula.
Proof.
  destruct a as [i|i|i j|k]; cbn [formula_at obj_at].
  - by destruct (d_exchanges ds !! i).
  - destruct (d_exchanges ds !! i) as [e|]; [|done]. cbn. by destruct (e_pv e).
  - destruct (d_exchanges ds !! i) as [e|]; [|done]. cbn. by destruct (e_props e !! j).
  - by destruct (d_params ds !! k).
Qed.
Definition with_variable (x : string) (o : pobj) : pobj := mkPobj (Some x) (o_formula o) (o_value o).
Definition with_formula (x : string) (o : pobj) : pobj := mkPobj (o_variable o) (Some x) (o_value o).

Lemma exchanges_set es ds : d_exchanges (set_d_exchanges es ds) = es.
Proof. by destruct ds. Qed.
Lemma params_set qs ds : d_params (set_d_params qs ds) = qs.
Proof. by destruct ds. Qed.
Lemma exchanges_params qs ds : d_exchanges (set_d_params qs ds) = d_exchanges ds.
Proof. by destruct ds. Qed.
Lemma params_exchanges es ds : d_params (set_d_exchanges es ds) = d_params ds.
Proof. by destruct ds. Qed.
Lemma fmap_alter {A B} (g : A -> B) (f : A -> A) i (l : list A) : (forall x, g (f x) = g x) ->
  g <$> (alter f i l) !! i = g <$> l !! i.
Proof. intros H. rewrite list_lookup_alter. destruct (l !! i); [|done]. cbn. by rewrite H. Qed.

Ltac cases_at :=
  repeat match goal with
  | |- context [alter ?f ?i ?l !! ?i] => rewrite list_lookup_alter
  | |- context [alter ?f ?i ?l !! ?j] =>
      destruct (decide (i = j)) as [->|?Hne];
      [rewrite list_lookup_alter|rewrite list_lookup_alter_ne by done]
  end.
Lemma put_variable_obj x ds a b : obj_at (put_variable x ds a) b = if decide (b = a) then with_variable x <$> obj_at ds b else obj_at ds b.
Proof.
  destruct a as [i|i|i j|k], b as [i'|i'|i' j'|k']; cbn [put_variable obj_at];
    rewrite ?exchanges_set, ?params_set, ?exchanges_params, ?params_exchanges; cases_at;
    repeat case_decide; simplify_eq; try done.
  all: try match goal with |- context [d_exchanges ?d !! ?i] => destruct (d_exchanges d !! i) as [e|] eqn:?Hi end.
  all: try match goal with |- context [d_params ?d !! ?i] => destruct (d_params d !! i) as [q|] eqn:?Hi end.
  all: try done; try (match goal with e : exchange |- _ => by destruct e | q : param |- _ => by destruct q end).
  all: match goal with e : exchange |- _ => destruct e as [] end; cbn;
    try (match goal with v : option pvol |- _ => by destruct v as [[]|] end); cases_at; simplify_eq; try done.
  all: match goal with |- context [?l !! ?i] => destruct (l !! i) as [[]|] end; done.
Qed.
Lemma put_formula_obj x ds a b : obj_at (put_formula x ds a) b = if decide (b = a) then with_formula x <$> obj_at ds b else obj_at ds b.
Proof.
  destruct a as [i|i|i j|k], b as [i'|i'|i' j'|k']; cbn [put_formula obj_at];
    rewrite ?exchanges_set, ?params_set, ?exchanges_params, ?params_exchanges; cases_at;
    repeat case_decide; simplify_eq; try done.
  all: try match goal with |- context [d_exchanges ?d !! ?i] => destruct (d_exchanges d !! i) as [e|] eqn:?Hi end.
  all: try match goal with |- context [d_params ?d !! ?i] => destruct (d_params d !! i) as [q|] eqn:?Hi end.
  all: try done; try (match goal with e : exchange |- _ => by destruct e | q : param |- _ => by destruct q end).
  all: match goal with e : exchange |- _ => destruct e as [] end; cbn;
    try (match goal with v : option pvol |- _ => by destruct v as [[]|] end); cases_at; simplify_eq; try done.
  all: match goal with |- context [?l !! ?i] => destruct (l !! i) as [[]|] end; done.
Qed.

(** *** What the changes leave alone *)
Lemma map_alter_same {A B} (g : A -> B) (f : A -> A) i (l : list A) : (forall x, g (f x) = g x) -> map g (alter f i l) = map g l.
Proof.
  intros H. revert i. induction l as [|x l IH]; intros [|i]; cbn; [done..| |]; [by rewrite H|]. f_equal. apply IH.
Qed.
Lemma put_variable_unnamed x ds a : unnamed (put_variable x ds a) = unnamed ds.
Proof.
  unfold unnamed. destruct a as [i|i|i j|k]; cbn [put_variable];
    rewrite ?exchanges_set, ?params_set, ?exchanges_params, ?params_exchanges, map_alter_same; try by destruct ds.
  - intros e. unfold unnamed_exchange. destruct e as []; cbn. by destruct e_pv as [[]|].
  - intros e. unfold unnamed_exchange. destruct e as []; cbn. rewrite map_alter_same; [done|]. intros p. by destruct p.
Qed.
Lemma put_formula_unnamed x ds a : unnamed (put_formula x ds a) = unnamed ds.
Proof.
  unfold unnamed. destruct a as [i|i|i j|k]; cbn [put_formula];
    rewrite ?exchanges_set, ?params_set, ?exchanges_params, ?params_exchanges, map_alter_same; try by destruct ds.
  - intros e. unfold unnamed_exchange. destruct e as []; cbn. by destruct e_pv as [[]|].
  - intros e. unfold unnamed_exchange. destruct e as []; cbn. rewrite map_alter_same; [done|]. intros p. by destruct p.
Qed.
Lemma unnamed_exchanges ds ds' : unnamed ds = unnamed ds' -> map unnamed_exchange (d_exchanges ds) = map unnamed_exchange (d_exchanges ds').
Proof. intros H. apply (f_equal d_exchanges) in H. by destruct ds, ds'. Qed.
Lemma unnamed_params ds ds' : unnamed ds = unnamed ds' -> map unnamed_param (d_params ds) = map unnamed_param (d_params ds').
Proof. intros H. apply (f_equal d_params) in H. by destruct ds, ds'. Qed.
Lemma map_lookup_same {A B} (g : A -> B) k l i : map g k = map g l -> g <$> k !! i = g <$> l !! i.
Proof. intros H. rewrite <- !list_lookup_fmap. exact (f_equal (fun m => m !! i) H). Qed.
Lemma same_exchange_at ds ds' i e : unnamed ds = unnamed ds' -> d_exchanges ds !! i = Some e ->
  exists e', d_exchanges ds' !! i = Some e' /\ unnamed_exchange e = unnamed_exchange e'.
Proof.
  intros H%unnamed_exchanges He. apply (map_lookup_same _ _ _ i) in H. rewrite He in H. cbn in H.
  destruct (d_exchanges ds' !! i) as [e'|]; [|done]. exists e'. split; [done|]. cbn in H. congruence.
Qed.
Lemma same_param_at ds ds' i e : unnamed ds = unnamed ds' -> d_params ds !! i = Some e ->
  exists e', d_params ds' !! i = Some e' /\ unnamed_param e = unnamed_param e'.
Proof.
  intros H%unnamed_params He. apply (map_lookup_same _ _ _ i) in H. rewrite He in H. cbn in H.
  destruct (d_params ds' !! i) as [e'|]; [|done]. exists e'. split; [done|]. cbn in H. congruence.
Qed.
Lemma unnamed_id e e' : unnamed_exchange e = unnamed_exchange e' -> e_id e = e_id e'.
Proof. intros H. apply (f_equal e_id) in H. by destruct e, e'. Qed.
Lemma unnamed_has_pv e e' : unnamed_exchange e = unnamed_exchange e' -> unnamed_pv <$> e_pv e = unnamed_pv <$> e_pv e'.
Proof. intros H. apply (f_equal e_pv) in H. by destruct e, e'. Qed.
Lemma unnamed_props e e' : unnamed_exchange e = unnamed_exchange e' -> map unnamed_prop (e_props e) = map unnamed_prop (e_props e').
Proof. intros H. apply (f_equal e_props) in H. by destruct e, e'. Qed.
Lemma unnamed_q_id q q' : unnamed_param q = unnamed_param q' -> q_id q = q_id q'.
Proof. intros H. apply (f_equal q_id) in H. by destruct q, q'. Qed.

(** *** Finding objects *)
Lemma find_id_same {A B} (id : A -> option string) (g : A -> B) u i l l' : (forall x y, g x = g y -> id x = id y) -> map g l = map g l' ->
  find_id id u i l = find_id id u i l'.
Proof.
  intros Hg. revert l' i. induction l as [|x l IH]; intros [|y l'] i H; try done. cbn [map] in H.
  assert (id x = id y) as E by (apply Hg; exact (f_equal (fun m => match m with z :: _ => z | [] => g x end) H)).
  cbn [find_id]. rewrite E. destruct (getkey "id" (id y)) as [k|]; [|done]. cbn [bind]. case_match; [done|]. apply IH.
  exact (f_equal (drop 1) H).
Qed.
Lemma find_exchange_same ds ds' u : unnamed ds = unnamed ds' ->
  find_exchange_or_parameter_by_id ds u = find_exchange_or_parameter_by_id ds' u.
Proof.
  intros H. unfold find_exchange_or_parameter_by_id.
  rewrite (find_id_same e_id unnamed_exchange u 0 _ (d_exchanges ds')); [|apply unnamed_id|by apply unnamed_exchanges].
  rewrite (find_id_same q_id unnamed_param u 0 _ (d_params ds')); [done|apply unnamed_q_id|by apply unnamed_params].
Qed.
Lemma find_volume_same ds ds' u : unnamed ds = unnamed ds' ->
  find_production_volume_by_id ds u = find_production_volume_by_id ds' u.
Proof.
  intros H. unfold find_production_volume_by_id.
  rewrite (find_id_same e_id unnamed_exchange u 0 _ (d_exchanges ds')); [|apply unnamed_id|by apply unnamed_exchanges].
  destruct (find_id e_id u 0 (d_exchanges ds')) as [[i|]|]; [|done..]. cbn [bind].
  assert ((d_exchanges ds !! i ≫= e_pv <> None) <-> (d_exchanges ds' !! i ≫= e_pv <> None)) as E; [|by rewrite (bool_decide_ext _ _ E)].
  pose proof (map_lookup_same _ _ _ i (unnamed_exchanges _ _ H)) as Hi.
  destruct (d_exchanges ds !! i) as [e|], (d_exchanges ds' !! i) as [e'|]; cbn in Hi; try done.
  assert (unnamed_exchange e = unnamed_exchange e') as Hu%unnamed_has_pv by congruence. cbn.
  by destruct (e_pv e), (e_pv e').
Qed.
Lemma find_id_first {A} (id : A -> option string) u i l r : find_id id u i l = Ok r ->
  match r with
  | Some k => exists j, k = (i + j)%nat /\ first_with id u l j
  | None => forall x, x ∈ l -> id x <> Some u
  end.
Proof.
  revert i. induction l as [|x l IH]; intros i H; cbn [find_id] in H.
  - apply Ok_inj in H as <-. intros x Hx. by apply elem_of_nil in Hx.
  - apply bind_Ok in H as (k & Hk & H). destruct (id x) as [k'|] eqn:Ek; [|done]. cbn in Hk. apply Ok_inj in Hk as ->.
    destruct (String.eqb_spec k u) as [->|Hne].
    + apply Ok_inj in H as <-. exists 0%nat. split; [lia|]. split; [by exists x|]. intros j y Hj. lia.
    + apply IH in H. destruct r as [r|].
      * destruct H as (j & -> & (y & Hy & Hyu) & Hf). exists (S j). split; [lia|]. split; [by exists y|].
        intros [|j'] z Hj Hz; cbn in Hz; [|apply (Hf j'); [lia|done]]. assert (z = x) as -> by congruence. congruence.
      * intros y [->|Hy]%elem_of_cons; [congruence|]. by apply H.
Qed.
Lemma find_id_total {A} (id : A -> option string) u i l : (forall x, x ∈ l -> id x <> None) -> exists r, find_id id u i l = Ok r.
Proof.
  revert i. induction l as [|x l IH]; intros i H; [by exists None|]. cbn [find_id].
  destruct (id x) as [k|] eqn:E; [|exfalso; apply (H x); [apply elem_of_cons; auto|done]]. cbn [getkey bind].
  destruct (k =? u)%string; [by eexists|]. apply IH. intros y Hy. apply H. apply elem_of_cons. auto.
Qed.
