(** Base layer: exceptions as values, the error monad over lists, and
    automation for exact rationals.  Nothing here models a particular Ocelot
    function; it fixes the vocabulary in which the functions are modelled. *)
From stdpp Require Export prelude list strings numbers sorting.
From Coq Require Export QArith.QArith QArith.Qcanon QArith.Qabs.
From Coq Require Import Lqa.
From Coq Require Export Morphisms.

Global Open Scope nat_scope.
Global Open Scope list_scope.

(** * Exceptions
    Every exception class of ocelot/errors.py lines 4-101 that the modelled
    functions raise, plus the Python built-in ones.  [NotANumber] is not a
    Python exception: numpy/pandas silently continue with NaN or infinity
    there, and the model stops instead, so no theorem says anything about a
    run that produced NaN. *)
Inductive exn :=
  | KeyError (key : string)
  | ValueError | AssertionError | TypeError | IndexError | AttributeError
  | ZeroDivisionError | UnboundLocalError | NotANumber
  | ZeroProduction | IdenticalVariables | InvalidMultioutputDataset
  | UnsupportedDistribution | InvalidExchange | MultipleGlobalDatasets
  | UnparsableFormula | InvalidMarketExchange | InvalidMarket
  | UnresolvableActivityLink | MissingMandatoryProperty
  | OverlappingActivities | IdenticalDatasets | OverlappingMarkets
  | InvalidTransformationFunction | MissingSupplier
  | MissingAlternativeProducer | MarketGroupError | ParameterizationError
  | OSError | EOFError | StopIteration.

Global Instance exn_eq_dec : EqDecision exn.
Proof. solve_decision. Defined.

(** A call either returns or raises. *)
Inductive result (A : Type) :=
  | Ok (a : A)
  | Err (e : exn).
Arguments Ok {A} a.
Arguments Err {A} e.

Global Instance result_eq_dec `{EqDecision A} : EqDecision (result A).
Proof. solve_decision. Defined.

Definition bind {A B} (m : result A) (k : A -> result B) : result B :=
  match m with Ok a => k a | Err e => Err e end.
Definition fmapR {A B} (f : A -> B) (m : result A) : result B :=
  match m with Ok a => Ok (f a) | Err e => Err e end.
Definition is_ok {A} (m : result A) : bool :=
  match m with Ok _ => true | Err _ => false end.

Notation "'let?' x := m 'in' k" := (bind m (fun x => k))
  (at level 200, x pattern, m at level 100, k at level 200, right associativity).

(** Reading a dictionary key. *)
Definition getkey {A} (k : string) (o : option A) : result A :=
  match o with Some a => Ok a | None => Err (KeyError k) end.

(** Python [assert]. *)
Definition assertR (b : bool) (e : exn) : result unit :=
  if b then Ok tt else Err e.

(** List comprehension [[f(x) for x in l]], left to right, stopping at the
    first exception. *)
Fixpoint mapR {A B} (f : A -> result B) (l : list A) : result (list B) :=
  match l with
  | [] => Ok []
  | x :: l => let? y := f x in let? ys := mapR f l in Ok (y :: ys)
  end.

(** [[x for x in l if p(x)]] where [p] may raise. *)
Fixpoint filterR {A} (p : A -> result bool) (l : list A) : result (list A) :=
  match l with
  | [] => Ok []
  | x :: l => let? b := p x in let? ys := filterR p l in
              Ok (if b then x :: ys else ys)
  end.

(** [for x in l: acc = f(acc, x)]. *)
Fixpoint foldR {A B} (f : B -> A -> result B) (acc : B) (l : list A) : result B :=
  match l with
  | [] => Ok acc
  | x :: l => let? acc := f acc x in foldR f acc l
  end.

(** [any(p(x) for x in l)]: stops at the first true element. *)
Fixpoint anyR {A} (p : A -> result bool) (l : list A) : result bool :=
  match l with
  | [] => Ok false
  | x :: l => let? b := p x in if b then Ok true else anyR p l
  end.

(** [for x in l: check(x)] where the check only raises. *)
Fixpoint iterR {A} (f : A -> result unit) (l : list A) : result unit :=
  match l with
  | [] => Ok tt
  | x :: l => let? _ := f x in iterR f l
  end.

(** [[y for x in l for y in f(x)]]. *)
Definition concat_mapR {A B} (f : A -> result (list B)) (l : list A)
  : result (list B) :=
  fmapR (@concat B) (mapR f l).

(** Boolean list filter, kept separate from the std++ class-based [filter]. *)
Definition filterb {A} (p : A -> bool) (l : list A) : list A := List.filter p l.

(** * Rationals *)
Definition Qceqb (x y : Qc) : bool := bool_decide (x = y).
Definition Qcleb (x y : Qc) : bool := bool_decide (x <= y)%Qc.
Definition Qcltb (x y : Qc) : bool := bool_decide (x < y)%Qc.
(** Python [abs]. *)
Definition Qcabs (x : Qc) : Qc := if Qcltb x 0 then (- x)%Qc else x.
(** Python [max(a, b)] on two numbers. *)
Definition Qcmax (x y : Qc) : Qc := if Qcltb x y then y else x.
(** Truth value of a number: [if x]. *)
Definition Qctruthy (x : Qc) : bool := negb (Qceqb x 0).
(** Python [sum]. *)
Definition Qcsum (l : list Qc) : Qc := foldr Qcplus 0%Qc l.
Definition Qcint (z : Z) : Qc := Q2Qc (inject_Z z).
Definition frac (n : Z) (d : positive) : Qc := Q2Qc (n # d).

(** Python's [/] on numbers. *)
Definition divR (x y : Qc) : result Qc :=
  if Qceqb y 0 then Err ZeroDivisionError else Ok (x / y)%Qc.

Global Arguments Qcplus : simpl never.
Global Arguments Qcmult : simpl never.
Global Arguments Qcopp : simpl never.
Global Arguments Qcminus : simpl never.
Global Arguments Qcdiv : simpl never.
Global Arguments Qcinv : simpl never.
Global Arguments Q2Qc : simpl never.
Global Arguments frac : simpl never.
Global Arguments Qcint : simpl never.
Global Arguments Qceqb : simpl never.
Global Arguments Qcleb : simpl never.
Global Arguments Qcltb : simpl never.
Global Arguments Qcabs : simpl never.
Global Arguments Qcmax : simpl never.
Global Arguments Qctruthy : simpl never.

Lemma Qceqb_true x y : Qceqb x y = true <-> x = y.
Proof. unfold Qceqb. by rewrite bool_decide_eq_true. Qed.
Lemma Qceqb_false x y : Qceqb x y = false <-> x <> y.
Proof. unfold Qceqb. by rewrite bool_decide_eq_false. Qed.
Lemma Qcltb_true x y : Qcltb x y = true <-> (x < y)%Qc.
Proof. unfold Qcltb. by rewrite bool_decide_eq_true. Qed.
Lemma Qcltb_false x y : Qcltb x y = false <-> (y <= x)%Qc.
Proof.
  unfold Qcltb. rewrite bool_decide_eq_false. split.
  - apply Qcnot_lt_le.
  - apply Qcle_not_lt.
Qed.
Lemma Qcleb_true x y : Qcleb x y = true <-> (x <= y)%Qc.
Proof. unfold Qcleb. by rewrite bool_decide_eq_true. Qed.
Lemma Qcleb_false x y : Qcleb x y = false <-> (y < x)%Qc.
Proof.
  unfold Qcleb. rewrite bool_decide_eq_false. split.
  - apply Qcnot_le_lt.
  - apply Qclt_not_le.
Qed.
Lemma Qctruthy_true x : Qctruthy x = true <-> x <> 0%Qc.
Proof. unfold Qctruthy. rewrite negb_true_iff. apply Qceqb_false. Qed.
Lemma Qctruthy_false x : Qctruthy x = false <-> x = 0%Qc.
Proof. unfold Qctruthy. rewrite negb_false_iff. apply Qceqb_true. Qed.
Lemma Qceqb_refl x : Qceqb x x = true.
Proof. by apply Qceqb_true. Qed.

(** ** Linear arithmetic on [Qc] by transport to [Q]. *)
Lemma qc_eq x y : x = y <-> (this x == this y)%Q.
Proof.
  split.
  - intros ->. reflexivity.
  - apply Qc_is_canon.
Qed.
Lemma qc_le x y : (x <= y)%Qc <-> (this x <= this y)%Q.
Proof. reflexivity. Qed.
Lemma qc_lt x y : (x < y)%Qc <-> (this x < this y)%Q.
Proof. reflexivity. Qed.
Lemma this_plus x y : (this (x + y)%Qc == this x + this y)%Q.
Proof. apply Qred_correct. Qed.
Lemma this_mult x y : (this (x * y)%Qc == this x * this y)%Q.
Proof. apply Qred_correct. Qed.
Lemma this_opp x : (this (- x)%Qc == - this x)%Q.
Proof. apply Qred_correct. Qed.
Lemma this_minus x y : (this (x - y)%Qc == this x - this y)%Q.
Proof. unfold Qcminus. rewrite this_plus, this_opp. reflexivity. Qed.
Lemma this_inv x : (this (/ x)%Qc == / this x)%Q.
Proof. apply Qred_correct. Qed.
Lemma this_div x y : (this (x / y)%Qc == this x * / this y)%Q.
Proof. unfold Qcdiv. rewrite this_mult, this_inv. reflexivity. Qed.
Lemma this_Q2Qc q : (this (Q2Qc q) == q)%Q.
Proof. apply Qred_correct. Qed.

Ltac qc_push :=
  repeat first
    [ rewrite this_plus | rewrite this_minus | rewrite this_mult
    | rewrite this_opp | rewrite this_div | rewrite this_inv
    | rewrite this_Q2Qc ].
Ltac qc_push_in H :=
  repeat first
    [ rewrite this_plus in H | rewrite this_minus in H | rewrite this_mult in H
    | rewrite this_opp in H | rewrite this_div in H | rewrite this_inv in H
    | rewrite this_Q2Qc in H ].

Ltac qc_bool :=
  repeat match goal with
  | H : Qceqb _ _ = true |- _ => apply Qceqb_true in H
  | H : Qceqb _ _ = false |- _ => apply Qceqb_false in H
  | H : Qcltb _ _ = true |- _ => apply Qcltb_true in H
  | H : Qcltb _ _ = false |- _ => apply Qcltb_false in H
  | H : Qcleb _ _ = true |- _ => apply Qcleb_true in H
  | H : Qcleb _ _ = false |- _ => apply Qcleb_false in H
  | H : Qctruthy _ = true |- _ => apply Qctruthy_true in H
  | H : Qctruthy _ = false |- _ => apply Qctruthy_false in H
  end.

Ltac qc_hyps :=
  repeat match goal with
  | H : @eq Qc ?x ?y |- _ => apply (proj1 (qc_eq x y)) in H; qc_push_in H
  | H : Qcle ?x ?y |- _ => change (Qle (this x) (this y)) in H; qc_push_in H
  | H : Qclt ?x ?y |- _ => change (Qlt (this x) (this y)) in H; qc_push_in H
  end.

(** [qclra]: linear goals over [Qc]. [qcnra]: with products. *)
Ltac qc_goal :=
  match goal with
  | |- @eq Qc _ _ => apply qc_eq; qc_push
  | |- Qcle ?x ?y => change (Qle (this x) (this y)); qc_push
  | |- Qclt ?x ?y => change (Qlt (this x) (this y)); qc_push
  | |- ~ @eq Qc ?x ?y => let H := fresh in intros H; apply (proj1 (qc_eq x y)) in H; qc_push_in H
  | |- @eq Qc ?x ?y -> False => let H := fresh in intros H; apply (proj1 (qc_eq x y)) in H; qc_push_in H
  | |- _ => exfalso
  end.
Ltac qclra := qc_bool; qc_hyps; qc_goal; lra.
Ltac qcnra := qc_bool; qc_hyps; qc_goal; nra.

(** Deciding a concrete proposition by computation. *)
Lemma by_dec (P : Prop) `{Decision P} : bool_decide P = true -> P.
Proof. apply bool_decide_eq_true_1. Qed.
Ltac by_compute := refine (by_dec _ _); vm_compute; reflexivity.

(** * Inverting successful computations *)
Lemma bind_Ok {A B} (m : result A) (k : A -> result B) b :
  bind m k = Ok b <-> exists a, m = Ok a /\ k a = Ok b.
Proof.
  destruct m; simpl; split.
  - eauto.
  - intros (? & [= ->] & ?). done.
  - discriminate.
  - intros (? & [=] & ?).
Qed.
Lemma fmapR_Ok {A B} (f : A -> B) m b :
  fmapR f m = Ok b <-> exists a, m = Ok a /\ b = f a.
Proof. destruct m; simpl; naive_solver. Qed.
Lemma getkey_Ok {A} k (o : option A) a : getkey k o = Ok a <-> o = Some a.
Proof. destruct o; simpl; naive_solver. Qed.
Lemma assertR_Ok b e u : assertR b e = Ok u <-> b = true.
Proof. destruct b, u; simpl; naive_solver. Qed.
Lemma divR_Ok x y z : divR x y = Ok z <-> y <> 0%Qc /\ z = (x / y)%Qc.
Proof.
  unfold divR. destruct (Qceqb y 0) eqn:E; qc_bool; naive_solver.
Qed.

Lemma Ok_inj {A} (a b : A) : Ok a = Ok b -> a = b.
Proof. by intros [= ->]. Qed.

Ltac inv_ok1 :=
  match goal with
  | H : bind _ _ = Ok _ |- _ =>
      let v := fresh "v" in let Hk := fresh "Hok" in
      apply bind_Ok in H; destruct H as (v & Hk & H); cbv beta in H
  | H : fmapR _ _ = Ok _ |- _ =>
      let v := fresh "v" in let Hk := fresh "Hok" in
      apply fmapR_Ok in H; destruct H as (v & Hk & H)
  | H : getkey _ _ = Ok _ |- _ => apply getkey_Ok in H
  | H : divR _ _ = Ok _ |- _ =>
      let Hk := fresh "Hdiv" in apply divR_Ok in H; destruct H as (Hk & H)
  | H : assertR _ _ = Ok _ |- _ => apply assertR_Ok in H
  | H : Ok _ = Ok _ |- _ => apply Ok_inj in H
  | H : Err _ = Ok _ |- _ => discriminate H
  | H : Ok _ = Err _ |- _ => discriminate H
  | H : (if ?b then _ else _) = Ok _ |- _ => destruct b eqn:?
  end.
Ltac inv_ok := repeat inv_ok1.

(** * Lemmas about the list operations *)
Lemma mapR_Ok {A B} (f : A -> result B) l ys :
  mapR f l = Ok ys <-> Forall2 (fun x y => f x = Ok y) l ys.
Proof.
  revert ys. induction l as [|x l IH]; intros ys; simpl.
  - split.
    + intros [= <-]. constructor.
    + inversion 1. done.
  - split.
    + intros H. inv_ok. subst. constructor; [done|]. by apply IH.
    + inversion 1 as [|? y ? ys' Hy Hys]; subst. rewrite Hy. simpl.
      apply IH in Hys. rewrite Hys. done.
Qed.
Lemma mapR_length {A B} (f : A -> result B) l ys :
  mapR f l = Ok ys -> length ys = length l.
Proof. intros H%mapR_Ok. symmetry. by eapply Forall2_length. Qed.
Lemma mapR_ok_all {A B} (f : A -> result B) l :
  (forall x, x ∈ l -> exists y, f x = Ok y) -> exists ys, mapR f l = Ok ys.
Proof.
  induction l as [|x l IH]; intros H; simpl; [eauto|].
  destruct (H x) as [y ->]; [left|]. simpl.
  destruct IH as [ys ->]; [intros; apply H; by right|]. simpl. eauto.
Qed.
Lemma mapR_app {A B} (f : A -> result B) l1 l2 :
  mapR f (l1 ++ l2) = (let? a := mapR f l1 in let? b := mapR f l2 in Ok (a ++ b)).
Proof.
  induction l1 as [|x l1 IH]; simpl.
  - by destruct (mapR f l2).
  - destruct (f x); simpl; [|done]. rewrite IH.
    destruct (mapR f l1); simpl; [|done]. by destruct (mapR f l2).
Qed.
Lemma mapR_pure {A B} (f : A -> B) l : mapR (fun x => Ok (f x)) l = Ok (map f l).
Proof. induction l as [|x l IH]; simpl; [done|]. by rewrite IH. Qed.
Lemma mapR_ext {A B} (f g : A -> result B) l :
  (forall x, x ∈ l -> f x = g x) -> mapR f l = mapR g l.
Proof.
  induction l as [|x l IH]; intros H; simpl; [done|].
  rewrite (H x) by left. rewrite IH; [done|]. intros; apply H; by right.
Qed.
Lemma mapR_Err {A B} (f : A -> result B) l e :
  mapR f l = Err e <->
  exists l1 x l2, l = l1 ++ x :: l2 /\ f x = Err e /\
                  Forall (fun y => exists z, f y = Ok z) l1.
Proof.
  induction l as [|x l IH]; simpl.
  - split; [discriminate|]. intros (l1 & y & l2 & H & _). by destruct l1.
  - destruct (f x) as [y|e'] eqn:Hx; simpl.
    + split.
      * intros H. destruct (mapR f l) as [ys|e''] eqn:Hl; simpl in H; [discriminate|].
        apply IH in H as (l1 & z & l2 & -> & Hz & Hl1).
        exists (x :: l1), z, l2. split; [done|]. split; [done|].
        constructor; eauto.
      * intros (l1 & z & l2 & Heq & Hz & Hl1).
        destruct l1 as [|x' l1]; simplify_eq/=; [congruence|].
        inversion Hl1; subst.
        assert (mapR f (l1 ++ z :: l2) = Err e) as ->; [|done].
        apply IH. eauto 10.
    + split.
      * intros [= ->]. exists [], x, l. repeat split; auto.
      * intros (l1 & z & l2 & Heq & Hz & Hl1).
        destruct l1 as [|x' l1]; simplify_eq/=; [congruence|].
        inversion Hl1 as [|? ? [z' Hz']]; congruence.
Qed.

Lemma filterR_pure {A} (p : A -> bool) l :
  filterR (fun x => Ok (p x)) l = Ok (filterb p l).
Proof.
  induction l as [|x l IH]; simpl; [done|]. rewrite IH. simpl.
  by destruct (p x).
Qed.

Lemma iterR_Ok {A} (f : A -> result unit) l u :
  iterR f l = Ok u <-> Forall (fun x => f x = Ok tt) l.
Proof.
  destruct u. induction l as [|x l IH]; simpl.
  - split; constructor.
  - split.
    + intros H. inv_ok. destruct v. constructor; [done|]. by apply IH.
    + inversion 1; subst. rewrite H2. simpl. by apply IH.
Qed.

Lemma filterb_In {A} (p : A -> bool) l x :
  x ∈ filterb p l <-> x ∈ l /\ p x = true.
Proof. unfold filterb. rewrite !elem_of_list_In. apply filter_In. Qed.
Lemma filterb_app {A} (p : A -> bool) l1 l2 :
  filterb p (l1 ++ l2) = filterb p l1 ++ filterb p l2.
Proof. unfold filterb. apply List.filter_app. Qed.
Lemma filterb_idem {A} (p : A -> bool) l : filterb p (filterb p l) = filterb p l.
Proof.
  unfold filterb. induction l as [|x l IH]; simpl; [done|].
  destruct (p x) eqn:E; simpl; [|done]. rewrite E. by rewrite IH.
Qed.
Lemma filterb_id {A} (p : A -> bool) l :
  Forall (fun x => p x = true) l -> filterb p l = l.
Proof.
  unfold filterb. induction 1 as [|x l H Hl IH]; simpl; [done|]. rewrite H. by f_equal.
Qed.

(** ** Sums *)
Lemma Qcsum_app l1 l2 : Qcsum (l1 ++ l2) = (Qcsum l1 + Qcsum l2)%Qc.
Proof.
  unfold Qcsum. induction l1 as [|x l IH]; simpl; [ring|]. rewrite IH. ring.
Qed.
Lemma Qcsum_scale c l : Qcsum (map (fun x => c * x)%Qc l) = (c * Qcsum l)%Qc.
Proof.
  unfold Qcsum. induction l as [|x l IH]; simpl; [ring|]. rewrite IH. ring.
Qed.
Lemma Qcsum_perm l1 l2 : l1 ≡ₚ l2 -> Qcsum l1 = Qcsum l2.
Proof.
  unfold Qcsum. induction 1; simpl; try congruence; ring.
Qed.
Lemma Qcsum_nonneg l : Forall (fun x => 0 <= x)%Qc l -> (0 <= Qcsum l)%Qc.
Proof.
  unfold Qcsum. induction 1; simpl; qclra.
Qed.
Lemma Qcsum_map_plus {A} (f g : A -> Qc) l :
  Qcsum (map (fun x => f x + g x)%Qc l) = (Qcsum (map f l) + Qcsum (map g l))%Qc.
Proof.
  unfold Qcsum. induction l as [|x l IH]; simpl; [ring|]. rewrite IH. ring.
Qed.

(** ** Absolute value *)
Lemma Qcabs_pos x : (0 <= x)%Qc -> Qcabs x = x.
Proof. unfold Qcabs. intros. destruct (Qcltb x 0) eqn:E; qclra. Qed.
Lemma Qcabs_neg x : (x <= 0)%Qc -> Qcabs x = (- x)%Qc.
Proof. unfold Qcabs. intros. destruct (Qcltb x 0) eqn:E; qclra. Qed.
Lemma Qcabs_nonneg x : (0 <= Qcabs x)%Qc.
Proof. unfold Qcabs. destruct (Qcltb x 0) eqn:E; qclra. Qed.
Lemma Qcabs_zero x : Qcabs x = 0%Qc <-> x = 0%Qc.
Proof.
  unfold Qcabs. split; intros H; destruct (Qcltb x 0) eqn:E; qc_bool; qclra.
Qed.
Lemma Qcabs_opp x : Qcabs (- x) = Qcabs x.
Proof. unfold Qcabs. destruct (Qcltb x 0) eqn:E, (Qcltb (-x) 0) eqn:E'; qclra. Qed.
Lemma Qcabs_mult x y : Qcabs (x * y) = (Qcabs x * Qcabs y)%Qc.
Proof.
  destruct (Qcltb x 0) eqn:Ex, (Qcltb y 0) eqn:Ey; qc_bool;
  destruct (Qcltb (x * y) 0) eqn:Exy; qc_bool;
  unfold Qcabs;
  repeat match goal with |- context [Qcltb ?a ?b] => destruct (Qcltb a b) eqn:? end;
  try ring; try qcnra.
Qed.

(** ** Filters that may raise *)
Definition okb {A} (p : A -> result bool) (x : A) : bool :=
  match p x with Ok b => b | Err _ => false end.

Lemma filterR_Ok {A} (p : A -> result bool) l l' :
  filterR p l = Ok l' <->
  Forall (fun x => is_ok (p x) = true) l /\ l' = filterb (okb p) l.
Proof.
  revert l'. induction l as [|x l IH]; intros l'; cbn.
  - split; [intros [= <-]|intros [_ ->]]; auto.
  - unfold okb at 1. destruct (p x) as [b|e] eqn:E; cbn.
    + split.
      * intros H. inv_ok. subst. apply IH in Hok as [H1 H2]. split.
        { constructor; [by rewrite E|done]. }
        subst. done.
      * intros [H ->]. inversion H; subst.
        assert (filterR p l = Ok (filterb (okb p) l)) as -> by (apply IH; auto).
        done.
    + split; [discriminate|]. intros [H _]. inversion H; subst.
      rewrite E in *. discriminate.
Qed.

Lemma anyR_Ok {A} (p : A -> result bool) l :
  anyR p l = Ok false <-> Forall (fun x => p x = Ok false) l.
Proof.
  induction l as [|x l IH]; cbn; [split; constructor|].
  destruct (p x) as [[]|e] eqn:E; cbn; split; intros H; try discriminate.
  - inversion H; congruence.
  - constructor; [done|]. by apply IH.
  - inversion H; subst. by apply IH.
  - inversion H; congruence.
Qed.

Lemma anyR_true {A} (p : A -> result bool) l :
  anyR p l = Ok true <->
  exists l1 x l2, l = l1 ++ x :: l2 /\ p x = Ok true /\ Forall (fun y => p y = Ok false) l1.
Proof.
  induction l as [|x l IH]; cbn.
  - split; [discriminate|]. intros (l1 & y & l2 & H & _). by destruct l1.
  - destruct (p x) as [[]|e] eqn:E; cbn; split; intros H.
    + exists [], x, l. auto.
    + done.
    + apply IH in H as (l1 & y & l2 & -> & Hy & Hl). exists (x :: l1), y, l2.
      split; [done|]. split; [done|]. by constructor.
    + destruct H as (l1 & y & l2 & Heq & Hy & Hl). apply IH.
      destruct l1 as [|z l1]; injection Heq as -> ->; [congruence|].
      inversion Hl; subst. eauto 10.
    + discriminate.
    + destruct H as (l1 & y & l2 & Heq & Hy & Hl).
      destruct l1 as [|z l1]; injection Heq as -> ->; [congruence|].
      inversion Hl; subst. congruence.
Qed.

Lemma anyR_pure {A} (p : A -> bool) l : anyR (fun x => Ok (p x)) l = Ok (existsb p l).
Proof. induction l as [|x l IH]; cbn; [done|]. by destruct (p x). Qed.

(** * Sorting: Python's [sorted] is stable; insertion sort is too. *)
Section isort.
  Context {A : Type} (leb : A -> A -> bool).
  Fixpoint insert_sorted (x : A) (l : list A) : list A :=
    match l with
    | [] => [x]
    | y :: l' => if leb x y then x :: l else y :: insert_sorted x l'
    end.
  Definition isort (l : list A) : list A := foldr insert_sorted [] l.

  Lemma insert_sorted_perm x l : insert_sorted x l ≡ₚ x :: l.
  Proof.
    induction l as [|y l IH]; cbn; [done|]. destruct (leb x y); [done|].
    rewrite IH. apply Permutation_swap.
  Qed.
  Lemma isort_perm l : isort l ≡ₚ l.
  Proof.
    induction l as [|x l IH]; cbn; [done|]. rewrite insert_sorted_perm. by f_equiv.
  Qed.
  Lemma isort_length l : length (isort l) = length l.
  Proof. apply Permutation_length, isort_perm. Qed.
  Lemma elem_of_isort x l : x ∈ isort l <-> x ∈ l.
  Proof. by rewrite isort_perm. Qed.

  Context (total : forall x y, leb x y = true \/ leb y x = true)
          (transitive : forall x y z, leb x y = true -> leb y z = true -> leb x z = true).
  Lemma insert_sorted_sorted x l :
    StronglySorted (fun a b => leb a b = true) l ->
    StronglySorted (fun a b => leb a b = true) (insert_sorted x l).
  Proof.
    induction 1 as [|y l Hl IH Hy]; cbn; [repeat constructor|].
    destruct (leb x y) eqn:E.
    - constructor; [by constructor|]. constructor; [done|].
      eapply Forall_impl; [exact Hy|]. cbn. intros z Hz. eauto.
    - constructor; [done|].
      assert (Hyx : leb y x = true) by (destruct (total x y); congruence).
      rewrite insert_sorted_perm. by constructor.
  Qed.
  Lemma isort_sorted l : StronglySorted (fun a b => leb a b = true) (isort l).
  Proof. induction l; cbn; [constructor|]. by apply insert_sorted_sorted. Qed.
End isort.

(** Equal multisets sort to equal lists when the order is antisymmetric. *)
Lemma sorted_perm_eq {A} (leb : A -> A -> bool) l1 l2 :
  (forall x y, leb x y = true -> leb y x = true -> x = y) ->
  StronglySorted (fun a b => leb a b = true) l1 ->
  StronglySorted (fun a b => leb a b = true) l2 ->
  l1 ≡ₚ l2 -> l1 = l2.
Proof.
  intros Hanti H1. revert l2. induction H1 as [|x l1 H1 IH Hx]; intros l2 H2 Hp.
  - by apply Permutation_nil_l in Hp.
  - inversion H2 as [|y l2' H2' Hy]; subst.
    { symmetry in Hp. by apply Permutation_nil_l in Hp. }
    assert (x = y) as ->.
    { assert (Hx1 : x ∈ y :: l2') by (rewrite <- Hp; left).
      assert (Hy1 : y ∈ x :: l1) by (rewrite Hp; left).
      apply elem_of_cons in Hx1 as [->|Hx1]; [done|].
      apply elem_of_cons in Hy1 as [->|Hy1]; [done|].
      rewrite Forall_forall in Hx, Hy. apply Hanti; auto. }
    f_equal. apply IH; [done|]. by apply Permutation_cons_inv in Hp.
Qed.

(** Python's order on (ASCII) strings. *)
Definition str_leb (s t : string) : bool := String.leb s t.

Lemma str_leb_total s t : str_leb s t = true \/ str_leb t s = true.
Proof. apply String.leb_total. Qed.
Lemma str_leb_antisym s t : str_leb s t = true -> str_leb t s = true -> s = t.
Proof. apply String.leb_antisym. Qed.
Lemma str_leb_trans s t u :
  str_leb s t = true -> str_leb t u = true -> str_leb s u = true.
Proof.
  unfold str_leb, String.leb.
  revert t u. induction s as [|a s IH]; intros [|b t] [|c u]; cbn; try done.
  unfold Ascii.compare.
  destruct (N.compare_spec (Ascii.N_of_ascii a) (Ascii.N_of_ascii b)) as [H1|H1|H1];
    destruct (N.compare_spec (Ascii.N_of_ascii b) (Ascii.N_of_ascii c)) as [H2|H2|H2];
    try done;
    destruct (N.compare_spec (Ascii.N_of_ascii a) (Ascii.N_of_ascii c)) as [H3|H3|H3];
    try done; try lia.
  apply IH.
Qed.
Lemma str_leb_refl s : str_leb s s = true.
Proof. destruct (str_leb_total s s); done. Qed.
