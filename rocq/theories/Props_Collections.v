(** Property theorems C81 (collections as sequences). *)
From Verif Require Import Base Types Runner Collections Spec_Collections Collections_proofs.

(** ** C81 A collection can be edited like a list *)

Theorem C81_get : forall T (l : list T) i x, getitem l i = Ok x <-> exists l1 l2, l = l1 ++ x :: l2 /\ at_index i l1 l2.
Proof. intros T. exact (@getitem_spec T). Qed.
Print Assumptions C81_get.

Theorem C81_set : forall T (l : list T) i y l',
  setitem l i y = Ok l' <-> exists l1 x l2, l = l1 ++ x :: l2 /\ at_index i l1 l2 /\ l' = l1 ++ y :: l2.
Proof. intros T. exact (@setitem_spec T). Qed.
Print Assumptions C81_set.

Theorem C81_delete : forall T (l : list T) i l',
  delitem l i = Ok l' <-> exists l1 x l2, l = l1 ++ x :: l2 /\ at_index i l1 l2 /\ l' = l1 ++ l2.
Proof. intros T. exact (@delitem_spec T). Qed.
Print Assumptions C81_delete.

(** Outside of the list, and only there, IndexError is raised. *)
Theorem C81_outside : forall T (l : list T) i y e,
  (getitem l i = Err e <-> e = IndexError /\ (i < - Z.of_nat (length l) \/ Z.of_nat (length l) <= i)%Z) /\
  (setitem l i y = Err e <-> getitem l i = Err e) /\ (delitem l i = Err e <-> getitem l i = Err e).
Proof. intros T l i y e. split; [apply getitem_err|apply write_err]. Qed.
Print Assumptions C81_outside.

(** [insert] never raises; indices outside of the list mean its ends. *)
Theorem C81_insert : forall T (l : list T) i x, exists l1 l2, l = l1 ++ l2 /\ insert_at l i x = l1 ++ x :: l2 /\
  ((0 <= i)%Z -> length l1 = (Z.to_nat i `min` length l)%nat) /\ ((i < 0)%Z -> length l2 = (Z.to_nat (- i) `min` length l)%nat).
Proof. intros T. exact (@insert_spec T). Qed.
Print Assumptions C81_insert.

(** The methods that are inherited. *)
Theorem C81_inherited : forall T `{EqDecision T} (l values : list T) x,
  append l x = l ++ [x] /\ extend l values = l ++ values /\ pop (append l x) (-1) = Ok (x, l) /\
  clear (length l) l = [] /\ reverse l = Ok (reversed l) /\ reversed (reversed l) = l.
Proof.
  intros T ? l values x. split; [apply append_spec|]. split; [apply extend_spec|]. split; [apply pop_append|]. split; [by apply clear_spec|].
  split; [apply reverse_spec|]. apply rev_involutive.
Qed.
Print Assumptions C81_inherited.

Theorem C81_pop : forall T `{EqDecision T} (l : list T) i x l',
  pop l i = Ok (x, l') <-> exists l1 l2, l = l1 ++ x :: l2 /\ at_index i l1 l2 /\ l' = l1 ++ l2.
Proof. intros T ?. exact pop_spec. Qed.
Print Assumptions C81_pop.

(** The first item that is equal. *)
Theorem C81_index : forall T `{EqDecision T} (l : list T) x i,
  (index l x = Ok i <-> exists a b, l = a ++ x :: b /\ x ∉ a /\ i = Z.of_nat (length a)) /\ ((exists i, index l x = Ok i) <-> x ∈ l).
Proof. intros T ? l x i. split; [apply index_spec|apply index_err]. Qed.
Print Assumptions C81_index.
Theorem C81_remove : forall T `{EqDecision T} (l : list T) x l',
  remove l x = Ok l' <-> exists a b, l = a ++ x :: b /\ x ∉ a /\ l' = a ++ b.
Proof. intros T ?. exact remove_spec. Qed.
Print Assumptions C81_remove.

(** Called after [insert], a collection does what comes before, the new item, and what
    comes after. *)
Theorem C81_call : forall A n (obj : item A) l c data, collection_insert n obj (Iterable true l) = Ok c ->
  exists l1 l2, l = l1 ++ l2 /\ length l1 = (n `min` length l)%nat /\
    call c data = (let? (d1, m1) := call (Iterable true l1) data in let? (d2, m2) := call obj d1 in
                   let? (d3, m3) := call (Iterable true l2) d2 in Ok (d3, m1 ++ m2 ++ m3)).
Proof.
  intros A n obj l c data H. rewrite insert_agrees in H. apply Ok_inj in H as <-.
  destruct (insert_spec l (Z.of_nat n) obj) as (l1 & l2 & E & -> & H & _). exists l1, l2. split; [done|]. rewrite H, Nat2Z.id by lia.
  split; [done|]. apply call_middle.
Qed.
Print Assumptions C81_call.

(** Examples: [[10; 20; 30]]. *)
Definition ex_list : list Z := [10; 20; 30]%Z.
Example ex_get : getitem ex_list (-1) = Ok 30%Z /\ getitem ex_list 3 = Err IndexError /\ getitem ex_list (-3) = Ok 10%Z.
Proof. by_compute. Qed.
Example ex_insert : insert_at ex_list 1 5%Z = [10; 5; 20; 30]%Z /\ insert_at ex_list (-1) 5%Z = [10; 20; 5; 30]%Z /\
  insert_at ex_list 7 5%Z = [10; 20; 30; 5]%Z /\ insert_at ex_list (-7) 5%Z = [5; 10; 20; 30]%Z.
Proof. by_compute. Qed.
Example ex_edit : delitem ex_list (-2) = Ok [10; 30]%Z /\ setitem ex_list 2 7%Z = Ok [10; 20; 7]%Z /\
  remove (ex_list ++ ex_list) 20%Z = Ok [10; 30; 10; 20; 30]%Z /\ pop ex_list 0 = Ok (10, [20; 30])%Z /\ reverse ex_list = Ok [30; 20; 10]%Z.
Proof. by_compute. Qed.
Definition adds (n : nat) : item nat := Function (Func (Some "f"%string) None None (fun data => Ok (data ++ [n], []))).
Example ex_call : fmapR (fun c => call c [0%nat]) (collection_insert 1 (adds 9) (Iterable true [adds 1; adds 2]))
  = Ok (Ok ([0; 1; 9; 2]%nat, [])).
Proof. reflexivity. Qed.
