(** What binary64 arithmetic is, stated without any of the code: which numbers
    there are, and which of them stands for the exact result of an operation.

    The range of exponents is left open, so nothing here is too large or too
    small to be written down: statements are about runs in which nothing
    overflows or falls below the smallest normal number. *)
From Verif Require Import Base.

(** Two to an integer power. *)
Definition pow2 (e : Z) : Qc :=
  if (0 <=? e)%Z then Qcint (2 ^ e) else / Qcint (2 ^ (- e)).

(** The numbers of [n] significant bits. *)
Definition bits (n : Z) (x : Qc) : Prop :=
  exists k e : Z, (Z.abs k <= 2 ^ n)%Z /\ x = (Qcint k * pow2 e)%Qc.

Definition binary64 (x : Qc) : Prop := bits 53 x.

(** [y] is what is stored for [x]: no other number is nearer, and of two
    equally near ones it is the one whose last bit is zero (IEEE 754,
    round to nearest, ties to even). *)
Definition nearest (x y : Qc) : Prop :=
  binary64 y /\
  (forall z, binary64 z -> (Qcabs (x - y) <= Qcabs (x - z))%Qc) /\
  (forall z, binary64 z -> z <> y -> Qcabs (x - z) = Qcabs (x - y) -> bits 52 y).

Definition rounding (fl : Qc -> Qc) : Prop := forall x, nearest x (fl x).

(** Half the distance from one to the next number above it. *)
Definition unit_roundoff : Qc := pow2 (-53).

(** A way of adding up a list: some order of additions, each rounded, of which
    there are at most as many as there are summands.  pandas and numpy choose
    the order themselves. *)
Inductive additions := Zero | Summand (x : Qc) | Plus (l r : additions).
Fixpoint summands (t : additions) : list Qc :=
  match t with Zero => [] | Summand x => [x] | Plus l r => summands l ++ summands r end.
Fixpoint steps (t : additions) : nat :=
  match t with Zero | Summand _ => 0 | Plus l r => S (steps l + steps r) end.
Fixpoint outcome (fl : Qc -> Qc) (t : additions) : Qc :=
  match t with
  | Zero => 0%Qc
  | Summand x => x
  | Plus l r => fl (outcome fl l + outcome fl r)%Qc
  end.
Definition adds_up (fl : Qc -> Qc) (add : list Qc -> Qc) : Prop :=
  forall l, exists t, summands t ≡ₚ l /\ (steps t <= length l)%nat /\ add l = outcome fl t.

(** [x] is [y] up to the part [d] of it. *)
Definition near (d x y : Qc) : Prop := (Qcabs (x - y) <= d * Qcabs y)%Qc.

(** One or minus one. *)
Definition sign (p : Qc) : Qc := if Qcltb p 0 then (- (1))%Qc else 1%Qc.

(** [k] steps of the size there is just above one. *)
Definition units (k : nat) : Qc := (Qcint (Z.of_nat k) * pow2 (-52))%Qc.

(** So many operations that their errors stay small. *)
Definition few (k : nat) : Prop := (Z.of_nat k <= 2 ^ 52)%Z.

(** The volumes that are not zero. *)
Definition giving (pvs : list Qc) : list Qc := filterb (fun x => negb (Qceqb x 0)) pvs.

(** The [j]-th exchange of a process of [p] units. *)
Definition in_total (j : nat) (amounts : list Qc) (p : Qc) : Qc :=
  (default 0 (amounts !! j) * Qcabs p)%Qc.
