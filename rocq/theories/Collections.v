(** Model of [Collection] as a mutable sequence: collection.py lines 22-50, and the
    methods it inherits from [collections.abc.MutableSequence], which the standard
    library defines with those.

    A collection is the list [self.functions] (it is a list after [unwrap], lines 17-20);
    methods that change it give the new list.  Indices are integers, not slices.
    Objects are compared by equality. *)
From Verif Require Import Base.

Section collections.
Context {T : Type} `{EqDecision T}.
Implicit Types (l : list T) (i : Z).

(** The position an index stands for in a list of length [n]. *)
Definition position (n : nat) (i : Z) : option nat :=
  let j := if Z.ltb i 0 then (i + Z.of_nat n)%Z else i in
  if Z.leb 0 j && Z.ltb j (Z.of_nat n) then Some (Z.to_nat j) else None.
(** Where slices [l[:i]] end and [l[i:]] begin. *)
Definition cut (n : nat) (i : Z) : nat :=
  let j := if Z.ltb i 0 then (i + Z.of_nat n)%Z else i in
  Z.to_nat (Z.min (Z.of_nat n) (Z.max 0 j)).

(** Lines 31-32, [__getitem__]. *)
Definition getitem l i : result T :=
  match position (length l) i with
  | Some j => match l !! j with Some x => Ok x | None => Err IndexError end
  | None => Err IndexError
  end.
(** Lines 34-35, [__setitem__]. *)
Definition setitem l i (x : T) : result (list T) :=
  match position (length l) i with
  | Some j => Ok (take j l ++ [x] ++ drop (S j) l)
  | None => Err IndexError
  end.
(** Lines 37-38, [insert]. *)
Definition insert_at l i (x : T) : list T := take (cut (length l) i) l ++ [x] ++ drop (cut (length l) i) l.
(** Lines 40-41, [__delitem__]. *)
Definition delitem l i : result (list T) :=
  match position (length l) i with
  | Some j => Ok (take j l ++ drop (S j) l)
  | None => Err IndexError
  end.
(** Lines 43-45, [__reversed__]. *)
Definition reversed l : list T := rev l.

(** [MutableSequence.append], [extend] (also [+=]). *)
Definition append l (x : T) : list T := insert_at l (Z.of_nat (length l)) x.
Definition extend l (values : list T) : list T := fold_left append values l.
(** [MutableSequence.pop], by default with index -1. *)
Definition pop l i : result (T * list T) :=
  let? x := getitem l i in
  let? l := delitem l i in
  Ok (x, l).
(** [MutableSequence.clear]: [pop] until it raises IndexError. *)
Fixpoint clear (fuel : nat) l : list T :=
  match fuel with
  | O => l
  | S fuel => match pop l (-1) with Ok (_, l) => clear fuel l | Err _ => l end
  end.
(** [MutableSequence.reverse]: swaps items from the ends to the middle, for [i] in
    [range(n // 2)]. *)
Definition swap l i k : result (list T) :=
  let? x := getitem l k in
  let? y := getitem l i in
  let? l := setitem l i x in
  setitem l k y.
Definition reverse l : result (list T) :=
  foldR (fun l' (k : nat) => swap l' (Z.of_nat k) (Z.of_nat (length l) - Z.of_nat k - 1)) l (seq 0 (length l / 2)).
(** [Sequence.index]: looks at [self[0]], [self[1]], ... until IndexError. *)
Fixpoint index_from (fuel : nat) l (x : T) (i : Z) : result Z :=
  match fuel with
  | O => Err ValueError
  | S fuel => match getitem l i with
              | Ok y => if decide (y = x) then Ok i else index_from fuel l x (i + 1)
              | Err _ => Err ValueError
              end
  end.
Definition index l (x : T) : result Z := index_from (S (length l)) l x 0.
(** [MutableSequence.remove]. *)
Definition remove l (x : T) : result (list T) :=
  let? i := index l x in delitem l i.
(** [Sequence.count]. *)
Definition count l (x : T) : nat := length (filter (fun y => y = x) l).
End collections.
