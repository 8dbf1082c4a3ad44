(** Model of the caches in ocelot/transformations/locations/_topology.py:
    [functools.lru_cache(maxsize=512)] on [_contained] (line 78), [_contains] (133)
    and [_ordered_dependencies] (180).

    A cache keeps the object that the function returned and gives the same object
    again: a caller who changes the set or list changes what later callers get.
    [Topology] leaves the caches out; here they are. *)
From stdpp Require Import gmap.
From Verif Require Import Base Types Topology Intersections Locations.

(** * functools.lru_cache *)
Section memo.
  Context {W K V : Type} `{EqDecision K}.
  (** The function, which besides its arguments can read the world, and [maxsize]. *)
  Variable f : W -> K -> result V.
  Variable maxsize : nat.

  (** Keys in the order of last use, the least recently used first, each with the
      address of the object that was returned; and all objects made so far. *)
  Record memo := Memo { entries : list (K * nat); objects : list V }.
  Definition no_memo : memo := Memo [] [].

  Fixpoint assoc (k : K) (l : list (K * nat)) : option nat :=
    match l with
    | [] => None
    | x :: l => if bool_decide (x.1 = k) then Some x.2 else assoc k l
    end.
  Definition without (k : K) (l : list (K * nat)) : list (K * nat) :=
    filterb (fun x => negb (bool_decide (x.1 = k))) l.

  (** The wrapper of the standard library ([_lru_cache_wrapper] in functools.py, used by
      _topology.py lines 78, 133 and 180): a known key becomes the most recently used; for
      an unknown one the function is called, its exception goes through and is not kept,
      and with [maxsize] entries the least recently used one is dropped. *)
  Definition call (w : W) (k : K) (c : memo) : result nat * memo :=
    match assoc k (entries c) with
    | Some a => (Ok a, Memo (without k (entries c) ++ [(k, a)]) (objects c))
    | None =>
        match f w k with
        | Err e => (Err e, c)
        | Ok v =>
            let a := length (objects c) in
            (Ok a, Memo ((if (maxsize <=? length (entries c))%nat then tail (entries c) else entries c)
                           ++ [(k, a)]) (objects c ++ [v]))
        end
    end.
  (** What the caller sees: the object and what is in it now (an address without object never
      comes up, [answered]). *)
  Definition seen (r : result nat * memo) : result (nat * V) :=
    let? a := r.1 in
    match objects r.2 !! a with Some v => Ok (a, v) | None => Err IndexError end.

  (** What can happen: a call; a caller puts something else into an object; the world
      (for [Topology]: [self.data] and [self.size_proxy], lines 38 and 45) changes. *)
  Inductive event := Called (k : K) | Changed (a : nat) (v : V) | Became (w : W).
  Definition step (s : W * memo) (ev : event) : (W * memo) * list (K * result (nat * V)) :=
    match ev with
    | Called k => let r := call s.1 k s.2 in ((s.1, r.2), [(k, seen r)])
    | Changed a v => ((s.1, Memo (entries s.2) (<[a := v]> (objects s.2))), [])
    | Became w => ((w, s.2), [])
    end.
  Fixpoint happens (s : W * memo) (evs : list event) : (W * memo) * list (K * result (nat * V)) :=
    match evs with
    | [] => (s, [])
    | ev :: evs => let r := step s ev in
                   let r' := happens r.1 evs in (r'.1, r.2 ++ r'.2)
    end.
End memo.
Arguments Memo {K V} _ _.
Arguments entries {K V} _.
Arguments objects {K V} _.
Arguments no_memo {K V}.
Arguments event W K V : clear implicits.
Arguments Called {W K V} _.
Arguments Changed {W K V} _ _.
Arguments Became {W K V} _.

(** * The three caches of _topology.py *)

(** _topology.py lines 37-45: what an instance of [Topology] holds.  [self] is part of
    every key and compares by identity, so an instance is a number here. *)
Record instance := Instance { i_data : topo; i_proxy : positive -> Qc }.
Notation world := (nat -> instance).

(** The argument [subtract] as given, "Iterable of locations" (line 70). *)
Inductive names := NoNames | ListOf (l : list string) | TupleOf (l : list string) | SetOf (l : list string).
(** Lines 75, 130: [tuple(x) if isinstance(x, list) else x], and then the hash of the key,
    which a set does not have.  Sets of faces become frozensets by [s], lines 74, 129 and
    177, and are [faces] before and after. *)
Definition hashable (x : names) : result (option (list string)) :=
  match x with
  | NoNames => Ok None
  | ListOf l | TupleOf l => Ok (Some l)
  | SetOf _ => Err TypeError
  end.

Definition contained_key : Type := nat * place * bool * option (list string) * option faces.
Definition contains_key : Type := nat * place * place * option (list string) * option faces.
Definition ordered_key : Type := nat * list string * option faces.

(** Lines 79-110, [_contained]; lines 134-170, [_contains]; lines 181-187,
    [_ordered_dependencies] of locations that are sorted already. *)
Definition contained_f (w : world) (k : contained_key) : result (gset string) :=
  let '(i, location, exclude_self, subtract, row) := k in
  contained (i_data (w i)) location exclude_self (default [] subtract) row.
Definition contains_f (w : world) (k : contains_key) : result bool :=
  let '(i, parent, child, subtract, row) := k in
  contains (i_data (w i)) parent child (default [] subtract) row.
Definition ordered_f (w : world) (k : ordered_key) : result (list string) :=
  let '(i, locations, row) := k in
  let? keyed := mapR (fun l => let? n := proxied_size (i_proxy (w i)) (i_data (w i)) row l in Ok (n, l)) locations in
  Ok (map snd (isort proxy_geb keyed)).

(** The public functions, lines 59, 112 and 172, as questions. *)
Inductive query :=
| Contained (self : nat) (location : place) (exclude_self : bool) (subtract : names) (row : option faces)
| Contains (self : nat) (parent child : place) (subtract : names) (row : option faces)
| Ordered (self : nat) (locations : list string) (row : option faces).
Definition answer (q : query) : Type :=
  match q with
  | Contained _ _ _ _ _ => gset string
  | Contains _ _ _ _ _ => bool
  | Ordered _ _ _ => list string
  end.

Record caches := Caches {
  c_contained : memo (K := contained_key) (V := gset string);
  c_contains : memo (K := contains_key) (V := bool);
  c_ordered : memo (K := ordered_key) (V := list string) }.
Definition no_caches : caches := Caches no_memo no_memo no_memo.

(** Lines 74-76, 129-131 and 176-178; every cache has 512 entries. *)
Definition ask (w : world) (q : query) (c : caches) : result (answer q) * caches :=
  match q with
  | Contained i location exclude_self subtract row =>
      match hashable subtract with
      | Err e => (Err e, c)
      | Ok s => let r := call contained_f 512 w (i, location, exclude_self, s, row) (c_contained c) in
                (fmapR snd (seen r), Caches r.2 (c_contains c) (c_ordered c))
      end
  | Contains i parent child subtract row =>
      match hashable subtract with
      | Err e => (Err e, c)
      | Ok s => let r := call contains_f 512 w (i, parent, child, s, row) (c_contains c) in
                (fmapR snd (seen r), Caches (c_contained c) r.2 (c_ordered c))
      end
  | Ordered i locations row =>
      let r := call ordered_f 512 w (i, isort str_leb (remove_dups locations), row) (c_ordered c) in
      (fmapR snd (seen r), Caches (c_contained c) (c_contains c) r.2)
  end.

(** Code that asks and only reads the answers; what it asks next can depend on them. *)
Inductive prog (A : Type) :=
| Done (a : A)
| Ask (q : query) (k : result (answer q) -> prog A).
Arguments Done {A} _.
Arguments Ask {A} _ _.
Fixpoint with_caches {A} (w : world) (p : prog A) (c : caches) : A * caches :=
  match p with
  | Done a => (a, c)
  | Ask q k => let r := ask w q c in with_caches w (k r.1) r.2
  end.

(** linking.py lines 136-187 and market_groups.py lines 54-72 as such code: the loops
    that pass the growing list [found] as [subtract]. *)
Fixpoint collect_p (inside : string -> list string -> query) (got : forall c l, result (answer (inside c l)) -> result bool)
    (take : string -> bool) (found candidates : list string) (k : result (list string) -> prog (result (list string)))
  : prog (result (list string)) :=
  match candidates with
  | [] => k (Ok found)
  | c :: candidates =>
      Ask (inside c found) (fun r => match got c found r with
        | Err e => k (Err e)
        | Ok b => collect_p inside got take (if b && take c then found ++ [c] else found) candidates k
        end)
  end.
Fixpoint first_p (inside : string -> query) (got : forall c, result (answer (inside c)) -> result bool)
    (candidates : list string) : prog (result (list string)) :=
  match candidates with
  | [] => Done (Ok [])
  | c :: candidates => Ask (inside c) (fun r => match got c r with
                         | Err e => Done (Err e)
                         | Ok b => if b then Done (Ok [c]) else first_p inside got candidates
                         end)
  end.
(** linking.py lines 136-143. *)
Definition wrapper_q (i : nat) (consumer supplier : string) (found : list string)
    (consumer_row supplier_row : option faces) : query :=
  Contains i (PName consumer)
    (if (supplier =? "RoW")%string
     then match supplier_row with Some r => PFaces r | None => PName "RoW" end
     else PName supplier)
    (ListOf found) (if (consumer =? "RoW")%string then consumer_row else None).
Definition choose_p (w : world) (i : nat) (loc : string) (consumer_row : option faces) (markets groups : list string)
  : prog (result (list string)) :=
  match markets_row (i_data (w i)) markets with
  | Err e => Done (Err e)
  | Ok supplier_row =>
      Ask (Ordered i (markets ++ groups) (Some supplier_row)) (fun r => match r with
      | Err e => Done (Err e)
      | Ok ordered =>
          collect_p (fun c found => wrapper_q i loc c found consumer_row (Some supplier_row)) (fun _ _ r => r)
            (fun _ => true) [] ordered (fun r => match r with
            | Err e => Done (Err e)
            | Ok [] => first_p (fun c => wrapper_q i c loc [] (Some supplier_row) consumer_row) (fun _ r => r) (rev ordered)
            | Ok found => Done (Ok found)
            end)
      end)
  end.
