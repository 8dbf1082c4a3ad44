(** Model of ocelot/transformations/locations/_topology.py.

    [self.data] is a finite map from place names to finite sets of face ids.
    Where it comes from (the package constructive_geometries) is not modelled;
    [make_topology] is what the constructor does with it.  The caches
    ([functools.lru_cache]) are not modelled here; [Memo] has them (C108). *)
From stdpp Require Export gmap.
From Verif Require Import Base.

Notation faces := (gset positive).
Notation topo := (gmap string faces).

(** A location argument: a name, or a set of faces made by [resolve_row]. *)
Inductive place := PName (n : string) | PFaces (f : faces).
Global Instance place_eq_dec : EqDecision place.
Proof. solve_decision. Defined.

(** _topology.py lines 9-35, the table [compatibility]. *)
Definition compatibility : list (string * string) :=
  [("ASCC", "US-ASCC"); ("CSG", "CN-CSG"); ("FRCC", "US-FRCC"); ("HICC", "US-HICC");
   ("MRO, US only", "US-MRO"); ("NPCC, US only", "US-NPCC"); ("RFC", "US-RFC");
   ("SERC", "US-SERC"); ("SGCC", "CN-SGCC"); ("SPP", "US-SPP"); ("TRE", "US-TRE");
   ("WECC, US only", "US-WECC");
   ("IAI Area 2, North America", "IAI Area, North America");
   ("IAI Area 1, Africa", "IAI Area, Africa");
   ("IAI Area 3, South America", "IAI Area, South America");
   ("IAI Area 4&5 without China", "IAI Area, Asia, without China and GCC");
   ("IAI Area 8, Gulf", "IAI Area, Gulf Cooperation Council");
   ("IAI Area 1", "IAI Area, Africa");
   ("IAI Area 2, without Quebec", "IAI Area, North America, without Quebec");
   ("IAI Area 3", "IAI Area 3, South America");
   ("IAI Area 4&5, without China", "IAI Area, Asia, without China and GCC");
   ("IAI Area 8", "IAI Area, Gulf Cooperation Council");
   ("IAI Area, Europe outside EU & EFTA", "IAI Area, Russia & RER w/o EU27 & EFTA")]%string.

(** _topology.py lines 37-45, the constructor; [cg] and [all_faces] are the
    data of the external package. *)
Definition make_topology (cg : topo) (all_faces : faces) : result topo :=
  foldR (fun data of => let? f := getkey of.2 (data !! of.2) in Ok (<[of.1 := f]> data))
    (<["GLO"%string := all_faces]> cg) compatibility.

(** _topology.py lines 213-217, [__call__]. *)
Definition places (t : topo) (location : string) : result faces :=
  if (location =? "RoW")%string then Ok ∅ else getkey location (t !! location).

(** [set.union( *[self(place) for place in l])]; without argument it raises. *)
Definition union_of (t : topo) (l : list string) : result faces :=
  let? fs := mapR (places t) l in
  match fs with [] => Err TypeError | _ => Ok (⋃ fs) end.

(** _topology.py lines 51-57, [resolve_row]. *)
Definition resolve_row (t : topo) (others : list string) : result faces :=
  let? glo := places t "GLO" in
  let? u := union_of t others in
  Ok (glo ∖ u).

(** [if subtract: faces = faces.difference(...)]; [None] is the empty list. *)
Definition subtracted (t : topo) (f : faces) (subtract : list string) : result faces :=
  match subtract with
  | [] => Ok f
  | _ => let? u := union_of t subtract in Ok (f ∖ u)
  end.

(** _topology.py lines 59-111, [contained]. *)
Definition contained (t : topo) (location : place) (exclude_self : bool)
    (subtract : list string) (resolved_row : option faces) : result (gset string) :=
  if bool_decide (location = PName "RoW") && bool_decide (resolved_row = None) then Ok ∅
  else
    let? f := match location with
              | PFaces f => Ok f
              | PName n =>
                  if (n =? "RoW")%string then Ok (default ∅ resolved_row) else places t n
              end in
    let? f := subtracted t f subtract in
    if bool_decide (f = ∅) then Ok ∅
    else
      let result := dom (filter (fun kv : string * faces =>
          kv.2 ⊆ f /\ ~ (PName kv.1 = location /\ exclude_self = true)) t) in
      let row := match resolved_row with
                 | Some r => bool_decide (r <> ∅) && bool_decide (r ⊆ f)
                             && negb (bool_decide (location = PName "RoW") && exclude_self)
                 | None => false
                 end in
      if row || bool_decide (location = PName "GLO") && bool_decide (resolved_row = None)
                && bool_decide (subtract = [])
      then Ok ({[ "RoW"%string ]} ∪ result) else Ok result.

(** _topology.py lines 113-171, [contains].  [resolved_row] is falsy when it
    is [None] or empty. *)
Definition contains (t : topo) (parent child : place) (subtract : list string)
    (resolved_row : option faces) : result bool :=
  let row := default ∅ resolved_row in
  let parent_faces := match parent with
                      | PFaces f => Ok f
                      | PName n => if (n =? "RoW")%string then Ok row else places t n
                      end in
  match child with
  | PFaces c =>
      if bool_decide (c = ∅) then Ok false
      else
        let? f := parent_faces in
        let? f := subtracted t f subtract in
        Ok (bool_decide (c ⊆ f))
  | PName c =>
      if bool_decide (parent = PName "GLO") && (c =? "RoW")%string && bool_decide (subtract = [])
      then Ok true
      else if (c =? "RoW")%string || bool_decide (parent = PName "RoW") && bool_decide (row = ∅)
      then Ok false
      else
        let? f := parent_faces in
        let? f := subtracted t f subtract in
        let? cf := places t c in
        Ok (bool_decide (cf ⊆ f))
  end.

(** _topology.py lines 173-191, [ordered_dependencies] with the default size
    proxy; [sorted(..., reverse=True)] on keys (size, name), which are all
    different. *)
Definition location_size (t : topo) (resolved_row : option faces) (loc : string) : result nat :=
  let row := default ∅ resolved_row in
  let? f := if (loc =? "RoW")%string && bool_decide (row <> ∅) then Ok row else places t loc in
  Ok (size f).
Definition key_geb (a b : nat * string) : bool :=
  (b.1 <? a.1)%nat || (b.1 =? a.1)%nat && str_leb b.2 a.2.
Definition ordered_dependencies (t : topo) (locations : list string)
    (resolved_row : option faces) : result (list string) :=
  let? keyed := mapR (fun l => let? n := location_size t resolved_row l in Ok (n, l))
                  (isort str_leb (remove_dups locations)) in
  Ok (map snd (isort key_geb keyed)).

(** _topology.py lines 206-211, [overlaps]; [None] for an empty group. *)
Definition overlaps (t : topo) (group : list string) : result (option bool) :=
  match group with
  | [] => Ok None
  | _ => let? fs := mapR (places t) group in
         Ok (Some (negb (bool_decide (sum_list (map size fs) = size (⋃ fs : faces)))))
  end.

Global Arguments contained : simpl never.
Global Arguments contains : simpl never.
Global Arguments ordered_dependencies : simpl never.
Global Arguments resolve_row : simpl never.
Global Arguments overlaps : simpl never.
Global Arguments subtracted : simpl never.
