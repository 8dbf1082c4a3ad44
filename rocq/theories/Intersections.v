(** Model of the parts of ocelot/transformations/locations/_topology.py which the
    configurations do not use: [intersected], [intersects], and
    [ordered_dependencies] with a size proxy other than the default. *)
From Verif Require Import Base Topology.

(** _topology.py lines 189-198, [intersected]. *)
Definition intersected (t : topo) (location : string) (exclude_self : bool) : result (gset string) :=
  if (location =? "GLO")%string || (location =? "RoW")%string then Ok ∅
  else
    let? f := places t location in
    Ok (dom (filter (fun kv : string * faces =>
          kv.2 ∩ f <> ∅ /\ ~ (kv.1 = location /\ exclude_self = true)) t)).

(** _topology.py lines 200-204, [intersects]. *)
Definition intersects (t : topo) (parent child : string) : result bool :=
  let? s := intersected t parent false in
  Ok (bool_decide (child ∈ s)).

(** _topology.py lines 172-187, [ordered_dependencies] with [self.size_proxy]. *)
Definition proxy_size (proxy : positive -> Qc) (f : faces) : Qc := Qcsum (map proxy (elements f)).
Definition proxied_size (proxy : positive -> Qc) (t : topo) (resolved_row : option faces) (loc : string) : result Qc :=
  let row := default ∅ resolved_row in
  let? f := if (loc =? "RoW")%string && bool_decide (row <> ∅) then Ok row else places t loc in
  Ok (proxy_size proxy f).
Definition proxy_geb (a b : Qc * string) : bool :=
  Qcltb b.1 a.1 || Qceqb b.1 a.1 && str_leb b.2 a.2.
Definition proxied_dependencies (proxy : positive -> Qc) (t : topo) (locations : list string)
    (resolved_row : option faces) : result (list string) :=
  let? keyed := mapR (fun l => let? n := proxied_size proxy t resolved_row l in Ok (n, l))
                  (isort str_leb (remove_dups locations)) in
  Ok (map snd (isort proxy_geb keyed)).

(** _topology.py lines 47-49, [default_size_proxy]. *)
Definition default_size_proxy (face : positive) : Qc := 1.
