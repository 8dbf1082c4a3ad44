(** Property theorems C108: the caches of the topology. *)
From stdpp Require Import gmap.
From Verif Require Import Base Types Topology Intersections Locations Memo Spec_Memo Memo_proofs.

(** ** C108 Caches do not change what is known about places *)
(** Calls in any order and number give what the function gives, whatever is dropped. *)
Theorem C108_transparent : forall W K V (EK : EqDecision K) (f : W -> K -> result V) maxsize w ks,
  map (fun o => (o.1, fmapR snd o.2)) (happens f maxsize (w, no_memo) (map Called ks)).2 = map (fun k => (k, f w k)) ks.
Proof. exact @transparent_proof. Qed.
Print Assumptions C108_transparent.
(** Callers may even change what they got: an object that nobody changed is right, and
    exceptions are always right. *)
Theorem C108_local : forall W K V (EK : EqDecision K) (f : W -> K -> result V) maxsize w evs k, steady evs ->
  (happens f maxsize (w, no_memo) evs).1.1 = w /\
  match seen (call f maxsize w k (happens f maxsize (w, no_memo) evs).1.2) with
  | Ok (a, v) => untouched a evs -> f w k = Ok v
  | Err e => f w k = Err e
  end.
Proof. exact @local_proof. Qed.
Print Assumptions C108_local.
(** A cache never has more than [maxsize] entries, nor two for one key. *)
Theorem C108_bounded : forall W K V (EK : EqDecision K) (f : W -> K -> result V) maxsize s,
  (0 < maxsize)%nat -> reached f maxsize s ->
  (length (entries s.2) <= maxsize)%nat /\ NoDup (map fst (entries s.2)).
Proof. exact @bounded_proof. Qed.
Print Assumptions C108_bounded.
(** Within fewer than [maxsize] events the same arguments give the same object. *)
Theorem C108_same_object : forall W K V (EK : EqDecision K) (f : W -> K -> result V) maxsize w k c a evs w',
  (call f maxsize w k c).1 = Ok a -> (length evs < maxsize)%nat ->
  (call f maxsize w' k (happens f maxsize (w, (call f maxsize w k c).2) evs).1.2).1 = Ok a.
Proof. exact @kept_proof. Qed.
Print Assumptions C108_same_object.

(** Any code that only reads the answers of the topologies, after any other such code, is
    as without caches. *)
Theorem C108_code : forall A B w (p : prog A) (ps : list (prog B)),
  (with_caches w p (foldl (fun c p => (with_caches w p c).2) no_caches ps)).1 = without_caches w p.
Proof. exact @progs_proof. Qed.
Print Assumptions C108_code.
(** For example the choice of markets for a consumer. *)
Theorem C108_choice : forall B w i loc consumer_row markets groups (ps : list (prog B)), i_proxy (w i) = default_size_proxy ->
  (with_caches w (choose_p w i loc consumer_row markets groups) (foldl (fun c p => (with_caches w p c).2) no_caches ps)).1
  = choose_locations (i_data (w i)) loc consumer_row markets groups.
Proof. exact @choose_proof. Qed.
Print Assumptions C108_choice.

(** ** Findings *)
(** The caches give out their own objects: whoever changes an answer changes the answers
    that others get, even after the data of the topology changed. *)
Theorem C108_change : forall W K V (EK : EqDecision K) (f : W -> K -> result V) maxsize s k a v w',
  reached f maxsize s -> (call f maxsize s.1 k s.2).1 = Ok a ->
  (happens f maxsize s [Called k; Changed a v; Became w'; Called k]).2
  = [(k, seen (call f maxsize s.1 k s.2)); (k, Ok (a, v))].
Proof. exact @change_proof. Qed.
Print Assumptions C108_change.
(** Changing [topology.data] or [topology.size_proxy] has no effect on what was asked before. *)
Theorem C108_stale : forall W K V (EK : EqDecision K) (f : W -> K -> result V) maxsize s k a v w',
  seen (call f maxsize s.1 k s.2) = Ok (a, v) ->
  (happens f maxsize s [Called k; Became w'; Called k]).2 = [(k, Ok (a, v)); (k, Ok (a, v))].
Proof. exact @stale_proof. Qed.
Print Assumptions C108_stale.
(** [subtract] is documented as an iterable, but a set raises TypeError. *)
Theorem C108_set : forall w i l e ls row c,
  (ask w (Contained i l e (SetOf ls) row) c).1 = Err TypeError /\
  (forall p ch, (ask w (Contains i p ch (SetOf ls) row) c).1 = Err TypeError).
Proof. exact set_proof. Qed.
Print Assumptions C108_set.

(** Two topologies: the second counts face 3 five times and has no UCTE. *)
Definition ex_data : topo := {["GLO" := {[1; 2; 3; 4]}; "FR" := {[1; 2]}; "DE" := {[3]}; "UCTE" := {[2; 3]}]}%positive%string.
Definition ex_heavy (x : positive) : Qc := if bool_decide (x = 3%positive) then Qcint 5 else 1.
Definition ex_two (i : nat) : instance :=
  match i with
  | O => Instance ex_data default_size_proxy
  | _ => Instance (delete "UCTE"%string ex_data) ex_heavy
  end.
Definition ex_key (i : nat) (l : string) : contained_key := (i, PName l, false, None, None).
(** A cache of two entries: the second call with FR gives the same object, a later one a new one. *)
Example C108_transparent_nonvacuous :
  map (fun o => fmapR (fun av => (av.1, elements av.2)) o.2)
    (happens contained_f 2 (ex_two, no_memo) (map Called [ex_key 0 "FR"; ex_key 0 "UCTE"; ex_key 0 "FR"; ex_key 1 "UCTE"; ex_key 1 "FR"; ex_key 0 "UCTE"; ex_key 0 "FR"; ex_key 0 "RoW"])).2
  = [Ok (0%nat, ["FR"]); Ok (1%nat, ["DE"; "UCTE"]); Ok (0%nat, ["FR"]); Err (KeyError "UCTE"); Ok (2%nat, ["FR"]); Ok (3%nat, ["DE"; "UCTE"]);
     Ok (4%nat, ["FR"]); Ok (5%nat, [])]%string.
Proof. by_compute. Qed.
Definition ex_ordered (i : nat) : query := Ordered i ["FR"; "DE"; "GLO"; "FR"]%string None.
Definition ex_ask : prog (result (list string) * result (list string) * result bool * result bool * result (list string)) :=
  Ask (ex_ordered 0) (fun r => Ask (ex_ordered 1) (fun r' =>
  Ask (Contains 0 (PName "UCTE") (PName "DE") (ListOf []) None) (fun b => Ask (Contains 0 (PName "UCTE") (PName "DE") (TupleOf ["DE"]) None) (fun b' =>
  Ask (ex_ordered 0) (fun r'' => Done (r, r', b, b', r'')))))).
Example C108_code_nonvacuous :
  without_caches ex_two ex_ask
  = (Ok ["GLO"; "FR"; "DE"]%string, Ok ["GLO"; "DE"; "FR"]%string, Ok true, Ok false, Ok ["GLO"; "FR"; "DE"]%string) /\
  (with_caches ex_two ex_ask no_caches).1 = without_caches ex_two ex_ask /\
  length (entries (c_ordered (with_caches ex_two ex_ask no_caches).2)) = 2%nat /\
  length (entries (c_contains (with_caches ex_two ex_ask no_caches).2)) = 2%nat.
Proof. by_compute. Qed.
Example C108_choice_nonvacuous :
  (with_caches ex_two (choose_p ex_two 0 "GLO" None ["FR"; "DE"]%string ["UCTE"]%string) (with_caches ex_two ex_ask no_caches).2).1
  = Ok ["UCTE"]%string /\
  (with_caches ex_two (choose_p ex_two 0 "DE" None ["FR"]%string ["UCTE"; "GLO"]%string) (with_caches ex_two ex_ask no_caches).2).1
  = Ok ["UCTE"]%string.
Proof. by_compute. Qed.
(** A caller adds CH to the places in FR. *)
Example C108_change_nonvacuous :
  map (fun o => fmapR (fun av => elements av.2) o.2)
    (happens contained_f 512 (ex_two, no_memo) [Called (ex_key 0 "FR"); Called (ex_key 0 "DE"); Changed 0 {["FR"; "CH"]}%string; Called (ex_key 0 "FR"); Called (ex_key 0 "DE")]).2
  = map Ok [["FR"]; ["DE"]; ["FR"; "CH"]; ["DE"]]%string.
Proof. by_compute. Qed.
(** The size proxy is replaced after the first call. *)
Definition ex_three : ordered_key := (0%nat, ["DE"; "FR"; "GLO"]%string, None).
Example C108_stale_nonvacuous :
  map (fun o => fmapR snd o.2)
    (happens ordered_f 512 (ex_two, no_memo) [Called ex_three; Became (fun _ => ex_two 1); Called ex_three; Called (0%nat, ["DE"; "FR"]%string, None)]).2
  = map Ok [["GLO"; "FR"; "DE"]; ["GLO"; "FR"; "DE"]; ["DE"; "FR"]]%string /\
  ordered_f (fun _ => ex_two 1) ex_three = Ok ["GLO"; "DE"; "FR"]%string.
Proof. by_compute. Qed.
Example C108_reached_nonvacuous : reached contained_f 512 (happens contained_f 512 (ex_two, no_memo) (map Called [ex_key 0 "FR"; ex_key 0 "UCTE"])).1.
Proof. by exists ex_two, (map Called [ex_key 0 "FR"; ex_key 0 "UCTE"]). Qed.
