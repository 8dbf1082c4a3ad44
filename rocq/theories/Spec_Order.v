(** Specifications for C77. *)
From stdpp Require Export gmap.
From Verif Require Import Base Types Pipeline.

(** A way to iterate over sets: every element once, in any order. *)
Definition iterates (ord : gset string -> list string) : Prop := forall s, ord s ≡ₚ elements s.

(** The same dataset but for the order of exchanges and of suppliers. *)
Definition reordered (d d' : dataset) : Prop :=
  set_d_suppliers None (set_d_exchanges [] d') = set_d_suppliers None (set_d_exchanges [] d) /\
  d_exchanges d ≡ₚ d_exchanges d' /\
  match d_suppliers d, d_suppliers d' with
  | Some l, Some l' => l ≡ₚ l'
  | None, None => True
  | _, _ => False
  end.

(** Both fail, or both succeed with results related by [R]. *)
Definition both {A B} (R : A -> B -> Prop) (m : result A) (m' : result B) : Prop :=
  match m, m' with
  | Ok x, Ok y => R x y
  | Err _, Err _ => True
  | _, _ => False
  end.

(** The same world, where sets are iterated over in another order. *)
Definition with_order (ord : gset string -> list string) (w : world) : world :=
  mkWorld (w_ln w) (w_euler w) (w_pyfloat w) (w_words w) (w_parses w) (w_fresh w) (w_order w) (w_eval w) (w_md5 w) ord (w_topo w).
(** The same world, where words are replaced in another order. *)
Definition with_words (words : list string) (w : world) : world :=
  mkWorld (w_ln w) (w_euler w) (w_pyfloat w) words (w_parses w) (w_fresh w) (w_order w) (w_eval w) (w_md5 w) (w_ord w) (w_topo w).
Definition without_suppliers (data : list dataset) : Prop := Forall (fun ds => d_suppliers ds = None) data.
