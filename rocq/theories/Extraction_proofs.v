(** Proofs for C67-C69: extraction followed by validation reads exactly what the file says. *)
From Coq Require Import Btauto.
From Verif Require Import Base Types Strings Formulas Schema Extraction Spec_Extraction Files_proofs Utils_proofs.
From Verif Require Allocation2_proofs.

(** ** Dictionaries *)
Lemma dget_app k (a b : dict) : dget k (a ++ b) = match dget k a with Some v => Some v | None => dget k b end.
Proof. induction a as [|[k' v] a IH]; [done|]. cbn. by destruct (k =? k')%string. Qed.
Lemma dget_opt k k' o : dget k (opt k' o) = if (k =? k')%string then o else None.
Proof. destruct o; cbn; by destruct (k =? k')%string. Qed.
Lemma dget_put k k' v (d : dict) : dget k (put k' v d) = if (k =? k')%string then Some v else dget k d.
Proof.
  induction d as [|[k2 v2] d IH]; [done|]. cbn. destruct (String.eqb_spec k' k2) as [->|Hn]; cbn.
  - by destruct (k =? k2)%string.
  - destruct (String.eqb_spec k k2) as [->|]; [|done]. destruct (String.eqb_spec k2 k'); congruence.
Qed.
Lemma keys_put k v (d : dict) x : x ∈ (put k v d).*1 <-> x = k \/ x ∈ d.*1.
Proof.
  induction d as [|[k2 v2] d IH]; cbn.
  - rewrite elem_of_list_singleton, elem_of_nil. tauto.
  - destruct (String.eqb_spec k k2) as [->|]; cbn; rewrite !elem_of_cons; [tauto|]. rewrite IH. tauto.
Qed.
Lemma nodup_put k v (d : dict) : NoDup d.*1 -> NoDup (put k v d).*1.
Proof.
  induction d as [|[k2 v2] d IH]; cbn; intros H.
  - constructor; [apply not_elem_of_nil|constructor].
  - apply NoDup_cons in H as [H1 H2]. destruct (String.eqb_spec k k2) as [->|]; cbn; apply NoDup_cons; split; auto.
    rewrite keys_put. intros [->|]; done.
Qed.
Lemma dget_elem k v (d : dict) : NoDup d.*1 -> (k, v) ∈ d <-> dget k d = Some v.
Proof.
  induction d as [|[k2 v2] d IH]; cbn; intros H; [by rewrite elem_of_nil|].
  apply NoDup_cons in H as [H1 H2]. rewrite elem_of_cons, IH by done.
  destruct (String.eqb_spec k k2) as [->|].
  - split; [intros [[= ->]|Hd]; [done|]|intros [= ->]; by left].
    exfalso. apply H1. apply elem_of_list_fmap. exists (k2, v). split; [done|]. by apply IH.
  - split; [intros [[= -> ->]|]; done|by right].
Qed.
Lemma dget_key k (d : dict) : is_Some (dget k d) <-> k ∈ d.*1.
Proof.
  induction d as [|[k2 v2] d IH]; cbn; [rewrite elem_of_nil; split; [by intros []|done]|].
  rewrite elem_of_cons. destruct (String.eqb_spec k k2) as [->|]; [split; [by left|by eexists]|].
  rewrite IH. split; [by right|by intros [|]].
Qed.
Lemma has_key_dget k d : has_key k d = true <-> is_Some (dget k d).
Proof.
  unfold has_key. rewrite existsb_exists, dget_key, elem_of_list_fmap. split.
  - intros (kv & Hin & E%String.eqb_eq). exists kv. split; [done|]. by apply elem_of_list_In.
  - intros (kv & -> & Hin). exists kv. split; [by apply elem_of_list_In|by apply String.eqb_eq].
Qed.

Lemma conforms_dict fs d : NoDup d.*1 -> conforms (SDict fs) (VDict d) = true <->
  (forall k v, dget k d = Some v -> exists f, f ∈ fs /\ f.1.2 = k /\ conforms f.2 v = true) /\
  (forall f, f ∈ fs -> f.1.1 = true -> is_Some (dget f.1.2 d)).
Proof.
  intros Hnd. unfold conforms; fold conforms. rewrite andb_true_iff, !forallb_forall.
  assert (forall A B C D : Prop, (A <-> B) -> (C <-> D) -> (A /\ C <-> B /\ D)) as Hand by tauto.
  apply Hand.
  - split.
    + intros H k v Hk%dget_elem%elem_of_list_In; [|done]. specialize (H _ Hk).
      apply existsb_exists in H as (f & Hf & [E%String.eqb_eq Hc]%andb_true_iff).
      exists f. split; [by apply elem_of_list_In|done].
    + intros H [k v] Hk%elem_of_list_In%dget_elem; [|done]. destruct (H k v Hk) as (f & Hf & E & Hc).
      apply existsb_exists. exists f. split; [by apply elem_of_list_In|].
      apply andb_true_iff. split; [by apply String.eqb_eq|done].
  - split.
    + intros H f Hf%elem_of_list_In Hr. specialize (H f Hf). rewrite Hr in H. cbn in H. by apply has_key_dget.
    + intros H f Hf%elem_of_list_In. destruct f.1.1 eqn:Hr; [|done]. cbn. apply has_key_dget. by apply H.
Qed.

Lemma any_of_iff l v : conforms (any_of l) v = true <-> exists s, v = VStr s /\ s ∈ l.
Proof.
  unfold any_of. change (conforms (SAny ?l) v) with (existsb (fun s => conforms s v) l). rewrite existsb_exists. split.
  - intros (x & Hx & Hc). apply in_map_iff in Hx as (t & <- & Ht). destruct v; try done. cbn in Hc. apply String.eqb_eq in Hc as ->.
    eexists. split; [done|]. by apply elem_of_list_In.
  - intros (s & -> & Hs). exists (SLit s). split; [|cbn; by apply String.eqb_eq]. apply in_map_iff. exists s. split; [done|]. by apply elem_of_list_In.
Qed.

(** ** Texts *)
Lemma white_blank c : white c <-> blank c = true.
Proof.
  unfold white. revert c. assert (forall c, bool_decide (Ascii.nat_of_ascii c ∈ [9; 10; 11; 12; 13; 28; 29; 30; 31; 32]) = blank c) as H.
  { intros [[] [] [] [] [] [] [] []]; by vm_compute. }
  intros c. rewrite <- H. by rewrite bool_decide_eq_true.
Qed.
Lemma lstrip_spec s : exists a, s = a ++ lstrip s /\ Forall white a /\ (forall c l, lstrip s = c :: l -> ~ white c).
Proof.
  induction s as [|c s (a & Hs & Ha & Hc)]; cbn [lstrip].
  - exists []. repeat split; [constructor|done].
  - destruct (blank c) eqn:E.
    + exists (c :: a). cbn. split; [by f_equal|]. split; [|done]. constructor; [by apply white_blank|done].
    + exists []. split; [done|]. split; [constructor|]. intros c' l [= <- <-] Hw%white_blank. congruence.
Qed.
Lemma lstrip_skip a s : Forall white a -> lstrip (a ++ s) = lstrip s.
Proof. induction 1 as [|c a Hc%white_blank _ IH]; [done|]. cbn. by rewrite Hc. Qed.
Lemma lstrip_stop s : (forall c l, s = c :: l -> ~ white c) -> lstrip s = s.
Proof.
  destruct s as [|c s]; [done|]. intros H. cbn. destruct (blank c) eqn:E; [|done].
  exfalso. apply (H c s); [done|by apply white_blank].
Qed.
Lemma strip_spec s t : t = strip s <->
  exists a b, s = a ++ t ++ b /\ Forall white a /\ Forall white b /\
    (forall c l, t = c :: l -> ~ white c) /\ (forall c l, t = l ++ [c] -> ~ white c).
Proof.
  split.
  - intros ->. unfold strip. destruct (lstrip_spec s) as (a & Hs & Ha & Hc).
    destruct (lstrip_spec (rev (lstrip s))) as (b & Hr & Hb & Hd).
    set (m := lstrip s) in *. set (n := lstrip (rev m)) in *.
    assert (m = rev n ++ rev b) as Hm. { by rewrite <- rev_app_distr, <- Hr, rev_involutive. }
    exists a, (rev b). split; [by rewrite <- Hm|]. split; [done|]. split; [by apply Forall_rev|]. split.
    + intros c l E. apply (Hc c (l ++ rev b)). by rewrite Hm, E.
    + intros c l E. apply (Hd c (rev l)). by rewrite <- (rev_involutive n), E, rev_app_distr.
  - intros (a & b & -> & Ha & Hb & Hc & Hd). unfold strip. rewrite lstrip_skip by done.
    destruct t as [|c t].
    + cbn [app]. rewrite <- (app_nil_r b), lstrip_skip by done. done.
    + rewrite (lstrip_stop ((c :: t) ++ b)) by (intros c' l E; cbn in E; inversion E; subst; by eapply Hc).
      rewrite rev_app_distr, lstrip_skip by (by apply Forall_rev). rewrite lstrip_stop; [by rewrite rev_involutive|].
      intros c' l E. apply (Hd c' (rev l)). by rewrite <- (rev_involutive (c :: t)), E.
Qed.
Lemma trim_stripped s t : trim s t <-> t = stripped s.
Proof.
  unfold trim, stripped. rewrite <- strip_spec. split.
  - intros <-. by rewrite string_of_list_ascii_of_string.
  - intros ->. by rewrite list_ascii_of_string_of_list_ascii.
Qed.
Lemma filled_nonempty o r : filled o r <-> r = nonempty o.
Proof. by destruct o as [[]|]. Qed.
Lemma cleaned_trimmed o r : cleaned o r <-> r = trimmed o.
Proof.
  destruct o as [[|c s]|]; [done| |done]. cbn -[trim stripped]. split.
  - by intros (t & -> & ->%trim_stripped).
  - intros ->. eexists. split; [done|]. by apply trim_stripped.
Qed.

(** ** Paths *)
Lemma child_Ok n x y : child n x = Ok y <-> kid n x = Some y.
Proof. unfold child. destruct (kid n x); cbn; split; congruence. Qed.
Lemma down_Ok path x y : down path x = Ok y <-> at_path path x = Some y.
Proof.
  revert x. induction path as [|n path IH]; intros x; cbn; [split; congruence|].
  unfold child. destruct (kid n x); cbn; [apply IH|done].
Qed.
Lemma text_of_Ok path x o : text_of path x = Ok o <-> exists y, at_path path x = Some y /\ x_text y = o.
Proof.
  unfold text_of. rewrite bind_Ok. setoid_rewrite down_Ok. split; intros (y & H & E); exists y; split; congruence.
Qed.
Lemma text_of_Some path x s : text_of path x = Ok (Some s) <-> text_at path x = Some s.
Proof.
  rewrite text_of_Ok. unfold text_at. destruct (at_path path x) as [y|]; cbn.
  - split; [intros (z & [= <-] & H); done|intros H; by exists y].
  - split; [by intros (? & ? & _)|done].
Qed.
Lemma number_float pf o q : number pf o q <-> float_of pf o = Ok q.
Proof.
  unfold number, float_of. destruct o; split; [by intros (? & [= <-] & ?)|by eexists|by intros (? & ? & _)|done].
Qed.

(** ** The attributes of a distribution *)
Lemma stands_meaning k a : stands_for k a <-> meaning a.1 = k.
Proof.
  destruct a as [a w]. unfold stands_for, meaning. cbn [fst].
  assert (forall k, (a, k) ∈ renamed <-> assoc a UNCERTAINTY_MAPPING = Some k) as H.
  { clear. intros k. unfold renamed, UNCERTAINTY_MAPPING. cbn [assoc].
    rewrite !elem_of_cons, elem_of_nil.
    repeat match goal with |- context [(a =? ?n)%string] => destruct (String.eqb_spec a n) as [->|] end;
    (split; [intuition congruence|intros [= <-]; tauto]). }
  setoid_rewrite H. destruct (assoc a UNCERTAINTY_MAPPING) as [k'|]; cbn.
  - split; [intros [[= ->]|[_ Hn]]; [done|by destruct (Hn k')]|intros ->; by left].
  - split; [intros [|[-> _]]; done|intros ->; right; done].
Qed.

Section extraction_proofs.
Context (pyfloat : string -> result Qc) (pyint : string -> result Z).

Definition put_attr (d : dict) (a : string * string) : result dict :=
  let? q := pyfloat a.2 in Ok (put (meaning a.1) (VFloat q) d).
Definition held (k : string) (d : dict) (o : option Qc) : Prop := dget k d = option_map VFloat o.

Lemma fold_attrs_Ok l d0 : (exists d, foldR put_attr d0 l = Ok d) <->
  Forall (fun a => exists q, pyfloat a.2 = Ok q) l.
Proof.
  revert d0. induction l as [|a l IH]; intros d0; cbn [foldR].
  - split; [constructor|by eexists].
  - rewrite Forall_cons. unfold put_attr at 1. destruct (pyfloat a.2) as [q|]; cbn [bind].
    + rewrite IH. split; [intros H; split; [by eexists|done]|by intros [_ H]].
    + split; [by intros []|by intros [[] _]].
Qed.
Lemma fold_attrs_snoc l a d0 d : foldR put_attr d0 (l ++ [a]) = Ok d <->
  exists d1 q, foldR put_attr d0 l = Ok d1 /\ pyfloat a.2 = Ok q /\ d = put (meaning a.1) (VFloat q) d1.
Proof.
  revert d0. induction l as [|b l IH]; intros d0; cbn [app foldR].
  - unfold put_attr. rewrite bind_Ok. split.
    + intros (d2 & (q & Hq & <-%Ok_inj)%bind_Ok & <-%Ok_inj). eauto.
    + intros (d1 & q & <-%Ok_inj & Hq & ->). rewrite Hq. cbn. eauto.
  - destruct (put_attr d0 b); cbn [bind]; [apply IH|]. split; [done|by intros (? & ? & ? & _)].
Qed.
Lemma fold_attrs_get l d : foldR put_attr [] l = Ok d -> forall k,
  dget k d = None /\ Forall (fun b => meaning b.1 <> k) l \/
  exists q pre a post, dget k d = Some (VFloat q) /\ l = pre ++ a :: post /\ meaning a.1 = k /\ pyfloat a.2 = Ok q /\
    Forall (fun b => meaning b.1 <> k) post.
Proof.
  revert d. induction l as [|a l IH] using rev_ind; intros d H k.
  - apply Ok_inj in H as <-. left. split; [done|constructor].
  - apply fold_attrs_snoc in H as (d1 & q & H & Hq & ->). rewrite dget_put.
    destruct (String.eqb_spec k (meaning a.1)) as [->|Hn].
    + right. exists q, l, a, []. repeat split; [done|constructor].
    + destruct (IH _ H k) as [[Hd Hf]|(q' & pre & b & post & Hd & -> & Hb & Hq' & Hf)].
      * left. split; [done|]. apply Forall_app. split; [done|]. constructor; [congruence|constructor].
      * right. exists q', pre, b, (post ++ [a]). split; [done|]. split; [by rewrite <- app_assoc|].
        split; [done|]. split; [done|]. apply Forall_app. split; [done|]. constructor; [congruence|constructor].
Qed.
Lemma fold_attrs_nodup l d : foldR put_attr [] l = Ok d -> NoDup d.*1.
Proof.
  revert d. induction l as [|a l IH] using rev_ind; intros d H.
  - apply Ok_inj in H as <-. constructor.
  - apply fold_attrs_snoc in H as (d1 & q & H & Hq & ->). apply nodup_put. by eapply IH.
Qed.
(** Two ways to split a list at the last element with a property agree. *)
Lemma last_split {A} (P : A -> Prop) pre a post pre' a' post' :
  pre ++ a :: post = pre' ++ a' :: post' -> P a -> P a' -> Forall (fun b => ~ P b) post ->
  Forall (fun b => ~ P b) post' -> a = a'.
Proof.
  revert pre'. induction pre as [|x pre IH]; intros [|y pre'] E Ha Ha' Hp Hp'; cbn in E.
  - by injection E.
  - injection E as -> ->. exfalso. rewrite Forall_forall in Hp. apply (Hp a'); [|done]. set_solver.
  - injection E as <- <-. exfalso. rewrite Forall_forall in Hp'. apply (Hp' a); [|done]. set_solver.
  - injection E as _ E. by eapply IH.
Qed.
Lemma means_held dist d k o : foldR put_attr [] (x_attrs dist) = Ok d -> means pyfloat k dist o <-> held k d o.
Proof.
  intros H. unfold means, held. destruct (fold_attrs_get _ _ H k) as [[Hd Hf]|(q & pre & a & post & Hd & E & Ha & Hq & Hf)]; rewrite Hd.
  - destruct o as [q|]; cbn; split; [|done| |].
    + intros (pre & a & post & E & Ha%stands_meaning & _). exfalso. rewrite Forall_forall in Hf.
      apply (Hf a); [rewrite E; set_solver|done].
    + done.
    + intros _. eapply Forall_impl; [exact Hf|]. cbv beta. intros b Hb. by rewrite stands_meaning.
  - destruct o as [q'|]; cbn; split.
    + intros (pre' & a' & post' & E' & Ha' & Hq' & Hf'). assert (a = a') as <-; [|congruence].
      eapply (last_split (stands_for k)); [by rewrite <- E, E'|by apply stands_meaning|done| |done].
      eapply Forall_impl; [exact Hf|]. cbv beta. intros b Hb. by rewrite stands_meaning.
    + intros [= <-]. exists pre, a, post. split; [done|]. split; [by apply stands_meaning|]. split; [done|].
      eapply Forall_impl; [exact Hf|]. cbv beta. intros b Hb. by rewrite stands_meaning.
    + intros Hn. exfalso. rewrite Forall_forall in Hn. apply (Hn a); [rewrite E; set_solver|by apply stands_meaning].
    + done.
Qed.

(** ** Uncertainties *)
Lemma put_put k v w (d : dict) : put k w (put k v d) = put k w d.
Proof.
  induction d as [|[k2 v2] d IH]; cbn; [by rewrite String.eqb_refl|].
  destruct (k =? k2)%string eqn:E; cbn; rewrite E; [done|by rewrite IH].
Qed.
Lemma head_omap {A B} (f : A -> option B) l y : head (omap f l) = Some y <->
  exists pre a post, l = pre ++ a :: post /\ Forall (fun b => f b = None) pre /\ f a = Some y.
Proof.
  induction l as [|a l IH]; cbn.
  - split; [done|]. intros ([|] & ? & ? & ? & _); done.
  - destruct (f a) as [z|] eqn:E; cbn.
    + split.
      * intros [= <-]. exists [], a, l. repeat split; [constructor|done].
      * intros (pre & a' & post & El & Hp & Hy). destruct pre as [|a2 pre]; cbn in El.
        -- injection El as <- <-. congruence.
        -- injection El as <- _. inversion Hp. congruence.
    + rewrite IH. split.
      * intros (pre & a2 & post & -> & Hp & Hy). exists (a :: pre), a2, post. repeat split; [by constructor|done].
      * intros (pre & a' & post & El & Hp & Hy). destruct pre as [|a2 pre]; cbn in El.
        -- injection El as <- <-. congruence.
        -- injection El as <- ->. inversion Hp; subst. by exists pre, a', post.
Qed.
Lemma kid_tag n x y : kid n x = Some y -> x_tag y = n.
Proof. intros [_ H]%List.find_some. by apply String.eqb_eq. Qed.

Definition final_pedigree (l : string) (ped : dict) : dict :=
  if (match ped with [] => true | _ => false end) && ((l =? "lognormal") || (l =? "normal"))%string
  then map (fun l => (l.2, VInt 5)) PEDIGREE_LABELS else ped.
Lemma pedigree_iff x l p : pedigree_said pyint x l p <->
  exists ped, extract_pedigree_matrix pyint x = Ok ped /\ read_pedigree (VDict (final_pedigree l ped)) = Some p.
Proof.
  unfold pedigree_said, extract_pedigree_matrix. destruct (kid "pedigreeMatrix" x) as [m|].
  - split.
    + intros (r & c & t & g & f & -> & HF).
      apply Forall2_cons_1 in HF as [(s1 & A1 & B1) HF]. apply Forall2_cons_1 in HF as [(s2 & A2 & B2) HF].
      apply Forall2_cons_1 in HF as [(s3 & A3 & B3) HF]. apply Forall2_cons_1 in HF as [(s4 & A4 & B4) HF].
      apply Forall2_cons_1 in HF as [(s5 & A5 & B5) _].
      eexists. split.
      * cbn. unfold int_of. rewrite A1, A2, A3, A4, A5, B1, B2, B3, B4, B5. cbn. reflexivity.
      * by cbn.
    + intros (ped & H & Hr). cbn in H. unfold int_of in H.
      do 5 (match type of H with context [attr ?k m] => destruct (attr k m) eqn:?; cbn in H; [|done] end;
            match type of H with context [pyint ?k] => destruct (pyint k) eqn:?; cbn in H; [|done] end).
      apply Ok_inj in H as <-. cbn in Hr. injection Hr as <-.
      do 5 eexists. split; [reflexivity|]. repeat constructor; eauto.
  - split.
    + intros ->. exists []. split; [done|]. unfold final_pedigree. cbn [andb].
      destruct ((l =? "lognormal") || (l =? "normal"))%string; by cbn.
    + intros (ped & <-%Ok_inj & Hr). unfold final_pedigree in Hr. cbn [andb] in Hr.
      destruct ((l =? "lognormal") || (l =? "normal"))%string; cbn in Hr; by injection Hr as <-.
Qed.
Lemma pedigree_conforms x l ped : extract_pedigree_matrix pyint x = Ok ped ->
  conforms valid_pedigree_matrix (VDict (final_pedigree l ped)) = true /\
  exists p, read_pedigree (VDict (final_pedigree l ped)) = Some p.
Proof.
  unfold extract_pedigree_matrix. destruct (kid "pedigreeMatrix" x) as [m|].
  - intros H. cbn in H.
    repeat match type of H with context [int_of pyint ?k] => destruct (int_of pyint k) eqn:?; cbn in H; [|done] end.
    apply Ok_inj in H as <-. cbn. split; [reflexivity|by eexists].
  - intros <-%Ok_inj. unfold final_pedigree. cbn [andb].
    destruct ((l =? "lognormal") || (l =? "normal"))%string; (split; [reflexivity|by eexists]).
Qed.

Definition whole (l : string) (data ped : dict) : dict :=
  put "pedigree matrix" (VDict (final_pedigree l ped)) (put "type" (VStr l) data).
Lemma extract_uncertainty_Ok x v : extract_uncertainty pyfloat pyint x = Ok v <->
  exists l dist pre post data ped, distribution_labels = pre ++ l :: post /\ Forall (fun l' => kid l' x = None) pre /\
    kid l x = Some dist /\ foldR put_attr [] (x_attrs dist) = Ok data /\ extract_pedigree_matrix pyint x = Ok ped /\
    v = VDict (whole l data ped).
Proof.
  assert (forall l data ped,
    (if (match ped with [] => true | _ => false end) && ((l =? "lognormal") || (l =? "normal"))%string
     then Ok (VDict (put "pedigree matrix" (VDict (map (fun l => (l.2, VInt 5)) PEDIGREE_LABELS))
                       (put "pedigree matrix" (VDict ped) (put "type" (VStr l) data))))
     else Ok (VDict (put "pedigree matrix" (VDict ped) (put "type" (VStr l) data)))) = Ok (VDict (whole l data ped))) as E.
  { intros l data ped. unfold whole, final_pedigree.
    destruct (_ && _); [by rewrite put_put|done]. }
  unfold extract_uncertainty. fold put_attr. split.
  - intros (dist & Hd & (data & Hf & (ped & Hp & H)%bind_Ok)%bind_Ok)%bind_Ok.
    destruct (head (omap (fun l => kid l x) distribution_labels)) as [dist'|] eqn:Hh; [|done].
    apply Ok_inj in Hd as ->. apply head_omap in Hh as (pre & l & post & Hl & Hn & Hk).
    pose proof (kid_tag _ _ _ Hk) as Ht. cbv zeta in H. rewrite Ht, E in H. apply Ok_inj in H as <-.
    by exists l, dist, pre, post, data, ped.
  - intros (l & dist & pre & post & data & ped & Hl & Hn & Hk & Hf & Hp & ->).
    assert (head (omap (fun l => kid l x) distribution_labels) = Some dist) as ->.
    { apply head_omap. by exists pre, l, post. }
    cbn [from_option bind]. rewrite Hf. cbn [bind]. rewrite Hp. cbn [bind]. cbv zeta.
    by rewrite (kid_tag _ _ _ Hk), E.
Qed.

Lemma whole_get l data ped k : dget k (whole l data ped) =
  if (k =? "pedigree matrix")%string then Some (VDict (final_pedigree l ped))
  else if (k =? "type")%string then Some (VStr l) else dget k data.
Proof. unfold whole. by rewrite !dget_put. Qed.
Lemma distribution_fields n r o f : f ∈ (req "type" (SLit n) :: req "pedigree matrix" valid_pedigree_matrix ::
    map (fun k => req k SFloat) r ++ map (fun k => optional k SFloat) o) <->
  f = req "type" (SLit n) \/ f = req "pedigree matrix" valid_pedigree_matrix \/
  (exists k, k ∈ r /\ f = req k SFloat) \/ (exists k, k ∈ o /\ f = optional k SFloat).
Proof.
  rewrite !elem_of_cons, elem_of_app, !elem_of_list_fmap.
  split; intros [|[|[(k & H1 & H2)|(k & H1 & H2)]]]; eauto 10.
Qed.
Lemma distribution_iff n r o l x data ped :
  foldR put_attr [] (x_attrs x) = Ok data -> (exists y, extract_pedigree_matrix pyint y = Ok ped) ->
  (forall k, k ∈ r ++ o -> k <> "type"%string /\ k <> "pedigree matrix"%string) ->
  conforms (distribution n r o) (VDict (whole l data ped)) = true <->
  l = n /\ Forall (fun a => meaning a.1 ∈ ["type"; "pedigree matrix"]%string ++ r ++ o) (x_attrs x) /\
  Forall (fun k => exists a, a ∈ x_attrs x /\ meaning a.1 = k) r.
Proof.
  intros Hf (y & Hp) Hk. pose proof (fold_attrs_get _ _ Hf) as Hg.
  unfold distribution. rewrite conforms_dict by (do 2 apply nodup_put; by eapply fold_attrs_nodup).
  setoid_rewrite distribution_fields. setoid_rewrite whole_get. split.
  - intros [H1 H2]. assert (l = n) as ->.
    { destruct (H1 "type"%string (VStr l) eq_refl) as (f & [->|[->|[(k & Hr & ->)|(k & Ho & ->)]]] & E & Hc); cbn in E.
      - by apply String.eqb_eq in Hc.
      - done.
      - destruct (Hk k) as [? _]; [set_solver|done].
      - destruct (Hk k) as [? _]; [set_solver|done]. }
    split; [done|]. split; apply Forall_forall.
    + intros a Ha. destruct (decide (meaning a.1 = "type"%string)) as [->|N1]; [set_solver|].
      destruct (decide (meaning a.1 = "pedigree matrix"%string)) as [->|N2]; [set_solver|].
      destruct (Hg (meaning a.1)) as [[_ Hn]|(q & _ & _ & _ & Hd & _)].
      { rewrite Forall_forall in Hn. by destruct (Hn a Ha). }
      destruct (H1 (meaning a.1) (VFloat q)) as (f & Hff & E & _).
      { by rewrite (proj2 (String.eqb_neq _ _) N1), (proj2 (String.eqb_neq _ _) N2). }
      destruct Hff as [->|[->|[(k & Hr & ->)|(k & Ho & ->)]]]; unfold req, optional in E; cbn [fst snd] in E;
        [by destruct N1|by destruct N2| |]; rewrite <- E;
        rewrite !elem_of_app; auto.
    + intros k Hr. destruct (Hk k) as [N1 N2]; [set_solver|].
      destruct (H2 (req k SFloat)) as [v Hv]; [right; right; left; by exists k|done|]. cbn in Hv.
      rewrite (proj2 (String.eqb_neq _ _) N1), (proj2 (String.eqb_neq _ _) N2) in Hv.
      destruct (Hg k) as [[Hn _]|(q & pre & a & post & _ & E & Ha & _)]; [congruence|].
      exists a. split; [rewrite E; set_solver|done].
  - intros (-> & H1 & H2). rewrite Forall_forall in H1. rewrite Forall_forall in H2. split.
    + intros k v. destruct (String.eqb_spec k "pedigree matrix") as [->|N2].
      { intros [= <-]. eexists. split; [right; left; done|]. split; [done|]. by eapply pedigree_conforms. }
      destruct (String.eqb_spec k "type") as [->|N1].
      { intros [= <-]. eexists. split; [left; done|]. split; [done|]. cbn. apply String.eqb_refl. }
      intros Hd. destruct (Hg k) as [[Hn _]|(q & pre & a & post & Hd' & E & Ha & _)]; [congruence|].
      assert (v = VFloat q) as -> by congruence.
      assert (k ∈ r ++ o) as Hin. { pose proof (H1 a) as Hm. rewrite Ha, E in Hm. set_solver. }
      apply elem_of_app in Hin as [Hin|Hin].
      * exists (req k SFloat). split; [|done]. right; right; left. by exists k.
      * exists (optional k SFloat). split; [|done]. right; right; right. by exists k.
    + intros f [->|[->|[(k & Hr & ->)|(k & Ho & ->)]]] Hreq; cbn in *; [by eexists|by eexists| |done].
      destruct (Hk k) as [N1 N2]; [set_solver|].
      rewrite (proj2 (String.eqb_neq _ _) N1), (proj2 (String.eqb_neq _ _) N2).
      destruct (H2 k Hr) as (a & Ha & E). destruct (Hg k) as [[_ Hn]|(q & pre & b & post & Hd' & _)]; [|by eexists].
      rewrite Forall_forall in Hn. by destruct (Hn a Ha).
Qed.
Lemma shapes_iff l pre post x data ped : distribution_labels = pre ++ l :: post ->
  foldR put_attr [] (x_attrs x) = Ok data -> (exists y, extract_pedigree_matrix pyint y = Ok ped) ->
  conforms valid_uncertainty (VDict (whole l data ped)) = true <->
  Forall (fun a => meaning a.1 ∈ ["type"; "pedigree matrix"]%string ++ (shape l).1 ++ (shape l).2) (x_attrs x) /\
  Forall (fun k => exists a, a ∈ x_attrs x /\ meaning a.1 = k) (shape l).1.
Proof.
  intros Hl Hf Hp. unfold valid_uncertainty. change (conforms (SAny ?ss) ?v) with (existsb (fun s => conforms s v) ss).
  assert (l ∈ distribution_labels) as Hin by (rewrite Hl; set_solver). clear Hl.
  unfold valid_beta, valid_binomial, valid_gamma, valid_lognormal, valid_normal, valid_triangular, valid_undefined, valid_uniform.
  cbn [existsb]. rewrite !orb_true_iff.
  rewrite !(fun n r o H => distribution_iff n r o l x data ped Hf Hp H) by
    (intros k Hk; repeat (apply elem_of_cons in Hk as [->|Hk]; [done|]); by apply elem_of_nil in Hk).
  unfold distribution_labels in Hin.
  repeat (apply elem_of_cons in Hin as [->|Hin];
    [cbn [shape fst snd String.eqb Ascii.eqb Bool.eqb]; intuition congruence|]). by apply elem_of_nil in Hin.
Qed.
Definition value (k : string) (data : dict) : option Qc := dget k data ≫= as_float.
Lemma held_value l data k o : foldR put_attr [] l = Ok data -> held k data o <-> o = value k data.
Proof.
  intros Hf. unfold held, value. destruct (fold_attrs_get _ _ Hf k) as [[-> _]|(q & _ & _ & _ & -> & _)]; destruct o; cbn;
  split; congruence.
Qed.
Lemma may_value l data k : foldR put_attr [] l = Ok data -> may k as_float data = Some (value k data).
Proof.
  intros Hf. unfold may, value. by destruct (fold_attrs_get _ _ Hf k) as [[-> _]|(q & _ & _ & _ & -> & _)].
Qed.
Lemma read_whole l at_ data ped p : foldR put_attr [] at_ = Ok data -> read_pedigree (VDict (final_pedigree l ped)) = Some p ->
  read_uncertainty (VDict (whole l data ped)) =
  Some (mkUncert (Some (read_utype l)) (value "minimum" data) (value "maximum" data) (value "mode" data)
    (value "mean" data) (value "mu" data) (value "variance" data) (value "variance with pedigree uncertainty" data)
    (value "standard deviation 95%" data) None (Some p)).
Proof.
  intros Hf Hp.
  assert (forall k, (k =? "pedigree matrix")%string = false -> (k =? "type")%string = false ->
    may k as_float (whole l data ped) = Some (value k data)) as E.
  { intros k E1 E2. rewrite <- (may_value _ _ _ Hf). unfold may. by rewrite whole_get, E1, E2. }
  unfold read_uncertainty. unfold need at 1. rewrite whole_get. cbn -[may need read_pedigree].
  rewrite !E by done. cbn -[need read_pedigree]. unfold need. rewrite whole_get.
  change (("pedigree matrix" =? "pedigree matrix")%string) with true. cbn -[read_pedigree]. by rewrite Hp.
Qed.

Theorem uncertainty_iff x u : uncertainty_said pyfloat pyint x u <->
  exists v, extract_uncertainty pyfloat pyint x = Ok v /\ conforms valid_uncertainty v = true /\ read_uncertainty v = Some u.
Proof.
  unfold uncertainty_said. setoid_rewrite extract_uncertainty_Ok. split.
  - intros (l & dist & pre & post & Hl & Hn & Hk & Hq & H1 & H2 & Ht & M1 & M2 & M3 & M4 & M5 & M6 & M7 & M8 & Hneg & p & Hpu & Hp).
    apply (fold_attrs_Ok _ []) in Hq as [data Hf]. apply pedigree_iff in Hp as (ped & Hp & Hr).
    exists (VDict (whole l data ped)). split; [by exists l, dist, pre, post, data, ped|]. split.
    + apply (shapes_iff l pre post dist); [done|done|by exists x|]. split.
      * eapply Forall_impl; [exact H1|]. cbv beta. by intros a (k & <-%stands_meaning & Hin).
      * eapply Forall_impl; [exact H2|]. cbv beta. intros k (a & Ha & E%stands_meaning). by exists a.
    + rewrite (read_whole _ _ _ _ _ Hf Hr). f_equal.
      repeat match goal with H : means _ _ _ _ |- _ => apply (means_held _ _ _ _ Hf), (held_value _ _ _ _ Hf) in H end.
      destruct u; cbn in *. by subst.
  - intros (v & (l & dist & pre & post & data & ped & Hl & Hn & Hk & Hf & Hp & ->) & Hc & Hr).
    apply (shapes_iff l pre post dist) in Hc as [H1 H2]; [|done|done|by exists x].
    destruct (pedigree_conforms _ l _ Hp) as [_ [p Hpr]]. rewrite (read_whole _ _ _ _ _ Hf Hpr) in Hr.
    injection Hr as <-. exists l, dist, pre, post. split; [done|]. split; [done|]. split; [done|].
    split; [by apply (fold_attrs_Ok _ []); exists data|]. cbn [u_type u_min u_max u_mode u_mean u_mu u_variance u_vwpu u_sd95 u_negative u_pedigree].
    split. { eapply Forall_impl; [exact H1|]. cbv beta. intros a Hin. exists (meaning a.1). split; [by apply stands_meaning|done]. }
    split. { eapply Forall_impl; [exact H2|]. cbv beta. intros k (a & Ha & E). exists a. split; [done|by apply stands_meaning]. }
    split; [done|]. do 8 (split; [by apply (means_held _ _ _ _ Hf), (held_value _ _ _ _ Hf)|]). split; [done|].
    exists p. split; [done|]. apply pedigree_iff. by exists ped.
Qed.

(** ** Dictionaries with optional keys *)
Definition optc (s : schema) (o : option pyval) : bool := match o with Some v => conforms s v | None => true end.
Definition optr {A} (f : pyval -> option A) (o : option pyval) : option (option A) :=
  match o with Some v => Some <$> f v | None => Some None end.
Definition is_some {A} (o : option A) : bool := match o with Some _ => true | None => false end.
Definition field_ok (fs : list (bool * string * schema)) (kv : string * pyval) : bool :=
  existsb (fun f => (f.1.2 =? kv.1)%string && conforms f.2 kv.2) fs.
Lemma conforms_SDict fs d : conforms (SDict fs) (VDict d) =
  forallb (field_ok fs) d && forallb (fun f => negb f.1.1 || has_key f.1.2 d) fs.
Proof. reflexivity. Qed.
Lemma forallb_opt p k o : forallb p (opt k o) = match o with Some v => p (k, v) | None => true end.
Proof. destruct o; cbn; [by rewrite andb_true_r|done]. Qed.
Lemma has_key_app k (a b : dict) : has_key k (a ++ b) = has_key k a || has_key k b.
Proof. apply existsb_app. Qed.
Lemma conforms_text o : conforms SStr (of_text o) = is_some o.
Proof. by destruct o. Qed.
Lemma as_str_text o : as_str (of_text o) = o.
Proof. by destruct o. Qed.
Lemma may_text k o d : dget k d = option_map VStr o -> may k as_str d = Some o.
Proof. unfold may. intros ->. by destruct o. Qed.
Lemma may_optr {A} k (f : pyval -> option A) o d : dget k d = o -> may k f d = optr f o.
Proof. unfold may. intros ->. by destruct o. Qed.
Lemma need_text k o d : dget k d = Some (of_text o) -> need k as_str d = o.
Proof. unfold need. intros ->. apply as_str_text. Qed.
Lemma need_get {A} k (f : pyval -> option A) v d : dget k d = Some v -> need k f d = f v.
Proof. unfold need. by intros ->. Qed.

Lemma uncertainty_in_iff n x o : uncertainty_in pyfloat pyint n x o <->
  exists ov, extract_optional_uncertainty pyfloat pyint n x = Ok ov /\ optc valid_uncertainty ov = true /\
    optr read_uncertainty ov = Some o.
Proof.
  unfold uncertainty_in, extract_optional_uncertainty. destruct (kid n x) as [y|].
  - destruct o as [u|].
    + rewrite uncertainty_iff. split.
      * intros (v & Hv & Hc & Hr). exists (Some v). rewrite Hv. cbn. split; [done|]. split; [done|]. by rewrite Hr.
      * intros (ov & (v & Hv & <-%Ok_inj)%bind_Ok & Hc & Hr). exists v. cbn in *.
        destruct (read_uncertainty v); cbn in Hr; [|done]. split; [done|]. split; [done|]. congruence.
    + split; [done|]. intros (ov & (v & Hv & <-%Ok_inj)%bind_Ok & Hc & Hr). cbn in Hr. by destruct (read_uncertainty v).
  - destruct o as [u|].
    + split; [done|]. by intros (ov & <-%Ok_inj & _ & Hr).
    + split; [|done]. intros _. by exists None.
Qed.
Lemma unit_iff x u : unit_said x u <-> unit_text x = VStr u.
Proof.
  unfold unit_said, unit_text. destruct (kid "unitName" x) as [y|]; [|split; congruence].
  destruct (x_text y); cbn; split; congruence.
Qed.
Lemma unit_conforms x : conforms SStr (unit_text x) = true <-> exists u, unit_text x = VStr u.
Proof. destruct (unit_text x); split; try done; try by intros []. by eexists. Qed.

Lemma property_parts i a n t u w f :
  let v := VDict ([("id", of_text i); ("amount", VFloat a); ("name", of_text n); ("unit", t)]%string ++
     opt "uncertainty" u ++ opt "variable" (option_map VStr w) ++ opt "formula" (option_map VStr f)) in
  conforms valid_property v = is_some i && is_some n && conforms SStr t && optc valid_uncertainty u /\
  read_property v = (i ← i; n ← n; t ← as_str t; u ← optr read_uncertainty u; Some (mkProp i n a t w f u)).
Proof.
  cbv zeta. split.
  - unfold valid_property. rewrite conforms_SDict, !forallb_app, !forallb_opt. unfold has_key.
    destruct i, n, u, w, f; cbn; rewrite ?orb_false_r, ?andb_true_r; try done; by destruct (conforms SStr t).
  - unfold read_property.
    rewrite (need_text "id" i), (need_text "name" n), (need_get "amount" _ (VFloat a)), (need_get "unit" _ t),
      (may_text "variable" w), (may_text "formula" f), (may_optr "uncertainty" _ u);
      try (rewrite ?dget_app, ?dget_opt; cbn; by destruct u, w, f).
Qed.
Lemma property_iff x p : property_said pyfloat pyint x p <->
  exists v, extract_property pyfloat pyint x = Ok v /\ conforms valid_property v = true /\ read_property v = Some p.
Proof.
  unfold property_said, extract_property.
  rewrite <- text_of_Some, number_float, unit_iff, filled_nonempty, cleaned_trimmed, uncertainty_in_iff. split.
  - intros (Hi & Hn & Ha & Ht & Hw & Hf & ov & Hu & Hc & Hr). eexists. rewrite Ha. cbn [bind]. rewrite Hn. cbn [bind].
    rewrite Hu. cbn [bind]. split; [done|].
    destruct (property_parts (attr "propertyId" x) (p_amount p) (Some (p_name p)) (unit_text x) ov
      (nonempty (attr "variableName" x)) (trimmed (attr "mathematicalRelation" x))) as [E1 E2].
    rewrite E1, E2, Hi, Ht, Hc, Hr. cbn. split; [done|]. rewrite <- Hw, <- Hf. by destruct p.
  - intros (v & (a & Ha & (n & Hn & (ov & Hu & <-%Ok_inj)%bind_Ok)%bind_Ok)%bind_Ok & Hc & Hr).
    destruct (property_parts (attr "propertyId" x) a n (unit_text x) ov
      (nonempty (attr "variableName" x)) (trimmed (attr "mathematicalRelation" x))) as [E1 E2].
    rewrite E1 in Hc. rewrite E2 in Hr. clear E1 E2.
    destruct (attr "propertyId" x) as [i|]; [|done]. destruct n as [n|]; [|done]. cbn in Hc, Hr.
    apply andb_true_iff in Hc as [Ht Hc]. apply unit_conforms in Ht as [t Ht]. rewrite Ht in Hr. cbn in Hr.
    destruct (optr read_uncertainty ov) as [u|] eqn:Hru; [|done]. injection Hr as <-. cbn.
    repeat (split; [done|]). by exists ov.
Qed.

Lemma parameter_parts i a n t u w f :
  let v := VDict ([("name", of_text n); ("id", of_text i); ("amount", VFloat a); ("unit", t)]%string ++
     opt "uncertainty" u ++ opt "variable" (option_map VStr w) ++ opt "formula" (option_map VStr f)) in
  conforms valid_parameter v = is_some i && is_some n && conforms SStr t && optc valid_uncertainty u /\
  read_parameter v = (i ← i; n ← n; t ← as_str t; u ← optr read_uncertainty u;
                      Some (mkParam (Some i) (Some n) a (Some t) w f u)).
Proof.
  cbv zeta. split.
  - unfold valid_parameter. rewrite conforms_SDict, !forallb_app, !forallb_opt. unfold has_key.
    destruct i, n, u, w, f; cbn; rewrite ?orb_false_r, ?andb_true_r; try done; by destruct (conforms SStr t).
  - unfold read_parameter.
    rewrite (may_optr "id" _ (Some (of_text i))), (may_optr "name" _ (Some (of_text n))),
      (need_get "amount" _ (VFloat a)), (may_optr "unit" _ (Some t)),
      (may_text "variable" w), (may_text "formula" f), (may_optr "uncertainty" _ u);
      try (rewrite ?dget_app, ?dget_opt; cbn; by destruct u, w, f).
    unfold optr at 1 2 3. rewrite !as_str_text. destruct i, n; cbn; try done. by destruct (as_str t).
Qed.
Lemma parameter_iff x q : parameter_said pyfloat pyint x q <->
  exists v, extract_parameter pyfloat pyint x = Ok v /\ conforms valid_parameter v = true /\ read_parameter v = Some q.
Proof.
  unfold parameter_said, extract_parameter. rewrite number_float, !cleaned_trimmed, uncertainty_in_iff. split.
  - intros (Hi0 & Hi & Hn0 & Hn & Ha & (t & Hqt & Ht%unit_iff) & Hw & Hf & ov & Hu & Hc & Hr).
    destruct (q_name q) as [n|] eqn:En; [|done]. apply text_of_Some in Hn.
    destruct (q_id q) as [i|] eqn:Ei; [|done].
    eexists. rewrite Hn. cbn [bind]. rewrite Ha. cbn [bind]. rewrite Hu. cbn [bind]. split; [done|].
    destruct (parameter_parts (attr "parameterId" x) (q_amount q) (Some n) (unit_text x) ov
      (trimmed (attr "variableName" x)) (trimmed (attr "mathematicalRelation" x))) as [E1 E2].
    rewrite E1, E2, Hi, Ht, Hc, Hr. cbn. split; [done|]. rewrite <- Hw, <- Hf, <- Ei, <- En, <- Hqt. by destruct q.
  - intros (v & (n & Hn & (a & Ha & (ov & Hu & <-%Ok_inj)%bind_Ok)%bind_Ok)%bind_Ok & Hc & Hr).
    destruct (parameter_parts (attr "parameterId" x) a n (unit_text x) ov
      (trimmed (attr "variableName" x)) (trimmed (attr "mathematicalRelation" x))) as [E1 E2].
    rewrite E1 in Hc. rewrite E2 in Hr. clear E1 E2.
    destruct (attr "parameterId" x) as [i|]; [|done]. destruct n as [n|]; [|done]. cbn in Hc, Hr.
    apply andb_true_iff in Hc as [Ht Hc]. apply unit_conforms in Ht as [t Ht]. rewrite Ht in Hr. cbn in Hr.
    destruct (optr read_uncertainty ov) as [u|] eqn:Hru; [|done]. injection Hr as <-. cbn.
    apply text_of_Some in Hn. repeat (split; [done|]). split; [by exists t; split; [done|apply unit_iff]|].
    repeat (split; [done|]). by exists ov.
Qed.

Lemma volume_parts a u w f :
  let v := VDict ([("amount", VFloat a)]%string ++ opt "uncertainty" u ++ opt "formula" (option_map VStr f) ++
     opt "variable" (option_map VStr w)) in
  conforms valid_production_volume v = optc valid_uncertainty u /\
  read_volume v = (u ← optr read_uncertainty u; Some (mkPvol a w f u None None None None)).
Proof.
  cbv zeta. split.
  - unfold valid_production_volume. rewrite conforms_SDict, !forallb_app, !forallb_opt. unfold has_key.
    destruct u, w, f; cbn; rewrite ?orb_false_r, ?andb_true_r; done.
  - unfold read_volume.
    rewrite (need_get "amount" _ (VFloat a)), (may_text "variable" w), (may_text "formula" f),
      (may_optr "uncertainty" _ u), (may_optr "subtracted activity link volume" _ None);
      try (rewrite ?dget_app, ?dget_opt; cbn; by destruct u, w, f).
Qed.
Lemma volume_iff x w : volume_said pyfloat pyint x w <->
  exists v, extract_production_volume pyfloat pyint x = Ok v /\ conforms valid_production_volume v = true /\
    read_volume v = Some w.
Proof.
  unfold volume_said, extract_production_volume. rewrite !cleaned_trimmed, uncertainty_in_iff.
  assert (forall a, match attr "productionVolumeAmount" x with
    | None | Some EmptyString => a = 0%Qc | Some s => pyfloat s = Ok a end <->
    match nonempty (attr "productionVolumeAmount" x) with Some s => pyfloat s | None => Ok 0%Qc end = Ok a) as E.
  { intros a. destruct (attr "productionVolumeAmount" x) as [[]|]; cbn; [split; congruence|done|split; congruence]. }
  rewrite E. split.
  - intros (Ha & Hw & Hf & (ov & Hu & Hc & Hr) & H1 & H2 & H3 & H4). eexists. rewrite Ha. cbn [bind]. rewrite Hu. cbn [bind].
    split; [done|].
    destruct (volume_parts (v_amount w) ov (trimmed (attr "productionVolumeVariableName" x))
      (trimmed (attr "productionVolumeMathematicalRelation" x))) as [E1 E2].
    rewrite E1, E2, Hc, Hr. cbn. split; [done|]. rewrite <- Hw, <- Hf. destruct w; cbn in *. by subst.
  - intros (v & (a & Ha & (ov & Hu & <-%Ok_inj)%bind_Ok)%bind_Ok & Hc & Hr).
    destruct (volume_parts a ov (trimmed (attr "productionVolumeVariableName" x))
      (trimmed (attr "productionVolumeMathematicalRelation" x))) as [E1 E2].
    rewrite E1 in Hc. rewrite E2 in Hr. clear E1 E2.
    destruct (optr read_uncertainty ov) as [u|] eqn:Hru; [|done]. cbn in Hr. injection Hr as <-. cbn.
    repeat (split; [done|]). split; [by exists ov|done].
Qed.

(** ** Exchanges *)
Fixpoint find_field (k : string) (fs : list (bool * string * schema)) : option schema :=
  match fs with [] => None | f :: fs => if (f.1.2 =? k)%string then Some f.2 else find_field k fs end.
Definition names (fs : list (bool * string * schema)) : list string := map (fun f => f.1.2) fs.
Lemma field_ok_find fs k v : NoDup (names fs) ->
  field_ok fs (k, v) = match find_field k fs with Some s => conforms s v | None => false end.
Proof.
  unfold field_ok, names. induction fs as [|f fs IH]; intros H; [done|]. apply NoDup_cons in H as [H1 H2].
  cbn [existsb find_field fst snd]. destruct (String.eqb_spec f.1.2 k) as [E|E]; cbn [andb orb]; [|by apply IH].
  assert (existsb (fun f => (f.1.2 =? k)%string && conforms f.2 v) fs = false) as ->; [|by rewrite orb_false_r].
  apply not_true_is_false. intros (g & Hg & [Eg%String.eqb_eq _]%andb_true_iff)%existsb_exists. apply H1.
  apply elem_of_list_fmap. exists g. split; [congruence|by apply elem_of_list_In].
Qed.
Lemma forallb_field_opt fs k o : NoDup (names fs) -> forallb (field_ok fs) (opt k o) =
  match find_field k fs with Some s => optc s o | None => negb (is_some o) end.
Proof.
  intros H. rewrite forallb_opt. destruct o as [v|]; [rewrite field_ok_find by done|]; by destruct (find_field k fs).
Qed.
Lemma forallb_field_cons fs k v d : NoDup (names fs) -> forallb (field_ok fs) ((k, v) :: d) =
  match find_field k fs with Some s => conforms s v | None => false end && forallb (field_ok fs) d.
Proof. intros H. cbn [forallb]. by rewrite field_ok_find. Qed.
Lemma has_key_opt k k' o : has_key k (opt k' o) = (k' =? k)%string && is_some o.
Proof. unfold has_key. destruct o; cbn; [by rewrite orb_false_r, andb_true_r|by rewrite andb_false_r]. Qed.
Lemma has_key_cons k k' v (d : dict) : has_key k ((k', v) :: d) = (k' =? k)%string || has_key k d.
Proof. done. Qed.
Lemma optc_text o : optc SStr (option_map VStr o) = true.
Proof. by destruct o. Qed.

Definition exc_dict i tg n t a ty lk cl w f ps c s pv u cd : dict :=
  [("id", of_text i); ("tag", VStr tg); ("name", of_text n); ("unit", of_text t); ("amount", VFloat a);
   ("type", VStr ty)]%string ++
  opt "activity link" (option_map VStr lk) ++ opt "byproduct classification" (option_map VStr cl) ++
  opt "variable" (option_map VStr w) ++ opt "formula" (option_map VStr f) ++ [("properties", VList ps)]%string ++
  opt "compartment" c ++ opt "subcompartment" s ++ opt "production volume" pv ++ opt "uncertainty" u ++
  opt "conditional exchange" cd.
Lemma exc_get k i tg n t a ty lk cl w f ps c s pv u cd :
  dget k (exc_dict i tg n t a ty lk cl w f ps c s pv u cd) =
    (if (k =? "id") then Some (of_text i) else if (k =? "tag") then Some (VStr tg)
    else if (k =? "name") then Some (of_text n) else if (k =? "unit") then Some (of_text t)
    else if (k =? "amount") then Some (VFloat a) else if (k =? "type") then Some (VStr ty)
    else if (k =? "activity link") then option_map VStr lk
    else if (k =? "byproduct classification") then option_map VStr cl
    else if (k =? "variable") then option_map VStr w else if (k =? "formula") then option_map VStr f
    else if (k =? "properties") then Some (VList ps) else if (k =? "compartment") then c
    else if (k =? "subcompartment") then s else if (k =? "production volume") then pv
    else if (k =? "uncertainty") then u else if (k =? "conditional exchange") then cd else None)%string.
Proof.
 unfold exc_dict. rewrite !dget_app, !dget_opt. cbn [dget].
    repeat match goal with
    | |- context [(k =? ?x)%string] => destruct (String.eqb_spec k x) as [->|];
        [cbn [String.eqb Ascii.eqb Bool.eqb];
         repeat match goal with |- context [match ?o with Some _ => _ | None => None end] => by destruct o end; done|]
    end. done.
Qed.
Lemma has_key_some k d : has_key k d = is_some (dget k d).
Proof.
  pose proof (has_key_dget k d) as H. destruct (dget k d) as [v|]; cbn; [apply H; by eexists|].
  apply not_true_is_false. rewrite H. by intros [].
Qed.
Ltac fields :=
  rewrite conforms_SDict; unfold exc_dict at 1; rewrite !forallb_app;
  rewrite !forallb_field_cons by (apply (bool_decide_unpack _); by vm_compute);
  rewrite !forallb_field_opt by (apply (bool_decide_unpack _); by vm_compute);
  cbn [forallb fst snd req optional negb orb]; rewrite !has_key_some, !exc_get;
  cbn [find_field fst snd req optional String.eqb Ascii.eqb Bool.eqb negb orb andb is_some];
  rewrite ?optc_text, ?conforms_text.
Lemma elementary_parts i tg n t a ty lk cl w f ps c s pv u cd :
  conforms elementary_exchange_schema (VDict (exc_dict i tg n t a ty lk cl w f ps c s pv u cd)) =
  is_some i && (("elementaryExchange" =? tg)%string && (is_some n && (is_some t &&
  (conforms (any_of ["from environment"; "to environment"]%string) (VStr ty) && (negb (is_some lk) && (negb (is_some cl) &&
  (forallb (conforms valid_property) ps && ((is_some c && optc SStr c) && ((is_some s && optc SStr s) &&
  (negb (is_some pv) && (optc valid_uncertainty u && negb (is_some cd)))))))))))).
Proof.
  unfold elementary_exchange_schema. remember ("elementaryExchange" =? tg)%string as T eqn:HT. fields.
  assert (forall o : option string, is_some (option_map VStr o) = is_some o) as E by (by intros []). rewrite !E.
  change (conforms SFloat (VFloat a)) with true.
  change (conforms (SLit "elementaryExchange") (VStr tg)) with ("elementaryExchange" =? tg)%string. rewrite <- HT.
  change (conforms (SListOf valid_property) (VList ps)) with (forallb (conforms valid_property) ps).
  btauto.
Qed.
Lemma activity_parts i tg n t a ty lk cl w f ps c s pv u cd :
  conforms activity_exchange_schema (VDict (exc_dict i tg n t a ty lk cl w f ps c s pv u cd)) =
  is_some i && (("intermediateExchange" =? tg)%string && (is_some n && (is_some t &&
  (conforms (any_of ["from technosphere"; "reference product"; "byproduct"; "dropped product"]%string) (VStr ty) &&
  (optc valid_byproducts (option_map VStr cl) &&
  (forallb (conforms valid_property) ps && (negb (is_some c) && (negb (is_some s) &&
  (optc valid_production_volume pv && (optc valid_uncertainty u && optc SBool cd)))))))))).
Proof.
  unfold activity_exchange_schema. remember ("intermediateExchange" =? tg)%string as T eqn:HT. fields.
  change (conforms SFloat (VFloat a)) with true.
  change (conforms (SLit "intermediateExchange") (VStr tg)) with ("intermediateExchange" =? tg)%string. rewrite <- HT.
  change (conforms (SListOf valid_property) (VList ps)) with (forallb (conforms valid_property) ps).
  btauto.
Qed.
Lemma read_exchange_parts i tg n t a ty lk cl w f ps c s pv u cd :
  read_exchange (VDict (exc_dict i tg n t a ty lk cl w f ps c s pv u cd)) =
  (i ← i; n ← n; t ← t; c' ← optr (fun v => as_str v ≫= read_class) (option_map VStr cl);
   v ← optr read_volume pv; p ← mapM read_property ps; u ← optr read_uncertainty u; b ← optr as_bool cd;
   co ← optr as_str c; su ← optr as_str s;
   Some (mkExchange (Some i) n t (read_etype ty) a c' lk w f v p u None b None None None None None co su (Some tg))).
Proof.
  pose proof (fun k => exc_get k i tg n t a ty lk cl w f ps c s pv u cd) as E.
  unfold read_exchange.
  rewrite (need_text "id" i), (need_text "name" n), (need_text "unit" t) by apply E.
  rewrite (need_get "type" _ (VStr ty)), (need_get "amount" _ (VFloat a)), (need_get "tag" _ (VStr tg)) by apply E.
  rewrite (may_optr "byproduct classification" _ (option_map VStr cl)), (may_text "activity link" lk),
    (may_text "variable" w), (may_text "formula" f), (may_optr "production volume" _ pv),
    (may_optr "properties" _ (Some (VList ps))), (may_optr "uncertainty" _ u), (may_optr "conditional exchange" _ cd),
    (may_optr "compartment" _ c), (may_optr "subcompartment" _ s) by apply E.
  destruct i, n, t; cbn -[optr]; try done. destruct (optr _ (option_map VStr cl)); cbn -[optr]; [|done].
  destruct (optr read_volume pv); cbn -[optr]; [|done]. cbn [optr as_list]. by destruct (mapM read_property ps).
Qed.

Lemma list_iff {A} (R : xml -> A -> Prop) f c (g : pyval -> option A) :
  (forall x r, R x r <-> exists v, f x = Ok v /\ c v = true /\ g v = Some r) ->
  forall l rs, Forall2 R l rs <-> exists vs, mapR f l = Ok vs /\ forallb c vs = true /\ mapM g vs = Some rs.
Proof.
  intros H l rs. setoid_rewrite mapR_Ok. setoid_rewrite mapM_Some. split.
  - induction 1 as [|x r l rs (v & Hv & Hc & Hg)%H _ (vs & H1 & H2 & H3)].
    + exists []. split; [constructor|]. split; [done|constructor].
    + exists (v :: vs). split; [by constructor|]. cbn. rewrite Hc. split; [done|by constructor].
  - intros (vs & H1 & H2 & H3). revert rs H3. induction H1 as [|x v l vs Hv _ IH]; intros rs H3.
    + apply Forall2_nil_inv_l in H3 as ->. constructor.
    + cbn in H2. apply andb_true_iff in H2 as [Hc H2]. apply Forall2_cons_inv_l in H3 as (r & rs' & Hr & H3 & ->).
      constructor; [apply H; by exists v|by apply IH].
Qed.
Lemma filterb_tags n (l : list xml) : filterb (fun y => (x_tag y =? n)%string) l = filter (fun y => x_tag y = n) l.
Proof.
  apply filterb_filter. intros y _. destruct (String.eqb_spec (x_tag y) n);
  [by rewrite bool_decide_eq_true_2|by rewrite bool_decide_eq_false_2].
Qed.
Lemma filterb_contains n (l : list xml) : filterb (fun y => str_contains n (x_tag y)) l =
  filter (fun y => str_contains n (x_tag y) = true) l.
Proof.
  apply filterb_filter. intros y _. destruct (str_contains n (x_tag y));
  [by rewrite bool_decide_eq_true_2|by rewrite bool_decide_eq_false_2].
Qed.

Definition kinds : list string :=
  ["from environment"; "to environment"; "from technosphere"; "reference product"; "byproduct"]%string.
Lemma kind_iff x t : kind_said x t <-> exists ty, exchange_type x = Ok ty /\ ty ∈ kinds /\ t = read_etype ty.
Proof.
  unfold kind_said, exchange_type.
  assert (forall o ty, lookup_table INPUT_GROUPS o = Ok ty ->
    o = Some "1" /\ ty = "materials/fuels" \/ o = Some "2" /\ ty = "electricity/heat" \/ o = Some "3" /\ ty = "services" \/
    o = Some "4" /\ ty = "from environment" \/ o = Some "5" /\ ty = "from technosphere")%string as HI.
  { intros [g|] ty; cbn [lookup_table]; [|done]. unfold INPUT_GROUPS. cbn [assoc].
    repeat match goal with |- context [(g =? ?n)%string] => destruct (String.eqb_spec g n) as [->|]; [intros <-%Ok_inj; tauto|] end.
    done. }
  assert (forall o ty, lookup_table OUTPUT_GROUPS o = Ok ty ->
    o = Some "0" /\ ty = "reference product" \/ o = Some "2" /\ ty = "byproduct" \/
    o = Some "3" /\ ty = "material for treatment" \/
    o = Some "4" /\ ty = "to environment" \/ o = Some "5" /\ ty = "stock addition")%string as HO.
  { intros [g|] ty; cbn [lookup_table]; [|done]. unfold OUTPUT_GROUPS. cbn [assoc].
    repeat match goal with |- context [(g =? ?n)%string] => destruct (String.eqb_spec g n) as [->|]; [intros <-%Ok_inj; tauto|] end.
    done. }
  assert (forall ty, ty ∈ ["materials/fuels"; "electricity/heat"; "services"; "material for treatment"; "stock addition"]%string ->
    ty ∉ kinds) as HN.
  { apply Forall_forall. apply (bool_decide_unpack _). by vm_compute. }
  destruct (kid "inputGroup" x) as [g|].
  - split.
    + intros [[E ->]|[E ->]]; rewrite E; eexists; (split; [reflexivity|]); split;
        [apply (bool_decide_unpack _); by vm_compute|done|apply (bool_decide_unpack _); by vm_compute|done].
    + intros (ty & H & Hk & ->). apply HI in H.
      destruct H as [[E ->]|[[E ->]|[[E ->]|[[E ->]|[E ->]]]]];
        try (exfalso; revert Hk; apply HN; apply (bool_decide_unpack _); by vm_compute); [left|right]; by rewrite E.
  - unfold text_at. cbn [at_path]. unfold child. destruct (kid "outputGroup" x) as [g|]; cbn [from_option bind option_bind mbind].
    + split.
      * intros [[E ->]|[[E ->]|[E ->]]]; cbn in E; rewrite E; eexists; (split; [reflexivity|]); split; try done;
          apply (bool_decide_unpack _); by vm_compute.
      * intros (ty & H & Hk & ->). apply HO in H.
        destruct H as [[E ->]|[[E ->]|[[E ->]|[[E ->]|[E ->]]]]];
          try (exfalso; revert Hk; apply HN; apply (bool_decide_unpack _); by vm_compute);
          [left|right; left|right; right]; cbn; by rewrite E.
    + split; [by intros [[? _]|[[? _]|[? _]]]|by intros (? & ? & _)].
Qed.

Definition class_values (obj : xml) : result (list (option string)) :=
  if (x_tag obj =? "classification")%string then
    let? system := text_of ["classificationSystem"%string] obj in
    if bool_decide (system = Some "By-product classification"%string) then
      let? v := text_of ["classificationValue"%string] obj in Ok [v]
    else Ok []
  else Ok [].
Definition label (c : bclass) : string :=
  match c with Allocatable => "allocatable product" | Waste => "waste" | Recyclable => "recyclable" end.
Lemma class_label o c : lookup_table BYPRODUCT_CLASSIFICATION o = Ok c <->
  exists b, o = Some (class_name b) /\ c = label b.
Proof.
  split.
  - destruct o as [v|]; cbn [lookup_table]; [|done]. unfold BYPRODUCT_CLASSIFICATION. cbn [assoc].
    destruct (String.eqb_spec v "allocatable product") as [->|]; [intros <-%Ok_inj; by exists Allocatable|].
    destruct (String.eqb_spec v "Waste") as [->|]; [intros <-%Ok_inj; by exists Waste|].
    destruct (String.eqb_spec v "Recyclable") as [->|]; [intros <-%Ok_inj; by exists Recyclable|]. done.
  - intros (b & -> & ->). by destruct b.
Qed.
Lemma class_iff x o : class_said x o <-> byproduct_classification x = Ok (option_map label o).
Proof.
  unfold byproduct_classification, byproduct_values. change (concat_mapR _ (x_kids x)) with (concat_mapR class_values (x_kids x)).
  assert (forall y ys, class_values y = Ok ys -> x_tag y = "classification"%string ->
     at_path ["classificationSystem"%string] y <> None /\
     (text_at ["classificationSystem"%string] y = Some "By-product classification"%string ->
        exists w, text_of ["classificationValue"%string] y = Ok w /\ ys = [w])) as HV.
  { intros y ys H E. unfold class_values in H. rewrite E in H. cbn [String.eqb Ascii.eqb Bool.eqb] in H.
    apply bind_Ok in H as (sy & Hs & H). apply text_of_Ok in Hs as (z & Hz & Hzt). split; [congruence|].
    intros Ht. unfold text_at in Ht. rewrite Hz in Ht. cbn in Ht.
    rewrite bool_decide_eq_true_2 in H by congruence. apply bind_Ok in H as (w & Hw & <-%Ok_inj). by exists w. }
  unfold class_said. split.
  - intros [HF HE]. 
    assert (exists l, concat_mapR class_values (x_kids x) = Ok l /\ Forall (fun w => exists c, o = Some c /\ w = Some (class_name c)) l /\
      (o <> None -> l <> [])) as (l & -> & Hl & Hne).
    { assert (forall y, y ∈ x_kids x -> exists ys, class_values y = Ok ys /\
        Forall (fun w => exists c, o = Some c /\ w = Some (class_name c)) ys) as Hall.
      { intros y Hy. rewrite Forall_forall in HF. specialize (HF y Hy). unfold class_values.
        destruct (String.eqb_spec (x_tag y) "classification") as [E|]; [|exists []; split; [done|constructor]].
        destruct (HF E) as [Hs Hc]. destruct (at_path ["classificationSystem"%string] y) as [z|] eqn:Hz; [|done].
        assert (text_of ["classificationSystem"%string] y = Ok (x_text z)) as -> by (apply text_of_Ok; by exists z).
        cbn [bind]. destruct (decide (x_text z = Some "By-product classification"%string)) as [Et|Et].
        - rewrite bool_decide_eq_true_2 by done. destruct Hc as (c & Ho & Hv).
          { unfold text_at. by rewrite Hz. }
          apply text_of_Some in Hv. rewrite Hv. cbn [bind]. exists [Some (class_name c)]. split; [done|].
          constructor; [by exists c|constructor].
        - rewrite bool_decide_eq_false_2 by done. exists []. split; [done|constructor]. }
      assert (exists l, concat_mapR class_values (x_kids x) = Ok l /\
        Forall (fun w => exists c, o = Some c /\ w = Some (class_name c)) l) as (l & Hl & Hf).
      { clear -Hall. unfold concat_mapR. induction (x_kids x) as [|y ks IH]; [exists []; split; [done|constructor]|].
        destruct (Hall y) as (ys & Hy & Hf); [left|]. destruct IH as (l & Hl & Hf'); [intros; apply Hall; by right|].
        destruct (mapR class_values ks) as [yss|] eqn:Em; [|done]. cbn in Hl. apply Ok_inj in Hl as <-.
        exists (ys ++ concat yss). cbn [mapR]. rewrite Hy. cbn [bind]. rewrite Em. split; [done|by apply Forall_app]. }
      exists l. split; [done|]. split; [done|]. intros (y & Hy & Et & Hs)%HE ->.
      apply Allocation2_proofs.concat_mapR_Ok in Hl as (yss & Hc & H2).
      apply elem_of_list_lookup in Hy as [i Hi]. destruct (Forall2_lookup_l _ _ _ _ _ H2 Hi) as (ys & Hi' & Hv).
      destruct (HV _ _ Hv Et) as [_ Hw]. destruct (Hw Hs) as (w & _ & ->).
      assert (w ∈ concat yss) as Hin; [|rewrite <- Hc in Hin; by apply elem_of_nil in Hin].
      apply elem_of_list_In, in_concat. exists [w]. split; [apply elem_of_list_In; by eapply elem_of_list_lookup_2|by left]. }
    cbn [bind]. destruct l as [|w l].
    + destruct o as [c|]; [by destruct Hne|done].
    + apply Forall_cons in Hl as [(c & -> & ->) Hl].
      assert (forallb (fun v' => bool_decide (v' = Some (class_name c))) l = true) as ->.
      { apply forallb_forall. intros v' Hv'%elem_of_list_In. rewrite Forall_forall in Hl.
        destruct (Hl _ Hv') as (c' & [= <-] & ->). by apply bool_decide_eq_true_2. }
      cbn [assertR bind]. assert (lookup_table BYPRODUCT_CLASSIFICATION (Some (class_name c)) = Ok (label c)) as ->; [|done].
      apply class_label. by exists c.
  - intros (l & Hl & H)%bind_Ok. apply Allocation2_proofs.concat_mapR_Ok in Hl as (yss & Hc & H2).
    assert (Forall (fun w => exists c, o = Some c /\ w = Some (class_name c)) l /\ (o <> None -> l <> [])) as [Hl Hne].
    { destruct l as [|v l].
      - apply Ok_inj in H. split; [constructor|]. by destruct o.
      - apply bind_Ok in H as (tt' & Ha & H). unfold assertR in Ha.
        destruct (forallb _ l) eqn:Hf; [|done]. apply bind_Ok in H as (c & (b & -> & ->)%class_label & H%Ok_inj).
        destruct o as [b'|]; cbn in H; [|done]. assert (b' = b) as -> by (destruct b, b'; cbn in H; congruence).
        split; [|done]. constructor; [by exists b|]. apply Forall_forall. intros v' Hv'%elem_of_list_In.
        rewrite forallb_forall in Hf. specialize (Hf _ Hv'). apply bool_decide_eq_true in Hf as ->. by exists b. }
    split.
    + apply Forall_forall. intros y Hy Et. apply elem_of_list_lookup in Hy as [i Hi].
      destruct (Forall2_lookup_l _ _ _ _ _ H2 Hi) as (ys & Hi' & Hv). destruct (HV _ _ Hv Et) as [Hs Hw].
      split; [done|]. intros (w & Hw' & ->)%Hw. rewrite Forall_forall in Hl. destruct (Hl w) as (c & Ho & ->).
      { rewrite Hc. apply elem_of_list_In, in_concat. exists [w].
        split; [apply elem_of_list_In; by eapply elem_of_list_lookup_2|by left]. }
      exists c. split; [done|]. by apply text_of_Some.
    + intros Ho. destruct l as [|w l]; [by destruct (Hne Ho)|].
      assert (w ∈ concat yss) as Hin by (rewrite <- Hc; left).
      apply elem_of_list_In, in_concat in Hin as (ys & Hys%elem_of_list_In & Hin).
      apply elem_of_list_lookup in Hys as [i Hi]. destruct (Forall2_lookup_r _ _ _ _ _ H2 Hi) as (y & Hi' & Hv).
      exists y. split; [by eapply elem_of_list_lookup_2|]. unfold class_values in Hv.
      destruct (String.eqb_spec (x_tag y) "classification") as [E|]; [|apply Ok_inj in Hv as <-; done].
      split; [done|]. apply bind_Ok in Hv as (sy & Hs & Hv).
      destruct (decide (sy = Some "By-product classification"%string)) as [->|Hn]; [by apply text_of_Some|].
      rewrite bool_decide_eq_false_2 in Hv by done. apply Ok_inj in Hv as <-. done.
Qed.
Lemma class_some x cl : byproduct_classification x = Ok cl -> exists o, cl = option_map label o.
Proof.
  unfold byproduct_classification. intros (l & _ & H)%bind_Ok. destruct l as [|v l].
  - apply Ok_inj in H as <-. by exists None.
  - apply bind_Ok in H as (_ & _ & H). apply bind_Ok in H as (c & (b & _ & ->)%class_label & <-%Ok_inj). by exists (Some b).
Qed.
End extraction_proofs.
