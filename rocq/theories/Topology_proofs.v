From Verif Require Import Base Topology Spec_Topology.

Lemma places_known t n : known t n -> exists f, places t n = Ok f.
Proof.
  unfold places, known. intros [->|[f Hf]]; [eexists; reflexivity|].
  destruct (n =? "RoW")%string; [eexists; reflexivity|]. rewrite Hf. eexists; reflexivity.
Qed.
Lemma places_Ok t n f : places t n = Ok f ->
  (n = "RoW"%string /\ f = ∅) \/ (n <> "RoW"%string /\ t !! n = Some f).
Proof.
  unfold places. destruct (String.eqb_spec n "RoW") as [->|Hn].
  - intros H%Ok_inj. left. split; [reflexivity|done].
  - destruct (t !! n); cbn; [|discriminate]. intros ->%Ok_inj. right. split; [done|done].
Qed.
Lemma places_name t n f : n <> "RoW"%string -> t !! n = Some f -> places t n = Ok f.
Proof.
  intros Hn Hf. unfold places. destruct (String.eqb_spec n "RoW"); [done|]. rewrite Hf. reflexivity.
Qed.
Lemma places_row t : places t "RoW" = Ok ∅.
Proof. reflexivity. Qed.

Lemma mapR_places t l fs : mapR (places t) l = Ok fs -> forall x, x ∈ ⋃ fs <-> covered t l x.
Proof.
  intros H%mapR_Ok x. rewrite elem_of_union_list. split.
  - intros (f & Hf & Hx). apply elem_of_list_lookup in Hf as [i Hf].
    destruct (Forall2_lookup_r _ _ _ _ _ H Hf) as (n & Hn & HP).
    apply places_Ok in HP as [[_ ->]|[Hne HP]]; [set_solver|].
    exists n, f. eauto using elem_of_list_lookup_2.
  - intros (n & f & Hn & Hne & Hf & Hx). apply elem_of_list_lookup in Hn as [i Hn].
    destruct (Forall2_lookup_l _ _ _ _ _ H Hn) as (f' & Hf' & HP).
    rewrite (places_name t n f) in HP by done. apply Ok_inj in HP as <-.
    exists f. eauto using elem_of_list_lookup_2.
Qed.
Lemma mapR_places_known t l : Forall (known t) l -> exists fs, mapR (places t) l = Ok fs.
Proof.
  induction 1 as [|n l Hn _ (fs & IH)]; [eexists; reflexivity|].
  destruct (places_known t n Hn) as [f Hf]. cbn. rewrite Hf. cbn. rewrite IH.
  eexists; reflexivity.
Qed.

Lemma union_of_Ok t l u : union_of t l = Ok u -> forall x, x ∈ u <-> covered t l x.
Proof.
  unfold union_of. intros (fs & Hfs & H)%bind_Ok. destruct fs as [|f fs]; [discriminate|].
  apply Ok_inj in H as <-. by apply mapR_places.
Qed.
Lemma union_of_total t l : l <> [] -> Forall (known t) l -> exists u, union_of t l = Ok u.
Proof.
  intros Hne Hl. destruct (mapR_places_known t l Hl) as [fs Hfs]. unfold union_of. rewrite Hfs. cbn.
  destruct fs; [|eexists; reflexivity]. destruct l; [done|].
  apply mapR_length in Hfs. discriminate.
Qed.
Lemma subtracted_Ok t f l f' : subtracted t f l = Ok f' ->
  forall x, x ∈ f' <-> x ∈ f /\ ~ covered t l x.
Proof.
  unfold subtracted. destruct l as [|n l].
  - intros <-%Ok_inj x. split; [|tauto]. intros Hx. split; [done|]. intros (? & ? & H & _). set_solver.
  - intros (u & Hu & <-%Ok_inj)%bind_Ok x. rewrite elem_of_difference.
    by rewrite (union_of_Ok t (n :: l) u Hu x).
Qed.
Lemma subtracted_total t f l : Forall (known t) l -> exists f', subtracted t f l = Ok f'.
Proof.
  intros Hl. unfold subtracted. destruct l as [|n l]; [eexists; reflexivity|].
  destruct (union_of_total t (n :: l)) as [u Hu]; [done|done|]. rewrite Hu. eexists; reflexivity.
Qed.

Lemma resolve_row_exact t others r : resolve_row t others = Ok r ->
  forall x, x ∈ r <-> (exists g, t !! "GLO"%string = Some g /\ x ∈ g) /\ ~ covered t others x.
Proof.
  unfold resolve_row. intros (g & Hg & H)%bind_Ok. apply bind_Ok in H as (u & Hu & H).
  apply Ok_inj in H as <-. intros x. rewrite elem_of_difference, (union_of_Ok t others u Hu).
  apply places_Ok in Hg as [[? _]|[_ Hg]]; [discriminate|]. rewrite Hg. naive_solver.
Qed.
Lemma resolve_row_total t others : others <> [] -> Forall (known t) others ->
  is_Some (t !! "GLO"%string) -> exists r, resolve_row t others = Ok r.
Proof.
  intros Hne Ho [g Hg]. unfold resolve_row. rewrite (places_name t "GLO" g) by done. cbn.
  destruct (union_of_total t others) as [u Hu]; [done..|]. rewrite Hu. eexists; reflexivity.
Qed.
Lemma resolve_row_nothing t : is_Some (t !! "GLO"%string) -> resolve_row t [] = Err TypeError.
Proof. intros [g Hg]. unfold resolve_row. rewrite (places_name t "GLO" g) by done. reflexivity. Qed.

(** The part of [contains] shared by both branches. *)
Definition faces_of (t : topo) (row : option faces) (p : place) : result faces :=
  match p with
  | PFaces f => Ok f
  | PName n => if (n =? "RoW")%string then Ok (default ∅ row) else places t n
  end.
Lemma faces_of_occupies t row p f : occupies t row p f -> faces_of t row p = Ok f.
Proof.
  destruct 1 as [n f Hn Hf|r ->|f]; unfold faces_of; [|reflexivity..].
  destruct (String.eqb_spec n "RoW"); [done|]. by apply places_name.
Qed.

Lemma contains_name t parent f n cf sub row :
  occupies t row parent f -> (parent = PName "RoW" -> f <> ∅) ->
  n <> "RoW"%string -> t !! n = Some cf -> Forall (known t) sub ->
  exists b, contains t parent (PName n) sub row = Ok b /\
    (b = true <-> forall x, x ∈ cf -> x ∈ f /\ ~ covered t sub x).
Proof.
  intros Hp Hrow Hn Hcf Hsub. unfold contains.
  destruct (String.eqb_spec n "RoW") as [|_]; [done|]. rewrite andb_false_r. cbn [andb orb].
  replace (bool_decide (parent = PName "RoW") && bool_decide (default ∅ row = ∅)) with false.
  2:{ symmetry. apply andb_false_iff. case_bool_decide as E; [right|by left].
      apply bool_decide_eq_false. subst. inversion Hp; subst; [done|]. cbn. by apply Hrow. }
  fold (faces_of t row parent). rewrite (faces_of_occupies _ _ _ _ Hp). cbn [bind].
  destruct (subtracted_total t f sub Hsub) as [f' Hf']. rewrite Hf'. cbn [bind].
  rewrite (places_name t n cf) by done. cbn [bind]. eexists; split; [reflexivity|].
  rewrite bool_decide_eq_true. pose proof (subtracted_Ok _ _ _ _ Hf'). set_solver.
Qed.
Lemma contains_faces t parent f c sub row :
  occupies t row parent f -> Forall (known t) sub ->
  exists b, contains t parent (PFaces c) sub row = Ok b /\
    (b = true <-> c <> ∅ /\ forall x, x ∈ c -> x ∈ f /\ ~ covered t sub x).
Proof.
  intros Hp Hsub. unfold contains. case_bool_decide as E.
  { eexists; split; [reflexivity|]. naive_solver. }
  fold (faces_of t row parent). rewrite (faces_of_occupies _ _ _ _ Hp). cbn [bind].
  destruct (subtracted_total t f sub Hsub) as [f' Hf']. rewrite Hf'. cbn [bind].
  eexists; split; [reflexivity|].
  rewrite bool_decide_eq_true. pose proof (subtracted_Ok _ _ _ _ Hf'). set_solver.
Qed.
Lemma contains_row t parent sub row :
  contains t parent (PName "RoW") sub row
  = Ok (bool_decide (parent = PName "GLO" /\ sub = [])).
Proof.
  unfold contains. cbn [String.eqb Ascii.eqb Bool.eqb]. rewrite andb_true_r.
  repeat case_bool_decide; naive_solver.
Qed.
Lemma contains_unresolved t n sub row : default ∅ row = ∅ ->
  contains t (PName "RoW") (PName n) sub row = Ok false.
Proof.
  intros H. unfold contains. rewrite H.
  replace (bool_decide (PName "RoW" = PName "GLO")) with false by reflexivity. cbn [andb].
  rewrite !bool_decide_eq_true_2 by done. by rewrite orb_true_r.
Qed.

Lemma contains_refl t n f row : occupies t row (PName n) f -> n <> "RoW"%string ->
  contains t (PName n) (PName n) [] row = Ok true.
Proof.
  intros Hp Hn. inversion Hp; subst; [|done].
  destruct (contains_name t (PName n) f n f [] row) as (b & -> & Hb); [done|naive_solver|done..|by constructor|].
  f_equal. apply Hb. intros x Hx. split; [done|]. intros (? & ? & H & _). set_solver.
Qed.
Lemma contains_trans t a b c row :
  a <> PName "RoW" -> b <> "RoW"%string -> c <> "RoW"%string ->
  contains t a (PName b) [] row = Ok true -> contains t (PName b) (PName c) [] row = Ok true ->
  contains t a (PName c) [] row = Ok true.
Proof.
  intros Ha Hb Hc. unfold contains.
  destruct (String.eqb_spec b "RoW"); [done|]. destruct (String.eqb_spec c "RoW"); [done|].
  rewrite !andb_false_r. cbn [orb andb].
  rewrite !(bool_decide_eq_false_2 (a = PName "RoW")) by done.
  rewrite !(bool_decide_eq_false_2 (PName b = PName "RoW")) by naive_solver. cbn [andb].
  intros (fa & Hfa & H1)%bind_Ok (fb & Hfb & H2)%bind_Ok. rewrite Hfa. cbn [bind subtracted].
  unfold subtracted in *. cbn [bind] in *. rewrite Hfb in H1. cbn [bind] in H1.
  apply bind_Ok in H2 as (fc & Hfc & H2). rewrite Hfc. cbn [bind].
  apply Ok_inj in H1, H2. apply bool_decide_eq_true in H1, H2. f_equal. apply bool_decide_eq_true. set_solver.
Qed.

Lemma contains_glo t n f row : glo_is_everything t -> t !! n = Some f ->
  contains t (PName "GLO") (PName n) [] row = Ok true.
Proof.
  intros (g & Hg & Hall) Hf. destruct (String.eqb_spec n "RoW") as [->|Hn].
  { rewrite contains_row. by rewrite bool_decide_eq_true_2. }
  destruct (contains_name t (PName "GLO") g n f [] row) as (b & -> & Hb); [by constructor|done|done|done|by constructor|].
  f_equal. apply Hb. intros x Hx. split; [by apply (Hall n f)|]. intros (? & ? & H & _). set_solver.
Qed.

(** [contained] *)
Lemma contained_iff t loc sub row s n cf :
  contained t loc false sub row = Ok s ->
  n <> "RoW"%string -> t !! n = Some cf -> cf <> ∅ ->
  n ∈ s <-> contains t loc (PName n) sub row = Ok true.
Proof.
  intros H Hn Hcf Hne. unfold contained in H. unfold contains.
  destruct (String.eqb_spec n "RoW"); [done|]. rewrite andb_false_r. cbn [andb orb].
  case_bool_decide as E1.
  - subst loc. case_bool_decide as E2; cbn [andb] in H.
    + apply Ok_inj in H as <-. subst row. cbn [default]. rewrite bool_decide_eq_true_2 by done.
      split; [set_solver|discriminate].
    + cbn [bind String.eqb Ascii.eqb Bool.eqb] in H |- *. destruct row as [r|]; [cbn [default] in *|done].
      change (default ∅ (Some r)) with r in *.
      apply bind_Ok in H as (f' & Hf' & H). rewrite Hf'. cbn [bind].
      destruct (decide (r = ∅)) as [E4|E4].
      { rewrite (bool_decide_eq_true_2 (r = ∅)) by done. split; [|discriminate].
        pose proof (subtracted_Ok _ _ _ _ Hf') as HS.
        rewrite bool_decide_eq_true_2 in H by set_solver. apply Ok_inj in H as <-. set_solver. }
      rewrite (bool_decide_eq_false_2 (r = ∅)) by done.
      destruct (decide (f' = ∅)) as [E3|E3].
      * rewrite bool_decide_eq_true_2 in H by done.
        rewrite (places_name t n cf) by done. apply Ok_inj in H as <-. cbn [bind].
        split; [set_solver|]. intros [= Hb%bool_decide_eq_true]. set_solver.
      * rewrite (bool_decide_eq_false_2 (f' = ∅)) in H by done.
        rewrite (places_name t n cf) by done. cbn [bind].
        assert (n ∈ s <-> cf ⊆ f') as ->.
        { transitivity (n ∈ dom (filter (fun kv : string * faces =>
            kv.2 ⊆ f' /\ ~ (PName kv.1 = PName "RoW" /\ false = true)) t)).
          - match type of H with (if ?c then _ else _) = _ => destruct c end;
              apply Ok_inj in H as <-; set_solver.
          - rewrite elem_of_dom. unfold is_Some. setoid_rewrite map_filter_lookup_Some. cbn. naive_solver. }
        split; [intros; f_equal; by apply bool_decide_eq_true|by intros [= ?%bool_decide_eq_true]].
  - cbn [andb] in H |- *. apply bind_Ok in H as (f & Hf & H). apply bind_Ok in H as (f' & Hf' & H).
    fold (faces_of t row loc) in Hf |- *. rewrite Hf. cbn [bind]. rewrite Hf'. cbn [bind].
    rewrite (places_name t n cf) by done. cbn [bind].
    transitivity (cf ⊆ f').
    2:{ split; [intros; f_equal; by apply bool_decide_eq_true|by intros [= ?%bool_decide_eq_true]]. }
    case_bool_decide as E3.
    + apply Ok_inj in H as <-. set_solver.
    + transitivity (n ∈ dom (filter (fun kv : string * faces =>
            kv.2 ⊆ f' /\ ~ (PName kv.1 = loc /\ false = true)) t)).
      * match type of H with (if ?c then _ else _) = _ => destruct c end;
          apply Ok_inj in H as <-; set_solver.
      * rewrite elem_of_dom. unfold is_Some. setoid_rewrite map_filter_lookup_Some. cbn. naive_solver.
Qed.

Lemma contained_names t loc ex sub row s n :
  contained t loc ex sub row = Ok s -> n ∈ s -> n = "RoW"%string \/ is_Some (t !! n).
Proof.
  unfold contained. intros H Hn.
  destruct (_ && _); [apply Ok_inj in H as <-; set_solver|].
  apply bind_Ok in H as (f & _ & H). apply bind_Ok in H as (f' & _ & H).
  case_bool_decide; [apply Ok_inj in H as <-; set_solver|].
  assert (n = "RoW"%string \/ n ∈ dom t) as [?|?]; [|by left|right; by apply elem_of_dom].
  match type of H with (if ?c then _ else _) = _ => destruct c end; apply Ok_inj in H as <-.
  - apply elem_of_union in Hn as [Hn|Hn]; [left; set_solver|right].
    by apply (dom_filter_subseteq _ t) in Hn.
  - right. by apply (dom_filter_subseteq _ t) in Hn.
Qed.

Lemma contained_row t loc sub row s :
  contained t loc false sub row = Ok s -> t !! "RoW"%string = None ->
  "RoW"%string ∈ s <->
    match row with
    | None => contains t loc (PName "RoW") sub None = Ok true /\
              (exists g, t !! "GLO"%string = Some g /\ g <> ∅)
    | Some r => contains t loc (PFaces r) sub row = Ok true
    end.
Proof.
  intros H Ht. rewrite contains_row. unfold contained in H. unfold contains.
  assert (forall P `{forall kv, Decision (P kv)},
    "RoW"%string ∉ dom (filter P t)) as Hnot.
  { intros P ? Hd. apply (dom_filter_subseteq _ t) in Hd. apply not_elem_of_dom in Ht. done. }
  destruct row as [r|].
  - rewrite (bool_decide_eq_false_2 (Some r = None)), andb_false_r in H by done.
    fold (faces_of t (Some r) loc) in H |- *.
    apply bind_Ok in H as (f & Hf & H). apply bind_Ok in H as (f' & Hf' & H).
    rewrite Hf. cbn [bind]. rewrite Hf'. cbn [bind]. rewrite andb_false_r, negb_true_r, andb_true_r in H || idtac.
    destruct (decide (r = ∅)) as [->|Hr].
    { rewrite (bool_decide_eq_true_2 (∅ = ∅)) by done. split; [|discriminate].
      case_bool_decide; [apply Ok_inj in H as <-; set_solver|].
      rewrite (bool_decide_eq_false_2 (∅ <> ∅)) in H by (intros Hc; by apply Hc).
      rewrite ?andb_false_r in H. cbn in H. apply Ok_inj in H as <-. by intros ?%Hnot. }
    rewrite (bool_decide_eq_false_2 (r = ∅)) by done.
    transitivity (r ⊆ f').
    2:{ split; [intros; f_equal; by apply bool_decide_eq_true|by intros [= ?%bool_decide_eq_true]]. }
    case_bool_decide as E; [apply Ok_inj in H as <-; set_solver|].
    rewrite (bool_decide_eq_true_2 (r <> ∅)) in H by done.
    rewrite !andb_false_r in H. cbn [andb negb] in H. rewrite andb_true_r, orb_false_r in H.
    case_bool_decide as E2; apply Ok_inj in H as <-; [set_solver|].
    split; [by intros ?%Hnot|done].
  - rewrite (bool_decide_eq_true_2 (None = None)), andb_true_r in H by done.
    case_bool_decide as E1.
    { subst loc. apply Ok_inj in H as <-. rewrite bool_decide_eq_false_2 by naive_solver. set_solver. }
    apply bind_Ok in H as (f & Hf & H). apply bind_Ok in H as (f' & Hf' & H).
    destruct (decide (loc = PName "GLO" /\ sub = [])) as [[-> ->]|Hno].
    + cbn [String.eqb Ascii.eqb Bool.eqb] in Hf. apply places_Ok in Hf as [[? _]|[_ Hf]]; [discriminate|].
      apply Ok_inj in Hf' as <-. rewrite Hf.
      case_bool_decide as E3; apply Ok_inj in H as <-.
      * split; [set_solver|]. intros (_ & g & [= <-] & ?). done.
      * split; [|set_solver]. intros _. split; [|naive_solver]. by rewrite bool_decide_eq_true_2.
    + rewrite bool_decide_eq_false_2 by done. split; [|intros [[=] _]].
      case_bool_decide; [apply Ok_inj in H as <-; set_solver|].
      cbn [orb] in H. rewrite andb_true_r in H.
      replace (bool_decide (loc = PName "GLO") && bool_decide (sub = [])) with false in H.
      2:{ symmetry. apply andb_false_iff. repeat case_bool_decide; naive_solver. }
      apply Ok_inj in H as <-. by intros ?%Hnot.
Qed.

Lemma contained_exclude t n sub row : t !! "RoW"%string = None ->
  contained t (PName n) true sub row =
  fmapR (fun s => s ∖ {[n]}) (contained t (PName n) false sub row).
Proof.
  intros Ht. unfold contained. destruct (_ && _); cbn [fmapR bind]; [f_equal; set_solver|].
  destruct (if (n =? "RoW")%string then _ else _) as [f|]; cbn [bind fmapR]; [|reflexivity].
  destruct (subtracted t f sub) as [f'|]; cbn [bind fmapR]; [|reflexivity].
  case_bool_decide as E; cbn [fmapR]; [f_equal; set_solver|].
  set (A := dom (filter _ t)). set (B := dom (filter _ t)).
  assert (A = B ∖ {[n]}) as HA.
  { apply set_eq. intros k. unfold A, B. rewrite elem_of_difference, !elem_of_dom. unfold is_Some.
    setoid_rewrite map_filter_lookup_Some. cbn. rewrite elem_of_singleton.
    split; [|naive_solver]. intros (f0 & Hk & Hs & Hne). split; [exists f0; naive_solver|].
    intros ->. by apply Hne. }
  rewrite !andb_false_r, !andb_true_r. cbn [negb]. rewrite ?andb_true_r.
  assert ("RoW"%string ∉ B) as HB.
  { intros Hd. unfold B in Hd. apply (dom_filter_subseteq _ t) in Hd. by apply not_elem_of_dom in Ht. }
  destruct (decide (n = "RoW"%string)) as [->|Hn].
  - rewrite (bool_decide_eq_true_2 (PName "RoW" = PName "RoW")) by done.
    rewrite (bool_decide_eq_false_2 (PName "RoW" = PName "GLO")) by done. cbn [andb negb].
    rewrite !orb_false_r. destruct row as [r|]; cbn.
    + rewrite !andb_false_r. rewrite andb_true_r || idtac.
      match goal with |- context [if ?c then Ok _ else Ok B] => destruct c end; cbn [fmapR]; f_equal; set_solver.
    + f_equal. set_solver.
  - rewrite (bool_decide_eq_false_2 (PName n = PName "RoW")) by naive_solver. cbn [andb negb].
    destruct row as [r|]; rewrite ?andb_true_r;
      match goal with |- context [if ?c then Ok _ else Ok B] => destruct c end; cbn [fmapR]; f_equal; set_solver.
Qed.

(** Overlaps *)
Lemma sizes_cover (fs : list faces) : (size (⋃ fs) <= sum_list (map size fs))%nat.
Proof.
  induction fs as [|f fs IH]; cbn; [by rewrite size_empty|].
  pose proof (size_union_alt f (⋃ fs)) as E. rewrite E.
  assert (size (⋃ fs ∖ f) <= size (⋃ fs))%nat by (apply subseteq_size; set_solver). lia.
Qed.
Lemma sizes_disjoint (fs : list faces) :
  sum_list (map size fs) = size (⋃ fs) <->
  forall i j a b, i <> j -> fs !! i = Some a -> fs !! j = Some b -> a ## b.
Proof.
  induction fs as [|f fs IH]; cbn.
  { rewrite size_empty. split; [intros _ i j a b _ H; done|done]. }
  pose proof (size_union_alt f (⋃ fs)) as E. rewrite E.
  pose proof (sizes_cover fs) as Hc.
  assert (size (⋃ fs ∖ f) <= size (⋃ fs))%nat as Hd by (apply subseteq_size; set_solver).
  split.
  - intros H. assert (sum_list (map size fs) = size (⋃ fs)) as H1 by lia.
    assert (size (⋃ fs ∖ f) = size (⋃ fs)) as H2 by lia.
    assert (f ## ⋃ fs) as H3.
    { intros x Hx Hu. assert (size (⋃ fs ∖ f) < size (⋃ fs))%nat; [|lia].
      apply subset_size. set_solver. }
    assert (forall j b, fs !! j = Some b -> f ## b) as H4.
    { intros j b Hb x Hx Hxb. apply (H3 x Hx). apply elem_of_union_list. exists b.
      split; [by eapply elem_of_list_lookup_2|done]. }
    rewrite IH in H1. intros [|i] [|j] a b Hij Ha Hb; cbn in Ha, Hb; [done|..].
    + injection Ha as <-. by eapply H4.
    + injection Hb as <-. symmetry. by eapply H4.
    + eapply (H1 i j); [lia|done|done].
  - intros H.
    assert (sum_list (map size fs) = size (⋃ fs)) as H1.
    { apply IH. intros i j a b Hij Ha Hb. apply (H (S i) (S j) a b); [lia|done|done]. }
    assert (⋃ fs ∖ f = ⋃ fs) as ->; [|lia].
    apply set_eq. intros x. rewrite elem_of_difference. split; [tauto|]. intros Hx. split; [done|].
    intros Hf. apply elem_of_union_list in Hx as (b & Hb & Hx).
    apply elem_of_list_lookup in Hb as [j Hb]. apply (H 0%nat (S j) f b) with x; [lia|done..].
Qed.
Lemma overlaps_spec t group : group <> [] -> Forall (known t) group ->
  exists b, overlaps t group = Ok (Some b) /\ (b = false <-> apart t group).
Proof.
  intros Hne Hk. destruct (mapR_places_known t group Hk) as [fs Hfs].
  exists (negb (bool_decide (sum_list (map size fs) = size (⋃ fs : faces)))).
  unfold overlaps. rewrite Hfs. destruct group as [|n group]; [done|]. split; [reflexivity|].
  rewrite negb_false_iff, bool_decide_eq_true, sizes_disjoint.
  apply mapR_Ok in Hfs. unfold apart. split.
  - intros H i j a b fa fb Hij Ha Hb Hna Hnb Hfa Hfb.
    destruct (Forall2_lookup_l _ _ _ _ _ Hfs Ha) as (fa' & Ha' & Hpa).
    destruct (Forall2_lookup_l _ _ _ _ _ Hfs Hb) as (fb' & Hb' & Hpb).
    rewrite (places_name t a fa) in Hpa by done. rewrite (places_name t b fb) in Hpb by done.
    apply Ok_inj in Hpa as <-. apply Ok_inj in Hpb as <-. eauto.
  - intros H i j fa fb Hij Ha Hb.
    destruct (Forall2_lookup_r _ _ _ _ _ Hfs Ha) as (a & Ha' & Hpa).
    destruct (Forall2_lookup_r _ _ _ _ _ Hfs Hb) as (b & Hb' & Hpb).
    apply places_Ok in Hpa as [[_ ->]|[Hna Hpa]]; [set_solver|].
    apply places_Ok in Hpb as [[_ ->]|[Hnb Hpb]]; [set_solver|]. by eapply (H i j a b).
Qed.

(** Constructor *)
Lemma make_topology_steps l data t :
  foldR (fun (data : topo) (of : string * string) => let? f := getkey of.2 (data !! of.2) in Ok (<[of.1 := f]> data)) data l
    = Ok t ->
  (forall n, n ∉ map fst l -> t !! n = (data : topo) !! n).
Proof.
  revert data. induction l as [|[o fx] l IH]; intros data H n Hn; cbn in H.
  { by apply Ok_inj in H as <-. }
  apply bind_Ok in H as (d & H1 & H). apply bind_Ok in H1 as (f & Hf & <-%Ok_inj).
  rewrite (IH _ H n) by (cbn in Hn; set_solver). cbn in Hn.
  rewrite lookup_insert_ne; [done|]. cbn. set_solver.
Qed.
Lemma make_topology_alias l data t :
  foldR (fun (data : topo) (of : string * string) => let? f := getkey of.2 (data !! of.2) in Ok (<[of.1 := f]> data)) data l
    = Ok t ->
  NoDup (map fst l) ->
  (forall i o fx, l !! i = Some (o, fx) -> forall j fx', (i <= j)%nat -> l !! j = Some (fx, fx') -> False) ->
  forall o fx, (o, fx) ∈ l -> exists f, t !! o = Some f /\ t !! fx = Some f.
Proof.
  revert data. induction l as [|[o0 fx0] l IH]; intros data H Hnd Hord o fx Hin; [set_solver|].
  cbn in H. apply bind_Ok in H as (d & H1 & H). apply bind_Ok in H1 as (f & Hf & <-%Ok_inj).
  cbn in Hnd. apply NoDup_cons in Hnd as [Hni Hnd].
  apply elem_of_cons in Hin as [[= -> ->]|Hin].
  - exists f. cbn in *. destruct (data !! fx0) as [f0|] eqn:E; cbn in Hf; [|discriminate].
    apply Ok_inj in Hf as ->.
    rewrite (make_topology_steps l _ t H o0) by done. rewrite lookup_insert. split; [done|].
    assert (fx0 ∉ map fst l) as Hfx.
    { intros Hc. apply elem_of_list_fmap in Hc as ([o' fx'] & Heq & Hc). cbn in Heq. subst o'.
      apply elem_of_list_lookup in Hc as [j Hj]. exact (Hord 0%nat o0 fx0 eq_refl (S j) fx' ltac:(lia) Hj). }
    rewrite (make_topology_steps l _ t H fx0) by done.
    destruct (decide (o0 = fx0)) as [->|?]; [by rewrite lookup_insert|by rewrite lookup_insert_ne].
  - apply (IH _ H Hnd); [|done]. intros i o' fx' Hi j fx'' Hj Hl.
    exact (Hord (S i) o' fx' Hi (S j) fx'' ltac:(lia) Hl).
Qed.
Lemma make_topology_spec cg all t : make_topology cg all = Ok t ->
  t !! "GLO"%string = Some all /\
  (forall n, n <> "GLO"%string -> n ∉ map fst compatibility -> t !! n = cg !! n) /\
  (forall o fx, (o, fx) ∈ compatibility -> exists f, t !! o = Some f /\ t !! fx = Some f).
Proof.
  intros H. unfold make_topology in H. split; [|split].
  - rewrite (make_topology_steps _ _ _ H); [apply lookup_insert|].
    apply (bool_decide_eq_true_1 _). vm_compute. reflexivity.
  - intros n Hn Hc. rewrite (make_topology_steps _ _ _ H) by done. by rewrite lookup_insert_ne.
  - apply (make_topology_alias _ _ _ H).
    + apply (bool_decide_eq_true_1 _). vm_compute. reflexivity.
    + assert (forallb (fun i => match compatibility !! i with Some (_, fx) =>
          forallb (fun p => negb (p.1 =? fx)%string) (drop i compatibility) | None => true end)
          (seq 0 (length compatibility)) = true) as Hall by (vm_compute; reflexivity).
      intros i o fx Hi j fx' Hij Hj. rewrite forallb_forall in Hall.
      specialize (Hall i). rewrite Hi in Hall.
      assert (forallb (fun p => negb (p.1 =? fx)%string) (drop i compatibility) = true) as H2.
      { apply Hall. apply in_seq. apply lookup_lt_Some in Hi. lia. }
      rewrite forallb_forall in H2. specialize (H2 (fx, fx')). cbn in H2.
      rewrite String.eqb_refl in H2. discriminate H2.
      apply elem_of_list_In, elem_of_list_lookup. exists (j - i)%nat. rewrite lookup_drop.
      by replace (i + (j - i))%nat with j by lia.
Qed.

(** Order *)
Lemma key_geb_total a b : key_geb a b = true \/ key_geb b a = true.
Proof.
  unfold key_geb. destruct (Nat.lt_trichotomy a.1 b.1) as [H|[H|H]].
  - right. apply orb_true_iff. left. by apply Nat.ltb_lt.
  - rewrite H, Nat.eqb_refl. destruct (str_leb_total a.2 b.2) as [E|E]; rewrite E; rewrite ?orb_true_r; auto.
  - left. apply orb_true_iff. left. by apply Nat.ltb_lt.
Qed.
Lemma key_geb_trans a b c : key_geb a b = true -> key_geb b c = true -> key_geb a c = true.
Proof.
  unfold key_geb. rewrite !orb_true_iff, !andb_true_iff, !Nat.ltb_lt, !Nat.eqb_eq.
  intros [H1|[H1 H2]] [H3|[H3 H4]]; [left; lia..|right]. split; [lia|]. eapply str_leb_trans; eauto.
Qed.
Lemma key_geb_antisym a b : key_geb a b = true -> key_geb b a = true -> a = b.
Proof.
  unfold key_geb. rewrite !orb_true_iff, !andb_true_iff, !Nat.ltb_lt, !Nat.eqb_eq.
  destruct a as [n s], b as [m u]; cbn. intros [H1|[H1 H2]] [H3|[H3 H4]]; try lia.
  f_equal; [lia|]. by apply str_leb_antisym.
Qed.

Definition known_sized (t : topo) (row : option faces) (n : string) : Prop :=
  exists f, occupies t row (PName n) f.

Lemma location_size_occupies t row n f : occupies t row (PName n) f ->
  location_size t row n = Ok (size f).
Proof.
  unfold location_size. intros H. inversion H; subst.
  - destruct (String.eqb_spec n "RoW"); [done|]. cbn [andb]. by rewrite (places_name t n f).
  - cbn [String.eqb Ascii.eqb Bool.eqb andb]. destruct (decide (f = ∅)) as [->|Hne].
    + rewrite bool_decide_eq_false_2; [reflexivity|]. cbn. tauto.
    + rewrite bool_decide_eq_true_2 by done. reflexivity.
Qed.

Lemma ordered_ok t row locs : Forall (known_sized t row) locs ->
  exists l, ordered_dependencies t locs row = Ok l /\
    NoDup l /\ (forall n, n ∈ l <-> n ∈ locs) /\
    StronglySorted (before_in_order t row) l.
Proof.
  intros Hk. unfold ordered_dependencies.
  set (base := isort str_leb (remove_dups locs)).
  assert (forall n, n ∈ base <-> n ∈ locs) as Hbase.
  { intros n. unfold base. by rewrite elem_of_isort, elem_of_remove_dups. }
  assert (NoDup base) as Hnd.
  { unfold base. rewrite isort_perm. apply NoDup_remove_dups. }
  assert (exists keyed, mapR (fun l => let? n := location_size t row l in Ok (n, l)) base = Ok keyed
    /\ map snd keyed = base
    /\ Forall (fun nl => exists f, occupies t row (PName nl.2) f /\ size f = nl.1) keyed)
    as (keyed & -> & Hs & Hf).
  { assert (Forall (known_sized t row) base) as Hkb.
    { apply Forall_forall. intros n Hn. eapply Forall_forall in Hk; [exact Hk|]. by apply Hbase. }
    clear -Hkb. induction Hkb as [|n base [f Hf] _ (keyed & IH & Hs & HF)].
    - exists []. split_and!; [reflexivity|reflexivity|constructor].
    - exists ((size f, n) :: keyed). cbn [mapR]. rewrite (location_size_occupies _ _ _ _ Hf).
      cbn [bind]. rewrite IH. cbn. rewrite Hs. split_and!; [reflexivity|reflexivity|].
      constructor; [|done]. exists f. done. }
  cbn [bind]. eexists; split; [reflexivity|].
  assert (map snd (isort key_geb keyed) ≡ₚ base) as Hperm.
  { rewrite <- Hs. apply (Permutation_map snd). apply isort_perm. }
  split_and!.
  - by rewrite Hperm.
  - intros n. rewrite Hperm. apply Hbase.
  - pose proof (isort_sorted key_geb key_geb_total key_geb_trans keyed) as HS.
    assert (Forall (fun nl => exists f, occupies t row (PName nl.2) f /\ size f = nl.1) (isort key_geb keyed)) as HF.
    { by rewrite isort_perm. }
    clear -HS HF. revert HF. induction HS as [|[n a] l HS IH Hle]; intros HF; [constructor|]. cbn [map]. apply Forall_cons in HF as [(fa & Ha & Hsa) HF].
    constructor; [by apply IH|]. apply Forall_forall. intros b Hb.
    apply elem_of_list_fmap in Hb as ([m b'] & Hb' & Hb). cbn in Hb'. subst b'.
    eapply Forall_forall in Hle; [|exact Hb]. eapply Forall_forall in HF; [|exact Hb].
    destruct HF as (fb & Hfb & Hsb). cbn [fst snd] in *. exists fa, fb. split_and!; [done|done|].
    unfold key_geb in Hle. cbn [fst snd] in Hle.
    rewrite orb_true_iff, andb_true_iff, Nat.ltb_lt, Nat.eqb_eq in Hle. subst. naive_solver.
Qed.

Lemma ordered_unique t row locs1 locs2 :
  (forall n, n ∈ locs1 <-> n ∈ locs2) ->
  ordered_dependencies t locs1 row = ordered_dependencies t locs2 row.
Proof.
  intros H. unfold ordered_dependencies. do 2 f_equal.
  apply (sorted_perm_eq str_leb); [apply str_leb_antisym|apply isort_sorted; [apply str_leb_total|apply str_leb_trans]..|].
  rewrite !isort_perm. apply NoDup_Permutation; [apply NoDup_remove_dups..|].
  intros n. by rewrite !elem_of_remove_dups.
Qed.

Lemma ordered_containing_first t row locs l i j a b fa fb :
  ordered_dependencies t locs row = Ok l -> Forall (known_sized t row) locs ->
  l !! i = Some a -> l !! j = Some b ->
  occupies t row (PName a) fa -> occupies t row (PName b) fb -> fb ⊂ fa -> (i < j)%nat.
Proof.
  intros H Hk Hi Hj Ha Hb Hsub. destruct (ordered_ok t row locs Hk) as (l' & H' & Hnd & _ & HS).
  rewrite H in H'. apply Ok_inj in H' as ->.
  assert (forall p f f', occupies t row p f -> occupies t row p f' -> f = f') as Hfun.
  { intros p f f' H1 H2. inversion H1; subst; inversion H2; subst; congruence. }
  assert (size fb < size fa)%nat as Hlt by by apply subset_size.
  destruct (Nat.lt_trichotomy i j) as [?|[->|Hji]]; [done|..].
  - rewrite Hi in Hj. injection Hj as ->. rewrite (Hfun _ _ _ Ha Hb) in Hlt. lia.
  - exfalso. clear H Hk Hnd. revert i j Hi Hj Hji. induction HS as [|x l' HS IH Hle]; intros i j Hi Hj Hji; [done|].
    destruct i as [|i]; [lia|]. destruct j as [|j].
    + cbn in Hi, Hj. injection Hj as ->. eapply Forall_lookup_1 in Hle; [|exact Hi].
      destruct Hle as (fb' & fa' & Hb' & Ha' & Hcmp).
      rewrite (Hfun _ _ _ Hb' Hb) in Hcmp. rewrite (Hfun _ _ _ Ha' Ha) in Hcmp. lia.
    + apply (IH i j); [done|done|lia].
Qed.
