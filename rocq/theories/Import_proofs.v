(** Proofs for C102 and C103. *)
From stdpp Require Import gmap.
From Verif Require Import Base Types Strings StringFacts Files Brightway Import Spec_Import.

Lemma ready_iff n l acts : mapR (translate_entry n) l = Ok acts <-> ready n l acts.
Proof.
  rewrite mapR_Ok. unfold ready. split; intros H; eapply Forall2_impl; try exact H; clear; intros x a.
  - destruct x as [ds|b]; cbn; [|done]. intros. by exists ds.
  - intros (ds & -> & H). exact H.
Qed.
Lemma chain_iff (fs : list strategy) d d' : foldR (fun d (f : strategy) => f d) d fs = Ok d' <-> chain fs d d'.
Proof.
  revert d. induction fs as [|f fs IH]; intros d; cbn.
  - split; [intros H; injection H as ->; constructor|by inversion 1].
  - destruct (f d) as [e|x] eqn:E; cbn.
    + rewrite IH. split; [intros H; by econstructor|]. inversion 1; subst. congruence.
    + split; [done|]. inversion 1; subst. congruence.
Qed.
Lemma prepared_iff im acts data :
  (exists fs, del 2 (im_strategies im) = Ok fs /\
     (let? d := foldR (fun d (f : strategy) => f d) acts fs in im_match im d) = Ok data) <-> prepared im acts data.
Proof.
  unfold prepared, del. destruct (im_strategies im) as [|f1 [|f2 [|f3 fs]]]; cbn [length Nat.ltb Nat.leb].
  1-3: split; [by intros (? & ? & _)|intros (? & ? & ? & ? & ? & ? & _); discriminate].
  cbn [take drop app]. split.
  - intros (gs & H & Hd). injection H as <-.
    destruct (foldR _ acts _) as [mid|] eqn:E; [|done]. cbn in Hd. apply chain_iff in E.
    by exists f1, f2, f3, fs, mid.
  - intros (g1 & g2 & g3 & gs & mid & H & Hc & Hm). injection H as <- <- <- <-. apply chain_iff in Hc.
    exists (f1 :: f2 :: fs). split; [reflexivity|]. rewrite Hc. exact Hm.
Qed.

Lemma existing_proof im n p : is_Some (p_databases p !! n) -> import_into_brightway2 im (Some n) p = (p, Err AssertionError).
Proof. intros H. unfold import_into_brightway2. by rewrite bool_decide_true. Qed.

(** All ways through the program. *)
Lemma import_cases im n p p' r : import_into_brightway2 im (Some n) p = (p', r) ->
  (is_Some (p_databases p !! n) /\ p' = p /\ r = Err AssertionError) \/
  (p_databases p !! n = None /\
   ((exists e, mapR (translate_entry n) (p_data p) = Err e /\ p' = p /\ r = Err e) \/
    exists acts, ready n (p_data p) acts /\
      ((exists e, p' = Project (p_databases p) (map Activity acts) /\ r = Err e) \/
       exists data, prepared im acts data /\
         ((im_unlinked im data = 0 /\ p' = Project (<[n := data]> (p_databases p)) (map Activity acts) /\ r = Ok Written) \/
          (im_unlinked im data <> 0 /\ p' = Project (p_databases p) (map Activity acts) /\ r = Ok (Unwritten data)))))).
Proof.
  unfold import_into_brightway2. case_bool_decide as Hn.
  { intros H. injection H as <- <-. by left. }
  intros H. right. split; [by apply eq_None_not_Some|].
  destruct (mapR (translate_entry n) (p_data p)) as [acts|e] eqn:Em.
  2:{ left. injection H as <- <-. by exists e. }
  right. exists acts. apply ready_iff in Em. split; [done|].
  destruct (del 2 (im_strategies im)) as [fs|e] eqn:Ed.
  2:{ left. injection H as <- <-. by exists e. }
  destruct (let? d := foldR (fun d (f : strategy) => f d) acts fs in im_match im d) as [data|e] eqn:Eb.
  2:{ left. injection H as <- <-. by exists e. }
  right. exists data. split; [apply prepared_iff; by exists fs|].
  destruct (Nat.eqb_spec (im_unlinked im data) 0); injection H as <- <-; auto.
Qed.

Lemma prepared_functional im acts data data' : prepared im acts data -> prepared im acts data' -> data = data'.
Proof.
  intros H H'. apply prepared_iff in H as (fs & E & F), H' as (fs' & E' & F'). congruence.
Qed.
Lemma ready_functional n l acts acts' : ready n l acts -> ready n l acts' -> acts = acts'.
Proof. intros H H'. apply ready_iff in H, H'. congruence. Qed.
Lemma ready_not_err n l acts e : ready n l acts -> mapR (translate_entry n) l <> Err e.
Proof. intros H. apply ready_iff in H. congruence. Qed.

Lemma import_goes im n p acts data : p_databases p !! n = None -> ready n (p_data p) acts -> prepared im acts data ->
  import_into_brightway2 im (Some n) p =
    if im_unlinked im data =? 0
    then (Project (<[n := data]> (p_databases p)) (map Activity acts), Ok Written)
    else (Project (p_databases p) (map Activity acts), Ok (Unwritten data)).
Proof.
  intros Hn Hr Hp. apply ready_iff in Hr. apply prepared_iff in Hp as (fs & E & F).
  unfold import_into_brightway2. rewrite bool_decide_false by (by apply eq_None_not_Some). by rewrite Hr, E, F.
Qed.

Lemma written_proof im n p p' : import_into_brightway2 im (Some n) p = (p', Ok Written) <->
  p_databases p !! n = None /\ exists acts data, ready n (p_data p) acts /\ prepared im acts data /\
    im_unlinked im data = 0 /\ p' = Project (<[n := data]> (p_databases p)) (map Activity acts).
Proof.
  split.
  - intros H. destruct (import_cases _ _ _ _ _ H) as [(_ & _ & E)|(Hn & [(e & _ & _ & E)|(acts & Hr & [(e & _ & E)|(data & Hp & [(Hu & Ep & _)|(_ & _ & E)])])])];
      try discriminate E. eauto 10.
  - intros (Hn & acts & data & Hr & Hp & Hu & ->). rewrite (import_goes im n p acts data Hn Hr Hp), Hu. done.
Qed.
Lemma unwritten_proof im n p p' data : import_into_brightway2 im (Some n) p = (p', Ok (Unwritten data)) <->
  p_databases p !! n = None /\ im_unlinked im data <> 0 /\ exists acts, ready n (p_data p) acts /\ prepared im acts data /\
    p' = Project (p_databases p) (map Activity acts).
Proof.
  split.
  - intros H. destruct (import_cases _ _ _ _ _ H) as [(_ & _ & E)|(Hn & [(e & _ & _ & E)|(acts & Hr & [(e & _ & E)|(data' & Hp & [(_ & _ & E)|(Hu & Ep & E)])])])];
      try discriminate E. injection E as ->. eauto 10.
  - intros (Hn & Hu & acts & Hr & Hp & ->). rewrite (import_goes im n p acts data Hn Hr Hp).
    apply Nat.eqb_neq in Hu. by rewrite Hu.
Qed.
Lemma failed_proof im name p p' e : import_into_brightway2 im name p = (p', Err e) ->
  p_databases p' = p_databases p /\
  (p_data p' = p_data p \/ exists n acts, name = Some n /\ ready n (p_data p) acts /\ p_data p' = map Activity acts).
Proof.
  destruct name as [n|]; [|intros H; injection H as <- <-; auto]. intros H.
  destruct (import_cases _ _ _ _ _ H) as [(_ & -> & _)|(Hn & [(e' & _ & -> & _)|(acts & Hr & [(e' & -> & _)|(data' & Hp & [(_ & _ & E)|(Hu & Ep & E)])])])];
    try discriminate E; eauto 10.
Qed.
Lemma others_proof im name p n : name <> Some n ->
  p_databases (fst (import_into_brightway2 im name p)) !! n = p_databases p !! n.
Proof.
  destruct name as [m|]; [|done]. intros Hn. destruct (import_into_brightway2 im (Some m) p) as [p' r] eqn:H. cbn [fst].
  destruct (import_cases _ _ _ _ _ H) as [(_ & -> & _)|(_ & [(e & _ & -> & _)|(acts & Hr & [(e & -> & _)|(data & Hp & [(_ & -> & _)|(_ & -> & _)])])])];
    try done. cbn. apply lookup_insert_ne. congruence.
Qed.
(** Whatever is in the list twice cannot be imported. *)
Lemma activities_fail n acts : acts <> [] -> mapR (translate_entry n) (map Activity acts) = Err ValueError.
Proof. by destruct acts. Qed.
Lemma again_proof im im' name n p p' r : import_into_brightway2 im name p = (p', r) -> p_data p' <> p_data p ->
  p_databases p' !! n = None -> import_into_brightway2 im' (Some n) p' = (p', Err ValueError).
Proof.
  destruct name as [m|]; [|intros H; by injection H as <- <-]. intros H Hd Hn.
  assert (exists acts, p_data p' = map Activity acts /\ length acts = length (p_data p)) as (acts & E & Hl).
  { destruct (import_cases _ _ _ _ _ H) as [(_ & -> & _)|(_ & [(e & _ & -> & _)|(acts & Hr & H')])]; [done..|].
    exists acts. split; [|symmetry; by eapply Forall2_length].
    destruct H' as [(e & -> & _)|(data & Hp & [(_ & -> & _)|(_ & -> & _)])]; done. }
  unfold import_into_brightway2. rewrite bool_decide_false by (by apply eq_None_not_Some).
  rewrite E, activities_fail; [done|]. intros ->. apply Hd. rewrite E. cbn in *. by destruct (p_data p).
Qed.

(** ** Validation *)
Lemma is_spold_iff name : is_spold name = true <-> ends_spold name.
Proof. unfold is_spold, ends_spold. apply endswith_iff. Qed.

Section xsd.
Context {X : Type}.
Implicit Types dir : list (string * node X).

Lemma invalid_inr (accepts : X -> bool) dir names :
  invalid_files accepts (filterb (fun f => is_spold (fst f)) dir) = inr names <-> rejected accepts dir names.
Proof.
  revert names. induction dir as [|[n d] dir IH]; intros names.
  - cbn. split; [intros H; injection H as <-; constructor|by inversion 1].
  - unfold filterb. cbn [List.filter fst]. fold (filterb (fun f : string * node X => is_spold (fst f)) dir).
    destruct (is_spold n) eqn:En.
    + apply is_spold_iff in En. destruct d as [x| |]; cbn [invalid_files].
      * destruct (invalid_files accepts _) as [e|l] eqn:E.
        -- split; [done|]. inversion 1; subst; try done; match goal with H : rejected _ _ _ |- _ => apply IH in H; congruence end.
        -- destruct (accepts x) eqn:Ex.
           ++ split; [intros H; injection H as <-; apply rejected_no; [done..|by apply IH]|].
              inversion 1; subst; try congruence; try done. by apply IH in H6.
           ++ split; [intros H; injection H as <-; apply rejected_yes; [done..|by apply IH]|].
              inversion 1; subst; try congruence; try done. apply IH in H6. congruence.
      * split; [done|]. by inversion 1.
      * split; [done|]. by inversion 1.
    + assert (~ ends_spold n) as Hn by (rewrite <- is_spold_iff; congruence). rewrite IH.
      split; [by apply rejected_other|]. by inversion 1.
Qed.
Lemma invalid_inl (accepts : X -> bool) dir e :
  invalid_files accepts (filterb (fun f => is_spold (fst f)) dir) = inl e <->
  exists before n d after, dir = before ++ (n, d) :: after /\ e = BadFile n /\ ends_spold n /\ ~ readable (n, d) /\
    Forall (fun f => ends_spold (fst f) -> readable f) before.
Proof.
  induction dir as [|[n d] dir IH].
  - split; [done|]. intros ([|] & ? & ? & ? & H & _); discriminate.
  - unfold filterb. cbn [List.filter fst]. fold (filterb (fun f : string * node X => is_spold (fst f)) dir).
    assert ((exists before m k after, dir = before ++ (m, k) :: after /\ e = BadFile m /\ ends_spold m /\ ~ readable (m, k) /\
       Forall (fun f => ends_spold (fst f) -> readable f) before) -> (ends_spold n -> readable (n, d)) ->
       exists before m k after, (n, d) :: dir = before ++ (m, k) :: after /\ e = BadFile m /\ ends_spold m /\ ~ readable (m, k) /\
       Forall (fun f => ends_spold (fst f) -> readable f) before) as Hlater.
    { intros (b & m & k & a & -> & H1 & H2 & H3 & H4) Hd. exists ((n, d) :: b), m, k, a. split_and!; try done. by constructor. }
    assert ((exists before m k after, (n, d) :: dir = before ++ (m, k) :: after /\ e = BadFile m /\ ends_spold m /\ ~ readable (m, k) /\
       Forall (fun f => ends_spold (fst f) -> readable f) before) ->
       (e = BadFile n /\ ends_spold n /\ ~ readable (n, d)) \/
       (exists before m k after, dir = before ++ (m, k) :: after /\ e = BadFile m /\ ends_spold m /\ ~ readable (m, k) /\
       Forall (fun f => ends_spold (fst f) -> readable f) before) /\ (ends_spold n -> readable (n, d))) as Hnow.
    { intros ([|f b] & m & k & a & H & H1 & H2 & H3 & H4).
      - injection H as <- <- <-. by left.
      - injection H as <- ->. right. inversion H4; subst. split; [|done]. by exists b, m, k, a. }
    destruct (is_spold n) eqn:En.
    + apply is_spold_iff in En. destruct d as [x| |]; cbn [invalid_files].
      * assert (readable (n, Document x)) as Hx by (by exists x).
        destruct (invalid_files accepts _) as [e'|l].
        -- rewrite IH. split; [intros H; by apply Hlater|]. intros H. destruct (Hnow H) as [(_ & _ & ?)|[? _]]; done.
        -- split; [done|]. intros H. destruct (Hnow H) as [(_ & _ & ?)|[H' _]]; [done|]. by apply IH in H'.
      * assert (~ readable (n, @Garbled X)) as Hx by (by intros [? ?]).
        split; [intros H; injection H as <-; by exists [], n, Garbled, dir|]. intros H. destruct (Hnow H) as [(-> & _)|[_ Hr]]; [done|].
        by destruct (Hx (Hr En)).
      * assert (~ readable (n, @NotAFile X)) as Hx by (by intros [? ?]).
        split; [intros H; injection H as <-; by exists [], n, NotAFile, dir|]. intros H. destruct (Hnow H) as [(-> & _)|[_ Hr]]; [done|].
        by destruct (Hx (Hr En)).
    + assert (~ ends_spold n) as Hn by (rewrite <- is_spold_iff; congruence). rewrite IH.
      split; [intros H; by apply Hlater|]. intros H. destruct (Hnow H) as [(_ & ? & _)|[? _]]; done.
Qed.

Lemma report_proof dir (accepts : X -> bool) :
  (validate_directory_against_xsd (Some dir) (Some (Some accepts)) = inr AllValid <-> rejected accepts dir []) /\
  (forall names, validate_directory_against_xsd (Some dir) (Some (Some accepts)) = inr (NotValid names) <->
     names <> [] /\ rejected accepts dir names).
Proof.
  unfold validate_directory_against_xsd.
  pose proof (fun names => invalid_inr accepts dir names) as H.
  destruct (invalid_files accepts _) as [e|l] eqn:E.
  - split; [rewrite <- H; done|]. intros names. rewrite <- H. split; [done|]. by intros [_ ?].
  - destruct l as [|n l].
    + split; [by rewrite <- H|]. intros names. rewrite <- H. split; [done|]. intros [Hn Hq]. congruence.
    + split; [rewrite <- H; done|]. intros names. rewrite <- H. split.
      * intros Hq. by injection Hq as <-.
      * intros [_ Hq]. by injection Hq as ->.
Qed.
Lemma broken_proof dir (accepts : X -> bool) e :
  validate_directory_against_xsd (Some dir) (Some (Some accepts)) = inl e <->
  exists before n d after, dir = before ++ (n, d) :: after /\ e = BadFile n /\ ends_spold n /\ ~ readable (n, d) /\
    Forall (fun f => ends_spold (fst f) -> readable f) before.
Proof.
  unfold validate_directory_against_xsd. rewrite <- (invalid_inl accepts).
  destruct (invalid_files accepts _) as [e'|[|n l]]; [|done..]. split; intros H; by injection H as ->.
Qed.
End xsd.
