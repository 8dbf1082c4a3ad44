(** Proofs for C68, C69: whatever the schema accepts can be read; directories. *)
From Verif Require Import Base Types Strings Formulas Schema Extraction Spec_Extraction Spec_Pipeline Utils_proofs
  Extraction_proofs Extraction2_proofs.
From Verif Require Allocation2_proofs.

(** ** What the schema accepts *)
Lemma dget_in k v (d : dict) : dget k d = Some v -> (k, v) ∈ d.
Proof.
  induction d as [|[k2 v2] d IH]; cbn; [done|]. destruct (String.eqb_spec k k2) as [->|].
  - intros [= ->]. left.
  - intros H. right. by apply IH.
Qed.
Lemma field_conforms fs d k v : NoDup (names fs) -> conforms (SDict fs) (VDict d) = true -> dget k d = Some v ->
  match find_field k fs with Some s => conforms s v = true | None => False end.
Proof.
  intros Hnd H Hk%dget_in%elem_of_list_In. rewrite conforms_SDict in H. apply andb_true_iff in H as [H _].
  rewrite forallb_forall in H. specialize (H _ Hk). rewrite field_ok_find in H by done. by destruct (find_field k fs).
Qed.
Definition required (k : string) (fs : list (bool * string * schema)) : bool := existsb (fun f => f.1.1 && (f.1.2 =? k)%string) fs.
Lemma field_required fs d k : conforms (SDict fs) (VDict d) = true -> required k fs = true -> is_Some (dget k d).
Proof.
  intros H (f & Hin & [Hr <-%String.eqb_eq]%andb_true_iff)%existsb_exists. rewrite conforms_SDict in H.
  apply andb_true_iff in H as [_ H]. rewrite forallb_forall in H. specialize (H _ Hin). rewrite Hr in H. by apply has_key_dget.
Qed.
Lemma read_need {A} fs d k s (f : pyval -> option A) : NoDup (names fs) -> conforms (SDict fs) (VDict d) = true ->
  required k fs = true -> find_field k fs = Some s -> (forall v, conforms s v = true -> is_Some (f v)) -> is_Some (need k f d).
Proof.
  intros Hnd H Hin Hf Hr. destruct (field_required _ _ _ H Hin) as [v Hv]. unfold need. rewrite Hv. cbn.
  apply Hr. pose proof (field_conforms _ _ _ _ Hnd H Hv) as Hc. by rewrite Hf in Hc.
Qed.
Lemma read_may {A} fs d k (f : pyval -> option A) : NoDup (names fs) -> conforms (SDict fs) (VDict d) = true ->
  match find_field k fs with Some s => forall v, conforms s v = true -> is_Some (f v) | None => True end -> is_Some (may k f d).
Proof.
  intros Hnd H Hr. unfold may. destruct (dget k d) as [v|] eqn:Hv; [|by eexists].
  pose proof (field_conforms _ _ _ _ Hnd H Hv) as Hc. destruct (find_field k fs); [|done].
  destruct (Hr v Hc) as [a ->]. by eexists.
Qed.
Lemma str_read v : conforms SStr v = true -> is_Some (as_str v).
Proof. destruct v; try done; by eexists. Qed.
Lemma float_read v : conforms SFloat v = true -> is_Some (as_float v).
Proof. destruct v; try done; by eexists. Qed.
Lemma bool_read v : conforms SBool v = true -> is_Some (as_bool v).
Proof. destruct v; try done; by eexists. Qed.
Lemma int_read v : conforms SInt v = true -> is_Some (as_int v).
Proof. destruct v; try done; by eexists. Qed.
Lemma lit_read s v : conforms (SLit s) v = true -> v = VStr s.
Proof. destruct v; try done. change (conforms (SLit s) (VStr s0)) with (s =? s0)%string. by intros ->%String.eqb_eq. Qed.
Lemma any_conforms ss v : conforms (SAny ss) v = true <-> exists s, s ∈ ss /\ conforms s v = true.
Proof.
  change (conforms (SAny ss) v) with (existsb (fun s => conforms s v) ss). rewrite existsb_exists.
  split; intros (s & Hs & Hc); exists s; (split; [by apply elem_of_list_In|done]).
Qed.
Lemma lits_read l v : conforms (any_of l) v = true -> exists s, s ∈ l /\ v = VStr s.
Proof.
  unfold any_of. intros (s & (t & -> & Ht)%elem_of_list_fmap & Hc)%any_conforms. exists t. split; [done|]. by apply lit_read.
Qed.
Lemma lits_str l v : conforms (any_of l) v = true -> is_Some (as_str v).
Proof. intros (s & _ & ->)%lits_read. by eexists. Qed.
Lemma mapM_is_Some {A B} (f : A -> option B) l : Forall (fun a => is_Some (f a)) l -> is_Some (mapM f l).
Proof. apply mapM_is_Some_2. Qed.
Lemma list_read {A} s (f : pyval -> option A) v : (forall v, conforms s v = true -> is_Some (f v)) ->
  conforms (SListOf s) v = true -> is_Some (as_list f v).
Proof.
  intros H. destruct v as [| | | | |l|]; try done.
  change (conforms (SListOf s) (VList l)) with (forallb (fun v => conforms s v) l). intros Hl. cbn.
  apply mapM_is_Some, Forall_forall. intros v Hv%elem_of_list_In. rewrite forallb_forall in Hl. by apply H, Hl.
Qed.
Lemma pedigree_read v : conforms valid_pedigree_matrix v = true -> is_Some (read_pedigree v).
Proof.
  unfold valid_pedigree_matrix. intros (s & Hs & Hc)%any_conforms.
  assert (exists fs, s = SDict fs /\ Forall (fun f => f.2 = SInt) fs) as (fs & -> & Hf).
  { rewrite !elem_of_cons, elem_of_nil in Hs. destruct Hs as [->|[->|[]]]; eexists; (split; [reflexivity|repeat constructor]). }
  destruct v as [| | | | | |d]; try done. cbn. apply mapM_is_Some, Forall_forall. intros [k w] Hk%elem_of_list_In.
  rewrite conforms_SDict in Hc. apply andb_true_iff in Hc as [Hc _]. rewrite forallb_forall in Hc. specialize (Hc _ Hk).
  unfold field_ok in Hc. apply existsb_exists in Hc as (f & Hin%elem_of_list_In & [_ Hc]%andb_true_iff).
  rewrite Forall_forall in Hf. rewrite (Hf _ Hin) in Hc. cbn in Hc |- *. destruct (int_read _ Hc) as [z ->]. by eexists.
Qed.
Lemma uncertainty_read v : conforms valid_uncertainty v = true -> is_Some (read_uncertainty v).
Proof.
  unfold valid_uncertainty. intros (s & Hs & Hc)%any_conforms.
  assert (exists n r o, s = distribution n r o /\
    NoDup (names (req "type" (SLit n) :: req "pedigree matrix" valid_pedigree_matrix ::
      map (fun k => req k SFloat) r ++ map (fun k => optional k SFloat) o)%string)) as (n & r & o & -> & Hnd).
  { rewrite !elem_of_cons, elem_of_nil in Hs.
    repeat destruct Hs as [->|Hs]; try done; eexists _, _, _; (split; [reflexivity|]);
      apply (bool_decide_unpack _); by vm_compute. }
  destruct v as [| | | | | |d]; try done. unfold distribution in Hc. set (fs := _ :: _) in *.
  assert (forall k, match find_field k fs with Some s => s = SFloat \/ k = "type"%string \/ k = "pedigree matrix"%string | None => True end) as Hfl.
  { intros k. unfold fs. cbn [find_field fst snd req optional].
    destruct (String.eqb_spec "type" k) as [<-|]; [tauto|]. destruct (String.eqb_spec "pedigree matrix" k) as [<-|]; [tauto|].
    clear. induction r as [|k' r IH]; cbn [map app].
    - induction o as [|k' o IH]; cbn [map find_field fst snd req optional]; [done|]. destruct (k' =? k)%string; [tauto|done].
    - cbn [find_field fst snd req optional]. destruct (k' =? k)%string; [tauto|done]. }
  assert (forall k, k <> "type"%string -> k <> "pedigree matrix"%string -> is_Some (may k as_float d)) as Hm.
  { intros k N1 N2. apply (read_may fs); [done|done|]. pose proof (Hfl k) as H. destruct (find_field k fs); [|done].
    destruct H as [->|[|]]; [apply float_read|done|done]. }
  unfold read_uncertainty.
  destruct (read_need fs d "type" (SLit n) as_str) as [t ->]; [done|done|done|done| |cbn].
  { by intros v ->%lit_read. }
  repeat match goal with |- context [may ?k as_float d] => destruct (Hm k) as [? ->]; [done|done|]; cbn end.
  destruct (read_need fs d "pedigree matrix" valid_pedigree_matrix read_pedigree) as [p ->]; [done|done|done|done| |cbn; by eexists].
  apply pedigree_read.
Qed.
Ltac nodup_names := apply (bool_decide_unpack _); by vm_compute.
Ltac in_fields := repeat first [left|right].
Ltac a_field fs d :=
  match goal with
  | |- context [need ?k ?f d] => let H := fresh in assert (is_Some (need k f d)) as H;
      [eapply (read_need fs); [nodup_names|done|reflexivity|reflexivity|]|destruct H as [? ->]; cbn]
  | |- context [may ?k ?f d] => let H := fresh in assert (is_Some (may k f d)) as H;
      [apply (read_may fs); [nodup_names|done|];
        cbn [find_field fst snd req optional String.eqb Ascii.eqb Bool.eqb]|destruct H as [? ->]; cbn]
  end.
Ltac leaf := first [exact I | exact str_read | exact float_read | exact bool_read | exact uncertainty_read | intros ?; apply lits_str].
Lemma volume_read v : conforms valid_production_volume v = true -> is_Some (read_volume v).
Proof.
  unfold valid_production_volume. destruct v as [| | | | | |d]; try done. set (fs := [_; _; _; _; _]). intros H.
  unfold read_volume. repeat (a_field fs d; [solve [leaf]|]). by eexists.
Qed.
Lemma property_read v : conforms valid_property v = true -> is_Some (read_property v).
Proof.
  unfold valid_property. destruct v as [| | | | | |d]; try done. set (fs := [_; _; _; _; _; _; _]). intros H.
  unfold read_property. repeat (a_field fs d; [solve [leaf]|]). by eexists.
Qed.
Lemma parameter_read v : conforms valid_parameter v = true ->
  (forall d, v = VDict d -> is_Some (dget "amount" d)) -> is_Some (read_parameter v).
Proof.
  unfold valid_parameter. destruct v as [| | | | | |d]; try done. set (fs := [_; _; _; _; _; _; _]). intros H Ha.
  assert (is_Some (need "amount" as_float d)) as [a Ea].
  { destruct (Ha d eq_refl) as [w Hw]. unfold need. rewrite Hw. cbn. apply float_read.
    pose proof (field_conforms fs d "amount" w) as Hc. apply Hc; [nodup_names|done|done]. }
  unfold read_parameter. rewrite Ea. repeat (a_field fs d; [solve [leaf]|]). by eexists.
Qed.
Lemma class_read v : conforms valid_byproducts v = true -> is_Some (as_str v ≫= read_class).
Proof.
  intros (s & Hs & ->)%lits_read. cbn. rewrite !elem_of_cons, elem_of_nil in Hs.
  destruct Hs as [->|[->|[->|[]]]]; by eexists.
Qed.
Lemma exchange_read v : conforms exchange_schema v = true -> is_Some (read_exchange v).
Proof.
  rewrite exchange_conforms, orb_true_iff. intros [H|H].
  - unfold elementary_exchange_schema in H. destruct v as [| | | | | |d]; try done. revert H. set (fs := [_;_;_;_;_;_;_;_;_;_;_;_]).
    intros H. unfold read_exchange.
    repeat (a_field fs d; [solve [leaf|by intros v ->%lit_read|intros v; by apply list_read, property_read|exact I]|]). by eexists.
  - unfold activity_exchange_schema in H. destruct v as [| | | | | |d]; try done. revert H. set (fs := [_;_;_;_;_;_;_;_;_;_;_;_;_;_]).
    intros H. unfold read_exchange.
    repeat (a_field fs d; [solve [leaf|by intros v ->%lit_read|intros v; by apply list_read, property_read|exact class_read|exact volume_read|exact I]|]).
    by eexists.
Qed.
Theorem dataset_read d : conforms dataset_schema (VDict d) = true -> dget "suppliers" d = None -> with_amounts d ->
  is_Some (read_dataset (VDict d)).
Proof.
  unfold dataset_schema. fold exchange_schema. set (fs := [_;_;_;_;_;_;_;_;_;_;_;_;_;_;_;_;_;_;_;_]). intros H Hs Ha.
  assert (is_Some (need "parameters" (as_list read_parameter) d)) as [ps Eps].
  { destruct (field_required fs d "parameters"  H) as [v Hv]; [reflexivity|].
    assert (conforms (SListOf valid_parameter) v = true) as Hc.
    { pose proof (field_conforms fs d "parameters" v) as Hc. apply Hc; [nodup_names|done|done]. }
    unfold need. rewrite Hv. cbn. destruct v as [| | | | |l|]; try done. specialize (Ha l Hv). cbn.
    change (conforms (SListOf ?s) (VList l)) with (forallb (fun v => conforms s v) l) in Hc.
    apply mapM_is_Some. rewrite Forall_forall in Ha |- *. intros v Hin. apply parameter_read; [|by apply Ha].
    rewrite forallb_forall in Hc. by apply Hc, elem_of_list_In. }
  assert (may "suppliers" (as_list read_exchange) d = Some None) as Esu by (unfold may; by rewrite Hs).
  assert (forall v, conforms (SAny [SNone; SStr]) v = true -> is_Some (as_parent v)) as Hpar.
  { intros v (s & Hin & Hc)%any_conforms. rewrite !elem_of_cons, elem_of_nil in Hin.
    destruct Hin as [->|[->|[]]]; destruct v; try done; by eexists. }
  unfold read_dataset. rewrite Eps, Esu.
  repeat (a_field fs d; [solve [leaf|exact Hpar|intros v; apply list_read, exchange_read]|]). by eexists.
Qed.

(** ** What is extracted can be read, is new, and says where it comes from *)
Section extracted.
Context (pyfloat : string -> result Qc) (pyint : string -> result Z).
Lemma extracted_read x fp v : extract_ecospold2_dataset pyfloat pyint x fp = Ok v -> conforms dataset_schema v = true ->
  exists d, read_dataset v = Some d.
Proof.
  intros H Hc. apply extract_dataset_Ok in H as (act & n & l & ty & tech & lv & per & sc & pub & ac & flows & ps & ent & is & es &
    _ & _ & _ & _ & _ & _ & _ & _ & _ & _ & _ & Hps & _ & _ & _ & ->).
  destruct (dataset_read _ Hc) as [d Hd]; [reflexivity| |by exists d].
  intros ps' E. assert (ps' = ps) as -> by (cbn in E; by injection E). apply Forall_forall. intros w Hw p ->.
  apply mapR_Ok in Hps. apply elem_of_list_lookup in Hw as [i Hi]. destruct (Forall2_lookup_r _ _ _ _ _ Hps Hi) as (y & _ & Hy).
  unfold extract_parameter in Hy. apply bind_Ok in Hy as (nm & _ & Hy). apply bind_Ok in Hy as (am & _ & Hy).
  apply bind_Ok in Hy as (u & _ & Hy). apply Ok_inj in Hy. injection Hy as <-. cbn. by eexists.
Qed.
Lemma dataset_accepted x fp : (exists d, dataset_said pyfloat pyint fp x d) <->
  exists v, extract_ecospold2_dataset pyfloat pyint x fp = Ok v /\ conforms dataset_schema v = true.
Proof.
  split.
  - intros (d & (v & Hv & Hc & _)%dataset_iff). by exists v.
  - intros (v & Hv & Hc). destruct (extracted_read _ _ _ Hv Hc) as [d Hd]. exists d. apply dataset_iff. by exists v.
Qed.
Lemma dataset_unique x fp d d' : dataset_said pyfloat pyint fp x d -> dataset_said pyfloat pyint fp x d' -> d = d'.
Proof. intros (v & Hv & _ & Hr)%dataset_iff (v' & Hv' & _ & Hr')%dataset_iff. congruence. Qed.

Lemma forallb_concat {A} (p : A -> bool) ls : forallb p (concat ls) = forallb (forallb p) ls.
Proof. induction ls as [|l ls IH]; [done|]. cbn. by rewrite forallb_app, IH. Qed.
Lemma mapM_app_Some {A B} (f : A -> option B) l k r : mapM f (l ++ k) = Some r <->
  exists r1 r2, r = r1 ++ r2 /\ mapM f l = Some r1 /\ mapM f k = Some r2.
Proof.
  setoid_rewrite mapM_Some. split.
  - intros (r1 & r2 & H1 & H2 & ->)%Forall2_app_inv_l. by exists r1, r2.
  - intros (r1 & r2 & -> & H1 & H2). by apply Forall2_app.
Qed.
Theorem directory_iff files data : directory_said pyfloat pyint files data <->
  exists vs, extract_ecospold2_directory pyfloat pyint files = Ok vs /\ forallb (conforms dataset_schema) vs = true /\
    mapM read_dataset vs = Some data.
Proof.
  unfold extract_ecospold2_directory. setoid_rewrite Allocation2_proofs.concat_mapR_Ok. unfold directory_said.
  assert (forall file ds, Forall2 (dataset_said pyfloat pyint file.1) (x_kids file.2) ds <->
    exists vs, generic_extractor pyfloat pyint file = Ok vs /\ forallb (conforms dataset_schema) vs = true /\
      mapM read_dataset vs = Some ds) as E.
  { intros file ds. unfold generic_extractor.
    apply (list_iff (dataset_said pyfloat pyint file.1) (fun c => extract_ecospold2_dataset pyfloat pyint c file.1)
      (conforms dataset_schema) read_dataset). intros x r. apply dataset_iff. }
  split.
  - intros (dss & -> & H). 
    assert (exists vss, Forall2 (fun file vs => generic_extractor pyfloat pyint file = Ok vs) files vss /\
      forallb (conforms dataset_schema) (concat vss) = true /\ mapM read_dataset (concat vss) = Some (concat dss)) as (vss & H1 & H2 & H3).
    { induction H as [|file ds files dss (vs & Hg & Hc & Hr)%E _ (vss & H1 & H2 & H3)].
      - exists []. split; [constructor|done].
      - exists (vs :: vss). split; [by constructor|]. cbn [concat]. rewrite forallb_app, Hc, H2. split; [done|].
        apply mapM_app_Some. by exists ds, (concat dss). }
    exists (concat vss). split; [by exists vss|done].
  - intros (vs & (vss & -> & H1) & H2 & H3). revert data H2 H3.
    induction H1 as [|file vs files vss Hg _ IH]; intros data H2 H3; cbn [concat] in *.
    + exists []. split; [by injection H3|constructor].
    + rewrite forallb_app in H2. apply andb_true_iff in H2 as [Hc H2]. apply mapM_app_Some in H3 as (r1 & r2 & -> & Hr & H3).
      destruct (IH r2 H2 H3) as (dss & -> & HF). exists (r1 :: dss). split; [done|]. constructor; [|done]. apply E. by exists vs.
Qed.
Theorem directory_raw files data : directory_said pyfloat pyint files data -> raw data.
Proof.
  intros (dss & -> & H). unfold raw. apply Forall_forall. intros d (ds & Hds & Hd)%elem_of_list_In%in_concat.
  apply elem_of_list_In in Hds. apply elem_of_list_In in Hd. apply elem_of_list_lookup in Hds as [i Hi].
  destruct (Forall2_lookup_r _ _ _ _ _ H Hi) as (file & _ & HF). apply elem_of_list_lookup in Hd as [j Hj].
  destruct (Forall2_lookup_r _ _ _ _ _ HF Hj) as (x & _ & Hx). unfold dataset_said in Hx.
  destruct Hx as (_ & _ & _ & _ & _ & _ & _ & _ & _ & _ & _ & _ & _ & _ & _ & (flows & _ & _ & He) & _ & _ & Hs & _).
  split; [done|]. apply Forall_forall. intros e Hin. apply elem_of_list_lookup in Hin as [m Hm].
  destruct (Forall2_lookup_r _ _ _ _ _ He Hm) as (z & _ & Hz). unfold exchange_said in Hz. tauto.
Qed.
Lemma in_directory files data d : directory_said pyfloat pyint files data -> d ∈ data ->
  exists file x, file ∈ files /\ x ∈ x_kids file.2 /\ dataset_said pyfloat pyint file.1 x d.
Proof.
  intros (dss & -> & H) (ds & Hds & Hd)%elem_of_list_In%in_concat.
  apply elem_of_list_In in Hds. apply elem_of_list_In in Hd. apply elem_of_list_lookup in Hds as [i Hi].
  destruct (Forall2_lookup_r _ _ _ _ _ H Hi) as (file & Hf & HF). apply elem_of_list_lookup in Hd as [j Hj].
  destruct (Forall2_lookup_r _ _ _ _ _ HF Hj) as (x & Hx & Hs). exists file, x.
  split; [by eapply elem_of_list_lookup_2|]. split; [by eapply elem_of_list_lookup_2|done].
Qed.
Theorem directory_traced files data ds : directory_said pyfloat pyint files data -> comes_from data ds -> found_in files ds.
Proof.
  intros H (d0 & Hd0 & Ho & He). destruct (in_directory _ _ _ H Hd0) as (file & x & Hf & Hx & Hs). unfold dataset_said in Hs.
  destruct Hs as (Hfp & Hid & _ & _ & _ & _ & _ & _ & _ & _ & _ & _ & _ & _ & _ & (flows & Hfl & _ & Hes) & _).
  unfold origin in Ho. injection Ho as E1 E2 E3 E4 E5.
  exists file, x, flows. split; [done|]. split; [done|]. split; [congruence|]. split; [congruence|]. split; [done|].
  intros e Hin Hne. destruct (He e Hin Hne) as (e0 & Hin0 & Ei & Eu & Hel). apply elem_of_list_lookup in Hin0 as [i Hi].
  destruct (Forall2_lookup_r _ _ _ _ _ Hes Hi) as (y & Hy & Hsaid). apply elem_of_list_lookup_2, elem_of_list_filter in Hy as [_ Hy].
  unfold exchange_said in Hsaid.
  destruct Hsaid as (Hn & Ha & Hname & Hu & _ & Hk & _ & _ & _ & _ & _ & _ & _ & Henv & _ & _).
  exists y. split; [done|]. split; [congruence|]. split; [congruence|]. intros Hee. destruct (Hel Hee) as (Et & Ec & Es & En).
  destruct Henv as (Htag & _ & _ & _ & _ & Hc & _ & Hsc); [unfold environmental; unfold elementary in Hee; by rewrite <- Et|].
  rewrite Et. split; [done|]. split; [done|]. split; [congruence|]. split; [congruence|].
  intros n Hny Hnn. assert (n = e_name e0) as -> by congruence. by rewrite En.
Qed.
End extracted.

(** ** Validation *)
Lemma validate_fold invalid data errors : fold_left (fun errors ds => match invalid ds with Some msg => put msg ds errors | None => errors end) data errors = [] <->
  errors = [] /\ Forall (fun ds => invalid ds = None) data.
Proof.
  revert errors. induction data as [|ds data IH]; intros errors; cbn [fold_left].
  - split; [intros ->; split; [done|constructor]|by intros [-> _]].
  - rewrite IH, Forall_cons. destruct (invalid ds) as [m|]; [|tauto].
    split; [|by intros (_ & ? & _)]. intros [E _]. exfalso. destruct errors as [|[k w] errors]; cbn in E; [done|].
    by destruct (m =? k)%string.
Qed.
Theorem validate_none invalid data : validate_directory invalid data = [] <-> Forall (fun ds => invalid ds = None) data.
Proof. unfold validate_directory. rewrite validate_fold. tauto. Qed.
Lemma validate_invariant invalid (P : string -> pyval -> Prop) data errors :
  (forall v msg, v ∈ data -> invalid v = Some msg -> P msg v) -> (forall msg v, dget msg errors = Some v -> P msg v) ->
  forall msg v, dget msg (fold_left (fun errors ds => match invalid ds with Some msg => put msg ds errors | None => errors end) data errors) = Some v ->
  P msg v.
Proof.
  revert errors. induction data as [|ds data IH]; intros errors Hd He; cbn [fold_left]; [exact He|].
  apply IH; [intros v msg Hv; apply Hd; by right|]. destruct (invalid ds) as [m|] eqn:E; [|exact He].
  intros msg v. rewrite dget_put. destruct (String.eqb_spec msg m) as [->|]; [|apply He]. intros [= <-]. apply Hd; [left|done].
Qed.
Theorem validate_sound invalid data msg v :
  dget msg (validate_directory invalid data) = Some v -> v ∈ data /\ invalid v = Some msg.
Proof. apply (validate_invariant invalid (fun msg v => v ∈ data /\ invalid v = Some msg)); [done|done]. Qed.
Lemma validate_keeps invalid msg data errors : is_Some (dget msg errors) ->
  is_Some (dget msg (fold_left (fun errors ds => match invalid ds with Some msg => put msg ds errors | None => errors end) data errors)).
Proof.
  revert errors. induction data as [|ds data IH]; intros errors H; cbn [fold_left]; [exact H|]. apply IH.
  destruct (invalid ds) as [m|]; [|done]. rewrite dget_put. destruct (msg =? m)%string; [by eexists|done].
Qed.
Theorem validate_complete invalid data msg :
  (exists v, v ∈ data /\ invalid v = Some msg) -> is_Some (dget msg (validate_directory invalid data)).
Proof.
  unfold validate_directory. intros (v & Hv & Hm). generalize (@nil (string * pyval)).
  induction data as [|ds data IH]; intros errors; [by apply elem_of_nil in Hv|]. cbn [fold_left].
  apply elem_of_cons in Hv as [<-|Hv]; [|by apply IH]. rewrite Hm. apply validate_keeps. rewrite dget_put, String.eqb_refl. by eexists.
Qed.
