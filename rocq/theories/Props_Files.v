(** Properties of files: cache (C54), cleaning up (C55), export to Brightway (C57)
    and file names (C58). *)
From Verif Require Import Base Strings Types Utils Formulas Files Brightway Spec_Files Files_proofs Cache_proofs Brightway_proofs.
From stdpp Require Import gmap.
From Coq Require Import Ascii String.

(** ** C54 *)

(** Whatever extraction returned in a harmless history is what extraction without cache
    would have returned at that moment, except for the errors that follow a crash while
    the cache was written and those of directories with nothing but hidden files. *)
Theorem C54_cache : forall C D (extract : gmap string C -> result D) evs w0,
  untouched w0 -> harmless_history extract evs w0 ->
  forall w r, (w, r) ∈ (history extract evs w0).2 ->
    uncached extract w = Some r \/ (r = Err EOFError /\ CrashInCache ∈ evs) \/ (r = Err ValueError /\ no_visible_file w).
Proof. exact @cache_history. Qed.
Print Assumptions C54_cache.

(** Data is never wrong, whatever crashed. *)
Theorem C54_data : forall C D (extract : gmap string C -> result D) evs w0,
  untouched w0 -> harmless_history extract evs w0 ->
  forall w d, (w, Ok d) ∈ (history extract evs w0).2 -> uncached extract w = Some (Ok d).
Proof.
  intros C D extract evs w0 Hu Hh w d H. destruct (cache_history extract evs w0 Hu Hh w _ H) as [?|[[? _]|[? _]]]; done.
Qed.
Print Assumptions C54_data.

(** The cache is used for as long as nothing changes. *)
Theorem C54_used : forall C D (extract : gmap string C -> result D) w d dt, w_pending w = Some d ->
  (w_dir w < w_now w)%Qc -> (forall n f, w_files w !! n = Some f -> (fi_mtime f < w_now w)%Qc) -> ~ no_visible_file w ->
  exists w', history extract [Finish; Wait dt; Begin true] w = (w', [(w, Ok d); (w', Ok d)]).
Proof. exact @cache_used. Qed.
Print Assumptions C54_used.

Definition ex_extract (fs : gmap string nat) : result (list nat) := Ok (map snd (map_to_list fs)).
Definition ex_world : world (C:=nat) (D:=list nat) :=
  World {["a.spold"%string := File 1%nat (Qcint 5); "notes.txt"%string := File 7%nat (Qcint 6)]} (Qcint 6) None (Qcint 10) None.
Definition ex_events : list (event (C:=nat)) :=
  [Begin true; Wait 1; Finish; Wait 1; Begin true; Write "a.spold" 2; Wait 1; Begin true; Finish; Write "b.SPOLD" 3; Begin true].
Definition returns (h : world (C:=nat) (D:=list nat) * list (world (C:=nat) (D:=list nat) * result (list nat))) : list (result (list nat)) :=
  map snd h.2.
Example ex_untouched : untouched ex_world.
Proof.
  split; [done|]. split; [done|]. split; [by_compute|]. intros n f H. unfold ex_world in H. cbn [w_files] in H.
  apply lookup_insert_Some in H as [[_ <-]|[_ H]]; [by_compute|]. apply lookup_singleton_Some in H as [_ <-]. by_compute.
Qed.
Example ex_harmless : harmless_history ex_extract ex_events ex_world.
Proof. repeat (split; [by_compute || done|]); done. Qed.
Example ex_history : returns (history ex_extract ex_events ex_world) = [Ok [1]; Ok [1]; Ok [2]]%nat.
Proof. by_compute. Qed.
Example ex_pending : let w := (history ex_extract [Begin true; Wait 1] ex_world).1 in
  w_pending w = Some [1]%nat /\ (w_dir w < w_now w)%Qc /\ ~ no_visible_file w.
Proof.
  split; [by_compute|]. split; [by_compute|]. intros H. specialize (H "a.spold"%string (File 1%nat (Qcint 5))).
  assert (str_startswith "." "a.spold" = true) as E by (apply H; vm_compute; reflexivity). discriminate E.
Qed.

(** A hidden ecospold file is extracted, but its modification time is not looked at. *)
Theorem C54_hidden_refuted : exists evs w0, untouched w0 /\
  returns (history ex_extract (evs ++ [Wait 1; Begin true]) w0) = [Ok [1]; Ok [1]]%nat /\
  uncached ex_extract (history ex_extract evs w0).1 = Some (Ok [2]%nat).
Proof.
  exists [Begin true; Finish; Wait 1; Write ".x.spold" 2%nat],
    (World {[".x.spold"%string := File 1%nat (Qcint 5); "notes.txt"%string := File 7%nat (Qcint 6)]} (Qcint 6) None (Qcint 10) None).
  split; [|split; by_compute]. split; [done|]. split; [done|]. split; [by_compute|]. intros n f H. cbn [w_files] in H.
  apply lookup_insert_Some in H as [[_ <-]|[_ H]]; [by_compute|]. apply lookup_singleton_Some in H as [_ <-]. by_compute.
Qed.
Print Assumptions C54_hidden_refuted.

(** The program dies while it writes the cache: what is there counts as fresh, and
    extraction fails until the source changes. *)
Theorem C54_crash_refuted : exists evs w0, untouched w0 /\ harmless_history ex_extract evs w0 /\
  returns (history ex_extract evs w0) = [Err EOFError; Err EOFError] /\
  uncached ex_extract (history ex_extract evs w0).1 = Some (Ok [1]%nat).
Proof.
  exists [Begin true; CrashInCache; Wait 1; Begin true; Wait (Qcint 1000); Begin true], ex_world.
  split; [apply ex_untouched|]. split; [repeat (split; [by_compute || done|]); done|]. split; by_compute.
Qed.
Print Assumptions C54_crash_refuted.

(** A file changes after it was read and before the cache was written. *)
Theorem C54_change_refuted : exists evs w0, untouched w0 /\
  returns (history ex_extract (evs ++ [Wait 1; Begin true]) w0) = [Ok [1]; Ok [1]]%nat /\
  uncached ex_extract (history ex_extract evs w0).1 = Some (Ok [2]%nat).
Proof.
  exists [Begin true; Write "a.spold" 2%nat; Wait 1; Finish], ex_world.
  split; [apply ex_untouched|]. split; by_compute.
Qed.
Print Assumptions C54_change_refuted.

(** A file is replaced by one with an old modification time, as when copied with its
    times. *)
Theorem C54_old_time_refuted : exists evs w0, untouched w0 /\
  returns (history ex_extract (evs ++ [Wait 1; Begin true]) w0) = [Ok [1]; Ok [1]]%nat /\
  uncached ex_extract (history ex_extract evs w0).1 = Some (Ok [2]%nat).
Proof.
  exists [Begin true; Finish; Wait 1; Write "a.spold" 2%nat; SetTime "a.spold" (Qcint 3)], ex_world.
  split; [apply ex_untouched|]. split; by_compute.
Qed.
Print Assumptions C54_old_time_refuted.

(** All files removed: extraction without cache gives nothing, with cache it fails. *)
Theorem C54_empty_refuted : exists evs w0, untouched w0 /\ harmless_history ex_extract evs w0 /\
  returns (history ex_extract evs w0) = [Ok [1]; Err ValueError]%nat /\
  uncached ex_extract (history ex_extract evs w0).1 = Some (Ok []).
Proof.
  exists [Begin true; Finish; Remove "a.spold"; Remove "notes.txt"; Begin true], ex_world.
  split; [apply ex_untouched|]. split; [repeat (split; [by_compute || done|]); done|]. split; by_compute.
Qed.
Print Assumptions C54_empty_refuted.

(** ** C55 *)

(** Old folders go, everything else stays. *)
Theorem C55_cleanup : forall now dir, NoDup (map de_name dir) -> (forall d, d ∈ dir -> ~ old_link now d) ->
  exists kept, cleanup_data_directory now dir = (kept, Ok tt) /\ sublist kept dir /\
    forall d, d ∈ kept <-> d ∈ dir /\ ~ old_folder now d.
Proof. exact cleanup_all. Qed.
Print Assumptions C55_cleanup.

(** Whatever happens, nothing but old folders goes; only an old link can make it fail. *)
Theorem C55_only : forall now dir, NoDup (map de_name dir) ->
  sublist (cleanup_data_directory now dir).1 dir /\
  (forall d, d ∈ dir -> d ∉ (cleanup_data_directory now dir).1 -> old_folder now d) /\
  (forall e, (cleanup_data_directory now dir).2 = Err e -> e = OSError /\ exists d, d ∈ dir /\ old_link now d).
Proof. exact cleanup_only. Qed.
Print Assumptions C55_only.

(** A second time, not later than the first, changes nothing. *)
Theorem C55_again : forall now now' dir kept, NoDup (map de_name dir) -> (now' <= now)%Qc ->
  cleanup_data_directory now dir = (kept, Ok tt) -> (forall d, d ∈ dir -> ~ old_link now d) ->
  cleanup_data_directory now' kept = (kept, Ok tt).
Proof. exact cleanup_again. Qed.
Print Assumptions C55_again.

Definition ex_now : Qc := Qcint 1000000.
Definition ex_dir : list dirent :=
  [Dirent "new" Folder (Qcint 900000) true; Dirent "old" Folder (Qcint 300000) true; Dirent "file" PlainFile (Qcint 1) false;
   Dirent "limit" Folder (Qcint 395200) true; Dirent "older" Folder (Qcint 2) true; Dirent "link" LinkToFolder (Qcint 999999) false].
Example ex_dir_ok : NoDup (map de_name ex_dir) /\ forall d, d ∈ ex_dir -> ~ old_link ex_now d.
Proof.
  split; [by_compute|]. apply Forall_forall. repeat constructor; intros [E H]; done.
Qed.
Example ex_cleanup : cleanup_data_directory ex_now ex_dir =
  ([Dirent "new" Folder (Qcint 900000) true; Dirent "file" PlainFile (Qcint 1) false;
    Dirent "limit" Folder (Qcint 395200) true; Dirent "link" LinkToFolder (Qcint 999999) false], Ok tt).
Proof. by_compute. Qed.

(** Folders that have nothing to do with Ocelot go too; OCELOT_OUTPUT can be any
    directory. *)
Theorem C55_foreign_refuted : exists now d, de_run d = false /\ cleanup_data_directory now [d] = ([], Ok tt).
Proof. exists ex_now, (Dirent "thesis" Folder 0 false). split; by_compute. Qed.
Print Assumptions C55_foreign_refuted.

(** An old link to a folder stops it: newer runs, although old enough, stay. *)
Theorem C55_link_refuted : exists now dir d, NoDup (map de_name dir) /\ d ∈ dir /\ old_folder now d /\ de_run d = true /\
  d ∈ (cleanup_data_directory now dir).1 /\ (cleanup_data_directory now dir).2 = Err OSError.
Proof.
  exists ex_now, [Dirent "link" LinkToFolder (Qcint 3) false; Dirent "old" Folder (Qcint 300000) true; Dirent "older" Folder (Qcint 2) true],
    (Dirent "old" Folder (Qcint 300000) true).
  split; [by_compute|]. split; [by_compute|]. split; [split; by_compute|]. split; [done|]. split; by_compute.
Qed.
Print Assumptions C55_link_refuted.

(** ** C57 *)

(** The same matrix. *)
Theorem C57_matrix : forall db ds a code, translate_activity db ds = Ok a -> code <> ""%string ->
  bw_net (db, code) (b_exchanges a) = net code (d_exchanges ds).
Proof. exact matrix. Qed.
Print Assumptions C57_matrix.

(** The same elementary flows. *)
Theorem C57_flows : forall db ds a n u c s, translate_activity db ds = Ok a -> n <> "refinery gas"%string ->
  bw_flow n u c s (b_exchanges a) = flow n u c s (d_exchanges ds).
Proof. exact flows. Qed.
Print Assumptions C57_flows.

(** No amount is zero. *)
Theorem C57_nonzero : forall db ds a, translate_activity db ds = Ok a ->
  Forall (fun b => match b with BwBiosphere x _ _ _ | BwTechnosphere x _ | BwProduction x _ => x <> 0%Qc end) (b_exchanges a).
Proof. intros db ds a H. eapply Forall_impl; [exact (nonzero db ds a H)|]. by intros []. Qed.
Print Assumptions C57_nonzero.

(** One production exchange, that of the reference product. *)
Theorem C57_production : forall db ds a rp, translate_activity db ds = Ok a -> get_single_reference_product ds = Ok rp ->
  e_amount rp <> 0%Qc -> e_name rp <> "refinery gas"%string \/ e_code rp <> None /\ e_code rp <> Some ""%string ->
  exists c, e_code rp = Some c /\ production_codes (b_exchanges a) = [(e_amount rp, (db, c))].
Proof. exact production. Qed.
Print Assumptions C57_production.

(** The other fields. *)
Theorem C57_fields : forall db ds a, translate_activity db ds = Ok a ->
  d_code ds = Some (b_code a) /\ b_name a = d_name ds /\ b_location a = d_location ds /\ b_start a = d_start ds /\
  b_end a = d_end ds /\ b_tech a = d_tech ds /\ b_filepath a = d_filepath ds /\ b_scenario a = d_scenario ds /\
  b_author a = d_author ds /\ b_entry a = d_entry ds /\ b_database a = db /\
  exists rp, rp ∈ d_exchanges ds /\ e_type rp = RefProduct /\ b_refprod a = e_name rp /\ b_unit a = e_unit rp /\ b_production a = e_amount rp.
Proof.
  intros db ds a (c & rp & es & Hc & Hr & _ & ->)%translate_activity_Ok. cbn. repeat (split; [done|]). exists rp.
  unfold get_single_reference_product in Hr. destruct (reference_products ds) as [|x [|y l]] eqn:E; try done. apply Ok_inj in Hr as ->.
  assert (rp ∈ reference_products ds) as H by (rewrite E; by left). unfold reference_products in H. apply filterb_In in H as [Hin Ht].
  apply bool_decide_eq_true_1 in Ht. done.
Qed.
Print Assumptions C57_fields.

(** Which datasets can be exported. *)
Theorem C57_succeeds : forall db ds, (exists a, translate_activity db ds = Ok a) <->
  (exists c, d_code ds = Some c) /\ (exists rp, get_single_reference_product ds = Ok rp) /\
  forall e, e ∈ d_exchanges ds -> e_amount e <> 0%Qc -> e_name e <> "refinery gas"%string \/ (exists c, e_code e = Some c /\ c <> ""%string) ->
    exportable e.
Proof. exact succeeds. Qed.
Print Assumptions C57_succeeds.

(** A whole database: one activity for each dataset, in order. *)
Theorem C57_database : forall data db acts, convert_to_brightway2 data db = Ok acts ->
  Forall2 (fun ds a => translate_activity db ds = Ok a) data acts.
Proof. intros data db acts H. by apply mapR_Ok. Qed.
Print Assumptions C57_database.

Definition ex_flow (t : etype) (n : string) (a : Z) (code : option string) : exchange :=
  set_e_type t (set_e_name n (set_e_amount (Qcint a) (set_e_code code exchange0))).
Definition ex_ds : dataset :=
  set_d_code (Some "me"%string) (set_d_exchanges
   [ex_flow RefProduct "steel" 2 (Some "me"); ex_flow Byproduct "heat" 3 (Some "h"); ex_flow FromTechnosphere "heat" 1 (Some "h");
    ex_flow FromTechnosphere "zero" 0 None; ex_flow FromTechnosphere "steel" 1 (Some "me");
    set_e_compartment (Some "air"%string) (set_e_subcompartment (Some "low"%string) (ex_flow ToEnvironment "CO2" 5 None));
    set_e_compartment (Some "air"%string) (set_e_subcompartment (Some "low"%string) (ex_flow ToEnvironment "CO2" 1 None))]%string dataset0).
Example ex_translated : exists a, translate_activity "db" ex_ds = Ok a /\
  bw_net ("db", "me")%string (b_exchanges a) = Qcint 1 /\ bw_net ("db", "h")%string (b_exchanges a) = Qcint 2 /\
  bw_flow "CO2" "" "air" "low" (b_exchanges a) = Qcint 6 /\ List.length (b_exchanges a) = 6%nat /\
  production_codes (b_exchanges a) = [(Qcint 2, ("db", "me"))]%string.
Proof. eexists. split; [vm_compute; reflexivity|]. repeat split; by_compute. Qed.

(** An input of refinery gas that was not linked is left out without a word; any other
    raises KeyError. *)
Theorem C57_refinery_gas_refuted : exists ds a e, translate_activity "db" ds = Ok a /\ e ∈ d_exchanges ds /\
  e_type e = FromTechnosphere /\ e_amount e <> 0%Qc /\ List.length (b_exchanges a) = 1%nat /\ List.length (d_exchanges ds) = 2%nat /\
  translate_activity "db" (set_d_exchanges (map (set_e_name "other gas") (d_exchanges ds)) ds) = Err (KeyError "code").
Proof.
  exists (set_d_code (Some "me"%string) (set_d_exchanges [ex_flow RefProduct "steel" 2 (Some "me"%string); ex_flow FromTechnosphere "refinery gas" 1 None] dataset0)).
  eexists _, (ex_flow FromTechnosphere "refinery gas" 1 None). split; [vm_compute; reflexivity|].
  split; [right; by left|]. repeat split; by_compute.
Qed.
Print Assumptions C57_refinery_gas_refuted.

(** Elementary flows have no code: one of that name is lost as well. *)
Theorem C57_refinery_flow_refuted : exists ds a, translate_activity "db" ds = Ok a /\
  bw_flow "refinery gas" "" "air" "low" (b_exchanges a) <> flow "refinery gas" "" "air" "low" (d_exchanges ds).
Proof.
  exists (set_d_code (Some "me"%string) (set_d_exchanges [ex_flow RefProduct "steel" 2 (Some "me"%string);
    set_e_compartment (Some "air"%string) (set_e_subcompartment (Some "low"%string) (ex_flow ToEnvironment "refinery gas" 5 None))] dataset0)).
  eexists. split; [vm_compute; reflexivity|]. by_compute.
Qed.
Print Assumptions C57_refinery_flow_refuted.

(** ** C58 *)

(** Only word characters, dots and hyphens. *)
Theorem C58_safe : forall md5 s, Forall letter_digit (md5 s) ->
  Forall (fun c => letter_digit c \/ c = "."%char \/ c = "-"%char) (safe_filename md5 s).
Proof. exact safe_chars. Qed.
Print Assumptions C58_safe.

(** Different strings, different names. *)
Theorem C58_distinct : forall md5 s t, (forall x y, md5 x = md5 y -> x = y) -> safe_filename md5 s = safe_filename md5 t -> s = t.
Proof. exact safe_distinct. Qed.
Print Assumptions C58_distinct.

(** Intermediate results of different steps or functions are in different files. *)
Theorem C58_intermediate : forall md5 i j a b, (forall x y, md5 x = md5 y -> x = y) ->
  intermediate_name md5 i a = intermediate_name md5 j b -> i = j /\ a = b.
Proof. exact intermediate_distinct. Qed.
Print Assumptions C58_intermediate.

Theorem C58_follow : forall i j s t, follow_name i s = follow_name j t -> i = j /\ s = t.
Proof. exact follow_distinct. Qed.
Print Assumptions C58_follow.

(** A hash that is not one but meets the hypotheses: characters as pairs of letters. *)
Definition ex_md5 (s : text) : text :=
  flat_map (fun c => let n := nat_of_ascii c in [ascii_of_nat (65 + n / 16); ascii_of_nat (65 + n mod 16)]) s.
Example ex_hash : forall x y, ex_md5 x = ex_md5 y -> x = y.
Proof.
  assert (forall c d, let n := nat_of_ascii c in let m := nat_of_ascii d in
    ascii_of_nat (65 + n / 16) = ascii_of_nat (65 + m / 16) -> ascii_of_nat (65 + n mod 16) = ascii_of_nat (65 + m mod 16) -> c = d) as H.
  { intros c d n m H1 H2. pose proof (nat_ascii_bounded c) as Hn. pose proof (nat_ascii_bounded d) as Hm. fold n in Hn. fold m in Hm.
    apply (f_equal nat_of_ascii) in H1, H2.
    rewrite !nat_ascii_embedding in H1 by (apply (Nat.lt_le_trans _ (65 + 16)); [apply Nat.add_lt_mono_l, Nat.div_lt_upper_bound; lia|lia]).
    rewrite !nat_ascii_embedding in H2 by (apply (Nat.lt_le_trans _ (65 + 16)); [apply Nat.add_lt_mono_l, Nat.mod_upper_bound; lia|lia]).
    assert (n = m) as E by (rewrite (Nat.div_mod n 16), (Nat.div_mod m 16) by lia; lia).
    rewrite <- (ascii_nat_embedding c), <- (ascii_nat_embedding d). fold n m. by rewrite E. }
  induction x as [|c x IH]; intros [|d y] E; [done|done|done|]. unfold ex_md5 in E. cbn [flat_map app] in E.
  injection E as E1 E2 E3. f_equal; [by apply H|by apply IH].
Qed.
Example ex_hash_safe : Forall letter_digit (ex_md5 (chars "Pa-th / to  x")).
Proof. apply Forall_forall. intros c Hc. apply wordlike_spec. revert c Hc. apply Forall_forall. by_compute. Qed.
Example ex_safe : slug (chars " Pa-th / to  x ") = chars "Pa-th-to-x".
Proof. by_compute. Qed.
Example ex_intermediate : intermediate_name (fun _ => chars "d") 12 (Some (chars "fix it")) = chars "12.fix-it.d.pickle".
Proof. by_compute. Qed.

(** The text to follow is used for the name of a file as it is. *)
Theorem C58_follow_refuted : exists s, "/"%char ∈ follow_name 1 s.
Proof. exists (chars "a/b"). by_compute. Qed.
Print Assumptions C58_follow_refuted.
