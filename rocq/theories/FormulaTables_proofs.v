(** Proofs for C94. *)
From Coq Require Import Ascii.
From Verif Require Import Base Types Uncertainty Utils Strings StringFacts Recalculation Formulas Parameters Spec_Parameters
  Parameters_proofs Spec_Formulas Formulas_proofs Reserved_proofs Spec_References References_proofs References2_proofs References3_proofs References4_proofs
  Tables FormulaTables Spec_FormulaTables.

(** ** Objects one by one *)
Lemma object_rows_total f data data' (g : named -> result named) (R : dataset -> dataset -> pobj -> pobj -> list row -> Prop) :
  mapR (change_dataset g) data = Ok data' ->
  (forall ds ds' o o', changed g o o' -> exists rs, f ds o = Ok rs /\ R ds ds' o o' rs) ->
  exists rows, object_rows f data = Ok rows /\ accounted R data data' rows.
Proof.
  intros H HR. apply mapR_Ok in H. unfold object_rows.
  assert (exists rss, mapR (fun ds => let? rs := mapR (f ds) (all_objs ds) in Ok (concat rs)) data = Ok (map (fun rs => concat rs) rss) /\
    Forall3 (fun ds ds' rs => Forall3 (R ds ds') (all_objs ds) (all_objs ds') rs) data data' rss) as (rss & E & HF).
  { induction H as [|ds ds' data data' Hd _ (rss & IH & IH')]; [exists []; split; [done|constructor]|].
    apply change_dataset_spec in Hd as [_ Hd].
    assert (exists rs, mapR (f ds) (all_objs ds) = Ok rs /\ Forall3 (R ds ds') (all_objs ds) (all_objs ds') rs) as (rs & E & HF).
    { clear IH IH'. induction Hd as [|o o' os os' Ho _ (rs & IH & IH')]; [exists []; split; [done|constructor]|].
      destruct (HR ds ds' o o' Ho) as (r & E & Hr). exists (r :: rs). cbn [mapR]. rewrite E, IH. cbn [bind]. split; [done|by constructor]. }
    exists (rs :: rss). cbn [mapR map]. rewrite E, IH. cbn [bind]. split; [done|by constructor]. }
  rewrite E. cbn [bind]. eexists. split; [done|]. by exists rss.
Qed.

(** ** Mathematics *)
Lemma replace_absent old new s : old <> ""%string -> str_contains old s = false -> str_replace old new s = s.
Proof.
  intros Ho. unfold str_replace. induction s as [|c s IH]; [done|]. cbn [str_contains replace_from]. intros H.
  apply orb_false_iff in H as [H1 H2]. rewrite H1. by rewrite IH.
Qed.
Lemma known_replay name (shows : string -> string -> string -> row -> Prop) (subs : list (string * string)) (f : string) : Forall (fun s => s.1 <> ""%string) subs ->
  (forall f old new, str_contains old f = true -> shows f old new [Txt name; Txt f; Txt old; Txt new]) ->
  replay shows f (known_rows name subs f).1 (known_rows name subs f).2 /\
  (known_rows name subs f).2 = foldl (fun f s => str_replace s.1 s.2 f) f subs.
Proof.
  intros HF HS. revert f. induction HF as [|[bad good] subs Hb _ IH]; intros f; [split; [constructor|done]|].
  cbn [known_rows foldl fst snd] in *. destruct (str_contains bad f) eqn:Ec.
  - destruct (IH (str_replace bad good f)) as [I1 I2]. cbn [fst snd]. split; [|done]. eapply replay_cons; [by apply HS|done].
  - rewrite (replace_absent bad good f Hb Ec). apply IH.
Qed.
Lemma replay_app shows f r1 g r2 h : replay shows f r1 g -> replay shows g r2 h -> replay shows f (r1 ++ r2) h.
Proof. induction 1 as [|f old new r rows g Hs _ IH]; [done|]. intros H2. cbn [app]. econstructor; [done|]. by apply IH. Qed.
Lemma contains_text old s : str_contains (str old) (str s) = true <-> exists a b, s = a ++ old ++ b.
Proof.
  rewrite contains_iff. unfold StringFacts.occurs. split.
  - intros (a & b & H). exists (chars a), (chars b). apply (f_equal chars) in H. by rewrite !chars_app, !chars_str in H.
  - intros (a & b & ->). exists (str a), (str b). by rewrite !str_app.
Qed.
Lemma replace_self s new : s <> [] -> str_replace (str s) new (str s) = new.
Proof.
  intros Hs. pose proof (treplace_match s (chars new) [] Hs) as H. rewrite app_nil_r in H.
  change (treplace s (chars new) []) with (@nil ascii) in H. rewrite app_nil_r in H. unfold treplace in H. rewrite !str_chars in H.
  apply (f_equal str) in H. by rewrite !str_chars in H.
Qed.
Lemma power_search_text s be : power_search s = Some be -> exists a b, s = a ++ power_text be ++ b.
Proof.
  assert (forall s be, power_at s = Some be -> exists b, s = power_text be ++ b) as Hat.
  { clear. intros s be H. unfold power_at in H. destruct (starts POWER s) eqn:Es; [|done]. apply starts_true in Es as [r ->].
    assert (drop 6 (POWER ++ r) = r) as Ed by done. rewrite Ed in H. clear Ed.
    assert (forall s a b, argument s = Some (a, b) -> s = a ++ semicolon :: b) as HA.
    { clear. intros s a b H. unfold argument in H.
      assert (forall s a b, split_semicolon s = Some (a, b) -> s = a ++ semicolon :: b) as HX.
      { clear. induction s as [|c s IH]; intros a b H; [done|]. cbn [split_semicolon] in H. case_bool_decide as Hc.
        - injection H as <- <-. by subst.
        - destruct (split_semicolon s) as [[x y]|]; [|done]. injection H as <- <-. cbn [app]. f_equal. by apply IH. }
      destruct (split_semicolon s) as [[[|x xs] y]|] eqn:E; [done| |done]. injection H as <- <-. by apply HX. }
    destruct (argument r) as [[base [|c s']]|] eqn:Ea; [done| |done]. apply HA in Ea as ->.
    case_bool_decide as Hc; [done|].
    assert (forall s e, until_last_close s = Some e -> exists b, s = e ++ close_paren :: b) as HU.
    { clear. induction s as [|c s IH]; intros e H; [done|]. cbn [until_last_close] in H. case_bool_decide; [done|].
      destruct (until_last_close s) as [r|].
      - injection H as <-. destruct (IH r eq_refl) as [b ->]. by exists b.
      - case_bool_decide as Hc; [|done]. injection H as <-. subst. by exists s. }
    destruct (until_last_close s') as [e|] eqn:Eu; [|done]. injection H as <-. apply HU in Eu as [b ->]. exists b.
    unfold power_text. cbn [fst snd]. rewrite <- !app_assoc. repeat (cbn [app] || rewrite <- app_assoc). done. }
  revert be. induction s as [|c s IH]; intros be H; cbn [power_search] in H.
  - by destruct (power_at []) as [x|] eqn:E.
  - destruct (power_at (c :: s)) as [x|] eqn:E.
    + injection H as ->. apply Hat in E as [b E]. by exists [], b.
    + apply IH in H as (a & b & ->). by exists (c :: a), b.
Qed.
Lemma power_replay pyfloat name fuel s r : power_loop pyfloat fuel s = Ok r ->
  exists rows, power_rows pyfloat name fuel s = Ok rows /\ replay (math_shown name) (str s) rows (str r).
Proof.
  revert s. induction fuel as [|fuel IH]; intros s H; cbn [power_loop power_rows] in *.
  - destruct (power_search s); [done|]. apply Ok_inj in H as <-. exists []. split; [done|constructor].
  - destruct (power_search s) as [be|] eqn:Ep; [|apply Ok_inj in H as <-; exists []; split; [done|constructor]].
    apply bind_Ok in H as (b & -> & H). apply bind_Ok in H as (e & -> & H). cbn [bind].
    set (new := chars "((" ++ b ++ chars ")**(" ++ e ++ chars "))") in *.
    apply IH in H as (rows & E & Hr). change (let? rows := power_rows pyfloat name fuel (text_replace (power_text be) new s) in
      Ok ([Txt name; Txt ""; Txt (str (power_text be)); Txt (str new)] :: rows)) with (bind (power_rows pyfloat name fuel (text_replace (power_text be) new s)) (fun rows =>
      Ok ([Txt name; Txt ""; Txt (str (power_text be)); Txt (str new)] :: rows))). rewrite E. cbn [bind]. eexists. split; [done|].
    apply (replay_cons _ _ (str (power_text be)) (str new)).
    + split; [|by right]. apply contains_text. by apply power_search_text.
    + unfold text_replace in Hr. by rewrite str_chars in Hr.
Qed.
Lemma math_spec pyfloat data data' : fix_math_formulas pyfloat data = Ok data' ->
  exists rows, math_rows pyfloat data = Ok rows /\
    accounted (fun ds _ o o' rs => o_variable o' = o_variable o /\ replayed (math_shown (d_name ds)) o o' rs) data data' rows.
Proof.
  intros H. eapply object_rows_total; [exact H|]. intros ds ds' o o' [_ Ho]. cbn [fst snd] in Ho.
  apply bind_Ok in Ho as (f & Hf & Ho). apply Ok_inj in Ho. injection Ho as Hv Hf'. unfold math_row, replayed.
  destruct (o_formula o) as [g|]; cbn [optR] in Hf.
  - apply bind_Ok in Hf as (g' & Hg & Hf). apply Ok_inj in Hf as <-. unfold fix_math_formula in Hg. cbn zeta in Hg.
    apply bind_Ok in Hg as (line & Hl & Hg). apply bind_Ok in Hg as (p & Hp & Hg). apply Ok_inj in Hg as <-.
    destruct (known_replay (d_name ds) (math_shown (d_name ds)) known_math g) as [K1 K2].
    { repeat constructor; done. }
    { intros. split; [done|by left]. }
    change (foldl (fun f s => str_replace s.1 s.2 f) g known_math) with
      (str_replace crlf "" (str_replace "^" "**" (str_replace "%" "e-2" g))) in K2.
    rewrite <- K2 in Hl. set (r := known_rows (d_name ds) known_math g) in *. rewrite Hl. cbn [bind].
    destruct (power_replay pyfloat (d_name ds) _ _ _ Hp) as (rows & -> & Hr). cbn [bind]. eexists. split; [done|]. split; [done|].
    exists (str p). split; [done|]. eapply replay_app; [exact K1|]. eapply replay_app; [|exact Hr].
    unfold if_rows. destruct (contains_if (chars r.2)) eqn:Ec.
    + rewrite str_chars. apply (replay_cons _ _ r.2 (str line)).
      * split; [|by right]. rewrite <- (str_chars r.2). apply contains_text. exists [], []. by rewrite app_nil_r.
      * assert (str_replace r.2 (str line) r.2 = str line) as ->; [|constructor].
        rewrite <- (str_chars r.2). apply replace_self. intros E. by rewrite E in Ec.
    + rewrite find_if_clause_loop, Ec in Hl. apply Ok_inj in Hl as <-. rewrite str_chars. constructor.
  - apply Ok_inj in Hf as <-. eexists. split; [done|]. done.
Qed.

(** ** Reserved words *)
Lemma starting_fold words f :
  foldl (fun u w => if starts_with_word (chars w) (chars u) then uppercase_word w u else u) f words = capitals f (starting_words words f).
Proof.
  revert f. induction words as [|w words IH]; intros f; [done|]. cbn [foldl starting_words]. rewrite IH.
  by destruct (starts_with_word (chars w) (chars f)).
Qed.
Lemma found_fold words f :
  foldl (fun u w => if has_word true (chars w) (chars u) then uppercase_word w u else u) f words = capitals f (found_words words f).
Proof.
  revert f. induction words as [|w words IH]; intros f; [done|]. cbn [foldl found_words]. rewrite IH.
  by destruct (has_word true (chars w) (chars f)).
Qed.
Lemma starting_words_in words f : Forall (fun w => w ∈ words) (starting_words words f).
Proof.
  revert f. induction words as [|w words IH]; intros f; [constructor|]. cbn [starting_words].
  assert (forall g, Forall (fun x => x ∈ w :: words) (starting_words words g)) as H.
  { intros g. eapply Forall_impl; [apply IH|]. intros x Hx. apply elem_of_cons. auto. }
  destruct (starts_with_word _ _); [constructor; [apply elem_of_cons; auto|]|]; apply H.
Qed.
Lemma found_words_in words f : Forall (fun w => w ∈ words) (found_words words f).
Proof.
  revert f. induction words as [|w words IH]; intros f; [constructor|]. cbn [found_words].
  assert (forall g, Forall (fun x => x ∈ w :: words) (found_words words g)) as H.
  { intros g. eapply Forall_impl; [apply IH|]. intros x Hx. apply elem_of_cons. auto. }
  destruct (has_word _ _ _); [constructor; [apply elem_of_cons; auto|]|]; apply H.
Qed.
Lemma concat_singles {A} (l : list A) : concat (map (fun x => [x]) l) = l.
Proof. induction l as [|x l IH]; [done|]. cbn [map concat app]. by rewrite IH. Qed.
Lemma capitals_app f k l : capitals f (k ++ l) = capitals (capitals f k) l.
Proof. apply foldl_app. Qed.
Lemma reserved_formula_spec words parses name f : exists wss,
  Forall (fun ws => ws <> [] /\ Forall (fun w => w ∈ words) ws) wss /\
  reserved_formula_rows words parses name f = map (fun ws => [Txt name; Txt (String.concat ";" ws); Txt f]) wss /\
  (check_and_fix_formula words parses f = capitals f (concat wss) /\ parses (capitals f (concat wss)) = true \/
   check_and_fix_formula words parses f = f /\ parses (capitals f (concat wss)) = false).
Proof.
  unfold reserved_formula_rows, check_and_fix_formula. cbv zeta. rewrite starting_fold, found_fold.
  set (sw := starting_words words f). set (fw := found_words words (capitals f sw)).
  assert (Forall (fun ws => ws <> [] /\ Forall (fun w => w ∈ words) ws) (map (fun w => [w]) sw)) as HF.
  { apply Forall_map. eapply Forall_impl; [apply starting_words_in|]. intros w Hw. split; [done|by repeat constructor]. }
  assert (forall r, map (fun w => [Txt name; Txt w; Txt f]) sw ++ r =
    map (fun ws => [Txt name; Txt (String.concat ";" ws); Txt f]) (map (fun w => [w]) sw) ++ r) as HM by (intros r; by rewrite map_map).
  destruct (parses (capitals f sw)) eqn:E1; [|destruct (parses (capitals (capitals f sw) fw)) eqn:E2].
  - exists (map (fun w => [w]) sw). split; [done|]. split; [by rewrite HM, app_nil_r|]. left. rewrite concat_singles. done.
  - exists (map (fun w => [w]) sw ++ [fw]). split; [|split].
    + apply Forall_app. split; [done|]. constructor; [|constructor]. split; [|apply found_words_in].
      intros E. rewrite E in E2. change (capitals (capitals f sw) []) with (capitals f sw) in E2. congruence.
    + by rewrite HM, map_app.
    + left. rewrite concat_app, concat_singles. cbn [concat]. rewrite app_nil_r, capitals_app. done.
  - exists (map (fun w => [w]) sw). split; [done|]. split; [by rewrite HM, app_nil_r|]. right. rewrite concat_singles. done.
Qed.
Lemma reserved_spec words parses data data' : replace_reserved_words words parses data = Ok data' ->
  exists rows, reserved_rows words parses data = Ok rows /\
    accounted (fun ds _ => reserved_accounted parses words (d_name ds)) data data' rows.
Proof.
  intros H. eapply object_rows_total; [exact H|]. intros ds ds' o o' [_ Ho]. apply Ok_inj in Ho. injection Ho as Hv Hf. cbn [fst snd] in Hv, Hf.
  eexists. split; [reflexivity|]. unfold reserved_row.
  assert (exists vrows, (vrows = [] /\ o_variable o' = o_variable o \/
     exists v, o_variable o = Some v /\ v ∈ RESERVED_WORDS /\ o_variable o' = Some (upper v) /\ vrows = [[Txt (d_name ds); Txt v; Txt v]]) /\
     match o_variable o with
     | Some v => if bool_decide (v ∈ RESERVED_WORDS) then [[Txt (d_name ds); Txt v; Txt v]] else []
     | None => [] end = vrows) as (vrows & HV & ->).
  { eexists. split; [|reflexivity]. rewrite <- Hv. destruct (o_variable o) as [v|]; [|by left]. cbn. unfold reserved_variable.
    case_bool_decide as E; [|by left]. right. by exists v. }
  destruct (o_formula o) as [f|] eqn:Ef.
  - destruct (reserved_formula_spec words parses (d_name ds) f) as (wss & HF & HM & HC). rewrite HM. exists vrows, wss. eexists.
    split; [reflexivity|]. split; [done|]. split; [done|]. rewrite Ef. split; [done|]. eexists. split; [by rewrite <- Hf|].
    destruct HC as [[-> HC]|[-> HC]]; auto.
  - exists vrows, [], []. split; [done|]. split; [done|]. split; [constructor|]. rewrite Ef. by rewrite <- Hf.
Qed.

(** ** Formulas which cannot be parsed *)
Lemma concat_str l : String.concat "" (map str l) = str (concat l).
Proof.
  induction l as [|x l IH]; [done|]. cbn [map concat]. rewrite str_app, <- IH. destruct l as [|y l]; [|done].
  cbn [map String.concat]. change (str (concat [])) with ""%string. clear. generalize (str x). intros s.
  induction s as [|c s IH]; [done|]. change (String c s +:+ "") with (String c (s +:+ "")). by f_equal.
Qed.
Lemma pieces_concat m (s : text) : (length s <= 40 * m)%nat -> concat (map (fun k => take 40 (drop (40 * k) s)) (seq 0 m)) = s.
Proof.
  revert s. induction m as [|m IH]; intros s H; [by destruct s; cbn in H; [|lia]|].
  cbn [seq map concat]. rewrite <- fmap_S_seq. change (S <$> seq 0 m) with (map S (seq 0 m)). rewrite map_map.
  rewrite (map_ext _ (fun k => take 40 (drop (40 * k) (drop 40 s)))).
  - rewrite IH; [|rewrite drop_length; lia]. replace (40 * 0)%nat with 0%nat by lia. rewrite drop_0. apply take_drop.
  - intros k. rewrite drop_drop. do 2 f_equal. lia.
Qed.
Lemma length_chars s : length (chars s) = String.length s.
Proof. unfold chars. induction s as [|c s IH]; [done|]. cbn. by rewrite IH. Qed.
Lemma length_str s : String.length (str s) = length s.
Proof. by rewrite <- length_chars, chars_str. Qed.
Lemma broken_pieces f : in_pieces f (broken f).
Proof.
  unfold broken. set (n := String.length f). set (m := ((n + 39) / 40)%nat).
  assert (40 * m <= n + 39)%nat as H1 by (apply Nat.mul_div_le; lia).
  assert (n + 39 < 40 * S m)%nat as H2 by (apply Nat.mul_succ_div_gt; lia).
  exists (map (fun k => str (take 40 (drop (40 * k) (chars f)))) (seq 0 m)). split; [|split; [done|split]].
  - rewrite <- (map_map (fun k => take 40 (drop (40 * k) (chars f))) str), concat_str, pieces_concat; [by rewrite str_chars|].
    rewrite length_chars. fold n. lia.
  - apply Forall_map, Forall_forall. intros k [_ Hk]%elem_of_seq. unfold compose. rewrite length_str, take_length, drop_length, length_chars. fold n. lia.
  - intros i p Hp Hi. rewrite map_length, seq_length in Hi. change (map ?g ?l) with (g <$> l) in Hp. rewrite list_lookup_fmap, lookup_seq_lt in Hp by lia.
    injection Hp as <-. rewrite length_str, take_length, drop_length, length_chars. fold n. lia.
Qed.
Lemma deletion_spec parses data data' : delete_unparsable_formulas parses data = Ok data' ->
  exists rows, unparsable_rows parses data = Ok rows /\ accounted (fun ds _ => deletion_shown parses (d_name ds)) data data' rows.
Proof.
  intros H. eapply object_rows_total; [exact H|]. intros ds ds' o o' [_ Ho]. apply Ok_inj in Ho. injection Ho as Hv Hf. cbn [fst snd] in Hv, Hf.
  eexists. split; [reflexivity|]. unfold deletion_shown, unparsable_row. split; [done|].
  destruct (o_formula o) as [f|]; [|by rewrite <- Hf]. destruct (parses f) eqn:E; [by left|]. right. split; [done|]. split; [done|].
  exists (broken f). split; [apply broken_pieces|done].
Qed.

(** ** References *)
Definition grown (ds ds' : dataset) : Prop :=
  unnamed ds' = unnamed ds /\ forall b v, variable_at ds b = Some v -> variable_at ds' b = Some v.
Lemma grown_refl ds : grown ds ds.
Proof. by split. Qed.
Lemma grown_trans a b c : grown a b -> grown b c -> grown a c.
Proof. intros [A1 A2] [B1 B2]. split; [congruence|auto]. Qed.
Lemma grown_ext occ ds ds' : ext occ ds ds' -> grown ds ds'.
Proof. intros H. split; [apply H|]. intros b v. by apply (ext_some occ). Qed.
Lemma grown_value ds ds' p v : grown ds ds' -> value ds p = Some v -> value ds' p = Some v.
Proof. intros [H1 H2]. unfold value. rewrite (tgt_same ds' ds p) by done. destruct (tgt ds p); [apply H2|done]. Qed.
Lemma grown_name ds ds' : unnamed ds' = unnamed ds -> d_name ds' = d_name ds.
Proof. intros H. apply (f_equal d_name) in H. by destruct ds, ds'. Qed.
Definition rrow (name : string) (p : rpiece) (v : string) : row := [Txt name; Txt (str (rpiece_text p)); Txt v].
Definition lstep (a : address) (st : dataset * list row) (p : rpiece) : result (dataset * list row) :=
  match p with
  | RVolume _ _ => logged_reference find_production_volume_by_id "ref_pv_replacement_" a st (found p)
  | _ => logged_reference find_exchange_or_parameter_by_id "ref_replacement_" a st (found p)
  end.
Lemma lstep_spec a ds rows p ds1 : is_reference p -> rstep a ds p = Ok ds1 ->
  exists v, lstep a (ds, rows) p = Ok (ds1, rows ++ [rrow (d_name ds) p v]) /\ value ds1 p = Some v /\ grown ds ds1.
Proof.
  intros Hr H. pose proof H as H'. rewrite rstep_unfold in H' by done. apply bind_Ok in H' as (t & Ht & H'). cbv zeta in H'.
  set (v := match variable_at ds t with Some v => v | None => newname p end) in H'. exists v. split.
  - destruct p as [c|b u|b u]; [done|..]; cbn [rstep lstep tgt] in *; unfold logged_reference; cbn [found fst snd uuid_of] in *.
    + rewrite Ht. cbn [bind]. rewrite H. cbn [bind]. unfold reference_variable, rrow, v, newname. cbn [snd uuid_of]. by rewrite remove_dashes.
    + rewrite Ht. cbn [bind]. rewrite H. cbn [bind]. unfold reference_variable, rrow, v, newname. cbn [snd uuid_of]. by rewrite remove_dashes.
  - set (ds2 := if bool_decide (variable_at ds t = None) then put_variable v ds t else ds) in H'.
    destruct (tgt_referred _ _ _ Ht) as (o & _ & Hto).
    assert (grown ds ds2 /\ variable_at ds2 t = Some v) as [[Hu Hg] Hv].
    { unfold ds2, v. case_bool_decide as E; [|split; [apply grown_refl|by destruct (variable_at ds t)]]. rewrite E. split.
      - split; [apply put_variable_unnamed|]. intros b x Hb. destruct (decide (b = t)) as [->|Hne]; [congruence|].
        rewrite variable_obj, put_variable_obj, decide_False, <- variable_obj by done. done.
      - by rewrite variable_obj, put_variable_obj, decide_True, Hto by done. }
    assert (forall x b, variable_at (put_formula x ds2 a) b = variable_at ds2 b) as Hx.
    { intros x b. rewrite !variable_obj, put_formula_obj. case_decide; [|done]. by destruct (obj_at ds2 b). }
    destruct (formula_at ds2 a) as [f|]; apply Ok_inj in H' as <-.
    + split; [unfold value; rewrite (tgt_same _ ds) by (by rewrite put_formula_unnamed); rewrite Ht, Hx; done|].
      split; [by rewrite put_formula_unnamed|]. intros b x Hb. rewrite Hx. by apply Hg.
    + split; [unfold value; rewrite (tgt_same _ ds) by done; rewrite Ht; done|]. by split.
Qed.
Lemma lsteps_spec a S ds rows ds1 : Forall is_reference S -> foldR (rstep a) ds S = Ok ds1 ->
  exists rs, foldR (lstep a) (ds, rows) S = Ok (ds1, rows ++ rs) /\
    Forall2 (fun p r => exists v, value ds1 p = Some v /\ r = rrow (d_name ds) p v) S rs /\ grown ds ds1.
Proof.
  intros HS. revert ds rows. induction HS as [|p S Hp _ IH]; intros ds rows H; cbn [foldR] in *.
  - apply Ok_inj in H as <-. exists []. rewrite app_nil_r. split; [done|]. split; [constructor|apply grown_refl].
  - apply bind_Ok in H as (ds2 & H1 & H). destruct (lstep_spec a ds rows p ds2 Hp H1) as (v & E & Hv & Hg).
    destruct (IH ds2 (rows ++ [rrow (d_name ds) p v]) H) as (rs & E2 & HF & Hg2). rewrite E. cbn [bind]. rewrite E2.
    exists (rrow (d_name ds) p v :: rs). rewrite <- app_assoc. split; [done|]. split; [|by eapply grown_trans].
    constructor; [exists v; split; [by eapply grown_value|done]|]. rewrite (grown_name ds ds2) in HF by apply Hg. exact HF.
Qed.
Definition shown (ds : dataset) (name : string) (f : option string) (rs : list row) : Prop :=
  match f with
  | None => rs = []
  | Some f => exists l, Forall rpiece_ok l /\ f = str (rtext l) /\
      Forall2 (fun p r => exists v, value ds p = Some v /\ r = rrow name p v) (filterb to_object l ++ filterb to_volume l) rs
  end.
Lemma filterb_ext {A} (f g : A -> bool) l : (forall x, f x = g x) -> filterb f l = filterb g l.
Proof. intros H. apply List.filter_ext. exact H. Qed.
Lemma exch_object l : filterb exch l = filterb to_object l.
Proof. apply filterb_ext. by intros []. Qed.
Lemma volu_volume l : filterb volu l = filterb to_volume l.
Proof. apply filterb_ext. by intros []. Qed.
Lemma filterb_references (f : rpiece -> bool) l : (forall p, f p = true -> is_reference p) -> Forall is_reference (filterb f l).
Proof. intros H. apply Forall_forall. intros p [_ Hp]%elem_filterb. by apply H. Qed.
Lemma logged_of_spec (occ : rpiece -> Prop) (Hocc : forall p, occ p -> is_reference p /\ rpiece_ok p) ds rows a l ds' : noq ds -> Forall rpiece_ok l ->
  formula_at ds a = Some (str (rtext l)) -> (forall p, p ∈ l -> is_reference p -> occ p) -> replace_references_of ds a = Ok ds' ->
  exists rs, logged_references_of (ds, rows) a = Ok (ds', rows ++ rs) /\ shown ds' (d_name ds) (Some (str (rtext l))) rs /\ grown ds ds'.
Proof.
  intros Hn Hl Hf Ho H. rewrite (of_unfold ds a l) in H by done. apply bind_Ok in H as (ds1 & H1 & H).
  destruct (lsteps_spec a (filterb exch l) ds rows ds1) as (rs1 & L1 & F1 & G1); [apply filterb_references; by intros []|done|].
  apply (rsteps_spec occ Hocc a []) with (l := l) in H1 as (He1 & Ho1 & Hv1 & Hf1).
  2:{ intros p [Hp Hk]%elem_filterb. apply Ho; [done|]. by destruct p. } 2,3: done.
  2:{ intros q Hq. by apply elem_of_nil in Hq. }
  2:{ by rewrite expand_nil. }
  cbn [app] in Hv1, Hf1. assert (noq ds1) as Hn1 by by eapply noq_ext.
  rewrite (volumes_unfold ds1 a (expand ds1 (filterb exch l) l)) in H by (done || by apply expand_ok).
  rewrite volumes_expand in H by by intros p [_ Hp]%elem_filterb.
  destruct (lsteps_spec a (filterb volu l) ds1 (rows ++ rs1) ds') as (rs2 & L2 & F2 & G2); [apply filterb_references; by intros []|done|].
  exists (rs1 ++ rs2). split; [|split; [|by eapply grown_trans]].
  - unfold logged_references_of. unfold formula_references at 1. cbn [fst]. rewrite Hf, chars_str.
    change EXCHANGE_END with (ending (RExchange true [])). rewrite references_pieces, foldR_map by done.
    rewrite (foldR_ext_in _ (lstep a)) by (intros c x [_ Hx]%elem_filterb; by destruct x).
    change (kind (RExchange true [])) with exch. rewrite L1. cbn [bind fst].
    unfold formula_references. rewrite Hf1, chars_str. change PV_END with (ending (RVolume true [])).
    rewrite references_pieces, foldR_map by (done || by apply expand_ok). change (kind (RVolume true [])) with volu.
    rewrite volumes_expand by by intros p [_ Hp]%elem_filterb.
    rewrite (foldR_ext_in _ (lstep a)) by (intros c x [_ Hx]%elem_filterb; by destruct x). rewrite L2. by rewrite app_assoc.
  - exists l. split; [done|]. split; [done|]. rewrite exch_object in F1. rewrite volu_volume in F2. apply Forall2_app.
    + eapply Forall2_impl; [exact F1|]. intros p r (v & Hv & ->). exists v. split; [by eapply grown_value|done].
    + by rewrite (grown_name ds ds1) in F2 by apply G1.
Qed.
Lemma shown_grown ds ds' name f rs : grown ds ds' -> shown ds name f rs -> shown ds' name f rs.
Proof.
  intros Hg. destruct f as [f|]; [|done]. intros (l & Hl & -> & HF). exists l. split; [done|]. split; [done|].
  eapply Forall2_impl; [exact HF|]. intros p r (v & Hv & ->). exists v. split; [by eapply grown_value|done].
Qed.
Lemma logged_steps ds0 todo ds rows ds' : readable ds0 -> NoDup todo -> ext (occ_in ds0) ds0 ds ->
  (forall a, a ∈ todo -> formula_at ds a = formula_at ds0 a) -> foldR replace_references_of ds todo = Ok ds' ->
  exists rss, foldR logged_references_of (ds, rows) todo = Ok (ds', rows ++ concat rss) /\ grown ds ds' /\
    Forall2 (fun a rs => shown ds' (d_name ds0) (formula_at ds0 a) rs) todo rss.
Proof.
  intros Hr. revert ds rows. induction todo as [|a todo IH]; intros ds rows Hnd He Hs H; cbn [foldR] in *.
  - apply Ok_inj in H as <-. exists []. rewrite app_nil_r. split; [done|]. split; [apply grown_refl|constructor].
  - apply bind_Ok in H as (ds1 & H1 & H). apply NoDup_cons in Hnd as [Ha Hnd].
    assert (noq ds) as Hn by (eapply (noq_ext (occ_in ds0)); [apply occ_in_ok|exact He|by apply readable_noq]).
    pose proof (Hs a (proj2 (elem_of_cons _ _ _) (or_introl eq_refl))) as Hfa.
    assert (exists rs, logged_references_of (ds, rows) a = Ok (ds1, rows ++ rs) /\ shown ds1 (d_name ds0) (formula_at ds0 a) rs /\
      grown ds ds1 /\ ext (occ_in ds0) ds ds1 /\ forall b, b <> a -> formula_at ds1 b = formula_at ds b) as (rs & L & Sh & Hg & He1 & Ho1).
    { destruct (formula_at ds a) as [s|] eqn:Ef.
      - destruct (readable_formula ds0 a s Hr (eq_sym Hfa)) as (l & Hl & -> & Hocc).
        destruct (logged_of_spec (occ_in ds0) (occ_in_ok ds0) ds rows a l ds1 Hn Hl Ef Hocc H1) as (rs & L & Sh & Hg).
        destruct (of_spec (occ_in ds0) (occ_in_ok ds0) ds a l ds1 Hn Hl Ef Hocc H1) as (He1 & Ho1 & _).
        exists rs. split; [done|]. split; [|done]. rewrite <- Hfa. rewrite <- (grown_name ds0 ds) by apply He. done.
      - rewrite of_none in H1 by done. apply Ok_inj in H1 as <-. exists []. rewrite <- Hfa. split.
        + unfold logged_references_of, formula_references. cbn [fst]. rewrite Ef. cbn [foldR bind fst]. rewrite Ef. cbn [foldR]. by rewrite app_nil_r.
        + split; [done|]. split; [apply grown_refl|]. split; [apply ext_refl|done]. }
    destruct (IH ds1 (rows ++ rs) Hnd) as (rss & L2 & Hg2 & HF); [by eapply ext_trans| |done|].
    { intros b Hb. rewrite Ho1 by (intros ->; done). apply Hs. apply elem_of_cons. auto. }
    exists (rs :: rss). rewrite L. cbn [bind concat]. rewrite L2, app_assoc. split; [done|]. split; [by eapply grown_trans|].
    constructor; [by eapply shown_grown|done].
Qed.

(** The objects in the order of their addresses. *)
Definition owner (a : address) : nat := match a with AtExchange i | AtVolume i | AtProperty i _ => i | AtParameter k => k end.
Lemma addresses_nodup ds : NoDup (addresses ds).
Proof.
  unfold addresses. apply NoDup_app. split; [|split].
  - assert (forall k l, NoDup (concat (imap (fun i e => exchange_addresses (k + i, e)%nat) l)) /\
      forall a, a ∈ concat (imap (fun i e => exchange_addresses (k + i, e)%nat) l) -> (k <= owner a)%nat) as H.
    { intros k l. revert k. induction l as [|e l IH]; intros k; [split; [constructor|intros a Ha; by apply elem_of_nil in Ha]|].
      cbn [imap concat]. rewrite (imap_ext _ (fun i e => exchange_addresses (S k + i, e)%nat)) by (intros i x _; unfold compose; do 2 f_equal; lia).
      destruct (IH (S k)) as [I1 I2]. rewrite Nat.add_0_r.
      assert (forall a, a ∈ exchange_addresses (k, e) -> owner a = k) as Ho.
      { intros a Ha. unfold exchange_addresses in Ha. cbn [fst snd] in Ha. apply elem_of_cons in Ha as [->|Ha]; [done|].
        apply elem_of_cons in Ha as [->|Ha]; [done|]. apply elem_of_lookup_imap in Ha as (j & p & -> & _). done. }
      split.
      - apply NoDup_app. split; [|split; [|done]].
        + unfold exchange_addresses. cbn [fst snd]. assert (forall a, a ∈ imap (fun j (_ : prop) => AtProperty k j) (e_props e) -> exists j, a = AtProperty k j) as Hp.
          { intros a Ha. apply elem_of_lookup_imap in Ha as (j & p & -> & _). by exists j. }
          apply NoDup_cons. split; [intros [Hc|Hc]%elem_of_cons; [done|by apply Hp in Hc as [j Hc]]|].
          apply NoDup_cons. split; [intros Hc; by apply Hp in Hc as [j Hc]|].
          apply NoDup_alt. intros i j x Hi Hj. rewrite list_lookup_imap in Hi, Hj. destruct (e_props e !! i), (e_props e !! j); try done.
          cbn in Hi, Hj. congruence.
        + intros a Ha Hc. apply Ho in Ha. apply I2 in Hc. lia.
      - intros a [Ha|Ha]%elem_of_app; [apply Ho in Ha; lia|apply I2 in Ha; lia]. }
    apply (H 0%nat).
  - intros a Ha Hc. apply elem_of_lookup_imap in Hc as (k & q & -> & _). apply elem_of_list_In, in_concat in Ha as (x & Hx & Ha).
    apply elem_of_list_In in Hx, Ha. apply elem_of_lookup_imap in Hx as (i & e & -> & _). unfold exchange_addresses in Ha. cbn [fst snd] in Ha.
    apply elem_of_cons in Ha as [Ha|Ha]; [done|]. apply elem_of_cons in Ha as [Ha|Ha]; [done|]. by apply elem_of_lookup_imap in Ha as (j & p & Ha & _).
  - apply NoDup_alt. intros i j x Hi Hj. rewrite list_lookup_imap in Hi, Hj. destruct (d_params ds !! i), (d_params ds !! j); try done.
    cbn in Hi, Hj. congruence.
Qed.
Lemma imap_seq {A B} (F : nat -> B) (l : list A) : imap (fun j _ => F j) l = map F (seq 0 (length l)).
Proof.
  revert F. induction l as [|x l IH]; intros F; [done|]. cbn [imap length seq map]. f_equal. unfold compose. rewrite (IH (fun j => F (S j))).
  rewrite <- fmap_S_seq. change (S <$> seq 0 (length l)) with (map S (seq 0 (length l))). by rewrite map_map.
Qed.
Lemma cons_inv {A} (x y : A) k l : x :: k = y :: l -> x = y /\ k = l.
Proof. intros [= -> ->]. done. Qed.
Lemma addresses_same ds ds' : unnamed ds' = unnamed ds -> addresses ds' = addresses ds.
Proof.
  intros H. assert (forall d, addresses d = concat (imap (fun i n => AtExchange i :: AtVolume i :: map (AtProperty i) (seq 0 n))
     (map (fun e => length (e_props e)) (d_exchanges d))) ++ map AtParameter (seq 0 (length (d_params d)))) as E.
  { intros d. unfold addresses. rewrite imap_seq. f_equal. f_equal. change (map ?g ?l) with (g <$> l). rewrite imap_fmap. apply imap_ext.
    intros i e _. unfold exchange_addresses, compose. cbn [fst snd]. by rewrite imap_seq. }
  rewrite !E. pose proof (unnamed_exchanges _ _ H) as He. pose proof (unnamed_params _ _ H) as Hp. f_equal.
  - do 2 f_equal. revert He. generalize (d_exchanges ds), (d_exchanges ds'). intros l l'. revert l.
    induction l' as [|e l' IH]; intros [|e' l] He; try done. cbn [map] in He |- *. apply cons_inv in He as [He Hl]. f_equal; [|by apply IH].
    apply unnamed_props, (f_equal (@length _)) in He. by rewrite !map_length in He.
  - do 2 f_equal. apply (f_equal (@length _)) in Hp. by rewrite !map_length in Hp.
Qed.
Lemma omap_app {A B} (f : A -> option B) k l : omap f (k ++ l) = omap f k ++ omap f l.
Proof. induction k as [|x k IH]; [done|]. cbn. destruct (f x); cbn; by rewrite IH. Qed.
Lemma all_objs_at ds : all_objs ds = omap (obj_at ds) (addresses ds).
Proof.
  unfold all_objs, addresses. rewrite omap_app. f_equal.
  - assert (forall pre l, d_exchanges ds = pre ++ l ->
      concat (map exchange_objs l) = omap (obj_at ds) (concat (imap (fun i e => exchange_addresses (length pre + i, e)%nat) l))) as H.
    { intros pre l. revert pre. induction l as [|e l IH]; intros pre E; [done|]. cbn [map imap concat]. rewrite omap_app. f_equal.
      - rewrite Nat.add_0_r. assert (d_exchanges ds !! length pre = Some e) as Hi by (rewrite E; by apply list_lookup_middle).
        unfold exchange_objs, exchange_addresses. cbn [fst snd omap list_omap obj_at]. rewrite Hi. cbn. f_equal.
        assert (map p_obj (e_props e) = omap (obj_at ds) (imap (fun j _ => AtProperty (length pre) j) (e_props e))) as ->; [|by destruct (e_pv e)].
        assert (forall pp ps, e_props e = pp ++ ps -> map p_obj ps = omap (obj_at ds) (imap (fun j _ => AtProperty (length pre) (length pp + j)%nat) ps)) as HP.
        { intros pp ps. revert pp. induction ps as [|p ps IHp]; intros pp Ep; [done|]. cbn [map imap omap list_omap obj_at]. rewrite Hi. cbn [option_bind mbind].
          rewrite Nat.add_0_r, Ep, (list_lookup_middle _ _ p) by done. cbn [fmap option_fmap option_map]. f_equal. rewrite (IHp (pp ++ [p])) by (by rewrite <- app_assoc).
          f_equal. apply imap_ext. intros i x _. unfold compose. rewrite app_length. cbn [length]. f_equal. lia. }
        apply (HP [] (e_props e)). done.
      - rewrite (IH (pre ++ [e])) by (by rewrite <- app_assoc). do 2 f_equal. apply imap_ext. intros i x _. unfold compose. rewrite app_length. cbn [length].
        do 2 f_equal. lia. }
    apply (H [] (d_exchanges ds)). done.
  - assert (forall pre l, d_params ds = pre ++ l -> map q_obj l = omap (obj_at ds) (imap (fun k _ => AtParameter (length pre + k)%nat) l)) as H.
    { intros pre l. revert pre. induction l as [|q l IH]; intros pre E; [done|]. cbn [map imap omap list_omap obj_at].
      rewrite Nat.add_0_r, E, (list_lookup_middle _ _ q) by done. cbn [fmap option_fmap option_map]. f_equal. rewrite (IH (pre ++ [q])) by (by rewrite <- app_assoc).
      f_equal. apply imap_ext. intros i x _. unfold compose. rewrite app_length. cbn [length]. f_equal. lia. }
    apply (H [] (d_params ds)). done.
Qed.
Lemma shown_spec ds name o rs : shown ds name (o_formula o) rs -> references_shown ds name o rs.
Proof.
  unfold shown, references_shown. destruct (o_formula o) as [f|]; [|done]. intros (l & Hl & Hf & HF). exists l. split; [done|]. split; [done|].
  eapply Forall2_impl; [exact HF|]. intros p r (v & Hv & ->). unfold value in Hv. destruct (tgt ds p) as [t|] eqn:Et; [|done].
  apply tgt_referred in Et as (o' & Ho & Ht). rewrite variable_obj, Ht in Hv. exists o', v. done.
Qed.
Lemma references_spec data data' : Forall readable data -> replace_implicit_references data = Ok data' ->
  exists rows, reference_rows data = Ok rows /\
    accounted (fun ds ds' o _ => references_shown ds' (d_name ds) o) data data' rows.
Proof.
  intros Hr H. apply mapR_Ok in H. unfold reference_rows.
  assert (exists rss, mapR (fun ds => foldR logged_references_of (ds, []) (addresses ds)) data = Ok (zip data' (map (fun rs => concat rs) rss)) /\
    length rss = length data' /\
    Forall3 (fun ds ds' rs => Forall3 (fun o _ => references_shown ds' (d_name ds) o) (all_objs ds) (all_objs ds') rs) data data' rss) as (rss & E & Hlen & HF).
  { induction H as [|ds ds' data data' Hd _ IH]; [exists []; split; [done|]; split; [done|constructor]|].
    apply Forall_cons in Hr as [Hr1 Hr]. destruct (IH Hr) as (rss & I1 & I2 & I3).
    destruct (logged_steps ds (addresses ds) ds [] ds' Hr1 (addresses_nodup ds) (ext_refl _ ds)) as (xs & L & Hg & HF); [done|done|].
    cbn [app] in L.
    assert (exists rs, concat rs = concat xs /\ Forall3 (fun o _ => references_shown ds' (d_name ds) o) (all_objs ds) (all_objs ds') rs) as (rs & Ers & H3).
    { rewrite !all_objs_at, (addresses_same ds ds') by apply Hg. clear L I1 I2 I3.
      assert (forall a, obj_at ds a = None <-> obj_at ds' a = None) as Hdef.
      { intros a. assert (forall d d', unnamed d' = unnamed d -> obj_at d a = None -> obj_at d' a = None) as HH.
        { intros d d' Hu Hn. destruct a as [i|i|i j|k]; cbn [obj_at] in *.
          - destruct (d_exchanges d' !! i) as [e|] eqn:Ei; [|done]. exfalso. destruct (same_exchange_at d' d i e Hu Ei) as (e' & Hi & _). by rewrite Hi in Hn.
          - destruct (d_exchanges d' !! i) as [e|] eqn:Ei; [|done]. destruct (same_exchange_at d' d i e Hu Ei) as (e' & Hi & Hx). rewrite Hi in Hn. cbn in Hn |- *.
            pose proof (unnamed_has_pv _ _ Hx) as Hv. by destruct (e_pv e), (e_pv e').
          - destruct (d_exchanges d' !! i) as [e|] eqn:Ei; [|done]. destruct (same_exchange_at d' d i e Hu Ei) as (e' & Hi & Hx). rewrite Hi in Hn. cbn in Hn |- *.
            pose proof (map_lookup_same unnamed_prop _ _ j (unnamed_props _ _ Hx)) as Hv. by destruct (e_props e !! j), (e_props e' !! j).
          - destruct (d_params d' !! k) as [q|] eqn:Ei; [|done]. exfalso. destruct (same_param_at d' d k q Hu Ei) as (q' & Hi & _). by rewrite Hi in Hn. }
        split; apply HH; [apply Hg|symmetry; apply Hg]. }
      clear Hd. induction HF as [|a rs as_ xs Hs _ (rss' & I1 & I2)]; [exists []; split; [done|cbn; constructor]|].
      change (omap ?f (a :: as_)) with (match f a with Some y => y :: omap f as_ | None => omap f as_ end).
      rewrite formula_obj in Hs. specialize (Hdef a) as Hd'. destruct (obj_at ds a) as [o|], (obj_at ds' a) as [o'|].
      - exists (rs :: rss'). cbn [concat]. split; [by rewrite I1|]. constructor; [by apply shown_spec|done].
      - by assert (Some o = None) by by apply Hd'.
      - by assert (Some o' = None) by by apply Hd'.
      - exists rss'. cbn [concat]. cbn in Hs. subst rs. done. }
    exists (rs :: rss). cbn [mapR map zip zip_with]. rewrite L, I1. cbn [bind]. rewrite Ers. split; [done|]. split; [cbn; by rewrite I2|by constructor]. }
  rewrite E. cbn [bind]. eexists. split; [reflexivity|]. exists rss. split; [|done]. f_equal.
  change (map snd ?l) with (snd <$> l). apply snd_zip. rewrite map_length. lia.
Qed.
