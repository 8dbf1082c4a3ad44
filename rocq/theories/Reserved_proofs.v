(** Proofs for C47: reserved words in variables and formulas. *)
From Coq Require Import Ascii.
From Verif Require Import Base Types Uncertainty Utils Strings StringFacts Recalculation Formulas Parameters Spec_Parameters
  Parameters_proofs Spec_Formulas Formulas_proofs.

(** *** Replacing in texts *)
Definition treplace (old new s : text) : text := chars (str_replace (str old) (str new) (str s)).
Lemma chars_str s : chars (str s) = s.
Proof. apply list_ascii_of_string_of_list_ascii. Qed.
Lemma str_chars s : str (chars s) = s.
Proof. apply string_of_list_ascii_of_string. Qed.
Lemma str_app s t : str (s ++ t) = (str s ++ str t)%string.
Proof. induction s as [|c s IH]; [done|]. cbn [app string_of_list_ascii]. rewrite IH. done. Qed.
Lemma chars_app s t : chars (s ++ t)%string = chars s ++ chars t.
Proof. rewrite <- (chars_str (chars s ++ chars t)), str_app, !str_chars. done. Qed.
Lemma length_str s : String.length (str s) = length s.
Proof. induction s as [|c s IH]; [done|]. cbn. by rewrite IH. Qed.
Lemma startswith_text p s : str_startswith (str p) (str s) = starts p s.
Proof.
  revert s. induction p as [|c p IH]; intros s; [done|]. destruct s as [|d s]; [done|]. cbn. rewrite IH. f_equal.
  destruct (Ascii.eqb_spec c d); [by rewrite bool_decide_eq_true_2|by rewrite bool_decide_eq_false_2].
Qed.
Lemma treplace_nil old new : treplace old new [] = [].
Proof. done. Qed.
Lemma treplace_other old new c s : starts old (c :: s) = false -> treplace old new (c :: s) = c :: treplace old new s.
Proof.
  intros H. unfold treplace, str_replace. cbn [string_of_list_ascii replace_from].
  change (String c (str s)) with (str (c :: s)). rewrite startswith_text, H. done.
Qed.
Lemma replace_skip old new k s : (k <= length s)%nat ->
  replace_from old new k (str s) = replace_from old new 0 (str (drop k s)).
Proof.
  revert k. induction s as [|c s IH]; intros k Hk; [by destruct k|]. destruct k as [|k]; [done|]. cbn in *. apply IH. lia.
Qed.
Lemma treplace_match old new s : old <> [] -> treplace old new (old ++ s) = new ++ treplace old new s.
Proof.
  intros Ho. unfold treplace, str_replace. destruct old as [|c old]; [done|]. set (o := c :: old) in *.
  assert (exists t, o ++ s = c :: t /\ t = old ++ s) as (t & E & Et) by by exists (old ++ s).
  assert (starts o (c :: t) = true) as Hs by (rewrite <- E; apply starts_app).
  rewrite E. cbn [string_of_list_ascii replace_from]. change (String c (str t)) with (str (c :: t)). rewrite startswith_text, Hs.
  rewrite chars_app, chars_str. f_equal. f_equal.
  rewrite length_str. unfold o. cbn [length]. replace (S (length old) - 1)%nat with (length old) by lia.
  rewrite replace_skip; [|rewrite Et, app_length; lia]. by rewrite Et, drop_length_app.
Qed.
Lemma starts_dec old s : (exists r, s = old ++ r) \/ starts old s = false.
Proof. destruct (starts old s) eqn:E; [|by right]. left. by apply starts_true in E. Qed.

(** *** Case *)
Lemma same_letters_refl s : same_letters s s.
Proof. by apply lower_same_letters. Qed.
Lemma same_letters_trans s t u : same_letters s t -> same_letters t u -> same_letters s u.
Proof. rewrite <- !lower_same_letters. congruence. Qed.
Lemma nat_upper c : nat_of_ascii (upper_ascii c) =
  if bool_decide (97 <= nat_of_ascii c <= 122)%nat then (nat_of_ascii c - 32)%nat else nat_of_ascii c.
Proof. destruct c as [[] [] [] [] [] [] [] []]; vm_compute; reflexivity. Qed.
Lemma upper_same_letter c : same_letter c (upper_ascii c).
Proof. unfold same_letter. rewrite nat_upper. case_bool_decide; [lia|]. left. apply nat_of_ascii_inj. rewrite nat_upper. by rewrite bool_decide_eq_false_2. Qed.
Lemma upper_letters w : Forall2 same_letter w (map upper_ascii w).
Proof. induction w; cbn [map]; constructor; [apply upper_same_letter|done]. Qed.
Lemma chars_upper s : chars (upper s) = map upper_ascii (chars s).
Proof. unfold upper. apply chars_str. Qed.
Lemma treplace_letters old new s : old <> [] -> Forall2 same_letter old new -> Forall2 same_letter s (treplace old new s).
Proof.
  intros Ho Hn. remember (length s) as n eqn:En. revert s En. induction (lt_wf n) as [n _ IH]; intros s ->.
  destruct s as [|c s]; [rewrite treplace_nil; constructor|]. destruct (starts_dec old (c :: s)) as [(r & E)|E].
  - rewrite E. rewrite treplace_match by done. apply Forall2_app; [done|]. apply (IH (length r)); [|done].
    rewrite E, app_length. destruct old; [done|]. cbn. lia.
  - rewrite treplace_other by done. constructor; [by left|]. apply (IH (length s)); [cbn; lia|done].
Qed.
Lemma uppercase_word_text w f : chars (uppercase_word w f) = treplace (chars w) (chars (upper w)) (chars f).
Proof. unfold treplace. by rewrite !str_chars. Qed.
Lemma uppercase_word_letters w f : w <> ""%string -> same_letters f (uppercase_word w f).
Proof.
  intros Hw. unfold same_letters. rewrite uppercase_word_text. apply treplace_letters; [by destruct w|]. rewrite chars_upper. apply upper_letters.
Qed.
Lemma fold_letters (test : string -> string -> bool) words f : Forall (fun w => w <> ""%string) words ->
  same_letters f (foldl (fun u w => if test w u then uppercase_word w u else u) f words).
Proof.
  intros Hw. revert f. induction Hw as [|w words Hw _ IH]; intros f; cbn [foldl]; [apply same_letters_refl|].
  destruct (test w f); [|apply IH]. eapply same_letters_trans; [by apply uppercase_word_letters|apply IH].
Qed.
Lemma reserved_nonempty w : w ∈ RESERVED_WORDS -> w <> ""%string.
Proof. intros H ->. revert H. apply (bool_decide_unpack _). by vm_compute. Qed.
Lemma check_and_fix_letters words parses f : (forall w, w ∈ words -> w ∈ RESERVED_WORDS) -> same_letters f (check_and_fix_formula words parses f).
Proof.
  intros Hw. assert (Forall (fun w => w <> ""%string) words) as Hne.
  { apply Forall_forall. intros w H. by apply reserved_nonempty, Hw. }
  unfold check_and_fix_formula. destruct (parses _); [by apply (fold_letters (fun w u => starts_with_word (chars w) (chars u)))|].
  destruct (parses _); [|apply same_letters_refl].
  eapply same_letters_trans; [by apply (fold_letters (fun w u => starts_with_word (chars w) (chars u)))|].
  by apply (fold_letters (fun w u => has_word true (chars w) (chars u))).
Qed.
Lemma check_and_fix_parses words parses f : check_and_fix_formula words parses f = f \/ parses (check_and_fix_formula words parses f) = true.
Proof.
  unfold check_and_fix_formula. destruct (parses (foldl _ f words)) eqn:E; [by right|]. destruct (parses (foldl _ (foldl _ f words) words)) eqn:E2; [by right|by left].
Qed.
Lemma fold_no_start (words : list string) f : (forall w, w ∈ words -> starts_with_word (chars w) (chars f) = false) ->
  foldl (fun u w => if starts_with_word (chars w) (chars u) then uppercase_word w u else u) f words = f.
Proof.
  intros H. induction words as [|w words IH]; [done|]. cbn [foldl]. rewrite H by left. apply IH. intros w' Hw'. apply H. by right.
Qed.
Lemma check_and_fix_unchanged words parses f : parses f = true ->
  (forall w, w ∈ words -> starts_with_word (chars w) (chars f) = false) -> check_and_fix_formula words parses f = f.
Proof. intros Hp Hs. unfold check_and_fix_formula. rewrite fold_no_start by done. by rewrite Hp. Qed.

(** *** Variables *)
Lemma upper_not_reserved w : w ∈ RESERVED_WORDS -> upper w ∉ RESERVED_WORDS.
Proof.
  assert (Forall (fun w => upper w ∉ RESERVED_WORDS) RESERVED_WORDS) as H by (apply (bool_decide_unpack _); by vm_compute).
  rewrite Forall_forall in H. apply H.
Qed.
Lemma reserved_variable_free v : reserved_variable v ∉ RESERVED_WORDS.
Proof. unfold reserved_variable. case_bool_decide; [by apply upper_not_reserved|done]. Qed.
Lemma reserved_variable_inj v w : lower v = v -> lower w = w -> reserved_variable v = reserved_variable w -> v = w.
Proof.
  assert (Forall (fun v => lower v = v -> lower (upper v) = v /\ lower (upper v) <> upper v) RESERVED_WORDS) as H.
  { apply (bool_decide_unpack _). by vm_compute. }
  rewrite Forall_forall in H. unfold reserved_variable. intros Hv Hw. case_bool_decide as H1; case_bool_decide as H2; intros E; try done.
  - destruct (H _ H1 Hv) as [E1 _]. destruct (H _ H2 Hw) as [E2 _]. congruence.
  - destruct (H _ H1 Hv) as [E1 E1']. congruence.
  - destruct (H _ H2 Hw) as [E2 E2']. congruence.
Qed.
Lemma reserved_spec words parses data : exists data', replace_reserved_words words parses data = Ok data' /\
  Forall2 (renamed (fun o o' =>
    match o_variable o, o_variable o' with
    | Some v, Some v' => v' = if bool_decide (v ∈ RESERVED_WORDS) then upper v else v
    | None, None => True
    | _, _ => False
    end /\ o_formula o' = check_and_fix_formula words parses <$> o_formula o)) data data'.
Proof.
  destruct (change_all_pure (fun n => (reserved_variable <$> n.1, check_and_fix_formula words parses <$> n.2)) data) as [data' H].
  exists data'. split; [exact H|].
  apply change_all_spec in H. eapply Forall2_impl; [exact H|]. intros ds ds' [H1 H2]. split; [done|].
  eapply Forall2_impl; [exact H2|]. intros o o' [H3 H4]. split; [done|]. apply Ok_inj in H4. cbn in H4. injection H4 as <- <-.
  split; [|done]. by destruct (o_variable o).
Qed.

(** *** Names in formulas *)
Lemma pieces_text_cons p l : pieces_text (p :: l) = piece_text p ++ pieces_text l.
Proof. done. Qed.
Definition is_word (w : text) : Prop := w <> [] /\ Forall (fun c => word_char c = true) w.
(** What comes after a name. *)
Definition stops (s : text) : Prop := match s with [] => True | c :: _ => word_char c = false end.
Lemma pieces_stop l : pieces_ok l -> match l with Name _ :: _ => False | _ => True end -> stops (pieces_text l).
Proof. destruct l as [|[s|c] l]; [done|done|]. intros [H _] _. exact H. Qed.
Lemma word_prefix w s rest r : is_word w -> stops rest -> s ++ rest = w ++ r -> exists post, s = w ++ post.
Proof.
  intros [Hne Hw] Hst E. apply app_eq_inv in E as [(k & -> & E)|(k & -> & E)].
  - by exists k.
  - destruct k as [|c k]; [exists []; by rewrite !app_nil_r|]. destruct rest as [|d rest]; [done|]. cbn in E. injection E as -> E.
    apply Forall_app in Hw as [_ Hw]. apply Forall_cons in Hw as [Hw _]. cbn in Hst. congruence.
Qed.
Lemma treplace_through w u s rest : is_word w -> stops rest -> (forall pre post, s <> pre ++ w ++ post) ->
  treplace w u (s ++ rest) = s ++ treplace w u rest.
Proof.
  intros Hw Hst. induction s as [|c s IH]; intros Hn; [done|]. cbn [app].
  destruct (starts_dec w (c :: s ++ rest)) as [(r & E)|E].
  - exfalso. destruct (word_prefix w (c :: s) rest r Hw Hst E) as [post Hp]. by apply (Hn [] post).
  - rewrite treplace_other by done. f_equal. apply IH. intros pre post ->. by apply (Hn (c :: pre) post).
Qed.
Lemma replace_pieces w u l : is_word w -> pieces_ok l -> (forall s pre post, Name s ∈ l -> s = pre ++ w ++ post -> s = w) ->
  treplace w u (pieces_text l) = pieces_text (map (ren w u) l).
Proof.
  intros Hw. induction l as [|p l IH]; intros Hok Hin; [done|]. rewrite pieces_text_cons. cbn [map]. rewrite pieces_text_cons.
  destruct p as [s|c]; cbn [piece_text ren].
  - destruct Hok as (Hs1 & Hs2 & Hs3 & Hok). rewrite <- IH; [|done|intros s' pre post H; apply Hin; by right].
    case_bool_decide as E.
    + subst s. by rewrite treplace_match by apply Hw.
    + apply treplace_through; [done|by apply pieces_stop|]. intros pre post Hp. apply E. apply (Hin s pre post); [by left|done].
  - destruct Hok as [Hc Hok]. cbn [app]. rewrite treplace_other.
    + f_equal. apply IH; [done|]. intros s' pre post H. apply Hin. by right.
    + destruct (starts_dec w (c :: pieces_text l)) as [(r & E)|E]; [|done]. exfalso. destruct Hw as [Hne Hw]. destruct w as [|d w]; [done|].
      cbn in E. injection E as -> _. apply Forall_cons in Hw as [Hw _]. congruence.
Qed.
Lemma letter_word c : letter c = true -> word_char c = true.
Proof. destruct c as [[] [] [] [] [] [] [] []]; by vm_compute. Qed.
Lemma sign_letter c : word_char c = false -> letter c = false.
Proof. intros H. destruct (letter c) eqn:E; [|done]. apply letter_word in E. congruence. Qed.
Lemma has_word_here w rest b : b = true -> match rest with c :: _ => letter c = false | [] => True end -> has_word b w (w ++ rest) = true.
Proof.
  intros -> Hr. assert (forall s, (starts w s && match drop (length w) s with c :: _ => negb (letter c) | [] => true end) = true -> has_word true w s = true) as H.
  { intros s Hs. destruct s; cbn [has_word]; cbn [andb]; rewrite Hs; done. }
  apply H. rewrite starts_app, drop_length_app. destruct rest as [|c rest]; [done|]. by rewrite Hr.
Qed.
Lemma has_word_later b w c s : has_word (negb (letter c)) w s = true -> has_word b w (c :: s) = true.
Proof. intros H. cbn [has_word]. rewrite H. by rewrite orb_true_r. Qed.
Lemma has_word_through b w s rest : (forall b', has_word b' w rest = true) -> has_word b w (s ++ rest) = true.
Proof. intros H. revert b. induction s as [|c s IH]; intros b; [apply H|]. cbn [app]. apply has_word_later, IH. Qed.
Lemma has_word_pieces b w l : pieces_ok l -> Name w ∈ l -> match l with Name _ :: _ => b = true | _ => True end ->
  has_word b w (pieces_text l) = true.
Proof.
  revert b. induction l as [|p l IH]; intros b Hok Hin Hb; [by apply elem_of_nil in Hin|]. rewrite pieces_text_cons.
  apply elem_of_cons in Hin as [<-|Hin].
  - destruct Hok as (_ & _ & Hs3 & Hok). cbn [piece_text]. apply has_word_here; [done|].
    pose proof (pieces_stop l Hok Hs3) as Hst. destruct (pieces_text l) as [|c rest]; [done|]. by apply sign_letter.
  - destruct p as [s|c]; cbn [piece_text].
    + destruct Hok as (_ & _ & Hs3 & Hok). apply has_word_through. intros b'. apply IH; [done..|]. by destruct l as [|[]].
    + destruct Hok as [Hc Hok]. cbn [app]. apply has_word_later. apply IH; [done..|]. destruct l as [|[]]; [done| |done]. by rewrite sign_letter.
Qed.

Definition clean (l : list piece) : Prop := pieces_ok l /\ no_word_inside l.
Lemma word_char_upper c : word_char c = true -> word_char (upper_ascii c) = true.
Proof. destruct c as [[] [] [] [] [] [] [] []]; by vm_compute. Qed.
Lemma reserved_is_word w : w ∈ RESERVED_WORDS -> is_word (chars w).
Proof.
  assert (Forall (fun w => chars w <> [] /\ Forall (fun c => word_char c = true) (chars w)) RESERVED_WORDS) as H.
  { apply (bool_decide_unpack _). by vm_compute. }
  rewrite Forall_forall in H. apply H.
Qed.
Lemma upper_is_word w : w ∈ RESERVED_WORDS -> is_word (chars (upper w)).
Proof.
  intros H. destruct (reserved_is_word w H) as [H1 H2]. rewrite chars_upper. split; [by destruct (chars w)|].
  clear H1. induction H2; cbn [map]; constructor; [by apply word_char_upper|done].
Qed.
Lemma upper_no_reserved w w' pre post : w ∈ RESERVED_WORDS -> w' ∈ RESERVED_WORDS -> chars (upper w) <> pre ++ chars w' ++ post.
Proof.
  intros Hw Hw' E.
  assert (Forall (fun w => Exists (fun c => upper_ascii c <> c) (chars w)) RESERVED_WORDS) as H.
  { apply (bool_decide_unpack _). by vm_compute. }
  rewrite Forall_forall in H. specialize (H w' Hw'). apply Exists_exists in H as (c & Hc & Hcu).
  assert (c ∈ chars (upper w)) as Hin by (rewrite E, !elem_of_app; auto).
  rewrite chars_upper in Hin. apply elem_of_list_fmap in Hin as (d & -> & _). apply Hcu.
  apply nat_of_ascii_inj. rewrite !nat_upper. repeat case_bool_decide; lia.
Qed.
Lemma pieces_ok_ren w u l : is_word u -> pieces_ok l -> pieces_ok (map (ren w u) l).
Proof.
  intros [Hu1 Hu2]. induction l as [|[s|c] l IH]; [done|..]; cbn [map ren pieces_ok].
  - intros (H1 & H2 & H3 & H4). split; [by case_bool_decide|]. split; [by case_bool_decide|]. split; [|by apply IH]. by destruct l as [|[]].
  - intros [H1 H2]. split; [done|]. by apply IH.
Qed.
Lemma clean_ren w l : w ∈ RESERVED_WORDS -> clean l -> clean (map (ren (chars w) (chars (upper w))) l).
Proof.
  intros Hw [H1 H2]. split; [apply pieces_ok_ren; [by apply upper_is_word|done]|].
  intros s w' pre post Hin Hw' E. apply elem_of_list_fmap in Hin as ([s0|c] & Hs & Hin); [|done]. cbn [ren] in Hs. injection Hs as ->.
  case_bool_decide as Hs; [by apply upper_no_reserved in E|]. by apply (H2 s0 w' pre post).
Qed.
Lemma ren_absent w u l : Name w ∉ l -> map (ren w u) l = l.
Proof.
  induction l as [|[s|c] l IH]; [done|..]; cbn [map ren]; intros H; apply not_elem_of_cons in H as [H1 H2]; rewrite IH by done; [|done].
  rewrite bool_decide_eq_false_2; [done|]. congruence.
Qed.
Lemma str_pieces_inj s t : str s = str t -> s = t.
Proof. intros H. by rewrite <- (chars_str s), H, chars_str. Qed.
Lemma clean_inside w l : w ∈ RESERVED_WORDS -> no_word_inside l -> forall s pre post, Name s ∈ l -> s = pre ++ chars w ++ post -> s = chars w.
Proof. intros Hw H s pre post Hs E. by apply (H s w pre post). Qed.
Lemma uppercase_pieces w l : w ∈ RESERVED_WORDS -> clean l ->
  uppercase_word w (str (pieces_text l)) = str (pieces_text (map (ren (chars w) (chars (upper w))) l)).
Proof.
  intros Hw [H1 H2]. apply chars_inj. rewrite uppercase_word_text, !chars_str.
  apply replace_pieces; [by apply reserved_is_word|done|by apply clean_inside].
Qed.
Lemma word_step w l : w ∈ RESERVED_WORDS -> clean l ->
  (if has_word true (chars w) (chars (str (pieces_text l))) then uppercase_word w (str (pieces_text l)) else str (pieces_text l))
  = str (pieces_text (map (ren (chars w) (chars (upper w))) l)).
Proof.
  intros Hw Hl. rewrite chars_str. destruct (has_word true (chars w) (pieces_text l)) eqn:E; [by apply uppercase_pieces|].
  rewrite ren_absent; [done|]. intros Hin. rewrite has_word_pieces in E; [done|by apply Hl|done|]. by destruct l as [|[]].
Qed.
Definition renall (words : list string) (p : piece) : piece :=
  match p with Name s => Name (if bool_decide (str s ∈ words) then chars (upper (str s)) else s) | Sign c => Sign c end.
Lemma fold_words words l : (forall w, w ∈ words -> w ∈ RESERVED_WORDS) -> clean l ->
  foldl (fun u w => if has_word true (chars w) (chars u) then uppercase_word w u else u) (str (pieces_text l)) words
  = str (pieces_text (map (renall words) l)).
Proof.
  revert l. induction words as [|w words IH]; intros l Hws Hl; cbn [foldl].
  - f_equal. f_equal. induction l as [|[s|c] l IHl]; [done|..].
    + destruct Hl as [(_ & _ & _ & H1) H2]. cbn [map renall]. rewrite <- IHl; [done|]. split; [done|]. intros s' w pre post Hin. apply H2. by right.
    + destruct Hl as [(_ & H1) H2]. cbn [map renall]. rewrite <- IHl; [done|]. split; [done|]. intros s' w pre post Hin. apply H2. by right.
  - assert (w ∈ RESERVED_WORDS) as Hw by (apply Hws; left). rewrite word_step by done.
    rewrite IH; [|intros w' Hw'; apply Hws; by right|by apply clean_ren]. f_equal. f_equal. rewrite map_map. apply map_ext. intros [s|c]; [|done].
    cbn [ren renall]. f_equal. destruct (decide (s = chars w)) as [->|E].
    + rewrite (bool_decide_eq_true_2 (chars w = chars w)) by done. rewrite !str_chars. rewrite (bool_decide_eq_true_2 (w ∈ w :: words)) by left. rewrite bool_decide_eq_false_2; [done|].
      intros H. apply (upper_not_reserved w Hw). apply Hws. by right.
    + rewrite (bool_decide_eq_false_2 (s = chars w)) by done. assert (str s ∈ w :: words <-> str s ∈ words) as Hiff.
      { rewrite elem_of_cons. split; [|by right]. intros [<-|]; [|done]. by rewrite chars_str in E. }
      by rewrite (bool_decide_ext _ _ Hiff).
Qed.
Lemma starts_with_word_pieces w l : w ∈ RESERVED_WORDS -> clean l ->
  starts_with_word (chars w) (pieces_text l) = true <-> head_word l = Some w.
Proof.
  intros Hw [Hok Hin]. pose proof (reserved_is_word w Hw) as Hword. unfold starts_with_word. split.
  - intros [Hs Hd]%andb_true_iff. apply starts_true in Hs as [r E]. rewrite E, drop_length_app in Hd.
    destruct l as [|[s|c] l]; [by destruct (chars w) eqn:?; [destruct Hword|]|..].
    + destruct Hok as (_ & _ & Hs3 & Hok). rewrite pieces_text_cons in E. cbn [piece_text] in E.
      destruct (word_prefix (chars w) s (pieces_text l) r Hword (pieces_stop l Hok Hs3) E) as [post Hp].
      assert (s = chars w) as -> by (apply (Hin s w [] post); [left|done|done]). apply app_inv_head in E.
      destruct l as [|p l]; [by subst r|]. cbn [head_word]. rewrite str_chars. by rewrite bool_decide_eq_true_2.
    + exfalso. destruct Hok as [Hc _]. destruct Hword as [Hne Hall]. destruct (chars w) as [|d w']; [done|]. cbn in E. injection E as -> _.
      apply Forall_cons in Hall as [Hall _]. congruence.
  - destruct l as [|[s|c] [|p l]]; cbn [head_word]; try done. case_bool_decide; [|done]. intros [= <-].
    rewrite pieces_text_cons. cbn [piece_text]. rewrite chars_str, starts_app, drop_length_app. cbn [andb].
    destruct Hok as (_ & _ & Hs3 & Hok). destruct p as [|c]; [done|]. rewrite pieces_text_cons. cbn [piece_text app]. destruct Hok as [Hc _].
    by rewrite sign_letter.
Qed.
Lemma head_word_reserved l w : head_word l = Some w -> w ∈ RESERVED_WORDS.
Proof. destruct l as [|[s|c] [|p l]]; cbn [head_word]; try done. case_bool_decide; [|done]. by intros [= <-]. Qed.
Lemma head_word_ren l w : head_word l = Some w -> head_word (map (ren (chars w) (chars (upper w))) l) = None.
Proof.
  destruct l as [|[s|c] [|p l]]; cbn [head_word]; try done. case_bool_decide as H; [|done]. intros [= <-]. rewrite chars_str.
  cbn [map ren]. rewrite bool_decide_eq_true_2 by done. cbn [head_word]. rewrite str_chars. rewrite bool_decide_eq_false_2; [done|]. by apply upper_not_reserved.
Qed.
Lemma fold_starts words l : (forall w, w ∈ words -> w ∈ RESERVED_WORDS) -> (forall w, w ∈ RESERVED_WORDS -> w ∈ words) -> clean l ->
  foldl (fun u w => if starts_with_word (chars w) (chars u) then uppercase_word w u else u) (str (pieces_text l)) words
  = str (pieces_text (rename_first l)).
Proof.
  intros Hws Hall Hl. unfold rename_first. destruct (head_word l) as [h|] eqn:Eh.
  - pose proof (head_word_reserved l h Eh) as Hh. specialize (Hall h Hh). clear Hh. induction words as [|w words IH]; [by apply elem_of_nil in Hall|].
    cbn [foldl]. rewrite chars_str. assert (w ∈ RESERVED_WORDS) as Hw by (apply Hws; left).
    destruct (starts_with_word (chars w) (pieces_text l)) eqn:E.
    + apply starts_with_word_pieces in E; [|done..]. assert (h = w) as -> by congruence. rewrite uppercase_pieces by done.
      apply fold_no_start. intros w' Hw'. rewrite chars_str. assert (w' ∈ RESERVED_WORDS) as Hr by (apply Hws; by right).
      destruct (starts_with_word _ _) eqn:E'; [|done]. apply starts_with_word_pieces in E'; [|done|by apply clean_ren].
      rewrite head_word_ren in E' by done. done.
    + apply IH; [intros w' Hw'; apply Hws; by right|]. apply elem_of_cons in Hall as [->|]; [|done].
      apply starts_with_word_pieces in Eh; [congruence|done..].
  - apply fold_no_start. intros w Hw. rewrite chars_str. destruct (starts_with_word _ _) eqn:E'; [|done].
    apply starts_with_word_pieces in E'; [congruence|by apply Hws|done].
Qed.
Lemma rename_first_clean l : clean l -> clean (rename_first l).
Proof. intros H. unfold rename_first. destruct (head_word l) as [w|] eqn:E; [|done]. apply clean_ren; [by eapply head_word_reserved|done]. Qed.
Lemma renall_first words l : (forall w, w ∈ words <-> w ∈ RESERVED_WORDS) -> map (renall words) (rename_first l) = map rename_piece l.
Proof.
  intros Hws. assert (forall p, renall words p = rename_piece p) as Hp.
  { intros [s|c]; [|done]. cbn. unfold rename_name. by rewrite (bool_decide_ext _ _ (Hws (str s))). }
  unfold rename_first. destruct (head_word l) as [w|] eqn:E; [|by apply map_ext]. apply head_word_reserved in E.
  rewrite map_map. apply map_ext. intros [s|c]; [|done]. rewrite Hp. cbn [ren rename_piece]. f_equal. unfold rename_name.
  destruct (decide (s = chars w)) as [->|Hs].
  - rewrite (bool_decide_eq_true_2 (chars w = chars w)) by done. rewrite !str_chars. rewrite (bool_decide_eq_true_2 (w ∈ _)) by done.
    rewrite bool_decide_eq_false_2; [done|]. by apply upper_not_reserved.
  - by rewrite (bool_decide_eq_false_2 (s = chars w)).
Qed.
Lemma check_and_fix_pieces words parses l : (forall w, w ∈ words <-> w ∈ RESERVED_WORDS) -> pieces_ok l -> no_word_inside l ->
  check_and_fix_formula words parses (str (pieces_text l)) =
  let first := str (pieces_text (rename_first l)) in
  let renamed := str (pieces_text (map rename_piece l)) in
  if parses first then first else if parses renamed then renamed else str (pieces_text l).
Proof.
  intros Hws Hok Hin. cbv zeta. unfold check_and_fix_formula. rewrite fold_starts; [|intros w; apply Hws..|by split].
  destruct (parses (str (pieces_text (rename_first l)))) eqn:E; [done|].
  rewrite fold_words; [|intros w; apply Hws|by apply rename_first_clean]. by rewrite renall_first.
Qed.
Lemma rename_first_name l s : Name s ∈ rename_first l -> str s ∈ RESERVED_WORDS -> Name s ∈ l.
Proof.
  unfold rename_first. destruct (head_word l) as [w|] eqn:E; [|done]. apply head_word_reserved in E. intros Hin Hs.
  apply elem_of_list_fmap in Hin as ([s0|c] & Hp & Hin); [|done]. cbn [ren] in Hp. injection Hp as ->. case_bool_decide; [|done].
  exfalso. rewrite str_chars in Hs. by apply (upper_not_reserved w).
Qed.
Lemma rename_first_all l : (forall s, Name s ∈ rename_first l -> str s ∉ RESERVED_WORDS) -> rename_first l = map rename_piece l.
Proof.
  intros H. rewrite <- (renall_first RESERVED_WORDS l) by done. assert (forall k, (forall s, Name s ∈ k -> str s ∉ RESERVED_WORDS) -> map (renall RESERVED_WORDS) k = k) as Hk.
  { induction k as [|[s|c] k IH]; intros Hk; [done|..]; cbn [map renall]; rewrite IH by (intros s' Hs'; apply Hk; by right); [|done].
    rewrite bool_decide_eq_false_2; [done|]. apply Hk. left. }
  by rewrite Hk.
Qed.
(** If the parser accepts no formula with a reserved word as a name, then all are renamed. *)
Lemma check_and_fix_consistent words parses l : (forall w, w ∈ words <-> w ∈ RESERVED_WORDS) -> pieces_ok l -> no_word_inside l ->
  (forall k s, Name s ∈ k -> str s ∈ RESERVED_WORDS -> parses (str (pieces_text k)) = false) ->
  parses (str (pieces_text (map rename_piece l))) = true ->
  check_and_fix_formula words parses (str (pieces_text l)) = str (pieces_text (map rename_piece l)).
Proof.
  intros Hws Hok Hin Hp Hr. rewrite check_and_fix_pieces by done. cbv zeta.
  destruct (parses (str (pieces_text (rename_first l)))) eqn:E; [|by rewrite Hr].
  f_equal. f_equal. apply rename_first_all. intros s Hs Hres. rewrite (Hp _ s Hs Hres) in E. done.
Qed.

(** *** Decision procedures, for the examples *)
Definition no_word_inside_check (l : list piece) : bool :=
  forallb (fun w => forallb (fun p => match p with
    | Name s => negb (str_contains w (str s)) || bool_decide (s = chars w)
    | Sign _ => true
    end) l) RESERVED_WORDS.
Lemma no_word_inside_check_ok l : no_word_inside_check l = true -> no_word_inside l.
Proof.
  unfold no_word_inside_check. rewrite forallb_forall. intros H s w pre post Hs Hw E.
  specialize (H w ltac:(by apply elem_of_list_In)). rewrite forallb_forall in H. specialize (H (Name s) ltac:(by apply elem_of_list_In)).
  cbn in H. apply orb_true_iff in H as [H|H]; [|by apply bool_decide_eq_true in H]. apply negb_true_iff in H.
  assert (str_contains w (str s) = true) as H2; [|congruence]. apply contains_iff. unfold StringFacts.occurs. exists (str pre), (str post).
  rewrite E, !str_app, str_chars. done.
Qed.
Fixpoint pieces_check (l : list piece) : bool :=
  match l with
  | [] => true
  | Sign c :: l => negb (word_char c) && pieces_check l
  | Name s :: l => bool_decide (s <> []) && forallb word_char s &&
                   match l with Name _ :: _ => false | _ => true end && pieces_check l
  end.
Lemma pieces_check_ok l : pieces_check l = true -> pieces_ok l.
Proof.
  induction l as [|[s|c] l IH]; [done|..]; cbn [pieces_check pieces_ok]; rewrite !andb_true_iff.
  - rewrite bool_decide_eq_true, forallb_forall. intros [[[H1 H2] H3] H4]. split; [done|]. split; [|split; [|by apply IH]].
    + apply Forall_forall. intros c Hc. apply H2. by apply elem_of_list_In.
    + by destruct l as [|[]].
  - rewrite negb_true_iff. intros [H1 H2]. split; [done|by apply IH].
Qed.
