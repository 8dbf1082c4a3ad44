(** Proofs for C73. *)
From Coq Require Import Ascii.
From Verif Require Import Base Types Uncertainty Utils Strings StringFacts Recalculation Formulas Parameters Spec_Parameters
  Parameters_proofs Spec_Formulas Formulas_proofs Reserved_proofs Spec_Math.

(** *** Signs *)
Lemma treplace_char a new s : treplace [a] new s = flat_map (fun c => if decide (c = a) then new else [c]) s.
Proof.
  induction s as [|c s IH]; [done|]. cbn [flat_map]. case_decide as E.
  - subst c. change (a :: s) with ([a] ++ s). rewrite treplace_match by done. by rewrite IH.
  - rewrite treplace_other, IH; [done|]. cbn. by rewrite bool_decide_eq_false_2 by congruence.
Qed.
Definition between (x : sign) : text := match x with Break => [carriage_return; newline] | x => sign_python x end.
Lemma flat_map_map' {A B C} (f : B -> list C) (g : A -> list B) l : flat_map f (flat_map g l) = flat_map (fun x => flat_map f (g x)) l.
Proof. induction l as [|x l IH]; [done|]. cbn [flat_map]. by rewrite flat_map_app, IH. Qed.
Lemma first_two l : signs_ok l -> treplace (chars "^") (chars "**") (treplace (chars "%") (chars "e-2") (signs_text l)) = flat_map between l.
Proof.
  intros H. change (chars "^") with ["^"%char]. change (chars "%") with ["%"%char]. rewrite !treplace_char. unfold signs_text.
  rewrite !flat_map_map'. induction l as [|x l IH]; [done|]. cbn [flat_map]. f_equal.
  - destruct x as [c| | |]; cbn [sign_text flat_map between sign_python].
    + destruct H as (H1 & H2 & _). rewrite decide_False by done. cbn. by rewrite decide_False.
    + by vm_compute.
    + by vm_compute.
    + by vm_compute.
  - apply IH. destruct x as [c| | |]; [by destruct H as (_ & _ & _ & H)|done..].
Qed.
Definition crlf_text : text := [carriage_return; newline].
Lemma starts_crlf c s : starts crlf_text (c :: s) = true -> c = carriage_return /\ exists s', s = newline :: s'.
Proof.
  unfold crlf_text. cbn [starts]. intros [H1 H2]%andb_true_iff. apply bool_decide_eq_true in H1. split; [done|].
  destruct s as [|d s]; [done|]. cbn [starts] in H2. apply andb_true_iff in H2 as [H2 _]. apply bool_decide_eq_true in H2. subst d. by exists s.
Qed.
Lemma between_newline l s' : signs_ok l -> flat_map between l = newline :: s' -> exists l', l = Plain newline :: l'.
Proof.
  intros H E. destruct l as [|x l]; [done|]. cbn [flat_map] in E. destruct x as [c| | |]; cbn in E; try discriminate.
  injection E as -> _. by exists l.
Qed.
Lemma last_one l : signs_ok l -> treplace crlf_text [] (flat_map between l) = signs_python l.
Proof.
  induction l as [|x l IH]; intros H; [done|]. cbn [flat_map]. unfold signs_python. cbn [flat_map]. fold (signs_python l).
  assert (signs_ok l) as Hl by (destruct x as [c| | |]; [by destruct H as (_ & _ & _ & H)|done..]).
  destruct x as [c| | |]; cbn [between sign_python].
  - destruct H as (_ & _ & H & _). cbn [app]. rewrite treplace_other, IH; [done|done|].
    destruct (starts crlf_text _) eqn:E; [|done]. exfalso. apply starts_crlf in E as (-> & s' & E).
    apply between_newline in E as (l' & ->); [|done]. by apply (H eq_refl l').
  - cbn [chars list_ascii_of_string app]. rewrite !treplace_other by done. by rewrite IH.
  - cbn [chars list_ascii_of_string app]. rewrite !treplace_other by done. by rewrite IH.
  - rewrite (treplace_match crlf_text []) by done. by rewrite IH.
Qed.
Lemma signs_fixed l : signs_ok l ->
  str_replace crlf "" (str_replace "^" "**" (str_replace "%" "e-2" (str (signs_text l)))) = str (signs_python l).
Proof.
  intros H. rewrite <- last_one, <- first_two by done. unfold treplace. rewrite !str_chars. done.
Qed.
Lemma fix_signs pyfloat l : signs_ok l ->
  fix_math_formula pyfloat (str (signs_text l)) =
  let? f := find_if_clause (signs_python l) in let? f := find_power_clause pyfloat f in Ok (str f).
Proof. intros H. unfold fix_math_formula. rewrite signs_fixed by done. by rewrite chars_str. Qed.

(** *** Where powers begin *)
Lemma starts_length p s : starts p s = true -> (length p <= length s)%nat.
Proof. intros [r ->]%starts_true. rewrite app_length. lia. Qed.
Lemma starts_split p d z : starts p (d ++ z) = true ->
  starts p d = true \/ exists k, (k < length p)%nat /\ d = take k p /\ starts (drop k p) z = true.
Proof.
  revert d. induction p as [|a p IH]; intros d H; [by left|]. destruct d as [|c d].
  - right. exists 0%nat. split; [cbn; lia|]. done.
  - cbn [app starts] in H. apply andb_true_iff in H as [H1 H2]. apply bool_decide_eq_true in H1. subst c.
    destruct (IH d H2) as [H|(k & Hk & -> & H)].
    + left. cbn [starts]. by rewrite bool_decide_eq_true_2, H.
    + right. exists (S k). split; [cbn; lia|]. done.
Qed.
Lemma POWER_chars : POWER = chars "power(".
Proof. done. Qed.
Fixpoint quiet (x y : text) : Prop :=
  match x with [] => True | c :: x' => starts POWER (x ++ y) = false /\ quiet x' y end.
Lemma quiet_app x1 x2 y : quiet (x1 ++ x2) y <-> quiet x1 (x2 ++ y) /\ quiet x2 y.
Proof. induction x1 as [|c x1 IH]; cbn [app quiet]; [tauto|]. rewrite IH, <- app_assoc. tauto. Qed.
Lemma without_power_app x y : without_power (x ++ y) -> without_power x /\ without_power y.
Proof.
  intros H. split; intros (pre & post & E); apply H.
  - exists pre, (post ++ y). by rewrite E, <- !app_assoc.
  - exists (x ++ pre), post. by rewrite E, <- !app_assoc.
Qed.
Lemma without_power_cons c x : without_power (c :: x) -> without_power x.
Proof. intros H. apply (without_power_app [c] x) in H. tauto. Qed.
Lemma without_power_starts x : without_power x -> starts POWER x = false.
Proof. intros H. destruct (starts POWER x) eqn:E; [|done]. exfalso. apply H. apply starts_true in E as [r E]. by exists [], r. Qed.
Lemma quiet_without x : quiet x [] <-> without_power x.
Proof.
  induction x as [|c x IH]; cbn [quiet].
  - split; [|done]. intros _ (pre & post & E). by destruct pre.
  - rewrite IH, app_nil_r. split.
    + intros [H1 H2] (pre & post & E). destruct pre as [|d pre].
      * cbn [app] in E. rewrite E, <- POWER_chars, starts_app in H1. done.
      * apply H2. exists pre, post. exact (f_equal (drop 1) E).
    + intros H. split; [by apply without_power_starts|by eapply without_power_cons].
Qed.
Lemma quiet_next (ok : text -> Prop) x y : (forall c x, ok (c :: x) -> x <> [] -> ok x) ->
  (forall k, (1 <= k < 6)%nat -> ok (take k POWER) -> starts (drop k POWER) y = false) -> without_power x -> ok x -> quiet x y.
Proof.
  intros Hok Hy. induction x as [|c x IH]; intros Hw Ho; [done|]. cbn [quiet]. split.
  - destruct (starts POWER ((c :: x) ++ y)) eqn:E; [|done]. exfalso. apply starts_split in E as [E|(k & Hk & E & Hs)].
    + by rewrite without_power_starts in E.
    + destruct k as [|k]; [done|]. rewrite E in Ho. rewrite Hy in Hs; [done| |done]. cbn in Hk. lia.
  - destruct x as [|d x]; [done|]. apply IH; [by eapply without_power_cons|]. by eapply Hok.
Qed.
Lemma drop_POWER k : (1 <= k < 6)%nat -> exists c r, drop k POWER = c :: r /\ c <> "p"%char /\ c <> close_paren /\ (c = open_paren -> k = 5%nat).
Proof.
  intros H. assert (k = 1 \/ k = 2 \/ k = 3 \/ k = 4 \/ k = 5)%nat as Hk by lia.
  destruct Hk as [->|[->|[->|[->| ->]]]]; (eexists _, _; split; [reflexivity|]); split; [discriminate| |discriminate| |discriminate| |discriminate| |discriminate|];
    (split; [discriminate|]); try discriminate; done.
Qed.
Lemma starts_ne c r d y : c <> d -> starts (c :: r) (d :: y) = false.
Proof. intros H. cbn [starts]. by rewrite bool_decide_eq_false_2. Qed.
Lemma quiet_power x y : without_power x -> quiet x (POWER ++ y).
Proof.
  intros H. apply (quiet_next (fun _ => True)); [done| |done|done]. intros k Hk _.
  destruct (drop_POWER k Hk) as (c & r & -> & H1 & _). by apply starts_ne.
Qed.
Lemma quiet_close x y : without_power x -> quiet x (close_paren :: y).
Proof.
  intros H. apply (quiet_next (fun _ => True)); [done| |done|done]. intros k Hk _.
  destruct (drop_POWER k Hk) as (c & r & -> & _ & H1 & _). by apply starts_ne.
Qed.
Lemma quiet_open x y : without_power x -> apart x -> quiet x (open_paren :: y).
Proof.
  intros H Ha. destruct x as [|c0 x0]; [done|]. apply (quiet_next (fun x => x <> [] -> apart x)); [| |done|done].
  - intros c x Hx Hn _ pre E. assert (c :: x <> []) as Hc by done. apply (Hx Hc (c :: pre)). by rewrite E.
  - intros k Hk Hok. destruct (drop_POWER k Hk) as (c & r & E & _ & _ & H1). rewrite E. apply starts_ne. intros ->.
    rewrite (H1 eq_refl) in Hok. apply (Hok ltac:(done) (chars "powe")). reflexivity.
Qed.
Lemma not_in_without x : open_paren ∉ x -> without_power x.
Proof. intros H (pre & post & ->). apply H. rewrite !elem_of_app. right. left. by vm_compute; repeat constructor. Qed.
Lemma apart_last x c : c <> "r"%char -> apart (x ++ [c]).
Proof. intros H pre E. change (chars "r") with ["r"%char] in E. apply app_inj_2 in E as [_ E]; [|done]. congruence. Qed.
Lemma without_close x y : without_power x -> without_power y -> without_power (x ++ close_paren :: y).
Proof.
  intros Hx Hy. rewrite <- quiet_without. apply quiet_app. split; [rewrite app_nil_r; by apply quiet_close|]. cbn [quiet]. split; [|by apply quiet_without].
  rewrite app_nil_r. apply starts_ne. discriminate.
Qed.
Lemma without_open x y : without_power x -> apart x -> without_power y -> without_power (x ++ open_paren :: y).
Proof.
  intros Hx Ha Hy. rewrite <- quiet_without. apply quiet_app. split; [rewrite app_nil_r; by apply quiet_open|]. cbn [quiet]. split; [|by apply quiet_without].
  rewrite app_nil_r. apply starts_ne. discriminate.
Qed.
Lemma apart_nil : apart [].
Proof. intros pre E. by destruct pre. Qed.
Lemma without_nil : without_power [].
Proof. by apply not_in_without, not_elem_of_nil. Qed.
Lemma apart_one c : c <> "r"%char -> apart [c].
Proof. apply (apart_last []). Qed.

(** *** Searching *)
Lemma power_at_none s : starts POWER s = false -> power_at s = None.
Proof. intros H. unfold power_at. by rewrite H. Qed.
Lemma power_search_unfold s : power_search s = match power_at s with Some r => Some r | None => match s with [] => None | _ :: s => power_search s end end.
Proof. by destruct s. Qed.
Lemma power_search_quiet x y : quiet x y -> power_search (x ++ y) = power_search y.
Proof.
  induction x as [|c x IH]; cbn [quiet]; [done|]. intros [H1 H2]. rewrite power_search_unfold, power_at_none by done. cbn [app]. by apply IH.
Qed.
Lemma power_search_none s : without_power s -> power_search s = None.
Proof. intros H. apply quiet_without in H. rewrite <- (app_nil_r s). rewrite power_search_quiet by done. done. Qed.
Lemma until_last_close_none t : (forall pre post, t = pre ++ close_paren :: post -> semicolon ∈ pre) -> until_last_close t = None.
Proof.
  induction t as [|c t IH]; intros H; [done|]. cbn [until_last_close]. case_bool_decide as E; [done|].
  rewrite IH.
  - case_bool_decide as E'; [|done]. subst c. exfalso. by apply (not_elem_of_nil semicolon), (H [] t).
  - intros pre post Et. assert (semicolon ∈ c :: pre) as Hs by (apply (H _ post); by rewrite Et). apply elem_of_cons in Hs as [Hs|Hs]; [congruence|done].
Qed.
Lemma until_last_close_some e t : semicolon ∉ e -> until_last_close t = None -> until_last_close (e ++ close_paren :: t) = Some e.
Proof.
  intros He Ht. induction e as [|c e IH]; cbn [app until_last_close].
  - rewrite bool_decide_eq_false_2 by done. by rewrite Ht, bool_decide_eq_true_2.
  - apply not_elem_of_cons in He as [Hc He]. rewrite bool_decide_eq_false_2 by congruence. by rewrite IH.
Qed.
Lemma power_at_clause b e t : b <> [] -> e <> [] -> semicolon ∉ b -> semicolon ∉ e -> until_last_close t = None ->
  power_at (POWER ++ b ++ semicolon :: e ++ close_paren :: t) = Some (b, e).
Proof.
  intros Hb He Sb Se Ht. unfold power_at. rewrite starts_app. change 6%nat with (length POWER). rewrite drop_length_app.
  rewrite argument_app by by split. destruct e as [|c e]; [done|]. cbn [app]. apply not_elem_of_cons in Se as [Sc Se].
  rewrite bool_decide_eq_false_2 by congruence. by rewrite until_last_close_some.
Qed.
Lemma treplace_quiet old new x y : starts POWER old = true -> quiet x y -> treplace old new (x ++ y) = x ++ treplace old new y.
Proof.
  intros Ho. induction x as [|c x IH]; cbn [quiet]; [done|]. intros [H1 H2]. cbn [app]. rewrite treplace_other, IH; [done|done|].
  destruct (starts old (c :: x ++ y)) eqn:E; [|done]. exfalso. apply starts_true in E as [r E]. apply starts_true in Ho as [r' ->].
  cbn [app] in H1. rewrite E, <- app_assoc, starts_app in H1. done.
Qed.

(** *** Clauses *)
Definition old_text (c : clause) : text := power_text (c_base c, c_exponent c).
Definition new_text (c : clause) : text := chars "((" ++ c_base' c ++ chars ")**(" ++ c_exponent' c ++ chars "))".
Lemma clause_text_old c : clause_text c = old_text c ++ c_after c.
Proof. unfold clause_text, old_text, power_text. cbn [fst snd]. rewrite <- !app_assoc. done. Qed.
Lemma clause_python_new c : clause_python c = new_text c ++ c_after c.
Proof. unfold clause_python, new_text. rewrite <- !app_assoc. done. Qed.
Lemma number_chars pyfloat s s' : number pyfloat s s' ->
  semicolon ∉ s /\ open_paren ∉ s /\ close_paren ∉ s /\ semicolon ∉ s' /\ open_paren ∉ s' /\ close_paren ∉ s'.
Proof.
  intros (_ & _ & H1 & H2). rewrite Forall_forall in H1, H2.
  assert (forall c, c ∈ s -> c <> semicolon /\ c <> open_paren /\ c <> close_paren) as K1 by (intros; by apply H1).
  assert (forall c, c ∈ s' -> c <> semicolon /\ c <> open_paren /\ c <> close_paren) as K2 by (intros; by apply H2).
  repeat split; intros E; [apply K1 in E|apply K1 in E|apply K1 in E|apply K2 in E|apply K2 in E|apply K2 in E]; tauto.
Qed.
Lemma closed_app x y : nothing_closed x -> nothing_closed y -> nothing_closed (x ++ y).
Proof.
  intros Hx Hy pre post E. apply app_eq_app in E as [z [[E1 E2]|[E1 E2]]].
  - destruct z as [|d z].
    + rewrite app_nil_r in E1. subst pre. cbn in E2. exfalso. apply (not_elem_of_nil semicolon). by apply (Hy [] post).
    + cbn in E2. injection E2 as <- ->. apply (Hx pre z). done.
  - subst pre. apply elem_of_app. right. by apply (Hy z post).
Qed.
Lemma closed_nil : nothing_closed [].
Proof. intros pre post E. by destruct pre. Qed.
Lemma closed_free x : close_paren ∉ x -> nothing_closed x.
Proof. intros H pre post E. exfalso. apply H. rewrite E. apply elem_of_app. right. apply elem_of_cons. auto. Qed.
Lemma closed_semicolon x y : close_paren ∉ x -> nothing_closed (x ++ semicolon :: y).
Proof.
  intros H pre post E. apply app_eq_app in E as [z [[E1 E2]|[E1 E2]]].
  - exfalso. apply H. rewrite E1. apply elem_of_app. right. destruct z as [|d z]; [done|]. cbn in E2. injection E2 as <- _. apply elem_of_cons. auto.
  - subst pre. destruct z as [|d z]; [done|]. cbn in E2. injection E2 as <- _. apply elem_of_app. right. apply elem_of_cons. auto.
Qed.
Lemma closed_clauses pyfloat l : Forall (clause_ok pyfloat) l -> nothing_closed (flat_map clause_text l).
Proof.
  intros F. destruct F as [|c l (Hb & _) F]; [apply closed_nil|]. cbn [flat_map]. unfold clause_text. rewrite <- !app_assoc.
  rewrite (app_assoc (chars "power(")). change (chars ";") with [semicolon]. cbn [app]. apply closed_semicolon.
  rewrite elem_of_app. apply number_chars in Hb as (_ & _ & Hb & _). intros [H|H]; [|done]. revert H. apply (bool_decide_unpack _). by vm_compute.
Qed.
Lemma quiet_first x y : Forall (fun c => c <> "p"%char) x -> quiet x y.
Proof. induction 1 as [|c x Hc H IH]; [done|]. split; [|done]. by apply starts_ne. Qed.
Lemma same_clause c c2 z pyfloat : clause_ok pyfloat c -> clause_ok pyfloat c2 -> starts (old_text c) (clause_text c2 ++ z) = true ->
  (c_base c, c_exponent c) = (c_base c2, c_exponent c2).
Proof.
  intros (Hb & He & _) (Hb2 & He2 & _) [r E]%starts_true. rewrite clause_text_old in E. unfold old_text, power_text in E. cbn [fst snd] in E.
  rewrite <- !app_assoc in E. apply app_inv_head in E.
  assert (forall (x : ascii) s s2 t t2, x ∉ s -> x ∉ s2 -> s ++ [x] ++ t = s2 ++ [x] ++ t2 -> s = s2 /\ t = t2) as Hcut.
  { clear. induction s as [|a s IH]; intros [|a2 s2] t t2 H1 H2 E; cbn in E.
    - split; [done|]. by injection E.
    - exfalso. apply H2. injection E as <- _. apply elem_of_cons. auto.
    - exfalso. apply H1. injection E as -> _. apply elem_of_cons. auto.
    - injection E as -> E. apply not_elem_of_cons in H1 as [_ H1], H2 as [_ H2]. destruct (IH s2 t t2 H1 H2 E) as [-> ->]. done. }
  apply number_chars in Hb as (Hb & _), Hb2 as (Hb2 & _). apply Hcut in E as [-> E]; [|done..].
  apply number_chars in He as (_ & _ & He & _), He2 as (_ & _ & He2 & _). apply Hcut in E as [-> E]; done.
Qed.
Lemma quiet_clauses x l : without_power x -> quiet x (flat_map clause_text l).
Proof.
  intros H. destruct l as [|c l]; [by apply quiet_without|]. cbn [flat_map]. unfold clause_text. rewrite <- !app_assoc. by apply quiet_power.
Qed.
Lemma replace_untouched pyfloat c new t l : clause_ok pyfloat c -> without_power t -> Forall (clause_ok pyfloat) l ->
  (c_base c, c_exponent c) ∉ map (fun c => (c_base c, c_exponent c)) l ->
  treplace (old_text c) new (t ++ flat_map clause_text l) = t ++ flat_map clause_text l.
Proof.
  intros Hc Ht F. revert t Ht. induction F as [|c2 l Hc2 F IH]; intros t Ht Hn.
  - rewrite treplace_quiet; [done|done|by apply quiet_clauses].
  - rewrite treplace_quiet; [|done|by apply quiet_clauses]. f_equal. cbn [map] in Hn. apply not_elem_of_cons in Hn as [Hne Hn].
    assert (starts (old_text c) (clause_text c2 ++ flat_map clause_text l) = false) as Hs.
    { destruct (starts (old_text c) (clause_text c2 ++ flat_map clause_text l)) eqn:E; [|done]. exfalso. apply Hne. by eapply same_clause. }
    cbn [flat_map]. destruct Hc2 as (Hb & He & Hw & _).
    assert (clause_text c2 = "p"%char :: chars "ower(" ++ (c_base c2 ++ chars ";" ++ c_exponent c2) ++ [close_paren] ++ c_after c2) as E.
    { unfold clause_text. rewrite <- !app_assoc. done. }
    rewrite E in *. cbn [app] in Hs |- *. rewrite treplace_other by done. f_equal. rewrite <- !app_assoc. cbn [app].
    rewrite (treplace_quiet _ _ (chars "ower(")); [|done|apply quiet_first; apply (bool_decide_unpack _); by vm_compute]. f_equal.
    assert (forall z, c_base c2 ++ chars ";" ++ c_exponent c2 ++ z = (c_base c2 ++ chars ";" ++ c_exponent c2) ++ z) as Hx
      by (intros z; by rewrite <- !app_assoc).
    rewrite !Hx. rewrite treplace_quiet; [|done|].
    2:{ cbn [app]. apply quiet_close. apply not_in_without. apply number_chars in Hb as (_ & Hb & _), He as (_ & He & _).
        rewrite !elem_of_app. intros [H|[H|H]]; [done| |done]. revert H. apply (bool_decide_unpack _). by vm_compute. }
    f_equal. cbn [app]. rewrite treplace_other by done. f_equal. by apply IH.
Qed.
Lemma apart_app x y : apart y -> (y = [] -> apart x) -> apart (x ++ y).
Proof.
  intros Hy Hx. destruct (decide (y = [])) as [->|Hne]; [rewrite app_nil_r; by apply Hx|]. intros pre E.
  destruct (exists_last Hne) as (y' & c & ->). rewrite app_assoc in E.
  change (chars "r") with ["r"%char] in E. apply app_inj_2 in E as [_ E]; [|done]. apply (Hy y'). by rewrite E.
Qed.
Lemma without_new pyfloat done c : without_power done -> apart done -> clause_ok pyfloat c -> without_power (done ++ new_text c ++ c_after c).
Proof.
  intros Hd Ha (Hb & He & Hw & _). apply number_chars in Hb as (_ & _ & _ & _ & Hb & _), He as (_ & _ & _ & _ & He & _).
  assert (new_text c ++ c_after c = open_paren :: [] ++ open_paren :: c_base' c ++ close_paren :: chars "**" ++ open_paren :: c_exponent' c ++ close_paren :: [] ++ close_paren :: c_after c) as ->.
  { unfold new_text. rewrite <- !app_assoc. done. }
  apply without_open; [done|done|]. apply without_open; [apply without_nil|apply apart_nil|]. apply without_close; [by apply not_in_without|].
  apply without_open; [apply not_in_without; apply (bool_decide_unpack _); by vm_compute|apply (apart_last ["*"%char]); done|].
  apply without_close; [by apply not_in_without|]. apply without_close; [apply without_nil|done].
Qed.
Lemma power_loop_unfold pyfloat fuel s : power_loop pyfloat fuel s =
  match power_search s with
  | None => Ok s
  | Some be =>
      match fuel with
      | O => Err ValueError
      | S fuel => let? b := pyfloat be.1 in let? e := pyfloat be.2 in
                  power_loop pyfloat fuel (treplace (power_text be) (chars "((" ++ b ++ chars ")**(" ++ e ++ chars "))") s)
      end
  end.
Proof. by destruct fuel. Qed.
Lemma power_loop_clauses pyfloat l : forall fuel done, (length l <= fuel)%nat -> without_power done -> (l <> [] -> apart done) ->
  Forall (clause_ok pyfloat) l -> Forall (fun c => apart (c_after c)) (removelast l) ->
  NoDup (map (fun c => (c_base c, c_exponent c)) l) ->
  power_loop pyfloat fuel (done ++ flat_map clause_text l) = Ok (done ++ flat_map clause_python l).
Proof.
  induction l as [|c l IH]; intros fuel done Hf Hd Ha F Hr Hn.
  - rewrite power_loop_unfold. cbn [flat_map]. rewrite app_nil_r, power_search_none by done. done.
  - destruct fuel as [|fuel]; [cbn in Hf; lia|]. apply Forall_cons in F as [Hc F]. cbn [map] in Hn. apply NoDup_cons in Hn as [Hnc Hn].
    rewrite power_loop_unfold, power_search_quiet by by apply quiet_clauses. cbn [flat_map].
    pose proof Hc as (Hb & He & Hw & Hcl).
    assert (power_search (clause_text c ++ flat_map clause_text l) = Some (c_base c, c_exponent c)) as ->.
    { rewrite power_search_unfold. unfold clause_text at 1. rewrite <- !app_assoc. change (chars ";") with [semicolon]. change (chars ")") with [close_paren].
      change (chars "power(") with POWER. cbn [app]. rewrite power_at_clause; [done|apply Hb|apply He|apply (number_chars _ _ _ Hb)|apply (number_chars _ _ _ He)|].
      apply until_last_close_none. apply closed_app; [done|]. by eapply closed_clauses. }
    cbn [fst snd]. destruct Hb as (Hb1 & -> & Hb). destruct He as (He1 & -> & He). cbn [bind].
    change (power_text (c_base c, c_exponent c)) with (old_text c).
    change (chars "((" ++ c_base' c ++ chars ")**(" ++ c_exponent' c ++ chars "))") with (new_text c).
    rewrite treplace_quiet; [|done|apply (quiet_clauses done (c :: l)); done].
    rewrite clause_text_old, <- app_assoc, treplace_match by done.
    rewrite (replace_untouched pyfloat) by done.
    assert (apart done) as Had by by apply Ha.
    assert (done ++ new_text c ++ c_after c ++ flat_map clause_text l = (done ++ new_text c ++ c_after c) ++ flat_map clause_text l) as ->
      by by rewrite <- !app_assoc.
    rewrite IH; [| |by eapply without_new| | | |].
    + rewrite clause_python_new, <- !app_assoc. done.
    + cbn in Hf. lia.
    + intros Hl. apply apart_app; [|intros E; done]. apply apart_app.
      * destruct l as [|c2 l]; [done|]. cbn [removelast] in Hr. apply Forall_cons in Hr as [Hr _]. done.
      * intros _. unfold new_text. rewrite !app_assoc. change (chars "))") with ([close_paren] ++ [close_paren]). rewrite app_assoc. by apply apart_last.
    + done.
    + destruct l as [|c2 l]; [constructor|]. cbn [removelast] in Hr. apply Forall_cons in Hr as [_ Hr]. done.
    + done.
Qed.
Lemma semicolons_clauses l : (length l <= semicolons (flat_map clause_text l))%nat.
Proof.
  induction l as [|c l IH]; [cbn; lia|]. cbn [flat_map length]. unfold clause_text at 1. rewrite !semicolons_app.
  assert (semicolons (chars ";") = 1%nat) as -> by done. lia.
Qed.
Lemma power_clauses pyfloat t l : powers_ok pyfloat t l -> find_power_clause pyfloat (powers_text t l) = Ok (powers_python t l).
Proof.
  intros (H1 & H2 & H3 & H4 & H5). unfold find_power_clause, powers_text, powers_python. apply power_loop_clauses; try done.
  rewrite semicolons_app. pose proof (semicolons_clauses l). lia.
Qed.

(** *** All texts *)
Lemma until_last_close_Some t e : until_last_close t = Some e -> exists post, t = e ++ close_paren :: post /\ semicolon ∉ e.
Proof.
  revert e. induction t as [|c t IH]; intros e H; [done|]. cbn [until_last_close] in H. case_bool_decide as E; [done|].
  destruct (until_last_close t) as [r|] eqn:Er.
  - injection H as <-. destruct (IH r eq_refl) as (post & -> & Hr). exists post. split; [done|]. apply not_elem_of_cons. split; [congruence|done].
  - case_bool_decide as E'; [|done]. injection H as <-. subst c. exists t. split; [done|]. apply not_elem_of_nil.
Qed.
Lemma argument_nonempty s a r : argument s = Some (a, r) -> a <> [].
Proof. unfold argument. destruct (split_semicolon s) as [[[|c a'] r']|]; [done| |done]. intros H. by injection H as <- <-. Qed.
Lemma power_at_Some s b e : power_at s = Some (b, e) -> exists post,
  s = power_text (b, e) ++ post /\ b <> [] /\ e <> [] /\ semicolon ∉ b /\ semicolon ∉ e.
Proof.
  unfold power_at. destruct (starts POWER s) eqn:Es; [|done]. apply starts_true in Es as [r ->].
  change 6%nat with (length POWER). rewrite drop_length_app. destruct (argument r) as [[b' s']|] eqn:Ea; [|done].
  pose proof (argument_nonempty _ _ _ Ea) as Hb. apply argument_Some in Ea as [-> Sb]. destruct s' as [|c s']; [done|]. case_bool_decide as Ec; [done|].
  destruct (until_last_close s') as [e'|] eqn:Eu; [|done]. intros H. injection H as <- <-. apply until_last_close_Some in Eu as (post & -> & Se).
  exists post. split; [unfold power_text; cbn [fst snd]; rewrite <- !app_assoc; done|]. split; [done|]. split; [done|]. split; [done|].
  apply not_elem_of_cons. split; [congruence|done].
Qed.
Lemma power_search_Some s b e : power_search s = Some (b, e) -> exists pre post,
  s = pre ++ power_text (b, e) ++ post /\ b <> [] /\ e <> [] /\ semicolon ∉ b /\ semicolon ∉ e.
Proof.
  induction s as [|c s IH]; rewrite power_search_unfold; intros H.
  - destruct (power_at []) as [[]|] eqn:E; [|done]. injection H as -> ->. apply power_at_Some in E as (post & E & H). by exists [], post.
  - destruct (power_at (c :: s)) as [[]|] eqn:E.
    + injection H as -> ->. apply power_at_Some in E as (post & E' & H). by exists [], post.
    + destruct (IH H) as (pre & post & -> & H'). by exists (c :: pre), post.
Qed.
Lemma power_at_has b e post : b <> [] -> e <> [] -> semicolon ∉ b -> semicolon ∉ e -> power_at (power_text (b, e) ++ post) <> None.
Proof.
  intros Hb He Sb Se. unfold power_at, power_text. cbn [fst snd]. rewrite <- !app_assoc. rewrite starts_app.
  change 6%nat with (length POWER). rewrite drop_length_app. cbn [app]. rewrite argument_app by by split.
  destruct e as [|c e]; [done|]. apply not_elem_of_cons in Se as [Sc Se]. cbn [app]. rewrite bool_decide_eq_false_2 by congruence.
  assert (until_last_close (e ++ close_paren :: post) <> None) as H; [|by destruct (until_last_close _)].
  clear - Se. induction e as [|d e IH]; cbn [app until_last_close].
  - rewrite bool_decide_eq_false_2 by done. destruct (until_last_close post); [done|]. by rewrite bool_decide_eq_true_2.
  - apply not_elem_of_cons in Se as [Sc Se]. rewrite bool_decide_eq_false_2 by congruence. specialize (IH Se). by destruct (until_last_close _).
Qed.
Lemma power_search_has s : power_search s = None <-> ~ has_power s.
Proof.
  split.
  - intros H (pre & b & e & post & -> & Hb & He & Sb & Se).
    assert (chars "power(" ++ b ++ chars ";" ++ e ++ chars ")" ++ post = power_text (b, e) ++ post) as E.
    { unfold power_text. cbn [fst snd]. by rewrite <- !app_assoc. }
    rewrite E in H. clear E. induction pre as [|c pre IH]; cbn [app] in H; rewrite power_search_unfold in H.
    + pose proof (power_at_has b e post Hb He Sb Se). by destruct (power_at _).
    + destruct (power_at _); [done|]. by apply IH.
  - intros H. destruct (power_search s) as [[b e]|] eqn:E; [|done]. exfalso. apply H. apply power_search_Some in E as (pre & post & -> & H').
    exists pre, b, e, post. split; [|done]. unfold power_text. cbn [fst snd]. by rewrite <- !app_assoc.
Qed.

(** Each round takes away semicolons. *)
Section rounds.
  Context (pyfloat : text -> result text) (Hfloat : forall s r, pyfloat s = Ok r -> semicolon ∉ r).
  Lemma treplace_semicolons old new s : (semicolons new <= semicolons old)%nat -> old <> [] -> (semicolons (treplace old new s) <= semicolons s)%nat.
  Proof.
    intros Hs Ho. remember (length s) as n eqn:En. revert s En. induction (lt_wf n) as [n _ IH]. intros s ->.
    destruct s as [|c s]; [done|]. destruct (starts_dec old (c :: s)) as [[r E]|E].
    - rewrite E, treplace_match, !semicolons_app by done. assert (semicolons (treplace old new r) <= semicolons r)%nat; [|lia].
      apply (IH (length r)); [|done]. rewrite E, app_length. destruct old; [done|]. cbn. lia.
    - rewrite treplace_other by done. change (c :: s) with ([c] ++ s). change (c :: treplace old new s) with ([c] ++ treplace old new s).
      rewrite !semicolons_app. assert (semicolons (treplace old new s) <= semicolons s)%nat; [|lia]. apply (IH (length s)); [cbn; lia|done].
  Qed.
  Lemma treplace_fewer old new pre post : (semicolons new < semicolons old)%nat -> old <> [] ->
    (semicolons (treplace old new (pre ++ old ++ post)) < semicolons (pre ++ old ++ post))%nat.
  Proof.
    intros Hs Ho. remember (length pre) as n eqn:En. revert pre post En. induction (lt_wf n) as [n _ IH]. intros pre post ->.
    destruct pre as [|c pre].
    - cbn [app]. rewrite treplace_match, !semicolons_app by done. assert (semicolons (treplace old new post) <= semicolons post)%nat; [|lia].
      apply treplace_semicolons; [lia|done].
    - destruct (starts_dec old ((c :: pre) ++ old ++ post)) as [[r E]|E].
      + rewrite E, treplace_match, !semicolons_app by done.
        assert (semicolons (treplace old new r) <= semicolons r)%nat; [|lia]. apply treplace_semicolons; [lia|done].
      + cbn [app] in *. rewrite treplace_other by done.
        assert (forall t, semicolons (c :: t) = (semicolons [c] + semicolons t)%nat) as Hc by (intros t; apply (semicolons_app [c] t)).
        rewrite (Hc (treplace _ _ _)), (Hc (pre ++ old ++ post)).
        assert (semicolons (treplace old new (pre ++ old ++ post)) < semicolons (pre ++ old ++ post))%nat; [|lia].
        apply (IH (length pre)); [cbn; lia|done].
  Qed.
  Definition power_round (be : text * text) (s : text) : result text :=
    let? b := pyfloat be.1 in let? e := pyfloat be.2 in
    Ok (treplace (power_text be) (chars "((" ++ b ++ chars ")**(" ++ e ++ chars "))") s).
  Lemma power_round_fewer be s r : power_search s = Some be -> power_round be s = Ok r -> (semicolons r < semicolons s)%nat.
  Proof.
    intros Hs H. unfold power_round in H. apply bind_Ok in H as (b & Hb & H). apply bind_Ok in H as (e & He & H). apply Ok_inj in H as <-.
    apply Hfloat in Hb, He. destruct be as [x y]. apply power_search_Some in Hs as (pre & post & -> & _).
    apply treplace_fewer; [|done]. unfold power_text. cbn [fst snd]. rewrite !semicolons_app.
    rewrite (semicolons_none b), (semicolons_none e) by done. assert (semicolons [semicolon] = 1)%nat as -> by done.
    assert (semicolons (chars "((") = 0 /\ semicolons (chars ")**(") = 0 /\ semicolons (chars "))") = 0)%nat as (-> & -> & ->) by done. lia.
  Qed.
  Lemma power_loop_fuel f1 f2 s : (semicolons s < f1)%nat -> (semicolons s < f2)%nat -> power_loop pyfloat f1 s = power_loop pyfloat f2 s.
  Proof.
    revert f2 s. induction f1 as [|f1 IH]; intros f2 s H1 H2; [lia|]. destruct f2 as [|f2]; [lia|]. rewrite !power_loop_unfold.
    destruct (power_search s) as [be|] eqn:Es; [|done]. destruct (power_round be s) as [r|x] eqn:Er.
    - pose proof (power_round_fewer _ _ _ Es Er) as Hr. unfold power_round in Er. apply bind_Ok in Er as (b & Hb & Er). apply bind_Ok in Er as (e & He & Er).
      rewrite Hb, He. cbn [bind]. apply Ok_inj in Er. rewrite Er. apply IH; lia.
    - unfold power_round in Er. destruct (pyfloat be.1); [|done]. cbn [bind] in *. destruct (pyfloat be.2); done.
  Qed.
  Lemma find_power_loop s : find_power_clause pyfloat s =
    match power_search s with None => Ok s | Some be => let? r := power_round be s in find_power_clause pyfloat r end.
  Proof.
    unfold find_power_clause. rewrite power_loop_unfold. destruct (power_search s) as [be|] eqn:Es; [|done].
    destruct (power_round be s) as [r|x] eqn:Er.
    - pose proof (power_round_fewer _ _ _ Es Er) as Hr. unfold power_round in Er. apply bind_Ok in Er as (b & Hb & Er). apply bind_Ok in Er as (e & He & Er).
      rewrite Hb, He. cbn [bind]. apply Ok_inj in Er. rewrite Er. apply power_loop_fuel; lia.
    - unfold power_round in Er. destruct (pyfloat be.1) as [b|]; cbn [bind] in *; [|congruence]. destruct (pyfloat be.2); cbn [bind] in *; [done|congruence].
  Qed.
  Lemma power_loop_left fuel s r : power_loop pyfloat fuel s = Ok r -> power_search r = None.
  Proof.
    revert s. induction fuel as [|fuel IH]; intros s H; rewrite power_loop_unfold in H; destruct (power_search s) as [be|] eqn:Es.
    - done.
    - by apply Ok_inj in H as <-.
    - apply bind_Ok in H as (b & _ & H). apply bind_Ok in H as (e & _ & H). by apply IH in H.
    - by apply Ok_inj in H as <-.
  Qed.
  Lemma power_errors s e : find_power_clause pyfloat s = Err e -> exists x, pyfloat x = Err e.
  Proof.
    remember (semicolons s) as n eqn:En. revert s En. induction (lt_wf n) as [n _ IH]. intros s -> H. rewrite find_power_loop in H.
    destruct (power_search s) as [be|] eqn:Es; [|done]. destruct (power_round be s) as [r|x] eqn:Er.
    - cbn [bind] in H. pose proof (power_round_fewer _ _ _ Es Er) as Hr. by apply (IH (semicolons r)) in H.
    - cbn [bind] in H. assert (x = e) as -> by congruence. unfold power_round in Er. destruct (pyfloat be.1) as [b|y] eqn:Eb; cbn [bind] in Er.
      + destruct (pyfloat be.2) as [b'|y] eqn:Ee; cbn [bind] in Er; [done|]. exists be.2. congruence.
      + exists be.1. congruence.
  Qed.
End rounds.

(** *** Whole formulas *)
Lemma fix_formula pyfloat l k t cs : signs_ok l -> signs_python l = written k -> formula_ok k ->
  written (map to_python k) = powers_text t cs -> powers_ok pyfloat t cs ->
  fix_math_formula pyfloat (str (signs_text l)) = Ok (str (powers_python t cs)).
Proof.
  intros Hl E Hk E2 Hp. rewrite fix_signs, E, find_if_clause_formula by done. cbn [bind]. rewrite E2, power_clauses by done. done.
Qed.
Lemma plain_signs s : "%"%char ∉ s -> "^"%char ∉ s -> ~ (exists pre post, s = pre ++ [carriage_return; newline] ++ post) ->
  signs_ok (map Plain s) /\ signs_text (map Plain s) = s /\ signs_python (map Plain s) = s.
Proof.
  intros H1 H2 H3. split; [|split].
  - induction s as [|c s IH]; [done|]. cbn [map signs_ok]. apply not_elem_of_cons in H1 as [H1 H1'], H2 as [H2 H2'].
    split; [congruence|]. split; [congruence|]. split.
    + intros -> l' E. apply H3. destruct s as [|d s]; [done|]. cbn in E. injection E as -> _. by exists [], s.
    + apply IH; [done|done|]. intros (pre & post & ->). apply H3. by exists (c :: pre), post.
  - clear. induction s as [|c s IH]; [done|]. unfold signs_text in *. cbn [map flat_map]. rewrite IH. done.
  - clear. induction s as [|c s IH]; [done|]. unfold signs_python in *. cbn [map flat_map]. rewrite IH. done.
Qed.
Lemma fix_plain pyfloat s : plain_text s -> fix_math_formula pyfloat (str s) = Ok (str s).
Proof.
  intros (H1 & H2 & H3 & H4 & H5). destruct (plain_signs s H1 H2 H3) as (Hs & E1 & E2). rewrite <- E1 at 1. rewrite fix_signs, E2 by done.
  rewrite find_if_clause_unchanged by done. cbn [bind]. unfold find_power_clause. rewrite power_loop_unfold.
  apply power_search_has in H5. by rewrite H5.
Qed.

(** *** No signs are left *)
Lemma signs_exist s : exists l, signs_ok l /\ signs_text l = s.
Proof.
  remember (length s) as n eqn:En. revert s En. induction (lt_wf n) as [n _ IH]. intros s ->.
  destruct s as [|c s]; [by exists []|].
  destruct (IH (length s) ltac:(cbn; lia) s eq_refl) as (l & Hl & El).
  destruct (decide (c = "%"%char)) as [->|H1]; [exists (Percent :: l); split; [done|]; unfold signs_text in *; cbn [flat_map sign_text]; by rewrite El|].
  destruct (decide (c = "^"%char)) as [->|H2]; [exists (Caret :: l); split; [done|]; unfold signs_text in *; cbn [flat_map sign_text]; by rewrite El|].
  destruct (decide (c = carriage_return)) as [->|H3].
  - destruct s as [|d s].
    + exists [Plain carriage_return]. split; [|done]. cbn. by repeat split.
    + destruct (decide (d = newline)) as [->|Hd].
      * destruct (IH (length s) ltac:(cbn; lia) s eq_refl) as (k & Hk & Ek). exists (Break :: k). split; [done|].
        unfold signs_text in *. cbn [flat_map sign_text]. by rewrite Ek.
      * exists (Plain carriage_return :: l). split; [|unfold signs_text in *; cbn [flat_map sign_text]; by rewrite El].
        cbn [signs_ok]. split; [done|]. split; [done|]. split; [|done]. intros _ l' ->. apply Hd. injection El as E _. by symmetry.
  - exists (Plain c :: l). split; [|unfold signs_text in *; cbn [flat_map sign_text]; by rewrite El].
    cbn [signs_ok]. split; [done|]. split; [done|]. split; [|done]. intros E. done.
Qed.
Section chars_kept.
  Context (P : ascii -> Prop) (Hconst : Forall P (chars "() ifels*")).
  Lemma const_chars s : Forall (fun c => c ∈ chars "() ifels*") s -> Forall P s.
  Proof. intros H. eapply Forall_impl; [exact H|]. cbv beta. intros c Hc. rewrite Forall_forall in Hconst. by apply Hconst. Qed.
  Lemma complete_if_chars s c a b : complete_if s = Some (c, a, b) -> Forall P s -> Forall P c /\ Forall P a /\ Forall P b.
  Proof.
    unfold complete_if. destruct (starts IF s); [|done]. intros H Hs. apply (Forall_drop _ 3) in Hs. remember (drop 3 s) as t eqn:Et. clear Et.
    destruct (argument t) as [[c' s1]|] eqn:E1; [|done]. apply argument_Some in E1 as [-> _]. apply Forall_app in Hs as [H1 Hs]. apply Forall_app in Hs as [_ Hs].
    destruct (argument s1) as [[a' s2]|] eqn:E2; [|done]. apply argument_Some in E2 as [-> _]. apply Forall_app in Hs as [H2 Hs]. apply Forall_app in Hs as [_ Hs].
    destruct (last_argument s2) as [b'|] eqn:E3; [|done]. injection H as -> -> ->. split; [done|]. split; [done|].
    unfold last_argument in E3. destruct (rev s2) as [|d r] eqn:Er; [done|]. destruct (_ && _); [|done]. injection E3 as <-.
    apply Forall_rev. assert (Forall P (rev s2)) as Hr by by apply Forall_rev. rewrite Er in Hr. by apply Forall_cons in Hr as [_ Hr].
  Qed.
  Lemma lstrip_chars s : Forall P s -> Forall P (lstrip s).
  Proof. induction s as [|c s IH]; [done|]. intros H. cbn [lstrip]. destruct (blank c); [|done]. apply IH. by apply Forall_cons in H as [_ H]. Qed.
  Lemma replace_if_chars s r : replace_if_statement s = Ok r -> Forall P s -> Forall P r.
  Proof.
    unfold replace_if_statement. destruct (complete_if s) as [[[c a] b]|] eqn:E; [|done]. intros H Hs. apply Ok_inj in H as <-.
    destruct (complete_if_chars _ _ _ _ E Hs) as (Hc & Ha & Hb). case_bool_decide.
    - apply Forall_app. split; [apply const_chars; by_compute|]. apply Forall_app. split; [|apply const_chars; by_compute].
      unfold strip. by apply Forall_rev, lstrip_chars, Forall_rev, lstrip_chars.
    - unfold conditional. repeat (apply Forall_app; split); try done; apply const_chars; by_compute.
  Qed.
  Lemma replace_smallest_chars s r : replace_smallest_if s = Ok r -> Forall P s -> Forall P r.
  Proof.
    unfold replace_smallest_if. intros H Hs. apply bind_Ok in H as (ps & _ & H). destruct ps as [|p l]; [done|].
    destruct (first_smallest p l) as [st fi]. apply bind_Ok in H as (new & Hn & H). apply Ok_inj in H as <-.
    apply Forall_app. split; [by apply Forall_take|]. apply Forall_app. split; [|by apply Forall_drop].
    apply replace_if_chars in Hn; [done|]. by apply Forall_take, Forall_drop.
  Qed.
  Lemma if_loop_chars fuel s r : if_loop fuel s = Ok r -> Forall P s -> Forall P r.
  Proof.
    revert s. induction fuel as [|fuel IH]; intros s H Hs; cbn [if_loop] in H; destruct (contains_if s); try done; try by apply Ok_inj in H as <-.
    apply bind_Ok in H as (t & Ht & H). apply IH in H; [done|]. by apply replace_smallest_chars in Ht.
  Qed.
  Lemma treplace_chars old new s : old <> [] -> Forall P new -> Forall P s -> Forall P (treplace old new s).
  Proof.
    intros Ho Hn. remember (length s) as n eqn:En. revert s En. induction (lt_wf n) as [n _ IH]. intros s -> Hs.
    destruct s as [|c s]; [done|]. destruct (starts_dec old (c :: s)) as [[r E]|E].
    - rewrite E, treplace_match by done. apply Forall_app. split; [done|]. apply (IH (length r)); [|done|].
      + rewrite E, app_length. destruct old; [done|]. cbn. lia.
      + rewrite E in Hs. by apply Forall_app in Hs as [_ Hs].
    - rewrite treplace_other by done. apply Forall_cons in Hs as [Hc Hs]. apply Forall_cons. split; [done|]. apply (IH (length s)); [cbn; lia|done|done].
  Qed.
  Lemma power_loop_chars pyfloat fuel s r : (forall x y, pyfloat x = Ok y -> Forall P y) -> power_loop pyfloat fuel s = Ok r -> Forall P s -> Forall P r.
  Proof.
    intros Hf. revert s. induction fuel as [|fuel IH]; intros s H Hs; rewrite power_loop_unfold in H; destruct (power_search s) as [be|];
      try done; try by apply Ok_inj in H as <-.
    apply bind_Ok in H as (b & Hb & H). apply bind_Ok in H as (e & He & H). apply IH in H; [done|]. apply Hf in Hb, He. apply treplace_chars; [done| |done].
    repeat (apply Forall_app; split); try done; apply const_chars; by_compute.
  Qed.
End chars_kept.
Lemma no_signs_left pyfloat f f' : (forall x y, pyfloat x = Ok y -> "%"%char ∉ y /\ "^"%char ∉ y) ->
  fix_math_formula pyfloat f = Ok f' -> "%"%char ∉ chars f' /\ "^"%char ∉ chars f' /\ ~ has_power (chars f').
Proof.
  intros Hf H. destruct (signs_exist (chars f)) as (l & Hl & El). rewrite <- (str_chars f), <- El, fix_signs in H by done.
  apply bind_Ok in H as (s & Hs & H). apply bind_Ok in H as (t & Ht & H). apply Ok_inj in H as <-. rewrite chars_str.
  assert (Forall (fun c => c <> "%"%char /\ c <> "^"%char) t) as Hc.
  { eapply power_loop_chars; [by_compute| |exact Ht|].
    - intros x y E. destruct (Hf _ _ E) as [H1 H2]. apply Forall_forall. intros c Hc. split; intros ->; done.
    - eapply if_loop_chars; [by_compute|exact Hs|]. clear - Hl. unfold signs_python. induction l as [|x l IH]; [constructor|].
      cbn [flat_map]. apply Forall_app. split; [|apply IH; destruct x; cbn in Hl; tauto].
      destruct x; cbn in *; [|by_compute|by_compute|constructor]. constructor; [tauto|constructor]. }
  rewrite Forall_forall in Hc. split; [intros E; by apply Hc in E as [? _]|]. split; [intros E; by apply Hc in E as [_ ?]|].
  apply power_search_has. by eapply power_loop_left.
Qed.

(** *** Databases *)
Lemma math_data pyfloat data data' : fix_math_formulas pyfloat data = Ok data' ->
  Forall2 (renamed (fun o o' => o_variable o' = o_variable o /\
    match o_formula o with
    | None => o_formula o' = None
    | Some f => exists f', o_formula o' = Some f' /\ fix_math_formula pyfloat f = Ok f'
    end)) data data'.
Proof.
  intros H. apply change_all_spec in H. eapply Forall2_impl; [exact H|]. intros ds ds' [H1 H2]. split; [done|].
  eapply Forall2_impl; [exact H2|]. cbv beta. intros o o' [Hv Ho]. split; [done|]. cbn [fst snd] in Ho. apply bind_Ok in Ho as (r & Hr & Ho).
  apply Ok_inj in Ho. injection Ho as E1 E2. split; [done|]. destruct (o_formula o) as [f|]; cbn [optR] in Hr.
  - apply bind_Ok in Hr as (f' & Hf & Hr). apply Ok_inj in Hr. exists f'. split; [congruence|done].
  - apply Ok_inj in Hr. congruence.
Qed.
