(** Proofs for C45: rewriting of conditionals. *)
From Coq Require Import Ascii.
From Verif Require Import Base Strings Formulas Spec_Formulas.

Lemma tok_induction (P : tok -> Prop) :
  (forall c, P (Raw c)) -> (forall l, Forall P l -> P (Group l)) ->
  (forall c a b, Forall P c -> Forall P a -> Forall P b -> P (If c a b)) -> forall x, P x.
Proof.
  intros HR HG HI. fix IH 1. intros [c|l|c a b].
  - apply HR.
  - apply HG. induction l; constructor; [apply IH|assumption].
  - apply HI; [induction c|induction a|induction b]; constructor; try apply IH; assumption.
Qed.
Lemma all_Forall P l : all P l <-> Forall P l.
Proof. induction l as [|x l IH]; cbn; [done|]. rewrite Forall_cons. unfold all in IH. by rewrite IH. Qed.
Lemma written_nil : written [] = [].
Proof. done. Qed.
Lemma written_cons x l : written (x :: l) = tok_text x ++ written l.
Proof. done. Qed.
Lemma written_app l k : written (l ++ k) = written l ++ written k.
Proof. unfold written. by rewrite flat_map_app. Qed.
Lemma tok_text_group l : tok_text (Group l) = [open_paren] ++ written l ++ [close_paren].
Proof. done. Qed.
Lemma tok_text_if c a b :
  tok_text (If c a b) = IF ++ written c ++ [semicolon] ++ written a ++ [semicolon] ++ written b ++ [close_paren].
Proof. done. Qed.
Lemma written_raws s : written (raws s) = chars s.
Proof. unfold raws. induction (chars s) as [|c l IH]; [done|]. cbn [map]. rewrite written_cons, IH. done. Qed.

(** *** Characters that are allowed *)
Fixpoint raw_ok (x : tok) : Prop :=
  match x with
  | Raw c => c <> open_paren /\ c <> close_paren /\ c <> backslash
  | Group l => all raw_ok l
  | If c a b => all raw_ok c /\ all raw_ok a /\ all raw_ok b
  end.
Lemma Forall_impl2 {A} (P Q : A -> Prop) l : Forall (fun x => P x -> Q x) l -> Forall P l -> Forall Q l.
Proof. induction 1; intros H'; [constructor|]. apply Forall_cons in H' as [? ?]. constructor; auto. Qed.
Lemma tok_ok_raw x : tok_ok x -> raw_ok x.
Proof.
  induction x as [c|l IH|c a b IHc IHa IHb] using tok_induction; cbn [tok_ok raw_ok]; [done| |].
  - rewrite !all_Forall. intros [H _]. by eapply Forall_impl2.
  - rewrite !all_Forall. intros ([H1 _] & [H2 _] & [H3 _] & _). split_and!; by eapply Forall_impl2.
Qed.
Lemma formula_ok_raw l : formula_ok l -> Forall raw_ok l.
Proof. intros [H _]. rewrite all_Forall in H. eapply Forall_impl; [exact H|]. apply tok_ok_raw. Qed.

(** *** Matching parentheses *)
Definition skips (s : text) : Prop := forall before pos p stack rest, before <> backslash ->
  exists before', before' <> backslash /\
    boundaries before pos (p :: stack) (s ++ rest) = boundaries before' (pos + length s) (p :: stack) rest.
Lemma skips_nil : skips [].
Proof. intros before pos p stack rest Hb. exists before. split; [done|]. cbn. by rewrite Nat.add_0_r. Qed.
Lemma skips_app s t : skips s -> skips t -> skips (s ++ t).
Proof.
  intros Hs Ht before pos p stack rest Hb. destruct (Hs before pos p stack (t ++ rest) Hb) as (b1 & H1 & E1).
  destruct (Ht b1 (pos + length s)%nat p stack rest H1) as (b2 & H2 & E2). exists b2. split; [done|].
  rewrite <- app_assoc, E1, E2, app_length. f_equal. lia.
Qed.
Lemma skips_char c : c <> open_paren -> c <> close_paren -> c <> backslash -> skips [c].
Proof.
  intros H1 H2 H3 before pos p stack rest Hb. exists c. split; [done|]. cbn [app boundaries].
  rewrite !bool_decide_eq_false_2 by done. f_equal. cbn. lia.
Qed.
Lemma skips_paren s : skips s -> skips ([open_paren] ++ s ++ [close_paren]).
Proof.
  intros Hs before pos p stack rest Hb. cbn [app boundaries]. rewrite bool_decide_eq_false_2 by done.
  rewrite bool_decide_eq_true_2 by done.
  destruct (Hs open_paren (S pos) (S pos) (p :: stack) ([close_paren] ++ rest)) as (b1 & H1 & E1); [done|].
  rewrite <- app_assoc, E1. cbn [app boundaries]. rewrite bool_decide_eq_false_2 by done.
  rewrite (bool_decide_eq_false_2 (close_paren = open_paren)) by done. rewrite bool_decide_eq_true_2 by done.
  exists close_paren. split; [done|]. f_equal. cbn [length]. rewrite app_length. cbn. lia.
Qed.
Lemma skips_written l : Forall (fun x => skips (tok_text x)) l -> skips (written l).
Proof. induction 1; [apply skips_nil|]. rewrite written_cons. by apply skips_app. Qed.
Lemma skips_tok x : raw_ok x -> skips (tok_text x).
Proof.
  induction x as [c|l IH|c a b IHc IHa IHb] using tok_induction; cbn [raw_ok].
  - intros (H1 & H2 & H3). by apply skips_char.
  - rewrite all_Forall. intros H. rewrite tok_text_group. apply skips_paren, skips_written. by eapply Forall_impl2.
  - rewrite !all_Forall. intros (H1 & H2 & H3).
    assert (tok_text (If c a b) = ["i"%char] ++ ["f"%char] ++ ([open_paren] ++ (written c ++ [semicolon] ++ written a ++
      [semicolon] ++ written b) ++ [close_paren])) as ->.
    { rewrite tok_text_if. cbn. rewrite <- !app_assoc. cbn. rewrite <- !app_assoc. done. }
    apply skips_app; [by apply skips_char|]. apply skips_app; [by apply skips_char|]. apply skips_paren.
    apply skips_app; [apply skips_written; by eapply Forall_impl2|].
    apply skips_app; [by apply skips_char|]. apply skips_app; [apply skips_written; by eapply Forall_impl2|].
    apply skips_app; [by apply skips_char|]. apply skips_written; by eapply Forall_impl2.
Qed.
Lemma skips_formula l : Forall raw_ok l -> skips (written l).
Proof. intros H. apply skips_written. eapply Forall_impl; [exact H|]. apply skips_tok. Qed.

Lemma if_boundaries c a b suf : raw_ok (If c a b) ->
  find_if_boundaries (tok_text (If c a b) ++ suf) = Ok (3, length (tok_text (If c a b)) - 1)%nat.
Proof.
  cbn [raw_ok]. rewrite !all_Forall. intros (H1 & H2 & H3).
  assert (tok_text (If c a b) ++ suf = ["i"; "f"; open_paren]%char ++ (written c ++ [semicolon] ++ written a ++
      [semicolon] ++ written b) ++ [close_paren] ++ suf) as E.
  { rewrite tok_text_if. repeat rewrite <- app_assoc. reflexivity. }
  assert (length (tok_text (If c a b)) - 1 = 3 + length (written c ++ [semicolon] ++ written a ++
      [semicolon] ++ written b))%nat as ->.
  { rewrite tok_text_if. unfold IF. repeat (rewrite app_length; cbn [length]). cbn. lia. }
  assert (skips (written c ++ [semicolon] ++ written a ++ [semicolon] ++ written b)) as Hs.
  { apply skips_app; [by apply skips_formula|]. apply skips_app; [by apply skips_char|].
    apply skips_app; [by apply skips_formula|]. apply skips_app; [by apply skips_char|]. by apply skips_formula. }
  unfold find_if_boundaries. rewrite E. generalize (List.last (["i"; "f"; open_paren]%char ++ (written c ++ [semicolon] ++ written a ++
      [semicolon] ++ written b) ++ [close_paren] ++ suf) newline) as b0. intros b0.
  destruct (Hs open_paren 3%nat 3%nat [] ([close_paren] ++ suf)) as (b1 & Hb1 & E1); [done|].
  assert (forall b0, boundaries b0 0 [] (["i"; "f"; open_paren]%char ++ (written c ++ [semicolon] ++ written a ++
      [semicolon] ++ written b) ++ [close_paren] ++ suf) = boundaries open_paren 3 [3%nat] ((written c ++ [semicolon] ++ written a ++
      [semicolon] ++ written b) ++ [close_paren] ++ suf)) as ->.
  { intros b2. cbn [app boundaries]. case_bool_decide; done. }
  rewrite E1. cbn [app boundaries]. rewrite bool_decide_eq_false_2 by done.
  rewrite (bool_decide_eq_false_2 (close_paren = open_paren)) by done. rewrite bool_decide_eq_true_2 by done. done.
Qed.

(** *** Where conditionals are *)
Inductive at_if (c a b : list tok) : text -> text -> list tok -> list tok -> Prop :=
| At_here l : at_if c a b [] (written l) (If c a b :: l) (python_if c a b :: l)
| At_later pre suf x l l' : at_if c a b pre suf l l' -> at_if c a b (tok_text x ++ pre) suf (x :: l) (x :: l')
| At_group pre suf k k' l : at_if c a b pre suf k k' ->
    at_if c a b ([open_paren] ++ pre) (suf ++ [close_paren] ++ written l) (Group k :: l) (Group k' :: l)
| At_condition pre suf k k' x y l : at_if c a b pre suf k k' ->
    at_if c a b (IF ++ pre)
      (suf ++ [semicolon] ++ written x ++ [semicolon] ++ written y ++ [close_paren] ++ written l)
      (If k x y :: l) (If k' x y :: l)
| At_yes pre suf k k' x y l : at_if c a b pre suf k k' ->
    at_if c a b (IF ++ written x ++ [semicolon] ++ pre)
      (suf ++ [semicolon] ++ written y ++ [close_paren] ++ written l)
      (If x k y :: l) (If x k' y :: l)
| At_no pre suf k k' x y l : at_if c a b pre suf k k' ->
    at_if c a b (IF ++ written x ++ [semicolon] ++ written y ++ [semicolon] ++ pre)
      (suf ++ [close_paren] ++ written l)
      (If x y k :: l) (If x y k' :: l).

Lemma at_if_text c a b pre suf l l' : at_if c a b pre suf l l' ->
  written l = pre ++ tok_text (If c a b) ++ suf /\ written l' = pre ++ tok_text (python_if c a b) ++ suf.
Proof.
  induction 1 as [l|pre suf x l l' H [IH1 IH2]|pre suf k k' l H [IH1 IH2]|pre suf k k' x y l H [IH1 IH2]
    |pre suf k k' x y l H [IH1 IH2]|pre suf k k' x y l H [IH1 IH2]]; [done|..];
    rewrite !written_cons, ?tok_text_group, ?(tok_text_if _ _ y), ?(tok_text_if x), ?(tok_text_if k), ?(tok_text_if k'), ?IH1, ?IH2;
    split; repeat rewrite <- app_assoc; reflexivity.
Qed.

Lemma split_at {A} (x y pre w post : list A) d : d ∉ w -> x ++ d :: y = pre ++ w ++ post ->
  (exists z, x = pre ++ w ++ z /\ post = z ++ d :: y) \/ (exists z, pre = x ++ d :: z /\ y = z ++ w ++ post).
Proof.
  intros Hd H. apply app_eq_inv in H as [(k & -> & H)|(k & -> & H)].
  - left. apply app_eq_inv in H as [(k2 & -> & H)|(k2 & -> & ->)].
    + destruct k2 as [|d' k2]; cbn in H.
      * subst post. exists []. rewrite !app_nil_r. done.
      * injection H as <- H. exfalso. apply Hd. set_solver.
    + by exists k2.
  - destruct k as [|d' k]; cbn in H.
    + left. destruct w as [|d' w]; cbn in H.
      * subst post. exists []. by rewrite !app_nil_r.
      * injection H as <- H. exfalso. apply Hd. by left.
    + injection H as <- H. right. by exists k.
Qed.

Lemma no_if_before_paren_tail x l : no_if_before_paren (x :: l) -> no_if_before_paren l.
Proof. intros H l1 l2 E. apply (H (shape x :: l1) l2). cbn [map]. by rewrite E. Qed.
Lemma formula_ok_tail x l : formula_ok (x :: l) -> tok_ok x /\ formula_ok l.
Proof. intros [[H1 H2] H3]. split; [done|]. split; [done|]. by eapply no_if_before_paren_tail. Qed.

Lemma semicolon_IF : semicolon ∉ IF.
Proof. apply (bool_decide_unpack _). vm_compute. done. Qed.
Lemma close_IF : close_paren ∉ IF.
Proof. apply (bool_decide_unpack _). vm_compute. done. Qed.

Definition occurs_ok (l : list tok) : Prop := formula_ok l -> forall pre post, written l = pre ++ IF ++ post ->
  exists c a b suf l', at_if c a b pre suf l l'.
Definition occurs_inside (x : tok) : Prop :=
  match x with
  | Raw _ => True
  | Group l => occurs_ok l
  | If c a b => occurs_ok c /\ occurs_ok a /\ occurs_ok b
  end.
Lemma occurs_list l : Forall occurs_inside l -> occurs_ok l.
Proof.
  induction 1 as [|x l Hx _ IH]; intros Hok pre post E.
  { rewrite written_nil in E. by destruct pre. }
  destruct (formula_ok_tail _ _ Hok) as [Hok1 Hok2].
  assert (forall pre', pre = tok_text x ++ pre' -> written l = pre' ++ IF ++ post ->
    exists c a b suf l', at_if c a b pre suf (x :: l) l') as later.
  { intros pre' -> E'. destruct (IH Hok2 _ _ E') as (c & a & b & suf & l' & H). exists c, a, b, suf, (x :: l'). by constructor. }
  rewrite written_cons in E. destruct x as [ch|k|c a b].
  - destruct pre as [|p pre].
    + exfalso. cbn in E. injection E as -> E. destruct l as [|y l]; [done|]. rewrite written_cons in E.
      destruct y as [ch|?|? ? ?]; [|done|done]. cbn in E. injection E as -> E. destruct l as [|z l]; [done|].
      rewrite written_cons in E. destruct z as [ch|k|? ? ?]; [| |done].
      * cbn in E. injection E as -> E. apply formula_ok_tail in Hok2 as [_ Hok2]. apply formula_ok_tail in Hok2 as [Hok2 _].
        by destruct Hok2.
      * destruct Hok as [_ Hok]. by apply (Hok [] (map shape l)).
    + cbn in E. injection E as -> E. by apply (later pre).
  - rewrite tok_text_group in E. destruct pre as [|p pre]; [done|]. cbn in E. injection E as <- E.
    rewrite <- app_assoc in E.
    apply (split_at (written k) (written l) pre IF post close_paren close_IF) in E as [(z & E & ->)|(z & -> & E)].
    + cbn in Hx. destruct (Hx Hok1 _ _ E) as (c & a & b & suf & k' & H). eexists c, a, b, _, _. apply At_group, H.
    + apply (later z); [|done]. rewrite tok_text_group. repeat rewrite <- app_assoc. reflexivity.
  - destruct Hx as (Hc & Ha & Hb). destruct Hok1 as (Ok1 & Ok2 & Ok3 & _).
    destruct pre as [|p1 pre]; [eexists c, a, b, _, _; apply At_here|]. rewrite tok_text_if in E.
    destruct pre as [|p2 pre]; [done|]. destruct pre as [|p3 pre]; [done|]. repeat rewrite <- app_assoc in E.
    change ("i"%char :: "f"%char :: open_paren :: (written c ++ [semicolon] ++ written a ++ [semicolon] ++ written b
      ++ [close_paren] ++ written l) = p1 :: p2 :: p3 :: (pre ++ IF ++ post)) in E. injection E as <- <- <- E.
    apply (split_at (written c) _ pre IF post semicolon semicolon_IF) in E as [(z & E & ->)|(z & -> & E)].
    + destruct (Hc Ok1 _ _ E) as (c' & a' & b' & suf & k' & H). eexists c', a', b', _, _. exact (At_condition _ _ _ _ _ _ _ a b l H).
    + apply (split_at (written a) _ z IF post semicolon semicolon_IF) in E as [(z' & E & ->)|(z' & -> & E)].
      * destruct (Ha Ok2 _ _ E) as (c' & a' & b' & suf & k' & H). eexists c', a', b', _, _. exact (At_yes _ _ _ _ _ _ _ c b l H).
      * apply (split_at (written b) _ z' IF post close_paren close_IF) in E as [(z2 & E & ->)|(z2 & -> & E)].
        -- destruct (Hb Ok3 _ _ E) as (c' & a' & b' & suf & k' & H). eexists c', a', b', _, _. exact (At_no _ _ _ _ _ _ _ c a l H).
        -- apply (later z2); [|done]. rewrite tok_text_if. repeat rewrite <- app_assoc. reflexivity.
Qed.
Lemma occurs_tok x : occurs_inside x.
Proof.
  induction x as [c|l IH|c a b IHc IHa IHb] using tok_induction; [done|by apply occurs_list|].
  split_and!; by apply occurs_list.
Qed.
Lemma occurs l : occurs_ok l.
Proof. apply occurs_list, Forall_forall. intros x _. apply occurs_tok. Qed.

(** *** Counting conditionals *)
Fixpoint ifs (x : tok) : nat :=
  match x with
  | Raw _ => 0
  | Group l => sum_list (map ifs l)
  | If c a b => S (sum_list (map ifs c) + sum_list (map ifs a) + sum_list (map ifs b))
  end.
Definition count (l : list tok) : nat := sum_list (map ifs l).
Lemma count_cons x l : count (x :: l) = (ifs x + count l)%nat.
Proof. done. Qed.
Lemma count_app l k : count (l ++ k) = (count l + count k)%nat.
Proof. induction l as [|x l IH]; [done|]. cbn [app]. rewrite !count_cons, IH. lia. Qed.
Lemma count_rev l : count (rev l) = count l.
Proof. induction l as [|x l IH]; [done|]. cbn [rev]. rewrite count_app, IH, !count_cons. change (count []) with 0%nat. lia. Qed.
Lemma count_raws s : count (raws s) = 0%nat.
Proof. unfold raws. induction (chars s) as [|c l IH]; [done|]. cbn [map]. by rewrite count_cons, IH. Qed.
Lemma drop_blanks_suffix l : exists k, l = k ++ drop_blanks l.
Proof.
  induction l as [|x l [k IH]]; [by exists []|]. cbn. destruct (is_blank x); [|by exists []].
  exists (x :: k). cbn. by f_equal.
Qed.
Lemma trim_part l : exists k1 k2, l = k1 ++ trim l ++ k2.
Proof.
  unfold trim. destruct (drop_blanks_suffix l) as [k1 H1]. destruct (drop_blanks_suffix (rev (drop_blanks l))) as [k2 H2].
  exists k1, (rev k2). rewrite <- rev_app_distr, <- H2, rev_involutive. done.
Qed.
Lemma count_trim l : (count (trim l) <= count l)%nat.
Proof. destruct (trim_part l) as (k1 & k2 & E). rewrite E at 2. rewrite !count_app. lia. Qed.
Lemma count_python_if c a b : count c = 0%nat -> count a = 0%nat -> count b = 0%nat -> ifs (python_if c a b) = 0%nat.
Proof.
  intros Hc Ha Hb. unfold python_if. case_bool_decide.
  - change (count (trim a) = 0%nat). pose proof (count_trim a). lia.
  - change (count ([Group a] ++ raws " if " ++ [Group c] ++ raws " else " ++ [Group b]) = 0%nat).
    rewrite !count_app, !count_raws, !count_cons. cbn [ifs]. fold (count a) (count b) (count c). rewrite Ha, Hb, Hc. done.
Qed.

Lemma to_python_no_if x : ifs x = 0%nat -> to_python x = x.
Proof.
  induction x as [c|l IH|c a b IHc IHa IHb] using tok_induction; intros H; [done| |done].
  cbn. f_equal. cbn [ifs] in H. induction IH as [|x l Hx _ IHl]; [done|]. cbn in H |- *. rewrite Hx, IHl by lia. done.
Qed.
Lemma to_python_count l : count l = 0%nat -> map to_python l = l.
Proof.
  induction l as [|x l IH]; intros H; [done|]. rewrite count_cons in H. cbn. rewrite to_python_no_if, IH by lia. done.
Qed.
Lemma at_if_count c a b pre suf l l' : count c = 0%nat -> count a = 0%nat -> count b = 0%nat ->
  at_if c a b pre suf l l' -> count l = S (count l').
Proof.
  intros Hc Ha Hb. induction 1 as [l|pre suf x l l' H IH|pre suf k k' l H IH|pre suf k k' x y l H IH
    |pre suf k k' x y l H IH|pre suf k k' x y l H IH]; rewrite !count_cons.
  - rewrite count_python_if by done. cbn [ifs]. fold (count a) (count b) (count c). lia.
  - rewrite IH. lia.
  - cbn [ifs]. fold (count k) (count k'). lia.
  - cbn [ifs]. fold (count k) (count k'). lia.
  - cbn [ifs]. fold (count k) (count k'). lia.
  - cbn [ifs]. fold (count k) (count k'). lia.
Qed.
Lemma at_if_python c a b pre suf l l' : count c = 0%nat -> count a = 0%nat -> count b = 0%nat ->
  at_if c a b pre suf l l' -> map to_python l' = map to_python l.
Proof.
  intros Hc Ha Hb. induction 1 as [l|pre suf x l l' H IH|pre suf k k' l H IH|pre suf k k' x y l H IH
    |pre suf k k' x y l H IH|pre suf k k' x y l H IH]; cbn [map]; [|by rewrite IH|..].
  - f_equal. rewrite to_python_no_if by by apply count_python_if. cbn [to_python]. by rewrite !to_python_count.
  - cbn [to_python]. by rewrite IH.
  - cbn [to_python]. by rewrite IH.
  - cbn [to_python]. by rewrite IH.
  - cbn [to_python]. by rewrite IH.
Qed.
Definition exists_at (l : list tok) : Prop := (0 < count l)%nat -> exists c a b pre suf l', at_if c a b pre suf l l'.
Lemma some_if_list l : Forall (fun x => forall k, x = Group k -> exists_at k) l -> exists_at l.
Proof.
  induction 1 as [|x l Hx _ IH]; intros H; [cbn in H; lia|].
  destruct x as [ch|k|c a b].
  - destruct IH as (c & a & b & pre & suf & l' & Hat); [by rewrite count_cons in H|]. eexists c, a, b, _, _, _. by constructor.
  - destruct (decide (count k = 0%nat)) as [Hk|Hk].
    + destruct IH as (c & a & b & pre & suf & l' & Hat).
      { rewrite count_cons in H. cbn [ifs] in H. fold (count k) in H. lia. }
      eexists c, a, b, _, _, _. by constructor.
    + destruct (Hx k eq_refl) as (c & a & b & pre & suf & l' & Hat); [lia|]. eexists c, a, b, _, _, _. by apply At_group.
  - eexists c, a, b, _, _, _. apply At_here.
Qed.
Lemma some_if l : exists_at l.
Proof.
  apply some_if_list, Forall_forall. intros x _. induction x as [c|k IH|c a b IHc IHa IHb] using tok_induction; intros k' [= <-].
  by apply some_if_list.
Qed.

(** *** What stays allowed *)
Lemma shape_python_if c a b : shape (python_if c a b) = None.
Proof. unfold python_if. by case_bool_decide. Qed.
Lemma at_if_shape c a b pre suf l l' : at_if c a b pre suf l l' -> map shape l' = map shape l.
Proof. induction 1; cbn [map]; rewrite ?shape_python_if; try done. by f_equal. Qed.
Lemma at_if_inner c a b pre suf l l' : at_if c a b pre suf l l' -> formula_ok l -> tok_ok (If c a b).
Proof.
  induction 1 as [l|pre suf x l l' H IH|pre suf k k' l H IH|pre suf k k' x y l H IH
    |pre suf k k' x y l H IH|pre suf k k' x y l H IH]; intros Hok; apply formula_ok_tail in Hok as [Hx Hl]; [done|by apply IH|..];
    apply IH; cbn [tok_ok] in Hx; unfold formula_ok; tauto.
Qed.
Lemma no_if_part k1 l k2 : no_if_before_paren (k1 ++ l ++ k2) -> no_if_before_paren l.
Proof.
  intros H l1 l2 E. apply (H (map shape k1 ++ l1) (l2 ++ map shape k2)). rewrite !map_app, E. by repeat rewrite <- app_assoc.
Qed.
Lemma formula_ok_part k1 l k2 : formula_ok (k1 ++ l ++ k2) -> formula_ok l.
Proof.
  intros [H1 H2]. split; [|by eapply no_if_part]. rewrite all_Forall in *. apply Forall_app in H1 as [_ H1]. by apply Forall_app in H1 as [H1 _].
Qed.
Lemma raws_ok s : Forall (fun c => c <> open_paren /\ c <> close_paren /\ c <> backslash) (chars s) -> Forall tok_ok (raws s).
Proof. unfold raws. induction 1; cbn [map]; by constructor. Qed.
Lemma python_if_ok c a b : tok_ok (If c a b) -> tok_ok (python_if c a b).
Proof.
  intros (Hc & Ha & Hb & _). unfold python_if. case_bool_decide as E.
  - cbn [tok_ok]. destruct (trim_part a) as (k1 & k2 & Ea). rewrite Ea in Ha. by eapply formula_ok_part.
  - cbn [tok_ok]. split.
    + rewrite all_Forall.
      assert (forall l, formula_ok l -> Forall tok_ok [Group l]) as one by (intros l Hl; by constructor).
      apply Forall_app. split; [by apply one|]. apply Forall_app. split; [apply raws_ok; by repeat (constructor; [done|])|].
      apply Forall_app. split; [by apply one|]. apply Forall_app. split; [apply raws_ok; by repeat (constructor; [done|])|].
      by apply one.
    + intros l1 l2 El.
      assert (map shape ([Group a] ++ raws " if " ++ [Group c] ++ raws " else " ++ [Group b])
        = map shape ([Group []] ++ raws " if " ++ [Group []] ++ raws " else " ++ [Group []])) as Es by reflexivity.
      rewrite Es in El. vm_compute in El. clear Es.
      repeat (destruct l1 as [|? l1]; cbn in El; [discriminate El|injection El as <- El]). by destruct l1.
Qed.
Lemma at_if_ok c a b pre suf l l' : count c = 0%nat -> count a = 0%nat -> count b = 0%nat ->
  at_if c a b pre suf l l' -> formula_ok l -> formula_ok l'.
Proof.
  intros Hc Ha Hb H [H1 H2]. split; [|unfold no_if_before_paren; by rewrite (at_if_shape _ _ _ _ _ _ _ H)]. clear H2.
  induction H as [l|pre suf x l l' H IH|pre suf k k' l H IH|pre suf k k' x y l H IH
    |pre suf k k' x y l H IH|pre suf k k' x y l H IH]; destruct H1 as [Hx Hl]; (split; [|done || by apply IH]); [..|].
  - by apply python_if_ok.
  - done.
  - destruct Hx as [X1 X2]. split; [by apply IH|]. unfold no_if_before_paren. by rewrite (at_if_shape _ _ _ _ _ _ _ H).
  - destruct Hx as ([X1 X2] & X3). split; [split; [by apply IH|]|].
    + unfold no_if_before_paren. by rewrite (at_if_shape _ _ _ _ _ _ _ H).
    + by rewrite (at_if_python _ _ _ _ _ _ _ Hc Ha Hb H).
  - destruct Hx as (X0 & [X1 X2] & X3). split; [done|]. split; [split; [by apply IH|]|].
    + unfold no_if_before_paren. by rewrite (at_if_shape _ _ _ _ _ _ _ H).
    + by rewrite (at_if_python _ _ _ _ _ _ _ Hc Ha Hb H).
  - destruct Hx as (X0 & X0' & [X1 X2] & X3). split; [done|]. split; [done|]. split; [split; [by apply IH|]|].
    + unfold no_if_before_paren. by rewrite (at_if_shape _ _ _ _ _ _ _ H).
    + by rewrite (at_if_python _ _ _ _ _ _ _ Hc Ha Hb H).
Qed.

(** *** Stripping blanks *)
Definition rstrip (s : text) : text := rev (lstrip (rev s)).
Lemma rstrip_snoc s c : rstrip (s ++ [c]) = if blank c then rstrip s else s ++ [c].
Proof. unfold rstrip. rewrite rev_app_distr. cbn. destruct (blank c); [done|]. cbn. by rewrite rev_involutive. Qed.
Definition trim_end (l : list tok) : list tok := rev (drop_blanks (rev l)).
Lemma trim_end_snoc l x : trim_end (l ++ [x]) = if is_blank x then trim_end l else l ++ [x].
Proof. unfold trim_end. rewrite rev_app_distr. cbn. destruct (is_blank x); [done|]. cbn. by rewrite rev_involutive. Qed.
Lemma written_drop_blanks l : written (drop_blanks l) = lstrip (written l).
Proof.
  induction l as [|x l IH]; [done|]. rewrite written_cons. destruct x as [c|k|c a b]; cbn [drop_blanks is_blank].
  - cbn [tok_text app lstrip]. destruct (blank c); [done|]. by rewrite written_cons.
  - by rewrite written_cons.
  - by rewrite written_cons.
Qed.
Lemma written_trim_end l : written (trim_end l) = rstrip (written l).
Proof.
  induction l as [|x l IH] using rev_ind; [done|]. rewrite trim_end_snoc, written_app.
  assert (written [x] = tok_text x) as -> by (rewrite written_cons, written_nil; by rewrite app_nil_r).
  destruct x as [c|k|c a b]; cbn [is_blank].
  - cbn [tok_text]. rewrite rstrip_snoc. destruct (blank c); [done|]. by rewrite written_app.
  - rewrite tok_text_group. rewrite written_app, written_cons, written_nil, app_nil_r, tok_text_group.
    rewrite (app_assoc [open_paren]), (app_assoc (written l)), rstrip_snoc. done.
  - rewrite written_app, written_cons, written_nil, app_nil_r, tok_text_if.
    assert (forall x y z w v u : text, x ++ y ++ z ++ w ++ v ++ u ++ [close_paren] = (x ++ y ++ z ++ w ++ v ++ u) ++ [close_paren]) as E.
    { intros. by repeat rewrite <- app_assoc. }
    rewrite E, app_assoc, rstrip_snoc. done.
Qed.
Lemma written_trim l : written (trim l) = strip (written l).
Proof. unfold trim, strip. fold (trim_end (drop_blanks l)). rewrite written_trim_end, written_drop_blanks. done. Qed.

(** *** One replacement *)
Lemma split_semicolon_app s r : semicolon ∉ s -> split_semicolon (s ++ semicolon :: r) = Some (s, r).
Proof.
  induction s as [|c s IH]; intros H; cbn; [done|]. apply not_elem_of_cons in H as [H1 H2].
  rewrite bool_decide_eq_false_2 by congruence. by rewrite IH.
Qed.
Lemma argument_app s r : argument_ok s -> argument (s ++ semicolon :: r) = Some (s, r).
Proof. intros [H1 H2]. unfold argument. rewrite split_semicolon_app by done. by destruct s. Qed.
Lemma last_argument_app s : last_argument_ok s -> last_argument (s ++ [close_paren]) = Some s.
Proof.
  intros [H1 H2]. unfold last_argument. rewrite rev_app_distr. cbn [rev app]. rewrite bool_decide_eq_true_2 by done.
  rewrite bool_decide_eq_true_2, bool_decide_eq_true_2; cbn [andb].
  - by rewrite rev_involutive.
  - by rewrite <- elem_of_reverse, reverse_rev in H2 || (intros Hc; apply H2; rewrite <- elem_of_reverse; unfold reverse; by rewrite rev_append_rev, app_nil_r).
  - intros E. apply H1. apply (f_equal (@rev ascii)) in E. by rewrite rev_involutive in E.
Qed.
Lemma starts_app p s : starts p (p ++ s) = true.
Proof. induction p as [|c p IH]; [done|]. cbn. by rewrite bool_decide_eq_true_2. Qed.
Lemma starts_true p s : starts p s = true -> exists r, s = p ++ r.
Proof.
  revert s. induction p as [|c p IH]; intros s H; [by exists s|]. destruct s as [|d s]; [done|]. cbn in H.
  apply andb_true_iff in H as [H1 H2]. apply bool_decide_eq_true in H1 as ->. destruct (IH _ H2) as [r ->]. by exists r.
Qed.
Lemma replace_if c a b : count c = 0%nat -> count a = 0%nat -> count b = 0%nat -> tok_ok (If c a b) ->
  replace_if_statement (tok_text (If c a b)) = Ok (tok_text (python_if c a b)).
Proof.
  intros Hc Ha Hb (_ & _ & _ & A1 & A2 & A3). rewrite !to_python_count in A1, A2, A3 by done.
  unfold replace_if_statement, complete_if. rewrite tok_text_if, starts_app.
  change (drop 3 (IF ++ ?x)) with x. cbn [app].
  rewrite (argument_app _ _ A1), (argument_app _ _ A2), (last_argument_app _ A3).
  f_equal. unfold python_if. case_bool_decide as E.
  - rewrite tok_text_group, written_trim. done.
  - rewrite tok_text_group, !written_app, !written_raws, !written_cons, !written_nil, !tok_text_group.
    unfold conditional. repeat rewrite <- app_assoc. reflexivity.
Qed.

(** *** The positions *)
Lemma if_starts_spec pos s n : n ∈ if_starts pos s <-> exists m pre post, n = (pos + m)%nat /\ length pre = m /\ s = pre ++ IF ++ post.
Proof.
  revert pos. induction s as [|c s IH]; intros pos.
  - cbn. split; [by intros ?%elem_of_nil|]. intros (m & pre & post & _ & _ & E). by destruct pre.
  - cbn [if_starts].
    assert (n ∈ if_starts (S pos) s <-> exists m pre post, n = (pos + S m)%nat /\ length pre = m /\ s = pre ++ IF ++ post) as IH'.
    { rewrite IH. by setoid_rewrite Nat.add_succ_comm. }
    destruct (starts IF (c :: s)) eqn:Es.
    + rewrite elem_of_cons, IH'. apply starts_true in Es as [r Er]. split.
      * intros [->|(m & pre & post & -> & Hl & ->)].
        -- exists 0%nat, [], r. split; [lia|]. done.
        -- exists (S m), (c :: pre), post. split; [done|]. cbn. split; [by f_equal|done].
      * intros (m & [|d pre] & post & -> & Hl & E).
        -- left. cbn in Hl. subst m. lia.
        -- right. cbn in E. injection E as <- ->. cbn in Hl. subst m. by exists (length pre), pre, post.
    + rewrite IH'. split.
      * intros (m & pre & post & -> & Hl & ->). exists (S m), (c :: pre), post. split; [done|]. cbn. split; [by f_equal|done].
      * intros (m & [|d pre] & post & -> & Hl & E).
        -- exfalso. rewrite E in Es. cbn [app] in Es. by rewrite starts_app in Es.
        -- cbn in E. injection E as <- ->. cbn in Hl. subst m. by exists (length pre), pre, post.
Qed.
Lemma first_smallest_in best l : first_smallest best l = best \/ first_smallest best l ∈ l.
Proof.
  revert best. induction l as [|x l IH]; intros best; [by left|]. cbn [first_smallest].
  destruct (IH (if (x.2 <? best.2)%nat then x else best)) as [->|H]; [|right; by right].
  destruct (x.2 <? best.2)%nat; [right; by left|by left].
Qed.
Lemma first_smallest_min best l x : x = best \/ x ∈ l -> (snd (first_smallest best l) <= x.2)%nat.
Proof.
  revert best x. induction l as [|y l IH]; intros best x; cbn [first_smallest].
  - intros [->|?%elem_of_nil]; done.
  - intros [->|[->|H]%elem_of_cons]; [..|apply IH; by right];
      (etransitivity; [apply IH; by left|]); destruct (y.2 <? best.2)%nat eqn:E;
      rewrite ?Nat.ltb_lt, ?Nat.ltb_ge in E; lia.
Qed.
Lemma drop_length_app {A} (pre s : list A) : drop (length pre) (pre ++ s) = s.
Proof. by rewrite drop_app_length || by rewrite drop_app. Qed.

(** *** A round of the loop *)
Lemma no_inner k l pre suf n : formula_ok k -> written l = pre ++ written k ++ suf ->
  (forall start s, written l = s -> start ∈ if_starts 0 s -> forall b, find_if_boundaries (drop start s) = Ok b -> (n <= b.2)%nat) ->
  (length (written k) <= n)%nat -> count k = 0%nat.
Proof.
  intros Hk E Hmin Hn. destruct (decide (count k = 0%nat)) as [|Hc]; [done|]. exfalso.
  destruct (some_if k) as (c & a & b & p & q & k' & Hat); [lia|].
  destruct (at_if_text _ _ _ _ _ _ _ Hat) as [Ek _]. pose proof (at_if_inner _ _ _ _ _ _ _ Hat Hk) as Hi.
  rewrite Ek in E, Hn.
  assert (written l = (pre ++ p) ++ tok_text (If c a b) ++ (q ++ suf)) as E2 by (rewrite E; by repeat rewrite <- app_assoc).
  specialize (Hmin (length (pre ++ p)) _ E2).
  assert (length (pre ++ p) ∈ if_starts 0 ((pre ++ p) ++ tok_text (If c a b) ++ q ++ suf)) as Hin.
  { apply if_starts_spec. eexists _, (pre ++ p), _. split; [|split; [reflexivity|]]; [done|]. rewrite tok_text_if. by repeat rewrite <- app_assoc. }
  specialize (Hmin Hin). rewrite drop_length_app in Hmin. specialize (Hmin _ (if_boundaries _ _ _ _ (tok_ok_raw _ Hi))). cbn [snd] in Hmin.
  rewrite !app_length in Hn.
  assert (3 <= length (tok_text (If c a b)))%nat by (rewrite tok_text_if, app_length; cbn; lia). lia.
Qed.
Lemma round l : formula_ok l -> (0 < count l)%nat -> exists l', replace_smallest_if (written l) = Ok (written l') /\
  formula_ok l' /\ map to_python l' = map to_python l /\ count l = S (count l').
Proof.
  intros Hok Hc. unfold replace_smallest_if.
  set (f := fun start : nat => let? b := find_if_boundaries (drop start (written l)) in Ok (start, b.2)).
  assert (forall n, n ∈ if_starts 0 (written l) -> exists c a b pre suf l', at_if c a b pre suf l l' /\ n = length pre /\
     f n = Ok (n, length (tok_text (If c a b)) - 1)%nat) as Hf.
  { intros n (m & pre & post & -> & Hl & E)%if_starts_spec.
    destruct (occurs l Hok _ _ E) as (c & a & b & suf & l' & Hat). exists c, a, b, pre, suf, l'. split; [done|]. split; [cbn; done|].
    unfold f. destruct (at_if_text _ _ _ _ _ _ _ Hat) as [Ek _]. rewrite Ek. cbn [plus]. rewrite <- Hl, drop_length_app.
    by rewrite (if_boundaries _ _ _ _ (tok_ok_raw _ (at_if_inner _ _ _ _ _ _ _ Hat Hok))). }
  destruct (mapR f (if_starts 0 (written l))) as [ps|e] eqn:Eps.
  2: { exfalso. apply mapR_Err in Eps as (l1 & n & l2 & El & E & _). assert (n ∈ if_starts 0 (written l)) as Hn by (rewrite El; apply elem_of_app; right; left). destruct (Hf n Hn) as (c & a & b & pre & suf & l' & _ & _ & E'). congruence. }
  cbn [bind]. apply mapR_Ok in Eps.
  destruct ps as [|p ps].
  { exfalso. apply Forall2_nil_inv_r in Eps. destruct (some_if l Hc) as (c & a & b & pre & suf & l' & Hat).
    destruct (at_if_text _ _ _ _ _ _ _ Hat) as [Ek _].
    assert (length pre ∈ if_starts 0 (written l)) as Hin; [|by rewrite Eps in Hin; apply elem_of_nil in Hin].
    apply if_starts_spec. eexists _, pre, _. split; [|split; [reflexivity|]]; [done|]. rewrite Ek, tok_text_if. by repeat rewrite <- app_assoc. }
  destruct (first_smallest p ps) as [start finish] eqn:Ef.
  assert ((start, finish) ∈ p :: ps) as Hin.
  { destruct (first_smallest_in p ps) as [H|H]; rewrite Ef in H; [rewrite H; by left|by right]. }
  assert (forall n b, n ∈ if_starts 0 (written l) -> find_if_boundaries (drop n (written l)) = Ok b -> (finish <= b.2)%nat) as Hmin.
  { intros n b Hn Hb. apply elem_of_list_lookup in Hn as [i Hi]. destruct (Forall2_lookup_l _ _ _ _ _ Eps Hi) as (y & Hy & E).
    unfold f in E. rewrite Hb in E. cbn in E. apply Ok_inj in E as <-. apply elem_of_list_lookup_2 in Hy.
    apply (first_smallest_min p ps) in Hy || (apply elem_of_cons in Hy; apply (first_smallest_min p ps) in Hy). by rewrite Ef in Hy. }
  apply elem_of_list_lookup in Hin as [i Hi]. destruct (Forall2_lookup_r _ _ _ _ _ Eps Hi) as (n & Hn & E).
  apply elem_of_list_lookup_2 in Hn. destruct (Hf n Hn) as (c & a & b & pre & suf & l' & Hat & -> & E').
  rewrite E' in E. apply Ok_inj in E. apply pair_equal_spec in E as [<- <-]. clear E'.
  destruct (at_if_text _ _ _ _ _ _ _ Hat) as [Ek Ek']. pose proof (at_if_inner _ _ _ _ _ _ _ Hat Hok) as Hi'.
  set (L := tok_text (If c a b)) in *.
  assert (length L = (4 + length (written c) + 1 + length (written a) + 1 + length (written b))%nat) as HL.
  { unfold L. rewrite tok_text_if, !app_length. cbn. lia. }
  destruct Hi' as (Hic & Hia & Hib & A1 & A2 & A3).
  assert (count c = 0%nat /\ count a = 0%nat /\ count b = 0%nat) as (Nc & Na & Nb).
  { split_and!.
    - apply (no_inner c l (pre ++ IF) ([semicolon] ++ written a ++ [semicolon] ++ written b ++ [close_paren] ++ suf) (length L - 1)%nat); [done| |by intros ? ? <- ? ? ?; eapply Hmin|lia].
      rewrite Ek. unfold L. rewrite tok_text_if. by repeat rewrite <- app_assoc.
    - apply (no_inner a l (pre ++ IF ++ written c ++ [semicolon]) ([semicolon] ++ written b ++ [close_paren] ++ suf) (length L - 1)%nat); [done| |by intros ? ? <- ? ? ?; eapply Hmin|lia].
      rewrite Ek. unfold L. rewrite tok_text_if. by repeat rewrite <- app_assoc.
    - apply (no_inner b l (pre ++ IF ++ written c ++ [semicolon] ++ written a ++ [semicolon]) ([close_paren] ++ suf) (length L - 1)%nat); [done| |by intros ? ? <- ? ? ?; eapply Hmin|lia].
      rewrite Ek. unfold L. rewrite tok_text_if. by repeat rewrite <- app_assoc. }
  exists l'. split_and!; [|exact (at_if_ok _ _ _ _ _ _ _ Nc Na Nb Hat Hok)|exact (at_if_python _ _ _ _ _ _ _ Nc Na Nb Hat)|exact (at_if_count _ _ _ _ _ _ _ Nc Na Nb Hat)].
  rewrite Ek, drop_length_app. replace (length L - 1 + 1)%nat with (length L) by lia.
  replace (length pre + (length L - 1) + 1)%nat with (length (pre ++ L)) by (rewrite app_length; lia).
  rewrite (app_assoc pre L suf), drop_length_app, <- app_assoc.
  rewrite !take_app || rewrite !take_app_length. unfold L.
  rewrite replace_if by done. cbn [bind]. by rewrite Ek'.
Qed.

(** *** The whole loop on formulas *)
Lemma semicolons_nil : semicolons [] = 0%nat.
Proof. done. Qed.
Lemma semicolons_app s t : semicolons (s ++ t) = (semicolons s + semicolons t)%nat.
Proof. unfold semicolons. by rewrite filter_app, app_length. Qed.
Lemma semicolons_one : semicolons [semicolon] = 1%nat.
Proof. done. Qed.
Lemma count_semicolons_list l : Forall (fun x => ifs x <= semicolons (tok_text x))%nat l -> (count l <= semicolons (written l))%nat.
Proof.
  induction 1 as [|x l Hx _ IH]; [done|]. rewrite count_cons, written_cons, semicolons_app. lia.
Qed.
Lemma count_semicolons_tok x : (ifs x <= semicolons (tok_text x))%nat.
Proof.
  induction x as [c|l IH|c a b IHc IHa IHb] using tok_induction; [cbn [ifs]; lia|..].
  - rewrite tok_text_group, !semicolons_app. apply count_semicolons_list in IH. cbn [ifs]. fold (count l). lia.
  - rewrite tok_text_if, !semicolons_app, semicolons_one.
    apply count_semicolons_list in IHc, IHa, IHb. cbn [ifs]. fold (count a) (count b) (count c). lia.
Qed.
Lemma count_semicolons l : (count l <= semicolons (written l))%nat.
Proof. apply count_semicolons_list, Forall_forall. intros x _. apply count_semicolons_tok. Qed.

Lemma contains_if_spec s : contains_if s = true <-> exists pre post, s = pre ++ IF ++ post.
Proof.
  unfold contains_if. rewrite bool_decide_eq_true. split.
  - intros H. destruct (if_starts 0 s) as [|n k] eqn:E; [done|]. assert (n ∈ if_starts 0 s) as Hn by (rewrite E; left).
    apply if_starts_spec in Hn as (m & pre & post & _ & _ & Hs). by exists pre, post.
  - intros (pre & post & E) H. assert (length pre ∈ if_starts 0 s) as Hn.
    { apply if_starts_spec. by exists (length pre), pre, post. }
    rewrite H in Hn. by apply elem_of_nil in Hn.
Qed.
Lemma at_if_positive c a b pre suf l l' : at_if c a b pre suf l l' -> (0 < count l)%nat.
Proof.
  induction 1 as [l|pre suf x l l' H IH|pre suf k k' l H IH|pre suf k k' x y l H IH
    |pre suf k k' x y l H IH|pre suf k k' x y l H IH]; rewrite count_cons; cbn [ifs]; fold (count k) || idtac; lia.
Qed.
Lemma contains_if_count l : formula_ok l -> contains_if (written l) = true <-> (0 < count l)%nat.
Proof.
  intros Hok. rewrite contains_if_spec. split.
  - intros (pre & post & E). destruct (occurs l Hok _ _ E) as (c & a & b & suf & l' & Hat). by eapply at_if_positive.
  - intros H. destruct (some_if l H) as (c & a & b & pre & suf & l' & Hat). destruct (at_if_text _ _ _ _ _ _ _ Hat) as [Ek _].
    exists pre. eexists. rewrite Ek, tok_text_if. by repeat rewrite <- app_assoc.
Qed.
Lemma if_loop_formula fuel l : formula_ok l -> (count l <= fuel)%nat -> if_loop fuel (written l) = Ok (written (map to_python l)).
Proof.
  revert l. induction fuel as [|fuel IH]; intros l Hok Hf; cbn [if_loop];
    (destruct (contains_if (written l)) eqn:E; [apply contains_if_count in E; [|done]|]).
  - lia.
  - assert (~ (0 < count l))%nat as Hn by (rewrite <- contains_if_count by done; congruence).
    rewrite to_python_count by lia. done.
  - destruct (round l Hok E) as (l' & -> & Hok' & <- & Hc). cbn [bind]. apply IH; [done|lia].
  - assert (~ (0 < count l))%nat as Hn by (rewrite <- contains_if_count by done; congruence).
    rewrite to_python_count by lia. done.
Qed.
Lemma find_if_clause_formula l : formula_ok l -> find_if_clause (written l) = Ok (written (map to_python l)).
Proof. intros H. unfold find_if_clause. apply if_loop_formula; [done|]. pose proof (count_semicolons l). lia. Qed.

(** *** The loop on all texts *)
Lemma split_semicolon_Some s a r : split_semicolon s = Some (a, r) -> s = a ++ [semicolon] ++ r /\ semicolon ∉ a.
Proof.
  revert a. induction s as [|c s IH]; intros a; cbn; [done|]. case_bool_decide as Hc.
  - intros [= <- <-]. subst c. split; [done|apply not_elem_of_nil].
  - destruct (split_semicolon s) as [[x y]|]; [|done]. intros [= <- <-]. destruct (IH x eq_refl) as [-> Hn].
    split; [done|]. apply not_elem_of_cons. split; congruence.
Qed.
Lemma argument_Some s a r : argument s = Some (a, r) -> s = a ++ [semicolon] ++ r /\ semicolon ∉ a.
Proof.
  unfold argument. intros H. apply split_semicolon_Some. destruct (split_semicolon s) as [[[|? ?] ?]|]; congruence.
Qed.
Lemma last_argument_Some s a : last_argument s = Some a -> s = a ++ [close_paren].
Proof.
  unfold last_argument. destruct (rev s) as [|c r] eqn:E; [done|]. destruct (_ && _) eqn:Eb; [|done]. intros [= <-].
  apply andb_true_iff in Eb as [Eb _]. apply andb_true_iff in Eb as [Eb _]. apply bool_decide_eq_true in Eb as ->.
  apply (f_equal (@rev ascii)) in E. rewrite rev_involutive in E. by rewrite E.
Qed.
Lemma complete_if_Some s c a b : complete_if s = Some (c, a, b) ->
  s = IF ++ c ++ [semicolon] ++ a ++ [semicolon] ++ b ++ [close_paren] /\ semicolon ∉ c /\ semicolon ∉ a.
Proof.
  unfold complete_if. destruct (starts IF s) eqn:E; [|done]. apply starts_true in E as [r ->].
  change (drop 3 (IF ++ r)) with r. destruct (argument r) as [[c' r1]|] eqn:E1; [|done].
  destruct (argument r1) as [[a' r2]|] eqn:E2; [|done]. destruct (last_argument r2) as [b'|] eqn:E3; [|done].
  intros [= -> -> ->]. apply argument_Some in E1 as [-> H1]. apply argument_Some in E2 as [-> H2]. apply last_argument_Some in E3 as ->.
  done.
Qed.
Lemma semicolons_none s : semicolon ∉ s -> semicolons s = 0%nat.
Proof.
  unfold semicolons. induction s as [|c s IH]; intros H; [done|]. apply not_elem_of_cons in H as [H1 H2].
  rewrite filter_cons_False by congruence. by apply IH.
Qed.
Lemma elem_of_lstrip c s : c ∈ lstrip s -> c ∈ s.
Proof. induction s as [|d s IH]; cbn; [done|]. destruct (blank d); [|done]. intros H. right. by apply IH. Qed.
Lemma elem_of_strip c s : c ∈ strip s -> c ∈ s.
Proof.
  unfold strip. rewrite !elem_of_list_In, <- in_rev, <- elem_of_list_In. intros H. apply elem_of_lstrip in H.
  rewrite elem_of_list_In, <- in_rev, <- elem_of_list_In in H. apply elem_of_list_In. by apply elem_of_lstrip.
Qed.
Lemma replace_if_semicolons s r : replace_if_statement s = Ok r -> semicolons s = (2 + semicolons r)%nat.
Proof.
  unfold replace_if_statement. destruct (complete_if s) as [[[c a] b]|] eqn:E; [|done]. intros H. apply Ok_inj in H as <-.
  apply complete_if_Some in E as (-> & Hc & Ha). rewrite !semicolons_app, semicolons_one, (semicolons_none c), (semicolons_none a) by done.
  change (semicolons IF) with 0%nat. change (semicolons [close_paren]) with 0%nat. case_bool_decide as E.
  - subst b. rewrite !semicolons_app, (semicolons_none a), (semicolons_none (strip a)); [done| |done]. intros H. by apply Ha, elem_of_strip.
  - unfold conditional. rewrite !semicolons_app, (semicolons_none c), (semicolons_none a) by done.
    change (semicolons (chars "((")) with 0%nat. change (semicolons (chars ") if (")) with 0%nat.
    change (semicolons (chars ") else (")) with 0%nat. change (semicolons (chars "))")) with 0%nat. lia.
Qed.
Lemma replace_smallest_semicolons s r : replace_smallest_if s = Ok r -> semicolons s = (2 + semicolons r)%nat.
Proof.
  unfold replace_smallest_if. intros H. apply bind_Ok in H as (ps & _ & H). destruct ps as [|p ps]; [done|].
  destruct (first_smallest p ps) as [start finish]. apply bind_Ok in H as (new & Hn & H). apply Ok_inj in H as <-.
  apply replace_if_semicolons in Hn. rewrite !semicolons_app.
  assert (s = take start s ++ take (finish + 1) (drop start s) ++ drop (start + finish + 1) s) as E.
  { replace (start + finish + 1)%nat with (start + (finish + 1))%nat by lia. rewrite <- drop_drop. by rewrite !take_drop. }
  apply (f_equal semicolons) in E. rewrite !semicolons_app in E. lia.
Qed.
Lemma if_loop_fuel f1 f2 s : (semicolons s < f1)%nat -> (semicolons s < f2)%nat -> if_loop f1 s = if_loop f2 s.
Proof.
  revert f2 s. induction f1 as [|f1 IH]; intros f2 s H1 H2; [lia|]. destruct f2 as [|f2]; [lia|]. cbn [if_loop].
  destruct (contains_if s); [|done]. destruct (replace_smallest_if s) as [r|e] eqn:E; [|done]. cbn [bind].
  apply replace_smallest_semicolons in E. apply IH; lia.
Qed.
Lemma find_if_clause_loop s : find_if_clause s = if contains_if s then bind (replace_smallest_if s) find_if_clause else Ok s.
Proof.
  unfold find_if_clause at 1. cbn [if_loop]. destruct (contains_if s); [|done].
  destruct (replace_smallest_if s) as [r|e] eqn:E; [|done]. cbn [bind]. unfold find_if_clause. apply replace_smallest_semicolons in E.
  apply if_loop_fuel; lia.
Qed.
Lemma if_loop_no_if fuel s r : if_loop fuel s = Ok r -> contains_if r = false.
Proof.
  revert s. induction fuel as [|fuel IH]; intros s; cbn [if_loop]; destruct (contains_if s) eqn:E; intros H; try done.
  - by apply Ok_inj in H as <-.
  - apply bind_Ok in H as (s' & _ & H). by eapply IH.
  - by apply Ok_inj in H as <-.
Qed.
Lemma find_if_clause_no_if s r : find_if_clause s = Ok r -> ~ exists pre post, r = pre ++ IF ++ post.
Proof. intros H%if_loop_no_if. rewrite <- contains_if_spec. congruence. Qed.
Lemma find_if_clause_unchanged s : ~ (exists pre post, s = pre ++ IF ++ post) -> find_if_clause s = Ok s.
Proof. rewrite <- contains_if_spec. intros H. rewrite find_if_clause_loop. by destruct (contains_if s). Qed.

(** *** Reading back *)
Definition readable (x : tok) : Prop := raw_ok x /\ ifs x = 0%nat.
Definition read_ok (x : tok) : Prop := readable x -> forall y r s, readable y -> tok_text x ++ r = tok_text y ++ s -> x = y /\ r = s.
Lemma read_list l : Forall read_ok l -> Forall readable l -> forall k r s, Forall readable k ->
  written l ++ close_paren :: r = written k ++ close_paren :: s -> l = k /\ r = s.
Proof.
  induction 1 as [|x l Hx _ IH]; intros Hl k r s Hk E.
  - destruct k as [|y k]; [rewrite written_nil in E; cbn in E; by injection E as <-|].
    rewrite written_cons in E. apply Forall_cons in Hk as [[H1 H2] _]. exfalso. destruct y as [c|l|c a b]; [..|done].
    + cbn in E. injection E as <- _. by destruct H1 as (_ & ? & _).
    + rewrite tok_text_group in E. cbn in E. discriminate E.
  - apply Forall_cons in Hl as [Hx1 Hl]. destruct k as [|y k].
    + rewrite written_cons in E. exfalso. destruct Hx1 as [H1 H2]. destruct x as [c|l2|c a b]; [..|done].
      * cbn in E. injection E as -> _. by destruct H1 as (_ & ? & _).
      * rewrite tok_text_group in E. cbn in E. discriminate E.
    + apply Forall_cons in Hk as [Hy Hk]. rewrite !written_cons, <- !app_assoc in E.
      destruct (Hx Hx1 y _ _ Hy E) as [<- E2]. destruct (IH Hl k r s Hk E2) as [<- <-]. done.
Qed.
Lemma readable_group l : readable (Group l) -> Forall readable l.
Proof.
  intros [H1 H2]. cbn [raw_ok ifs] in *. rewrite all_Forall in H1. induction H1 as [|x l Hx _ IH]; [done|].
  cbn in H2. constructor; [split; [done|lia]|]. apply IH. lia.
Qed.
Lemma read_tok x : read_ok x.
Proof.
  induction x as [c|l IH|c a b IHc IHa IHb] using tok_induction; intros Hx y r s Hy E; [| |by destruct Hx].
  - destruct y as [d|k|? ? ?]; [..|by destruct Hy].
    + cbn in E. by injection E as <- <-.
    + rewrite tok_text_group in E. cbn in E. injection E as -> _. by destruct Hx as [(? & _) _].
  - destruct y as [d|k|? ? ?]; [..|by destruct Hy].
    + rewrite tok_text_group in E. cbn in E. injection E as <- _. by destruct Hy as [(? & _) _].
    + rewrite !tok_text_group in E. cbn [app] in E. injection E as E. rewrite <- !app_assoc in E. cbn [app] in E.
      destruct (read_list l IH (readable_group _ Hx) k r s (readable_group _ Hy) E) as [<- <-]. done.
Qed.
Lemma read l k : Forall readable l -> Forall readable k -> written l = written k -> l = k.
Proof.
  intros Hl Hk E. destruct (read_list l) with (k := k) (r := @nil ascii) (s := @nil ascii); [|done|done|by rewrite E|done].
  apply Forall_forall. intros x _. apply read_tok.
Qed.
Lemma readable_list l : Forall raw_ok l -> count l = 0%nat -> Forall readable l.
Proof.
  induction 1 as [|x l Hx _ IH]; intros Hc; [done|]. rewrite count_cons in Hc. constructor; [split; [done|lia]|]. apply IH. lia.
Qed.

(** *** What is computed *)
Lemma python_if_raw c a b : Forall raw_ok c -> Forall raw_ok a -> Forall raw_ok b -> raw_ok (python_if c a b).
Proof.
  intros Hc Ha Hb. unfold python_if. case_bool_decide; cbn [raw_ok]; rewrite all_Forall.
  - destruct (trim_part a) as (k1 & k2 & E). rewrite E in Ha. apply Forall_app in Ha as [_ Ha]. by apply Forall_app in Ha as [Ha _].
  - repeat (apply Forall_app; split); try (apply Forall_cons; split; [cbn [raw_ok]; by rewrite all_Forall|apply Forall_nil; done]).
    + apply Forall_forall. intros x. unfold raws. rewrite elem_of_list_fmap. intros (ch & -> & Hch).
      repeat (apply elem_of_cons in Hch as [->|Hch]; [done|]). by apply elem_of_nil in Hch.
    + apply Forall_forall. intros x. unfold raws. rewrite elem_of_list_fmap. intros (ch & -> & Hch).
      repeat (apply elem_of_cons in Hch as [->|Hch]; [done|]). by apply elem_of_nil in Hch.
Qed.
Lemma Forall_map_to_python (P : tok -> Prop) l : Forall (fun x => P (to_python x)) l -> Forall P (map to_python l).
Proof. induction 1; cbn [map]; by constructor. Qed.
Lemma to_python_readable x : raw_ok x -> readable (to_python x).
Proof.
  induction x as [c|l IH|c a b IHc IHa IHb] using tok_induction; cbn [raw_ok]; rewrite ?all_Forall.
  - done.
  - intros H. assert (Forall readable (map to_python l)) as Hl by (apply Forall_map_to_python; by eapply Forall_impl2).
    split; cbn [to_python raw_ok ifs].
    + rewrite all_Forall. eapply Forall_impl; [exact Hl|]. by intros ? [? _].
    + clear -Hl. induction Hl as [|x k [_ Hx] _ IH]; [done|]. cbn in *. lia.
  - intros (H1 & H2 & H3).
    assert (forall k, Forall (fun x => raw_ok x -> readable (to_python x)) k -> Forall raw_ok k ->
      Forall raw_ok (map to_python k) /\ count (map to_python k) = 0%nat) as Hk.
    { intros k Hk1 Hk2. assert (Forall readable (map to_python k)) as Hl by (apply Forall_map_to_python; by eapply Forall_impl2).
      split; [eapply Forall_impl; [exact Hl|]; by intros ? [? _]|].
      clear -Hl. induction Hl as [|x k' [_ Hx] _ IH]; [done|]. rewrite count_cons. lia. }
    destruct (Hk c IHc H1), (Hk a IHa H2), (Hk b IHb H3). split; cbn [to_python].
    + by apply python_if_raw.
    + by apply count_python_if.
Qed.
Lemma to_python_readable_list l : Forall raw_ok l -> Forall readable (map to_python l).
Proof. intros H. apply Forall_map_to_python. eapply Forall_impl; [exact H|]. apply to_python_readable. Qed.

Section value_proofs.
  Context {V : Type} (flat : list (ascii + V) -> V) (branch : V -> V -> V -> V).
  Context (Hpy : python_like flat branch).
  Lemma flat_drop_blanks l : flat (map (item flat branch) (drop_blanks l)) = flat (map (item flat branch) l).
  Proof.
    destruct Hpy as (_ & H2 & _). induction l as [|x l IH]; [done|]. cbn [drop_blanks]. destruct (is_blank x) eqn:E; [|done].
    rewrite IH. cbn [map]. rewrite H2; [done|]. by destruct x.
  Qed.
  Lemma flat_trim_end l : flat (map (item flat branch) (trim_end l)) = flat (map (item flat branch) l).
  Proof.
    destruct Hpy as (_ & _ & H3 & _). induction l as [|x l IH] using rev_ind; [done|]. rewrite trim_end_snoc.
    destruct (is_blank x) eqn:E; [|done]. rewrite IH, map_app. cbn [map]. rewrite H3; [done|]. by destruct x.
  Qed.
  Lemma flat_trim l : flat (map (item flat branch) (trim l)) = flat (map (item flat branch) l).
  Proof. unfold trim. fold (trim_end (drop_blanks l)). by rewrite flat_trim_end, flat_drop_blanks. Qed.
  Lemma item_raws s : map (item flat branch) (raws s) = map inl (chars s).
  Proof. unfold raws. by rewrite map_map. Qed.
  Lemma item_to_python x : raw_ok x -> item flat branch (to_python x) = item flat branch x.
  Proof.
    assert (forall l, Forall (fun x => raw_ok x -> item flat branch (to_python x) = item flat branch x) l ->
      Forall raw_ok l -> map (item flat branch) (map to_python l) = map (item flat branch) l) as Hlist.
    { induction 1 as [|z l Hz _ IH]; intros H; [done|]. apply Forall_cons in H as [H1 H2]. cbn [map]. by rewrite Hz, IH. }
    induction x as [c|l IH|c a b IHc IHa IHb] using tok_induction; cbn [raw_ok]; rewrite ?all_Forall; [done|..].
    - intros H. cbn [to_python item]. by rewrite Hlist.
    - intros (H1 & H2 & H3). cbn [to_python item]. rewrite <- (Hlist c), <- (Hlist a), <- (Hlist b) by done.
      pose proof (read (map to_python a) (map to_python b) (to_python_readable_list _ H2) (to_python_readable_list _ H3)) as Hab.
      unfold python_if. case_bool_decide as E.
      + apply Hab in E. rewrite <- E. cbn [item]. rewrite flat_trim. f_equal. symmetry. by apply Hpy.
      + cbn [item]. rewrite !map_app, !item_raws. cbn [map item]. f_equal. by apply Hpy.
  Qed.
  Lemma value_to_python l : formula_ok l -> value flat branch (map to_python l) = value flat branch l.
  Proof.
    intros H%formula_ok_raw. unfold value. f_equal. induction H as [|x l Hx _ IH]; [done|]. cbn [map]. by rewrite item_to_python, IH.
  Qed.
End value_proofs.

(** *** A decision procedure, for the examples *)
Fixpoint if_before_paren (l : list (option ascii)) : bool :=
  match l with
  | [] => false
  | x :: l' => match l with
               | Some c :: Some d :: None :: _ => bool_decide (c = "i"%char) && bool_decide (d = "f"%char)
               | _ => false
               end || if_before_paren l'
  end.
Lemma no_if_before_paren_check l : if_before_paren (map shape l) = false -> no_if_before_paren l.
Proof.
  unfold no_if_before_paren. generalize (map shape l). clear l. intros l H l1 l2 ->. induction l1 as [|x l1 IH].
  - discriminate H.
  - apply IH. cbn [app if_before_paren] in H. apply orb_false_iff in H. tauto.
Qed.
Definition texts_ok (c a b : text) : bool :=
  bool_decide (c <> []) && bool_decide (semicolon ∉ c) && (bool_decide (a <> []) && bool_decide (semicolon ∉ a)) &&
  (bool_decide (b <> []) && bool_decide (newline ∉ b)).
Fixpoint tok_check (x : tok) : bool :=
  let list_check l := forallb tok_check l && negb (if_before_paren (map shape l)) in
  match x with
  | Raw c => bool_decide (c <> open_paren) && bool_decide (c <> close_paren) && bool_decide (c <> backslash)
  | Group l => list_check l
  | If c a b => list_check c && list_check a && list_check b &&
      texts_ok (written (map to_python c)) (written (map to_python a)) (written (map to_python b))
  end.
Definition formula_check (l : list tok) : bool := forallb tok_check l && negb (if_before_paren (map shape l)).
Lemma list_check_ok l : Forall (fun x => tok_check x = true -> tok_ok x) l ->
  forallb tok_check l && negb (if_before_paren (map shape l)) = true -> formula_ok l.
Proof.
  intros Hl [H1 H2]%andb_true_iff. apply negb_true_iff in H2. split; [|by apply no_if_before_paren_check].
  rewrite all_Forall. apply (Forall_impl2 _ _ _ Hl). apply Forall_forall. intros x Hx. rewrite forallb_forall in H1.
  apply H1. by apply elem_of_list_In.
Qed.
Lemma tok_check_ok x : tok_check x = true -> tok_ok x.
Proof.
  induction x as [c|l IH|c a b IHc IHa IHb] using tok_induction; cbn [tok_check tok_ok]; intros H.
  - apply andb_true_iff in H as [[H1 H2]%andb_true_iff H3]. by rewrite !bool_decide_eq_true in *.
  - by apply list_check_ok in H.
  - apply andb_true_iff in H as [[[H1 H2]%andb_true_iff H3]%andb_true_iff H4].
    apply list_check_ok in H1, H2, H3; [|done..]. unfold texts_ok in H4. rewrite !andb_true_iff, !bool_decide_eq_true in H4.
    split; [done|]. split; [done|]. split; [done|]. unfold argument_ok, last_argument_ok. tauto.
Qed.
Lemma formula_check_ok l : formula_check l = true -> formula_ok l.
Proof. apply list_check_ok, Forall_forall. intros x _. apply tok_check_ok. Qed.

(** *** Errors *)
Lemma boundaries_error before pos p stack s e : boundaries before pos (p :: stack) s = Err e -> e = ValueError.
Proof.
  revert before pos p stack. induction s as [|c s IH]; intros before pos p stack; cbn [boundaries]; [congruence|].
  repeat case_bool_decide; try apply IH. destruct stack as [|q stack]; [done|]. apply IH.
Qed.
Lemma find_if_boundaries_error s e : find_if_boundaries (IF ++ s) = Err e -> e = ValueError.
Proof.
  unfold find_if_boundaries. generalize (List.last (IF ++ s) newline). intros x. change (IF ++ s) with (["i"; "f"; "("]%char ++ s).
  cbn [app boundaries]. rewrite (bool_decide_eq_false_2 ("i"%char = open_paren)), (bool_decide_eq_false_2 ("i"%char = close_paren)) by done.
  rewrite (bool_decide_eq_false_2 ("f"%char = open_paren)), (bool_decide_eq_false_2 ("f"%char = close_paren)) by done.
  rewrite (bool_decide_eq_false_2 ("i"%char = backslash)), (bool_decide_eq_false_2 ("f"%char = backslash)) by done.
  rewrite (bool_decide_eq_true_2 ("("%char = open_paren)) by done.
  case_bool_decide; apply boundaries_error.
Qed.
Lemma replace_smallest_error s e : contains_if s = true -> replace_smallest_if s = Err e -> e = ValueError \/ e = AttributeError.
Proof.
  intros Hc. unfold replace_smallest_if. set (f := fun start : nat => _).
  destruct (mapR f (if_starts 0 s)) as [ps|x] eqn:E.
  - cbn [bind]. destruct ps as [|p ps].
    + apply mapR_Ok, Forall2_nil_inv_r in E. unfold contains_if in Hc. by rewrite E in Hc.
    + destruct (first_smallest p ps) as [start finish]. unfold replace_if_statement.
      destruct (complete_if _) as [[[c a] b]|]; cbn [bind]; [done|]. intros [= <-]. by right.
  - cbn [bind]. intros [= ->]. left. apply mapR_Err in E as (l1 & n & l2 & El & E & _).
    assert (n ∈ if_starts 0 s) as Hn by (rewrite El; apply elem_of_app; right; left).
    apply if_starts_spec in Hn as (m & pre & post & -> & Hl & ->). unfold f in E. cbn [plus] in E.
    rewrite <- Hl, drop_length_app in E. destruct (find_if_boundaries (IF ++ post)) as [b|x] eqn:Eb; [done|].
    apply find_if_boundaries_error in Eb. cbn in E. congruence.
Qed.
Lemma find_if_clause_error s e : find_if_clause s = Err e -> e = ValueError \/ e = AttributeError.
Proof.
  unfold find_if_clause. generalize (S (semicolons s)). intros n. revert s. induction n as [|n IH]; intros s; cbn [if_loop];
    destruct (contains_if s) eqn:Ec; try done.
  - intros [= <-]. by left.
  - destruct (replace_smallest_if s) as [r|x] eqn:E; cbn [bind]; [apply IH|]. intros [= ->]. by apply (replace_smallest_error s).
Qed.
