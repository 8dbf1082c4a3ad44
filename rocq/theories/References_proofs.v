(** Proofs for C72, first part: references in texts. *)
From Coq Require Import Ascii.
From Verif Require Import Base Types Uncertainty Utils Strings StringFacts Recalculation Formulas Parameters Spec_Parameters
  Parameters_proofs Spec_Formulas Formulas_proofs Reserved_proofs Spec_References.

(** *** Where references begin *)
Definition begins (s : text) : bool := starts (chars "Ref('") s || starts (chars "ref('") s.
Definition other (c : ascii) : Prop := c <> "R"%char /\ c <> "r"%char.
Lemma begins_other c s : other c -> begins (c :: s) = false.
Proof. intros [H1 H2]. unfold begins. cbn. rewrite !bool_decide_eq_false_2 by congruence. done. Qed.
Lemma starts_step a p c s : starts (a :: p) (c :: s) = bool_decide (a = c) && starts p s.
Proof. done. Qed.
Lemma begins_ro s : begins ("r"%char :: "o"%char :: s) = false.
Proof. done. Qed.
Lemma hex_other c : hex_digit c -> hex c = true /\ other c /\ c <> "-"%char /\ c <> quote.
Proof.
  unfold hex_digit. intros H.
  assert (Forall (fun c => hex c = true /\ other c /\ c <> "-"%char /\ c <> quote) (chars "0123456789abcdef")) as F.
  { unfold other, quote. apply (bool_decide_unpack _). by vm_compute. }
  rewrite Forall_forall in F. by apply F.
Qed.
Lemma uuid_chars u : uuid_ok u -> Forall other u /\ Forall (fun c => c <> quote) u /\ length u = 36%nat.
Proof.
  intros (a & b & c & d & e & -> & Ha & Hb & Hc & Hd & He & F).
  assert (Forall (fun x => other x /\ x <> quote) (a ++ b ++ c ++ d ++ e)) as G.
  { eapply Forall_impl; [exact F|]. intros x Hx. apply hex_other in Hx. tauto. }
  rewrite !Forall_app in G. destruct G as (G1 & G2 & G3 & G4 & G5).
  assert (Forall (fun x => other x /\ x <> quote) (chars "-")) as G6.
  { unfold other, quote. apply (bool_decide_unpack _). by vm_compute. }
  split; [|split].
  1,2: rewrite !Forall_app; repeat split; (eapply Forall_impl; [eassumption|]); cbv beta; tauto.
  rewrite !app_length. cbn. lia.
Qed.
Lemma hexes_app n a r : length a = n -> Forall hex_digit a -> hexes n (a ++ r) = Some r.
Proof.
  intros <- F. induction F as [|c a Hc F IH]; [done|]. cbn [length hexes app]. apply hex_other in Hc as [-> _]. done.
Qed.
Lemma uuid_rest_app u r : uuid_ok u -> uuid_rest (u ++ r) = Some r.
Proof.
  intros (a & b & c & d & e & -> & Ha & Hb & Hc & Hd & He & F).
  rewrite !Forall_app in F. destruct F as (F1 & F2 & F3 & F4 & F5).
  unfold uuid_rest. change (chars "-") with ["-"%char]. rewrite <- !app_assoc.
  repeat (rewrite hexes_app by done; cbn [mbind option_bind app dash]; rewrite ?bool_decide_eq_true_2 by done; cbn [mbind option_bind]).
  first [done|by rewrite hexes_app].
Qed.

(** The end of a reference, after its first letter. *)
Definition tail_of (p : rpiece) : text := drop 1 (rpiece_text p).
Definition ending (p : rpiece) : text := match p with RVolume _ _ => PV_END | _ => EXCHANGE_END end.
Definition capital_of (p : rpiece) : bool := match p with RExchange b _ | RVolume b _ => b | _ => false end.
Definition uuid_of (p : rpiece) : text := match p with RExchange _ u | RVolume _ u => u | _ => [] end.
Lemma reference_text p : is_reference p -> rpiece_text p = ref_begin (capital_of p) ++ uuid_of p ++ ending p.
Proof. by destruct p. Qed.

(** Going through a text from left to right. *)
Section scan.
  Context {B : Type} (F : text -> B) (step : ascii -> B -> B)
    (Hstep : forall c s, begins (c :: s) = false -> F (c :: s) = step c (F s)).
  Definition steps (l : text) (x : B) : B := foldr step x l.
  Lemma scan_other l s : Forall other l -> F (l ++ s) = steps l (F s).
  Proof. induction 1 as [|c l Hc Hl IH]; [done|]. cbn [app steps foldr]. rewrite Hstep by by apply begins_other. by rewrite IH. Qed.
  Lemma scan_ending p s : F (ending p ++ s) = steps (ending p) (F s).
  Proof.
    assert (forall l s, bool_decide (Forall (fun c => c <> "R"%char /\ c <> "r"%char) l) = true -> F (l ++ s) = steps l (F s)) as H.
    { intros l s' H. apply bool_decide_eq_true in H. by apply scan_other. }
    assert (forall s, F (EXCHANGE_END ++ s) = steps EXCHANGE_END (F s)) as H1 by (intros; by apply H).
    destruct p; cbn [ending]; try apply H1.
    change PV_END with (chars "', 'P" ++ "r"%char :: chars "oductionVolume')").
    rewrite <- app_assoc. rewrite H by by vm_compute. cbn [app].
    rewrite (Hstep "r"%char) by done. rewrite H by by vm_compute.
    unfold steps. rewrite foldr_app. done.
  Qed.
  Lemma scan_tail p s : is_reference p -> rpiece_ok p -> F (tail_of p ++ s) = steps (tail_of p) (F s).
  Proof.
    intros Hr Ho. unfold tail_of. rewrite reference_text by done.
    assert (uuid_ok (uuid_of p)) as Hu by by destruct p. apply uuid_chars in Hu as (Hu & _).
    assert (drop 1 (ref_begin (capital_of p) ++ uuid_of p ++ ending p) = chars "ef('" ++ uuid_of p ++ ending p) as ->
      by by destruct (capital_of p).
    rewrite <- !app_assoc. rewrite (scan_other (chars "ef('")); [|unfold other; apply (bool_decide_unpack _); by vm_compute].
    rewrite scan_other by done. rewrite scan_ending. unfold steps. by rewrite !foldr_app.
  Qed.
End scan.

Lemma rtext_cons p l : rtext (p :: l) = rpiece_text p ++ rtext l.
Proof. done. Qed.
Lemma rtext_app k l : rtext (k ++ l) = rtext k ++ rtext l.
Proof. apply flat_map_app. Qed.

(** No piece begins with "e", or with a quote. *)
Lemma rtext_char c l : c <> "R"%char -> c <> "r"%char -> Forall rpiece_ok l -> forall s, rtext l = c :: s ->
  c <> quote /\ exists l', l = RChar c :: l' /\ s = rtext l'.
Proof.
  intros H1 H2 F s H. destruct l as [|p l]; [done|]. apply Forall_cons in F as [Hp F]. rewrite rtext_cons in H.
  destruct p as [d|b u|b u]; [|destruct b; cbn in H; congruence..].
  cbn in H. assert (d = c) as -> by congruence. split; [exact Hp|]. exists l. split; [done|]. congruence.
Qed.
Lemma begins_char c l : Forall rpiece_ok (RChar c :: l) -> begins (rtext (RChar c :: l)) = false.
Proof.
  intros [_ F]%Forall_cons. destruct (begins _) eqn:E; [|done]. exfalso. unfold begins in E.
  rewrite rtext_cons in E. cbn [rpiece_text app] in E.
  assert (starts (chars "ef('") (rtext l) = true) as E'.
  { apply orb_true_iff in E as [E|E]; change (chars (String ?a ?s)) with (a :: chars s) in E; rewrite starts_step in E;
      by apply andb_true_iff in E as [_ E]. }
  apply starts_true in E' as [r E']. cbn in E'.
  apply rtext_char in E' as (_ & l1 & -> & E1); [|done..]. apply Forall_cons in F as [_ F]. symmetry in E1.
  apply rtext_char in E1 as (_ & l2 & -> & E2); [|done..]. apply Forall_cons in F as [_ F]. symmetry in E2.
  apply rtext_char in E2 as (_ & l3 & -> & E3); [|done..]. apply Forall_cons in F as [_ F]. symmetry in E3.
  apply rtext_char in E3 as (E3 & _); done.
Qed.

(** *** Finding references *)
Lemma reference_at_none e c s : begins (c :: s) = false -> reference_at e (c :: s) = None.
Proof. intros H. unfold reference_at. unfold begins in H. by rewrite H. Qed.
Lemma references_step e c s : begins (c :: s) = false -> references e (c :: s) = references e s.
Proof. intros H. cbn [references]. by rewrite reference_at_none. Qed.
Lemma starts_ending p q s : starts (ending p) (ending q ++ s) = bool_decide (ending p = ending q).
Proof.
  destruct (decide (ending p = ending q)) as [E|E].
  - rewrite bool_decide_eq_true_2 by done. rewrite E. apply starts_app.
  - rewrite bool_decide_eq_false_2 by done. destruct p, q; try done; by cbn in E |- *.
Qed.
Lemma reference_at_piece p q s : is_reference q -> rpiece_ok q ->
  reference_at (ending p) (rpiece_text q ++ s) =
  if bool_decide (ending p = ending q) then Some (rpiece_text q, uuid_of q) else None.
Proof.
  intros Hr Ho. assert (uuid_ok (uuid_of q)) as Hu by by destruct q. pose proof (uuid_chars _ Hu) as (_ & _ & Hl).
  rewrite reference_text by done. set (b := capital_of q). set (u := uuid_of q) in *.
  assert (starts (chars "Ref('") ((ref_begin b ++ u ++ ending q) ++ s) || starts (chars "ref('") ((ref_begin b ++ u ++ ending q) ++ s) = true) as Hb.
  { destruct b; done. }
  assert (drop 5 ((ref_begin b ++ u ++ ending q) ++ s) = u ++ ending q ++ s) as Hd.
  { rewrite <- !app_assoc. by destruct b. }
  unfold reference_at. rewrite Hb, Hd, uuid_rest_app, starts_ending by done. case_bool_decide as E; [|done].
  f_equal. f_equal.
  - rewrite E. apply take_app_alt. rewrite !app_length, Hl. by destruct b.
  - by apply take_app_alt.
Qed.
Definition kind (p q : rpiece) : bool :=
  match p, q with RExchange _ _, RExchange _ _ | RVolume _ _, RVolume _ _ => true | _, _ => false end.
Definition found (q : rpiece) : text * text := (rpiece_text q, uuid_of q).
Lemma kind_ending p q : is_reference p -> is_reference q -> kind p q = bool_decide (ending p = ending q).
Proof. destruct p, q; done. Qed.
Lemma text_head q : is_reference q -> exists c, rpiece_text q = c :: tail_of q.
Proof. destruct q as [|[] u|[] u]; [done|..]; intros _; eexists; reflexivity. Qed.
Lemma reference_dec q : is_reference q \/ ~ is_reference q.
Proof. destruct q; cbn; auto. Qed.
Lemma references_pieces p l : is_reference p -> Forall rpiece_ok l ->
  references (ending p) (rtext l) = map found (filterb (kind p) l).
Proof.
  intros Hp F. induction F as [|q l Hq F IH]; [done|].
  destruct (reference_dec q) as [Hr|Hr].
  - rewrite rtext_cons. destruct (text_head q Hr) as [c Ec].
    assert (references (ending p) (rpiece_text q ++ rtext l) =
            match reference_at (ending p) (rpiece_text q ++ rtext l) with
            | Some r => r :: references (ending p) (tail_of q ++ rtext l)
            | None => references (ending p) (tail_of q ++ rtext l) end) as -> by by rewrite Ec.
    rewrite (scan_tail (references (ending p)) (fun _ x => x)) by (done || apply references_step).
    assert (forall t x, steps (fun _ (x : list (text * text)) => x) t x = x) as Hs by (intros t x; induction t; done).
    rewrite Hs, IH, reference_at_piece by done. unfold filterb. cbn [List.filter].
    rewrite <- kind_ending by done. by destruct (kind p q).
  - destruct q as [c| |]; [|by contradict Hr..]. rewrite rtext_cons. cbn [rpiece_text app].
    rewrite references_step, IH. 2:{ apply (begins_char c l). by constructor. }
    unfold filterb. cbn [List.filter]. by destruct p.
Qed.

(** *** Replacing references *)
Global Instance rpiece_eq_dec : EqDecision rpiece.
Proof. solve_decision. Defined.
Definition subst (p : rpiece) (v : text) (l : list rpiece) : list rpiece :=
  flat_map (fun q => if decide (q = p) then map RChar v else [q]) l.
Lemma rtext_chars v : rtext (map RChar v) = v.
Proof. induction v as [|c v IH]; [done|]. cbn [map]. rewrite rtext_cons, IH. done. Qed.
Lemma text_begins p s : is_reference p -> rpiece_ok p -> begins s = false -> starts (rpiece_text p) s = false.
Proof.
  intros Hr Ho Hb. destruct (starts _ s) eqn:E; [|done]. exfalso. apply starts_true in E as [r ->].
  rewrite reference_text in Hb by done. by destruct (capital_of p).
Qed.
Lemma replace_step p v c s : is_reference p -> rpiece_ok p -> begins (c :: s) = false ->
  treplace (rpiece_text p) v (c :: s) = c :: treplace (rpiece_text p) v s.
Proof. intros. apply treplace_other. by apply text_begins. Qed.
Lemma same_piece p q s : is_reference p -> is_reference q -> rpiece_ok p -> rpiece_ok q ->
  starts (rpiece_text p) (rpiece_text q ++ s) = true -> p = q.
Proof.
  intros Hp Hq Op Oq [r E]%starts_true.
  assert (uuid_ok (uuid_of p)) as Up by by destruct p. assert (uuid_ok (uuid_of q)) as Uq by by destruct q.
  apply uuid_chars in Up as (_ & _ & Lp). apply uuid_chars in Uq as (_ & _ & Lq).
  rewrite !reference_text, <- !app_assoc in E by done.
  apply app_inj_1 in E as [E1 E2]; [|by destruct (capital_of p), (capital_of q)].
  apply app_inj_1 in E2 as [E2 E3]; [|by rewrite Lp, Lq].
  assert (starts (ending p) (ending q ++ s) = true) as E4 by (rewrite E3; apply starts_app).
  rewrite starts_ending in E4. apply bool_decide_eq_true in E4.
  assert (capital_of p = capital_of q) as E5 by (destruct (capital_of p), (capital_of q); done || by vm_compute in E1).
  destruct p, q; cbn in *; try done; congruence.
Qed.
Lemma subst_cons p v q l : subst p v (q :: l) = (if decide (q = p) then map RChar v else [q]) ++ subst p v l.
Proof. done. Qed.
Lemma replace_pieces p v l : is_reference p -> rpiece_ok p -> Forall rpiece_ok l ->
  treplace (rpiece_text p) v (rtext l) = rtext (subst p v l).
Proof.
  intros Hp Op F. induction F as [|q l Hq F IH]; [done|]. rewrite subst_cons, rtext_app, rtext_cons.
  destruct (reference_dec q) as [Hr|Hr].
  - destruct (decide (q = p)) as [->|Hne].
    + rewrite treplace_match, IH, rtext_chars; [done|]. by destruct (text_head p Hp) as [c ->].
    + destruct (text_head q Hr) as [c Ec].
      assert (treplace (rpiece_text p) v (rpiece_text q ++ rtext l) = c :: treplace (rpiece_text p) v (tail_of q ++ rtext l)) as ->.
      { rewrite Ec. cbn [app]. apply treplace_other. destruct (starts _ _) eqn:E; [|done]. exfalso. apply Hne. symmetry.
        apply (same_piece p q (rtext l)); [done..|]. by rewrite Ec. }
      rewrite (scan_tail (treplace (rpiece_text p) v) cons); [|intros; by apply replace_step|done..].
      rewrite IH. unfold rtext at 2. cbn [flat_map]. rewrite app_nil_r, Ec.
      assert (forall t x, steps cons t x = t ++ x) as -> by (intros t x; induction t as [|a t IHt]; [done|]; cbn; by f_equal). done.
  - destruct q as [c| |]; [|by contradict Hr..]. cbn [rpiece_text app]. rewrite replace_step, IH; [|done..|].
    2:{ apply (begins_char c l). by constructor. }
    destruct (decide (RChar c = p)) as [<-|]; [done|]. done.
Qed.
Lemma replace_text p v l : is_reference p -> rpiece_ok p -> Forall rpiece_ok l ->
  str_replace (str (rpiece_text p)) v (str (rtext l)) = str (rtext (subst p (chars v) l)).
Proof. intros. rewrite <- replace_pieces by done. unfold treplace. by rewrite str_chars, str_chars. Qed.

(** The identifier without dashes. *)
Lemma remove_dashes u : str_replace "-" "" (str u) = without_dashes u.
Proof.
  unfold without_dashes, str_replace. induction u as [|c u IH]; [done|].
  cbn [string_of_list_ascii replace_from str_startswith]. destruct (Ascii.eqb_spec "-"%char c) as [<-|Hne]; cbn [andb].
  - rewrite filter_cons_False by (intros H; by apply H). cbn. apply IH.
  - rewrite filter_cons_True by congruence. cbn [string_of_list_ascii]. by rewrite IH.
Qed.
