(** Which datasets have the same activity code (C07). *)
From Verif Require Import Base Types Utils Spec_Utils Spec_Identity Utils_proofs.

Lemma same_identity_list low d1 d2 : same_identity low d1 d2 <-> identity low d1 = identity low d2.
Proof.
  unfold same_identity, identity. cbn [map]. split.
  - intros (-> & -> & -> & -> & -> & ->). done.
  - intros [= -> -> -> -> -> ->]. done.
Qed.

(** Texts run together: if all but one have the same length as before, each is the same. *)
Fixpoint joined (l : list string) : string :=
  match l with [] => "" | s :: l => s ++ joined l end%string.
Definition lengths (l : list string) : nat := sum_list_with String.length l.
Lemma joined_length l : String.length (joined l) = lengths l.
Proof. induction l as [|s l IH]; [done|]. cbn [joined]. rewrite str_app_length, IH. done. Qed.
Lemma joined_same l1 l2 : Forall2 (fun s t => String.length s = String.length t) l1 l2 ->
  joined l1 = joined l2 -> l1 = l2.
Proof.
  induction 1 as [|s t l1 l2 Hl H IH]; [done|]. cbn [joined]. intros E.
  apply str_app_inj_length in E as [-> E]; [|done]. by rewrite (IH E).
Qed.
Lemma lengths_same l1 l2 : Forall2 (fun s t => String.length s = String.length t) l1 l2 -> lengths l1 = lengths l2.
Proof. induction 1 as [|s t l1 l2 Hl H IH]; [done|]. unfold lengths in *. cbn [sum_list_with]. lia. Qed.
Lemma joined_all_but l1 l2 i : List.length l1 = List.length l2 ->
  (forall j s t, j <> i -> l1 !! j = Some s -> l2 !! j = Some t -> String.length s = String.length t) ->
  joined l1 = joined l2 -> l1 = l2.
Proof.
  intros Hn Hl E. apply joined_same; [|done].
  revert i l2 Hn Hl E. induction l1 as [|s l1 IH]; intros i [|t l2] Hn Hl E; try discriminate Hn; [constructor|].
  cbn in Hn. injection Hn as Hn. destruct i as [|i].
  - assert (Hrest : Forall2 (fun s t => String.length s = String.length t) l1 l2).
    { apply Forall2_same_length_lookup. split; [done|]. intros j x y Hx Hy. by apply (Hl (S j)). }
    constructor; [|done]. apply (f_equal String.length) in E. rewrite !joined_length in E.
    pose proof (lengths_same _ _ Hrest) as HE. unfold lengths in *. cbn [sum_list_with] in E. lia.
  - assert (Hs : String.length s = String.length t) by (by apply (Hl 0)).
    constructor; [done|]. cbn [joined] in E. apply str_app_inj_length in E as [-> E]; [|done].
    apply (IH i l2 Hn); [|done]. intros j x y Hj Hx Hy. apply (Hl (S j)); [lia|done|done].
Qed.

Lemma hash_joined md5 d : activity_hash md5 d = md5 (joined (identity lower d)).
Proof.
  unfold activity_hash, identity. cbn [map joined]. do 6 f_equal.
  generalize (lower (d_end d)) as s. induction s as [|c s IH]; [done|].
  change (String c s ++ "")%string with (String c (s ++ "")). by rewrite <- IH.
Qed.

Lemma hash_all_but md5 d1 d2 i : (forall s t, md5 s = md5 t -> s = t) ->
  (forall j s t, j <> i -> identity lower d1 !! j = Some s -> identity lower d2 !! j = Some t ->
     String.length s = String.length t) ->
  activity_hash md5 d1 = activity_hash md5 d2 -> identity lower d1 = identity lower d2.
Proof.
  intros Hinj Hl. rewrite !hash_joined. intros E%Hinj. by apply (joined_all_but _ _ i).
Qed.

Lemma str_app_assoc (a b c : string) : (a ++ (b ++ c) = (a ++ b) ++ c)%string.
Proof.
  induction a as [|x a IH]; [done|].
  change (String x a ++ (b ++ c))%string with (String x (a ++ (b ++ c))).
  change ((String x a ++ b) ++ c)%string with (String x ((a ++ b) ++ c)). by rewrite IH.
Qed.

Lemma hash_exact md5 d1 d2 : (forall s t, md5 s = md5 t -> s = t) ->
  String.length (d_start d1) = String.length (d_start d2) -> String.length (d_end d1) = String.length (d_end d2) ->
  activity_hash md5 d1 = activity_hash md5 d2 <->
  lower (d_start d1) = lower (d_start d2) /\ lower (d_end d1) = lower (d_end d2) /\
  lower (d_name d1 ++ default "" (d_refprod d1) ++ default "" (d_unit d1) ++ d_location d1)%string =
  lower (d_name d2 ++ default "" (d_refprod d2) ++ default "" (d_unit d2) ++ d_location d2)%string.
Proof.
  intros Hinj Hs He. unfold activity_hash. rewrite !lower_app. split.
  - intros E%Hinj. rewrite !str_app_assoc in E. rewrite !str_app_assoc.
    pose proof (f_equal String.length E) as HL. rewrite !str_app_length, !lower_length in HL.
    apply str_app_inj_length in E as [E E2]; [|rewrite !str_app_length, !lower_length; lia].
    apply str_app_inj_length in E as [E E1]; [|rewrite !str_app_length, !lower_length; lia]. done.
  - intros (E1 & E2 & E). f_equal. rewrite !str_app_assoc in *. congruence.
Qed.
