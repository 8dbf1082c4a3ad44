(** What the string operations mean. *)
From Verif Require Import Base Strings.

Lemma str_cons_app c (s t : string) : (String c s ++ t)%string = String c (s ++ t).
Proof. done. Qed.
Lemma str_nil_app (t : string) : ("" ++ t)%string = t.
Proof. done. Qed.

Lemma startswith_iff p s : str_startswith p s = true <-> exists b, s = (p ++ b)%string.
Proof.
  revert s. induction p as [|a p IH]; intros s.
  - split; [|done]. intros _. by exists s.
  - destruct s as [|c s]; cbn [str_startswith].
    + split; [done|]. intros [b E]. rewrite str_cons_app in E. done.
    + rewrite andb_true_iff, IH, Ascii.eqb_eq. split.
      * intros [-> [b ->]]. exists b. by rewrite str_cons_app.
      * intros [b E]. rewrite str_cons_app in E. injection E as -> ->. split; [done|]. by exists b.
Qed.

Definition occurs (marker s : string) : Prop := exists a b, s = (a ++ marker ++ b)%string.
Lemma contains_iff old s : str_contains old s = true <-> occurs old s.
Proof.
  unfold occurs. induction s as [|c s IH]; cbn [str_contains]; rewrite orb_true_iff, startswith_iff.
  - split.
    + intros [[b E]|H]; [|done]. exists ""%string, b. done.
    + intros (a & b & E). left. destruct a as [|x a]; [|by rewrite str_cons_app in E].
      by exists b.
  - rewrite IH. split.
    + intros [[b E]|(a & b & ->)]; [by exists ""%string, b|].
      exists (String c a), b. by rewrite str_cons_app.
    + intros (a & b & E). destruct a as [|x a].
      * left. by exists b.
      * right. rewrite str_cons_app in E. injection E as -> ->. by exists a, b.
Qed.
Global Instance occurs_dec marker s : Decision (occurs marker s).
Proof.
  destruct (str_contains marker s) eqn:E; [left|right].
  - by apply contains_iff.
  - intros H. apply contains_iff in H. congruence.
Defined.

Lemma endswith_iff suffix s : str_endswith suffix s = true <-> exists a, s = (a ++ suffix)%string.
Proof.
  induction s as [|c s IH]; cbn [str_endswith]; rewrite orb_true_iff, String.eqb_eq.
  - split.
    + intros [<-|H]; [|done]. by exists ""%string.
    + intros ([|x a] & E); [by left|]. by rewrite str_cons_app in E.
  - rewrite IH. split.
    + intros [<-|[a ->]]; [by exists ""%string|]. exists (String c a). by rewrite str_cons_app.
    + intros ([|x a] & E); [by left|]. right. rewrite str_cons_app in E. injection E as -> ->. by exists a.
Qed.
