(** Proofs for C101: what command lines do. *)
From Coq Require Import Ascii.
From Verif Require Import Base Types Strings StringFacts Cli Spec_Cli.

(** ** Words and options of what was parsed *)
Fixpoint words (l : list parsed) : list string :=
  match l with [] => [] | Word s :: l => s :: words l | Switch _ _ :: l => words l end.
Fixpoint switches (l : list parsed) : list (string * option string) :=
  match l with [] => [] | Word _ :: l => switches l | Switch n v :: l => (n, v) :: switches l end.

Lemma words_app l k : words (l ++ k) = words l ++ words k.
Proof. induction l as [|[s|n v] l IH]; cbn; [done| |done]. by rewrite IH. Qed.
Lemma switches_app l k : switches (l ++ k) = switches l ++ switches k.
Proof. induction l as [|[s|n v] l IH]; cbn; [done|done|]. by rewrite IH. Qed.
Lemma words_map l : words (map Word l) = l.
Proof. induction l as [|s l IH]; cbn; [done|]. by rewrite IH. Qed.
Lemma switches_map l : switches (map Word l) = [].
Proof. induction l; cbn; done. Qed.
Lemma both_nil l : words l = [] -> switches l = [] -> l = [].
Proof. by destruct l as [|[]]. Qed.
Lemma switches_in l n v : (n, v) ∈ switches l <-> Switch n v ∈ l.
Proof.
  induction l as [|[s|m u] l IH]; cbn [switches].
  - by rewrite !elem_of_nil.
  - rewrite elem_of_cons, IH. split; [by right|]. by intros [?|?].
  - rewrite !elem_of_cons, IH. split; (intros [H|H]; [left; congruence|by right]).
Qed.
Lemma switched_iff n l : switched n l = true <-> n ∈ map fst (switches l).
Proof.
  induction l as [|[s|m u] l IH]; cbn [switches switched existsb map].
  - by rewrite elem_of_nil.
  - exact IH.
  - unfold switched in IH. rewrite orb_true_iff, String.eqb_eq, IH. cbn. rewrite elem_of_cons. intuition congruence.
Qed.

Lemma take_word_Some l s l' :
  take_word l = Some (s, l') -> words l = s :: words l' /\ switches l' = switches l.
Proof.
  revert l'. induction l as [|[w|n v] l IH]; intros l' H; cbn in H; [done| |].
  - by injection H as <- <-.
  - destruct (take_word l) as [[s' k]|]; [|done]. injection H as <- <-. cbn.
    destruct (IH k eq_refl) as [H1 H2]. by rewrite H1, H2.
Qed.
Lemma take_word_cons l s ws :
  words l = s :: ws -> exists l', take_word l = Some (s, l') /\ words l' = ws /\ switches l' = switches l.
Proof.
  induction l as [|[w|n v] l IH]; intros H; cbn in H; [done| |].
  - injection H as -> <-. by exists l.
  - destruct (IH H) as (l' & Hl & H1 & H2). exists (Switch n v :: l'). cbn. by rewrite Hl, H1, H2.
Qed.
Lemma take_switch_Some n l v l' :
  take_switch n l = Some (v, l') -> words l' = words l /\ switches l ≡ₚ (n, v) :: switches l'.
Proof.
  revert l'. induction l as [|[w|m u] l IH]; intros l' H; cbn in H; [done| |].
  - destruct (take_switch n l) as [[v' k]|]; [|done]. injection H as <- <-. cbn.
    destruct (IH k eq_refl) as [H1 H2]. by rewrite H1.
  - destruct (String.eqb_spec m n) as [->|Hn].
    + by injection H as <- <-.
    + destruct (take_switch n l) as [[v' k]|]; [|done]. injection H as <- <-. cbn.
      destruct (IH k eq_refl) as [H1 H2]. split; [done|]. rewrite H2. constructor.
Qed.
Lemma take_switch_None n l : take_switch n l = None <-> n ∉ map fst (switches l).
Proof.
  induction l as [|[w|m u] l IH]; cbn.
  - split; [|done]. intros _ H. by apply elem_of_nil in H.
  - rewrite <- IH. destruct (take_switch n l) as [[v' k]|]; [|done]. split; intros; discriminate.
  - rewrite not_elem_of_cons, <- IH. destruct (String.eqb_spec m n) as [->|Hn].
    + split; [intros; discriminate|]. by intros [? _].
    + destruct (take_switch n l) as [[v' k]|]; [split; [intros; discriminate|by intros [_ ?]]|]. done.
Qed.

(** ** Names of options *)
Lemma app_nil_str (s : string) : (s ++ "")%string = s.
Proof. induction s as [|c s IH]; [done|]. exact (f_equal (String c) IH). Qed.

Definition similar_to (long : string) : list opt :=
  match filterb (has_long (fun l => (l =? long)%string)) known_options with
  | [] => filterb (has_long (str_startswith long)) known_options
  | _ => filterb (has_long (fun l => (l =? long)%string)) known_options
  end.
Lemma app_assoc_str (a b c : string) : (a ++ b ++ c = (a ++ b) ++ c)%string.
Proof. induction a as [|x a IH]; [done|]. exact (f_equal (String x) IH). Qed.
Lemma eqb_start (s t : string) : (s =? t)%string = true -> str_startswith t s = true.
Proof. intros H. apply String.eqb_eq in H as ->. apply startswith_iff. exists ""%string. by rewrite app_nil_str. Qed.

Lemma similar_known c r :
  (similar_to ("--" ++ String c r) = [] /\ forall n, ~ abbreviates ("--" ++ String c r) n) \/
  exists o, similar_to ("--" ++ String c r) = [o] /\ abbreviates ("--" ++ String c r) (o_name o) /\
    (o_takes o = true <-> takes (o_name o)) /\
    forall n, abbreviates ("--" ++ String c r) n -> n = o_name o.
Proof.
  assert (forall n, abbreviates ("--" ++ String c r) n -> n ∈ long_names /\ str_startswith ("--" ++ String c r) n = true) as Hab.
  { intros n (Hn & c' & r' & rest & H1 & H2). split; [done|]. apply startswith_iff. by exists rest. }
  assert (forall n, n ∈ long_names -> str_startswith ("--" ++ String c r) n = true -> abbreviates ("--" ++ String c r) n) as Hba.
  { intros n Hn H. split; [done|]. apply startswith_iff in H as [rest H]. by exists c, r, rest. }
  assert (forall n (a : ascii) (t : string), n = ("--" ++ String a t)%string ->
            str_startswith ("--" ++ String c r) n = Ascii.eqb c a && str_startswith r t) as Hs by (by intros ??? ->).
  assert (forall n (a : ascii) (t : string), n = ("--" ++ String a t)%string ->
            (n =? "--" ++ String c r)%string = Ascii.eqb a c && (t =? r)%string) as He.
  { intros n a t ->. change (("--" ++ String a t =? "--" ++ String c r)%string) with ((String a t =? String c r)%string).
    cbn [String.eqb]. by destruct (Ascii.eqb a c). }
  unfold similar_to, known_options, filterb, has_long. cbn [List.filter o_long].
  rewrite (Hs "--list" "l"%char "ist") by done. rewrite (Hs "--noshow" "n"%char "oshow") by done.
  rewrite (Hs "--save" "s"%char "ave") by done. rewrite (Hs "--follow" "f"%char "ollow") by done.
  rewrite (Hs "--help" "h"%char "elp") by done. rewrite (Hs "--version" "v"%char "ersion") by done.
  rewrite (He "--list" "l"%char "ist") by done. rewrite (He "--noshow" "n"%char "oshow") by done.
  rewrite (He "--save" "s"%char "ave") by done. rewrite (He "--follow" "f"%char "ollow") by done.
  rewrite (He "--help" "h"%char "elp") by done. rewrite (He "--version" "v"%char "ersion") by done.
  assert (forall n, abbreviates ("--" ++ String c r) n ->
     (n = "--list" /\ c = "l"%char /\ str_startswith r "ist" = true) \/
     (n = "--noshow" /\ c = "n"%char /\ str_startswith r "oshow" = true) \/
     (n = "--save" /\ c = "s"%char /\ str_startswith r "ave" = true) \/
     (n = "--follow" /\ c = "f"%char /\ str_startswith r "ollow" = true) \/
     (n = "--help" /\ c = "h"%char /\ str_startswith r "elp" = true) \/
     (n = "--version" /\ c = "v"%char /\ str_startswith r "ersion" = true))%string as Hcase.
  { intros n Hn. apply Hab in Hn as [Hn H]. unfold long_names in Hn. rewrite !elem_of_cons in Hn.
    destruct Hn as [->|[->|[->|[->|[->|[->|Hn]]]]]]; [..|by apply elem_of_nil in Hn];
      [rewrite (Hs "--list" "l"%char "ist") in H by done|rewrite (Hs "--noshow" "n"%char "oshow") in H by done
      |rewrite (Hs "--save" "s"%char "ave") in H by done|rewrite (Hs "--follow" "f"%char "ollow") in H by done
      |rewrite (Hs "--help" "h"%char "elp") in H by done|rewrite (Hs "--version" "v"%char "ersion") in H by done];
      rewrite andb_true_iff, Ascii.eqb_eq in H; destruct H; tauto. }
  destruct (Ascii.eqb_spec c "l") as [->|N1]; [|destruct (Ascii.eqb_spec c "n") as [->|N2];
    [|destruct (Ascii.eqb_spec c "s") as [->|N3]; [|destruct (Ascii.eqb_spec c "f") as [->|N4];
    [|destruct (Ascii.eqb_spec c "h") as [->|N5]; [|destruct (Ascii.eqb_spec c "v") as [->|N6]]]]]].
  7:{ left. split.
      - repeat match goal with |- context [Ascii.eqb ?a c] => destruct (Ascii.eqb_spec a c) as [E|_]; [by subst|] end.
        done.
      - intros n Hn. destruct (Hcase n Hn) as [(_&?&_)|[(_&?&_)|[(_&?&_)|[(_&?&_)|[(_&?&_)|(_&?&_)]]]]]; done. }
  all: cbn [Ascii.eqb Bool.eqb andb List.filter].
  all: match goal with |- context [str_startswith ?u ?t] =>
         destruct (str_startswith u t) eqn:Hr;
         [|destruct (t =? u)%string eqn:Hq; [apply eqb_start in Hq; congruence|]; left; split; [done|];
           intros n Hn; destruct (Hcase n Hn) as [(_&?&?)|[(_&?&?)|[(_&?&?)|[(_&?&?)|[(_&?&?)|(_&?&?)]]]]]; congruence]
       end.
  all: match goal with |- context [(?t =? ?u)%string] => destruct (t =? u)%string end.
  all: right; eexists; split; [reflexivity|]; split; [apply Hba; [by_compute|exact Hr]|];
       split; [cbn; unfold takes; split; [first [discriminate|intros _; auto]|first [reflexivity|intros [?|?]; discriminate]]|].
  all: intros n Hn; destruct (Hcase n Hn) as [(->&?&?)|[(->&?&?)|[(->&?&?)|[(->&?&?)|[(->&?&?)|(->&?&?)]]]]];
       first [reflexivity|discriminate].
Qed.

(** ** Parsing *)
Lemma partition_None s a : partition_eq s = (a, None) -> s = a.
Proof.
  revert a. induction s as [|c s IH]; intros a H; cbn in H; [congruence|].
  destruct (Ascii.eqb c "="); [congruence|]. destruct (partition_eq s) as [a' b] eqn:E.
  injection H as <- ->. by rewrite (IH a' eq_refl).
Qed.
Lemma partition_Some s a v : partition_eq s = (a, Some v) -> s = (a ++ "=" ++ v)%string.
Proof.
  revert a. induction s as [|c s IH]; intros a H; cbn in H; [congruence|].
  destruct (Ascii.eqb_spec c "=") as [->|Hc]; [by injection H as <- ->|].
  destruct (partition_eq s) as [a' b] eqn:E. injection H as <- ->.
  exact (f_equal (String c) (IH a' eq_refl)).
Qed.
Fixpoint eq_free (s : string) : bool :=
  match s with EmptyString => true | String c s => negb (Ascii.eqb c "=") && eq_free s end.
Lemma partition_free s : eq_free s = true -> partition_eq s = (s, None).
Proof.
  induction s as [|c s IH]; cbn; [done|]. rewrite andb_true_iff, negb_true_iff. intros [-> H]. by rewrite IH.
Qed.
Lemma partition_joined s v : eq_free s = true -> partition_eq (s ++ "=" ++ v) = (s, Some v).
Proof.
  induction s as [|c s IH]; [done|]. cbn [eq_free]. rewrite andb_true_iff, negb_true_iff. intros [Hc H].
  change (partition_eq (String c s ++ "=" ++ v)) with
    (if Ascii.eqb c "="%char then (EmptyString, Some (s ++ "=" ++ v)%string)
     else let '(a, b) := partition_eq (s ++ "=" ++ v) in (String c a, b)).
  rewrite Hc. by rewrite (IH H).
Qed.
Lemma eq_free_app s t : eq_free (s ++ t) = eq_free s && eq_free t.
Proof.
  induction s as [|c s IH]; [done|]. change (eq_free (String c s ++ t)) with (negb (Ascii.eqb c "=") && eq_free (s ++ t)).
  rewrite IH. cbn [eq_free]. by rewrite andb_assoc.
Qed.
Lemma abbreviates_free w n : abbreviates w n -> eq_free w = true.
Proof.
  intros (Hn & c & r & rest & _ & H). assert (eq_free n = true) as Hf.
  { unfold long_names in Hn. rewrite !elem_of_cons in Hn.
    destruct Hn as [->|[->|[->|[->|[->|[->|Hn]]]]]]; [reflexivity..|by apply elem_of_nil in Hn]. }
  rewrite H, eq_free_app in Hf. by apply andb_true_iff in Hf as [? _].
Qed.

Definition familiar (n : string) : Prop := n ∈ long_names \/ n = "-l"%string.
Lemma long_abbreviates n : n ∈ long_names -> abbreviates n n.
Proof.
  intros Hn. split; [done|]. unfold long_names in Hn. rewrite !elem_of_cons in Hn.
  destruct Hn as [->|[->|[->|[->|[->|[->|Hn]]]]]]; [..|by apply elem_of_nil in Hn]; do 2 eexists; exists ""%string; by rewrite app_nil_str.
Qed.

Lemma shorts_letters s l : letters s l -> parse_shorts known_options s = (map (fun n => Switch n None) l, known_options).
Proof. induction 1 as [|s l _ IH|s l _ IH]; [done|..]; cbn [parse_shorts]; cbn [map]; rewrite <- ?IH; cbn -[parse_shorts known_options]; by rewrite IH. Qed.

Lemma shorts_sound s l opts :
  parse_shorts known_options s = (l, opts) -> (forall n v, Switch n v ∈ l -> familiar n) ->
  exists names, letters s names /\ l = map (fun n => Switch n None) names /\ opts = known_options.
Proof.
  revert l opts. induction s as [|c s IH]; intros l opts H Hf; cbn [parse_shorts] in H.
  - injection H as <- <-. exists []. by split; [constructor|].
  - set (short := String "-" (String c "")) in *.
    assert (c = "h"%char \/ c = "l"%char \/ (c <> "h"%char /\ c <> "l"%char)) as Hc.
    { destruct (Ascii.eqb_spec c "h"), (Ascii.eqb_spec c "l"); tauto. }
    assert (forall n v, (exists k, Switch n v :: k = l) -> familiar n) as Hhead.
    { intros n v [k <-]. apply (Hf n v). by left. }
    destruct Hc as [->|[->|[H1 H2]]].
    + cbn -[parse_shorts known_options] in H.
      change (List.find _ known_options) with (Some (Opt (Some "-h") (Some "--help") false)%string) in H.
      destruct (parse_shorts known_options s) as [l' o'] eqn:E. injection H as <- <-.
      destruct (IH l' o' eq_refl) as (names & Hn & -> & ->).
      { intros n v Hin. apply (Hf n v). by right. }
      exists ("--help"%string :: names). split; [by constructor|]. done.
    + change (List.find _ known_options) with (Some (Opt (Some "-l") None false)%string) in H.
      destruct (parse_shorts known_options s) as [l' o'] eqn:E. injection H as <- <-.
      destruct (IH l' o' eq_refl) as (names & Hn & -> & ->).
      { intros n v Hin. apply (Hf n v). by right. }
      exists ("-l"%string :: names). split; [by constructor|]. done.
    + exfalso. destruct (List.find _ known_options) as [o|] eqn:Eo.
      * apply find_some in Eo as [Ho Hs]. apply bool_decide_eq_true in Hs.
        unfold known_options in Ho. cbn in Ho.
        destruct Ho as [<-|[<-|[<-|[<-|[<-|[<-|[<-|[]]]]]]]]; unfold short in Hs; cbn [o_short] in Hs; congruence.
      * destruct (parse_shorts (known_options ++ [Opt (Some short) None false]) s) as [l' o']. injection H as <- _.
        destruct (Hhead short None) as [Hn|Hn]; [by exists l'| |unfold short in Hn; congruence].
        unfold long_names in Hn. rewrite !elem_of_cons, elem_of_nil in Hn.
        destruct Hn as [Hn|[Hn|[Hn|[Hn|[Hn|[Hn|[]]]]]]]; discriminate.
Qed.
Lemma switches_letters names : switches (map (fun n => Switch n None) names) = map (fun n => (n, None)) names.
Proof. induction names as [|n names IH]; cbn; [done|]. by rewrite IH. Qed.
Lemma words_letters names : words (map (fun n => Switch n None) names) = [].
Proof. induction names as [|n names IH]; cbn; done. Qed.

Lemma parse_long_unfold t rest :
  t <> "--"%string -> str_startswith "--" t = true ->
  parse_argv known_options (t :: rest) =
    let '(long, value) := partition_eq t in
    match similar_to long with
    | [] => cons (Switch long value) <$>
              parse_argv (known_options ++ [Opt None (Some long) (bool_decide (is_Some value))]) rest
    | [o] =>
        if o_takes o then
          match value, rest with
          | Some v, _ => cons (Switch (o_name o) (Some v)) <$> parse_argv known_options rest
          | None, [] => None
          | None, v :: rest =>
              if (v =? "--")%string then None
              else cons (Switch (o_name o) (Some v)) <$> parse_argv known_options rest
          end
        else match value with
             | Some _ => None
             | None => cons (Switch (o_name o) None) <$> parse_argv known_options rest
             end
    | _ => None
    end.
Proof.
  intros H1 H2. cbn [parse_argv]. apply String.eqb_neq in H1. rewrite H1, H2. reflexivity.
Qed.

Lemma fmap_cons_Some (x : parsed) (o : option (list parsed)) l :
  cons x <$> o = Some l -> exists k, o = Some k /\ l = x :: k.
Proof. destruct o as [k|]; cbn; intros H; [|done]. injection H as <-. by exists k. Qed.

Lemma parse_sound argv l :
  parse_argv known_options argv = Some l -> (forall n v, Switch n v ∈ l -> familiar n) ->
  spelled argv (words l) (switches l).
Proof.
  revert l. induction (well_founded_ltof _ (@length string) argv) as [argv _ IH]. intros l H Hf.
  destruct argv as [|t rest]; [injection H as <-; constructor|].
  assert (forall x k, l = x :: k -> parse_argv known_options rest = Some k -> spelled rest (words k) (switches k)) as Hnext.
  { intros x k -> Hk. apply (IH rest); [unfold ltof; cbn; lia|done|]. intros n v Hin. apply (Hf n v). by right. }
  destruct (String.eqb_spec t "--") as [->|Ht].
  { cbn [parse_argv] in H. change ("--" =? "--")%string with true in H. cbn iota in H. injection H as <-.
    change (Word "--" :: map Word rest) with (map Word ("--" :: rest)%string).
    rewrite words_map, switches_map. apply spelled_rest. }
  destruct (str_startswith "--" t) eqn:Hs.
  - rewrite (parse_long_unfold t rest Ht Hs) in H. destruct (partition_eq t) as [long value] eqn:Hp.
    apply startswith_iff in Hs as [b Hb].
    assert (exists r, long = ("--" ++ r)%string) as [r ->].
    { destruct value as [v|].
      - apply partition_Some in Hp. rewrite Hb in Hp. destruct long as [|a long]; [by injection Hp|].
        destruct long as [|a' long]; [by injection Hp|]. injection Hp as <- <- _. by exists long.
      - apply partition_None in Hp. exists b. congruence. }
    destruct r as [|c r].
    { change (similar_to ("--" ++ "")) with (similar_to "--") in H. vm_compute in H. discriminate. }
    destruct (similar_known c r) as [[E Hno]|(o & E & Hab & Htakes & _)]; rewrite E in H.
    + exfalso. apply fmap_cons_Some in H as (k & _ & ->).
      destruct (Hf ("--" ++ String c r)%string value) as [Hn|Hn]; [by left| |discriminate].
      exact (Hno _ (long_abbreviates _ Hn)).
    + destruct (o_takes o) eqn:Eo.
      * assert (takes (o_name o)) as Ht' by (by apply Htakes).
        destruct value as [v|].
        -- apply fmap_cons_Some in H as (k & Hk & ->). apply partition_Some in Hp as ->.
           cbn [words switches]. apply (spelled_joined _ _ _ _ _ _ Hab Ht'). by apply (Hnext (Switch (o_name o) (Some v)) k).
        -- apply partition_None in Hp as ->. destruct rest as [|v rest]; [done|].
           destruct (String.eqb_spec v "--") as [->|Hv]; [done|].
           apply fmap_cons_Some in H as (k & Hk & ->). cbn [words switches].
           apply (spelled_apart _ _ _ _ _ _ Hab Ht' Hv). apply (IH rest); [unfold ltof; cbn; lia|done|].
           intros n u Hin. apply (Hf n u). by right.
      * destruct value as [v|]; [done|]. apply partition_None in Hp as ->.
        apply fmap_cons_Some in H as (k & Hk & ->). cbn [words switches].
        apply (spelled_flag _ _ _ _ _ Hab); [intros Hn; by apply Htakes in Hn|].
        by apply (Hnext (Switch (o_name o) None) k).
  - cbn [parse_argv] in H. apply String.eqb_neq in Ht as Ht'. rewrite Ht', Hs in H.
    destruct (str_startswith "-" t && negb (t =? "-")%string) eqn:Hd.
    + apply andb_true_iff in Hd as [Hd Hn]. apply negb_true_iff, String.eqb_neq in Hn.
      apply startswith_iff in Hd as [s ->]. change ("-" ++ s)%string with (String "-" s) in *.
      destruct (parse_shorts known_options s) as [l1 opts] eqn:E.
      destruct (parse_argv opts rest) as [k|] eqn:Ek; [|done]. cbn in H. injection H as <-.
      destruct (shorts_sound s l1 opts E) as (names & Hl & -> & ->).
      { intros n v Hin. apply (Hf n v). apply elem_of_app. by left. }
      rewrite words_app, switches_app, switches_letters, words_letters. cbn [app].
      apply (spelled_letters s names); [done|intros ->; by apply Hn|].
      apply (IH rest); [unfold ltof; cbn; lia|done|].
      intros n v Hin. apply (Hf n v). apply elem_of_app. by right.
    + apply fmap_cons_Some in H as (k & Hk & ->). cbn [words switches]. constructor; [|by apply (Hnext (Word t) k)].
      apply andb_false_iff in Hd as [Hd|Hd].
      * right. intros r ->. by rewrite (proj2 (startswith_iff "-" (String "-" r)) (ex_intro _ r eq_refl)) in Hd.
      * left. apply negb_false_iff in Hd. by apply String.eqb_eq in Hd.
Qed.

Lemma abbreviates_similar w n : abbreviates w n ->
  exists o, similar_to w = [o] /\ o_name o = n /\ (o_takes o = true <-> takes n) /\ w <> "--"%string /\ str_startswith "--" w = true.
Proof.
  intros Hw. pose proof Hw as (Hn & c & r & rest & -> & _).
  destruct (similar_known c r) as [[_ Hno]|(o & E & Hab & Ht & Hu)]; [by destruct (Hno n)|].
  exists o. assert (o_name o = n) as Ho by (symmetry; by apply Hu). rewrite <- Ho. split_and!; done.
Qed.

Lemma parse_complete argv ws os :
  spelled argv ws os -> exists l, parse_argv known_options argv = Some l /\ words l = ws /\ switches l = os.
Proof.
  induction 1 as [|w argv ws os Hw _ (l & Hl & H1 & H2)|w name argv ws os Ha Ht _ (l & Hl & H1 & H2)
    |w name v argv ws os Ha Ht _ (l & Hl & H1 & H2)|w name v argv ws os Ha Ht Hv _ (l & Hl & H1 & H2)
    |s names argv ws os Hs Hn _ (l & Hl & H1 & H2)|argv].
  - by exists [].
  - exists (Word w :: l). cbn [words switches]. rewrite H1. split; [|done]. cbn [parse_argv].
    assert ((w =? "--")%string = false) as ->.
    { apply String.eqb_neq. intros ->. destruct Hw as [Hw|Hw]; [done|]. by apply (Hw "-"%string). }
    assert (str_startswith "--" w = false) as ->.
    { apply not_true_iff_false. rewrite startswith_iff. intros [b Hb]. destruct Hw as [->|Hw]; [done|].
      by apply (Hw ("-" ++ b)%string). }
    assert (str_startswith "-" w && negb (w =? "-")%string = false) as ->.
    { destruct Hw as [->|Hw]; [done|]. apply andb_false_iff. left. apply not_true_iff_false. rewrite startswith_iff.
      intros [b Hb]. by apply (Hw b). }
    by rewrite Hl.
  - exists (Switch name None :: l). cbn [words switches]. rewrite H1, H2. split; [|done].
    destruct (abbreviates_similar w name Ha) as (o & E & <- & Ho & Hd & Hs).
    rewrite (parse_long_unfold w argv Hd Hs), (partition_free w (abbreviates_free _ _ Ha)), E.
    destruct (o_takes o); [by destruct Ht; apply Ho|]. by rewrite Hl.
  - exists (Switch name (Some v) :: l). cbn [words switches]. rewrite H1, H2. split; [|done].
    destruct (abbreviates_similar w name Ha) as (o & E & <- & Ho & Hd & Hs).
    assert (str_startswith "--" (w ++ "=" ++ v) = true) as Hs'.
    { apply startswith_iff in Hs as [b Hb]. apply startswith_iff. exists (b ++ "=" ++ v)%string. rewrite Hb.
      symmetry. apply (app_assoc_str "--" b ("=" ++ v)). }
    rewrite (parse_long_unfold _ argv) by
      (done || (pose proof Ha as (_ & c & r & rest & -> & _); discriminate)).
    rewrite (partition_joined w v (abbreviates_free _ _ Ha)), E. rewrite (proj2 Ho Ht), Hl. done.
  - exists (Switch name (Some v) :: l). cbn [words switches]. rewrite H1, H2. split; [|done].
    destruct (abbreviates_similar w name Ha) as (o & E & <- & Ho & Hd & Hs).
    rewrite (parse_long_unfold w _ Hd Hs), (partition_free w (abbreviates_free _ _ Ha)), E, (proj2 Ho Ht).
    apply String.eqb_neq in Hv. by rewrite Hv, Hl.
  - exists (map (fun n => Switch n None) names ++ l). rewrite words_app, switches_app, switches_letters, words_letters, H1, H2.
    split; [|done]. cbn [parse_argv].
    assert (exists c s', s = String c s' /\ c <> "-"%char) as (c & s' & -> & Hc) 
      by (destruct Hs as [|s' ?|s' ?]; [by destruct Hn|by exists "h"%char, s'|by exists "l"%char, s']).
    assert (str_startswith "--" (String "-" (String c s')) = false) as Hd.
    { apply not_true_iff_false. rewrite startswith_iff. intros [b Hb]. injection Hb as -> _. done. }
    assert ((String "-" (String c s') =? "--")%string = false) as ->.
    { apply String.eqb_neq. intros Hb. injection Hb as -> _. done. }
    rewrite Hd. assert (str_startswith "-" (String "-" (String c s')) && negb (String "-" (String c s') =? "-")%string = true) as ->.
    { apply andb_true_iff. split; [apply startswith_iff; by eexists|]. by apply negb_true_iff, String.eqb_neq. }
    rewrite (shorts_letters _ _ Hs), Hl. done.
  - exists (map Word ("--" :: argv)%string). rewrite words_map, switches_map. split; [|done]. done.
Qed.

(** ** Matching *)
Lemma optionally_match ns l f :
  exists l' x, match_line (map Optionally ns) (l, f) = Some (l', f ++ x) /\ words l' = words l /\
    switches l ≡ₚ x ++ switches l' /\ (NoDup ns -> NoDup (map fst x)) /\ (forall n, n ∈ map fst x -> n ∈ ns) /\
    (forall n, n ∈ ns -> n ∈ map fst (switches l) -> n ∈ map fst x).
Proof.
  revert l f. induction ns as [|n ns IH]; intros l f.
  - exists l, []. cbn. rewrite app_nil_r. split_and!; done.
  - cbn [map match_line match_leaf]. destruct (take_switch n l) as [[v k]|] eqn:E.
    + apply take_switch_Some in E as [Hw Hs]. destruct (IH k (f ++ [(n, v)])) as (l' & x & Hm & H1 & H2 & H3 & H4 & H5).
      exists l', ((n, v) :: x). rewrite Hm, <- app_assoc. split_and!; [done|congruence|by rewrite Hs, H2| | |].
      * intros Hnd. inversion Hnd; subst. cbn. constructor; [|by apply H3]. intros Hin. by apply H4 in Hin.
      * cbn. intros m. rewrite !elem_of_cons. intros [->|Hm']; [by left|right; by apply H4].
      * cbn. intros m. rewrite !elem_of_cons, Hs. cbn. rewrite elem_of_cons. intros [->|Hm']; [by left|].
        intros [->|Hin]; [by left|]. right. by apply H5.
    + apply take_switch_None in E. destruct (IH l f) as (l' & x & Hm & H1 & H2 & H3 & H4 & H5).
      exists l', x. split_and!; [done|done|done| | |].
      * intros Hnd. inversion Hnd; subst. by apply H3.
      * intros m Hm'. right. by apply H4.
      * intros m. rewrite elem_of_cons. intros [->|Hm']; [done|]. by apply H5.
Qed.

Lemma found_iff n vs : found n vs = true <-> n ∈ map fst vs.
Proof.
  unfold found. rewrite existsb_exists. rewrite elem_of_list_fmap. split.
  - intros ([m v] & Hin & E). apply String.eqb_eq in E. cbn in E. subst. exists (n, v). split; [done|]. by apply elem_of_list_In.
  - intros ([m v] & -> & Hin). exists (m, v). split; [by apply elem_of_list_In|]. by apply String.eqb_eq.
Qed.
Lemma value_of_in n v vs : NoDup (map fst vs) -> (n, v) ∈ vs -> value_of n vs = v.
Proof.
  unfold value_of. induction vs as [|[m u] vs IH]; intros Hnd Hin; [by apply elem_of_nil in Hin|].
  cbn. cbn in Hnd. apply NoDup_cons in Hnd as [Hm Hnd]. destruct (String.eqb_spec m n) as [->|Hmn].
  - apply elem_of_cons in Hin as [Hin|Hin]; [by injection Hin as ->|]. destruct Hm. apply elem_of_list_fmap. by exists (n, v).
  - apply elem_of_cons in Hin as [Hin|Hin]; [congruence|]. by apply IH.
Qed.
Lemma value_of_out n vs : n ∉ map fst vs -> value_of n vs = None.
Proof.
  unfold value_of. induction vs as [|[m u] vs IH]; intros H; [done|]. cbn. cbn in H.
  apply not_elem_of_cons in H as [H1 H2]. destruct (String.eqb_spec m n) as [->|_]; [done|]. by apply IH.
Qed.

Definition run_names : list string := ["--noshow"; "--save"; "--follow"]%string.
Lemma run_names_iff n : n ∈ run_names <-> (n = "--noshow" \/ takes n)%string.
Proof. unfold run_names, takes. rewrite !elem_of_cons, elem_of_nil. tauto. Qed.
Lemma run_names_nodup : NoDup run_names.
Proof. by_compute. Qed.

(** The options of a run: all are used exactly if they are the right ones. *)
Lemma run_options_match l f :
  exists l' x, match_line run_options (l, f) = Some (l', f ++ x) /\ words l' = words l /\
    (switches l' = [] -> NoDup (map fst (switches l)) /\ (forall n, n ∈ map fst (switches l) -> n ∈ run_names) /\
       NoDup (map fst x) /\ x ≡ₚ switches l) /\
    (NoDup (map fst (switches l)) -> (forall n, n ∈ map fst (switches l) -> n ∈ run_names) -> switches l' = []).
Proof.
  destruct (optionally_match run_names l f) as (l' & x & Hm & H1 & H2 & H3 & H4 & H5).
  exists l', x. split_and!; [exact Hm|done| |].
  - intros E. rewrite E, app_nil_r in H2. specialize (H3 run_names_nodup). split_and!; [by rewrite H2| |done|done].
    intros n. rewrite H2. apply H4.
  - intros Hnd Hsub. destruct (switches l') as [|[n v] os] eqn:E; [done|]. exfalso.
    assert (n ∈ map fst (switches l)) as Hn.
    { rewrite H2, map_app. apply elem_of_app. right. by left. }
    specialize (H5 n (Hsub n Hn) Hn). rewrite H2, map_app in Hnd. apply NoDup_app in Hnd as (_ & Hnd & _).
    apply (Hnd n H5). by left.
Qed.

Lemma fewest_left_in l x : fewest_left l = Some x -> x ∈ l.
Proof.
  revert x. induction l as [|y l IH]; intros x H; cbn in H; [done|].
  destruct (fewest_left l) as [z|]; [|injection H as <-; by left].
  destruct (_ <=? _); injection H as <-; [by left|]. right. by apply IH.
Qed.
Lemma fewest_left_nil l vs : ([], vs) ∈ l -> exists vs', fewest_left l = Some ([], vs').
Proof.
  induction l as [|y l IH]; intros H; [by apply elem_of_nil in H|]. cbn. apply elem_of_cons in H as [<-|H].
  - destruct (fewest_left l) as [z|]; cbn; eauto.
  - destruct (IH H) as [vs' ->]. cbn. destruct y as [[|p y] u]; cbn; eauto.
Qed.

(** What a line of the usage means when nothing is left. *)
Definition valued (os : list (string * option string)) : Prop := forall n v, (n, v) ∈ os -> (takes n <-> is_Some v).

Lemma spelled_valued argv ws os : spelled argv ws os -> valued os /\ (forall n v, (n, v) ∈ os -> familiar n).
Proof.
  induction 1 as [|w argv ws os Hw _ IH|w name argv ws os Ha Ht _ IH|w name v argv ws os Ha Ht _ IH
    |w name v argv ws os Ha Ht Hv _ IH|s names argv ws os Hs Hn _ IH|argv].
  - split; intros n v H; by apply elem_of_nil in H.
  - done.
  - destruct IH as [IH1 IH2]. split; intros n u; rewrite elem_of_cons; intros [H|H]; [|by apply IH1| |by apply (IH2 n u)].
    + injection H as -> ->. split; [done|]. by intros [? ?].
    + injection H as -> ->. left. by destruct Ha.
  - destruct IH as [IH1 IH2]. split; intros n u; rewrite elem_of_cons; intros [H|H]; [|by apply IH1| |by apply (IH2 n u)].
    + by injection H as -> ->.
    + injection H as -> ->. left. by destruct Ha.
  - destruct IH as [IH1 IH2]. split; intros n u; rewrite elem_of_cons; intros [H|H]; [|by apply IH1| |by apply (IH2 n u)].
    + by injection H as -> ->.
    + injection H as -> ->. left. by destruct Ha.
  - destruct IH as [IH1 IH2].
    assert (forall n u, (n, u) ∈ map (fun n => (n, None)) names -> u = @None string /\ (n = "--help" \/ n = "-l")%string) as Hl.
    { clear -Hs. induction Hs as [|s l _ IH|s l _ IH]; intros n u; cbn.
      - by rewrite elem_of_nil.
      - rewrite elem_of_cons. intros [H|H]; [|by apply IH]. injection H as -> ->. auto.
      - rewrite elem_of_cons. intros [H|H]; [|by apply IH]. injection H as -> ->. auto. }
    split; intros n u; rewrite elem_of_app; intros [H|H]; [|by apply IH1| |by apply (IH2 n u)].
    + destruct (Hl n u H) as [-> Hn']. split; [|by intros [? ?]]. unfold takes. destruct Hn' as [-> | ->]; intros [?|?]; discriminate.
    + destruct (Hl n u H) as [_ Hn']. destruct Hn' as [-> | ->]; [left; by_compute|by right].
  - split; intros n v H; by apply elem_of_nil in H.
Qed.

Definition leaf_names (ps : list leaf) : list string :=
  omap (fun p => match p with Optionally n | Needed n => Some n | _ => None end) ps.
Lemma match_line_names ps l f l' f' n :
  match_line ps (l, f) = Some (l', f') -> n ∈ map fst (switches l) -> n ∈ map fst (switches l') \/ n ∈ leaf_names ps.
Proof.
  revert l f. induction ps as [|p ps IH]; intros l f H Hn; cbn [match_line] in H; [injection H as -> ->; by left|].
  destruct (match_leaf p (l, f)) as [[k g]|] eqn:E; [|done].
  assert (n ∈ map fst (switches k) \/ n ∈ leaf_names [p]) as Hk.
  { destruct p as [m|m|m|m]; cbn [match_leaf] in E.
    - destruct (take_word l) as [[s j]|] eqn:Et; [|done]. apply take_word_Some in Et as [_ Hs].
      destruct (s =? m)%string; [|done]. injection E as <- _. left. by rewrite Hs.
    - destruct (take_word l) as [[s j]|] eqn:Et; [|done]. apply take_word_Some in Et as [_ Hs].
      injection E as <- _. left. by rewrite Hs.
    - destruct (take_switch m l) as [[v j]|] eqn:Et; [|injection E as <- _; by left].
      apply take_switch_Some in Et as [_ Hs]. injection E as <- _. rewrite Hs in Hn. cbn in Hn.
      apply elem_of_cons in Hn as [->|Hn]; [right; by left|by left].
    - destruct (take_switch m l) as [[v j]|] eqn:Et; [|done].
      apply take_switch_Some in Et as [_ Hs]. injection E as <- _. rewrite Hs in Hn. cbn in Hn.
      apply elem_of_cons in Hn as [->|Hn]; [right; by left|by left]. }
  assert (leaf_names (p :: ps) = leaf_names [p] ++ leaf_names ps) as -> by (by destruct p).
  rewrite elem_of_app. destruct Hk as [Hk|Hk]; [|tauto]. destruct (IH _ _ H Hk); tauto.
Qed.
Lemma usage_familiar ps n : ps ∈ usage -> n ∈ leaf_names ps -> familiar n.
Proof.
  intros Hps Hn. assert (Forall (fun ps => Forall (fun n => n ∈ "-l"%string :: long_names) (leaf_names ps)) usage) as Hall by by_compute.
  rewrite Forall_forall in Hall. specialize (Hall ps Hps). rewrite Forall_forall in Hall. specialize (Hall n Hn).
  apply elem_of_cons in Hall as [->|?]; [by right|by left].
Qed.

Definition config_value (config : option string) : list (string * option string) :=
  match config with Some c => [("<config>"%string, Some c)] | None => [] end.
Lemma dispatch_run ds d config x :
  (forall n, n ∈ map fst x -> n ∈ run_names) ->
  dispatch ds ([("run", None); ("<dirpath>", Some d)]%string ++ config_value config ++ x) =
    Some (SystemModel (Some d) config (negb (found "--noshow" x)) (value_of "--save" x) (value_of "--follow" x)).
Proof.
  intros Hx. assert (value_of "<config>" x = None) as Hc.
  { apply value_of_out. intros H. apply Hx in H. revert H. by_compute. }
  destruct config as [c|]; [done|]. unfold dispatch. cbn [config_value app].
  change (found "run" _) with true. cbn iota.
  change (value_of "<config>" (("run", None) :: ("<dirpath>", Some d) :: x)%string) with (value_of "<config>" x).
  by rewrite Hc.
Qed.

Lemma asks_of_values ds d config os x :
  valued os -> NoDup (map fst os) -> (forall n, n ∈ map fst os -> n ∈ run_names) -> NoDup (map fst x) -> x ≡ₚ os ->
  asks ds ("run" :: d :: match config with Some c => [c] | None => [] end)%string os
    (SystemModel (Some d) config (negb (found "--noshow" x)) (value_of "--save" x) (value_of "--follow" x)).
Proof.
  intros Hv Hnd Hsub Hx Hp.
  assert (forall n, takes n -> argument_of n os (value_of n x)) as Harg.
  { intros n Hn. destruct (decide (n ∈ map fst x)) as [Hin|Hout].
    - apply elem_of_list_fmap in Hin as ([m v] & -> & Hin). cbn in *. rewrite (value_of_in m v x Hx Hin).
      rewrite Hp in Hin. destruct (proj1 (Hv m v Hin) Hn) as [u ->]. exact Hin.
    - rewrite (value_of_out n x Hout). cbn. by rewrite <- Hp. }
  constructor; [done| | |apply Harg; by left|apply Harg; by right].
  - intros n Hn. by apply run_names_iff, Hsub.
  - rewrite negb_true_iff. rewrite <- not_true_iff_false, found_iff. by rewrite Hp.
Qed.

Local Ltac word_step H s k :=
  cbn [match_line match_leaf app] in H;
  match type of H with
  | context [take_word ?l] =>
      let E := fresh "Ew" in destruct (take_word l) as [[s k]|] eqn:E; [|discriminate H];
      apply take_word_Some in E as [? ?]; cbn [match_line match_leaf app] in H
  end.
Local Ltac name_step H :=
  match type of H with
  | context [(?s =? ?n)%string] => destruct (String.eqb_spec s n) as [->|_]; [|discriminate H]; cbn [match_line match_leaf app] in H
  end.

Lemma line_meaning ds ps l vs :
  ps ∈ usage -> match_line ps (l, []) = Some ([], vs) -> valued (switches l) ->
  (exists a, dispatch ds vs = Some a /\ asks ds (words l) (switches l) a) \/
  (dispatch ds vs = None /\ words l = [] /\
     exists n v, switches l = [(n, v)] /\ n ∈ ["-l"; "--list"; "--help"; "--version"]%string).
Proof.
  intros Hps H Hv. unfold usage in Hps. rewrite !elem_of_cons, elem_of_nil in Hps.
  assert (forall n, match_line [Needed n] (l, []) = Some ([], vs) -> n ∈ ["-l"; "--list"; "--help"; "--version"]%string ->
    (dispatch ds vs = None /\ words l = [] /\ exists n v, switches l = [(n, v)] /\ n ∈ ["-l"; "--list"; "--help"; "--version"]%string)) as Hneed.
  { intros n Hm Hn. cbn in Hm. destruct (take_switch n l) as [[v k]|] eqn:E; [|done].
    injection Hm as -> <-. apply take_switch_Some in E as [E1 E2]. cbn in E1, E2.
    apply Permutation_singleton_r in E2. split; [|split; [done|by exists n, v]].
    rewrite !elem_of_cons, elem_of_nil in Hn. by destruct Hn as [->|[->|[->|[->|[]]]]]. }
  destruct Hps as [->|[->|[->|[->|[->|[->|[->|[->|[->|[->|[->|[]]]]]]]]]]]].
  - left. word_step H s l0. name_step H. word_step H s0 l1.
    change (match_line _ (l1, _)) with (match_line run_options (l1, [("run", None); ("<dirpath>", Some s0)]%string)) in H.
    destruct (run_options_match l1 [("run", None); ("<dirpath>", Some s0)]%string) as (l' & x & Hm & Hw & Hs & _).
    rewrite Hm in H. injection H as -> <-. cbn in Hw. destruct (Hs eq_refl) as (S1 & S2 & S3 & S4).
    exists (SystemModel (Some s0) None (negb (found "--noshow" x)) (value_of "--save" x) (value_of "--follow" x)).
    split; [apply (dispatch_run ds s0 None); intros n; rewrite S4; apply S2|].
    assert (words l = ["run"; s0]%string) as -> by congruence. assert (switches l = switches l1) as E by congruence.
    rewrite E in *. by apply (asks_of_values ds s0 None).
  - left. word_step H s l0. name_step H. word_step H s0 l1. word_step H s1 l2.
    change (match_line _ (l2, _)) with
      (match_line run_options (l2, [("run", None); ("<dirpath>", Some s0); ("<config>", Some s1)]%string)) in H.
    destruct (run_options_match l2 [("run", None); ("<dirpath>", Some s0); ("<config>", Some s1)]%string) as (l' & x & Hm & Hw & Hs & _).
    rewrite Hm in H. injection H as -> <-. cbn in Hw. destruct (Hs eq_refl) as (S1 & S2 & S3 & S4).
    exists (SystemModel (Some s0) (Some s1) (negb (found "--noshow" x)) (value_of "--save" x) (value_of "--follow" x)).
    split; [apply (dispatch_run ds s0 (Some s1)); intros n; rewrite S4; apply S2|].
    assert (words l = ["run"; s0; s1]%string) as -> by congruence. assert (switches l = switches l2) as E by congruence.
    rewrite E in *. by apply (asks_of_values ds s0 (Some s1)).
  - left. word_step H s l0. name_step H. injection H as -> <-. exists Cleanup. split; [done|].
    assert (words l = ["cleanup"%string] /\ switches l = []) as [-> ->] by (cbn [words switches] in *; split; congruence). constructor.
  - left. word_step H s l0. name_step H. word_step H s0 l1. injection H as -> <-. exists (ValidateDirectory (Some s0)). split; [done|].
    assert (words l = ["validate"; s0]%string /\ switches l = []) as [-> ->] by (cbn [words switches] in *; split; congruence). constructor.
  - left. word_step H s l0. name_step H. word_step H s0 l1. word_step H s1 l2. injection H as -> <-.
    exists (ValidateXsd (Some s0) (if decide (s1 = "")%string then ds else s1)). split.
    + cbn. unfold value_of. cbn. destruct (String.eqb_spec s1 ""), (decide (s1 = ""%string)); done.
    + assert (words l = ["xsd"; s0; s1]%string /\ switches l = []) as [-> ->] by (cbn [words switches] in *; split; congruence). constructor.
  - left. word_step H s l0. name_step H. word_step H s0 l1. injection H as -> <-. exists (ValidateXsd (Some s0) ds). split; [done|].
    assert (words l = ["xsd"; s0]%string /\ switches l = []) as [-> ->] by (cbn [words switches] in *; split; congruence). constructor.
  - right. apply (Hneed "-l"%string); [done|by_compute].
  - right. apply (Hneed "--list"%string); [done|by_compute].
  - right. apply (Hneed "--help"%string); [done|by_compute].
  - right. apply (Hneed "--help"%string); [done|by_compute].
  - right. apply (Hneed "--version"%string); [done|by_compute].
Qed.

Global Instance leaf_eq_dec : EqDecision leaf.
Proof. solve_decision. Defined.
Lemma asks_line ds l a :
  asks ds (words l) (switches l) a -> exists ps vs, ps ∈ usage /\ match_line ps (l, []) = Some ([], vs).
Proof.
  intros H. inversion H as [d config os show save follow H1 H2 H3 H4 H5 Ew Eo Ea|Ew Eo Ea|d Ew Eo Ea|d Ew Eo Ea|d s Ew Eo Ea];
    symmetry in Ew; subst.
  - destruct (take_word_cons _ _ _ Ew) as (l1 & T1 & W1 & S1). destruct (take_word_cons _ _ _ W1) as (l2 & T2 & W2 & S2).
    assert (switches l2 = switches l) as S by congruence.
    destruct config as [c|].
    + destruct (take_word_cons _ _ _ W2) as (l3 & T3 & W3 & S3).
      destruct (run_options_match l3 [("run", None); ("<dirpath>", Some d); ("<config>", Some c)]%string) as (l' & x & Hm & Hw & _ & Hs).
      rewrite S3, S in Hs. exists ([Command "run"; Argument "<dirpath>"; Argument "<config>"] ++ run_options).
      eexists. split; [by_compute|]. cbn [app match_line match_leaf]. rewrite T1. rewrite String.eqb_refl.
      cbn [app match_line match_leaf]. rewrite T2. cbn [app match_line match_leaf]. rewrite T3. cbn [app match_line match_leaf].
      change (match_line _ _) with (match_line run_options (l3, [("run", None); ("<dirpath>", Some d); ("<config>", Some c)]%string)).
      rewrite Hm. assert (l' = []) as ->; [|reflexivity]. apply both_nil; [congruence|]. apply Hs; [done|].
      intros n Hn. by apply run_names_iff, H2.
    + destruct (run_options_match l2 [("run", None); ("<dirpath>", Some d)]%string) as (l' & x & Hm & Hw & _ & Hs).
      rewrite S in Hs. exists ([Command "run"; Argument "<dirpath>"] ++ run_options).
      eexists. split; [by_compute|]. cbn [app match_line match_leaf]. rewrite T1. rewrite String.eqb_refl.
      cbn [app match_line match_leaf]. rewrite T2. cbn [app match_line match_leaf].
      change (match_line _ _) with (match_line run_options (l2, [("run", None); ("<dirpath>", Some d)]%string)).
      rewrite Hm. assert (l' = []) as ->; [|reflexivity]. apply both_nil; [congruence|]. apply Hs; [done|].
      intros n Hn. by apply run_names_iff, H2.
  - destruct (take_word_cons _ _ _ Ew) as (l1 & T1 & W1 & S1). symmetry in Eo.
    assert (l1 = []) as -> by (apply both_nil; congruence).
    exists [Command "cleanup"]. eexists. split; [by_compute|]. cbn [match_line match_leaf]. rewrite T1. reflexivity.
  - destruct (take_word_cons _ _ _ Ew) as (l1 & T1 & W1 & S1). destruct (take_word_cons _ _ _ W1) as (l2 & T2 & W2 & S2).
    assert (l2 = []) as -> by (apply both_nil; congruence).
    exists [Command "validate"; Argument "<dirpath>"]. eexists. split; [by_compute|]. cbn [match_line match_leaf]. rewrite T1.
    rewrite String.eqb_refl. cbn [app match_line match_leaf]. rewrite T2. reflexivity.
  - destruct (take_word_cons _ _ _ Ew) as (l1 & T1 & W1 & S1). destruct (take_word_cons _ _ _ W1) as (l2 & T2 & W2 & S2).
    assert (l2 = []) as -> by (apply both_nil; congruence).
    exists [Command "xsd"; Argument "<dirpath>"]. eexists. split; [by_compute|]. cbn [match_line match_leaf]. rewrite T1.
    rewrite String.eqb_refl. cbn [app match_line match_leaf]. rewrite T2. reflexivity.
  - destruct (take_word_cons _ _ _ Ew) as (l1 & T1 & W1 & S1). destruct (take_word_cons _ _ _ W1) as (l2 & T2 & W2 & S2).
    destruct (take_word_cons _ _ _ W2) as (l3 & T3 & W3 & S3).
    assert (l3 = []) as -> by (apply both_nil; congruence).
    exists [Command "xsd"; Argument "<dirpath>"; Argument "<schema>"]. eexists. split; [by_compute|]. cbn [match_line match_leaf]. rewrite T1.
    rewrite String.eqb_refl. cbn [app match_line match_leaf]. rewrite T2. cbn [app match_line match_leaf]. rewrite T3. reflexivity.
Qed.

Lemma argument_of_unique n os o o' : NoDup (map fst os) -> argument_of n os o -> argument_of n os o' -> o = o'.
Proof.
  intros Hnd. assert (forall v, (n, v) ∈ os -> n ∈ map fst os) as Hin.
  { intros v Hv. apply elem_of_list_fmap. by exists (n, v). }
  destruct o as [v|], o' as [v'|]; cbn; intros H H'; [|by destruct (H' (Hin _ H))|by destruct (H (Hin _ H'))|done].
  pose proof (value_of_in n _ os Hnd H) as E. pose proof (value_of_in n _ os Hnd H') as E'. congruence.
Qed.
Lemma asks_unique ds ws os a a' : asks ds ws os a -> asks ds ws os a' -> a = a'.
Proof.
  intros H H'. destruct H as [d config os show save follow H1 H2 H3 H4 H5| | | |].
  - inversion H' as [d' config' os' show' save' follow' K1 K2 K3 K4 K5 Ew Eo Ea| | | |]; subst.
    assert (config' = config) as -> by (destruct config, config'; congruence).
    rewrite (argument_of_unique _ _ _ _ H1 H4 K4), (argument_of_unique _ _ _ _ H1 H5 K5).
    assert (show = show') as ->; [|done]. destruct show, show'; try done; exfalso; destruct H3, K3; auto.
    + assert (false = true) by auto. done.
    + assert (false = true) by auto. done.
  - by inversion H'.
  - by inversion H'.
  - by inversion H'.
  - by inversion H'.
Qed.

(** ** The whole program *)
Definition docopt_lines (l : list parsed) : list (list parsed * values) := omap (fun ps => match_line ps (l, [])) usage.
Lemma docopt_read argv vs :
  docopt argv = Read vs ->
  exists l ps, parse_argv known_options argv = Some l /\ ps ∈ usage /\ match_line ps (l, []) = Some ([], vs) /\
    spelled argv (words l) (switches l) /\ valued (switches l) /\
    "--help"%string ∉ map fst (switches l) /\ "--version"%string ∉ map fst (switches l).
Proof.
  unfold docopt. destruct (parse_argv known_options argv) as [l|] eqn:E; [|done].
  destruct (switched "--help" l) eqn:E1; [done|]. destruct (switched "--version" l) eqn:E2; [done|].
  destruct (fewest_left (docopt_lines l)) as [[k u]|] eqn:E3; unfold docopt_lines in E3; rewrite E3; [|done].
  destruct k as [|x k]; [|done]. intros H. injection H as <-.
  apply fewest_left_in, elem_of_list_omap in E3 as (ps & Hps & Hm).
  assert (spelled argv (words l) (switches l)) as Hsp.
  { apply parse_sound; [done|]. intros n v Hin. apply switches_in in Hin.
    destruct (match_line_names ps l [] [] u n Hm) as [Hn|Hn].
    - apply elem_of_list_fmap. by exists (n, v).
    - by apply elem_of_nil in Hn.
    - by apply (usage_familiar ps). }
  exists l, ps. split_and!; try done; [by apply spelled_valued in Hsp as []|..]; intros Hin; apply switched_iff in Hin; congruence.
Qed.

Lemma docopt_asked ds argv ws os a :
  spelled argv ws os -> asks ds ws os a -> exists vs, docopt argv = Read vs.
Proof.
  intros Hsp Ha. destruct (parse_complete _ _ _ Hsp) as (l & Hl & <- & <-). unfold docopt. rewrite Hl.
  assert (forall n, n ∈ map fst (switches l) -> n ∈ run_names) as Hn.
  { intros n. inversion Ha as [d config os show save follow H1 H2 H3 H4 H5 Ew Eo Ea|Ew Eo Ea|d Ew Eo Ea|d Ew Eo Ea|d s Ew Eo Ea];
      [intros Hn; by apply run_names_iff, H2|intros Hn; by apply elem_of_nil in Hn..]. }
  assert (switched "--help" l = false) as ->.
  { apply not_true_iff_false. rewrite switched_iff. intros Hin. apply Hn in Hin. revert Hin. by_compute. }
  assert (switched "--version" l = false) as ->.
  { apply not_true_iff_false. rewrite switched_iff. intros Hin. apply Hn in Hin. revert Hin. by_compute. }
  destruct (asks_line ds l a Ha) as (ps & vs & Hps & Hm).
  destruct (fewest_left_nil (docopt_lines l) vs) as [vs' Hf].
  { apply elem_of_list_omap. by exists ps. }
  unfold docopt_lines in Hf. rewrite Hf. by exists vs'.
Qed.

Lemma does_proof ds perform argv a :
  fst (main ds perform argv) = [a] <-> exists ws os, spelled argv ws os /\ asks ds ws os a.
Proof.
  split.
  - unfold main. destruct (docopt argv) as [| | |vs] eqn:E; [done..|].
    destruct (docopt_read argv vs E) as (l & ps & Hl & Hps & Hm & Hsp & Hv & _ & _).
    destruct (line_meaning ds ps l vs Hps Hm Hv) as [(a' & -> & Ha)|(-> & _)]; [|done].
    cbn. intros H. injection H as <-. eauto.
  - intros (ws & os & Hsp & Ha). destruct (docopt_asked ds argv ws os a Hsp Ha) as [vs E].
    unfold main. rewrite E. destruct (docopt_read argv vs E) as (l & ps & Hl & Hps & Hm & Hsp' & Hv & _ & _).
    destruct (parse_complete _ _ _ Hsp) as (l' & Hl' & <- & <-). assert (l' = l) as -> by congruence.
    destruct (line_meaning ds ps l vs Hps Hm Hv) as [(a' & -> & Ha')|(_ & Hw & _)].
    + cbn. by rewrite (asks_unique _ _ _ _ _ Ha Ha').
    + exfalso. rewrite Hw in Ha. inversion Ha.
Qed.

Lemma ends_proof ds perform argv :
  match main ds perform argv with
  | ([], e) => e = Exited 0 \/ e = Exited 1 \/ e = Raised ValueError
  | ([a], e) => (perform a = Interrupted /\ e = Exited 1) \/ (perform a <> Interrupted /\ e = perform a)
  | _ => False
  end.
Proof.
  unfold main. destruct (docopt argv) as [| | |vs]; [auto..|]. destruct (dispatch ds vs) as [a|]; [|auto].
  destruct (perform a); (by left) || (by right).
Qed.

Lemma list_proof ds perform argv :
  main ds perform argv = ([], Raised ValueError) <->
  spelled argv [] [("-l"%string, None)] \/ spelled argv [] [("--list"%string, None)].
Proof.
  split.
  - unfold main. destruct (docopt argv) as [| | |vs] eqn:E; [done..|].
    destruct (docopt_read argv vs E) as (l & ps & Hl & Hps & Hm & Hsp & Hv & N1 & N2).
    destruct (line_meaning ds ps l vs Hps Hm Hv) as [(a' & -> & Ha)|(-> & Hw & n & v & Hs & Hn)]; [done|]. intros _.
    rewrite Hw, Hs in Hsp. rewrite Hs in N1, N2, Hv. cbn in N1, N2. rewrite elem_of_list_singleton in N1, N2.
    assert (v = None) as ->.
    { destruct v as [v|]; [|done]. exfalso. assert (takes n) as Ht by (apply (Hv n (Some v)); [by left|by eexists]).
      rewrite !elem_of_cons, elem_of_nil in Hn. unfold takes in Ht.
      destruct Hn as [->|[->|[->|[->|[]]]]]; destruct Ht; discriminate. }
    rewrite !elem_of_cons, elem_of_nil in Hn. destruct Hn as [->|[->|[->|[->|[]]]]]; [by left|by right|done|done].
  - assert (forall n l, n = "-l"%string \/ n = "--list"%string -> words l = [] -> switches l = [(n, None)] -> l = [Switch n None]) as Hone.
    { intros n l _ H1 H2. destruct l as [|[s|m v] [|[s'|m' v'] l]]; cbn in *; congruence. }
    intros [H|H]; destruct (parse_complete _ _ _ H) as (l & Hl & H1 & H2);
      [rewrite (Hone _ _ (or_introl eq_refl) H1 H2) in Hl|rewrite (Hone _ _ (or_intror eq_refl) H1 H2) in Hl];
      unfold main, docopt; rewrite Hl; reflexivity.
Qed.

Lemma help_proof ds perform argv ws os :
  spelled argv ws os -> ("--help"%string ∈ map fst os \/ "--version"%string ∈ map fst os) ->
  main ds perform argv = ([], Exited 0).
Proof.
  intros Hsp H. destruct (parse_complete _ _ _ Hsp) as (l & Hl & <- & <-). unfold main, docopt. rewrite Hl.
  rewrite <- !switched_iff in H. destruct (switched "--help" l); [done|]. destruct (switched "--version" l); [done|].
  by destruct H.
Qed.

Lemma wrong_proof ds perform argv ws os :
  spelled argv ws os -> "--help"%string ∉ map fst os -> "--version"%string ∉ map fst os ->
  (forall a, ~ asks ds ws os a) -> ~ (ws = [] /\ (os = [("-l"%string, None)] \/ os = [("--list"%string, None)])) ->
  main ds perform argv = ([], Exited 1).
Proof.
  intros Hsp H1 H2 Ha Hl. destruct (parse_complete _ _ _ Hsp) as (l & Hp & <- & <-).
  destruct (docopt argv) as [| | |vs] eqn:E.
  - unfold main. by rewrite E.
  - exfalso. unfold docopt in E. rewrite Hp in E. destruct (switched "--help" l) eqn:F; [by apply switched_iff in F|].
    destruct (switched "--version" l); [done|]. destruct (fewest_left _) as [[[|? ?] ?]|]; done.
  - exfalso. unfold docopt in E. rewrite Hp in E. destruct (switched "--help" l) eqn:F; [done|].
    destruct (switched "--version" l) eqn:F'; [by apply switched_iff in F'|]. destruct (fewest_left _) as [[[|? ?] ?]|]; done.
  - exfalso. destruct (docopt_read argv vs E) as (l' & ps & Hp' & Hps & Hm & Hsp' & Hv & _ & _).
    assert (l' = l) as -> by congruence.
    destruct (line_meaning ds ps l vs Hps Hm Hv) as [(a' & _ & Ha')|(Hd & Hw & n & v & Hs & Hn)]; [by apply (Ha a')|].
    assert (main ds perform argv = ([], Raised ValueError)) as Hmain by (unfold main; rewrite E, Hd; done).
    rewrite Hs in H1, H2, Hv. cbn in H1, H2. rewrite elem_of_list_singleton in H1, H2.
    assert (v = None) as ->.
    { destruct v as [v|]; [|done]. exfalso. assert (takes n) as Ht by (apply (Hv n (Some v)); [by left|by eexists]).
      rewrite !elem_of_cons, elem_of_nil in Hn. unfold takes in Ht.
      destruct Hn as [->|[->|[->|[->|[]]]]]; destruct Ht; discriminate. }
    apply Hl. rewrite !elem_of_cons, elem_of_nil in Hn. destruct Hn as [->|[->|[->|[->|[]]]]]; [by auto|by auto|done|done].
Qed.
