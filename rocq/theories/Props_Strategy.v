(** C53, C58: every text as a save strategy and as the name of a file. *)
From Coq Require Import Ascii.
From Verif Require Import Base Types Strings Formulas Runner Files Spec_Runner Spec_Files Spec_Strategy Runner_proofs Strategy_proofs.

(** Which texts are integers, and which. *)
Theorem C53_integers : forall s z, pyint s = Some z <-> python_int s z.
Proof. exact pyint_iff. Qed.
Print Assumptions C53_integers.
(** Every text has its pieces, and no others. *)
Theorem C53_pieces : forall s ps, pieces_of colon s ps <-> split_colons s = ps.
Proof. intros s ps. split; [apply split_pieces|intros <-; apply split_joined]. Qed.
Print Assumptions C53_pieces.
(** What any text does, by its pieces. *)
Theorem C53_every_text : forall s ps, pieces_of colon s ps ->
  (forall zs, Forall2 python_int ps zs -> meaning zs (save_strategy (Text s))) /\
  (Exists (fun p => forall z, ~ python_int p z) ps -> save_strategy (Text s) = Err ValueError).
Proof. exact strategy_meaning. Qed.
Print Assumptions C53_every_text.

Example ex_python_int : python_int (chars " +1_000 ") 1000 /\ (forall z, ~ python_int (chars "1__0") z) /\
  (forall z, ~ python_int (chars "0x10") z) /\ (forall z, ~ python_int (chars "- 5") z) /\ (forall z, ~ python_int [] z).
Proof.
  split; [apply pyint_iff; by_compute|].
  split_and!; intros z H%pyint_iff; vm_compute in H; done.
Qed.
Example ex_every_text : pieces_of colon (chars "2: 1_0 :4") (map chars ["2"; " 1_0 "; "4"]%string) /\
  Forall2 python_int (map chars ["2"; " 1_0 "; "4"]%string) [2; 10; 4]%Z /\
  save_strategy (Text (chars "1:2:3:4")) = Err TypeError /\ save_strategy (Text (chars "1:")) = Err ValueError /\
  save_strategy (Text (chars "x:2:3:4")) = Err ValueError.
Proof.
  split; [apply C53_pieces; by_compute|]. split; [apply ints_mapM; by_compute|]. split_and!; by vm_compute.
Qed.
(** A range that ends before it starts is accepted and saves nothing. *)
Theorem C53_backwards_refuted : exists s, saves_at (save_strategy (Text s)) (fun _ => False) /\
  pieces_of colon s (map chars ["8"; "2"]%string).
Proof.
  exists (chars "8:2"). split; [|apply C53_pieces; by_compute].
  destruct (C53_every_text (chars "8:2") (map chars ["8"; "2"]%string)) as [H _]; [apply C53_pieces; by_compute|].
  specialize (H [8; 2]%Z ltac:(apply ints_mapM; by_compute)). unfold meaning, from_to in H. destruct H as (f & E & H).
  exists f. split; [done|]. intros x. rewrite H. split; [intros (k & ? & -> & ?); lia|done].
Qed.
Print Assumptions C53_backwards_refuted.

(** Names of files: the usable characters without blanks at the ends, and one hyphen for
    every run of blanks and hyphens, then a dot and the hash. *)
Theorem C58_slug : forall md5 s t, safe_filename md5 s = t <-> exists u, slug_of s u /\ t = u ++ "."%char :: md5 s.
Proof.
  intros md5 s t. unfold safe_filename. split.
  - intros <-. exists (slug s). split; [by apply slug_iff|done].
  - intros (u & ->%slug_iff & ->). done.
Qed.
Print Assumptions C58_slug.
(** Hyphens at the ends stay. *)
Example ex_slug : slug (chars " --a (b) - c--") = chars "-a-b-c-" /\ slug (chars "***") = [].
Proof. split; by_compute. Qed.
