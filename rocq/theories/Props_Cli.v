(** C101: what a command line does. *)
From Coq Require Import Ascii.
From Verif Require Import Base Types Runner Cli Spec_Cli Cli_proofs Configuration.

(** A function is called exactly for the command lines that ask for it, with exactly
    these arguments. *)
Theorem C101_does : forall default_schema perform argv a,
  fst (main default_schema perform argv) = [a] <->
  exists ws os, spelled argv ws os /\ asks default_schema ws os a.
Proof. exact does_proof. Qed.
Print Assumptions C101_does.

(** What is asked is never ambiguous. *)
Theorem C101_one_meaning : forall default_schema argv ws ws' os os' a a',
  spelled argv ws os -> asks default_schema ws os a ->
  spelled argv ws' os' -> asks default_schema ws' os' a' -> a = a'.
Proof.
  intros ds argv ws ws' os os' a a' H1 H2 H3 H4.
  assert (fst (main ds (fun _ => Returned) argv) = [a]) as E by (apply does_proof; eauto).
  assert (fst (main ds (fun _ => Returned) argv) = [a']) as E' by (apply does_proof; eauto). congruence.
Qed.
Print Assumptions C101_one_meaning.

(** At most one function is called.  Its end is the end of the program, but for an
    interruption: status 1.  Without a call the status is 0 or 1, or the error of
    [--list]. *)
Theorem C101_ends : forall default_schema perform argv,
  match main default_schema perform argv with
  | ([], e) => e = Exited 0 \/ e = Exited 1 \/ e = Raised ValueError
  | ([a], e) => (perform a = Interrupted /\ e = Exited 1) \/ (perform a <> Interrupted /\ e = perform a)
  | _ => False
  end.
Proof. exact ends_proof. Qed.
Print Assumptions C101_ends.

(** Finding: the documented [-l] and [--list] always end with a ValueError, and nothing
    else does without a call. *)
Theorem C101_list_refuted : forall default_schema perform argv,
  main default_schema perform argv = ([], Raised ValueError) <->
  spelled argv [] [("-l"%string, None)] \/ spelled argv [] [("--list"%string, None)].
Proof. exact list_proof. Qed.
Print Assumptions C101_list_refuted.

(** Help and version win over everything else that can be read. *)
Theorem C101_help : forall default_schema perform argv ws os,
  spelled argv ws os -> ("--help"%string ∈ map fst os \/ "--version"%string ∈ map fst os) ->
  main default_schema perform argv = ([], Exited 0).
Proof. exact help_proof. Qed.
Print Assumptions C101_help.

(** What can be read but asks for nothing ends with the usage and status 1. *)
Theorem C101_wrong : forall default_schema perform argv ws os,
  spelled argv ws os -> "--help"%string ∉ map fst os -> "--version"%string ∉ map fst os ->
  (forall a, ~ asks default_schema ws os a) ->
  ~ (ws = [] /\ (os = [("-l"%string, None)] \/ os = [("--list"%string, None)])) ->
  main default_schema perform argv = ([], Exited 1).
Proof. exact wrong_proof. Qed.
Print Assumptions C101_wrong.

(** Which texts after the directory name a system model. *)
Theorem C101_models : forall cutoff row consequential config,
  is_Some (configuration cutoff row consequential (chosen config)) <->
  forall n, config = Some n -> n ∈ [""; "cutoff"; "cutoff_ecoinvent_row"; "consequential"]%string.
Proof.
  intros cu ro co [n|]; cbn [chosen configuration]; [|split; [done|by eexists]].
  case_bool_decide as E; [subst; split; [intros _ n Hn; injection Hn as <-; by_compute|by eexists]|].
  cbn [List.find fst].
  destruct (String.eqb_spec "cutoff" n) as [<-|H1]; [split; [intros _ m Hm; injection Hm as <-; by_compute|by eexists]|].
  destruct (String.eqb_spec "cutoff_ecoinvent_row" n) as [<-|H2]; [split; [intros _ m Hm; injection Hm as <-; by_compute|by eexists]|].
  destruct (String.eqb_spec "consequential" n) as [<-|H3]; [split; [intros _ m Hm; injection Hm as <-; by_compute|by eexists]|].
  split; [by intros [? ?]|]. intros H. specialize (H n eq_refl). rewrite !elem_of_cons, elem_of_nil in H.
  exfalso. destruct H as [->|[->|[->|[->|[]]]]]; done.
Qed.
Print Assumptions C101_models.

(** Finding: two hyphens, which end the options everywhere else, are taken for the
    directory, and the directory for the name of the system model. *)
Theorem C101_hyphens_refuted : forall default_schema perform d,
  fst (main default_schema perform ["run"; "--"; d]%string) = [SystemModel (Some "--"%string) (Some d) true None None].
Proof.
  intros ds perform d. apply C101_does. exists ["run"; "--"; d]%string, []. split.
  - apply spelled_word; [right; intros r; discriminate|]. apply spelled_rest.
  - apply (asks_run ds "--" (Some d) [] true None None); [constructor| | | |].
    + intros n H. by apply elem_of_nil in H.
    + split; [|done]. intros _ H. by apply elem_of_nil in H.
    + intros H. by apply elem_of_nil in H.
    + intros H. by apply elem_of_nil in H.
Qed.
Print Assumptions C101_hyphens_refuted.

Example run_example :
  main "EcoSpold02.xsd" (fun _ => Returned) ["run"; "data"; "--save"; "2:8"; "cutoff"; "--no"]%string =
  ([SystemModel (Some "data") (Some "cutoff") false (Some "2:8") None]%string, Returned).
Proof. by vm_compute. Qed.
(** The text after [--save] is its argument, whatever it looks like. *)
Example swallowed_example :
  main "EcoSpold02.xsd" (fun _ => Interrupted) ["run"; "data"; "--save"; "--noshow"]%string =
  ([SystemModel (Some "data") None true (Some "--noshow") None]%string, Exited 1).
Proof. by vm_compute. Qed.
Example xsd_example :
  main "EcoSpold02.xsd" (fun _ => Raised AssertionError) ["xsd"; "data"; ""]%string =
  ([ValidateXsd (Some "data") "EcoSpold02.xsd"]%string, Raised AssertionError).
Proof. by vm_compute. Qed.
Example list_example : main "EcoSpold02.xsd" (fun _ => Returned) ["--li"]%string = ([], Raised ValueError).
Proof. by vm_compute. Qed.
Example twice_example : main "EcoSpold02.xsd" (fun _ => Returned) ["run"; "data"; "--noshow"; "--noshow"]%string = ([], Exited 1).
Proof. by vm_compute. Qed.
Example help_example : main "EcoSpold02.xsd" (fun _ => Returned) ["cleanup"; "-lh"; "--foo"]%string = ([], Exited 0).
Proof. by vm_compute. Qed.
Example nothing_example : main "EcoSpold02.xsd" (fun _ => Returned) [] = ([], Exited 1).
Proof. by vm_compute. Qed.
Example missing_argument_example : main "EcoSpold02.xsd" (fun _ => Returned) ["run"; "data"; "--follow"]%string = ([], Exited 1).
Proof. by vm_compute. Qed.
