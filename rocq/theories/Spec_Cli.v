(** What a command line means (C101), without parsing: how words and options are
    written, and which of them ask for what. *)
From Coq Require Import Ascii.
From Verif Require Import Base Types Cli.

(** A word is not an option: it does not begin with a hyphen, or is only that. *)
Definition plain (w : string) : Prop := w = "-"%string \/ forall r, w <> String "-" r.
Definition long_names : list string :=
  ["--list"; "--noshow"; "--save"; "--follow"; "--help"; "--version"]%string.
Definition takes (name : string) : Prop := name = "--save"%string \/ name = "--follow"%string.
(** The name of an option, or the beginning of it with at least one letter. *)
Definition abbreviates (w name : string) : Prop :=
  name ∈ long_names /\ exists c r rest, w = ("--" ++ String c r)%string /\ name = (w ++ rest)%string.
(** Letters behind one hyphen. *)
Inductive letters : string -> list string -> Prop :=
  | letters_none : letters "" []
  | letters_help s l : letters s l -> letters (String "h" s) ("--help"%string :: l)
  | letters_list s l : letters s l -> letters (String "l" s) ("-l"%string :: l).

(** [spelled argv ws os]: the command line has the words [ws] and the options [os]. *)
Inductive spelled : list string -> list string -> list (string * option string) -> Prop :=
  | spelled_end : spelled [] [] []
  | spelled_word w argv ws os : plain w -> spelled argv ws os -> spelled (w :: argv) (w :: ws) os
  | spelled_flag w name argv ws os :
      abbreviates w name -> ~ takes name -> spelled argv ws os -> spelled (w :: argv) ws ((name, None) :: os)
  | spelled_joined w name v argv ws os :
      abbreviates w name -> takes name -> spelled argv ws os ->
      spelled ((w ++ "=" ++ v)%string :: argv) ws ((name, Some v) :: os)
  | spelled_apart w name v argv ws os :
      abbreviates w name -> takes name -> v <> "--"%string -> spelled argv ws os ->
      spelled (w :: v :: argv) ws ((name, Some v) :: os)
  | spelled_letters s l argv ws os :
      letters s l -> s <> ""%string -> spelled argv ws os ->
      spelled (String "-" s :: argv) ws (map (fun n => (n, None)) l ++ os)
  | spelled_rest argv : spelled ("--"%string :: argv) ("--"%string :: argv) [].

(** The argument of an option. *)
Definition argument_of (name : string) (os : list (string * option string)) (o : option string) : Prop :=
  match o with
  | Some v => (name, Some v) ∈ os
  | None => name ∉ map fst os
  end.
(** [asks default ws os a]: what is to be done. *)
Inductive asks (default_schema : string) : list string -> list (string * option string) -> action -> Prop :=
  | asks_run d config os show save follow :
      NoDup (map fst os) -> (forall n, n ∈ map fst os -> n = "--noshow" \/ takes n)%string ->
      (show = true <-> "--noshow"%string ∉ map fst os) ->
      argument_of "--save" os save -> argument_of "--follow" os follow ->
      asks default_schema ("run" :: d :: (match config with Some c => [c] | None => [] end))%string os (SystemModel (Some d) config show save follow)
  | asks_cleanup : asks default_schema ["cleanup"%string] [] Cleanup
  | asks_validate d : asks default_schema ["validate"; d]%string [] (ValidateDirectory (Some d))
  | asks_xsd d : asks default_schema ["xsd"; d]%string [] (ValidateXsd (Some d) default_schema)
  | asks_schema d s :
      asks default_schema ["xsd"; d; s]%string [] (ValidateXsd (Some d) (if decide (s = "")%string then default_schema else s)).
