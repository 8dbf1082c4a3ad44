(** Model of ocelot/bin/ocelot_cli.py: the command line.

    docopt (version 0.6.2) is modelled as far as the usage text of lines 3-33 needs it:
    its functions [parse_argv], [parse_long], [parse_shorts], [extras] and the matching
    of usage patterns.  Simplifications: the usage text is written down as the
    patterns docopt reads from it; of the short options none has an argument; the line
    [-l | --list] is written as two lines; what is printed is left out. *)
From Coq Require Import Ascii.
From Verif Require Import Base Types Strings Configuration.

(** docopt's [Option]: [-s], [--long], whether it has an argument. *)
Record opt := Opt { o_short : option string; o_long : option string; o_takes : bool }.
(** [Option.name]: the long name if there is one. *)
Definition o_name (o : opt) : string :=
  match o_long o with Some l => l | None => default ""%string (o_short o) end.
(** Lines 26-31; [-l] comes from line 21. *)
Definition known_options : list opt :=
  [Opt None (Some "--list") false; Opt None (Some "--noshow") false; Opt None (Some "--save") true;
   Opt None (Some "--follow") true; Opt (Some "-h") (Some "--help") false; Opt None (Some "--version") false;
   Opt (Some "-l") None false]%string.

(** What is on a command line: a word, or an option with its argument ([None]: the
    value is [True]). *)
Inductive parsed := Word (s : string) | Switch (name : string) (value : option string).

(** [token.partition('=')]. *)
Fixpoint partition_eq (s : string) : string * option string :=
  match s with
  | EmptyString => (EmptyString, None)
  | String c s => if Ascii.eqb c "="%char then (EmptyString, Some s)
                  else let '(a, b) := partition_eq s in (String c a, b)
  end.
Definition has_long (p : string -> bool) (o : opt) : bool :=
  match o_long o with Some l => p l | None => false end.

(** docopt's [parse_shorts]: the letters after the hyphen.  A letter that is not
    known becomes an option of its own. *)
Fixpoint parse_shorts (options : list opt) (items : string) : list parsed * list opt :=
  match items with
  | EmptyString => ([], options)
  | String c items =>
      let short := String "-"%char (String c EmptyString) in
      match List.find (fun o => bool_decide (o_short o = Some short)) options with
      | Some o => let '(l, options) := parse_shorts options items in (Switch (o_name o) None :: l, options)
      | None => let '(l, options) := parse_shorts (options ++ [Opt (Some short) None false]) items in
                (Switch short None :: l, options)
      end
  end.

(** docopt's [parse_argv] with [parse_long]; [None] is [DocoptExit].  Long names may be
    cut short; unknown ones become options. *)
Fixpoint parse_argv (options : list opt) (tokens : list string) : option (list parsed) :=
  match tokens with
  | [] => Some []
  | t :: rest =>
      if (t =? "--")%string then Some (map Word tokens)
      else if str_startswith "--" t then
        let '(long, value) := partition_eq t in
        let exact := filterb (has_long (fun l => (l =? long)%string)) options in
        let similar := match exact with
                       | [] => filterb (has_long (str_startswith long)) options
                       | _ => exact
                       end in
        match similar with
        | [] => cons (Switch long value) <$>
                  parse_argv (options ++ [Opt None (Some long) (bool_decide (is_Some value))]) rest
        | [o] =>
            if o_takes o then
              match value, rest with
              | Some v, _ => cons (Switch (o_name o) (Some v)) <$> parse_argv options rest
              | None, [] => None
              | None, v :: rest =>
                  if (v =? "--")%string then None
                  else cons (Switch (o_name o) (Some v)) <$> parse_argv options rest
              end
            else match value with
                 | Some _ => None
                 | None => cons (Switch (o_name o) None) <$> parse_argv options rest
                 end
        | _ => None
        end
      else if str_startswith "-" t && negb (t =? "-")%string then
        let '(l, options) := parse_shorts options (match t with String _ s => s | EmptyString => t end) in
        app l <$> parse_argv options rest
      else cons (Word t) <$> parse_argv options rest
  end.

(** docopt's patterns: a word that must be there, a word that may be anything, an
    option that may be there, an option that must be there. *)
Inductive leaf := Command (name : string) | Argument (name : string) | Optionally (name : string) | Needed (name : string).
(** Lines 15-23. *)
Definition run_options : list leaf := [Optionally "--noshow"; Optionally "--save"; Optionally "--follow"]%string.
Definition usage : list (list leaf) :=
  ([Command "run"; Argument "<dirpath>"] ++ run_options) ::
  ([Command "run"; Argument "<dirpath>"; Argument "<config>"] ++ run_options) ::
  [[Command "cleanup"];
   [Command "validate"; Argument "<dirpath>"];
   [Command "xsd"; Argument "<dirpath>"; Argument "<schema>"];
   [Command "xsd"; Argument "<dirpath>"];
   [Needed "-l"]; [Needed "--list"];
   [Needed "--help"]; [Needed "--help"];
   [Needed "--version"]]%string.

(** The values found so far, by name; [None] is [True]. *)
Notation values := (list (string * option string)).
(** The first word, and what is left without it. *)
Fixpoint take_word (items : list parsed) : option (string * list parsed) :=
  match items with
  | [] => None
  | Word s :: items => Some (s, items)
  | x :: items => match take_word items with Some (s, l) => Some (s, x :: l) | None => None end
  end.
(** The first option of that name, and what is left without it. *)
Fixpoint take_switch (name : string) (items : list parsed) : option (option string * list parsed) :=
  match items with
  | [] => None
  | x :: items =>
      let next := match take_switch name items with Some (v, l) => Some (v, x :: l) | None => None end in
      match x with
      | Switch n v => if (n =? name)%string then Some (v, items) else next
      | Word _ => next
      end
  end.
(** docopt's [match] of one part. *)
Definition match_leaf (p : leaf) (st : list parsed * values) : option (list parsed * values) :=
  let '(items, found) := st in
  match p with
  | Command n => match take_word items with
                 | Some (s, l) => if (s =? n)%string then Some (l, found ++ [(n, None)]) else None
                 | None => None
                 end
  | Argument n => match take_word items with Some (s, l) => Some (l, found ++ [(n, Some s)]) | None => None end
  | Optionally n => match take_switch n items with Some (v, l) => Some (l, found ++ [(n, v)]) | None => Some st end
  | Needed n => match take_switch n items with Some (v, l) => Some (l, found ++ [(n, v)]) | None => None end
  end.
(** [Required.match]. *)
Fixpoint match_line (ps : list leaf) (st : list parsed * values) : option (list parsed * values) :=
  match ps with
  | [] => Some st
  | p :: ps => match match_leaf p st with Some st => match_line ps st | None => None end
  end.
(** [min(outcomes, key=lambda outcome: len(outcome[1]))]. *)
Fixpoint fewest_left (l : list (list parsed * values)) : option (list parsed * values) :=
  match l with
  | [] => None
  | x :: l => match fewest_left l with
              | Some y => if length (fst x) <=? length (fst y) then Some x else Some y
              | None => Some x
              end
  end.

Inductive reading := Wrong | Help | Version | Read (vs : values).
Definition switched (name : string) (l : list parsed) : bool :=
  existsb (fun x => match x with Switch n _ => (n =? name)%string | Word _ => false end) l.
(** [docopt(doc, version=...)]: [extras], then the matching; something must match with
    nothing left. *)
Definition docopt (argv : list string) : reading :=
  match parse_argv known_options argv with
  | None => Wrong
  | Some l =>
      if switched "--help" l then Help
      else if switched "--version" l then Version
      else match fewest_left (omap (fun ps => match_line ps (l, [])) usage) with
           | Some ([], vs) => Read vs
           | _ => Wrong
           end
  end.

(** The functions [main] calls, with their arguments. *)
Inductive action :=
  | SystemModel (dirpath config : option string) (show : bool) (save follow : option string)
  | ValidateDirectory (dirpath : option string)
  | ValidateXsd (dirpath : option string) (schema : string)
  | Cleanup.
(** How a call ends. *)
Inductive ending := Returned | Raised (e : exn) | Interrupted | Exited (code : nat).

Definition found (name : string) (vs : values) : bool := existsb (fun x => (fst x =? name)%string) vs.
Definition value_of (name : string) (vs : values) : option string :=
  match List.find (fun x => (fst x =? name)%string) vs with Some x => snd x | None => None end.

(** Lines 49-67; [default_schema] is the path of line 62.  [None] is the error of line
    67. *)
Definition dispatch (default_schema : string) (vs : values) : option action :=
  if found "run" vs then
    Some (SystemModel (value_of "<dirpath>" vs) (value_of "<config>" vs) (negb (found "--noshow" vs))
            (value_of "--save" vs) (value_of "--follow" vs))
  else if found "validate" vs then Some (ValidateDirectory (value_of "<dirpath>" vs))
  else if found "xsd" vs then
    Some (ValidateXsd (value_of "<dirpath>" vs)
            (match value_of "<schema>" vs with
             | Some s => if (s =? "")%string then default_schema else s
             | None => default_schema
             end))
  else if found "cleanup" vs then Some Cleanup
  else None.

(** Lines 46-70, [main]: what is called, and how the program ends.  Docopt leaves with
    an exit status: 1 with the usage, 0 with the help or the version. *)
Definition main (default_schema : string) (perform : action -> ending) (argv : list string)
    : list action * ending :=
  match docopt argv with
  | Wrong => ([], Exited 1)
  | Help | Version => ([], Exited 0)
  | Read vs =>
      match dispatch default_schema vs with
      | None => ([], Raised ValueError)
      | Some a => ([a], match perform a with Interrupted => Exited 1 | r => r end)
      end
  end.

(** model.py lines 104-108: the text given as [<config>]. *)
Definition chosen (config : option string) : choice :=
  match config with None => NoChoice | Some n => Named n end.
