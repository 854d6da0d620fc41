(** Theorems about the command line, CliModel.v. *)
From Coq Require Import String Ascii List Bool ZArith.
From Verif Require Import Base RunModel RunSpec RunEx CliModel CliSpec CliProof4 CliProof5 CliProof6 CliProof7 CliEx.
Import ListNotations.
Open Scope string_scope.
Open Scope list_scope.

(** * C98 *)

(** Words that are accepted are options of the command as documented: written out or
    abbreviated, with the value in the same or the next word, single letters put
    together; the values are those of the last use. *)
Theorem C98_sound :
  forall cmd table loads int_of ss d,
    documented cmd table -> parse loads int_of cmd ss = inr d ->
    exists us, reading table ss us /\ usable table loads int_of us /\ values table cmd loads int_of us d.
Proof. exact parse_sound. Qed.
Print Assumptions C98_sound.

Example C98_sound_ex : documented "go" go_table /\ exists d, parse ex_loads ex_int "go" ex_words = inr d /\
  dget String.eqb d "verbose" = Some (JNum 2) /\ dget String.eqb d "eventid" = Some (JStr "b") /\ dget String.eqb d "plots" = Some (JBool false).
Proof. exact (conj go_documented ex_parse). Qed.

(** All such words are accepted. *)
Theorem C98_complete :
  forall cmd table loads int_of ss us,
    documented cmd table -> reading table ss us -> usable table loads int_of us ->
    exists d, parse loads int_of cmd ss = inr d /\ values table cmd loads int_of us d /\ distinct d.
Proof. exact parse_complete. Qed.
Print Assumptions C98_complete.

Example C98_complete_ex : documented "go" go_table /\ reading go_table ex_words ex_uses /\ usable go_table ex_loads ex_int ex_uses.
Proof. exact (conj go_documented (conj ex_reading ex_usable)). Qed.

(** run is called with the command and these values; options of --overwrite-conf go first,
    options that are not given are left to the configuration file. *)
Theorem C98_run :
  forall E (w : world E) loads int_of cmd table ss us,
    documented cmd table -> reading table ss us -> usable table loads int_of us ->
    exists d, values table cmd loads int_of us d /\
      forall o, overwriting d o -> distinct o -> (forall k, In k ("overwrite_conf" :: named_arguments) -> dget String.eqb o k = None) ->
      exists args, passed d o args /\
        forall r, r = run w cmd (text d "conf") (switched d "tutorial") (text d "eventid") JNull (switched d "print_mag") (given d "plots") args ->
          (r <> Err ParseError -> run_cmdline loads int_of w (cmd :: ss) = Ran r) /\
          (r = Err ParseError -> exists u, run_cmdline loads int_of w (cmd :: ss) = Error u).
Proof. exact @cmdline_run. Qed.
Print Assumptions C98_run.

Example C98_run_ex : reading go_table ex_words ex_uses /\ usable go_table ex_loads ex_int ex_uses /\
  exists r e, run_cmdline ex_loads ex_int (ex_world ex_conf ex_result) ("go" :: ex_words) = Ran (Ok (r, e)) /\ r <> JNull.
Proof. exact (conj ex_reading (conj ex_usable ex_called)). Qed.

(** Other words after a command never start a run. *)
Theorem C98_rejected :
  forall E (w : world E) loads int_of cmd table ss,
    documented cmd table -> (forall us, reading table ss us -> ~ usable table loads int_of us) ->
    run_cmdline loads int_of w (cmd :: ss) = Information \/ exists u, run_cmdline loads int_of w (cmd :: ss) = Error u.
Proof. exact @cmdline_rejected. Qed.
Print Assumptions C98_rejected.

Example C98_rejected_ex : documented "go" go_table /\ forall us, reading go_table ["--plots"; "--no-plots"] us -> ~ usable go_table ex_loads ex_int us.
Proof. exact ex_bad. Qed.

(** Other commands are errors. *)
Theorem C98_unknown :
  forall E (w : world E) loads int_of cmd ss,
    (forall table, ~ documented cmd table) -> cmd <> "rt" -> (forall r, cmd <> String "-" r) ->
    exists u, run_cmdline loads int_of w (cmd :: ss) = Error u.
Proof. exact @cmdline_unknown. Qed.
Print Assumptions C98_unknown.

Example C98_unknown_ex : (forall table, ~ documented "invert" table) /\ "invert" <> "rt" /\ forall r, "invert" <> String "-" r.
Proof. exact ex_unknown. Qed.

(** * C99 *)

(** An unknown event for the command go is reported with the usage of the command plot. *)
Theorem C99_usage_refuted :
  exists (w : world string) loads int_of ss d,
    parse loads int_of "go" ss = inr d /\ call_run w d = Err ParseError /\ run_cmdline loads int_of w ("go" :: ss) = Error (Some "plot").
Proof. exact usage_wrong. Qed.
Print Assumptions C99_usage_refuted.

(** The option --overwrite-conf replaces the command: go turns into create. *)
Theorem C99_command_refuted :
  exists (w : world string) loads int_of ss r,
    run_cmdline loads int_of w ("go" :: ss) = Ran (Ok r) /\
    run w "create" (Some "conf.json") false None JNull false JNull [] = Ok r /\
    run w "go" (Some "conf.json") false None JNull false JNull [] <> Ok r.
Proof. exact command_wrong. Qed.
Print Assumptions C99_command_refuted.

(** Without a command there is no usage but a ValueError. *)
Theorem C99_no_command :
  forall E (w : world E) loads int_of, run_cmdline loads int_of w [] = Ran (Err ValueError).
Proof. exact @no_command. Qed.
Print Assumptions C99_no_command.

Example C99_no_command_ex : run_cmdline ex_loads ex_int (ex_world ex_conf ex_result) [] = Ran (Err ValueError).
Proof. exact (no_command _ _ _). Qed.

(** The first option that cannot be used ends the program: the help is printed, everything
    else is an error reported with the usage of the command. *)
Theorem C99_stopped :
  forall E (w : world E) loads int_of cmd table ss us1 u us2,
    documented cmd table -> reading table ss (us1 ++ u :: us2) ->
    usable table loads int_of us1 -> ~ usable table loads int_of (us1 ++ [u]) ->
    (forall k, used table u k CliSpec.Help -> run_cmdline loads int_of w (cmd :: ss) = Information) /\
    ((forall k, ~ used table u k CliSpec.Help) -> run_cmdline loads int_of w (cmd :: ss) = Error (Some cmd)).
Proof. exact @cmdline_stopped. Qed.
Print Assumptions C99_stopped.

Example C99_stopped_ex : documented "go" go_table /\
  reading go_table ex_stop_words ([Use "-v" None; Use "--plots" None] ++ Use "--no-plots" None :: [Use "--help" None]) /\
  usable go_table ex_loads ex_int [Use "-v" None; Use "--plots" None] /\
  ~ usable go_table ex_loads ex_int ([Use "-v" None; Use "--plots" None] ++ [Use "--no-plots" None]) /\
  forall k, ~ used go_table (Use "--no-plots" None) k CliSpec.Help.
Proof. exact ex_stopped. Qed.

(** A first word that begins with a hyphen never starts a run: it is the short form of the help or
    an abbreviation of the options for help and version, everything else is an error. *)
Theorem C99_first_word :
  forall E (w : world E) loads int_of s ss, String.prefix "-" s = true ->
    (run_cmdline loads int_of w (s :: ss) = Information <->
       s = "-h" \/ exists c a b, s = ("--" ++ String c a)%string /\ ((s ++ b)%string = "--help" \/ (s ++ b)%string = "--version")) /\
    (run_cmdline loads int_of w (s :: ss) = Information \/ run_cmdline loads int_of w (s :: ss) = Error None).
Proof. exact @first_word. Qed.
Print Assumptions C99_first_word.

Example C99_first_word_ex : String.prefix "-" "--vers" = true /\ ("--vers" ++ "ion")%string = "--version".
Proof. split; reflexivity. Qed.

(** Help and version without a command. *)
Theorem C99_information :
  forall E (w : world E) loads int_of s ss, In s ["-h"; "--help"; "--version"] ->
    run_cmdline loads int_of w (s :: ss) = Information.
Proof. exact @cmdline_information. Qed.
Print Assumptions C99_information.

Example C99_information_ex : In "--version" ["-h"; "--help"; "--version"].
Proof. cbn; tauto. Qed.
