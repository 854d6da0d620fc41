(** Mirror of run_cmdline in /repo/qopen/core.py 1981-2131: the options of the command
    line.  The rules of argparse (Python 3.11) are those for parsers without positional
    arguments: exact options, values behind "=", unique abbreviations of long options,
    joined short options. *)
From Coq Require Import String Ascii List Bool ZArith Arith.
From Verif Require Import Base PyStr RunModel.
Import ListNotations.
Open Scope string_scope.
Open Scope list_scope.

(** what is done with an option: store the text, the value of json.loads or int,
    store True or False, count, print the help *)
Inductive kind := KText | KJson | KInt | KTrue | KFalse | KCount | KHelp.

(** an argument of a parser: its names, the key, the default ([None]: SUPPRESS) and the
    mutually exclusive group *)
Record action := {
  a_flags : list string;
  a_dest : string;
  a_kind : kind;
  a_default : option json;
  a_group : option string
}.

(** [s.replace('-', '_')], core.py:1983 and the keys chosen by argparse *)
Definition underscores : string -> string := string_map (fun c => if Ascii.eqb c "-" then "_"%char else c).

(** [p.add_argument('--' + f, default=SUPPRESS, type=...)], core.py:2092-2096 and others *)
Definition option_arg (k : kind) (f : string) : action :=
  {| a_flags := [("--" ++ f)%string]; a_dest := underscores f; a_kind := k; a_default := None; a_group := None |}.

(** _add_bool_argument, core.py:1981-1987 *)
Definition bool_arg (feature : string) : list action :=
  let dest := underscores feature in
  [{| a_flags := [("--" ++ feature)%string]; a_dest := dest; a_kind := KTrue; a_default := None; a_group := Some feature |};
   {| a_flags := [("--no-" ++ feature)%string]; a_dest := dest; a_kind := KFalse; a_default := None; a_group := Some feature |}].

(** the help added by argparse *)
Definition help_arg : action :=
  {| a_flags := ["-h"; "--help"]; a_dest := "help"; a_kind := KHelp; a_default := None; a_group := None |}.

(** core.py:2050-2052, 2055-2056 *)
Definition conf_arg : action :=
  {| a_flags := ["-c"; "--conf"]; a_dest := "conf"; a_kind := KText; a_default := Some (JStr "conf.json"); a_group := None |}.

(** core.py:2048-2052: create *)
Definition create_args : list action :=
  [{| a_flags := ["--tutorial"]; a_dest := "tutorial"; a_kind := KTrue; a_default := None; a_group := None |}; conf_arg].

(** core.py:2053-2065: the other commands *)
Definition common_args : list action :=
  [conf_arg;
   {| a_flags := ["-v"; "--verbose"]; a_dest := "verbose"; a_kind := KCount; a_default := None; a_group := None |};
   {| a_flags := ["--pdb"]; a_dest := "pdb"; a_kind := KTrue; a_default := Some (JBool false); a_group := None |};
   {| a_flags := ["-e"; "--eventid"]; a_dest := "eventid"; a_kind := KText; a_default := None; a_group := None |};
   option_arg KText "prefix"].

(** core.py:2066-2077 *)
Definition align_args : list action :=
  bool_arg "align-sites" ++ [option_arg KText "align-sites-station"; option_arg KJson "align-sites-value"].

(** core.py:2087-2089 *)
Definition features_str : list string :=
  ["events"; "inventory"; "data"; "output"; "input"; "input-sites"; "seismic-moment-method"].
(** core.py:2090-2091 *)
Definition features_json : list string := ["filter-events"; "filter-inventory"; "seismic-moment-options"].
(** core.py:2092-2093 *)
Definition features_bool : list string := ["resolve-seedid"; "invert-events-simultaneously"; "print-mag"].
(** core.py:2094-2096 *)
Definition features_plot : list string :=
  ["energies"; "optimization"; "fits"; "eventresult"; "eventsites"; "results"; "sites"; "sds"; "mags"].

(** core.py:2081-2105 *)
Definition conf_args : list action :=
  map (option_arg KText) features_str ++ map (option_arg KJson) features_json ++ [option_arg KInt "njobs"] ++
  flat_map bool_arg features_bool ++ [option_arg KJson "overwrite-conf"].

(** core.py:2107-2124 *)
Definition plot_args : list action :=
  bool_arg "plots" ++ bool_arg "plot-remove-response" ++
  flat_map (fun f => bool_arg ("plot-" ++ f)%string ++ [option_arg KJson ("plot-" ++ f ++ "-options")%string]) features_plot.

(** core.py:2006-2124: the arguments of a command.  Simplification: the command rt, which
    has positional arguments, is left out (see CmdModel.v). *)
Definition parser (cmd : string) : option (list action) :=
  let some (c : string) (l : list string) (a : list action) := if inb String.eqb c l then a else [] in
  if String.eqb cmd "create" then Some (help_arg :: create_args)
  else if inb String.eqb cmd ["go"; "fixed"; "source"; "recalc_source"; "plot"] then
    Some (help_arg :: common_args ++
          some cmd ["go"; "fixed"; "recalc_source"] align_args ++
          some cmd ["go"] [option_arg KText "dump-optpkl"] ++
          some cmd ["go"; "fixed"; "source"] [option_arg KText "dump-fitpkl"] ++
          some cmd ["go"; "fixed"; "source"; "recalc_source"] conf_args ++
          some cmd ["plot"] [option_arg KText "input"] ++
          plot_args)
  else None.

(** ** argparse *)

(** [s.partition('=')] if there is a "=" *)
Fixpoint partition_eq (s : string) : option (string * string) :=
  match s with
  | EmptyString => None
  | String c r =>
      if Ascii.eqb c "=" then Some ("", r)
      else match partition_eq r with Some (a, b) => Some (String c a, b) | None => None end
  end.

(** decimal digits only *)
Fixpoint all_digits (s : string) : bool :=
  match s with
  | EmptyString => true
  | String c r => let n := nat_of_ascii c in (Nat.leb 48 n && Nat.leb n 57 && all_digits r)%bool
  end.

(** the pattern '^-\d+$|^-\d*\.\d+$' of argparse *)
Definition negative_number (s : string) : bool :=
  match s with
  | String c r =>
      (Ascii.eqb c "-" &&
       match split_on "." r with
       | [a] => negb (String.eqb a "") && all_digits a
       | [a; b] => all_digits a && (negb (String.eqb b "") && all_digits b)
       | _ => false
       end)%bool
  | EmptyString => false
  end.

(** names with their arguments, as in _option_string_actions *)
Definition named (acts : list action) : list (string * action) :=
  flat_map (fun a => map (fun f => (f, a)) (a_flags a)) acts.

(** the argument with this name *)
Definition find_flag (acts : list action) (f : string) : option action := dget String.eqb (named acts) f.

(** a word of the command line: a value, "--", or an option with its name and the
    value contained in the word; [e_sep] says whether it stands behind "=" *)
Record explicit := { e_sep : bool; e_text : string }.
Inductive word := WValue | WDashes | WUnknown | WOption (a : action) (flag : string) (e : option explicit).

(** ArgumentParser._parse_optional and _get_option_tuples *)
Definition parse_optional (acts : list action) (s : string) : res word :=
  match s with
  | EmptyString => Ok WValue
  | String c r =>
      if negb (Ascii.eqb c "-") then Ok WValue
      else match find_flag acts s with
           | Some a => Ok (WOption a s None)
           | None =>
               if String.eqb r "" then Ok WValue
               else
                 let other :=
                   let tuples :=
                     match r with
                     | String c2 tail =>
                         if Ascii.eqb c2 "-" then
                           let '(p, e) := match partition_eq s with
                                          | Some (p, e) => (p, Some {| e_sep := true; e_text := e |})
                                          | None => (s, None)
                                          end in
                           map (fun fa => (fst fa, snd fa, e)) (filter (fun fa => String.prefix p (fst fa)) (named acts))
                         else
                           flat_map (fun fa => if String.eqb (fst fa) (String c (String c2 "")) then
                                                 [(fst fa, snd fa, Some {| e_sep := false; e_text := tail |})]
                                               else if String.prefix s (fst fa) then [(fst fa, snd fa, None)] else [])
                                    (named acts)
                     | EmptyString => []
                     end in
                   match tuples with
                   | [(f, a, e)] => Ok (WOption a f e)
                   | [] => if (negative_number s || has_char " " s)%bool then Ok WValue else Ok WUnknown
                   | _ => Err SystemExit
                   end in
                 match partition_eq s with
                 | Some (p, e) => match find_flag acts p with
                                  | Some a => Ok (WOption a p (Some {| e_sep := true; e_text := e |}))
                                  | None => other
                                  end
                 | None => other
                 end
           end
  end.

(** ArgumentParser._parse_known_args, the classification of the words; all words behind
    "--" are values *)
Fixpoint classify (acts : list action) (ss : list string) : res (list (string * word)) :=
  match ss with
  | [] => Ok []
  | s :: ss =>
      if String.eqb s "--" then Ok ((s, WDashes) :: map (fun s => (s, WValue)) ss)
      else
        do w <- parse_optional acts s;
        do ws <- classify acts ss;
        Ok ((s, w) :: ws)
  end.

(** the options take a value *)
Definition valued (k : kind) : bool := match k with KText | KJson | KInt => true | _ => false end.

(** consume_optional for a word which contains a value: the arguments with their values,
    [None]: the value is the next word; whether something remains unrecognized *)
Fixpoint consume_explicit (acts : list action) (a : action) (short sep : bool) (e : string) :
    res (list (action * option string) * bool) :=
  if valued (a_kind a) then Ok ([(a, Some e)], false)
  else
    match e with
    | EmptyString => Err SystemExit
    | String c r =>
        if negb short then Err SystemExit
        else if (sep || Ascii.eqb c "-")%bool then Err SystemExit
        else match find_flag acts (String "-" (String c "")) with
             | None => Ok ([(a, None)], true)
             | Some a2 =>
                 do rest <- match r with
                            | EmptyString => Ok ([(a2, None)], false)
                            | String c2 r2 =>
                                if Ascii.eqb c2 "=" then
                                  (if valued (a_kind a2) then Ok ([(a2, Some r2)], false) else Err SystemExit)
                                else consume_explicit acts a2 true false r
                            end;
                 Ok ((a, None) :: fst rest, snd rest)
             end
    end.

Section Cli.
  (** json.loads, int: [None] for a ValueError *)
  Variable loads : string -> option json.
  Variable int_of : string -> option Z.

  (** the parsed values, the used arguments and whether words were not recognized *)
  Record parsed := { s_args : dict; s_seen : list action; s_extra : bool }.

  (** an unrecognized word *)
  Definition extra (st : parsed) : parsed :=
    {| s_args := s_args st; s_seen := s_seen st; s_extra := true |}.

  (** the end of the program: the help, an error of the command, words which were not
      recognized *)
  Inductive stop := Help | Usage | Unrecognized.

  (** take_action with _get_values and the actions of argparse; [sys.exit] is the left
      side *)
  Definition take_action (st : parsed) (a : action) (v : option string) : stop + parsed :=
    let set x := {| s_args := dset String.eqb (s_args st) (a_dest a) x; s_seen := a :: s_seen st; s_extra := s_extra st |} in
    let conflict := match a_group a with
                    | None => false
                    | Some g => existsb (fun b => match a_group b with
                                                  | Some g2 => (String.eqb g g2 && negb (match a_kind a, a_kind b with
                                                                                         | KTrue, KTrue | KFalse, KFalse => true
                                                                                         | _, _ => false end))%bool
                                                  | None => false end) (s_seen st)
                    end in
    if conflict then inl Usage
    else
      match a_kind a, v with
      | KText, Some s => inr (set (JStr s))
      | KJson, Some s => match loads s with Some j => inr (set j) | None => inl Usage end
      | KInt, Some s => match int_of s with Some z => inr (set (JNum z)) | None => inl Usage end
      | KTrue, _ => inr (set (JBool true))
      | KFalse, _ => inr (set (JBool false))
      | KCount, _ => inr (set (JNum (match dget String.eqb (s_args st) (a_dest a) with Some (JNum z) => z | _ => 0 end + 1)%Z))
      | KHelp, _ => inl Help
      | _, None => inl Usage
      end.

  (** several actions; a value missing in the word is the next word *)
  Fixpoint take_actions (st : parsed) (l : list (action * option string)) : stop + parsed :=
    match l with
    | [] => inr st
    | (a, v) :: l => match take_action st a v with inl x => inl x | inr st => take_actions st l end
    end.

  (** the last argument takes its value from the next word *)
  Definition pending (l : list (action * option string)) : option (list (action * option string) * action) :=
    match rev l with
    | (a, None) :: r => if valued (a_kind a) then Some (rev r, a) else None
    | _ => None
    end.

  (** the loop over the words: no positional arguments; words that are not used are
      unrecognized *)
  Fixpoint consume (acts : list action) (ws : list (string * word)) (st : parsed) : stop + parsed :=
    match ws with
    | [] => inr st
    | (s, WOption a f e) :: ws =>
        match (match e with
               | None => Ok ([(a, None)], false)
               | Some e => consume_explicit acts a (negb (String.prefix "--" f)) (e_sep e) (e_text e)
               end) with
        | Err _ => inl Usage
        | Ok (l, x) =>
            let st := if x : bool then extra st else st in
            match pending l, ws with
            | None, _ =>
                match take_actions st l with inl y => inl y | inr st => consume acts ws st end
            | Some (l0, a0), (v, WValue) :: ws =>
                match take_actions st (l0 ++ [(a0, Some v)]) with inl y => inl y | inr st => consume acts ws st end
            | Some _, _ => inl Usage
            end
        end
    | _ :: ws => consume acts ws (extra st)
    end.

  (** the values of arguments with default *)
  Definition defaults (acts : list action) : dict :=
    flat_map (fun a => match a_default a with Some v => [(a_dest a, v)] | None => [] end) acts.

  (** parse_args for a command: the values, or the end of the program *)
  Definition parse (cmd : string) (ss : list string) : stop + dict :=
    match parser cmd with
    | None => inl Usage
    | Some acts =>
        match classify acts ss with
        | Err _ => inl Usage
        | Ok ws =>
            match consume acts ws {| s_args := ("cmd", JStr cmd) :: defaults acts; s_seen := []; s_extra := false |} with
            | inl x => inl x
            | inr st => if s_extra st then inl Unrecognized else inr (s_args st)
            end
        end
    end.

  (** ** The call of run *)

  Context {E : Type} (w : world E).

  (** the result of a command line: printed help or version, an error with the usage of
      a command, the command rt, or a call of run *)
  Inductive outcome :=
  | Information
  | Error (usage : option string)
  | Rt (words : list string)
  | Ran (r : res (json * list effect)).

  (** a value that is a text or None *)
  Definition text_or_none (v : json) : res (option string) :=
    match v with JNull => Ok None | JStr s => Ok (Some s) | _ => Err TypeError end.

  (** [run( **args)], core.py:1716-1723, 2129.  Simplification: conf and eventid that are
      neither a text nor None are TypeErrors. *)
  Definition call_run (args : dict) : res (json * list effect) :=
    let '(cmd, args) := popd args "cmd" (JStr "go") in
    let '(conf, args) := popd args "conf" JNull in
    let '(_, args) := popd args "pdb" (JBool false) in
    let '(tutorial, args) := popd args "tutorial" (JBool false) in
    let '(eventid, args) := popd args "eventid" JNull in
    let '(get_waveforms, args) := popd args "get_waveforms" JNull in
    let '(print_mag, args) := popd args "print_mag" (JBool false) in
    let '(plots, args) := popd args "plots" JNull in
    match cmd with
    | JStr cmd =>
        do conf <- text_or_none conf;
        do eventid <- text_or_none eventid;
        run w cmd conf (truthy tutorial) eventid get_waveforms (truthy print_mag) plots args
    | _ => Err ValueError
    end.

  (** core.py:2126-2131; the last parser is that of the command plot *)
  Definition start_run (args : dict) : outcome :=
    match cmdline_args args with
    | Err x => Ran (Err x)
    | Ok args => match call_run args with
                 | Err ParseError => Error (Some "plot")
                 | r => Ran r
                 end
    end.

  (** run_cmdline, core.py:1990-2131.  Simplification: words before the command are only
      the options --help and --version or errors. *)
  Definition run_cmdline (ss : list string) : outcome :=
    match ss with
    | [] => start_run [("cmd", JNull)]
    | cmd :: ss =>
        if String.prefix "-" cmd then
          (if (String.eqb cmd "-h" || (Nat.leb 3 (String.length cmd) && (String.prefix cmd "--help" || String.prefix cmd "--version")))%bool
           then Information else Error None)
        else if String.eqb cmd "rt" then Rt ss
        else match parser cmd with
             | None => Error None
             | Some _ => match parse cmd ss with
                         | inl Help => Information
                         | inl Usage => Error (Some cmd)
                         | inl Unrecognized => Error None
                         | inr args => start_run args
                         end
             end
    end.
End Cli.
