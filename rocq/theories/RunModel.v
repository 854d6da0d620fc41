(** Model of run, run_cmdline and _plot, /repo/qopen/core.py:1541-1604 and
    1704-2131.  Messages, the debugger, the measurement of time and the creation
    of directories are left out. *)
From Coq Require Import String Ascii List Bool ZArith Arith.
From Verif Require Import Base PyStr.
Import ListNotations.
Open Scope string_scope.
Open Scope list_scope.

(** Values of configuration, arguments and results: JSON values, and other
    objects (catalogues, inventories, functions), which are not looked into.
    Simplification: numbers are integers, they are only passed on here. *)
Inductive json :=
| JNull
| JBool (b : bool)
| JNum (z : Z)
| JStr (s : string)
| JList (l : list json)
| JDict (d : list (string * json))
| JObj (n : nat).

(** a dictionary of arguments *)
Notation dict := (list (string * json)).

(** [if x] *)
Definition truthy (v : json) : bool :=
  match v with
  | JNull => false
  | JBool b => b
  | JNum z => negb (Z.eqb z 0)
  | JStr s => negb (String.eqb s "")
  | JList l => negb (Nat.eqb (List.length l) 0)
  | JDict d => negb (Nat.eqb (List.length d) 0)
  | JObj _ => true
  end.

(** [args.get(k, default)] *)
Definition getd (args : dict) (k : string) (default : json) : json :=
  match dget String.eqb args k with Some v => v | None => default end.

(** [args.pop(k, default)]: the value and the remaining arguments *)
Definition popd (args : dict) (k : string) (default : json) : json * dict :=
  (getd args k default, dpop String.eqb args k).

(** [d[k]] of a JSON value *)
Definition jget (j : json) (k : string) : res json :=
  match j with
  | JDict d => match dget String.eqb d k with Some v => Ok v | None => Err KeyError end
  | _ => Err TypeError
  end.

(** [k in d].  Simplification: a TypeError also for strings and lists. *)
Definition jin (j : json) (k : string) : res bool :=
  match j with
  | JDict d => Ok (dmem String.eqb d k)
  | _ => Err TypeError
  end.

(** [d[k] = v] *)
Definition jset (j : json) (k : string) (v : json) : res json :=
  match j with
  | JDict d => Ok (JDict (dset String.eqb d k v))
  | _ => Err TypeError
  end.

(** ** Preparation of the arguments, core.py:1792-1826 *)

(** core.py:1794: [args.get(key, {}).setdefault('mean', m)].  Without the key the
    default dictionary is changed and dropped. *)
Definition default_mean (args : dict) (key : string) (m : json) : res dict :=
  match dget String.eqb args key with
  | None => Ok args
  | Some (JDict d) => Ok (dset String.eqb args key (JDict (dsetdefault String.eqb d "mean" m)))
  | Some _ => Err AttributeError
  end.

(** core.py:1792-1795 *)
Definition pass_mean (args : dict) : res dict :=
  match dget String.eqb args "mean" with
  | None => Ok args
  | Some m => do args <- default_mean args "plot_results_options" m;
              default_mean args "plot_sites_options" m
  end.

(** core.py:1811-1813 *)
Definition plottargets : list string :=
  ["energies"; "optimization"; "fits"; "eventresult"; "eventsites"; "results"; "sites"; "sds"; "mags";
   "remove_response"].

(** core.py:1818-1820 *)
Definition options_key (t : string) : string :=
  if String.eqb t "remove_response" then (t ++ "_options")%string else ("plot_" ++ t ++ "_options")%string.

(** [prefix + x] *)
Definition add_prefix (prefix : string) (x : json) : res json :=
  match x with JStr s => Ok (JStr (prefix ++ s)) | _ => Err TypeError end.

(** core.py:1821-1822.  Simplification: options that are not a dictionary are a
    TypeError. *)
Definition prefix_plot (prefix : string) (t : string) (args : dict) : res dict :=
  match dget String.eqb args (options_key t) with
  | None => Ok args
  | Some (JDict d) =>
      match dget String.eqb d "fname" with
      | None => Ok args
      | Some f => do f <- add_prefix prefix f;
                  Ok (dset String.eqb args (options_key t) (JDict (dset String.eqb d "fname" f)))
      end
  | Some _ => Err TypeError
  end.

(** core.py:1817-1822 *)
Fixpoint prefix_plots (prefix : string) (targets : list string) (args : dict) : res dict :=
  match targets with
  | [] => Ok args
  | t :: targets => do args <- prefix_plot prefix t args; prefix_plots prefix targets args
  end.

(** core.py:1825-1826 *)
Fixpoint set_plots (b : bool) (targets : list string) (args : dict) : dict :=
  match targets with
  | [] => args
  | t :: targets => set_plots b targets (dset String.eqb args ("plot_" ++ t)%string (JBool b))
  end.

(** arguments of configure_logging, the output, and the remaining arguments *)
Record prepared := {
  p_loggingc : json; p_verbose : json; p_loglevel : json; p_logfile : json;
  p_output : json; p_indent : json; p_args : dict }.

(** core.py:1803-1804: the prefix, if there is one; os.path.dirname fails for
    other objects *)
Definition prefix_of (v : json) : res (option string) :=
  if truthy v then match v with JStr s => Ok (Some s) | _ => Err TypeError end else Ok None.

(** core.py:1807-1808 *)
Definition prefix_logfile (prefix : option string) (logfile : json) : json :=
  match prefix, logfile with
  | Some p, JStr s => JStr (p ++ s)
  | _, _ => logfile
  end.

(** core.py:1814-1816 *)
Definition prefix_output (prefix : option string) (output : json) : res json :=
  match prefix, output with
  | None, _ => Ok output
  | Some _, JNull => Ok JNull
  | Some p, _ => add_prefix p output
  end.

(** core.py:1814, 1817-1822 *)
Definition prefix_options (prefix : option string) (args : dict) : res dict :=
  match prefix with Some p => prefix_plots p plottargets args | None => Ok args end.

(** core.py:1823-1826 *)
Definition switch_plots (plots : json) (args : dict) : res dict :=
  match plots with
  | JNull => Ok args
  | JBool b => Ok (set_plots b plottargets args)
  | _ => Err AssertionError
  end.

(** core.py:1796-1802, 1809-1810: the arguments taken out *)
Definition taken : list string := ["logging"; "verbose"; "loglevel"; "logfile"; "prefix"; "output"; "indent"].
(** see above *)
Definition remaining (args : dict) : dict := fold_left (fun a k => dpop String.eqb a k) taken args.

(** core.py:1792-1826 for the merged arguments *)
Definition prepare (cmd : string) (plots : json) (args : dict) : res prepared :=
  do args <- pass_mean args;
  let args := dset String.eqb args "cmd" (JStr cmd) in
  do prefix <- prefix_of (getd args "prefix" JNull);
  do output <- prefix_output prefix (getd args "output" JNull);
  do rest <- prefix_options prefix (remaining args);
  do rest <- switch_plots plots rest;
  Ok {| p_loggingc := getd args "logging" JNull; p_verbose := getd args "verbose" (JNum 0);
        p_loglevel := getd args "loglevel" (JNum 3);
        p_logfile := prefix_logfile prefix (getd args "logfile" JNull);
        p_output := output; p_indent := getd args "indent" JNull; p_args := rest |}.

(** core.py:1794-1795, 1821-1822: the dictionaries of options of the caller are
    changed in place, so after the call the caller sees the changed values.  The
    arguments of the caller after the call; [p]: the prepared arguments. *)
Definition caller_after (args : dict) (p : prepared) : dict :=
  map (fun kv =>
         if inb String.eqb (fst kv) (map options_key plottargets)
         then (fst kv, getd (p_args p) (fst kv) (snd kv)) else kv) args.

(** ** The configuration file, core.py:1759-1760 and 1778-1791 *)

(** a configuration file: not readable or not parsable, a dictionary, or another
    JSON value *)
Inductive conf_file := CfgError | CfgDict (d : dict) | CfgOther.

(** core.py:1759-1760 *)
Definition conf_name (conf : option string) : option string :=
  match conf with
  | Some c => if inb String.eqb c ["None"; "none"; "null"; ""] then None else Some c
  | None => None
  end.

(** core.py:1779-1791: the merged arguments, None if the file cannot be read *)
Definition merge_conf (read : string -> conf_file) (conf : option string) (args : dict) : res (option dict) :=
  match conf_name conf with
  | None => Ok (Some args)
  | Some c => match read c with
              | CfgError => Ok None
              | CfgDict d => Ok (Some (dupdate String.eqb d args))
              | CfgOther => Err AttributeError
              end
  end.

(** ** Input files, core.py:1704-1713 and 1925-1938 *)

(** _load_json_results with raise_missing; [read_json]: open and load a file *)
Definition load_results (read_json : string -> res json) (args : dict) (name : string) : res (json * dict) :=
  match dget String.eqb args name with
  | None | Some JNull => Err ParseError
  | Some (JStr f) => do j <- read_json f; Ok (j, dpop String.eqb args name)
  | Some v => Ok (v, dpop String.eqb args name)
  end.

(** core.py:1933-1935: one event of the input *)
Definition event_sites (sites_events : json) (evid : string) (evres : json) : res json :=
  do b <- jin sites_events evid;
  if b : bool then
    do e <- jget sites_events evid;
    do r <- jin e "R";
    if r : bool then jset evres "R" e else Ok evres
  else Ok evres.

(** core.py:1932-1935 *)
Definition events_sites (sites_events evs : json) : res json :=
  match evs with
  | JDict d => do d <- mapM (fun kv => do e <- event_sites sites_events (fst kv) (snd kv); Ok (fst kv, e)) d;
               Ok (JDict d)
  | _ => Err AttributeError
  end.

(** core.py:1930-1935 *)
Definition put_sites (result_in result_sites : json) : res json :=
  do R <- jget result_sites "R";
  do result_in <- jset result_in "R" R;
  do b1 <- jin result_in "events";
  do b2 <- (if b1 : bool then jin result_sites "events" else Ok false);
  if b2 : bool then
    do evs <- jget result_in "events";
    do sevs <- jget result_sites "events";
    do evs <- events_sites sevs evs;
    jset result_in "events" evs
  else Ok result_in.

(** ** Selection of an event, core.py:1896-1904 *)
Section Select.
  Context {E : Type}.
  (** get_eventid *)
  Variable evid : E -> string.

  (** [events] is not bound for recalc_source; the message needs a first event *)
  Definition select_event (eventid : option string) (events : option (list E)) : res (option (list E)) :=
    match eventid with
    | None => Ok events
    | Some id =>
        if String.eqb id "" then Ok events
        else match events with
             | None => Err UnboundLocalError
             | Some evs =>
                 match filter (fun ev => String.eqb (evid ev) id) evs with
                 | [] => match evs with [] => Err IndexError | _ => Err ParseError end
                 | l => Ok (Some l)
                 end
             end
    end.
End Select.

(** ** run *)

(** what is copied, printed, plotted or written *)
Inductive effect :=
| Copied (src dest : string)
| Printed (j : json)
| Written (fname : string) (j indent : json)
| PrintedMag (evid : string) (Mw : option json)
| Plotted (name fname : string) (options : dict).

(** The surroundings: reading files and the other functions. *)
Record world (E : Type) := {
  w_conf : string -> conf_file;
  w_join : string -> string -> string;  (* os.path.join(os.path.dirname(conf), src) *)
  w_json : string -> res json;  (* open and load a file *)
  w_inventory : json -> json -> res json;  (* read and filter, core.py:1851-1864 *)
  w_events : option json -> json -> dict -> res (list E);  (* read and filter, core.py:1871-1885 *)
  w_data : json -> dict -> res json;  (* init_data *)
  w_lower : string -> string;  (* s.lower() *)
  w_format : string -> string -> string;  (* fname.format(evid=eventid) *)
  w_invert : json -> dict -> option (list E) -> res json;  (* invert_wrapper *)
  w_align : json -> dict -> res json;  (* align_site_responses, the changed result *)
  w_source : json -> dict -> res json;  (* calculate_source_properties, the changed result *)
  w_image : string -> json -> string -> dict -> res unit;  (* functions of imaging *)
  w_evid : E -> string  (* get_eventid *) }.
Arguments w_conf {E}. Arguments w_join {E}. Arguments w_json {E}. Arguments w_inventory {E}. Arguments w_events {E}.
Arguments w_data {E}. Arguments w_lower {E}. Arguments w_format {E}. Arguments w_invert {E}. Arguments w_align {E}.
Arguments w_source {E}. Arguments w_image {E}. Arguments w_evid {E}.

Section Run.
  Context {E : Type}.
  Variable w : world E.

  (** core.py:1762-1777: example files *)
  Definition create (conf : option string) (tutorial : bool) : list effect :=
    let conf := match conf with Some c => c | None => "conf.json" end in
    Copied "conf.json" conf ::
    (if tutorial then map (fun src => Copied src (w_join w conf src))
                        ["example_events.xml"; "example_inventory.xml"; "example_data.mseed"]
     else []).

  (** core.py:1558-1562 and alike: one plot.  [event]: the plot belongs to one
      event; [fixed]: keywords given by the call, which must not be in the options. *)
  Definition one_plot (name : string) (event : option string) (fixed : dict) (result : json) (args : dict)
      : res (list effect) :=
    match getd args ("plot_" ++ name ++ "_options")%string (JDict []) with
    | JDict options =>
        let '(f, options) := popd options "fname"
              (JStr (match event with None => (name ++ ".pdf")%string | Some _ => (name ++ "_{evid}.pdf")%string end)) in
        match f with
        | JStr f =>
            let f := match event with None => f | Some id => w_format w f id end in
            if existsb (fun k => dmem String.eqb options k) (dkeys fixed) then Err TypeError
            else do _ <- w_image w name result f (fixed ++ options); Ok [Plotted name f (fixed ++ options)]
        | _ => Err AttributeError
        end
    | _ => Err AttributeError
    end.

  (** [if plot_x and ok: ...] *)
  Definition plot_if (name : string) (ok : bool) (event : option string) (fixed : dict) (result : json) (args : dict)
      : res (list effect) :=
    if (truthy (getd args ("plot_" ++ name)%string (JBool false)) && ok)%bool
    then one_plot name event fixed result args else Ok [].

  (** core.py:1552-1553 *)
  Definition w_ok (result : json) : res bool :=
    match result with
    | JDict d =>
        match getd d "events" (JDict []) with
        | JDict evs => do l <- mapM (fun kv => jin (snd kv) "W") evs;
                       Ok (existsb (fun b : bool => b) l || dmem String.eqb d "W")%bool
        | _ => Err AttributeError
        end
    | _ => Err AttributeError
    end.

  (** core.py:1583-1588: quantities of the plot of an event *)
  Definition quantities (g0 ok : bool) : json :=
    JList (map JStr ((if g0 then ["g0"; "lsc"; "Qsc"; "b"; "li"; "Qi"] else []) ++ ["error"] ++
                     (if ok then ["W"; "sds"] else []))).

  (** core.py:1592, 1601 *)
  Definition title (id : string) : json := JStr ("event " ++ id)%string.

  (** _plot, core.py:1541-1604; eventid and result are given by the call and must
      not be in the arguments.  Simplification: the imaging function is called
      with the result without its changes. *)
  Definition plot (result : json) (eventid : option string) (args : dict) : res (list effect) :=
    if (dmem String.eqb args "eventid" || dmem String.eqb args "result")%bool then Err TypeError
    else
      do ok <- w_ok result;
      do g0 <- jin result "g0";
      do R <- jin result "R";
      match eventid with
      | None =>
          do e1 <- plot_if "results" g0 None [] result args;
          do e2 <- plot_if "sites" R None [] result args;
          do e3 <- plot_if "sds" ok None [] result args;
          do e4 <- plot_if "mags" ok None [] result args;
          Ok (e1 ++ e2 ++ e3 ++ e4)
      | Some id =>
          do e1 <- plot_if "eventresult" true eventid [("title", title id); ("quantities", quantities g0 ok)] result args;
          do e2 <- plot_if "eventsites" R eventid [("title", title id)] result args;
          Ok (e1 ++ e2)
      end.

  (** core.py:1830-1838: result and arguments of the plots; [conf]: there is a
      configuration file (it is a non-empty dictionary here, because of cmd) *)
  Definition plot_input (conf : bool) (eventid : option string) (args : dict) : res (json * dict) :=
    do ra <- load_results (w_json w) args "input";
    let '(result, args) := ra in
    do ra <- (if conf then do r <- jset result "config" (JDict args); Ok (r, args)
              else do c <- jget result "config";
                   match c with
                   | JDict c => let c := dupdate String.eqb c args in
                                do r <- jset result "config" (JDict c); Ok (r, c)
                   | _ => Err AttributeError
                   end);
    let '(result, args) := ra in
    do result <- match eventid with
                 | None => Ok result
                 | Some id => do evs <- jget result "events";
                              do e <- jget evs id;
                              jset result "events" (JDict [(id, e)])
                 end;
    Ok (result, args).

  (** core.py:1829-1839 *)
  Definition plot_command (conf : bool) (eventid : option string) (args : dict) : res (list effect) :=
    do ra <- plot_input conf eventid args;
    let '(result, args) := ra in
    plot result eventid args.

  (** core.py:1848-1864; a missing inventory is a KeyError *)
  Definition load_inventory (args : dict) : res (json * dict) :=
    match dget String.eqb args "inventory" with
    | None => Err KeyError
    | Some inv =>
        let '(f, args) := popd (dpop String.eqb args "inventory") "filter_inventory" JNull in
        do inv <- w_inventory w inv f; Ok (inv, args)
    end.

  (** core.py:1867-1870 and 1887-1888: the arguments taken out *)
  Definition taken_events : list string :=
    ["events"; "filter_events"; "resolve_seedid"; "read_events_kwargs"; "data"; "client_options"; "plugin";
     "cache_waveforms"].

  (** core.py:1866-1892: events, the function get_waveforms and the remaining
      arguments *)
  Definition load_events (get_waveforms : json) (inventory : option json) (args : dict)
      : res (list E * json * dict) :=
    match dget String.eqb args "events" with
    | None => Err KeyError
    | Some evs =>
        do evs <- w_events w inventory evs
                    [("filter_events", getd args "filter_events" JNull);
                     ("resolve_seedid", getd args "resolve_seedid" (JBool false));
                     ("read_events_kwargs", getd args "read_events_kwargs" (JDict []))];
        do g <- w_data w get_waveforms
                    (map (fun k => (k, getd args k JNull)) ["data"; "client_options"; "plugin"; "cache_waveforms"]);
        Ok (evs, g, fold_left (fun a k => dpop String.eqb a k) taken_events args)
    end.

  (** what is loaded, None if it is not needed *)
  Record loaded := { l_inventory : option json; l_events : option (list E * json); l_args : dict }.

  (** core.py:1844-1892 *)
  Definition load (cmd : string) (align : bool) (get_waveforms : json) (args : dict) : res loaded :=
    let load_all := negb (String.eqb cmd "recalc_source") in
    do ia <- (if (load_all || align)%bool
              then do ia <- load_inventory args; Ok (Some (fst ia), snd ia)
              else Ok (None, args));
    let '(inventory, args) := ia in
    if load_all then
      do ega <- load_events get_waveforms inventory args;
      let '(evs, g, args) := ega in
      Ok {| l_inventory := inventory; l_events := Some (evs, g); l_args := args |}
    else Ok {| l_inventory := inventory; l_events := None; l_args := args |}.

  (** core.py:1913-1919: arguments of the alignment.  Simplification: only strings
      are searched for commas, other values are passed on. *)
  Definition align_arguments (args : dict) : dict :=
    [("seismic_moment_method", getd args "seismic_moment_method" JNull);
     ("seismic_moment_options", getd args "seismic_moment_options" JNull);
     ("station",
       match getd args "align_sites_station" JNull with
       | JStr s => match split_on ","%char s with
                   | [_] => JStr s
                   | l => JList (map JStr l)
                   end
       | v => v
       end);
     ("response", getd args "align_sites_value" (JNum 1))].

  (** core.py:1908-1924: keywords of the alignment, and the remaining arguments with
      the inventory, the function get_waveforms (events are kept apart) *)
  Definition arguments (align : bool) (inventory get_waveforms : option json) (args : dict) : option dict * dict :=
    let kw := if align then Some (align_arguments args) else None in
    let args := if align
                then fold_left (fun a k => dpop String.eqb a k)
                       ["seismic_moment_method"; "seismic_moment_options"; "align_sites_station"; "align_sites_value"] args
                else args in
    let args := match inventory with Some i => dset String.eqb args "inventory" i | None => args end in
    (kw, match get_waveforms with Some g => dset String.eqb args "get_waveforms" g | None => args end).

  (** core.py:1925-1938: the input with its site responses.  A missing input is not
      possible in the second part. *)
  Definition load_input (cmd : string) (args : dict) : res (option json * dict) :=
    do ra <- (if inb String.eqb cmd ["fixed"; "source"; "recalc_source"]
              then do ra <- load_results (w_json w) args "input"; Ok (Some (fst ra), snd ra)
              else Ok (None, args));
    let '(result_in, args) := ra in
    if dmem String.eqb args "input_sites" then
      if inb String.eqb cmd ["source"; "recalc_source"] then
        do sa <- load_results (w_json w) args "input_sites";
        match result_in with
        | Some r => do r <- put_sites r (fst sa); Ok (Some r, snd sa)
        | None => Err UnboundLocalError
        end
      else Ok (result_in, args)
    else Ok (result_in, args).

  (** core.py:1939-1947; None: result is not bound.  noplots must not be in the
      arguments. *)
  Definition main_result (cmd : string) (align_sites : json) (result_in : option json) (args : dict)
      (events : option (list E)) : res (option json) :=
    if inb String.eqb cmd ["go"; "fixed"; "source"] then
      let args := if inb String.eqb cmd ["fixed"; "source"]
                  then match result_in with Some r => dset String.eqb args "input" r | None => args end
                  else args in
      if dmem String.eqb args "noplots" then Err TypeError
      else do r <- w_invert w align_sites args events; Ok (Some r)
    else if String.eqb cmd "recalc_source" then Ok result_in
    else Ok None.

  (** core.py:1952, 1962: [result.setdefault('config', {}).update(kw)] *)
  Definition update_config (result : json) (kw : dict) : res json :=
    match result with
    | JDict d => match getd d "config" (JDict []) with
                 | JDict c => Ok (JDict (dset String.eqb d "config" (JDict (dupdate String.eqb c kw))))
                 | _ => Err AttributeError
                 end
    | _ => Err AttributeError
    end.

  (** core.py:1948-1963 *)
  Definition postprocess (cmd : string) (align : option dict) (eventid : option string) (args : dict)
      (result : option json) : res (option json * list effect) :=
    match result with
    | None => match align with Some _ => Err UnboundLocalError | None => Ok (None, []) end
    | Some r =>
        match align with
        | Some kw => do r <- w_align w r kw; do r <- update_config r kw;
                     do e <- plot r eventid args; Ok (Some r, e)
        | None =>
            if String.eqb cmd "recalc_source" then
              let '(m, args) := popd args "seismic_moment_method" JNull in
              let '(o, args) := popd args "seismic_moment_options" JNull in
              let kw := [("seismic_moment_method", m); ("seismic_moment_options", o)] in
              do r <- w_source w r kw; do r <- update_config r kw;
              do e <- plot r eventid args; Ok (Some r, e)
            else Ok (Some r, [])
        end
    end.

  (** core.py:1964-1971; an output that is not a string has no lower() *)
  Definition write (output indent result : json) : res (list effect) :=
    match output with
    | JNull => Ok []
    | JStr o => if String.eqb o "stdout" then Ok [Printed result]
                else if inb String.eqb (w_lower w o) ["none"; "null"; ""] then Ok []
                else Ok [Written o result indent]
    | _ => Err AttributeError
    end.

  (** core.py:1974-1975; formatting fails for values that are not numbers *)
  Definition print_mag1 (evid : string) (evres : json) : res effect :=
    do m <- jin evres "Mw";
    if m : bool then
      do x <- jget evres "Mw";
      match x with
      | JNum _ | JBool _ => Ok (PrintedMag evid (Some x))
      | JStr _ => Err ValueError
      | _ => Err TypeError
      end
    else Ok (PrintedMag evid None).

  (** core.py:1972-1975 *)
  Definition print_mags (print_mag : bool) (result : json) : res (list effect) :=
    if print_mag then
      do b <- jin result "events";
      if b : bool then
        do evs <- jget result "events";
        match evs with
        | JDict d => mapM (fun kv => print_mag1 (fst kv) (snd kv)) d
        | _ => Err AttributeError
        end
      else Ok []
    else Ok [].

  (** core.py:1905-1978: after the selection of events *)
  Definition run_loaded (cmd : string) (eventid : option string) (print_mag : bool) (align_sites : json) (p : prepared)
      (inventory get_waveforms : option json) (events : option (list E)) (args : dict) : res (json * list effect) :=
    let '(kw, args) := arguments (truthy align_sites) inventory get_waveforms args in
    do ia <- load_input cmd args;
    do result <- main_result cmd align_sites (fst ia) (snd ia) events;
    do re <- postprocess cmd kw eventid (snd ia) result;
    match fst re with
    | None => Err UnboundLocalError
    | Some r => do e1 <- write (p_output p) (p_indent p) r;
                do e2 <- print_mags print_mag r;
                Ok (r, snd re ++ e1 ++ e2)
    end.

  (** core.py:1843-1978.  [except Exception] does not catch the exits. *)
  Definition run_prepared (cmd : string) (eventid : option string) (print_mag : bool) (get_waveforms : json)
      (p : prepared) : res (json * list effect) :=
    let '(align_sites, args) := popd (p_args p) "align_sites" (JBool false) in
    match load cmd (truthy align_sites) get_waveforms args with
    | Err KeyboardInterrupt => Err KeyboardInterrupt
    | Err SystemExit => Err SystemExit
    | Err _ => Ok (JNull, [])
    | Ok l =>
        do events <- select_event (w_evid w) eventid (option_map fst (l_events l));
        run_loaded cmd eventid print_mag align_sites p (l_inventory l) (option_map snd (l_events l)) events (l_args l)
    end.

  (** core.py:1745-1746 *)
  Definition commands : list string := ["create"; "go"; "fixed"; "source"; "recalc_source"; "plot"; "rt"].

  (** run, core.py:1716-1978: the result, [JNull] for None, and the effects *)
  Definition run (cmd : string) (conf : option string) (tutorial : bool) (eventid : option string)
      (get_waveforms : json) (print_mag : bool) (plots : json) (args : dict) : res (json * list effect) :=
    if negb (inb String.eqb cmd commands) then Err ValueError
    else if String.eqb cmd "create" then Ok (JNull, create (conf_name conf) tutorial)
    else
      do m <- merge_conf (w_conf w) conf args;
      match m with
      | None => Ok (JNull, [])
      | Some args =>
          do p <- prepare cmd plots args;
          if String.eqb cmd "plot" then
            do e <- plot_command (match conf_name conf with Some _ => true | None => false end) eventid (p_args p);
            Ok (JNull, e)
          else run_prepared cmd eventid print_mag get_waveforms p
      end.
End Run.

(** an element of an iterable given to [dict.update]: two values, core.py:2127.
    Simplification: a key that is no string fails here, not at the call of run. *)
Definition update_pair (x : json) : res (string * json) :=
  do l <- match x with
          | JList l => Ok l
          | JDict d => Ok (map (fun kv => JStr (fst kv)) d)
          | JStr s => Ok (map (fun c => JStr (String c "")) (list_ascii_of_string s))
          | _ => Err TypeError
          end;
  match l with
  | [JStr k; v] => Ok (k, v)
  | [_; _] => Err TypeError
  | _ => Err ValueError
  end.

(** [args.update(o)]: a dictionary or an iterable of pairs, core.py:2127 *)
Definition update_pairs (o : json) : res dict :=
  match o with
  | JDict d => Ok d
  | JList l => mapM update_pair l
  | JStr s => mapM update_pair (map (fun c => JStr (String c "")) (list_ascii_of_string s))
  | _ => Err TypeError
  end.

(** core.py:2126-2127: arguments of the command line *)
Definition cmdline_args (args : dict) : res dict :=
  let '(o, args) := popd args "overwrite_conf" (JDict []) in
  do o <- update_pairs o;
  Ok (dupdate String.eqb args o).
