(** Properties of run: C68 to C71, C66 for run, C81, C82. *)
From Coq Require Import String List Bool ZArith Arith.
From Verif Require Import Base RunModel RunSpec RunProof RunProof2 RunProof3 RunProof4 RunProof7 RunProof8 RunEx.
Import ListNotations.
Open Scope string_scope.
Open Scope list_scope.

(** * C68 *)

(** The arguments of a call take precedence over the configuration file, options not
    given come from the file: for the options used by run and for all options that
    are passed on. *)
Theorem C68_precedence :
  forall read conf d cmd plots args p,
    distinct args -> distinct d -> config_is read conf d -> prepared_by read conf cmd plots args p ->
    p_loggingc p = or_default (override d args "logging") JNull /\
    p_verbose p = or_default (override d args "verbose") (JNum 0) /\
    p_loglevel p = or_default (override d args "loglevel") (JNum 3) /\
    p_indent p = or_default (override d args "indent") JNull /\
    dget String.eqb (p_args p) "cmd" = Some (JStr cmd) /\
    (forall k, In k own_options -> dget String.eqb (p_args p) k = None) /\
    (forall k, passed_on plots k -> dget String.eqb (p_args p) k = override d args k).
Proof.
  exact (fun read conf d cmd plots args p Da Dd C P =>
    match precedence_values read conf d cmd plots args p Da Dd C P with
    | conj A (conj B (conj D F)) =>
        conj A (conj B (conj D (conj F
          (conj (cmd_set read conf d cmd plots args p Da Dd C P)
            (conj (own_taken read conf d cmd plots args p Da Dd C P)
                  (precedence_other read conf d cmd plots args p Da Dd C P))))))
    end).
Qed.
Print Assumptions C68_precedence.

Example C68_precedence_ex :
  distinct ex_args /\ distinct ex_conf /\
  config_is (w_conf (ex_world ex_conf ex_result)) (Some "conf.json") ex_conf /\
  prepared_by (w_conf (ex_world ex_conf ex_result)) (Some "conf.json") "go" (JBool true) ex_args ex_prepared /\
  passed_on (JBool true) "g0" /\ dget String.eqb (p_args ex_prepared) "g0" = Some (JNum 7).
Proof. exact (conj ex_args_distinct (conj ex_conf_distinct (conj ex_config_is (conj ex_prepared_by ex_passed_on)))). Qed.

(** The options of plots take precedence as whole dictionaries; only the file name
    and the mean can be changed. *)
Theorem C68_options :
  forall read conf d cmd plots args p k,
    distinct args -> distinct d -> config_is read conf d -> prepared_by read conf cmd plots args p ->
    In k plot_options ->
    (override d args k = None -> dget String.eqb (p_args p) k = None) /\
    (forall o, override d args k = Some (JDict o) ->
       exists o', dget String.eqb (p_args p) k = Some (JDict o') /\
         forall e, e <> "fname" -> e <> "mean" \/ ~ In k ["plot_results_options"; "plot_sites_options"] ->
                   dget String.eqb o' e = dget String.eqb o e).
Proof. exact (fun read conf d cmd plots args p k Da Dd C P => precedence_options read conf d cmd plots args p Da Dd C P k). Qed.
Print Assumptions C68_options.

Example C68_options_ex : exists o o',
  override ex_conf ex_args "plot_results_options" = Some (JDict o) /\
  dget String.eqb (p_args ex_prepared) "plot_results_options" = Some (JDict o') /\
  dget String.eqb o' "llim" = Some (JNum 4).
Proof. eexists _, _. repeat split; vm_compute; reflexivity. Qed.

(** The option mean is passed on to the two plots, unless set there, if there are
    options for these plots. *)
Theorem C68_mean :
  forall read conf d cmd plots args p k o,
    distinct args -> distinct d -> config_is read conf d -> prepared_by read conf cmd plots args p ->
    In k ["plot_results_options"; "plot_sites_options"] -> override d args k = Some (JDict o) ->
    exists o', dget String.eqb (p_args p) k = Some (JDict o') /\
      dget String.eqb o' "mean" = match dget String.eqb o "mean" with Some v => Some v | None => override d args "mean" end.
Proof. exact (fun read conf d cmd plots args p k o Da Dd C P => mean_passed read conf d cmd plots args p Da Dd C P k o). Qed.
Print Assumptions C68_mean.

Example C68_mean_ex : exists o o',
  dget String.eqb (p_args ex_prepared) "plot_results_options" = Some (JDict o) /\
  dget String.eqb o "mean" = Some (JStr "robust") /\
  dget String.eqb (p_args ex_prepared) "plot_sites_options" = Some (JDict o') /\
  dget String.eqb o' "mean" = Some (JStr "weighted").
Proof. eexists _, _. repeat split; vm_compute; reflexivity. Qed.

(** Without options for the plot the mean is lost. *)
Theorem C68_mean_refuted :
  exists (w : world string) args m e name f o,
    dget String.eqb args "mean" = Some m /\ m <> JNull /\
    run w "plot" None false None JNull false JNull args = Ok (JNull, e) /\
    In (Plotted name f o) e /\ name = "results" /\ dget String.eqb o "mean" = None.
Proof. exact mean_lost. Qed.
Print Assumptions C68_mean_refuted.

(** plots=True or plots=False switches every plot. *)
Theorem C68_plots :
  forall read conf d cmd plots args p b k,
    distinct args -> distinct d -> config_is read conf d -> prepared_by read conf cmd plots args p ->
    plots = JBool b -> In k plot_switches -> dget String.eqb (p_args p) k = Some (JBool b).
Proof. exact (fun read conf d cmd plots args p b k Da Dd C P => plots_switched read conf d cmd plots args p Da Dd C P b k). Qed.
Print Assumptions C68_plots.

Example C68_plots_ex : dget String.eqb (p_args ex_prepared) "plot_fits" = Some (JBool true).
Proof. vm_compute. reflexivity. Qed.

(** Every call with a readable file and well-formed options gets through the
    preparation. *)
Theorem C68_total :
  forall read conf d cmd plots args,
    distinct args -> distinct d -> config_is read conf d ->
    well_formed (override d args) -> (plots = JNull \/ exists b, plots = JBool b) ->
    exists p, prepared_by read conf cmd plots args p.
Proof. exact prepared_total. Qed.
Print Assumptions C68_total.

Example C68_total_ex : well_formed (override ex_conf ex_args).
Proof. exact ex_well_formed. Qed.

(** A run that inverts hands every option to the inversion, with the same
    precedence, and returns what the inversion returns. *)
Theorem C68_inversion :
  forall (E : Type) (w : world E) cmd conf tut eventid gw pm plots args r e d,
    distinct args -> distinct d -> config_is (w_conf w) conf d -> In cmd inverting ->
    run w cmd conf tut eventid gw pm plots args = Ok (r, e) -> (r, e) <> (JNull, []) ->
    let al := or_default (override d args "align_sites") (JBool false) in
    exists a evs r0,
      w_invert w al a (Some evs) = Ok r0 /\
      (off al -> r = r0) /\
      dget String.eqb a "cmd" = Some (JStr cmd) /\
      forall k, passed_on plots k -> ~ In k data_options -> (off al \/ ~ In k align_options) ->
                k <> "input" -> k <> "input_sites" -> dget String.eqb a k = override d args k.
Proof. exact (fun E w => inversion_called_off w). Qed.
Print Assumptions C68_inversion.

Example C68_inversion_ex : exists e,
  run (ex_world ex_conf ex_result) "go" (Some "conf.json") false None JNull false (JBool true) ex_args =
  Ok (ex_result ["a"; "b"], e) /\ (ex_result ["a"; "b"], e) <> (JNull, []).
Proof. exact ex_run_go. Qed.

(** The inventory and the events are read with their filters, and they and the function
    for the waveforms reach the inversion. *)
Theorem C68_data :
  forall (E : Type) (w : world E) cmd conf tut eventid gw pm plots args r e d,
    distinct args -> distinct d -> config_is (w_conf w) conf d -> In cmd inverting ->
    run w cmd conf tut eventid gw pm plots args = Ok (r, e) -> (r, e) <> (JNull, []) ->
    let look k := override d args k in
    exists a evs r0 inv0 inv ev0 evs0 g,
      w_invert w (or_default (look "align_sites") (JBool false)) a (Some evs) = Ok r0 /\
      look "inventory" = Some inv0 /\ w_inventory w inv0 (or_default (look "filter_inventory") JNull) = Ok inv /\
      look "events" = Some ev0 /\
      w_events w (Some inv) ev0 [("filter_events", or_default (look "filter_events") JNull);
                                 ("resolve_seedid", or_default (look "resolve_seedid") (JBool false));
                                 ("read_events_kwargs", or_default (look "read_events_kwargs") (JDict []))] = Ok evs0 /\
      w_data w gw [("data", or_default (look "data") JNull); ("client_options", or_default (look "client_options") JNull);
                   ("plugin", or_default (look "plugin") JNull); ("cache_waveforms", or_default (look "cache_waveforms") JNull)] = Ok g /\
      dget String.eqb a "inventory" = Some inv /\ dget String.eqb a "get_waveforms" = Some g /\
      (eventid = None -> evs = evs0) /\ (forall ev, In ev evs -> In ev evs0).
Proof. exact (fun E w => data_read w). Qed.
Print Assumptions C68_data.

Example C68_data_ex : exists e,
  run (ex_world ex_conf ex_result) "go" (Some "conf.json") false None JNull false (JBool true) ex_args =
  Ok (ex_result ["a"; "b"], e) /\ (ex_result ["a"; "b"], e) <> (JNull, []).
Proof. exact ex_run_go. Qed.

(** On the command line --overwrite-conf takes precedence over the other options. *)
Theorem C68_cmdline :
  forall args a k o,
    distinct args -> distinct o -> getd args "overwrite_conf" (JDict []) = JDict o -> cmdline_args args = Ok a ->
    k <> "overwrite_conf" -> dget String.eqb a k = override args o k.
Proof. exact cmdline_get. Qed.
Print Assumptions C68_cmdline.

Example C68_cmdline_ex : exists a,
  cmdline_args [("cmd", JStr "go"); ("g0", JNum 1); ("overwrite_conf", JDict [("g0", JNum 2)])] = Ok a /\
  dget String.eqb a "g0" = Some (JNum 2) /\ dget String.eqb a "cmd" = Some (JStr "go").
Proof. exact cmdline_ex. Qed.

(** --overwrite-conf may as well be a list of pairs of option and value. *)
Theorem C68_cmdline_pairs :
  forall args l,
    distinct args -> distinct l ->
    getd args "overwrite_conf" (JDict []) = JList (map (fun kv : string * json => JList [JStr (fst kv); snd kv]) l) ->
    exists a, cmdline_args args = Ok a /\
      forall k, k <> "overwrite_conf" -> dget String.eqb a k = override args l k.
Proof. exact cmdline_pairs. Qed.
Print Assumptions C68_cmdline_pairs.

Example C68_cmdline_pairs_ex :
  getd [("g0", JNum 1); ("overwrite_conf", JList [JList [JStr "g0"; JNum 2]])] "overwrite_conf" (JDict []) =
  JList (map (fun kv : string * json => JList [JStr (fst kv); snd kv]) [("g0", JNum 2)]).
Proof. reflexivity. Qed.

(** Anything else than a dictionary or pairs is refused: a TypeError for null, numbers and
    truth values, a ValueError for a text and for a list starting with no pair, a TypeError again
    for a list or a dictionary in place of the name of an option. *)
Theorem C68_cmdline_refused :
  forall args,
    (forall o, getd args "overwrite_conf" (JDict []) = o ->
       (forall d, o <> JDict d) -> (forall l, o <> JList l) -> (forall s, o <> JStr s) ->
       cmdline_args args = Err TypeError) /\
    (forall s, getd args "overwrite_conf" (JDict []) = JStr s -> s <> "" -> cmdline_args args = Err ValueError) /\
    (forall l r, getd args "overwrite_conf" (JDict []) = JList (JList l :: r) -> List.length l <> 2%nat ->
       cmdline_args args = Err ValueError) /\
    (forall k v r, getd args "overwrite_conf" (JDict []) = JList (JList [k; v] :: r) ->
       (exists l, k = JList l) \/ (exists d, k = JDict d) -> cmdline_args args = Err TypeError).
Proof. exact cmdline_refused. Qed.
Print Assumptions C68_cmdline_refused.

Example C68_cmdline_refused_ex :
  cmdline_args [("overwrite_conf", JNum 2)] = Err TypeError /\ cmdline_args [("overwrite_conf", JStr "g0")] = Err ValueError /\
  cmdline_args [("overwrite_conf", JList [JList [JStr "g0"]])] = Err ValueError.
Proof. repeat split. Qed.

(** An option of the signature of run is ignored in the configuration file:
    print_mag. *)
Theorem C68_print_mag_refuted :
  exists (w : world string) d r e,
    w_conf w "conf.json" = CfgDict d /\ dget String.eqb d "print_mag" = Some (JBool true) /\
    run w "go" (Some "conf.json") false None JNull false JNull [] = Ok (r, []) /\
    run w "go" (Some "conf.json") false None JNull true JNull [] = Ok (r, e) /\
    In (PrintedMag "a" (Some (JNum 3))) e.
Proof. exact print_mag_ignored. Qed.
Print Assumptions C68_print_mag_refuted.

(** eventid in the configuration file does not select an event and lets the plots
    fail. *)
Theorem C68_eventid_refuted :
  exists (w : world string) d,
    w_conf w "conf.json" = CfgDict d /\ dget String.eqb d "eventid" = Some (JStr "a") /\
    run w "plot" (Some "conf.json") false None JNull false JNull [] = Err TypeError /\
    exists e, run w "go" (Some "conf.json") false None JNull false JNull [] = Ok (ex_result ["a"; "b"], e).
Proof. exact eventid_in_conf. Qed.
Print Assumptions C68_eventid_refuted.

(** * C69 *)

(** A prefix is prepended to the names of the output and of the log file; without
    these names nothing happens. *)
Theorem C69_prefix :
  forall read conf d cmd plots args p q,
    distinct args -> distinct d -> config_is read conf d -> prepared_by read conf cmd plots args p ->
    override d args "prefix" = Some (JStr q) -> q <> "" ->
    (forall o, override d args "output" = Some (JStr o) -> p_output p = JStr (q ++ o)) /\
    (forall o, override d args "logfile" = Some (JStr o) -> p_logfile p = JStr (q ++ o)) /\
    (or_default (override d args "output") JNull = JNull -> p_output p = JNull) /\
    (or_default (override d args "logfile") JNull = JNull -> p_logfile p = JNull).
Proof. exact (fun read conf d cmd plots args p q Da Dd C P => prefix_files read conf d cmd plots args p Da Dd C P q). Qed.
Print Assumptions C69_prefix.

Example C69_prefix_ex :
  override ex_conf ex_args "prefix" = Some (JStr "x/") /\ p_output ex_prepared = JStr "x/out.json".
Proof. split; vm_compute; reflexivity. Qed.

(** The prefix is prepended to all file names of plots that are given. *)
Theorem C69_fname :
  forall read conf d cmd plots args p q k o,
    distinct args -> distinct d -> config_is read conf d -> prepared_by read conf cmd plots args p ->
    override d args "prefix" = Some (JStr q) -> q <> "" ->
    In k plot_options -> override d args k = Some (JDict o) ->
    exists o', dget String.eqb (p_args p) k = Some (JDict o') /\
      (forall f, dget String.eqb o "fname" = Some (JStr f) -> dget String.eqb o' "fname" = Some (JStr (q ++ f))) /\
      (dget String.eqb o "fname" = None -> dget String.eqb o' "fname" = None).
Proof. exact (fun read conf d cmd plots args p q k o Da Dd C P => prefix_fname read conf d cmd plots args p Da Dd C P q k o). Qed.
Print Assumptions C69_fname.

Example C69_fname_ex : exists o,
  dget String.eqb (p_args ex_prepared) "plot_results_options" = Some (JDict o) /\
  dget String.eqb o "fname" = Some (JStr "x/r.pdf").
Proof. eexists. split; vm_compute; reflexivity. Qed.

(** Without a prefix all names stay as they are. *)
Theorem C69_no_prefix :
  forall read conf d cmd plots args p,
    distinct args -> distinct d -> config_is read conf d -> prepared_by read conf cmd plots args p ->
    no_prefix (override d args "prefix") ->
    p_output p = or_default (override d args "output") JNull /\
    p_logfile p = or_default (override d args "logfile") JNull /\
    (forall k o, In k plot_options -> override d args k = Some (JDict o) ->
       exists o', dget String.eqb (p_args p) k = Some (JDict o') /\
                  dget String.eqb o' "fname" = dget String.eqb o "fname").
Proof. exact no_prefix_files. Qed.
Print Assumptions C69_no_prefix.

Example C69_no_prefix_ex : exists p,
  prepared_by (w_conf (ex_world ex_conf ex_result)) (Some "conf.json") "go" JNull [] p /\
  no_prefix (override ex_conf [] "prefix") /\ p_output p = JStr "out.json".
Proof. eexists. split; [eexists; split; vm_compute; reflexivity|]. split; [now left|reflexivity]. Qed.

(** With a prefix the output to stdout becomes a file. *)
Theorem C69_stdout_refuted :
  exists (w : world string) args r e indent,
    dget String.eqb args "output" = Some (JStr "stdout") /\ dget String.eqb args "prefix" = Some (JStr "x") /\
    run w "go" None false None JNull false JNull args = Ok (r, e) /\
    In (Written "xstdout" r indent) e /\ ~ In (Printed r) e.
Proof. exact stdout_prefixed. Qed.
Print Assumptions C69_stdout_refuted.

(** With a prefix an output switched off becomes a file. *)
Theorem C69_none_refuted :
  exists (w : world string) args r e indent,
    dget String.eqb args "output" = Some (JStr "none") /\ dget String.eqb args "prefix" = Some (JStr "x") /\
    run w "go" None false None JNull false JNull args = Ok (r, e) /\
    In (Written "xnone" r indent) e /\
    run w "go" None false None JNull false JNull (dpop String.eqb args "prefix") = Ok (r, []).
Proof. exact none_prefixed. Qed.
Print Assumptions C69_none_refuted.

(** A plot with its default file name gets no prefix. *)
Theorem C69_default_refuted :
  exists (w : world string) args e o,
    dget String.eqb args "prefix" = Some (JStr "x") /\
    run w "plot" None false None JNull false JNull args = Ok (JNull, e) /\
    In (Plotted "results" "results.pdf" o) e.
Proof. exact default_not_prefixed. Qed.
Print Assumptions C69_default_refuted.

(** * C82 *)

(** run changes the options of its caller: a second call with the same dictionaries
    gets the prefix twice. *)
Theorem C82_caller_refuted :
  exists args p p2 o2,
    dget String.eqb args "plot_sds_options" = Some (JDict [("fname", JStr "sds.pdf")]) /\
    dget String.eqb args "prefix" = Some (JStr "x") /\
    prepare "go" JNull args = Ok p /\ caller_after args p <> args /\
    prepare "go" JNull (caller_after args p) = Ok p2 /\
    dget String.eqb (p_args p2) "plot_sds_options" = Some (JDict o2) /\
    dget String.eqb o2 "fname" = Some (JStr "xxsds.pdf").
Proof. exact prefix_twice. Qed.
Print Assumptions C82_caller_refuted.

(** * C70 *)

(** With the site responses of another result the site responses are those of that
    result and everything else but the events is unchanged. *)
Theorem C70_overall :
  forall r s r2,
    put_sites (JDict r) s = Ok r2 ->
    exists R d2, jget s "R" = Ok R /\ r2 = JDict d2 /\ dget String.eqb d2 "R" = Some R /\
      (forall k, k <> "R" -> k <> "events" -> dget String.eqb d2 k = dget String.eqb r k).
Proof. exact put_sites_ok. Qed.
Print Assumptions C70_overall.

Example C70_overall_ex : exists d2,
  put_sites (JDict [("g0", JNum 1); ("events", JDict [("a", JDict [("R", JNum 1); ("W", JNum 4)])])])
    (JDict [("R", JNum 9); ("events", JDict [("a", JDict [("R", JNum 2)])])]) = Ok (JDict d2).
Proof. exact sites_ex. Qed.

(** The entries of an event other than its site responses are unchanged; the site
    responses are replaced by the whole entry of the event (which refutes the
    claim), or unchanged if the event has none in the other result. *)
Theorem C70_events :
  forall r s d2 evs id e,
    put_sites (JDict r) s = Ok (JDict d2) -> dget String.eqb r "events" = Some (JDict evs) ->
    dget String.eqb evs id = Some (JDict e) ->
    exists evs2 e2, dget String.eqb d2 "events" = Some (JDict evs2) /\ dget String.eqb evs2 id = Some (JDict e2) /\
      (forall k, k <> "R" -> dget String.eqb e2 k = dget String.eqb e k) /\
      match jget s "events" with
      | Ok (JDict sevs) => match dget String.eqb sevs id with
                           | Some (JDict se) => if dmem String.eqb se "R" then dget String.eqb e2 "R" = Some (JDict se)
                                                else dget String.eqb e2 "R" = dget String.eqb e "R"
                           | _ => dget String.eqb e2 "R" = dget String.eqb e "R"
                           end
      | _ => dget String.eqb e2 "R" = dget String.eqb e "R"
      end.
Proof. exact put_sites_events. Qed.
Print Assumptions C70_events.

Example C70_events_ex : exists d2,
  put_sites (JDict [("g0", JNum 1); ("events", JDict [("a", JDict [("R", JNum 1); ("W", JNum 4)])])])
    (JDict [("R", JNum 9); ("events", JDict [("a", JDict [("R", JNum 2)])])]) = Ok (JDict d2).
Proof. exact sites_ex. Qed.

(** The site responses of an event are not those of the other result. *)
Theorem C70_events_refuted :
  exists r s r2 evs2 e2,
    jget s "events" = Ok (JDict [("a", JDict [("R", JNum 2); ("W", JNum 3)])]) /\
    put_sites (JDict r) s = Ok r2 /\ jget r2 "events" = Ok evs2 /\ jget evs2 "a" = Ok e2 /\
    jget e2 "R" <> Ok (JNum 2).
Proof. exact event_sites_wrong. Qed.
Print Assumptions C70_events_refuted.

(** The command source inverts with this input; without input_sites with the input
    as it is. *)
Theorem C70_source :
  forall (E : Type) (w : world E) conf tut eventid gw pm plots args r e d x jx,
    distinct args -> distinct d -> config_is (w_conf w) conf d ->
    run w "source" conf tut eventid gw pm plots args = Ok (r, e) -> (r, e) <> (JNull, []) ->
    override d args "input" = Some x -> content (w_json w) x jx ->
    exists al a evs r0 inp,
      w_invert w al a (Some evs) = Ok r0 /\ dget String.eqb a "input" = Some inp /\
      (override d args "input_sites" = None -> inp = jx) /\
      (forall y jy, override d args "input_sites" = Some y -> content (w_json w) y jy -> put_sites jx jy = Ok inp).
Proof. exact (fun E w => source_input w). Qed.
Print Assumptions C70_source.

Example C70_source_ex : exists e,
  distinct source_args /\
  run (ex_world [] ex_result) "source" None false None JNull false JNull source_args = Ok (ex_result ["a"], e) /\
  (ex_result ["a"], e) <> (JNull, []) /\
  override [] source_args "input" = Some (JStr "in.json") /\
  content (w_json (ex_world [] ex_result)) (JStr "in.json") (ex_result ["a"; "b"]) /\
  override [] source_args "input_sites" = Some (JDict [("R", JDict [("sta", JNum 8)])]) /\
  content (w_json (ex_world [] ex_result)) (JDict [("R", JDict [("sta", JNum 8)])]) (JDict [("R", JDict [("sta", JNum 8)])]).
Proof. exact source_ex. Qed.

(** * C71 *)

(** With eventid exactly the events of the catalogue with this id are inverted. *)
Theorem C71_selected :
  forall (E : Type) (w : world E) cmd conf tut id gw pm plots args r e,
    In cmd inverting -> id <> "" ->
    run w cmd conf tut (Some id) gw pm plots args = Ok (r, e) -> (r, e) <> (JNull, []) ->
    exists p l evs0 g a evs r0,
      let al := getd (p_args p) "align_sites" (JBool false) in
      prepared_by (w_conf w) conf cmd plots args p /\
      load w cmd (truthy al) gw (dpop String.eqb (p_args p) "align_sites") = Ok l /\ l_events l = Some (evs0, g) /\
      w_invert w al a (Some evs) = Ok r0 /\ evs <> [] /\
      (forall ev, In ev evs <-> In ev evs0 /\ w_evid w ev = id).
Proof. exact (fun E w => inversion_selected w). Qed.
Print Assumptions C71_selected.

Example C71_selected_ex : exists e,
  run (ex_world ex_conf ex_result) "go" (Some "conf.json") false (Some "b") JNull false JNull ex_args =
  Ok (ex_result ["b"], e) /\ (ex_result ["b"], e) <> (JNull, []).
Proof. exact ex_run_event. Qed.

(** A missing id is a ParseError if the catalogue has events. *)
Theorem C71_missing :
  forall (E : Type) (w : world E) cmd conf tut id gw pm plots args p l evs g,
    In cmd inverting -> id <> "" ->
    prepared_by (w_conf w) conf cmd plots args p ->
    load w cmd (truthy (getd (p_args p) "align_sites" (JBool false))) gw (dpop String.eqb (p_args p) "align_sites") = Ok l ->
    l_events l = Some (evs, g) -> evs <> [] ->
    (forall ev, In ev evs -> w_evid w ev <> id) ->
    run w cmd conf tut (Some id) gw pm plots args = Err ParseError.
Proof. exact (fun E w => selection_missing w). Qed.
Print Assumptions C71_missing.

Example C71_missing_ex : exists l evs g,
  load (ex_world ex_conf ex_result) "go" (truthy (getd (p_args ex_prepared) "align_sites" (JBool false))) JNull
    (dpop String.eqb (p_args ex_prepared) "align_sites") = Ok l /\
  l_events l = Some (evs, g) /\ evs <> [] /\ forall ev, In ev evs -> ev <> "c".
Proof. exact ex_load. Qed.

(** The command recalc_source always fails with eventid. *)
Theorem C71_recalc :
  forall (E : Type) (w : world E) conf tut id gw pm plots args p l,
    id <> "" -> prepared_by (w_conf w) conf "recalc_source" plots args p ->
    load w "recalc_source" (truthy (getd (p_args p) "align_sites" (JBool false))) gw
      (dpop String.eqb (p_args p) "align_sites") = Ok l ->
    run w "recalc_source" conf tut (Some id) gw pm plots args = Err UnboundLocalError.
Proof. exact (fun E w => selection_recalc w). Qed.
Print Assumptions C71_recalc.

Example C71_recalc_ex : exists (w : world string) p l,
  prepared_by (w_conf w) None "recalc_source" JNull [("input", JStr "in.json")] p /\
  load w "recalc_source" (truthy (getd (p_args p) "align_sites" (JBool false))) JNull
      (dpop String.eqb (p_args p) "align_sites") = Ok l.
Proof. exact recalc_ex. Qed.

(** So the claim fails for recalc_source, which works without eventid. *)
Theorem C71_recalc_refuted :
  exists (w : world string) args,
    dget String.eqb args "input" = Some (JStr "in.json") /\
    run w "recalc_source" None false (Some "a") JNull false JNull args = Err UnboundLocalError /\
    exists r e, run w "recalc_source" None false None JNull false JNull args = Ok (r, e) /\ r <> JNull.
Proof. exact recalc_event. Qed.
Print Assumptions C71_recalc_refuted.

(** A missing id is a KeyError for the command plot. *)
Theorem C71_plot_refuted :
  exists (w : world string) args,
    run w "plot" None false (Some "c") JNull false JNull args = Err KeyError /\
    exists e, run w "plot" None false (Some "a") JNull false JNull args = Ok (JNull, e).
Proof. exact plot_event_missing. Qed.
Print Assumptions C71_plot_refuted.

(** A missing id is an IndexError for an empty catalogue. *)
Theorem C71_empty_refuted :
  exists (w : world string) args,
    dget String.eqb args "events" = Some (JList []) /\
    run w "go" None false (Some "c") JNull false JNull args = Err IndexError.
Proof. exact empty_catalogue. Qed.
Print Assumptions C71_empty_refuted.

(** * C66 *)

(** If the inversion returns None, so does the command go, without magnitudes and
    alignment.  The output is null. *)
Theorem C66_run :
  forall (E : Type) (w : world E) conf tut gw plots args d p l o,
    distinct args -> distinct d -> config_is (w_conf w) conf d ->
    prepared_by (w_conf w) conf "go" plots args p ->
    off (or_default (override d args "align_sites") (JBool false)) ->
    override d args "noplots" = None ->
    load w "go" false gw (dpop String.eqb (p_args p) "align_sites") = Ok l ->
    (forall al a evs, w_invert w al a evs = Ok JNull) ->
    p_output p = o -> (o = JNull \/ exists s, o = JStr s) ->
    exists e, run w "go" conf tut None gw false plots args = Ok (JNull, e) /\
      forall x, In x e -> x = Printed JNull \/ exists s, o = JStr s /\ x = Written s JNull (p_indent p).
Proof. exact (fun E w => none_go_off w). Qed.
Print Assumptions C66_run.

Example C66_run_ex : exists p l,
  distinct none_args /\ prepared_by (w_conf none_world) None "go" JNull none_args p /\
  off (or_default (override [] none_args "align_sites") (JBool false)) /\
  override [] none_args "noplots" = None /\
  load none_world "go" false JNull (dpop String.eqb (p_args p) "align_sites") = Ok l /\
  (forall al a evs, w_invert none_world al a evs = Ok JNull) /\ p_output p = JStr "out.json".
Proof. exact none_ex. Qed.

(** With print_mag a run without result fails. *)
Theorem C66_print_mag_refuted :
  exists (w : world string) args,
    (forall al a evs, w_invert w al a (Some evs) = Ok JNull) /\
    run w "go" None false None JNull false JNull args = Ok (JNull, []) /\
    run w "go" None false None JNull true JNull args = Err TypeError.
Proof. exact none_print_mag. Qed.
Print Assumptions C66_print_mag_refuted.

(** With the alignment of sites a run without result fails. *)
Theorem C66_align_refuted :
  exists (w : world string) args,
    (forall al a evs, w_invert w al a (Some evs) = Ok JNull) /\
    (forall kw, w_align w JNull kw = Err TypeError) /\
    dget String.eqb args "align_sites" = Some (JBool true) /\
    run w "go" None false None JNull false JNull args = Err TypeError.
Proof. exact none_align. Qed.
Print Assumptions C66_align_refuted.

(** * C81 *)

(** Unknown commands are rejected. *)
Theorem C81_unknown :
  forall (E : Type) (w : world E) cmd conf tut eventid gw pm plots args,
    ~ In cmd ["create"; "go"; "fixed"; "source"; "recalc_source"; "plot"; "rt"] ->
    run w cmd conf tut eventid gw pm plots args = Err ValueError.
Proof. exact (fun E w => unknown_command w). Qed.
Print Assumptions C81_unknown.

Example C81_unknown_ex : ~ In "stop" ["create"; "go"; "fixed"; "source"; "recalc_source"; "plot"; "rt"].
Proof. cbn. intuition discriminate. Qed.

(** The accepted command rt never returns or writes anything. *)
Theorem C81_rt :
  forall (E : Type) (w : world E) conf tut eventid gw pm plots args r e,
    run w "rt" conf tut eventid gw pm plots args = Ok (r, e) -> r = JNull /\ e = [].
Proof. exact (fun E w => rt_never w). Qed.
Print Assumptions C81_rt.

Example C81_rt_ex :
  run (ex_world [] ex_result) "rt" (Some "missing.json") false None JNull false JNull [] = Ok (JNull, []).
Proof. vm_compute. reflexivity. Qed.

(** The accepted command rt fails. *)
Theorem C81_rt_refuted :
  exists (w : world string) args, run w "rt" None false None JNull false JNull args = Err UnboundLocalError.
Proof. exact rt_ex. Qed.
Print Assumptions C81_rt_refuted.
