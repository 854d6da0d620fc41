(** Properties of run: C81 for create, C94 to C97. *)
From Coq Require Import String List Bool ZArith Arith.
From Verif Require Import Base RunModel RunSpec RunProof RunProof2 RunProof3 RunProof4 RunEx RunSpec2 RunProof5 RunProof6 RunProof7 RunEx2.
Import ListNotations.
Open Scope string_scope.
Open Scope list_scope.

(** * C81 *)

(** create copies the configuration file, to conf.json by default, with the
    tutorial also the three example files, and nothing else. *)
Theorem C81_create :
  forall (E : Type) (w : world E) conf tut eventid gw pm plots args,
    exists e, run w "create" conf tut eventid gw pm plots args = Ok (JNull, e) /\
      exists dest, (conf_given conf -> conf = Some dest) /\ (~ conf_given conf -> dest = "conf.json") /\
        forall x, In x e <-> x = Copied "conf.json" dest \/
          (tut = true /\ exists src, In src ["example_events.xml"; "example_inventory.xml"; "example_data.mseed"] /\
                                    x = Copied src (w_join w dest src)).
Proof. exact (@created). Qed.
Print Assumptions C81_create.

Example C81_create_ex : conf_given (Some "my.json") /\ ~ conf_given (Some "none").
Proof. split; [intros [H|[H|[H|[H|[]]]]]; discriminate|]. intros H. apply H. right. now left. Qed.

(** * C94 *)

(** Exactly those plots are drawn which are switched on and for which the result has
    values, each once, with the wished options and file name. *)
Theorem C94_drawn :
  forall (E : Type) (w : world E) result eventid args e,
    plot w result eventid args = Ok e ->
    (forall x, In x e -> exists name f o, x = Plotted name f o /\
       offered result eventid name /\ ~ off (value args ("plot_" ++ name)%string (JBool false)) /\
       as_wished (w_format w) result eventid args name f o /\ w_image w name result f o = Ok tt) /\
    (forall name, offered result eventid name -> ~ off (value args ("plot_" ++ name)%string (JBool false)) ->
       exists f o, In (Plotted name f o) e) /\
    NoDup (map plot_name e).
Proof. exact (@plot_drawn_on). Qed.
Print Assumptions C94_drawn.

Example C94_drawn_ex : exists e,
  plot (ex_world [] ex_result) (ex_result ["a"]) (Some "a") plot_args = Ok e /\ e <> [] /\
  offered (ex_result ["a"]) (Some "a") "eventresult" /\
  ~ off (value plot_args "plot_eventresult" (JBool false)) /\
  offered (ex_result ["a"]) None "sds".
Proof. exact plot_ex. Qed.

(** The command plot draws the result of the input file with the configuration of
    the call; without configuration file options not given are those recorded in the
    result.  With eventid only this event is shown. *)
Theorem C94_command :
  forall (E : Type) (w : world E) conf tut eventid gw pm plots args d j e,
    distinct args -> distinct d -> config_is (w_conf w) conf d ->
    run w "plot" conf tut eventid gw pm plots args = Ok (j, e) ->
    exists p x file shown a,
      prepared_by (w_conf w) conf "plot" plots args p /\
      override d args "input" = Some x /\ content (w_json w) x file /\ shown_of file shown eventid a /\
      plot w shown eventid a = Ok e /\ j = JNull /\
      (conf_given conf -> forall k, k <> "input" -> dget String.eqb a k = dget String.eqb (p_args p) k) /\
      (~ conf_given conf -> exists c, jget file "config" = Ok (JDict c) /\
         forall k, k <> "input" -> dget String.eqb a k = override c (p_args p) k).
Proof. exact (@plot_command_run). Qed.
Print Assumptions C94_command.

Example C94_command_ex : exists e,
  distinct plot_args /\ distinct (@nil (string * json)) /\ config_is (w_conf (ex_world [] ex_result)) None [] /\ ~ conf_given None /\
  run (ex_world [] ex_result) "plot" None false (Some "b") JNull false JNull plot_args = Ok (JNull, e) /\ e <> [].
Proof. exact plot_command_ex. Qed.

(** A title among the options of the plot of an event is an error. *)
Theorem C94_title :
  forall (E : Type) (w : world E) result id args o t,
    ~ off (value args "plot_eventresult" (JBool false)) ->
    value args "plot_eventresult_options" (JDict []) = JDict o -> dget String.eqb o "title" = Some t ->
    forall e, plot w result (Some id) args <> Ok e.
Proof. exact (@plot_title_on). Qed.
Print Assumptions C94_title.

Example C94_title_ex : exists args o,
  ~ off (value args "plot_eventresult" (JBool false)) /\
  value args "plot_eventresult_options" (JDict []) = JDict o /\ dget String.eqb o "title" = Some (JStr "t").
Proof. exact plot_title_ex. Qed.

(** * C95 *)

(** With align_sites the sites of the result are aligned with the given settings,
    which are recorded in its configuration; the plots are drawn afterwards. *)
Theorem C95_align :
  forall (E : Type) (w : world E) cmd conf tut eventid gw pm plots args r e d,
    distinct args -> distinct d -> config_is (w_conf w) conf d -> In cmd calculating ->
    run w cmd conf tut eventid gw pm plots args = Ok (r, e) -> (r, e) <> (JNull, []) ->
    let al := or_default (override d args "align_sites") (JBool false) in
    ~ off al ->
    exists p r0 kw r1 a e0 rest,
      prepared_by (w_conf w) conf cmd plots args p /\
      start w cmd (override d args) al r0 /\
      align_keywords (override d args) kw /\ w_align w r0 kw = Ok r1 /\ recorded r1 kw r /\
      plot w r eventid a = Ok e0 /\ plot_arguments (p_args p) a /\ e = e0 ++ rest.
Proof. exact (@aligned_on). Qed.
Print Assumptions C95_align.

Example C95_align_ex : exists r e,
  distinct align_args /\ distinct (@nil (string * json)) /\ config_is (w_conf (ex_world [] ex_result)) None [] /\ In "go" calculating /\
  run (ex_world [] ex_result) "go" None false None JNull false JNull align_args = Ok (r, e) /\ (r, e) <> (JNull, []) /\
  ~ off (or_default (override [] align_args "align_sites") (JBool false)).
Proof. exact align_ex. Qed.

(** recalc_source calculates the source parameters of the input with the given
    settings, which are recorded in its configuration; then the plots are drawn. *)
Theorem C95_recalc :
  forall (E : Type) (w : world E) conf tut eventid gw pm plots args r e d,
    distinct args -> distinct d -> config_is (w_conf w) conf d ->
    run w "recalc_source" conf tut eventid gw pm plots args = Ok (r, e) -> (r, e) <> (JNull, []) ->
    let al := or_default (override d args "align_sites") (JBool false) in
    off al ->
    exists p r0 kw r1 a e0 rest,
      prepared_by (w_conf w) conf "recalc_source" plots args p /\
      start w "recalc_source" (override d args) al r0 /\
      source_keywords (override d args) kw /\ w_source w r0 kw = Ok r1 /\ recorded r1 kw r /\
      plot w r eventid a = Ok e0 /\ plot_arguments (p_args p) a /\ e = e0 ++ rest.
Proof. exact (@recalculated_off). Qed.
Print Assumptions C95_recalc.

Example C95_recalc_ex : exists r e,
  distinct recalc_args /\ distinct (@nil (string * json)) /\ config_is (w_conf (ex_world [] ex_result)) None [] /\
  run (ex_world [] ex_result) "recalc_source" None false None JNull true JNull recalc_args = Ok (r, e) /\ (r, e) <> (JNull, []) /\
  off (or_default (override [] recalc_args "align_sites") (JBool false)) /\
  override [] recalc_args "input_sites" = None.
Proof. exact recalc_run_ex. Qed.

(** * C96 *)

(** The returned result is printed, written or not, as given by the output, and the
    magnitudes of all events are printed if wished; nothing else happens after the
    plots. *)
Theorem C96_output :
  forall (E : Type) (w : world E) cmd conf tut eventid gw pm plots args r e p,
    In cmd calculating -> prepared_by (w_conf w) conf cmd plots args p ->
    run w cmd conf tut eventid gw pm plots args = Ok (r, e) -> (r, e) <> (JNull, []) ->
    exists e0 e1 e2, e = e0 ++ e1 ++ e2 /\ (forall x, In x e0 -> exists name f o, x = Plotted name f o) /\
      output_of (w_lower w) (p_output p) (p_indent p) r e1 /\ magnitudes pm r e2.
Proof. exact (@run_output). Qed.
Print Assumptions C96_output.

Example C96_output_ex : exists p r e,
  In "recalc_source" calculating /\ prepared_by (w_conf (ex_world [] ex_result)) None "recalc_source" JNull recalc_args p /\
  run (ex_world [] ex_result) "recalc_source" None false None JNull true JNull recalc_args = Ok (r, e) /\ (r, e) <> (JNull, []) /\
  p_output p = JStr "out.json".
Proof. exact output_ex. Qed.

(** Printing the magnitudes changes nothing else: events without magnitude do not
    stop it. *)
Theorem C96_magnitudes :
  forall (E : Type) (w : world E) cmd conf tut eventid gw plots args r e,
    In cmd calculating -> run w cmd conf tut eventid gw false plots args = Ok (r, e) -> (r, e) <> (JNull, []) ->
    printable r ->
    exists e2, run w cmd conf tut eventid gw true plots args = Ok (r, e ++ e2) /\ magnitudes true r e2.
Proof. exact (@run_print_mag). Qed.
Print Assumptions C96_magnitudes.

Example C96_magnitudes_ex : exists r e,
  In "recalc_source" calculating /\
  run (ex_world [] ex_result) "recalc_source" None false None JNull false JNull recalc_args = Ok (r, e) /\ (r, e) <> (JNull, []) /\
  printable r /\ has r "events".
Proof. exact magnitudes_ex. Qed.

(** * C97 *)

(** A configuration file that cannot be read or parsed ends the run without result
    and without effects. *)
Theorem C97_conf :
  forall (E : Type) (w : world E) cmd c tut eventid gw pm plots args,
    In cmd commands -> cmd <> "create" -> conf_given (Some c) -> w_conf w c = CfgError ->
    run w cmd (Some c) tut eventid gw pm plots args = Ok (JNull, []).
Proof. exact (@conf_unreadable). Qed.
Print Assumptions C97_conf.

Example C97_conf_ex :
  In "go" commands /\ "go" <> "create" /\ conf_given (Some "none.json") /\
  w_conf (ex_world ex_conf ex_result) "none.json" = CfgError.
Proof. exact unreadable_ex. Qed.

(** Errors while events, stations and data are loaded end the run without result and
    without effects; only an interrupt or an exit is passed on. *)
Theorem C97_load :
  forall (E : Type) (w : world E) cmd conf tut eventid gw pm plots args p x,
    In cmd commands -> cmd <> "create" -> cmd <> "plot" -> prepared_by (w_conf w) conf cmd plots args p ->
    load w cmd (truthy (getd (p_args p) "align_sites" (JBool false))) gw (dpop String.eqb (p_args p) "align_sites") = Err x ->
    (~ exit x -> run w cmd conf tut eventid gw pm plots args = Ok (JNull, [])) /\
    (exit x -> run w cmd conf tut eventid gw pm plots args = Err x).
Proof. exact (@load_fails). Qed.
Print Assumptions C97_load.

Example C97_load_ex : exists p x,
  prepared_by (w_conf (ex_world [] ex_result)) None "go" JNull [("inventory", JObj 1); ("events", JNum 1)] p /\
  load (ex_world [] ex_result) "go" (truthy (getd (p_args p) "align_sites" (JBool false))) JNull
    (dpop String.eqb (p_args p) "align_sites") = Err x /\ ~ exit x.
Proof. exact load_ex. Qed.

(** The same for an inventory that is not given or cannot be read. *)
Theorem C97_inventory :
  forall (E : Type) (w : world E) cmd conf tut eventid gw pm plots args d x,
    distinct args -> distinct d -> config_is (w_conf w) conf d -> In cmd inverting ->
    override d args "inventory" = None \/ (forall i f, w_inventory w i f = Err x) ->
    (exists p, prepared_by (w_conf w) conf cmd plots args p) -> ~ exit x ->
    run w cmd conf tut eventid gw pm plots args = Ok (JNull, []).
Proof. exact (@inventory_fails). Qed.
Print Assumptions C97_inventory.

Example C97_inventory_ex : exists p,
  distinct [("events", JList [JStr "a"])] /\ config_is (w_conf (ex_world [] ex_result)) None [] /\ In "go" inverting /\
  override [] [("events", JList [JStr "a"])] "inventory" = None /\
  prepared_by (w_conf (ex_world [] ex_result)) None "go" JNull [("events", JList [JStr "a"])] p.
Proof. exact inventory_ex. Qed.

(** A missing input raises ParseError. *)
Theorem C97_input :
  forall (E : Type) (w : world E) cmd conf tut gw pm plots args d p l,
    distinct args -> distinct d -> config_is (w_conf w) conf d -> In cmd ["fixed"; "source"; "recalc_source"] ->
    prepared_by (w_conf w) conf cmd plots args p ->
    load w cmd (truthy (getd (p_args p) "align_sites" (JBool false))) gw (dpop String.eqb (p_args p) "align_sites") = Ok l ->
    override d args "input" = None \/ override d args "input" = Some JNull ->
    run w cmd conf tut None gw pm plots args = Err ParseError.
Proof. exact (@input_missing). Qed.
Print Assumptions C97_input.

Example C97_input_ex : exists p l,
  distinct missing_args /\ config_is (w_conf (ex_world [] ex_result)) None [] /\ In "source" ["fixed"; "source"; "recalc_source"] /\
  prepared_by (w_conf (ex_world [] ex_result)) None "source" JNull missing_args p /\
  load (ex_world [] ex_result) "source" (truthy (getd (p_args p) "align_sites" (JBool false))) JNull
    (dpop String.eqb (p_args p) "align_sites") = Ok l /\
  override [] missing_args "input" = Some JNull.
Proof. exact missing_ex. Qed.

(** The same for the command plot. *)
Theorem C97_plot :
  forall (E : Type) (w : world E) conf tut eventid gw pm plots args d p,
    distinct args -> distinct d -> config_is (w_conf w) conf d ->
    prepared_by (w_conf w) conf "plot" plots args p ->
    override d args "input" = None \/ override d args "input" = Some JNull ->
    run w "plot" conf tut eventid gw pm plots args = Err ParseError.
Proof. exact (@plot_input_missing). Qed.
Print Assumptions C97_plot.

Example C97_plot_ex : exists p,
  distinct missing_args /\ config_is (w_conf (ex_world [] ex_result)) None [] /\
  prepared_by (w_conf (ex_world [] ex_result)) None "plot" JNull missing_args p /\
  override [] missing_args "input" = Some JNull.
Proof. exact missing_plot_ex. Qed.

(** An input file that cannot be read is not handled: its error is raised, although
    all other files that cannot be read end the run without error. *)
Theorem C97_refuted :
  exists (w : world string) args x,
    w_json w "other.json" = Err x /\ ~ exit x /\ x <> ParseError /\ dget String.eqb args "input" = Some (JStr "other.json") /\
    run w "recalc_source" None false None JNull false JNull args = Err x.
Proof. exact input_unreadable. Qed.
Print Assumptions C97_refuted.
