(** Properties of the values chosen by plots: C85, C88, C89, and of the settings of
    recalc_source: C90, and of the velocity used by plots: C93. *)
From Coq Require Import String List Bool ZArith Reals.
From Verif Require Import Base Pyf StatModel RunModel DepModel DepSpec ShowModel ShowSpec ShowProof ShowProof2 ShowProof3 ShowEx.
Import ListNotations.
Open Scope string_scope.
Open Scope list_scope.

(** * C85 *)

(** The plot of the results of an event shows each value the event has in the file,
    if there are source energies. *)
Theorem C85_eventresult :
  forall (E : Type) (w : world E) conf id args result args2 file a evs e vals,
    load_results (w_json w) args "input" = Ok (file, a) -> plot_input w conf (Some id) args = Ok (result, args2) ->
    jget file "events" = Ok evs -> jget evs id = Ok (JDict e) -> NoDup (map fst e) ->
    eventresult_values true result = Ok vals ->
    forall k v, dget String.eqb e k = Some v -> dget String.eqb vals k = Some v.
Proof. exact (@eventresult_event). Qed.
Print Assumptions C85_eventresult.

Example C85_eventresult_ex : exists a result args2 evs vals,
  load_results (w_json show_world) [("input", JStr "f")] "input" = Ok (ex_show, a) /\
  plot_input show_world false (Some "b") [("input", JStr "f")] = Ok (result, args2) /\
  jget ex_show "events" = Ok evs /\ jget evs "b" = Ok (JDict ex_e2) /\ NoDup (map fst ex_e2) /\
  eventresult_values true result = Ok vals /\ dget String.eqb vals "g0" = Some (JList [JNum 9]).
Proof. exact ex_eventresult. Qed.

(** Without source energies the plot shows the overall values in place of those of
    the event. *)
Theorem C85_eventresult_refuted :
  exists (w : world string) id args result args2 file a vals own,
    load_results (w_json w) args "input" = Ok (file, a) /\ plot_input w false (Some id) args = Ok (result, args2) /\
    eventresult_values false result = Ok vals /\ event_value file id "g0" = Ok own /\ dget String.eqb vals "g0" <> Some own.
Proof. exact eventresult_overall. Qed.
Print Assumptions C85_eventresult_refuted.

(** The plot of the site responses of an event shows the overall responses although
    the event has its own. *)
Theorem C85_eventsites_refuted :
  exists (w : world string) id args result args2 file a v,
    load_results (w_json w) args "input" = Ok (file, a) /\ plot_input w false (Some id) args = Ok (result, args2) /\
    eventsites_values result = Ok v /\ event_value file id "R" <> Ok v /\ exists own, event_value file id "R" = Ok own.
Proof. exact eventsites_overall. Qed.
Print Assumptions C85_eventsites_refuted.

(** Without any event the plot fails if there are source energies. *)
Theorem C85_no_event :
  forall d, dget String.eqb d "events" = Some (JDict []) -> eventresult_values true (JDict d) = Err IndexError.
Proof. exact event_first. Qed.
Print Assumptions C85_no_event.

Example C85_no_event_ex : dget String.eqb [("g0", JList []); ("events", JDict [])] "events" = Some (JDict []).
Proof. reflexivity. Qed.

(** * C88 *)

(** The plot of the results leaves the result as it is if each event has its own
    inversion. *)
Theorem C88_separate :
  forall v0 result e v r, first_event result = Ok e -> jin e "g0" = Ok true ->
    plot_results_v0 v0 result = Ok (v, r) -> r = result.
Proof. exact results_separate. Qed.
Print Assumptions C88_separate.

Example C88_separate_ex : exists e v r, first_event ex_sep = Ok e /\ jin e "g0" = Ok true /\
  plot_results_v0 JNull ex_sep = Ok (v, r) /\ v = JNum 3.
Proof. exact ex_results_sep. Qed.

(** If events are inverted simultaneously the plot takes the velocity out of the
    result, nothing else. *)
Theorem C88_simultaneous :
  forall v0 result e v r, first_event result = Ok e -> jin e "g0" = Ok false ->
    NoDup (map fst result) -> plot_results_v0 v0 result = Ok (v, r) ->
    dget String.eqb r "v0" = None /\ forall k, k <> "v0" -> dget String.eqb r k = dget String.eqb result k.
Proof. exact results_simultaneous. Qed.
Print Assumptions C88_simultaneous.

Example C88_simultaneous_ex : exists e v r, first_event ex_sim = Ok e /\ jin e "g0" = Ok false /\ NoDup (map fst ex_sim) /\
  plot_results_v0 JNull ex_sim = Ok (v, r) /\ v = JNum 3500.
Proof. exact ex_results_sim. Qed.

(** The velocity of such a result is lost by plotting. *)
Theorem C88_refuted :
  exists v0 result v r x,
    dget String.eqb result "v0" = Some x /\ plot_results_v0 v0 result = Ok (v, r) /\ dget String.eqb r "v0" = None.
Proof. exact results_changed. Qed.
Print Assumptions C88_refuted.

(** * C93 *)

(** The plot of all results uses the velocity that is given. *)
Theorem C93_given :
  forall result e evs conf z, parts result e evs conf -> z <> 0%Z ->
    exists r, plot_results_v0 (JNum z) result = Ok (JNum z, r).
Proof. exact v0_given. Qed.
Print Assumptions C93_given.

(** Otherwise it uses the velocity of the configuration. *)
Theorem C93_config :
  forall result e evs conf v, parts result e evs conf -> velocity_in conf v ->
    exists r, plot_results_v0 JNull result = Ok (v, r).
Proof. exact v0_config. Qed.
Print Assumptions C93_config.

Example C93_config_ex : exists e evs conf, parts ex_sep e evs conf /\ velocity_in conf (JNum 3).
Proof. exact ex_parts. Qed.

(** Otherwise each event has its own velocity if it has its own inversion. *)
Theorem C93_separate :
  forall result e evs conf l, parts result e evs conf -> no_velocity conf ->
    dmem String.eqb e "g0" = true -> event_velocities evs l ->
    plot_results_v0 JNull result = Ok (JList l, result).
Proof. exact v0_separate. Qed.
Print Assumptions C93_separate.

Example C93_separate_ex : exists e evs conf l, parts ex_sep2 e evs conf /\ no_velocity conf /\ dmem String.eqb e "g0" = true /\
  event_velocities evs l /\ l = [JNum 3000; JNum 3500].
Proof. exact ex_parts_sep. Qed.

(** With one inversion for all events it is the velocity of the result. *)
Theorem C93_simultaneous :
  forall result e evs conf v, parts result e evs conf -> no_velocity conf ->
    dmem String.eqb e "g0" = false -> velocity_in result v ->
    exists r, plot_results_v0 JNull result = Ok (v, r).
Proof. exact v0_simultaneous. Qed.
Print Assumptions C93_simultaneous.

Example C93_simultaneous_ex : exists e evs conf, parts ex_sim e evs conf /\ no_velocity conf /\ dmem String.eqb e "g0" = false /\
  velocity_in ex_sim (JNum 3500).
Proof. exact ex_parts_sim. Qed.

(** Without any velocity the plot fails. *)
Theorem C93_missing :
  forall result e evs conf, parts result e evs conf -> no_velocity conf ->
    (dmem String.eqb e "g0" = true /\ forall id x, In (id, JDict x) evs -> dget String.eqb x "v0" = None) \/
    (dmem String.eqb e "g0" = false /\ dget String.eqb result "v0" = None) ->
    plot_results_v0 JNull result = Err KeyError.
Proof. exact v0_missing. Qed.
Print Assumptions C93_missing.

Example C93_missing_ex : exists result e evs conf, parts result e evs conf /\ no_velocity conf /\
  dmem String.eqb e "g0" = false /\ dget String.eqb result "v0" = None.
Proof. exact ex_parts_missing. Qed.

(** The plot of an event uses the velocity that is given, otherwise that of the
    result, otherwise that of the configuration; there may be none. *)
Theorem C93_event :
  forall d,
    (forall z r, z <> 0%Z -> eventresult_v0 (JNum z) r = Ok (JNum z)) /\
    (forall v, velocity_in d v -> eventresult_v0 JNull (JDict d) = Ok v) /\
    (forall conf v, no_velocity d -> dget String.eqb d "config" = Some (JDict conf) -> velocity_in conf v ->
       eventresult_v0 JNull (JDict d) = Ok v) /\
    (no_velocity d -> (dget String.eqb d "config" = None \/ exists conf, dget String.eqb d "config" = Some (JDict conf) /\ no_velocity conf) ->
       exists v, eventresult_v0 JNull (JDict d) = Ok v /\ (v = JNull \/ v = JNum 0)).
Proof. exact event_v0. Qed.
Print Assumptions C93_event.

Example C93_event_ex : eventresult_v0 JNull (JDict ex_sim) = Ok (JNum 3500) /\ eventresult_v0 JNull (JDict ex_sep) = Ok (JNum 3).
Proof. split; reflexivity. Qed.

Open Scope R_scope.

(** * C89 *)

(** With robust means the plot of a simultaneous inversion shows its value at each
    frequency. *)
Theorem C89_robust :
  forall rlm (freq value : list R), (forall x, In x value -> 0 < x) ->
    List.length freq = List.length value ->
    single_points rlm freq (map FNum value) None true = Ok (combine freq (map Some value)).
Proof. exact single_robust. Qed.
Print Assumptions C89_robust.

Example C89_robust_ex : (forall x, In x [2; 3] -> 0 < x) /\ List.length [1; 2] = List.length [2; 3].
Proof. exact (conj ex_single_pos eq_refl). Qed.

(** Without robust means there is no plot unless there is only one frequency. *)
Theorem C89_plain :
  forall rlm (freq : list R) (value : list pyf) ws, List.length freq <> 1%nat ->
    single_points rlm freq value ws false = Err ValueError.
Proof. exact single_plain. Qed.
Print Assumptions C89_plain.

Example C89_plain_ex : List.length [1; 2] <> 1%nat.
Proof. exact (fun H => match H with eq_refl => I end). Qed.

(** With plain means the values of a simultaneous inversion cannot be plotted. *)
Theorem C89_refuted :
  exists (rlm : list R -> R * R) freq value,
    List.length freq = List.length value /\ (forall x, In x value -> 0 < x) /\
    single_points rlm freq (map FNum value) None false = Err ValueError.
Proof. exact single_refuted. Qed.
Print Assumptions C89_refuted.

(** * C90 *)

(** A setting given to recalc_source is recorded: calculating the properties again
    from the new result uses the same setting. *)
Theorem C90_given :
  forall (E : Type) (w : world E) eventid args result r e k v,
    postprocess w "recalc_source" None eventid args (Some result) = Ok (Some r, e) -> In k settings ->
    NoDup (map fst args) -> dget String.eqb args k = Some v -> truthy v = true ->
    exists c, jget r "config" = Ok (JDict c) /\ source_setting JNull c k = v.
Proof. exact (@recalc_given). Qed.
Print Assumptions C90_given.

Example C90_given_ex : exists r e,
  postprocess show_world "recalc_source" None None [("seismic_moment_method", JStr "mean")] (Some ex_recalc) = Ok (Some r, e) /\
  In "seismic_moment_method" settings /\ NoDup (map fst [("seismic_moment_method", JStr "mean")]) /\
  dget String.eqb [("seismic_moment_method", JStr "mean")] "seismic_moment_method" = Some (JStr "mean") /\
  truthy (JStr "mean") = true.
Proof. exact ex_recalc_given. Qed.

(** A setting that is not given is lost from the result, whatever was recorded. *)
Theorem C90_lost :
  forall (E : Type) (w : world E) eventid args result r e k,
    postprocess w "recalc_source" None eventid args (Some result) = Ok (Some r, e) -> In k settings ->
    NoDup (map fst args) -> dget String.eqb args k = None ->
    exists c, jget r "config" = Ok (JDict c) /\ source_setting JNull c k = JNull.
Proof. exact (@recalc_lost). Qed.
Print Assumptions C90_lost.

(** The recorded method "fit" is used by the recalculation, but not recorded. *)
Theorem C90_refuted :
  exists (w : world string) args result conf r e conf2,
    jget result "config" = Ok (JDict conf) /\
    source_setting (getd args "seismic_moment_method" JNull) conf "seismic_moment_method" = JStr "fit" /\
    postprocess w "recalc_source" None None args (Some result) = Ok (Some r, e) /\
    jget r "config" = Ok (JDict conf2) /\ source_setting JNull conf2 "seismic_moment_method" <> JStr "fit".
Proof. exact recalc_refuted. Qed.
Print Assumptions C90_refuted.

(** If the options are not given, the source spectra cannot be plotted afterwards. *)
Theorem C90_plot :
  forall (E : Type) (w : world E) eventid args result r e,
    postprocess w "recalc_source" None eventid args (Some result) = Ok (Some r, e) ->
    NoDup (map fst args) -> dget String.eqb args "seismic_moment_options" = None ->
    exists o, sds_options JNull r = Ok o /\
      forall freq omM pars method colored, (exists x, In x omM /\ x <> FNan) ->
        plot_sds freq omM pars method (pars_of o) colored = Err AttributeError.
Proof. exact (@recalc_sds). Qed.
Print Assumptions C90_plot.

(** If they are given, the plotted model has the given parameters. *)
Theorem C90_shown :
  forall (E : Type) (w : world E) eventid args result r e d fc n g,
    postprocess w "recalc_source" None eventid args (Some result) = Ok (Some r, e) ->
    NoDup (map fst args) -> dget String.eqb args "seismic_moment_options" = Some (JDict d) ->
    dget String.eqb d "fc" = Some (JNum fc) -> dget String.eqb d "n" = Some (JNum n) -> dget String.eqb d "gamma" = Some (JNum g) ->
    fc <> 0%Z -> n <> 0%Z -> g <> 0%Z ->
    exists o, sds_options JNull r = Ok o /\
      forall freq omM own method colored dr model f, fit_method method ->
        plot_sds freq omM own method (pars_of o) colored = Ok (Some dr) -> d_model dr = Some model ->
        exists M0, d_level dr = Some M0 /\
          model f = (M0 * Rpower (1 + Rpower (f / IZR fc) (IZR n * IZR g)) (- (1) / IZR g))%R.
Proof. exact (@recalc_shown). Qed.
Print Assumptions C90_shown.

Example C90_shown_ex : exists r e dr,
  postprocess show_world "recalc_source" None None
    [("seismic_moment_options", JDict [("fc", JNum 10); ("n", JNum 2); ("gamma", JNum 1)])] (Some ex_recalc) = Ok (Some r, e) /\
  fit_method (Some "fit") /\
  plot_sds [1%R] [FNum 3] {| p_M0 := Some 4%R; p_fc := None; p_n := None; p_gamma := None |} (Some "fit")
    (pars_of (JDict [("fc", JNum 10); ("n", JNum 2); ("gamma", JNum 1)])) false = Ok (Some dr) /\ d_model dr <> None.
Proof. exact ex_recalc_shown. Qed.

Example C90_lost_ex : exists r e,
  postprocess show_world "recalc_source" None None [("plot_sds", JBool false)] (Some ex_recalc) = Ok (Some r, e) /\
  In "seismic_moment_options" settings /\ NoDup (map fst [("plot_sds", JBool false)]) /\
  dget String.eqb [("plot_sds", JBool false)] "seismic_moment_options" = None /\
  exists x, In x [FNan; FNum 3] /\ x <> FNan.
Proof. exact ex_recalc_lost. Qed.
