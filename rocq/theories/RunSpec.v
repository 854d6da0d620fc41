(** What is expected of the preparation of a run, written without the functions of
    RunModel.v: what a user finds in the configuration file and the arguments, and
    which names are special. *)
From Coq Require Import String List ZArith.
From Verif Require Import Base RunModel.
Import ListNotations.
Open Scope string_scope.
Open Scope list_scope.

(** keys occur once *)
Definition distinct {V} (d : list (string * V)) : Prop := NoDup (map fst d).

(** the option [k]: of the second dictionary, or else of the first *)
Definition override (d args : dict) (k : string) : option json :=
  match dget String.eqb args k with Some v => Some v | None => dget String.eqb d k end.

(** [d] is the content of the configuration file, nothing if there is no file *)
Definition config_is (read : string -> conf_file) (conf : option string) (d : dict) : Prop :=
  match conf with
  | None => d = []
  | Some c => (In c ["None"; "none"; "null"; ""] /\ d = []) \/
              (~ In c ["None"; "none"; "null"; ""] /\ read c = CfgDict d)
  end.

(** a value or its default *)
Definition or_default (v : option json) (x : json) : json := match v with Some v => v | None => x end.

(** values which count as false *)
Definition off (v : json) : Prop := In v [JNull; JBool false; JNum 0%Z; JStr ""; JList []; JDict []].

(** options used by run itself *)
Definition own_options : list string := ["logging"; "verbose"; "loglevel"; "logfile"; "prefix"; "output"; "indent"].

(** dictionaries of plot options *)
Definition plot_options : list string :=
  ["plot_energies_options"; "plot_optimization_options"; "plot_fits_options"; "plot_eventresult_options";
   "plot_eventsites_options"; "plot_results_options"; "plot_sites_options"; "plot_sds_options";
   "plot_mags_options"; "remove_response_options"].

(** switches of plots *)
Definition plot_switches : list string :=
  ["plot_energies"; "plot_optimization"; "plot_fits"; "plot_eventresult"; "plot_eventsites"; "plot_results";
   "plot_sites"; "plot_sds"; "plot_mags"; "plot_remove_response"].

(** options taken for the data, which are not passed to the inversion *)
Definition data_options : list string :=
  ["inventory"; "filter_inventory"; "events"; "filter_events"; "resolve_seedid"; "read_events_kwargs"; "data";
   "client_options"; "plugin"; "cache_waveforms"; "get_waveforms"; "align_sites"].
(** options taken for the alignment of sites *)
Definition align_options : list string :=
  ["seismic_moment_method"; "seismic_moment_options"; "align_sites_station"; "align_sites_value"].

(** an option that is passed on as it is *)
Definition passed_on (plots : json) (k : string) : Prop :=
  k <> "cmd" /\ ~ In k own_options /\ ~ In k plot_options /\ (plots = JNull \/ ~ In k plot_switches).

(** no prefix is given *)
Definition no_prefix (v : option json) : Prop :=
  v = None \/ v = Some JNull \/ v = Some (JStr "").

(** a result with the entry [k] replaced *)
Definition replaced (r r2 : dict) (k : string) (v : json) : Prop :=
  dget String.eqb r2 k = Some v /\ forall k2, k2 <> k -> dget String.eqb r2 k2 = dget String.eqb r k2.

(** commands with an inversion *)
Definition inverting : list string := ["go"; "fixed"; "source"].

(** [p] are the prepared arguments of a call *)
Definition prepared_by (read : string -> conf_file) (conf : option string) (cmd : string) (plots : json) (args : dict)
    (p : prepared) : Prop :=
  exists m, merge_conf read conf args = Ok (Some m) /\ prepare cmd plots m = Ok p.

(** well-formed options: a readable file, a prefix that is a text, file names that
    are texts, options of plots that are dictionaries *)
Definition text_or_nothing (v : option json) : Prop :=
  v = None \/ v = Some JNull \/ exists s, v = Some (JStr s).
Definition well_formed (look : string -> option json) : Prop :=
  text_or_nothing (look "prefix") /\ text_or_nothing (look "output") /\
  forall k, In k plot_options -> look k = None \/
    exists o, look k = Some (JDict o) /\
      (dget String.eqb o "fname" = None \/ exists s, dget String.eqb o "fname" = Some (JStr s)).

(** the result given as an option: a file name, or the result itself *)
Definition content (read_json : string -> res json) (v : json) (r : json) : Prop :=
  match v with
  | JNull => False
  | JStr f => read_json f = Ok r
  | v => r = v
  end.
