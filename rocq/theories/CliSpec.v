(** What is expected of the command line, written without the functions of CliModel.v:
    the documented options of the commands and how they are written. *)
From Coq Require Import String Ascii List Bool ZArith.
From Verif Require Import Base RunModel.
Import ListNotations.
Open Scope string_scope.
Open Scope list_scope.

(** what follows an option: a text, a JSON value, an integer, nothing *)
Inductive sort := Text | Json | Number | Yes | No | Count | Help.

(** options of all commands but create *)
Definition general : list (string * (string * sort)) :=
  [("-h", ("help", Help)); ("--help", ("help", Help));
   ("-c", ("conf", Text)); ("--conf", ("conf", Text));
   ("-v", ("verbose", Count)); ("--verbose", ("verbose", Count));
   ("--pdb", ("pdb", Yes));
   ("-e", ("eventid", Text)); ("--eventid", ("eventid", Text));
   ("--prefix", ("prefix", Text))].

(** alignment of sites *)
Definition alignment : list (string * (string * sort)) :=
  [("--align-sites", ("align_sites", Yes)); ("--no-align-sites", ("align_sites", No));
   ("--align-sites-station", ("align_sites_station", Text)); ("--align-sites-value", ("align_sites_value", Json))].

(** options of the configuration file *)
Definition configuration : list (string * (string * sort)) :=
  [("--events", ("events", Text)); ("--inventory", ("inventory", Text)); ("--data", ("data", Text));
   ("--output", ("output", Text)); ("--input", ("input", Text)); ("--input-sites", ("input_sites", Text));
   ("--seismic-moment-method", ("seismic_moment_method", Text));
   ("--filter-events", ("filter_events", Json)); ("--filter-inventory", ("filter_inventory", Json));
   ("--seismic-moment-options", ("seismic_moment_options", Json));
   ("--njobs", ("njobs", Number));
   ("--resolve-seedid", ("resolve_seedid", Yes)); ("--no-resolve-seedid", ("resolve_seedid", No));
   ("--invert-events-simultaneously", ("invert_events_simultaneously", Yes));
   ("--no-invert-events-simultaneously", ("invert_events_simultaneously", No));
   ("--print-mag", ("print_mag", Yes)); ("--no-print-mag", ("print_mag", No));
   ("--overwrite-conf", ("overwrite_conf", Json))].

(** options of plots *)
Definition plotting : list (string * (string * sort)) :=
  [("--plots", ("plots", Yes)); ("--no-plots", ("plots", No));
   ("--plot-remove-response", ("plot_remove_response", Yes)); ("--no-plot-remove-response", ("plot_remove_response", No));
   ("--plot-energies", ("plot_energies", Yes)); ("--no-plot-energies", ("plot_energies", No));
   ("--plot-energies-options", ("plot_energies_options", Json));
   ("--plot-optimization", ("plot_optimization", Yes)); ("--no-plot-optimization", ("plot_optimization", No));
   ("--plot-optimization-options", ("plot_optimization_options", Json));
   ("--plot-fits", ("plot_fits", Yes)); ("--no-plot-fits", ("plot_fits", No));
   ("--plot-fits-options", ("plot_fits_options", Json));
   ("--plot-eventresult", ("plot_eventresult", Yes)); ("--no-plot-eventresult", ("plot_eventresult", No));
   ("--plot-eventresult-options", ("plot_eventresult_options", Json));
   ("--plot-eventsites", ("plot_eventsites", Yes)); ("--no-plot-eventsites", ("plot_eventsites", No));
   ("--plot-eventsites-options", ("plot_eventsites_options", Json));
   ("--plot-results", ("plot_results", Yes)); ("--no-plot-results", ("plot_results", No));
   ("--plot-results-options", ("plot_results_options", Json));
   ("--plot-sites", ("plot_sites", Yes)); ("--no-plot-sites", ("plot_sites", No));
   ("--plot-sites-options", ("plot_sites_options", Json));
   ("--plot-sds", ("plot_sds", Yes)); ("--no-plot-sds", ("plot_sds", No));
   ("--plot-sds-options", ("plot_sds_options", Json));
   ("--plot-mags", ("plot_mags", Yes)); ("--no-plot-mags", ("plot_mags", No));
   ("--plot-mags-options", ("plot_mags_options", Json))].

(** the options of the commands with their keys *)
Inductive documented : string -> list (string * (string * sort)) -> Prop :=
| D_create : documented "create"
    [("-h", ("help", Help)); ("--help", ("help", Help)); ("--tutorial", ("tutorial", Yes));
     ("-c", ("conf", Text)); ("--conf", ("conf", Text))]
| D_go : documented "go"
    (general ++ alignment ++ [("--dump-optpkl", ("dump_optpkl", Text)); ("--dump-fitpkl", ("dump_fitpkl", Text))] ++ configuration ++ plotting)
| D_fixed : documented "fixed" (general ++ alignment ++ [("--dump-fitpkl", ("dump_fitpkl", Text))] ++ configuration ++ plotting)
| D_source : documented "source" (general ++ [("--dump-fitpkl", ("dump_fitpkl", Text))] ++ configuration ++ plotting)
| D_recalc : documented "recalc_source" (general ++ alignment ++ configuration ++ plotting)
| D_plot : documented "plot" (general ++ [("--input", ("input", Text))] ++ plotting).

(** defaults of options not given; all others are left to the configuration file *)
Definition default (cmd k : string) : option json :=
  if String.eqb k "conf" then Some (JStr "conf.json")
  else if String.eqb k "pdb" then (if String.eqb cmd "create" then None else Some (JBool false))
  else None.

(** an option needs a value *)
Definition takes_value (s : sort) : Prop := match s with Text | Json | Number => True | _ => False end.

Section Words.
  Variable table : list (string * (string * sort)).

  (** the option [f] has the sort [s] *)
  Definition option_is (f : string) (s : sort) : Prop := exists k, dget String.eqb table f = Some (k, s).

  (** the word [w] is the option [f]: written out, or the beginning of only this one *)
  Definition stands_for (w f : string) : Prop :=
    dget String.eqb table f <> None /\
    (w = f \/ (dget String.eqb table w = None /\ String.prefix "--" w = true /\
               forall g, dget String.eqb table g <> None -> (String.prefix w g = true <-> g = f))).

  (** decimal digits *)
  Definition digits (s : string) : Prop := forall c, In c (list_ascii_of_string s) -> 48 <= nat_of_ascii c <= 57.

  (** a negative number *)
  Definition minus (w : string) : Prop :=
    (exists a, w = String "-" a /\ a <> "" /\ digits a) \/
    (exists a b, w = String "-" (a ++ "." ++ b) /\ digits a /\ digits b /\ b <> "").

  (** no character = *)
  Definition no_eq (s : string) : Prop := ~ In "="%char (list_ascii_of_string s).

  (** the word [w] could be meant as the option [f] *)
  Definition resembles (w f : string) : Prop :=
    exists p r, w = (p ++ r)%string /\
      ((p = f /\ (r = "" \/ exists v, r = String "=" v)) \/
       (no_eq p /\ (r = "" \/ exists v, r = String "=" v) /\ String.prefix "--" p = true /\ String.prefix p f = true) \/
       (p = f /\ String.length f = 2)).

  (** a word that can be the value of an option *)
  Definition value_word (w : string) : Prop :=
    (forall r, w <> String "-" r) \/ w = "-" \/
    (w <> "--" /\ (minus w \/ In " "%char (list_ascii_of_string w)) /\
     forall f, dget String.eqb table f <> None -> ~ resembles w f).

  (** a used option with its value *)
  Inductive use := Use (flag : string) (v : option string).

  (** the letters behind a single "-": options, and the option that awaits the next word *)
  Inductive letters : string -> list use -> option string -> Prop :=
  | L_end : forall c s, option_is (String "-" (String c "")) s -> ~ takes_value s ->
      letters (String c "") [Use (String "-" (String c "")) None] None
  | L_wait : forall c s, option_is (String "-" (String c "")) s -> takes_value s ->
      letters (String c "") [] (Some (String "-" (String c "")))
  | L_value : forall c s d v, option_is (String "-" (String c "")) s -> takes_value s -> d <> "="%char ->
      letters (String c (String d v)) [Use (String "-" (String c "")) (Some (String d v))] None
  | L_eq : forall c s v, option_is (String "-" (String c "")) s -> takes_value s ->
      letters (String c (String "=" v)) [Use (String "-" (String c "")) (Some v)] None
  | L_more : forall c s r us o, option_is (String "-" (String c "")) s -> ~ takes_value s ->
      letters r us o -> letters (String c r) (Use (String "-" (String c "")) None :: us) o.

  (** how used options are written *)
  Inductive reading : list string -> list use -> Prop :=
  | R_nil : reading [] []
  | R_switch : forall w f s ws us, stands_for w f -> option_is f s -> ~ takes_value s -> reading ws us ->
      reading (w :: ws) (Use f None :: us)
  | R_next : forall w f s v ws us, stands_for w f -> option_is f s -> takes_value s -> value_word v -> reading ws us ->
      reading (w :: v :: ws) (Use f (Some v) :: us)
  | R_equal : forall w f s v ws us, stands_for w f -> no_eq w -> option_is f s -> takes_value s -> reading ws us ->
      reading ((w ++ "=" ++ v)%string :: ws) (Use f (Some v) :: us)
  | R_letters : forall r us0 ws us, letters r us0 None -> reading ws us ->
      reading (String "-" r :: ws) (us0 ++ us)
  | R_letters_next : forall r us0 f v ws us, letters r us0 (Some f) -> value_word v -> reading ws us ->
      reading (String "-" r :: v :: ws) (us0 ++ Use f (Some v) :: us).

  (** the use [u] belongs to key [k] and sort [s] *)
  Definition used (u : use) (k : string) (s : sort) : Prop :=
    match u with Use f _ => dget String.eqb table f = Some (k, s) end.

  (** the value of a use *)
  Definition value_of (loads : string -> option json) (int_of : string -> option Z) (u : use) (s : sort) (x : json) : Prop :=
    match u, s with
    | Use _ (Some v), Text => x = JStr v
    | Use _ (Some v), Json => loads v = Some x
    | Use _ (Some v), Number => exists z, int_of v = Some z /\ x = JNum z
    | _, Yes => x = JBool true
    | _, No => x = JBool false
    | _, _ => False
    end.

  (** the options can be used together: no help, readable values, nothing switched both on
      and off *)
  Definition usable (loads : string -> option json) (int_of : string -> option Z) (us : list use) : Prop :=
    (forall u k s, In u us -> used u k s -> s <> Help /\ (s = Count \/ exists x, value_of loads int_of u s x)) /\
    (forall u1 u2 k, In u1 us -> In u2 us -> used u1 k Yes -> used u2 k No -> False).

  (** the number of uses of a key *)
  Inductive times (k : string) : list use -> Z -> Prop :=
  | T_nil : times k [] 0
  | T_use : forall u s us n, used u k s -> times k us n -> times k (u :: us) (n + 1)
  | T_other : forall u k2 s us n, used u k2 s -> k2 <> k -> times k us n -> times k (u :: us) n.

  (** the values: of the last use of a key, numbers of uses, defaults *)
  Definition values (cmd : string) (loads : string -> option json) (int_of : string -> option Z) (us : list use) (d : dict) : Prop :=
    dget String.eqb d "cmd" = Some (JStr cmd) /\
    (forall us1 u us2 k s x, us = us1 ++ u :: us2 -> used u k s -> s <> Count ->
       (forall u2 s2, In u2 us2 -> ~ used u2 k s2) -> value_of loads int_of u s x -> dget String.eqb d k = Some x) /\
    (forall u k n, In u us -> used u k Count -> times k us n -> dget String.eqb d k = Some (JNum n)) /\
    (forall k, k <> "cmd" -> (forall u s, In u us -> ~ used u k s) -> dget String.eqb d k = default cmd k).
End Words.

(** arguments of run with a name of their own *)
Definition named_arguments : list string :=
  ["cmd"; "conf"; "pdb"; "tutorial"; "eventid"; "get_waveforms"; "print_mag"; "plots"].

(** a text among the values *)
Definition text (d : dict) (k : string) : option string :=
  match dget String.eqb d k with Some (JStr s) => Some s | _ => None end.

(** a switch among the values *)
Definition switched (d : dict) (k : string) : bool :=
  match dget String.eqb d k with Some (JBool b) => b | _ => false end.

(** a value or None *)
Definition given (d : dict) (k : string) : json :=
  match dget String.eqb d k with Some v => v | None => JNull end.

(** the option --overwrite-conf gives the configuration [o] *)
Definition overwriting (d o : dict) : Prop :=
  dget String.eqb d "overwrite_conf" = Some (JDict o) \/ (dget String.eqb d "overwrite_conf" = None /\ o = []).

(** [args] are the options of the configuration: those of [o] go first *)
Definition passed (d o args : dict) : Prop :=
  forall k, dget String.eqb args k =
    if inb String.eqb k ("overwrite_conf" :: named_arguments) then None
    else match dget String.eqb o k with Some v => Some v | None => dget String.eqb d k end.
