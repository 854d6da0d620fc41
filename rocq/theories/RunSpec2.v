(** What is expected of the files written and drawn by a run, written without the
    functions of RunModel.v. *)
From Coq Require Import String Ascii List Bool ZArith.
From Verif Require Import Base RunModel RunSpec.
Import ListNotations.
Open Scope string_scope.
Open Scope list_scope.

(** a result has values of the quantity [k] *)
Definition has (result : json) (k : string) : Prop :=
  exists d v, result = JDict d /\ dget String.eqb d k = Some v.

(** an event of the result has values of the quantity [k] *)
Definition event_has (result : json) (k : string) : Prop :=
  exists d evs id e, result = JDict d /\ dget String.eqb d "events" = Some (JDict evs) /\ In (id, e) evs /\ has e k.

(** spectral source energies *)
Definition has_W (result : json) : Prop := has result "W" \/ event_has result "W".

(** the plots of a result with the values they need *)
Inductive offered (result : json) : option string -> string -> Prop :=
| O_results : has result "g0" -> offered result None "results"
| O_sites : has result "R" -> offered result None "sites"
| O_sds : has_W result -> offered result None "sds"
| O_mags : has_W result -> offered result None "mags"
| O_eventresult : forall id, offered result (Some id) "eventresult"
| O_eventsites : forall id, has result "R" -> offered result (Some id) "eventsites".

(** an option or its default *)
Definition value (args : dict) (k : string) (x : json) : json := or_default (dget String.eqb args k) x.

(** the file name before the id of the event is filled in *)
Definition pattern (eventid : option string) (name : string) : string :=
  match eventid with None => (name ++ ".pdf")%string | Some _ => (name ++ "_{evid}.pdf")%string end.

(** keywords of a plot of one event *)
Definition event_keywords (result : json) (eventid : option string) (name : string) (o : dict) : Prop :=
  match eventid with
  | None => True
  | Some id =>
      dget String.eqb o "title" = Some (JStr ("event " ++ id)%string) /\
      (name = "eventresult" ->
       exists q, dget String.eqb o "quantities" = Some (JList q) /\
         forall k, In k q <->
           (has result "g0" /\ In k (map JStr ["g0"; "lsc"; "Qsc"; "b"; "li"; "Qi"])) \/ k = JStr "error" \/
           (has_W result /\ In k (map JStr ["W"; "sds"])))
  end.

(** the plot [name] in the file [f] with the options [o] is as wished *)
Definition as_wished (fill : string -> string -> string) (result : json) (eventid : option string) (args : dict)
    (name f : string) (o : dict) : Prop :=
  exists o0 f0,
    value args ("plot_" ++ name ++ "_options")%string (JDict []) = JDict o0 /\
    value o0 "fname" (JStr (pattern eventid name)) = JStr f0 /\
    f = match eventid with None => f0 | Some id => fill f0 id end /\
    (forall k v, k <> "fname" -> dget String.eqb o0 k = Some v -> dget String.eqb o k = Some v) /\
    event_keywords result eventid name o.

(** a text has a comma *)
Definition comma (s : string) : Prop := exists a b, s = (a ++ "," ++ b)%string.

(** texts separated by commas *)
Fixpoint listing (l : list string) : string :=
  match l with
  | [] => ""
  | [x] => x
  | x :: l => (x ++ "," ++ listing l)%string
  end.

(** the stations of the alignment for the given value *)
Definition stations (given st : json) : Prop :=
  match given with
  | JStr s => (~ comma s /\ st = JStr s) \/
              (comma s /\ exists l, st = JList (map JStr l) /\ listing l = s /\ forall x, In x l -> ~ comma x)
  | v => st = v
  end.

(** settings of the source parameters for the given options *)
Definition source_keywords (look : string -> option json) (kw : dict) : Prop :=
  dget String.eqb kw "seismic_moment_method" = Some (or_default (look "seismic_moment_method") JNull) /\
  dget String.eqb kw "seismic_moment_options" = Some (or_default (look "seismic_moment_options") JNull).

(** settings of the alignment for the given options *)
Definition align_keywords (look : string -> option json) (kw : dict) : Prop :=
  source_keywords look kw /\
  dget String.eqb kw "response" = Some (or_default (look "align_sites_value") (JNum 1)) /\
  exists st, dget String.eqb kw "station" = Some st /\ stations (or_default (look "align_sites_station") JNull) st.

(** the result [r] is [r1] with the settings [kw] in its configuration *)
Definition recorded (r1 : json) (kw : dict) (r : json) : Prop :=
  exists d1 d c1 c, r1 = JDict d1 /\ r = JDict d /\
    or_default (dget String.eqb d1 "config") (JDict []) = JDict c1 /\ replaced d1 d "config" (JDict c) /\
    forall k, dget String.eqb c k = override c1 kw k.

(** the output is as wished *)
Definition output_of (lower : string -> string) (output indent r : json) (e : list effect) : Prop :=
  match output with
  | JStr o => (o = "stdout" /\ e = [Printed r]) \/
              (o <> "stdout" /\ In (lower o) ["none"; "null"; ""] /\ e = []) \/
              (o <> "stdout" /\ ~ In (lower o) ["none"; "null"; ""] /\ e = [Written o r indent])
  | v => v = JNull /\ e = []
  end.

(** the magnitudes printed for a result: one for each event *)
Definition magnitudes (print_mag : bool) (r : json) (e : list effect) : Prop :=
  match print_mag with
  | false => e = []
  | true => (~ has r "events" /\ e = []) \/
            exists d evs, r = JDict d /\ dget String.eqb d "events" = Some (JDict evs) /\
              Forall2 (fun kv x => exists ev, snd kv = JDict ev /\ x = PrintedMag (fst kv) (dget String.eqb ev "Mw")) evs e
  end.

(** the magnitudes of a result can be printed: they are numbers or missing *)
Definition printable (r : json) : Prop :=
  exists d, r = JDict d /\ forall x, dget String.eqb d "events" = Some x ->
    exists evs, x = JDict evs /\ forall id y, In (id, y) evs ->
      exists ev, y = JDict ev /\ forall m, dget String.eqb ev "Mw" = Some m -> exists z, m = JNum z.

(** there is a configuration file *)
Definition conf_given (conf : option string) : Prop :=
  match conf with None => False | Some c => ~ In c ["None"; "none"; "null"; ""] end.

(** [shown] is the result of the file with the configuration [a], with only the
    selected event *)
Definition shown_of (file shown : json) (eventid : option string) (a : dict) : Prop :=
  exists fd sd, file = JDict fd /\ shown = JDict sd /\ dget String.eqb sd "config" = Some (JDict a) /\
    (forall k, k <> "config" -> k <> "events" -> dget String.eqb sd k = dget String.eqb fd k) /\
    match eventid with
    | None => dget String.eqb sd "events" = dget String.eqb fd "events"
    | Some id => exists evs ev, dget String.eqb fd "events" = Some (JDict evs) /\ dget String.eqb evs id = Some ev /\
                   dget String.eqb sd "events" = Some (JDict [(id, ev)])
    end.

(** the options of plots reach the plots *)
Definition plot_arguments (from to : dict) : Prop :=
  forall k, In k (plot_switches ++ plot_options) -> dget String.eqb to k = dget String.eqb from k.

(** the commands with a result *)
Definition calculating : list string := inverting ++ ["recalc_source"].

(** an error that ends the program *)
Definition exit (x : exn) : Prop := x = KeyboardInterrupt \/ x = SystemExit.

(** the result before alignment or recalculation: of the inversion, or of the file *)
Definition start {E} (w : world E) (cmd : string) (look : string -> option json) (al r0 : json) : Prop :=
  (In cmd inverting -> exists a evs, w_invert w al a evs = Ok r0) /\
  (cmd = "recalc_source" -> look "input_sites" = None ->
   exists x, look "input" = Some x /\ content (w_json w) x r0).

(** the name of a plot *)
Definition plot_name (x : effect) : string := match x with Plotted n _ _ => n | _ => "" end.
