(** Concrete runs for the theorems of RunProps.v. *)
From Coq Require Import String List Bool ZArith Arith.
From Verif Require Import Base RunModel RunSpec RunProof RunProof2 RunProof3 RunProof4.
Import ListNotations.
Open Scope string_scope.
Open Scope list_scope.

(** a configuration file *)
Definition ex_conf : dict :=
  [("inventory", JObj 1); ("events", JList [JStr "a"; JStr "b"]); ("output", JStr "out.json"); ("g0", JNum 2);
   ("mean", JStr "robust"); ("verbose", JNum 1);
   ("plot_results_options", JDict [("fname", JStr "r.pdf"); ("llim", JNum 4)]);
   ("plot_sites_options", JDict [("mean", JStr "weighted")])].

(** a result *)
Definition ex_result (ids : list string) : json :=
  JDict [("events", JDict (map (fun id => (id, JDict [("Mw", JNum 3); ("W", JList [JNum 1]); ("R", JNum 5)])) ids));
         ("R", JDict [("sta", JNum 1)]); ("g0", JList [JNum 1]); ("config", JDict [])].

(** surroundings with this file, in which the inversion returns the given value *)
Definition ex_world (conf : dict) (inv : list string -> json) : world string := {|
  w_conf := fun c => if String.eqb c "conf.json" then CfgDict conf else CfgError;
  w_join := fun _ s => s;
  w_json := fun f => if String.eqb f "in.json" then Ok (ex_result ["a"; "b"]) else Err OtherError;
  w_inventory := fun i _ => Ok i;
  w_events := fun _ evs _ => match evs with
                             | JList l => mapM (fun x => match x with JStr s => Ok s | _ => Err TypeError end) l
                             | _ => Err TypeError
                             end;
  w_data := fun _ _ => Ok (JObj 0);
  w_lower := fun s => s;
  w_format := fun f id => (f ++ id)%string;
  w_invert := fun _ _ evs => match evs with Some evs => Ok (inv evs) | None => Err TypeError end;
  w_align := fun r _ => match r with JDict _ => Ok r | _ => Err TypeError end;
  w_source := fun r _ => match r with JDict _ => Ok r | _ => Err TypeError end;
  w_image := fun _ _ _ _ => Ok tt;
  w_evid := fun id => id |}.

Ltac distinct_tac := unfold distinct; cbn; repeat constructor; cbn; intuition discriminate.

Lemma ex_conf_distinct : distinct ex_conf.
Proof. distinct_tac. Qed.

(** arguments of a call *)
Definition ex_args : dict := [("g0", JNum 7); ("prefix", JStr "x/")].

Lemma ex_args_distinct : distinct ex_args.
Proof. distinct_tac. Qed.

Lemma ex_config_is : config_is (w_conf (ex_world ex_conf ex_result)) (Some "conf.json") ex_conf.
Proof. right. split; [cbn; intuition discriminate|reflexivity]. Qed.

(** the prepared arguments of this call *)
Definition ex_prepared : prepared :=
  match prepare "go" (JBool true) (dupdate String.eqb ex_conf ex_args) with
  | Ok p => p
  | Err _ => {| p_loggingc := JNull; p_verbose := JNull; p_loglevel := JNull; p_logfile := JNull;
                p_output := JNull; p_indent := JNull; p_args := [] |}
  end.

Lemma ex_prepared_by : prepared_by (w_conf (ex_world ex_conf ex_result)) (Some "conf.json") "go" (JBool true) ex_args ex_prepared.
Proof. exists (dupdate String.eqb ex_conf ex_args). split; vm_compute; reflexivity. Qed.

Lemma ex_passed_on : passed_on (JBool true) "g0" /\ get (p_args ex_prepared) "g0" = Some (JNum 7).
Proof.
  split; [|vm_compute; reflexivity]. split; [discriminate|]. split; [cbn; intuition discriminate|].
  split; [cbn; intuition discriminate|right; cbn; intuition discriminate].
Qed.

Lemma ex_well_formed : well_formed (override ex_conf ex_args).
Proof.
  split; [right; right; exists "x/"; reflexivity|]. split; [right; right; exists "out.json"; reflexivity|].
  intros k I. cbn in I.
  repeat (destruct I as [<-|I];
    [first [left; reflexivity | right; eexists; split; [vm_compute; reflexivity|]; first [left; reflexivity | right; eexists; vm_compute; reflexivity]]|]).
  destruct I.
Qed.

Lemma ex_run_go : exists e,
  run (ex_world ex_conf ex_result) "go" (Some "conf.json") false None JNull false (JBool true) ex_args =
  Ok (ex_result ["a"; "b"], e) /\ (ex_result ["a"; "b"], e) <> (JNull, []).
Proof. eexists. split; [vm_compute; reflexivity|discriminate]. Qed.

Lemma ex_run_event : exists e,
  run (ex_world ex_conf ex_result) "go" (Some "conf.json") false (Some "b") JNull false JNull ex_args =
  Ok (ex_result ["b"], e) /\ (ex_result ["b"], e) <> (JNull, []).
Proof. eexists. split; [vm_compute; reflexivity|discriminate]. Qed.

Lemma ex_load : exists l evs g,
  load (ex_world ex_conf ex_result) "go" (truthy (getd (p_args ex_prepared) "align_sites" (JBool false))) JNull
    (dpop String.eqb (p_args ex_prepared) "align_sites") = Ok l /\
  l_events l = Some (evs, g) /\ evs <> [] /\ forall ev, In ev evs -> ev <> "c".
Proof.
  eexists _, _, _. split; [vm_compute; reflexivity|]. split; [reflexivity|]. split; [discriminate|].
  cbn. intros ev [<-|[<-|[]]]; discriminate.
Qed.

(** ** claims that fail *)

(** the mean does not reach a plot without options *)
Lemma mean_lost :
  exists (w : world string) args m e name f o,
    get args "mean" = Some m /\ m <> JNull /\
    run w "plot" None false None JNull false JNull args = Ok (JNull, e) /\
    In (Plotted name f o) e /\ name = "results" /\ get o "mean" = None.
Proof.
  exists (ex_world [] ex_result), [("input", JStr "in.json"); ("mean", JStr "robust"); ("plot_results", JBool true)],
    (JStr "robust"), [Plotted "results" "results.pdf" []], "results", "results.pdf", [].
  repeat split; try discriminate; try (vm_compute; reflexivity). now left.
Qed.

(** print_mag of the configuration file has no effect *)
Lemma print_mag_ignored :
  exists (w : world string) d r e,
    w_conf w "conf.json" = CfgDict d /\ get d "print_mag" = Some (JBool true) /\
    run w "go" (Some "conf.json") false None JNull false JNull [] = Ok (r, []) /\
    run w "go" (Some "conf.json") false None JNull true JNull [] = Ok (r, e) /\
    In (PrintedMag "a" (Some (JNum 3))) e.
Proof.
  eexists (ex_world [("inventory", JObj 1); ("events", JList [JStr "a"]); ("print_mag", JBool true)] ex_result), _, _, _.
  split; [reflexivity|]. split; [reflexivity|]. split; [vm_compute; reflexivity|]. split; [vm_compute; reflexivity|].
  now left.
Qed.

(** eventid in the configuration file *)
Lemma eventid_in_conf :
  exists (w : world string) d,
    w_conf w "conf.json" = CfgDict d /\ get d "eventid" = Some (JStr "a") /\
    run w "plot" (Some "conf.json") false None JNull false JNull [] = Err TypeError /\
    exists e, run w "go" (Some "conf.json") false None JNull false JNull [] = Ok (ex_result ["a"; "b"], e).
Proof.
  eexists (ex_world [("inventory", JObj 1); ("events", JList [JStr "a"; JStr "b"]); ("eventid", JStr "a");
                     ("input", JStr "in.json")] ex_result), _.
  split; [reflexivity|]. split; [reflexivity|]. split; [vm_compute; reflexivity|]. eexists. vm_compute. reflexivity.
Qed.

(** output to stdout with a prefix *)
Lemma stdout_prefixed :
  exists (w : world string) args r e indent,
    get args "output" = Some (JStr "stdout") /\ get args "prefix" = Some (JStr "x") /\
    run w "go" None false None JNull false JNull args = Ok (r, e) /\
    In (Written "xstdout" r indent) e /\ ~ In (Printed r) e.
Proof.
  eexists (ex_world [] ex_result),
    [("inventory", JObj 1); ("events", JList [JStr "a"]); ("output", JStr "stdout"); ("prefix", JStr "x")], _, _, _.
  split; [reflexivity|]. split; [reflexivity|]. split; [vm_compute; reflexivity|]. split; [now left|].
  intros [H|[]]. discriminate.
Qed.

(** no output with a prefix *)
Lemma none_prefixed :
  exists (w : world string) args r e indent,
    get args "output" = Some (JStr "none") /\ get args "prefix" = Some (JStr "x") /\
    run w "go" None false None JNull false JNull args = Ok (r, e) /\
    In (Written "xnone" r indent) e /\
    run w "go" None false None JNull false JNull (dpop String.eqb args "prefix") = Ok (r, []).
Proof.
  eexists (ex_world [] ex_result),
    [("inventory", JObj 1); ("events", JList [JStr "a"]); ("output", JStr "none"); ("prefix", JStr "x")], _, _, _.
  split; [reflexivity|]. split; [reflexivity|]. split; [vm_compute; reflexivity|]. split; [now left|].
  vm_compute. reflexivity.
Qed.

(** a default file name has no prefix *)
Lemma default_not_prefixed :
  exists (w : world string) args e o,
    get args "prefix" = Some (JStr "x") /\
    run w "plot" None false None JNull false JNull args = Ok (JNull, e) /\
    In (Plotted "results" "results.pdf" o) e.
Proof.
  exists (ex_world [] ex_result), [("input", JStr "in.json"); ("prefix", JStr "x"); ("plot_results", JBool true)],
    [Plotted "results" "results.pdf" []], [].
  split; [reflexivity|]. split; [vm_compute; reflexivity|]. now left.
Qed.

(** the same call twice *)
Lemma prefix_twice :
  exists args p p2 o2,
    get args "plot_sds_options" = Some (JDict [("fname", JStr "sds.pdf")]) /\
    get args "prefix" = Some (JStr "x") /\
    prepare "go" JNull args = Ok p /\ caller_after args p <> args /\
    prepare "go" JNull (caller_after args p) = Ok p2 /\
    get (p_args p2) "plot_sds_options" = Some (JDict o2) /\ get o2 "fname" = Some (JStr "xxsds.pdf").
Proof.
  eexists [("prefix", JStr "x"); ("plot_sds_options", JDict [("fname", JStr "sds.pdf")])], _, _, _.
  split; [reflexivity|]. split; [reflexivity|]. split; [vm_compute; reflexivity|]. split; [discriminate|].
  split; [vm_compute; reflexivity|]. split; reflexivity.
Qed.

(** site responses of events *)
Lemma event_sites_wrong :
  exists r s r2 evs2 e2,
    jget s "events" = Ok (JDict [("a", JDict [("R", JNum 2); ("W", JNum 3)])]) /\
    put_sites (JDict r) s = Ok r2 /\ jget r2 "events" = Ok evs2 /\ jget evs2 "a" = Ok e2 /\
    jget e2 "R" <> Ok (JNum 2).
Proof.
  eexists [("events", JDict [("a", JDict [("R", JNum 1)])])],
    (JDict [("R", JNum 9); ("events", JDict [("a", JDict [("R", JNum 2); ("W", JNum 3)])])]), _, _, _.
  split; [reflexivity|]. split; [vm_compute; reflexivity|]. split; [reflexivity|]. split; [reflexivity|].
  vm_compute. discriminate.
Qed.

Lemma recalc_event :
  exists (w : world string) args,
    get args "input" = Some (JStr "in.json") /\
    run w "recalc_source" None false (Some "a") JNull false JNull args = Err UnboundLocalError /\
    exists r e, run w "recalc_source" None false None JNull false JNull args = Ok (r, e) /\
      r <> JNull.
Proof.
  eexists (ex_world [] ex_result), [("input", JStr "in.json")]. split; [reflexivity|]. split; [vm_compute; reflexivity|].
  eexists _, _. split; [vm_compute; reflexivity|discriminate].
Qed.

Lemma plot_event_missing :
  exists (w : world string) args,
    run w "plot" None false (Some "c") JNull false JNull args = Err KeyError /\
    exists e, run w "plot" None false (Some "a") JNull false JNull args = Ok (JNull, e).
Proof.
  eexists (ex_world [] ex_result), [("input", JStr "in.json")]. split; [vm_compute; reflexivity|].
  eexists. vm_compute. reflexivity.
Qed.

Lemma empty_catalogue :
  exists (w : world string) args,
    get args "events" = Some (JList []) /\
    run w "go" None false (Some "c") JNull false JNull args = Err IndexError.
Proof.
  eexists (ex_world [] ex_result), [("inventory", JObj 1); ("events", JList [])]. split; [reflexivity|].
  vm_compute. reflexivity.
Qed.

(** ** runs without result *)

Lemma none_print_mag :
  exists (w : world string) args,
    (forall al a evs, w_invert w al a (Some evs) = Ok JNull) /\
    run w "go" None false None JNull false JNull args = Ok (JNull, []) /\
    run w "go" None false None JNull true JNull args = Err TypeError.
Proof.
  eexists (ex_world [] (fun _ => JNull)), [("inventory", JObj 1); ("events", JList [JStr "a"])].
  split; [reflexivity|]. split; vm_compute; reflexivity.
Qed.

Lemma none_align :
  exists (w : world string) args,
    (forall al a evs, w_invert w al a (Some evs) = Ok JNull) /\
    (forall kw, w_align w JNull kw = Err TypeError) /\
    get args "align_sites" = Some (JBool true) /\
    run w "go" None false None JNull false JNull args = Err TypeError.
Proof.
  eexists (ex_world [] (fun _ => JNull)), [("inventory", JObj 1); ("events", JList [JStr "a"]); ("align_sites", JBool true)].
  split; [reflexivity|]. split; [reflexivity|]. split; [reflexivity|]. vm_compute. reflexivity.
Qed.

(** surroundings in which every inversion returns None *)
Definition none_world : world string := {|
  w_conf := fun _ => CfgError; w_join := fun _ s => s; w_json := fun _ => Err OtherError;
  w_inventory := fun i _ => Ok i; w_events := fun _ _ _ => Ok ["a"]; w_data := fun _ _ => Ok (JObj 0);
  w_lower := fun s => s; w_format := fun f _ => f; w_invert := fun _ _ _ => Ok JNull;
  w_align := fun _ _ => Err TypeError; w_source := fun _ _ => Err TypeError; w_image := fun _ _ _ _ => Ok tt;
  w_evid := fun id => id |}.

Definition none_args : dict := [("inventory", JObj 1); ("events", JObj 2); ("output", JStr "out.json")].

Lemma none_ex : exists p l,
  distinct none_args /\ prepared_by (w_conf none_world) None "go" JNull none_args p /\
  off (or_default (override [] none_args "align_sites") (JBool false)) /\
  override [] none_args "noplots" = None /\
  load none_world "go" false JNull (dpop String.eqb (p_args p) "align_sites") = Ok l /\
  (forall al a evs, w_invert none_world al a evs = Ok JNull) /\ p_output p = JStr "out.json".
Proof.
  eexists _, _. split; [distinct_tac|]. split; [eexists; split; vm_compute; reflexivity|].
  split; [right; now left|]. repeat split.
Qed.

(** ** source with sites of another file *)

Definition source_args : dict :=
  [("inventory", JObj 1); ("events", JList [JStr "a"]); ("input", JStr "in.json");
   ("input_sites", JDict [("R", JDict [("sta", JNum 8)])])].

Lemma source_ex : exists e,
  distinct source_args /\
  run (ex_world [] ex_result) "source" None false None JNull false JNull source_args = Ok (ex_result ["a"], e) /\
  (ex_result ["a"], e) <> (JNull, []) /\
  override [] source_args "input" = Some (JStr "in.json") /\
  content (w_json (ex_world [] ex_result)) (JStr "in.json") (ex_result ["a"; "b"]) /\
  override [] source_args "input_sites" = Some (JDict [("R", JDict [("sta", JNum 8)])]) /\
  content (w_json (ex_world [] ex_result)) (JDict [("R", JDict [("sta", JNum 8)])]) (JDict [("R", JDict [("sta", JNum 8)])]).
Proof.
  eexists. split; [distinct_tac|]. split; [vm_compute; reflexivity|]. split; [discriminate|].
  repeat split.
Qed.

Lemma sites_ex : exists d2,
  put_sites (JDict [("g0", JNum 1); ("events", JDict [("a", JDict [("R", JNum 1); ("W", JNum 4)])])])
    (JDict [("R", JNum 9); ("events", JDict [("a", JDict [("R", JNum 2)])])]) = Ok (JDict d2).
Proof. eexists. vm_compute. reflexivity. Qed.

Lemma rt_ex : exists (w : world string) args,
  run w "rt" None false None JNull false JNull args = Err UnboundLocalError.
Proof.
  eexists (ex_world [] ex_result), [("inventory", JObj 1); ("events", JList [JStr "a"])]. vm_compute. reflexivity.
Qed.

Lemma cmdline_ex : exists a,
  cmdline_args [("cmd", JStr "go"); ("g0", JNum 1); ("overwrite_conf", JDict [("g0", JNum 2)])] = Ok a /\
  get a "g0" = Some (JNum 2) /\ get a "cmd" = Some (JStr "go").
Proof. eexists. split; [vm_compute; reflexivity|]. split; reflexivity. Qed.

Lemma recalc_ex : exists (w : world string) p l,
  prepared_by (w_conf w) None "recalc_source" JNull [("input", JStr "in.json")] p /\
  load w "recalc_source" (truthy (getd (p_args p) "align_sites" (JBool false))) JNull
      (dpop String.eqb (p_args p) "align_sites") = Ok l.
Proof.
  eexists (ex_world [] ex_result), _, _. split; [eexists; split; vm_compute; reflexivity|]. vm_compute. reflexivity.
Qed.
