(** Concrete runs for the theorems of RunProps2.v. *)
From Coq Require Import String List Bool ZArith Arith.
From Verif Require Import Base RunModel RunSpec RunProof RunProof2 RunProof3 RunProof4 RunEx RunSpec2.
Import ListNotations.
Open Scope string_scope.
Open Scope list_scope.

(** plots of one event *)
Definition plot_args : dict :=
  [("input", JStr "in.json"); ("plot_eventresult", JBool true); ("plot_eventresult_options", JDict [("fname", JStr "x_"); ("seismic", JNum 1)]);
   ("plot_eventsites", JBool false)].

Lemma plot_ex : exists e,
  plot (ex_world [] ex_result) (ex_result ["a"]) (Some "a") plot_args = Ok e /\ e <> [] /\
  offered (ex_result ["a"]) (Some "a") "eventresult" /\
  ~ off (value plot_args "plot_eventresult" (JBool false)) /\
  offered (ex_result ["a"]) None "sds".
Proof.
  eexists. split; [vm_compute; reflexivity|]. split; [discriminate|]. split; [constructor|].
  split; [intros H; repeat (destruct H as [H|H]; [discriminate|]); exact H|].
  constructor. right. eexists _, _, "a", _. split; [reflexivity|]. split; [reflexivity|]. split; [now left|].
  eexists _, _. split; reflexivity.
Qed.

Lemma plot_command_ex : exists e,
  distinct plot_args /\ distinct (@nil (string * json)) /\ config_is (w_conf (ex_world [] ex_result)) None [] /\ ~ conf_given None /\
  run (ex_world [] ex_result) "plot" None false (Some "b") JNull false JNull plot_args = Ok (JNull, e) /\ e <> [].
Proof.
  eexists. split; [distinct_tac|]. split; [constructor|]. split; [reflexivity|]. split; [cbn; tauto|].
  split; [vm_compute; reflexivity|discriminate].
Qed.

Lemma plot_title_ex : exists args o,
  ~ off (value args "plot_eventresult" (JBool false)) /\
  value args "plot_eventresult_options" (JDict []) = JDict o /\ dget String.eqb o "title" = Some (JStr "t").
Proof.
  exists [("plot_eventresult", JBool true); ("plot_eventresult_options", JDict [("title", JStr "t")])]. eexists.
  split; [intros H; repeat (destruct H as [H|H]; [discriminate|]); exact H|]. split; reflexivity.
Qed.

(** an alignment *)
Definition align_args : dict :=
  [("inventory", JObj 1); ("events", JList [JStr "a"]); ("align_sites", JBool true); ("align_sites_station", JStr "X.A,X.B");
   ("plot_sites", JBool true)].

Lemma align_ex : exists r e,
  distinct align_args /\ distinct (@nil (string * json)) /\ config_is (w_conf (ex_world [] ex_result)) None [] /\ In "go" calculating /\
  run (ex_world [] ex_result) "go" None false None JNull false JNull align_args = Ok (r, e) /\ (r, e) <> (JNull, []) /\
  ~ off (or_default (override [] align_args "align_sites") (JBool false)).
Proof.
  eexists _, _. split; [distinct_tac|]. split; [constructor|]. split; [reflexivity|]. split; [now left|].
  split; [vm_compute; reflexivity|]. split; [discriminate|].
  intros H; repeat (destruct H as [H|H]; [discriminate|]); exact H.
Qed.

(** a recalculation *)
Definition recalc_args : dict :=
  [("input", JStr "in.json"); ("seismic_moment_method", JStr "mean"); ("plot_sites", JBool true); ("output", JStr "out.json")].

Lemma recalc_run_ex : exists r e,
  distinct recalc_args /\ distinct (@nil (string * json)) /\ config_is (w_conf (ex_world [] ex_result)) None [] /\
  run (ex_world [] ex_result) "recalc_source" None false None JNull true JNull recalc_args = Ok (r, e) /\ (r, e) <> (JNull, []) /\
  off (or_default (override [] recalc_args "align_sites") (JBool false)) /\
  override [] recalc_args "input_sites" = None.
Proof.
  eexists _, _. split; [distinct_tac|]. split; [constructor|]. split; [reflexivity|].
  split; [vm_compute; reflexivity|]. split; [discriminate|]. split; [right; now left|reflexivity].
Qed.

Lemma output_ex : exists p r e,
  In "recalc_source" calculating /\ prepared_by (w_conf (ex_world [] ex_result)) None "recalc_source" JNull recalc_args p /\
  run (ex_world [] ex_result) "recalc_source" None false None JNull true JNull recalc_args = Ok (r, e) /\ (r, e) <> (JNull, []) /\
  p_output p = JStr "out.json".
Proof.
  eexists _, _, _. split; [cbn; tauto|]. split; [eexists; split; vm_compute; reflexivity|].
  split; [vm_compute; reflexivity|]. split; [discriminate|reflexivity].
Qed.

Lemma unreadable_ex :
  In "go" commands /\ "go" <> "create" /\ conf_given (Some "none.json") /\
  w_conf (ex_world ex_conf ex_result) "none.json" = CfgError.
Proof. split; [cbn; tauto|]. split; [discriminate|]. split; [cbn; intuition discriminate|reflexivity]. Qed.

Lemma load_ex : exists p x,
  prepared_by (w_conf (ex_world [] ex_result)) None "go" JNull [("inventory", JObj 1); ("events", JNum 1)] p /\
  load (ex_world [] ex_result) "go" (truthy (getd (p_args p) "align_sites" (JBool false))) JNull
    (dpop String.eqb (p_args p) "align_sites") = Err x /\ ~ exit x.
Proof.
  eexists _, _. split; [eexists; split; vm_compute; reflexivity|]. split; [vm_compute; reflexivity|].
  intros [H|H]; discriminate.
Qed.

Lemma inventory_ex : exists p,
  distinct [("events", JList [JStr "a"])] /\ config_is (w_conf (ex_world [] ex_result)) None [] /\ In "go" inverting /\
  override [] [("events", JList [JStr "a"])] "inventory" = None /\
  prepared_by (w_conf (ex_world [] ex_result)) None "go" JNull [("events", JList [JStr "a"])] p.
Proof.
  eexists. split; [distinct_tac|]. split; [reflexivity|]. split; [now left|]. split; [reflexivity|].
  eexists; split; vm_compute; reflexivity.
Qed.

Definition missing_args : dict := [("inventory", JObj 1); ("events", JList [JStr "a"]); ("input", JNull)].

Lemma missing_ex : exists p l,
  distinct missing_args /\ config_is (w_conf (ex_world [] ex_result)) None [] /\ In "source" ["fixed"; "source"; "recalc_source"] /\
  prepared_by (w_conf (ex_world [] ex_result)) None "source" JNull missing_args p /\
  load (ex_world [] ex_result) "source" (truthy (getd (p_args p) "align_sites" (JBool false))) JNull
    (dpop String.eqb (p_args p) "align_sites") = Ok l /\
  override [] missing_args "input" = Some JNull.
Proof.
  eexists _, _. split; [distinct_tac|]. split; [reflexivity|]. split; [cbn; tauto|].
  split; [eexists; split; vm_compute; reflexivity|]. split; [vm_compute; reflexivity|reflexivity].
Qed.

Lemma missing_plot_ex : exists p,
  distinct missing_args /\ config_is (w_conf (ex_world [] ex_result)) None [] /\
  prepared_by (w_conf (ex_world [] ex_result)) None "plot" JNull missing_args p /\
  override [] missing_args "input" = Some JNull.
Proof.
  eexists. split; [distinct_tac|]. split; [reflexivity|].
  split; [eexists; split; vm_compute; reflexivity|reflexivity].
Qed.

(** an input file that cannot be read *)
Lemma input_unreadable :
  exists (w : world string) args x,
    w_json w "other.json" = Err x /\ ~ exit x /\ x <> ParseError /\ get args "input" = Some (JStr "other.json") /\
    run w "recalc_source" None false None JNull false JNull args = Err x.
Proof.
  eexists (ex_world [] ex_result), [("input", JStr "other.json")], _. split; [reflexivity|].
  split; [intros [H|H]; discriminate|]. split; [discriminate|]. split; [reflexivity|]. vm_compute. reflexivity.
Qed.

Lemma magnitudes_ex : exists r e,
  In "recalc_source" calculating /\
  run (ex_world [] ex_result) "recalc_source" None false None JNull false JNull recalc_args = Ok (r, e) /\ (r, e) <> (JNull, []) /\
  printable r /\ has r "events".
Proof.
  eexists _, _. split; [cbn; tauto|]. split; [vm_compute; reflexivity|]. split; [discriminate|]. split.
  - eexists. split; [reflexivity|]. intros x H. vm_compute in H. injection H as <-. eexists. split; [reflexivity|].
    intros id y I. repeat (destruct I as [I|I]; [injection I as <- <-; eexists; split; [reflexivity|]; intros m M; vm_compute in M; try discriminate; injection M as <-; eexists; reflexivity|]).
    destruct I.
  - eexists _, _. split; reflexivity.
Qed.
