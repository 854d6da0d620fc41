(** Concrete results for the theorems of ShowProps.v. *)
From Coq Require Import String List Bool ZArith Reals Lra.
From Verif Require Import Base Pyf StatModel RunModel RunEx DepModel ShowModel ShowSpec ShowProof.
Import ListNotations.
Open Scope string_scope.
Open Scope list_scope.

(** a result with two events *)
Definition ex_e1 : dict := [("W", JList [JNum 3]); ("g0", JList [JNum 4]); ("R", JDict [("sta", JNum 7)])].
Definition ex_e2 : dict := [("W", JList [JNum 6]); ("g0", JList [JNum 9]); ("R", JDict [("sta", JNum 5)])].
Definition ex_show : json :=
  JDict [("freq", JList [JNum 1]); ("g0", JList [JNum 6]); ("R", JDict [("sta", JNum 6)]);
         ("events", JDict [("a", JDict ex_e1); ("b", JDict ex_e2)]); ("config", JDict [("v0", JNum 3)])].
Definition show_world : world string :=
  let w := ex_world [] ex_result in
  {| w_conf := w_conf w; w_join := w_join w; w_json := fun _ => Ok ex_show; w_inventory := w_inventory w;
     w_events := w_events w; w_data := w_data w; w_lower := w_lower w; w_format := w_format w; w_invert := w_invert w;
     w_align := w_align w; w_source := w_source w; w_image := w_image w; w_evid := w_evid w |}.

Lemma ex_eventresult : exists a result args2 evs vals,
  load_results (w_json show_world) [("input", JStr "f")] "input" = Ok (ex_show, a) /\
  plot_input show_world false (Some "b") [("input", JStr "f")] = Ok (result, args2) /\
  jget ex_show "events" = Ok evs /\ jget evs "b" = Ok (JDict ex_e2) /\ NoDup (map fst ex_e2) /\
  eventresult_values true result = Ok vals /\ dget String.eqb vals "g0" = Some (JList [JNum 9]).
Proof.
  eexists _, _, _, _, _. repeat split; try (vm_compute; reflexivity).
  cbn. repeat constructor; cbn; intuition discriminate.
Qed.

Lemma eventsites_overall : exists (w : world string) id args result args2 file a v,
  load_results (w_json w) args "input" = Ok (file, a) /\ plot_input w false (Some id) args = Ok (result, args2) /\
  eventsites_values result = Ok v /\ event_value file id "R" <> Ok v /\ exists own, event_value file id "R" = Ok own.
Proof.
  exists show_world, "b", [("input", JStr "f")]. eexists _, _, _, _, _.
  split; [vm_compute; reflexivity|]. split; [vm_compute; reflexivity|]. split; [vm_compute; reflexivity|].
  split; [vm_compute; discriminate|]. eexists. vm_compute. reflexivity.
Qed.

Lemma eventresult_overall : exists (w : world string) id args result args2 file a vals own,
  load_results (w_json w) args "input" = Ok (file, a) /\ plot_input w false (Some id) args = Ok (result, args2) /\
  eventresult_values false result = Ok vals /\ event_value file id "g0" = Ok own /\ dget String.eqb vals "g0" <> Some own.
Proof.
  exists show_world, "b", [("input", JStr "f")]. eexists _, _, _, _, _, _.
  split; [vm_compute; reflexivity|]. split; [vm_compute; reflexivity|]. split; [vm_compute; reflexivity|].
  split; [vm_compute; reflexivity|]. vm_compute. discriminate.
Qed.

(** results of plot_results *)
Definition ex_sep : dict := match ex_show with JDict d => d | _ => [] end.
Definition ex_sim : dict :=
  [("freq", JList [JNum 1]); ("g0", JList [JNum 6]); ("v0", JNum 3500); ("events", JDict [("a", JDict [("W", JList [JNum 3])])]);
   ("config", JDict [])].

Lemma ex_results_sep : exists e v r, first_event ex_sep = Ok e /\ jin e "g0" = Ok true /\
  plot_results_v0 JNull ex_sep = Ok (v, r) /\ v = JNum 3.
Proof. eexists _, _, _. repeat split; vm_compute; reflexivity. Qed.

Lemma ex_results_sim : exists e v r, first_event ex_sim = Ok e /\ jin e "g0" = Ok false /\ NoDup (map fst ex_sim) /\
  plot_results_v0 JNull ex_sim = Ok (v, r) /\ v = JNum 3500.
Proof.
  eexists _, _, _. repeat split; try (vm_compute; reflexivity).
  cbn. repeat constructor; cbn; intuition discriminate.
Qed.

Lemma results_changed : exists v0 result v r x,
  dget String.eqb result "v0" = Some x /\ plot_results_v0 v0 result = Ok (v, r) /\ dget String.eqb r "v0" = None.
Proof. exists JNull, ex_sim. eexists _, _, _. repeat split; vm_compute; reflexivity. Qed.

Open Scope R_scope.

Lemma ex_single_pos : forall x, In x [2; 3] -> 0 < x.
Proof. intros x [<-|[<-|[]]]; lra. Qed.

Lemma single_refuted : exists (rlm : list R -> R * R) freq value,
  List.length freq = List.length value /\ (forall x, In x value -> 0 < x) /\
  single_points rlm freq (map FNum value) None false = Err ValueError.
Proof.
  exists (fun _ => (0, 0)), [1; 2], [2; 3]. split; [reflexivity|]. split; [exact ex_single_pos|].
  apply single_plain. discriminate.
Qed.

(** recalculation *)
Definition ex_recalc : json :=
  JDict [("freq", JList [JNum 1]); ("events", JDict [("a", JDict ex_e1)]);
         ("config", JDict [("seismic_moment_method", JStr "fit"); ("seismic_moment_options", JDict [("n", JNum 2)])])].

Lemma ex_recalc_given : exists r e,
  postprocess show_world "recalc_source" None None [("seismic_moment_method", JStr "mean")] (Some ex_recalc) = Ok (Some r, e) /\
  In "seismic_moment_method" settings /\ NoDup (map fst [("seismic_moment_method", JStr "mean")]) /\
  dget String.eqb [("seismic_moment_method", JStr "mean")] "seismic_moment_method" = Some (JStr "mean") /\
  truthy (JStr "mean") = true.
Proof.
  eexists _, _. split; [vm_compute; reflexivity|]. split; [now left|].
  split; [cbn; repeat constructor; cbn; intuition discriminate|]. split; reflexivity.
Qed.

Lemma ex_recalc_lost : exists r e,
  postprocess show_world "recalc_source" None None [("plot_sds", JBool false)] (Some ex_recalc) = Ok (Some r, e) /\
  In "seismic_moment_options" settings /\ NoDup (map fst [("plot_sds", JBool false)]) /\
  dget String.eqb [("plot_sds", JBool false)] "seismic_moment_options" = None /\
  exists x, In x [FNan; FNum 3] /\ x <> FNan.
Proof.
  eexists _, _. split; [vm_compute; reflexivity|]. split; [right; now left|].
  split; [cbn; repeat constructor; cbn; intuition discriminate|]. split; [reflexivity|].
  exists (FNum 3). split; [right; now left|discriminate].
Qed.

Lemma recalc_refuted : exists (w : world string) args result conf r e conf2,
  jget result "config" = Ok (JDict conf) /\ source_setting (getd args "seismic_moment_method" JNull) conf "seismic_moment_method" = JStr "fit" /\
  postprocess w "recalc_source" None None args (Some result) = Ok (Some r, e) /\
  jget r "config" = Ok (JDict conf2) /\ source_setting JNull conf2 "seismic_moment_method" <> JStr "fit".
Proof.
  exists show_world, [], ex_recalc. eexists _, _, _, _. repeat split; try (vm_compute; reflexivity). vm_compute. discriminate.
Qed.

(** results with velocities *)
Definition ex_sep2 : dict :=
  [("events", JDict [("a", JDict [("g0", JList [JNum 4]); ("v0", JNum 3000)]); ("b", JDict [("g0", JList [JNum 9]); ("v0", JNum 3500)])]);
   ("config", JDict [("v0", JNull)])].

Lemma ex_parts : exists e evs conf, parts ex_sep e evs conf /\ velocity_in conf (JNum 3).
Proof.
  eexists _, _, _. split; [split; [eexists _, _; reflexivity|split; reflexivity]|].
  exists 3%Z. split; [discriminate|split; reflexivity].
Qed.

Lemma ex_parts_sep : exists e evs conf l, parts ex_sep2 e evs conf /\ no_velocity conf /\ dmem String.eqb e "g0" = true /\
  event_velocities evs l /\ l = [JNum 3000; JNum 3500].
Proof.
  eexists _, _, _, _. split; [split; [eexists _, _; reflexivity|split; reflexivity]|].
  split; [right; left; reflexivity|]. split; [reflexivity|]. split; [|reflexivity].
  constructor; [eexists; split; reflexivity|]. constructor; [eexists; split; reflexivity|]. constructor.
Qed.

Lemma ex_parts_sim : exists e evs conf, parts ex_sim e evs conf /\ no_velocity conf /\ dmem String.eqb e "g0" = false /\
  velocity_in ex_sim (JNum 3500).
Proof.
  eexists _, _, _. split; [split; [eexists _, _; reflexivity|split; reflexivity]|].
  split; [left; reflexivity|]. split; [reflexivity|]. exists 3500%Z. split; [discriminate|split; reflexivity].
Qed.

Lemma ex_parts_missing : exists result e evs conf, parts result e evs conf /\ no_velocity conf /\
  dmem String.eqb e "g0" = false /\ dget String.eqb result "v0" = None.
Proof.
  exists (dpop String.eqb ex_sim "v0"). eexists _, _, _. split; [split; [eexists _, _; reflexivity|split; reflexivity]|].
  split; [left; reflexivity|]. split; reflexivity.
Qed.
