(** Concrete ends of inversions for the theorems of FinishProps.v. *)
From Coq Require Import String List Bool ZArith.
From Verif Require Import Base RunModel RunSpec RunEx RunSpec2 FinishModel FinishSpec.
Import ListNotations.
Open Scope string_scope.
Open Scope list_scope.

(** both plots of an event, with a method given among the options *)
Definition fin_settings : plot_settings := {|
  ps_event := JBool true;
  ps_event_options := JDict [("seismic_moment_method", JStr "old"); ("fname", JStr "x_")];
  ps_sites := JBool true;
  ps_sites_options := JDict [("width", JNum 1)] |}.

(** surroundings in which the plot of the results fails *)
Definition failing_world : world string :=
  let w := ex_world [] ex_result in {|
  w_conf := w_conf w; w_join := w_join w; w_json := w_json w; w_inventory := w_inventory w; w_events := w_events w;
  w_data := w_data w; w_lower := w_lower w; w_format := w_format w; w_invert := w_invert w; w_align := w_align w;
  w_source := w_source w; w_evid := w_evid w;
  w_image := fun name _ _ _ => if String.eqb name "eventresult" then Err OtherError else Ok tt |}.

Lemma fin_drawn : exists f,
  finish (ex_world [] ex_result) (ex_result ["a"]) ["a"] (JStr "mean") (JDict []) fin_settings = Ok f /\
  fi_logged f = None /\ map plot_name (fi_plots f) = ["eventresult"; "eventsites"] /\
  ~ off (ps_event fin_settings) /\ ~ off (ps_sites fin_settings) /\ has (ex_result ["a"]) "R".
Proof.
  eexists. split; [vm_compute; reflexivity|]. split; [reflexivity|]. split; [reflexivity|].
  split; [intros H; repeat (destruct H as [H|H]; [discriminate|]); exact H|].
  split; [intros H; repeat (destruct H as [H|H]; [discriminate|]); exact H|]. eexists _, _. split; reflexivity.
Qed.

(** the method of the inversion is used, not the one given to the plot *)
Lemma fin_method : exists f fname o rest,
  finish (ex_world [] ex_result) (ex_result ["a"]) ["a"] (JStr "mean") (JDict []) fin_settings = Ok f /\
  fi_plots f = Plotted "eventresult" fname o :: rest /\ fname = "x_a" /\
  dget String.eqb o "seismic_moment_method" = Some (JStr "mean").
Proof. eexists _, _, _, _. split; [vm_compute; reflexivity|]. split; [reflexivity|]. split; reflexivity. Qed.

(** a failed plot of the results prevents the plot of the sites *)
Lemma fin_failed : exists (w : world string) result id m mo s,
  ~ off (ps_sites s) /\ has result "R" /\ (forall f o, w_image w "eventsites" result f o = Ok tt) /\
  (exists f, finish w result [id] m mo
     {| ps_event := JBool false; ps_event_options := ps_event_options s; ps_sites := ps_sites s; ps_sites_options := ps_sites_options s |} = Ok f /\
     In "eventsites" (map plot_name (fi_plots f))) /\
  exists f, finish w result [id] m mo s = Ok f /\ fi_plots f = [] /\ fi_logged f = Some OtherError.
Proof.
  exists failing_world, (ex_result ["a"]), "a", (JStr "mean"), (JDict []), fin_settings.
  split; [intros H; repeat (destruct H as [H|H]; [discriminate|]); exact H|]. split; [eexists _, _; split; reflexivity|].
  split; [reflexivity|]. split; eexists; (split; [vm_compute; reflexivity|]); [now left|split; reflexivity].
Qed.

Lemma fin_shared : exists fs,
  finish_all (ex_world [] ex_result)
    [(ex_result ["a"], ["a"], JStr "mean", JDict []); (ex_result ["b"], ["b"], JStr "fit", JDict [("n", JNum 2)])] fin_settings = Ok fs /\
  map (fun f => List.length (fi_plots f)) fs = [2; 2]%nat.
Proof. eexists. split; [vm_compute; reflexivity|reflexivity]. Qed.

Lemma fin_title : exists f,
  ~ off (JBool true) /\ dget String.eqb [("title", JStr "t")] "title" = Some (JStr "t") /\
  finish (ex_world [] ex_result) (ex_result ["a"]) ["a"] (JStr "mean") (JDict [])
    {| ps_event := JBool true; ps_event_options := JDict [("title", JStr "t")]; ps_sites := JBool true; ps_sites_options := JDict [] |} = Ok f.
Proof.
  eexists. split; [intros H; repeat (destruct H as [H|H]; [discriminate|]); exact H|]. split; [reflexivity|]. vm_compute. reflexivity.
Qed.
