(** Property C124: the plots at the end of an inversion.  Theorems only. *)
From Coq Require Import String List Bool ZArith.
From Verif Require Import Base RunModel RunSpec RunEx RunSpec2 FinishModel FinishSpec FinishProof FinishEx.
Import ListNotations.
Open Scope string_scope.
Open Scope list_scope.

(** C124: the plots of the results and of the sites of the inverted event are drawn
    with the given options and file names; the plot of the results has the moment
    method and options of the inversion.  If no exception is logged, each plot which
    is switched on (of the sites, if there are site responses) is drawn once. *)
Theorem C124_drawn : forall (E : Type) (w : world E) result id m mo s f,
  finish w result [id] m mo s = Ok f ->
  (forall x, In x (fi_plots f) -> wished (w_format w) result id m mo s x /\
     exists name fname o, x = Plotted name fname o /\ w_image w name result fname o = Ok tt) /\
  NoDup (map plot_name (fi_plots f)) /\
  (fi_logged f = None ->
    (~ off (ps_event s) -> In "eventresult" (map plot_name (fi_plots f))) /\
    (~ off (ps_sites s) -> has result "R" -> In "eventsites" (map plot_name (fi_plots f)))).
Proof. exact (@finish_drawn). Qed.
Print Assumptions C124_drawn.

Example C124_drawn_ex : exists f,
  finish (ex_world [] ex_result) (ex_result ["a"]) ["a"] (JStr "mean") (JDict []) fin_settings = Ok f /\
  fi_logged f = None /\ map plot_name (fi_plots f) = ["eventresult"; "eventsites"] /\
  ~ off (ps_event fin_settings) /\ ~ off (ps_sites fin_settings) /\ has (ex_result ["a"]) "R".
Proof. exact fin_drawn. Qed.

Example C124_method_ex : exists f fname o rest,
  finish (ex_world [] ex_result) (ex_result ["a"]) ["a"] (JStr "mean") (JDict []) fin_settings = Ok f /\
  fi_plots f = Plotted "eventresult" fname o :: rest /\ fname = "x_a" /\
  dget String.eqb o "seismic_moment_method" = Some (JStr "mean").
Proof. exact fin_method. Qed.

(** C124: whatever happens while drawing, the result of the inversion is returned
    unchanged (the options of the plot have to be a dictionary). *)
Theorem C124_returned : forall (E : Type) (w : world E) result ids m mo s o,
  ps_event_options s = JDict o -> exists f, finish w result ids m mo s = Ok f /\ fi_result f = result.
Proof. exact (@finish_returned). Qed.
Print Assumptions C124_returned.

Example C124_returned_ex : exists o, ps_event_options fin_settings = JDict o.
Proof. eexists. reflexivity. Qed.

(** C124: a joint inversion of several events has no plots of an event. *)
Theorem C124_joint : forall (E : Type) (w : world E) result ids m mo s f,
  List.length ids <> 1%nat -> finish w result ids m mo s = Ok f ->
  fi_result f = result /\ fi_plots f = [] /\ fi_logged f = None /\ fi_options f = ps_event_options s.
Proof. exact (@finish_joint). Qed.
Print Assumptions C124_joint.

Example C124_joint_ex : exists f,
  List.length ["a"; "b"] <> 1%nat /\
  finish (ex_world [] ex_result) (ex_result ["a"; "b"]) ["a"; "b"] (JStr "mean") (JDict []) fin_settings = Ok f.
Proof. eexists. split; [discriminate|reflexivity]. Qed.

(** C124: inversions of one event after another share the dictionary of options,
    which is changed by each of them.  Nevertheless each has the result, plots and
    logged exception which it has with the options as given in the beginning. *)
Theorem C124_shared : forall (E : Type) (w : world E) l s fs,
  finish_all w l s = Ok fs ->
  Forall2 (fun x f' => let '(result, ids, m, mo) := x in
             exists f, finish w result ids m mo s = Ok f /\
               fi_result f' = fi_result f /\ fi_plots f' = fi_plots f /\ fi_logged f' = fi_logged f) l fs.
Proof. exact (@finish_shared). Qed.
Print Assumptions C124_shared.

Example C124_shared_ex : exists fs,
  finish_all (ex_world [] ex_result)
    [(ex_result ["a"], ["a"], JStr "mean", JDict []); (ex_result ["b"], ["b"], JStr "fit", JDict [("n", JNum 2)])] fin_settings = Ok fs /\
  map (fun f => List.length (fi_plots f)) fs = [2; 2]%nat.
Proof. exact fin_shared. Qed.

(** C124: a title among the options of the plot of the results leaves the event
    without any plot; the exception is logged and the result returned. *)
Theorem C124_title : forall (E : Type) (w : world E) result id m mo s o t f,
  ~ off (ps_event s) -> ps_event_options s = JDict o -> dget String.eqb o "title" = Some t ->
  finish w result [id] m mo s = Ok f -> fi_plots f = [] /\ fi_logged f <> None /\ fi_result f = result.
Proof. exact (@finish_title). Qed.
Print Assumptions C124_title.

Example C124_title_ex : exists f,
  ~ off (JBool true) /\ dget String.eqb [("title", JStr "t")] "title" = Some (JStr "t") /\
  finish (ex_world [] ex_result) (ex_result ["a"]) ["a"] (JStr "mean") (JDict [])
    {| ps_event := JBool true; ps_event_options := JDict [("title", JStr "t")]; ps_sites := JBool true; ps_sites_options := JDict [] |} = Ok f.
Proof. exact fin_title. Qed.

(** C124: the plots are not independent of each other: the plot of the sites, which
    would be drawn alone, is missing after a failed plot of the results. *)
Theorem C124_independent_refuted : exists (w : world string) result id m mo s,
  ~ off (ps_sites s) /\ has result "R" /\ (forall f o, w_image w "eventsites" result f o = Ok tt) /\
  (exists f, finish w result [id] m mo
     {| ps_event := JBool false; ps_event_options := ps_event_options s; ps_sites := ps_sites s; ps_sites_options := ps_sites_options s |} = Ok f /\
     In "eventsites" (map plot_name (fi_plots f))) /\
  exists f, finish w result [id] m mo s = Ok f /\ fi_plots f = [] /\ fi_logged f = Some OtherError.
Proof. exact fin_failed. Qed.
Print Assumptions C124_independent_refuted.
