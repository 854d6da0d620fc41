(** Model of the plots at the end of invert, /repo/qopen/core.py:1425-1443, with
    _plot, core.py:1552-1604, of RunModel.v. *)
From Coq Require Import String List Bool.
From Verif Require Import Base RunModel.
Import ListNotations.
Open Scope string_scope.
Open Scope list_scope.

(** The end of one inversion: the returned result, the plots drawn, the exception
    logged (core.py:1441-1442) and the dictionary of options after the call. *)
Record finished := {
  fi_result : json;
  fi_plots : list effect;
  fi_logged : option exn;
  fi_options : json }.

(** The plot arguments of invert, core.py:1044-1045.  Simplification: without
    arguments the default values are passed by the caller.  The default dictionary
    of the options is shared by all calls, as a given one is. *)
Record plot_settings := {
  ps_event : json;  (* plot_eventresult *)
  ps_event_options : json;
  ps_sites : json;  (* plot_eventsites *)
  ps_sites_options : json }.

Section Finish.
  Context {E : Type}.
  Variable w : world E.

  (** core.py:1552-1604 for an event: the plots drawn until the end or the first
      exception.  Simplification: as in RunModel.plot the imaging function gets the
      result without the changes of earlier plots. *)
  Definition event_plots (result : json) (id : string) (args : dict) : list effect * option exn :=
    match (do ok <- w_ok result; do g0 <- jin result "g0"; do R <- jin result "R"; Ok (ok, g0, R)) with
    | Err e => ([], Some e)
    | Ok (ok, g0, R) =>
        match plot_if w "eventresult" true (Some id) [("title", title id); ("quantities", quantities g0 ok)] result args with
        | Err e => ([], Some e)
        | Ok e1 =>
            match plot_if w "eventsites" R (Some id) [("title", title id)] result args with
            | Err e => (e1, Some e)
            | Ok e2 => (e1 ++ e2, None)
            end
        end
    end.

  (** core.py:1429-1432: [plot_eventresult_options.update(kw)] *)
  Definition add_moment (s : plot_settings) (method options : json) : res json :=
    if truthy (ps_event s)
    then match ps_event_options s with
         | JDict o => Ok (JDict (dupdate String.eqb o [("seismic_moment_method", method); ("seismic_moment_options", options)]))
         | _ => Err AttributeError
         end
    else Ok (ps_event_options s).

  (** core.py:1427-1443: [ids] are the ids of the events of the inversion, [method]
      and [options] its seismic_moment_method and seismic_moment_options *)
  Definition finish (result : json) (ids : list string) (method options : json) (s : plot_settings) : res finished :=
    match ids with
    | [id] =>
        do o <- add_moment s method options;
        let '(plots, logged) :=
          event_plots result id
            [("plot_eventresult", ps_event s); ("plot_eventresult_options", o);
             ("plot_eventsites", ps_sites s); ("plot_eventsites_options", ps_sites_options s)] in
        Ok {| fi_result := result; fi_plots := plots; fi_logged := logged; fi_options := o |}
    | _ => Ok {| fi_result := result; fi_plots := []; fi_logged := None; fi_options := ps_event_options s |}
    end.

  (** the ends of inversions one after another in one process (core.py:1484-1494,
      kwargs), which share the dictionary of options *)
  Fixpoint finish_all (l : list (json * list string * json * json)) (s : plot_settings) : res (list finished) :=
    match l with
    | [] => Ok []
    | (result, ids, method, options) :: l =>
        do f <- finish result ids method options s;
        do fs <- finish_all l {| ps_event := ps_event s; ps_event_options := fi_options f;
                                 ps_sites := ps_sites s; ps_sites_options := ps_sites_options s |};
        Ok (f :: fs)
    end.
End Finish.
