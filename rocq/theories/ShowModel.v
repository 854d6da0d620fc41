(** Model of the choice of values by the plots of /repo/qopen/imaging.py, and of
    their settings after recalc_source. *)
From Coq Require Import String List Bool ZArith Reals.
From Verif Require Import Base Pyf StatModel RunModel DepModel.
Import ListNotations.
Open Scope string_scope.
Open Scope list_scope.

(** ** Plots of one event *)

(** plot_eventsites, imaging.py:506: the site responses that are drawn *)
Definition eventsites_values (result : json) : res json := jget result "R".

(** plot_eventresult, imaging.py:469-474: the dictionary of the values that are
    drawn.  "W" is one of the quantities if [wok] (core.py:1587-1588). *)
Definition eventresult_values (wok : bool) (result : json) : res dict :=
  match result with
  | JDict d =>
      if wok then
        match dget String.eqb d "events" with
        | None => Err KeyError
        | Some (JDict []) => Err IndexError
        | Some (JDict ((_, JDict e) :: _)) => Ok (dupdate String.eqb (dpop String.eqb d "events") e)
        | Some (JDict _) => Err TypeError
        | Some _ => Err AttributeError
        end
      else Ok d
  | _ => Err TypeError
  end.

(** [a or b] *)
Definition jor (a b : json) : json := if truthy a then a else b.

(** plot_eventresult, imaging.py:467: the velocity that is used.  Simplification:
    a result that is not a dictionary is a TypeError. *)
Definition eventresult_v0 (v0 : json) (result : json) : res json :=
  if truthy v0 then Ok v0
  else match result with
       | JDict d =>
           if truthy (getd d "v0" JNull) then Ok (getd d "v0" JNull)
           else match getd d "config" (JDict []) with
                | JDict conf => Ok (getd conf "v0" JNull)
                | _ => Err AttributeError
                end
       | _ => Err TypeError
       end.

(** ** Plots of all results *)

(** [list(result['events'].values())[0]], imaging.py:546, 600 *)
Definition first_event (result : dict) : res json :=
  do evs <- jget (JDict result) "events";
  match evs with
  | JDict [] => Err IndexError
  | JDict ((_, e) :: _) => Ok e
  | _ => Err AttributeError
  end.

(** [collect_results(result, only=(.., 'v0'))['v0']], core.py:375-396: velocities of
    the events that have one.  Simplification: kept as a list of values. *)
Definition collected_v0 (result : dict) : res json :=
  do evs <- jget (JDict result) "events";
  match evs with
  | JDict evs =>
      match flat_map (fun kv => match snd kv with
                                | JDict e => match dget String.eqb e "v0" with Some v => [v] | None => [] end
                                | _ => []
                                end) evs with
      | [] => Err KeyError
      | l => Ok (JList l)
      end
  | _ => Err AttributeError
  end.

(** plot_results, imaging.py:545-552: the velocity that is used and the result
    afterwards.  For simultaneous inversions [colres] is the result itself. *)
Definition plot_results_v0 (v0 : json) (result : dict) : res (json * dict) :=
  do e <- first_event result;
  do g0 <- jin e "g0";
  do conf <- jget (JDict result) "config";
  match conf with
  | JDict conf =>
      let v := jor v0 (getd conf "v0" JNull) in
      if g0 then
        do v <- (if truthy v then Ok v else collected_v0 result); Ok (v, result)
      else
        do v <- (if truthy v then Ok v else jget (JDict result) "v0"); Ok (v, dpop String.eqb result "v0")
  | _ => Err AttributeError
  end.

Section Means.
  (** robust linear model of statsmodels, see StatModel *)
  Variable rlm : list R -> R * R.

  (** imaging.py:569 for simultaneous inversions: [gerr(value, axis=0, ...)] of an array
      with one axis, the frequencies.  robust_stat (util.py:92-103) works entry by entry,
      the average (util.py:67) reduces the axis to one value; None is masked. *)
  Definition single_means (value : list pyf) (ws : option (list R)) (robust : bool) : res (list (option R)) :=
    match robust, ws with
    | true, Some _ => Err NotImplementedError
    | true, None => mapM (fun x => gmean rlm [x] None true 5) value
    | false, _ => do m <- gmean rlm value ws false 5; Ok [m]
    end.

  (** imaging.py:566-573 for simultaneous inversions: the points that are drawn.
      [ax.errorbar] of matplotlib demands as many values as frequencies. *)
  Definition single_points (freq : list R) (value : list pyf) (ws : option (list R)) (robust : bool)
      : res (list (R * option R)) :=
    do m <- single_means value ws robust;
    if Nat.eqb (List.length freq) (List.length m) then Ok (combine freq m) else Err ValueError.
End Means.

(** ** Settings of the source spectra *)

(** source.py:194-195: [given or conf.get(k)] *)
Definition source_setting (given : json) (conf : dict) (k : string) : json :=
  jor given (getd conf k JNull).

(** plot_all_sds, imaging.py:704, 706 *)
Definition sds_options (given : json) (result : json) : res json :=
  match result with
  | JDict d => match getd d "config" (JDict []) with
               | JDict conf => Ok (jor given (getd conf "seismic_moment_options" (JDict [])))
               | _ => Err AttributeError
               end
  | _ => Err AttributeError
  end.

(** the parameters in a dictionary of options for plot_sds; no dictionary, no
    parameters.  Simplification: only numbers. *)
Definition pars_of (j : json) : option pars :=
  match j with
  | JDict d =>
      let num k := match dget String.eqb d k with Some (JNum z) => Some (IZR z) | _ => None end in
      Some {| p_M0 := num "M0"; p_fc := num "fc"; p_n := num "n"; p_gamma := num "gamma" |}
  | _ => None
  end.
