(** Model of invert_wrapper, /repo/qopen/core.py:1445-1538.  Log messages and
    plots are left out. *)
From Coq Require Import String List Bool Reals ZArith Arith.
From Verif Require Import Base Pyf PySort SortModel StatModel CollectModel.
Import ListNotations.
Open Scope string_scope.
Open Scope list_scope.
Open Scope R_scope.

(** core.py:61-71 *)
Definition DUMP_CONFIG : list string :=
  ["invert_events_simultaneously"; "mean";
   "v0"; "rho0"; "R0"; "free_surface";
   "freqs"; "filter"; "optimize"; "g0_bounds"; "b_bounds";
   "seismic_moment_method"; "seismic_moment_options";
   "bulk_window"; "coda_normalization";
   "coda_window"; "noise_windows";
   "weight"; "remove_noise";
   "adjust_sonset"; "adjust_sonset_options";
   "remove_response"; "remove_response_options";
   "correct_for_elevation"; "skip";
   "G_module"].

(** The dictionary returned by invert: the value of the key 'events', which is
    always there (core.py:1373), and the other items. *)
Record ires := { ir_items : evdict; ir_events : list (string * evdict) }.

(** values of the configuration: given to the function, or set at core.py:1529-1530 *)
Inductive cfgval (C : Type) :=
| CGiven (c : C)
| CBool (b : bool)
| CMean (m : option string).
Arguments CGiven {C}. Arguments CBool {C}. Arguments CMean {C}.

(** values of the result dictionary: lists of mean values have None instead of nan *)
Inductive tval (C : Type) :=
| TVal (v : rval)
| TMean (l : list (option R))
| TSites (d : list (string * list (option R)))
| TEvents (d : list (string * evdict))
| TConf (d : list (string * cfgval C)).
Arguments TVal {C}. Arguments TMean {C}. Arguments TSites {C}. Arguments TEvents {C}. Arguments TConf {C}.

(** ** Order of the events, core.py:1467-1478 *)
Section Order.
  Context {Ev : Type}.
  (** the origin time in the precision of its comparison; None without origin
      (the IndexError of get_origin) *)
  Variable time : Ev -> option Z.
  (** equality of events *)
  Variable same : Ev -> Ev -> bool.

  (** core.py:1468-1477 *)
  Fixpoint time_event_pairs (events : list Ev) : list (Z * Ev) :=
    match events with
    | [] => []
    | ev :: events =>
        match time ev with
        | Some t => (t, ev) :: time_event_pairs events
        | None => time_event_pairs events
        end
    end.

  (** Different events cannot be compared with < (TypeError). *)
  Definition incomparable (a b : Z * Ev) : bool :=
    (Z.eqb (fst a) (fst b) && negb (same (snd a) (snd b)))%bool.
  (** see above *)
  Fixpoint clash (l : list (Z * Ev)) : bool :=
    match l with
    | [] => false
    | x :: l => (existsb (incomparable x) l || clash l)%bool
    end.

  (** core.py:1478.  Tuples are compared by time and, at equal times, by the
      events.  Any sorting by comparisons compares neighbours of the sorted
      list, so it fails if different events have the same time. *)
  Definition sort_events (events : list Ev) : res (list Ev) :=
    let pairs := time_event_pairs events in
    if clash pairs then Err TypeError
    else match pysort (fun a b : Z * Ev => Z.leb (fst a) (fst b)) pairs with
         | [] => Err IndexError
         | l => Ok (map snd l)
         end.
End Order.

(** ** Inversion of one event after the other, core.py:1483-1508 *)
Section Separate.
  Context {Ev : Type}.
  (** get_eventid *)
  Variable evid : Ev -> string.
  (** coda_normalization is not None *)
  Variable coda_norm : bool.
  (** invert with the other arguments *)
  Variable invert : list Ev -> res (option ires).

  (** result['freq'] and result['events'] *)
  Record wstate := { ws_freq : option rval; ws_events : list (string * evdict) }.

  (** core.py:1495-1503: a result *)
  Definition put_event (st : wstate) (ev : Ev) (r : ires) : res wstate :=
    match dget String.eqb (ir_items r) "freq" with
    | None => Err KeyError
    | Some freq =>
        let items := dpop String.eqb (ir_items r) "freq" in
        do items <- match dget String.eqb (ir_events r) (evid ev) with
                    | Some d => Ok (dupdate String.eqb items d)
                    | None => if coda_norm then Ok items else Err AssertionError
                    end;
        do d <- sort_dict DUMP_ORDER items;
        Ok {| ws_freq := Some freq; ws_events := dset String.eqb (ws_events st) (evid ev) d |}
    end.

  (** core.py:1484-1503 *)
  Fixpoint each_event (events : list Ev) (st : wstate) : res wstate :=
    match events with
    | [] => Ok st
    | ev :: events =>
        do r <- invert [ev];
        do st <- match r with None => Ok st | Some r => put_event st ev r end;
        each_event events st
    end.
End Separate.

(** ** Mean values, core.py:1507-1526 *)

(** a two dimensional array.  Simplification: g0, b and error are lists *)
Definition table_of (rows : list rval) : res (list (list pyf)) :=
  mapM (fun r => match r with VList l => Ok l | _ => Err TypeError end) rows.

(** [1 / x] of numpy *)
Definition finv (x : pyf) : pyf :=
  match x with
  | FNum r => if Req_EM_T r 0 then FPInf else FNum (1 / r)
  | FNan => FNan
  | FPInf | FNInf => FNum 0
  end.

Section Means.
  (** statsmodels RLM, util.py:110-111 *)
  Variable rlm : list R -> R * R.

  (** The weighted mean of a column.  Weights of masked values have no
      influence.  A weight that is not finite makes the mean nan. *)
  Definition column_mean (data : list pyf) (ws : option (list pyf)) (robust : bool) : res (option R) :=
    match ws with
    | None => gmean rlm data None robust 5
    | Some ws =>
        if forallb (fun xw => match log_masked (fst xw), snd xw with
                              | Some _, FNum _ => true
                              | Some _, _ => false
                              | None, _ => true
                              end) (combine data ws)
        then gmean rlm data (Some (map (fun w => match w with FNum r => r | _ => 0 end) ws)) robust 5
        else Ok None
    end.

  (** number of columns *)
  Definition ncols (rows : list (list pyf)) : nat :=
    match rows with [] => 0 | row :: _ => List.length row end.

  (** numpy.shape *)
  Definition same_shape (a b : list (list pyf)) : bool :=
    (Nat.eqb (List.length a) (List.length b) && Nat.eqb (ncols a) (ncols b))%bool.

  (** [gmeanlist(x, axis=0, robust=robust, weights=weights)], util.py:134-139.
      numpy.ma.average refuses two dimensional weights of another shape. *)
  Definition mean_list (rows : list (list pyf)) (ws : option (list (list pyf))) (robust : bool)
      : res (list (option R)) :=
    match ws with
    | Some w => if same_shape rows w then
                  mapM (fun j => column_mean (column rows j) (Some (column w j)) robust) (seq 0 (ncols rows))
                else Err TypeError
    | None => mapM (fun j => column_mean (column rows j) None robust) (seq 0 (ncols rows))
    end.

  (** an entry of the collected results, as table; KeyError *)
  Definition collected_table (col : list (string * cval)) (c : string) : res (list (list pyf)) :=
    match dget String.eqb col c with
    | Some (CRows rows) => table_of rows
    | Some _ => Err TypeError
    | None => Err KeyError
    end.

  Context {C : Type}.

  (** [np.all(np.isnan(col['g0']))], core.py:1508 *)
  Definition all_nan (rows : list (list pyf)) : bool := forallb (forallb fisnan) rows.

  (** core.py:1516-1518 *)
  Definition mean_g0 (col : list (string * cval)) (ws : option (list (list pyf))) (robust : bool)
      : res (list (string * tval C)) :=
    if dmem String.eqb col "g0" then
      do g0 <- collected_table col "g0"; do g0 <- mean_list g0 ws robust;
      do b <- collected_table col "b"; do b <- mean_list b ws robust;
      Ok [("g0", TMean g0); ("b", TMean b)]
    else Ok [].

  (** core.py:1519 *)
  Definition mean_error (col : list (string * cval)) (ws : option (list (list pyf))) (robust : bool)
      : res (list (string * tval C)) :=
    do e <- collected_table col "error"; do e <- mean_list e ws robust;
    Ok [("error", TMean e)].

  (** core.py:1520-1523 *)
  Definition mean_sites (col : list (string * cval)) (ws : option (list (list pyf))) (robust : bool)
      : res (list (string * tval C)) :=
    match dget String.eqb col "R" with
    | Some (CSites []) => Ok []
    | Some (CSites d) =>
        do d <- mapM (fun sr => do t <- table_of (snd sr); do m <- mean_list t ws robust; Ok (fst sr, m)) d;
        Ok [("R", TSites d)]
    | Some _ => Err TypeError
    | None => Err KeyError
    end.

  (** core.py:1513-1515 *)
  Definition weights_of (mean : option string) (col : list (string * cval)) : res (option (list (list pyf))) :=
    match mean with
    | Some m => if String.eqb m "weighted" then
                  do e <- collected_table col "error"; Ok (Some (map (map finv) e))
                else Ok None
    | None => Ok None
    end.
  (** see above *)
  Definition robust_of (mean : option string) : bool :=
    match mean with Some m => String.eqb m "robust" | None => false end.

  (** core.py:1504-1523; None: no result *)
  Definition add_means (mean : option string) (st : wstate) : res (option (list (string * tval C))) :=
    match ws_events st with
    | [] => Ok None
    | evs =>
        do col <- collect_results (map (fun e => (fst e, Some (snd e))) evs) (Some ["g0"; "b"; "error"; "R"]) None;
        do nog0 <- (if dmem String.eqb col "g0" then do g0 <- collected_table col "g0"; Ok (all_nan g0) else Ok false);
        if nog0 : bool then Ok None
        else
          do ws <- weights_of mean col;
          do m1 <- mean_g0 col ws (robust_of mean);
          do m2 <- mean_error col ws (robust_of mean);
          do m3 <- mean_sites col ws (robust_of mean);
          Ok (Some ([("events", TEvents evs)] ++
                    match ws_freq st with Some f => [("freq", TVal f)] | None => [] end ++ m1 ++ m2 ++ m3))
    end.
End Means.

(** ** core.py:1524-1528 *)
Section Config.
  Context {C : Type}.

  (** the configuration that is written *)
  Definition config_items (kwargs : list (string * C)) (simultaneously : bool) (mean : option string)
      : list (string * cfgval C) :=
    let d := flat_map (fun k => match dget String.eqb kwargs k with
                                | Some c => [(k, CGiven c)]
                                | None => []
                                end) DUMP_CONFIG in
    let d := dset String.eqb d "invert_events_simultaneously" (CBool simultaneously) in
    dset String.eqb d "mean" (CMean mean).

  (** the configuration is added and the keys are sorted *)
  Definition finish (kwargs : list (string * C)) (simultaneously : bool) (mean : option string)
      (result : list (string * tval C)) : res (list (string * tval C)) :=
    do conf <- sort_dict DUMP_CONFIG (config_items kwargs simultaneously mean);
    sort_dict DUMP_ORDER (dset String.eqb result "config" (TConf conf)).

  (** the dictionary of invert *)
  Definition whole (r : ires) : list (string * tval C) :=
    map (fun kv => (fst kv, TVal (snd kv))) (ir_items r) ++ [("events", TEvents (ir_events r))].
End Config.

(** invert_wrapper, core.py:1445-1538.  [kwargs] are the other arguments, which
    are also given to invert. *)
Definition invert_wrapper {Ev C : Type} (time : Ev -> option Z) (same : Ev -> Ev -> bool) (evid : Ev -> string)
    (rlm : list R -> R * R) (coda_norm : bool) (invert : list Ev -> res (option ires))
    (simultaneously : bool) (mean : option string) (kwargs : list (string * C)) (events : list Ev)
    : res (option (list (string * tval C))) :=
  do events <- sort_events time same events;
  if simultaneously then
    do r <- invert events;
    match r with
    | None => Err TypeError
    | Some r => do d <- finish kwargs simultaneously mean (whole r); Ok (Some d)
    end
  else
    do st <- each_event evid coda_norm invert events {| ws_freq := None; ws_events := [] |};
    do r <- add_means rlm mean st;
    match r with
    | None => Ok None
    | Some r => do d <- finish kwargs simultaneously mean r; Ok (Some d)
    end.
