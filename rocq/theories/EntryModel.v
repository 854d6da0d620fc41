(** Model of the entries of the event catalogue and of their use,
    /repo/qopen/core.py:206-231, 1068-1080, 1096-1135, 1414-1415, 1468-1503. *)
From Coq Require Import String List Bool Reals ZArith Arith.
From Verif Require Import Base Pyf PySort SortModel StatModel CollectModel WrapModel EventModel PairsModel.
Import ListNotations.
Open Scope string_scope.
Open Scope list_scope.
Open Scope R_scope.

(** An origin of the catalogue; latitude, longitude and depth can be missing (None), core.py:1104-1111.
    Simplification: the time is given. *)
Record eorigin := { eo_time : Z; eo_lat : option R; eo_lon : option R; eo_depth : option R }.

(** An event of the catalogue, core.py:206-231: text of the resource id, preferred origin and origins,
    preferred magnitude and magnitudes, each given by its value [mag.mag], which can be missing.
    Simplification: origins and magnitudes without any content count as true, in obspy they are false. *)
Record entry := {
  e_resource : string;
  e_pref_origin : option eorigin;
  e_origins : list eorigin;
  e_pref_mag : option (option R);
  e_mags : list (option R) }.

(** core.py:206-208 *)
Definition entry_id (e : entry) : string := get_eventid (e_resource e).

(** [get_origin], core.py:216-218 *)
Definition entry_origin (e : entry) : res eorigin :=
  match e_pref_origin e with
  | Some o => Ok o
  | None => match e_origins e with
            | [] => Err IndexError
            | o :: _ => Ok o
            end
  end.

(** [get_magnitude], core.py:221-231: no magnitude and a magnitude without value give None *)
Definition entry_magnitude (e : entry) : option R :=
  match e_pref_mag e with
  | Some m => m
  | None => match e_mags e with
            | [] => None
            | m :: _ => m
            end
  end.

(** the time used for sorting, core.py:1470-1477: events without origin are ignored *)
Definition entry_time (e : entry) : option Z :=
  match entry_origin e with
  | Ok o => Some (eo_time o)
  | Err _ => None
  end.

(** [event_dict], core.py:1070, 1074 *)
Definition event_dict (events : list entry) : list (string * entry) :=
  dict_of String.eqb (map (fun e => (entry_id e, e)) events).

(** [get_magnitude(event_dict[evid])], core.py:1415 *)
Definition catalogue_magnitude (events : list entry) (evid : string) : res (option R) :=
  match dget String.eqb (event_dict events) evid with
  | None => Err KeyError
  | Some e => Ok (entry_magnitude e)
  end.

(** ** Inversion of one event after the other with the log message, core.py:1484-1503 *)

(** core.py:1486-1492: [o.depth / 1000] is calculated for the message.  A missing latitude or
    longitude fails only in the formatting of the message by the logging module, which does not
    raise; [mag] is replaced by a question mark if missing. *)
Definition log_event (e : entry) : res unit :=
  do o <- entry_origin e;
  match eo_depth o with
  | None => Err TypeError
  | Some _ => Ok tt
  end.

Section Loop.
  (** coda_normalization is not None *)
  Variable coda_norm : bool.
  (** invert with the other arguments *)
  Variable invert : list entry -> res (option ires).

  (** core.py:1484-1503 *)
  Fixpoint each_entry (events : list entry) (st : wstate) : res wstate :=
    match events with
    | [] => Ok st
    | e :: events =>
        do _ <- log_event e;
        do r <- invert [e];
        do st <- match r with None => Ok st | Some r => put_event entry_id coda_norm st e r end;
        each_entry events st
    end.
End Loop.

(** ** Distances, core.py:1096-1135 *)
Section Distance.
  Context {T : Type}.
  Variable o : popts T.

  (** [_get_distance], core.py:1098-1114, see [PairsModel.get_distance].  A missing latitude or
      longitude gives a TypeError in gps2dist_azimuth, a missing depth in the sum. *)
  Definition entry_distance (channels : list string) (ori : eorigin) (sta : string) : res (R * bool) :=
    match (match dget String.eqb (one_channel channels) sta with
           | None => Err KeyError
           | Some ch => p_coords o ch (eo_time ori)
           end) with
    | Err e => if caught e then Err SkipError else Err e
    | Ok c =>
        match eo_lat ori, eo_lon ori with
        | Some lat, Some lon =>
            do hdist <- p_gps o (co_lat c) (co_lon c) lat lon;
            let local_elevation := if p_subtract o then co_elev c else co_elev c + co_local c in
            match eo_depth ori with
            | None => Err TypeError
            | Some depth =>
                let vdist := depth + local_elevation * (if p_correct o then 1 else 0) - co_local c in
                let borehole := rltb BOREHOLE_STATION_DEPTH (co_local c) in
                Ok (sqrt (hdist ^ 2 + vdist ^ 2), borehole)
            end
        | _, _ => Err TypeError
        end
    end.

  (** the loop over the pairs, core.py:1116-1135, see [PairsModel.select_distance]: the pairs that
      are left with their distances, and the borehole stations *)
  Fixpoint select_entries (channels : list string) (origins : list (string * eorigin))
      (pairs : list (string * string)) : res (list (string * string * R) * list string) :=
    match pairs with
    | [] => Ok ([], [])
    | (ev, sta) :: pairs =>
        match (match dget String.eqb origins ev with
               | None => Err KeyError
               | Some ori => entry_distance channels ori sta
               end) with
        | Err e => if caught e then select_entries channels origins pairs else Err e
        | Ok (dist, borehole) =>
            do rest <- select_entries channels origins pairs;
            let (cs, bs) := rest in
            let bs := if borehole then sta :: bs else bs in
            if too_far o dist then Ok (cs, bs) else Ok ((ev, sta, dist) :: cs, bs)
        end
    end.
End Distance.
