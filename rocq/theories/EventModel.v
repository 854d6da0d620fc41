(** Model of station names, arrivals and picks, /repo/qopen/core.py:198-280,
    1318-1323. *)
From Coq Require Import String Ascii List Bool Arith ZArith.
From Verif Require Import Base PyStr SiteModel.
Import ListNotations.
Open Scope string_scope.
Open Scope list_scope.

(** [s.rsplit('.', 2)[0]], core.py:200: without the last two parts (or what
    there is of them) *)
Definition rsplit2_head (s : string) : string :=
  let parts := split_on "." s in
  let n := List.length parts in
  join "." (firstn (n - Nat.min 2 (n - 1)) parts).

(** [get_station], core.py:198-203 *)
Definition get_station (seedid : string) : string :=
  let st := rsplit2_head seedid in
  if String.prefix "." st then drop 1 st else st.

(** [get_eventid], core.py:206-208, for the text of the resource id *)
Definition get_eventid (resource_id : string) : string :=
  List.last (split_on "/" resource_id) "".

(** the id of a trace: NET.STA.LOC.CHA (obspy [Trace.id], core.py:213) *)
Definition seed (net sta loc cha : string) : string :=
  (net ++ "." ++ sta ++ "." ++ loc ++ "." ++ cha)%string.

(** [st.split('.', 1)[1]], core.py:1322: what follows the first dot, IndexError
    if there is none *)
Fixpoint after_dot (s : string) : res string :=
  match s with
  | EmptyString => Err IndexError
  | String a r => if Ascii.eqb a "." then Ok r else after_dot r
  end.

(** [list(OrderedDict.fromkeys(l))], core.py:1323 *)
Definition fromkeys (l : list string) : list string :=
  dkeys (dict_of String.eqb (map (fun k => (k, tt)) l)).

(** core.py:1322-1323: the station names with the network code ignored *)
Definition ignore_network (stations : list string) : res (list string) :=
  do l <- mapM after_dot stations; Ok (fromkeys l).

(** Arrivals of an origin: phase and the pick it refers to; the pick is missing
    if the reference cannot be resolved (core.py:269-270). *)
Record arrival := { phase : string; pick : option (string * Z) }.

(** An event: the preferred origin, if any, and the list of all origins, each
    given by its arrivals (core.py:216-257).  Simplification: an origin object
    without any content counts as true here, in obspy it is false. *)
Record event := { preferred : option (list arrival);
                  origins : list (list arrival) }.

(** [get_origin(event).arrivals], core.py:216-218 *)
Definition origin_arrivals (ev : event) : res (list arrival) :=
  match preferred ev with
  | Some o => Ok o
  | None => match origins ev with
            | [] => Err IndexError
            | o :: _ => Ok o
            end
  end.

(** [get_arrivals], core.py:234-257; None is returned with a warning *)
Definition get_arrivals (ev : event) : res (option (list arrival)) :=
  do ar <- origin_arrivals ev;
  if Nat.ltb 0 (List.length ar) then Ok (Some ar)
  else
    match origins ev with
    | [] => Err IndexError
    | ar :: _ =>
        if Nat.ltb 0 (List.length ar) then Ok (Some ar)
        else
          let candidates :=
            filter (fun o => Nat.ltb 0 (List.length o)) (origins ev) in
          if Nat.eqb (List.length candidates) 0 then Ok None
          else if Nat.eqb (List.length candidates) 1 then Ok (nth_error candidates 0)
          else Ok None
    end.

(** one round of the loop in [get_picks], core.py:263-279; [x not in 'PS'] is
    the substring test; following an unresolved pick is an AttributeError *)
Definition add_pick (station : string) (picks : list (string * Z)) (a : arrival)
  : res (list (string * Z)) :=
  let ph := py_upper (phase a) in
  let ph := if inb String.eqb ph ["PG"; "SG"] then substring 0 1 ph else ph in
  if negb (substr ph "PS") then Ok picks
  else
    match pick a with
    | None => Err AttributeError
    | Some (seedid, time) =>
        if String.eqb station (get_station seedid)
        then Ok (dset String.eqb picks ph time)
        else Ok picks
    end.

(** [get_picks], core.py:260-280 *)
Definition get_picks (arrivals : list arrival) (station : string)
  : res (list (string * Z)) :=
  fold_left (fun acc a => do picks <- acc; add_pick station picks a)
            arrivals (Ok []).
