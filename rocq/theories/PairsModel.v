(** Model of the selection of event station pairs in invert,
    /repo/qopen/core.py:1063-1294.  Times are integers (nanoseconds), coordinates
    and distances real numbers.  Log messages and plots are left out. *)
From Coq Require Import String List Bool Reals ZArith Arith.
From Verif Require Import Base Pyf PySort PyStr EventModel TimesModel.
Import ListNotations.
Open Scope string_scope.
Open Scope list_scope.
Open Scope R_scope.

(** origin of an event ([get_origin], core.py:216-218); simplification: all
    values are present *)
Record origin := { or_time : Z; or_lat : R; or_lon : R; or_depth : R }.

(** result of [inventory.get_coordinates], core.py:1094 *)
Record coords := { co_lat : R; co_lon : R; co_elev : R; co_local : R }.

(** an event of the catalogue: id, origin (IndexError without origins), and the
    arrivals, core.py:1073-1080 *)
Record qevent := { q_id : string; q_origin : res origin; q_arr : EventModel.event }.

(** [except Exception] catches everything but the exits *)
Definition caught (e : exn) : bool :=
  match e with KeyboardInterrupt | SystemExit => false | _ => true end.

(** The options of invert used here.  T is the type of traces. *)
Record popts (T : Type) := {
  p_use_picks : bool;
  p_vp : option R;
  p_vs : option R;
  p_correct : bool;                      (* correct_for_elevation *)
  p_subtract : bool;                     (* subtract_local_depth *)
  p_distance : option R;                 (* skip['distance'], None: not given or null *)
  p_num_pairs : option Z;                (* skip['num_pairs'], None: not given *)
  p_window : R * R;                      (* request_window in seconds *)
  p_tol : Z;                             (* request_window_tolerance in nanoseconds *)
  p_coords : string -> Z -> res coords;  (* inventory.get_coordinates(channel, time) *)
  p_gps : R -> R -> R -> R -> res R;     (* gps2dist_azimuth(...)[0] *)
  p_shift : Z -> R -> res Z;             (* time plus seconds *)
  p_waveforms : string -> Z -> Z -> string -> res (option (list T));
                                         (* get_waveforms(seed id, t1, t2, event) *)
  p_gaps : list T -> nat;                (* len(stream.get_gaps(min_gap=1)) *)
  p_merge : list T -> res (list T);      (* stream.merge(...) *)
  p_times : T -> Z * Z;                  (* starttime and endtime of a trace *)
  p_remove : bool;                       (* remove_response is not None *)
  p_attach : list T -> nat;              (* len(stream.attach_response(inventory)) *)
  p_correct_response : list T -> res (list T)  (* removal of response or sensitivity *)
}.
Arguments p_use_picks {T}. Arguments p_vp {T}. Arguments p_vs {T}. Arguments p_correct {T}.
Arguments p_subtract {T}. Arguments p_distance {T}. Arguments p_num_pairs {T}. Arguments p_window {T}.
Arguments p_tol {T}. Arguments p_coords {T}. Arguments p_gps {T}. Arguments p_shift {T}.
Arguments p_waveforms {T}. Arguments p_gaps {T}. Arguments p_merge {T}. Arguments p_times {T}.
Arguments p_remove {T}. Arguments p_attach {T}. Arguments p_correct_response {T}.

(** [BOREHOLE_STATION_DEPTH], core.py:78 *)
Definition BOREHOLE_STATION_DEPTH : R := 10.

(** a pair with origin and distance *)
Record cand := { k_ev : string; k_sta : string; k_ori : origin; k_dist : R }.
(** and with the onsets *)
Record picked := { k_cand : cand; k_p : Z; k_s : Z }.
(** a stream with the attributes of its traces, core.py:1226-1231 *)
Record qstream (T : Type) := {
  qs_ev : string; qs_sta : string; qs_time : Z; qs_p : Z; qs_s : Z; qs_dist : R; qs_traces : list T }.
Arguments qs_ev {T}. Arguments qs_sta {T}. Arguments qs_time {T}. Arguments qs_p {T}.
Arguments qs_s {T}. Arguments qs_dist {T}. Arguments qs_traces {T}.

Section P.
  Context {T : Type}.
  Variable o : popts T.

  (** origins and arrivals by event id, core.py:1069-1080 *)
  Fixpoint read_events (events : list qevent)
      (origins : list (string * origin)) (arrivals : list (string * list arrival))
      : res (list (string * origin) * list (string * list arrival)) :=
    match events with
    | [] => Ok (origins, arrivals)
    | e :: events =>
        do ori <- q_origin e;
        let origins := dset String.eqb origins (q_id e) ori in
        if p_use_picks o then
          do ar <- get_arrivals (q_arr e);
          match ar with
          | Some ar => read_events events origins (dset String.eqb arrivals (q_id e) ar)
          | None => read_events events origins arrivals
          end
        else read_events events origins arrivals
    end.

  (** [one_channel], core.py:1085: the last channel of each station *)
  Definition one_channel (channels : list string) : list (string * string) :=
    dict_of String.eqb (map (fun ch => (get_station ch, ch)) channels).

  (** [_get_distance], core.py:1098-1114, with the test for borehole stations.
      Caching is left out (the function has no other effect). *)
  Definition get_distance (channels : list string) (ori : origin) (sta : string) : res (R * bool) :=
    match (match dget String.eqb (one_channel channels) sta with
           | None => Err KeyError
           | Some ch => p_coords o ch (or_time ori)
           end) with
    | Err e => if caught e then Err SkipError else Err e
    | Ok c =>
        do hdist <- p_gps o (co_lat c) (co_lon c) (or_lat ori) (or_lon ori);
        let local_elevation := if p_subtract o then co_elev c else co_elev c + co_local c in
        let vdist := or_depth ori + local_elevation * (if p_correct o then 1 else 0) - co_local c in
        let borehole := rltb BOREHOLE_STATION_DEPTH (co_local c) in
        Ok (sqrt (hdist ^ 2 + vdist ^ 2), borehole)
    end.

  (** [val and dist / 1000 > val], core.py:1130-1132 *)
  Definition too_far (dist : R) : bool :=
    match p_distance o with
    | None => false
    | Some val => if Req_EM_T val 0 then false else rltb val (dist / 1000)
    end.

  (** the loop over the pairs, core.py:1116-1135; pairs are removed from a copy
      of the list, which amounts to leaving them out *)
  Fixpoint select_distance (channels : list string) (origins : list (string * origin))
      (pairs : list (string * string)) : res (list cand * list string) :=
    match pairs with
    | [] => Ok ([], [])
    | (ev, sta) :: pairs =>
        match (match dget String.eqb origins ev with
               | None => Err KeyError
               | Some ori => do d <- get_distance channels ori sta; Ok (ori, d)
               end) with
        | Err e => if caught e then select_distance channels origins pairs else Err e
        | Ok (ori, (dist, borehole)) =>
            do rest <- select_distance channels origins pairs;
            let (cs, bs) := rest in
            let bs := if borehole then sta :: bs else bs in
            if too_far dist then Ok (cs, bs)
            else Ok ({| k_ev := ev; k_sta := sta; k_ori := ori; k_dist := dist |} :: cs, bs)
        end
    end.

  (** the sorting key (origin time, distance), core.py:1138-1139 *)
  Definition cand_leb (a b : cand) : bool :=
    (Z.ltb (or_time (k_ori a)) (or_time (k_ori b))
     || (Z.eqb (or_time (k_ori a)) (or_time (k_ori b)) && negb (rltb (k_dist b) (k_dist a))))%bool.

  (** [_get_onsets], core.py:1145-1153; missing onsets give None.
      Simplification: velocities are not zero. *)
  Definition get_onsets (arrivals : list (string * list arrival)) (c : cand) : res (option (Z * Z)) :=
    do ons <-
      (if p_use_picks o then
         match dget String.eqb arrivals (k_ev c) with
         | None => Err KeyError
         | Some ar => get_picks ar (k_sta c)
         end
       else
         match p_vs o with
         | None => Err TypeError
         | Some vs => do s <- p_shift o (or_time (k_ori c)) (k_dist c / vs); Ok [("S", s)]
         end);
    do ons <-
      (if (dmem String.eqb ons "S" && negb (dmem String.eqb ons "P"))%bool then
         match p_vp o with
         | None => Ok ons
         | Some vp => do p <- p_shift o (or_time (k_ori c)) (k_dist c / vp); Ok (dset String.eqb ons "P" p)
         end
       else Ok ons);
    match dget String.eqb ons "P", dget String.eqb ons "S" with
    | Some p, Some s => Ok (Some (p, s))
    | _, _ => Ok None
    end.

  (** core.py:1155-1165 *)
  Fixpoint select_onsets (arrivals : list (string * list arrival)) (cs : list cand) : res (list picked) :=
    match cs with
    | [] => Ok []
    | c :: cs =>
        do x <- get_onsets arrivals c;
        do rest <- select_onsets arrivals cs;
        match x with
        | Some (p, s) => Ok ({| k_cand := c; k_p := p; k_s := s |} :: rest)
        | None => Ok rest
        end
    end.

  (** not enough pairs, core.py:1180-1181, 1291 *)
  Definition too_few (n : nat) : bool :=
    (Nat.eqb n 0 || match p_num_pairs o with
                    | None => false
                    | Some x => Z.leb (Z.of_nat n) x
                    end)%bool.

  (** gaps and completeness of the data of one pair, core.py:1201-1219: None if
      the pair has to be skipped *)
  Definition check_stream (stream : option (list T)) (t1 t2 : Z) : res (option (list T)) :=
    match stream with
    | None => Ok None
    | Some [] => Ok (Some [])
    | Some trs =>
        if Nat.ltb 0 (p_gaps o trs) then Ok None
        else
          do trs <- p_merge o trs;
          if forallb (fun tr => match check_times (fst (p_times o tr)) (snd (p_times o tr)) (t1, t2) (p_tol o) with
                                | None => true | Some _ => false end) trs
          then Ok (Some trs) else Ok None
    end.

  (** core.py:1189-1231.  Simplification: the data belong to the station they
      have been requested for. *)
  Fixpoint retrieve (channels : list string) (ps : list picked) : res (list (qstream T)) :=
    match ps with
    | [] => Ok []
    | p :: ps =>
        let c := k_cand p in
        match dget String.eqb (one_channel channels) (k_sta c) with
        | None => Err KeyError
        | Some ch =>
            do t1 <- p_shift o (or_time (k_ori c)) (fst (p_window o));
            do t2 <- p_shift o (or_time (k_ori c)) (snd (p_window o));
            do stream <- p_waveforms o (drop_last 1 ch ++ "?")%string t1 t2 (k_ev c);
            do stream <- check_stream stream t1 t2;
            do rest <- retrieve channels ps;
            match stream with
            | None => Ok rest
            | Some trs =>
                if negb (Nat.eqb (List.length trs) 3) then Ok rest
                else Ok ({| qs_ev := k_ev c; qs_sta := k_sta c; qs_time := or_time (k_ori c);
                            qs_p := k_p p; qs_s := k_s p; qs_dist := k_dist c; qs_traces := trs |} :: rest)
            end
        end
    end.

  (** instrument correction, core.py:1240-1288 *)
  Definition set_traces (s : qstream T) (trs : list T) : qstream T :=
    {| qs_ev := qs_ev s; qs_sta := qs_sta s; qs_time := qs_time s; qs_p := qs_p s; qs_s := qs_s s;
       qs_dist := qs_dist s; qs_traces := trs |}.
  (** see above *)
  Fixpoint correct_streams (ss : list (qstream T)) : res (list (qstream T)) :=
    match ss with
    | [] => Ok []
    | s :: ss =>
        if Nat.ltb 0 (p_attach o (qs_traces s)) then correct_streams ss
        else
          match p_correct_response o (qs_traces s) with
          | Err e => if caught e then correct_streams ss else Err e
          | Ok trs => do rest <- correct_streams ss; Ok (set_traces s trs :: rest)
          end
    end.

  (** core.py:1069-1294: the streams and the borehole stations; None if the
      function returns early.  [stations] is the list of the set of station
      names (core.py:1084) in its arbitrary order. *)
  Definition select (channels stations : list string) (events : list qevent)
      : res (option (list (qstream T) * list string)) :=
    do oa <- read_events events [] [];
    let (origins, arrivals) := oa in
    let pairs := flat_map (fun ev => map (fun sta => (ev, sta)) stations) (dkeys origins) in
    do x <- select_distance channels origins pairs;
    let (cands, boreholes) := x in
    let cands := pysort cand_leb cands in
    match select_onsets arrivals cands with
    | Err e => if caught e then Ok None else Err e
    | Ok ps =>
        if too_few (List.length ps) then Ok None
        else
          do ss <- retrieve channels ps;
          do ss <- (if p_remove o then correct_streams ss else Ok ss);
          if too_few (List.length ss) then Ok None else Ok (Some (ss, boreholes))
    end.
End P.
