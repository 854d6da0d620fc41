(** Properties C59, C60, C63, C64: selection of pairs.  Theorems only. *)
From Coq Require Import String List Reals ZArith Sorted.
From Verif Require Import Base Pyf PyfOps FbModel FbSpec FbProof FbProof2 FbEx.
From Verif Require Import EventModel PairsModel PairsSpec PairsProof PairsProof2 PairsEx.
Import ListNotations.
Open Scope string_scope.
Open Scope list_scope.
Open Scope R_scope.

(** C59: exactly the valid pairs are selected, each once, ordered by origin time
    and distance. *)
Theorem C59_pairs : forall (T : Type) (o : popts T) channels stations events ss bs,
  NoDup (map q_id events) -> lists_once stations (map get_station channels) ->
  select o channels stations events = Ok (Some (ss, bs)) ->
  (forall q, In q ss <-> valid o channels events q) /\
  NoDup (map (fun q => (qs_ev q, qs_sta q)) ss) /\
  StronglySorted ordered ss.
Proof. exact @select_spec. Qed.
Print Assumptions C59_pairs.

Example C59_pairs_ex : NoDup (map q_id [ev_ex "a" 100; ev_ex "b" 50]) /\
  lists_once stations_ex (map get_station channels_ex) /\
  select (o_ex false (Some 1%Z)) channels_ex stations_ex [ev_ex "a" 100; ev_ex "b" 50] =
    Ok (Some (both_ex, ["GR.WET"; "GR.WET"])).
Proof. exact selection_ex. Qed.

(** C59: an exit while coordinates are looked up ends the selection, it is not
    taken for a station that is not installed. *)
Theorem C59_exits_coordinates : forall (T : Type) (o : popts T) channels origins pairs r,
  select_distance o channels origins pairs = Ok r ->
  forall ev sta ori ch x, In (ev, sta) pairs -> dget String.eqb origins ev = Some ori ->
  last_channel channels sta ch -> p_coords o ch (or_time ori) = Err x ->
  x <> KeyboardInterrupt /\ x <> SystemExit.
Proof. exact @distance_exits. Qed.
Print Assumptions C59_exits_coordinates.

Example C59_exits_coordinates_ex :
  select_distance (o_ex false None) channels_ex [("a", ori_ex 1); ("b", ori_ex 2)]
    [("a", "GR.WET"); ("a", "GR.FUR"); ("b", "GR.WET"); ("b", "GR.FUR")] =
  Ok ([cand_ex "a" 1; cand_ex "b" 2], ["GR.WET"; "GR.WET"]) /\
  last_channel channels_ex "GR.FUR" "GR.FUR..BHZ" /\
  p_coords (o_ex false None) "GR.FUR..BHZ" (or_time (ori_ex 1)) = Err OtherError.
Proof. exact exits_ex. Qed.

(** C59: the same for exits while the response is removed. *)
Theorem C59_exits_response : forall (T : Type) (o : popts T) ss r,
  correct_streams o ss = Ok r ->
  forall s x, In s ss -> p_attach o (qs_traces s) = 0%nat ->
  p_correct_response o (qs_traces s) = Err x -> x <> KeyboardInterrupt /\ x <> SystemExit.
Proof. exact @correct_exits. Qed.
Print Assumptions C59_exits_response.

Example C59_exits_response_ex :
  correct_streams o_fail [stream_ex "a" 1 2 3] = Ok [] /\
  p_attach o_fail (qs_traces (stream_ex "a" 1 2 3)) = 0%nat /\
  p_correct_response o_fail (qs_traces (stream_ex "a" 1 2 3)) = Err ValueError.
Proof. exact fail_ex. Qed.

(** C60 fails for the inversion of events: it is skipped with exactly num_pairs
    pairs. *)
Theorem C60_skip_refuted : exists (o : popts (Z * Z)) channels stations events l x,
  NoDup (map q_id events) /\ lists_once stations (map get_station channels) /\
  NoDup (map (fun q => (qs_ev q, qs_sta q)) l) /\ (forall q, In q l <-> valid o channels events q) /\
  p_num_pairs o = Some x /\ (0 < x)%Z /\ Z.of_nat (List.length l) = x /\
  select o channels stations events = Ok None.
Proof. exact enough_skipped. Qed.
Print Assumptions C60_skip_refuted.

(** C60, what holds instead: the inversion is skipped exactly with at most
    num_pairs pairs, provided that the onsets can be determined.  Missing: one
    pair less would have to be enough. *)
Theorem C60_skip_partial : forall (T : Type) (o : popts T) channels stations events r l,
  NoDup (map q_id events) -> lists_once stations (map get_station channels) ->
  select o channels stations events = Ok r ->
  (p_use_picks o = true -> forall ev, In ev events -> within_reach o channels ev ->
     exists ar, get_arrivals (q_arr ev) = Ok (Some ar) /\
     forall sta, exists ons, get_picks ar sta = Ok ons) ->
  (forall t d, exists s, p_shift o t d = Ok s) -> (p_use_picks o = false -> p_vs o <> None) ->
  NoDup (map (fun q => (qs_ev q, qs_sta q)) l) -> (forall q, In q l <-> valid o channels events q) ->
  (r = None <-> l = [] \/ exists x, p_num_pairs o = Some x /\ (Z.of_nat (List.length l) <= x)%Z).
Proof. exact @select_none_iff. Qed.
Print Assumptions C60_skip_partial.

Example C60_skip_ex : exists l r,
  NoDup (map q_id [ev_ex "a" 100; ev_ex "b" 50]) /\
  lists_once stations_ex (map get_station channels_ex) /\
  select (o_ex false (Some 1%Z)) channels_ex stations_ex [ev_ex "a" 100; ev_ex "b" 50] = Ok r /\ r <> None /\
  (p_use_picks (o_ex false (Some 1%Z)) = true -> forall ev, In ev [ev_ex "a" 100; ev_ex "b" 50] ->
     within_reach (o_ex false (Some 1%Z)) channels_ex ev ->
     exists ar, get_arrivals (q_arr ev) = Ok (Some ar) /\ forall sta, exists ons, get_picks ar sta = Ok ons) /\
  (forall t d, exists s, p_shift (o_ex false (Some 1%Z)) t d = Ok s) /\
  (p_use_picks (o_ex false (Some 1%Z)) = false -> p_vs (o_ex false (Some 1%Z)) <> None) /\
  NoDup (map (fun q => (qs_ev q, qs_sta q)) l) /\
  (forall q, In q l <-> valid (o_ex false (Some 1%Z)) channels_ex [ev_ex "a" 100; ev_ex "b" 50] q) /\
  List.length l = 2%nat.
Proof. exact counted_ex. Qed.

(** C60 holds for the frequency bands: with a velocity there are no observations
    exactly if fewer than num_pairs traces (or none) are accepted. *)
Theorem C60_band : forall (W : Type) (o : fbopts W) v0 es es' v r keep,
  NoDup (map uid es) -> noise_loop o es = Ok es' -> mean_velocity v0 es' = Some v ->
  (forall e, In e es' -> (keep e = true <-> accepted o e)) ->
  select_data o v0 es = Ok r ->
  (r = None <-> filter keep es' = [] \/ (Z.of_nat (List.length (filter keep es')) < o_num_pairs o)%Z).
Proof. exact @band_too_few. Qed.
Print Assumptions C60_band.

Example C60_band_ex : exists es' r keep,
  NoDup (map uid es_ex) /\ noise_loop (opts_ex false false) es_ex = Ok es' /\
  mean_velocity (Some 3) es' = Some 3 /\
  (forall e, In e es' -> (keep e = true <-> accepted (opts_ex false false) e)) /\
  select_data (opts_ex false false) (Some 3) es_ex = Ok r /\ r <> None /\
  List.length (filter keep es') = 2%nat.
Proof. exact band_ex. Qed.

(** C63 fails for the joint inversion: an event without arrivals prevents the
    inversion of the other one. *)
Theorem C63_joint_refuted : exists (o : popts (Z * Z)) channels stations good bad r,
  NoDup (map q_id [good; bad]) /\ lists_once stations (map get_station channels) /\
  p_use_picks o = true /\ get_arrivals (q_arr bad) = Ok None /\
  select o channels stations [good] = Ok (Some r) /\
  select o channels stations [good; bad] = Ok None.
Proof. exact no_arrivals_loses. Qed.
Print Assumptions C63_joint_refuted.

(** C63, if all events with a station in reach have arrivals: pairs without picks
    are left out and all others are used.  Missing: events in reach without
    arrivals, see above. *)
Theorem C63_joint_partial : forall (T : Type) (o : popts T) channels stations events r q,
  NoDup (map q_id events) -> lists_once stations (map get_station channels) ->
  p_use_picks o = true -> p_num_pairs o = None ->
  select o channels stations events = Ok r ->
  (forall ev, In ev events -> within_reach o channels ev ->
     exists ar, get_arrivals (q_arr ev) = Ok (Some ar) /\ forall sta, exists ons, get_picks ar sta = Ok ons) ->
  (forall t d, exists s, p_shift o t d = Ok s) ->
  valid o channels events q ->
  exists ss bs, r = Some (ss, bs) /\ In q ss.
Proof. exact @picks_kept. Qed.
Print Assumptions C63_joint_partial.

Example C63_joint_ex : exists r q,
  NoDup (map q_id [ev_ex "a" 100]) /\ lists_once stations_ex (map get_station channels_ex) /\
  p_use_picks (o_ex true None) = true /\ p_num_pairs (o_ex true None) = None /\
  select (o_ex true None) channels_ex stations_ex [ev_ex "a" 100] = Ok r /\
  (forall ev, In ev [ev_ex "a" 100] -> within_reach (o_ex true None) channels_ex ev ->
     exists ar, get_arrivals (q_arr ev) = Ok (Some ar) /\ forall sta, exists ons, get_picks ar sta = Ok ons) /\
  (forall t d, exists s, p_shift (o_ex true None) t d = Ok s) /\
  valid (o_ex true None) channels_ex [ev_ex "a" 100] q.
Proof. exact picks_ex. Qed.

(** C64: the distance of a selected pair, with the elevation of the sensor or of
    the surface given by the inventory, or without elevations. *)
Theorem C64_distance : forall (T : Type) (o : popts T) channels stations events ss bs,
  NoDup (map q_id events) -> lists_once stations (map get_station channels) ->
  select o channels stations events = Ok (Some (ss, bs)) ->
  forall q, In q ss ->
  exists ev ori ch c h, In ev events /\ q_id ev = qs_ev q /\ q_origin ev = Ok ori /\
    last_channel channels (qs_sta q) ch /\ p_coords o ch (or_time ori) = Ok c /\
    p_gps o (co_lat c) (co_lon c) (or_lat ori) (or_lon ori) = Ok h /\ 0 <= qs_dist q /\
    (p_correct o = true -> p_subtract o = false ->
       qs_dist q * qs_dist q = h * h + (or_depth ori + co_elev c) * (or_depth ori + co_elev c)) /\
    (p_correct o = true -> p_subtract o = true ->
       qs_dist q * qs_dist q =
         h * h + (or_depth ori + (co_elev c - co_local c)) * (or_depth ori + (co_elev c - co_local c))) /\
    (p_correct o = false ->
       qs_dist q * qs_dist q = h * h + (or_depth ori - co_local c) * (or_depth ori - co_local c)).
Proof. exact @distances_spec. Qed.
Print Assumptions C64_distance.

Example C64_distance_ex : NoDup (map q_id [ev_ex "a" 100; ev_ex "b" 50]) /\
  lists_once stations_ex (map get_station channels_ex) /\
  select (o_ex false (Some 1%Z)) channels_ex stations_ex [ev_ex "a" 100; ev_ex "b" 50] =
    Ok (Some (both_ex, ["GR.WET"; "GR.WET"])) /\
  borehole (o_ex false (Some 1%Z)) channels_ex [ev_ex "a" 100; ev_ex "b" 50] "GR.WET".
Proof. exact boreholes_ex. Qed.

(** C64: exactly the stations deeper than 10 m are reported as borehole
    stations; C51_energies says how they are corrected. *)
Theorem C64_borehole : forall (T : Type) (o : popts T) channels stations events ss bs,
  NoDup (map q_id events) -> lists_once stations (map get_station channels) ->
  select o channels stations events = Ok (Some (ss, bs)) ->
  forall sta, In sta bs <-> borehole o channels events sta.
Proof. exact @select_boreholes. Qed.
Print Assumptions C64_borehole.

Example C64_borehole_ex : NoDup (map q_id [ev_ex "a" 100; ev_ex "b" 50]) /\
  lists_once stations_ex (map get_station channels_ex) /\
  select (o_ex false (Some 1%Z)) channels_ex stations_ex [ev_ex "a" 100; ev_ex "b" 50] =
    Ok (Some (both_ex, ["GR.WET"; "GR.WET"])) /\
  borehole (o_ex false (Some 1%Z)) channels_ex [ev_ex "a" 100; ev_ex "b" 50] "GR.WET".
Proof. exact boreholes_ex. Qed.

(** C64 fails if network codes are ignored: the names of the borehole stations
    have a network code, the names of the traces do not, and the correction for
    the surface is used (4 instead of 1). *)
Theorem C64_ignored_refuted : exists (o : popts (Z * Z)) channels stations events ss bs net sta loc cha,
  NoDup (map q_id events) /\ lists_once stations (map get_station channels) /\
  select o channels stations events = Ok (Some (ss, bs)) /\
  In (seed net sta loc cha) channels /\ borehole o channels events (get_station (seed net sta loc cha)) /\
  let observed := fun (s : stream nat) (_ : nat) (_ fs : R) =>
    Ok (set_noise (trace_ex (s_uid s) (s_sta s) 10) (FNum fs)) in
  let st name := {| s_uid := 1; s_evid := "a"; s_sta := name; s_sr := 100; s_data := 0%nat |} in
  let energies name := stream_energies 4 8 None (fun s _ => Ok (s_data s)) (fun _ _ => Ok 4)
                         (FsTwo 4 1) bs observed [st name] in
  (exists e, energies (get_station (seed net sta loc cha)) = Ok [e] /\ enoise e = Some (FNum 1)) /\
  (exists e, energies (get_station (seed "" sta loc cha)) = Ok [e] /\ enoise e = Some (FNum 4)).
Proof. exact borehole_lost. Qed.
Print Assumptions C64_ignored_refuted.
