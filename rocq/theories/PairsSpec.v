(** Specification of the selection of pairs. *)
From Coq Require Import String List Bool Reals ZArith Arith.
From Verif Require Import Base Pyf PyStr EventModel PairsModel.
Import ListNotations.
Open Scope string_scope.
Open Scope list_scope.
Open Scope R_scope.

(** the elements of l, each once *)
Definition lists_once (keys l : list string) : Prop :=
  NoDup keys /\ forall x, In x keys <-> In x l.

(** ch is the last channel of the station *)
Definition last_channel (channels : list string) (sta ch : string) : Prop :=
  exists l1 l2, channels = l1 ++ ch :: l2 /\ get_station ch = sta /\
    forall ch', In ch' l2 -> get_station ch' <> sta.

(** elevation of the sensor: the channel elevation, or the elevation of the
    surface minus the depth of the sensor *)
Definition sensor_elevation (surface : bool) (c : coords) : R :=
  if surface then co_elev c - co_local c else co_elev c.

(** vertical distance between source and sensor *)
Definition vertical {T} (o : popts T) (ori : origin) (c : coords) : R :=
  if p_correct o then or_depth ori + sensor_elevation (p_subtract o) c
  else or_depth ori - co_local c.

(** d is the distance between origin and sensor *)
Definition distance_of {T} (o : popts T) (ch : string) (ori : origin) (d : R) : Prop :=
  exists c h, p_coords o ch (or_time ori) = Ok c /\
    p_gps o (co_lat c) (co_lon c) (or_lat ori) (or_lon ori) = Ok h /\
    0 <= d /\ d * d = h * h + vertical o ori c * vertical o ori c.

(** not farther than the limit (0: no limit) *)
Definition near {T} (o : popts T) (d : R) : Prop :=
  forall x, p_distance o = Some x -> x <> 0 -> d / 1000 <= x.

(** the S onset: pick or travel time *)
Definition s_onset {T} (o : popts T) (ev : qevent) (ori : origin) (sta : string) (d : R) (s : Z) : Prop :=
  if p_use_picks o then
    exists ar ons, get_arrivals (q_arr ev) = Ok (Some ar) /\ get_picks ar sta = Ok ons /\
      dget String.eqb ons "S" = Some s
  else exists vs, p_vs o = Some vs /\ p_shift o (or_time ori) (d / vs) = Ok s.

(** the pick of the P phase *)
Definition p_pick {T} (o : popts T) (ev : qevent) (sta : string) (p : Z) : Prop :=
  p_use_picks o = true /\
  exists ar ons, get_arrivals (q_arr ev) = Ok (Some ar) /\ get_picks ar sta = Ok ons /\
    dget String.eqb ons "P" = Some p.

(** the P onset: pick, otherwise travel time *)
Definition p_onset {T} (o : popts T) (ev : qevent) (ori : origin) (sta : string) (d : R) (p : Z) : Prop :=
  p_pick o ev sta p \/
  (forall p', ~ p_pick o ev sta p') /\ exists vp, p_vp o = Some vp /\ p_shift o (or_time ori) (d / vp) = Ok p.

(** a complete gap-free three component record of the channels with code ch
    (last letter replaced) *)
Definition record_of {T} (o : popts T) (ev : string) (ori : origin) (ch : string) (trs : list T) : Prop :=
  exists t1 t2 raw,
    p_shift o (or_time ori) (fst (p_window o)) = Ok t1 /\
    p_shift o (or_time ori) (snd (p_window o)) = Ok t2 /\
    p_waveforms o (drop_last 1 ch ++ "?")%string t1 t2 ev = Ok (Some raw) /\ raw <> [] /\
    p_gaps o raw = 0%nat /\ p_merge o raw = Ok trs /\ List.length trs = 3%nat /\
    forall tr, In tr trs ->
      (fst (p_times o tr) < t1 + p_tol o)%Z /\ (t2 - p_tol o < snd (p_times o tr))%Z.

(** the instrument response has been removed, if requested *)
Definition corrected {T} (o : popts T) (trs trs' : list T) : Prop :=
  if p_remove o then p_attach o trs = 0%nat /\ p_correct_response o trs = Ok trs' else trs' = trs.

(** a stream that enters the inversion, with its attributes *)
Definition valid {T} (o : popts T) (channels : list string) (events : list qevent) (q : qstream T) : Prop :=
  exists ev ori ch trs,
    In ev events /\ q_id ev = qs_ev q /\ q_origin ev = Ok ori /\ qs_time q = or_time ori /\
    last_channel channels (qs_sta q) ch /\
    distance_of o ch ori (qs_dist q) /\ near o (qs_dist q) /\
    p_onset o ev ori (qs_sta q) (qs_dist q) (qs_p q) /\
    s_onset o ev ori (qs_sta q) (qs_dist q) (qs_s q) /\
    record_of o (qs_ev q) ori ch trs /\ corrected o trs (qs_traces q).

(** order by origin time, then distance *)
Definition ordered {T} (a b : qstream T) : Prop :=
  (qs_time a < qs_time b)%Z \/ qs_time a = qs_time b /\ qs_dist a <= qs_dist b.

(** a station in a borehole at the time of one of the events *)
Definition borehole {T} (o : popts T) (channels : list string) (events : list qevent) (sta : string) : Prop :=
  exists ev ori ch c h, In ev events /\ q_origin ev = Ok ori /\ last_channel channels sta ch /\
    p_coords o ch (or_time ori) = Ok c /\
    p_gps o (co_lat c) (co_lon c) (or_lat ori) (or_lon ori) = Ok h /\ 10 < co_local c.

(** a station has been installed in reach of the event *)
Definition within_reach {T} (o : popts T) (channels : list string) (ev : qevent) : Prop :=
  exists ori sta ch d, q_origin ev = Ok ori /\ last_channel channels sta ch /\
    distance_of o ch ori d /\ near o d.
