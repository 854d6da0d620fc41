(** Properties C39, C40 and C41: station names, arrivals and picks,
    /repo/qopen/core.py:198-280, 1318-1323. *)
From Coq Require Import String List ZArith.
From Verif Require Import Base PyStr EventModel EventSpec EventProof EventEx.
Import ListNotations.
Open Scope string_scope.
Open Scope list_scope.

(** C39: the name of a station *)
Theorem C39_station_name : forall n s l c,
  dot_free n -> dot_free s -> dot_free l -> dot_free c ->
  get_station (seed n s l c) = if String.eqb n "" then s else (n ++ "." ++ s)%string.
Proof. exact station_name. Qed.
Print Assumptions C39_station_name.

Example C39_station_name_ex :
  dot_free "GR" /\ dot_free "WET" /\ dot_free "" /\ dot_free "BHZ".
Proof. exact codes_ex. Qed.

(** C39: the name identifies the station and nothing else *)
Theorem C39_names_distinct : forall n s l c n' s' l' c',
  dot_free n -> dot_free s -> dot_free l -> dot_free c ->
  dot_free n' -> dot_free s' -> dot_free l' -> dot_free c' ->
  (get_station (seed n s l c) = get_station (seed n' s' l' c') <->
   n = n' /\ s = s').
Proof. exact station_name_inj. Qed.
Print Assumptions C39_names_distinct.

Example C39_names_distinct_ex :
  dot_free "GR" /\ dot_free "WET" /\ dot_free "" /\ dot_free "BHZ".
Proof. exact codes_ex. Qed.

(** C39, guarded: with the network code ignored the stations of the results
    are the stations of the data, if all channels have a network code.  The
    full statement drops [n <> ""]; it is false, see below. *)
Theorem C39_network_ignored_partial : forall ids,
  (forall n s l c, In (n, s, l, c) ids ->
     n <> "" /\ dot_free n /\ dot_free s /\ dot_free l /\ dot_free c) ->
  exists names,
    ignore_network (map (fun i => let '(n, s, l, c) := i in
                                  get_station (seed n s l c)) ids) = Ok names /\
    NoDup names /\
    forall x, In x names <->
      exists n s l c, In (n, s, l, c) ids /\ x = get_station (seed "" s l c).
Proof. exact ignored_names_ok. Qed.
Print Assumptions C39_network_ignored_partial.

Example C39_network_ignored_partial_ex : forall n s l c,
  In (n, s, l, c) [("GR", "WET", "", "BHZ"); ("CH", "WET", "00", "HHZ")] ->
  n <> "" /\ dot_free n /\ dot_free s /\ dot_free l /\ dot_free c.
Proof. exact ids_ex. Qed.

(** C39: a station without network code raises an IndexError *)
Theorem C39_network_ignored_refuted : exists s l c,
  (dot_free s /\ dot_free l /\ dot_free c) /\
  ignore_network [get_station (seed "" s l c)] = Err IndexError.
Proof. exact ignored_lost. Qed.
Print Assumptions C39_network_ignored_refuted.

(** C39: the id of an event is what follows the last slash of its resource id *)
Theorem C39_event_id : forall pre id,
  (forall a b, id <> (a ++ "/" ++ b)%string) ->
  get_eventid (pre ++ "/" ++ id) = id /\ get_eventid id = id.
Proof. exact eventid_ok. Qed.
Print Assumptions C39_event_id.

Example C39_event_id_ex :
  (forall a b, "20070419_0000014" <> (a ++ "/" ++ b)%string) /\
  get_eventid "quakeml:eu.emsc/event/20070419_0000014" = "20070419_0000014".
Proof. exact eventid_ex. Qed.

(** C40: the preferred origin *)
Theorem C40_preferred : forall ev o,
  preferred ev = Some o -> o <> [] -> get_arrivals ev = Ok (Some o).
Proof. exact arrivals_preferred. Qed.
Print Assumptions C40_preferred.

Example C40_preferred_ex :
  preferred {| preferred := Some arrivals_ex; origins := [[]] |} = Some arrivals_ex /\
  arrivals_ex <> [].
Proof. split; [reflexivity|discriminate]. Qed.

(** C40: else the first origin *)
Theorem C40_first : forall ev o os,
  preferred ev = None \/ preferred ev = Some [] ->
  origins ev = o :: os -> o <> [] -> get_arrivals ev = Ok (Some o).
Proof. exact arrivals_first. Qed.
Print Assumptions C40_first.

Example C40_first_ex :
  preferred {| preferred := Some []; origins := [arrivals_ex; []] |} = Some [] /\
  arrivals_ex <> [].
Proof. split; [reflexivity|discriminate]. Qed.

(** C40: else the only other origin with arrivals *)
Theorem C40_only_other : forall ev os1 o os2,
  preferred ev = None \/ preferred ev = Some [] ->
  origins ev = [] :: os1 ++ o :: os2 -> o <> [] ->
  (forall x, In x (os1 ++ os2) -> x = []) ->
  get_arrivals ev = Ok (Some o).
Proof. exact arrivals_only. Qed.
Print Assumptions C40_only_other.

Example C40_only_other_ex :
  preferred event_ex = Some [] /\
  origins event_ex = [] :: [[]] ++ arrivals_ex :: [[]] /\
  (forall x : list arrival, In x ([[]] ++ [[]]) -> x = []).
Proof. split; [reflexivity|split; [reflexivity|exact event_ex_rest]]. Qed.

(** C40: no arrivals are used exactly when there is no candidate or there are
    several *)
Theorem C40_none : forall ev os,
  preferred ev = None \/ preferred ev = Some [] ->
  origins ev = [] :: os ->
  (get_arrivals ev = Ok None <->
   (forall x, In x os -> x = []) \/
   (exists l1 a l2 b l3, os = l1 ++ a :: l2 ++ b :: l3 /\ a <> [] /\ b <> [])).
Proof. exact arrivals_none. Qed.
Print Assumptions C40_none.

Example C40_none_ex :
  exists l1 a l2 b l3,
    [[]; arrivals_ex; []; arrivals_ex] = l1 ++ a :: l2 ++ b :: l3 /\ a <> [] /\ b <> [].
Proof. exact event_ex_none. Qed.

(** C40: an exception is raised only for an event without usable origin *)
Theorem C40_raises : forall ev,
  (exists e, get_arrivals ev = Err e) <->
  origins ev = [] /\ (preferred ev = None \/ preferred ev = Some []).
Proof. exact arrivals_raise. Qed.
Print Assumptions C40_raises.

(** C41: the last pick of the onset at the station *)
Theorem C41_picks : forall arrivals station,
  (forall a, In a arrivals -> followed a -> pick a <> None) ->
  exists picks, get_picks arrivals station = Ok picks /\
    forall onset, onset = "P" \/ onset = "S" ->
      dget String.eqb picks onset =
      match last_item (filter (is_pick station onset) arrivals) with
      | Some a => pick_time a
      | None => None
      end.
Proof. exact get_picks_ok. Qed.
Print Assumptions C41_picks.

Example C41_picks_ex :
  (forall a, In a arrivals_ex -> followed a -> pick a <> None) /\
  get_picks arrivals_ex "GR.WET" = Ok [("S", 11%Z); ("P", 6%Z)].
Proof. split; [exact arrivals_ex_followed|exact arrivals_ex_picks]. Qed.

(** C41: a pick that cannot be resolved raises, at whatever station *)
Theorem C41_unresolved : forall arrivals station a,
  In a arrivals -> followed a -> pick a = None -> get_picks arrivals station = Err AttributeError.
Proof. exact get_picks_raise. Qed.
Print Assumptions C41_unresolved.

Example C41_unresolved_ex :
  In {| phase := "Pg"; pick := None |} [{| phase := "Pg"; pick := None |}] /\
  followed {| phase := "Pg"; pick := None |}.
Proof. split; [now left|left; reflexivity]. Qed.
