(** Property C138: entries of the event catalogue.  Theorems only. *)
From Coq Require Import String List Bool Reals ZArith.
From Verif Require Import Base Pyf StatModel CollectModel WrapModel EventModel PairsModel EntryModel EntrySpec EntryProof EntryEx.
Import ListNotations.
Open Scope string_scope.
Open Scope list_scope.
Open Scope R_scope.

(** C138: the origin of an event is the preferred one, otherwise the first one, whatever the other ones are. *)
Theorem C138_origin : forall e o, entry_origin e = Ok o <-> counts (e_pref_origin e) (e_origins e) o.
Proof. exact origin_counts. Qed.
Print Assumptions C138_origin.

Example C138_origin_ex : counts (e_pref_origin ent_flat) (e_origins ent_flat) ori_flat /\ ori_flat <> ori_full.
Proof. split; [now left|discriminate]. Qed.

(** C138: there is an exception only for events without any origin, and it is an IndexError. *)
Theorem C138_no_origin : forall e x, entry_origin e = Err x <-> x = IndexError /\ nothing (e_pref_origin e) (e_origins e).
Proof. exact origin_none. Qed.
Print Assumptions C138_no_origin.

Example C138_no_origin_ex : nothing (e_pref_origin ent_empty) (e_origins ent_empty).
Proof. split; reflexivity. Qed.

(** C138: the same for magnitudes. *)
Theorem C138_magnitude : forall e m, entry_magnitude e = Some m <-> counts (e_pref_mag e) (e_mags e) (Some m).
Proof. exact magnitude_value. Qed.
Print Assumptions C138_magnitude.

Example C138_magnitude_ex : counts (e_pref_mag ent_full) (e_mags ent_full) (Some 3).
Proof. now left. Qed.

(** C138: there is no magnitude exactly if there is no entry, or the entry that counts has no value:
    a value of another entry is not used instead. *)
Theorem C138_no_magnitude : forall e, entry_magnitude e = None <->
  nothing (e_pref_mag e) (e_mags e) \/ counts (e_pref_mag e) (e_mags e) None.
Proof. exact magnitude_none. Qed.
Print Assumptions C138_no_magnitude.

Example C138_no_magnitude_ex :
  nothing (e_pref_mag ent_flat) (e_mags ent_flat) /\ counts (e_pref_mag ent_empty) (e_mags ent_empty) None.
Proof. split; [split; reflexivity|right; split; [reflexivity|eexists; reflexivity]]. Qed.

(** C138: the magnitude of the catalogue that is stored with the results of an event is the one of this
    event, if no two events have the same id. *)
Theorem C138_catalogue : forall events e, NoDup (map entry_id events) -> In e events ->
  catalogue_magnitude events (entry_id e) = Ok (entry_magnitude e).
Proof. exact catalogue_unique. Qed.
Print Assumptions C138_catalogue.

Example C138_catalogue_ex : NoDup (map entry_id [ent_full; ent_flat]) /\ In ent_full [ent_full; ent_flat] /\
  entry_magnitude ent_full = Some 3.
Proof.
  split; [|split; [now left|reflexivity]]. vm_compute. repeat constructor; cbn; intuition discriminate.
Qed.

(** C138: otherwise it is the one of the last event with the id. *)
Theorem C138_catalogue_last : forall events1 e events2, (forall x, In x events2 -> entry_id x <> entry_id e) ->
  catalogue_magnitude (events1 ++ e :: events2) (entry_id e) = Ok (entry_magnitude e).
Proof. exact catalogue_last. Qed.
Print Assumptions C138_catalogue_last.

Example C138_catalogue_last_ex : forall x, In x [ent_flat] -> entry_id x <> entry_id ent_full.
Proof. intros x [<-|[]]. vm_compute. discriminate. Qed.

(** C138: the events that are left after sorting are exactly those with an origin. *)
Theorem C138_sorted : forall same events l e, sort_events entry_time same events = Ok l ->
  (In e l <-> In e events /\ exists o, counts (e_pref_origin e) (e_origins e) o).
Proof. exact sorted_origin. Qed.
Print Assumptions C138_sorted.

Example C138_sorted_ex :
  sort_events entry_time ent_same [ent_flat; ent_empty; ent_full] = Ok [ent_full; ent_flat].
Proof. exact ent_sorted. Qed.

(** C138: if all origins have a depth, the log messages have no effect on the inversion of one event
    after the other: it is the one of C66 and C67. *)
Theorem C138_complete : forall coda_norm invert events, Forall has_depth events -> forall st,
  each_entry coda_norm invert events st = each_event entry_id coda_norm invert events st.
Proof. exact each_complete. Qed.
Print Assumptions C138_complete.

Example C138_complete_ex : Forall has_depth [ent_full] /\ each_entry false ent_invert [ent_full] ent_start = Ok ent_end.
Proof. split; [constructor; [exact full_depth|constructor]|exact ent_run]. Qed.

(** C138: an event whose origin has no depth stops the inversion of one event after the other with
    a TypeError, also if all events before have been inverted, and whatever the inversion would give. *)
Theorem C138_no_depth : forall coda_norm invert events1 e events2, lacks_depth e -> forall st st1,
  each_entry coda_norm invert events1 st = Ok st1 ->
  each_entry coda_norm invert (events1 ++ e :: events2) st = Err TypeError.
Proof. exact each_stops. Qed.
Print Assumptions C138_no_depth.

Example C138_no_depth_ex : lacks_depth ent_flat /\ each_entry false ent_invert [ent_full] ent_start = Ok ent_end.
Proof. split; [exact flat_depth|exact ent_run]. Qed.

(** C138: with such an event there is never a result. *)
Theorem C138_no_result : forall coda_norm invert events e, In e events -> lacks_depth e -> forall st st1,
  each_entry coda_norm invert events st <> Ok st1.
Proof. exact each_never. Qed.
Print Assumptions C138_no_result.

Example C138_no_result_ex : In ent_flat [ent_full; ent_flat] /\ lacks_depth ent_flat.
Proof. split; [right; now left|exact flat_depth]. Qed.

(** C138: it is false that an event with an incomplete origin does not affect the other events. *)
Theorem C138_depth_refuted : exists coda_norm invert e1 e2 st st1,
  has_depth e1 /\ lacks_depth e2 /\ entry_id e1 <> entry_id e2 /\
  each_entry coda_norm invert [e1] st = Ok st1 /\ ws_events st1 <> [] /\
  each_entry coda_norm invert [e1; e2] st = Err TypeError.
Proof. exact depth_stops. Qed.
Print Assumptions C138_depth_refuted.

(** C138: it is true for the inversion of all events together: exactly the pairs of events with incomplete
    origins are left out, and the other pairs, their distances and the borehole stations are the same. *)
Theorem C138_simultaneous : forall T (o : popts T) channels origins pairs, no_exit o ->
  select_entries o channels origins pairs = select_entries o channels origins (filter (whole_pair origins) pairs).
Proof. exact @select_whole. Qed.
Print Assumptions C138_simultaneous.

Example C138_simultaneous_ex : no_exit ent_opts /\
  filter (whole_pair ent_origins) [("ev2", "A.B"); ("ev1", "A.B")] = [("ev1", "A.B")] /\
  exists dist, select_entries ent_opts ["A.B..HHZ"] ent_origins [("ev2", "A.B"); ("ev1", "A.B")] = Ok ([("ev1", "A.B", dist)], []).
Proof. split; [exact ent_no_exit|]. split; [reflexivity|exact ent_selected]. Qed.

(** C138: for origins with all coordinates the selection is the one of the other properties. *)
Theorem C138_points : forall T (o : popts T) channels oris ps pairs,
  Forall2 (fun a b => fst a = fst b /\ point_of (snd a) (snd b)) oris ps ->
  select_entries o channels oris pairs =
  match select_distance o channels ps pairs with
  | Ok (cs, bs) => Ok (map (fun c => (k_ev c, k_sta c, k_dist c)) cs, bs)
  | Err e => Err e
  end.
Proof. exact @select_points. Qed.
Print Assumptions C138_points.

Example C138_points_ex : Forall2 (fun a b => fst a = fst b /\ point_of (snd a) (snd b)) [("ev1", ori_full)] ent_points.
Proof. exact ent_points_of. Qed.
