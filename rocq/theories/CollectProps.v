(** Property C45: collected results stay aligned with their events.
    Theorems only. *)
From Coq Require Import String List Reals.
From Verif Require Import Base Pyf CollectModel CollectSpec CollectProof CollectProof2 CollectProof3 CollectEx.
Import ListNotations.
Open Scope string_scope.
Open Scope list_scope.

(** C45: the collected ids are those of the events with a result, in order. *)
Theorem C45_ids : forall freqi events only col,
  NoDup (collected only) -> In "eventid" (collected only) ->
  collect_results events only freqi = Ok col -> with_result events <> [] ->
  dget String.eqb col "eventid" = Some (CIds (map fst (with_result events))).
Proof. exact ids_ok. Qed.
Print Assumptions C45_ids.

Example C45_ids_ex : exists col,
  NoDup (collected (Some ["eventid"; "g0"; "R"; "v0"])) /\
  collect_results events_ex (Some ["eventid"; "g0"; "R"; "v0"]) (Some 0%nat) = Ok col /\
  with_result events_ex <> [].
Proof. exact ids_ex. Qed.

(** C45: if all events with result have the key, row j of its table is the
    value (at the given frequency) of the j-th collected event. *)
Theorem C45_rows : forall freqi events only col c,
  NoDup (collected only) -> In c (collected only) -> c <> "eventid" -> c <> "R" ->
  collect_results events only freqi = Ok col -> with_result events <> [] ->
  (forall id r, In (id, r) (with_result events) -> In c (map fst r)) ->
  exists rows, dget String.eqb col c = Some (CRows rows) /\
    List.length rows = List.length (with_result events) /\
    forall j id r, nth_error (with_result events) j = Some (id, r) ->
      exists r0 v, dget String.eqb r c = Some r0 /\ nth_error rows j = Some v /\
                   value_at freqi c r0 v.
Proof. exact rows_ok. Qed.
Print Assumptions C45_rows.

Example C45_rows_ex : exists col,
  NoDup (collected (Some ["eventid"; "g0"; "R"; "v0"])) /\
  collect_results events_ex (Some ["eventid"; "g0"; "R"; "v0"]) (Some 0%nat) = Ok col /\
  (forall id r, In (id, r) (with_result events_ex) -> In "g0" (map fst r)).
Proof. exact rows_ex. Qed.

(** C45: in general the rows of a key are the values of the events which have it, in
    order (so they are not aligned with the ids if an event lacks the key); without
    such events the key is absent. *)
Theorem C45_keys : forall freqi events only col c,
  NoDup (collected only) -> In c (collected only) -> c <> "eventid" -> c <> "R" ->
  collect_results events only freqi = Ok col ->
  match dget String.eqb col c with
  | None => with_key events c = []
  | Some (CRows rows) =>
      List.length rows = List.length (with_key events c) /\
      forall j id r, nth_error (with_key events c) j = Some (id, r) ->
        exists r0 v, dget String.eqb r c = Some r0 /\ nth_error rows j = Some v /\ value_at freqi c r0 v
  | Some _ => False
  end.
Proof. exact keys_ok. Qed.
Print Assumptions C45_keys.

Example C45_keys_ex : exists col,
  NoDup (collected (Some ["eventid"; "g0"; "v0"])) /\
  collect_results events_gap (Some ["eventid"; "g0"; "v0"]) None = Ok col /\
  dget String.eqb col "v0" = Some (CRows [VNum (FNum 7)]) /\ map fst (with_key events_gap "v0") = ["ev3"].
Proof. exact gap_ex. Qed.

(** C45: the rows of a station are the values of the events with result that
    have the station, in order; other stations are absent. *)
Theorem C45_sites : forall freqi events only col sta,
  NoDup (collected only) -> In "R" (collected only) -> sites_nodup events ->
  collect_results events only freqi = Ok col ->
  exists d, dget String.eqb col "R" = Some (CSites d) /\
    match dget String.eqb d sta with
    | None => with_site events sta = []
    | Some rows =>
        List.length rows = List.length (with_site events sta) /\
        forall j id r, nth_error (with_site events sta) j = Some (id, r) ->
          exists R v, site_of r sta = Some R /\ nth_error rows j = Some v /\
                      value_at freqi "R" (VList R) v
    end.
Proof. exact sites_ok. Qed.
Print Assumptions C45_sites.

Example C45_sites_ex : exists col,
  NoDup (collected (Some ["eventid"; "g0"; "R"; "v0"])) /\ sites_nodup events_ex /\
  collect_results events_ex (Some ["eventid"; "g0"; "R"; "v0"]) (Some 0%nat) = Ok col.
Proof. exact site_rows_ex. Qed.

(** C45: results as written by the inversion, over the same frequencies, are
    always collected. *)
Theorem C45_total : forall Nf freqi,
  (forall i, freqi = Some i -> (i < Nf)%nat) ->
  forall events only,
  (forall id r, In (id, r) (with_result events) -> well_formed Nf r) ->
  exists col, collect_results events only freqi = Ok col.
Proof. exact collect_total. Qed.
Print Assumptions C45_total.

Example C45_total_ex : forall id r,
  In (id, r) (with_result events_ex) -> well_formed 2 r.
Proof. exact formed_ex. Qed.
