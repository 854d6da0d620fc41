(** Property C143: the order of events and stations in the alignment.  Theorems only. *)
From Coq Require Import String List Bool Reals Arith Lra.
From Verif Require Import Base StatModel SiteModel SiteSpec SiteProof7 SiteEx DriftEx GaugeSpec OrderSpec OrderProof2 OrderEx.
Import ListNotations.
Open Scope string_scope.
Open Scope list_scope.
Open Scope R_scope.

(** C143: events given in another order, with their stations in another order, can be aligned too. *)
Theorem C143_returns : forall pick rlm lsq, chooses_member pick -> least_squares lsq ->
  forall events events' Rm station resp ignore Nf, NoDup (map fst events) -> reordered events events' ->
  Forall (well_formed Nf) (map snd (present_events events)) ->
  (forall i, (i < Nf)%nat -> complete i (map snd (present_events events)) /\ positive_responses i (map snd (present_events events))) ->
  forall out Rm',
  align_site_responses pick rlm lsq events Rm station resp ignore = Ok (out, Rm') ->
  forall pick' rlm' lsq' Rm1, chooses_member pick' ->
  exists out2 Rm2, align_site_responses pick' rlm' lsq' events' Rm1 station resp ignore = Ok (out2, Rm2).
Proof. exact order_returns. Qed.
Print Assumptions C143_returns.

Example C143_returns_ex : NoDup (map fst dr_events) /\ reordered dr_events or_events /\ Forall (well_formed 1) (map snd (present_events dr_events)) /\
  exists out Rm', align_site_responses pick_first plain_rlm site_solver dr_events None StaNone (RScalar 2) None = Ok (out, Rm').
Proof.
  repeat (split; [first [exact or_ids|exact or_reordered|exact dr_wf]|]). exact (dr_ok plain_rlm).
Qed.

(** C143: the aligned site responses and energies do not depend on the order in which the events and the
    stations are given, nor on the names of the areas, even if several areas have the largest number of stations; the
    aligned events are in the same order too. *)
Theorem C143_values : forall pick rlm lsq, chooses_member pick -> least_squares lsq ->
  forall events events' Rm station resp ignore Nf, NoDup (map fst events) -> reordered events events' ->
  Forall (well_formed Nf) (map snd (present_events events)) ->
  (forall i, (i < Nf)%nat -> complete i (map snd (present_events events)) /\ positive_responses i (map snd (present_events events))) ->
  forall out Rm',
  align_site_responses pick rlm lsq events Rm station resp ignore = Ok (out, Rm') ->
  forall pick' rlm' lsq' Rm1 out2 Rm2, chooses_member pick' -> least_squares lsq' ->
  align_site_responses pick' rlm' lsq' events' Rm1 station resp ignore = Ok (out2, Rm2) ->
  same_values Nf out out2.
Proof. exact order_same. Qed.
Print Assumptions C143_values.

Example C143_values_ex : exists out Rm' out2 Rm2,
  align_site_responses pick_first plain_rlm site_solver dr_events None StaNone (RScalar 2) None = Ok (out, Rm') /\
  align_site_responses pick_first plain_rlm site_solver or_events None StaNone (RScalar 2) None = Ok (out2, Rm2).
Proof. exact or_ok. Qed.

(** C143: the same for the mean site responses. *)
Theorem C143_means : forall pick rlm lsq, chooses_member pick -> least_squares lsq ->
  forall events events' Rm station resp ignore Nf, NoDup (map fst events) -> reordered events events' ->
  Forall (well_formed Nf) (map snd (present_events events)) ->
  (forall i, (i < Nf)%nat -> complete i (map snd (present_events events)) /\ positive_responses i (map snd (present_events events))) ->
  forall out Rm',
  align_site_responses pick rlm lsq events Rm station resp ignore = Ok (out, Rm') ->
  forall pick' lsq' out2 Rm2, chooses_member pick' -> least_squares lsq' ->
  align_site_responses pick' rlm lsq' events' Rm station resp ignore = Ok (out2, Rm2) ->
  forall s, dget String.eqb Rm2 s = dget String.eqb Rm' s.
Proof. exact order_means. Qed.
Print Assumptions C143_means.

Example C143_means_ex : exists out Rm' out2 Rm2,
  align_site_responses pick_first plain_rlm site_solver dr_events None StaNone (RScalar 2) None = Ok (out, Rm') /\
  align_site_responses pick_first plain_rlm site_solver or_events None StaNone (RScalar 2) None = Ok (out2, Rm2) /\ reordered dr_events or_events.
Proof. destruct or_ok as (a & b & c & d & E & E2). exists a, b, c, d. auto using or_reordered. Qed.
