(** Property C141: factors of the events and the solver of the alignment.  Theorems only. *)
From Coq Require Import String List Bool Reals Arith Lra.
From Verif Require Import Base StatModel SiteModel SiteSpec SiteProof7 SiteEx DriftEx GaugeSpec GaugeProof3 GaugeEx.
Import ListNotations.
Open Scope string_scope.
Open Scope list_scope.
Open Scope R_scope.

(** C141: if the site responses of an event are multiplied and its energies divided by factors, one for each
    event and frequency, and another least squares solver is used (sparse or not), the aligned responses and
    energies are the same. *)
Theorem C141_values : forall pick rlm rlm' lsq lsq', chooses_member pick -> least_squares lsq -> least_squares lsq' ->
  forall events Rm0 Rm1 station resp ignore Nf, Forall (well_formed Nf) (map snd (present_events events)) ->
  (forall i, (i < Nf)%nat -> complete i (map snd (present_events events)) /\ positive_responses i (map snd (present_events events))) ->
  forall a : string -> nat -> R, (forall id i, 0 < a id i) -> forall out out' Rm0' Rm1',
  align_site_responses pick rlm lsq events Rm0 station resp ignore = Ok (out, Rm0') ->
  align_site_responses pick rlm' lsq' (regauged_events a events) Rm1 station resp ignore = Ok (out', Rm1') ->
  same_values Nf out out'.
Proof. exact two_runs. Qed.
Print Assumptions C141_values.

Example C141_values_ex : (forall id i, 0 < gg_a id i) /\
  (exists out Rm', align_site_responses pick_first mean_rlm site_solver dr_events None StaNone (RScalar 2) None = Ok (out, Rm')) /\
  (exists out Rm', align_site_responses pick_first plain_rlm site_solver (regauged_events gg_a dr_events) None StaNone (RScalar 2) None = Ok (out, Rm')) /\
  (forall i, (i < 1)%nat -> complete i (map snd (present_events dr_events)) /\ positive_responses i (map snd (present_events dr_events))).
Proof. split; [exact gg_pos|]. split; [exact (dr_ok mean_rlm)|]. split; [exact (gg_ok plain_rlm)|exact dr_good]. Qed.

(** C141: the same for the mean site responses. *)
Theorem C141_means : forall pick rlm lsq lsq', chooses_member pick -> least_squares lsq -> least_squares lsq' ->
  forall events Rm station resp ignore Nf, Forall (well_formed Nf) (map snd (present_events events)) ->
  (forall i, (i < Nf)%nat -> complete i (map snd (present_events events)) /\ positive_responses i (map snd (present_events events))) ->
  forall a : string -> nat -> R, (forall id i, 0 < a id i) -> forall out out' Rm0' Rm1',
  align_site_responses pick rlm lsq events Rm station resp ignore = Ok (out, Rm0') ->
  align_site_responses pick rlm lsq' (regauged_events a events) Rm station resp ignore = Ok (out', Rm1') ->
  forall s, dget String.eqb Rm0' s = dget String.eqb Rm1' s.
Proof. exact two_means. Qed.
Print Assumptions C141_means.

Example C141_means_ex : exists out Rm0' out' Rm1',
  align_site_responses pick_first plain_rlm site_solver dr_events None StaNone (RScalar 2) None = Ok (out, Rm0') /\
  align_site_responses pick_first plain_rlm site_solver (regauged_events gg_a dr_events) None StaNone (RScalar 2) None = Ok (out', Rm1') /\
  Forall (well_formed 1) (map snd (present_events dr_events)).
Proof.
  destruct (dr_ok plain_rlm) as (o & r & E). destruct (gg_ok plain_rlm) as (o' & r' & E'). exists o, r, o', r'. auto using dr_wf.
Qed.
