(** Property C142: aligning an aligned result changes nothing.  Theorems only. *)
From Coq Require Import String List Bool Reals Arith Lra.
From Verif Require Import Base StatModel SiteModel SiteSpec SiteProof7 SiteEx DriftEx GaugeSpec TwiceSpec TwiceProof TwiceEx.
Import ListNotations.
Open Scope string_scope.
Open Scope list_scope.
Open Scope R_scope.

(** C142: the result of an alignment can be aligned again with the same options, whichever names of the areas,
    mean and solver are used the second time. *)
Theorem C142_returns : forall pick rlm lsq, chooses_member pick -> least_squares lsq ->
  forall events Rm station resp ignore Nf, Forall (well_formed Nf) (map snd (present_events events)) ->
  (forall i, (i < Nf)%nat -> complete i (map snd (present_events events)) /\ positive_responses i (map snd (present_events events))) ->
  forall out Rm',
  align_site_responses pick rlm lsq events Rm station resp ignore = Ok (out, Rm') ->
  forall pick' rlm' lsq' Rm1, chooses_member pick' ->
  exists out2 Rm2, align_site_responses pick' rlm' lsq' (as_input out) Rm1 station resp ignore = Ok (out2, Rm2).
Proof. exact again_returns. Qed.
Print Assumptions C142_returns.

Example C142_returns_ex : chooses_member pick_first /\ least_squares site_solver /\ Forall (well_formed 1) (map snd (present_events dr_events)) /\
  (forall i, (i < 1)%nat -> complete i (map snd (present_events dr_events)) /\ positive_responses i (map snd (present_events dr_events))) /\
  exists out Rm', align_site_responses pick_first plain_rlm site_solver dr_events None StaNone (RScalar 2) None = Ok (out, Rm').
Proof.
  repeat (split; [first [exact pick_first_member|exact site_solver_least|exact dr_wf|exact dr_good]|]).
  exact (dr_ok plain_rlm).
Qed.

(** C142: the second alignment leaves the order of the events, all site responses and all energies as they are,
    and so do different names of the areas and a different solver. *)
Theorem C142_values : forall pick rlm lsq, chooses_member pick -> least_squares lsq ->
  forall events Rm station resp ignore Nf, Forall (well_formed Nf) (map snd (present_events events)) ->
  (forall i, (i < Nf)%nat -> complete i (map snd (present_events events)) /\ positive_responses i (map snd (present_events events))) ->
  forall out Rm', align_site_responses pick rlm lsq events Rm station resp ignore = Ok (out, Rm') ->
  forall pick' rlm' lsq' Rm1 out2 Rm2, chooses_member pick' -> least_squares lsq' ->
  align_site_responses pick' rlm' lsq' (as_input out) Rm1 station resp ignore = Ok (out2, Rm2) ->
  same_values Nf out out2.
Proof. exact again_same. Qed.
Print Assumptions C142_values.

Example C142_values_ex : exists out Rm' out2 Rm2,
  align_site_responses pick_first plain_rlm site_solver dr_events None StaNone (RScalar 2) None = Ok (out, Rm') /\
  align_site_responses pick_first plain_rlm site_solver (as_input out) (Some Rm') StaNone (RScalar 2) None = Ok (out2, Rm2).
Proof. exact tw_ok. Qed.

(** C142: the mean site responses stay as they are too. *)
Theorem C142_means : forall pick rlm lsq, chooses_member pick -> least_squares lsq ->
  forall events Rm station resp ignore Nf, Forall (well_formed Nf) (map snd (present_events events)) ->
  (forall i, (i < Nf)%nat -> complete i (map snd (present_events events)) /\ positive_responses i (map snd (present_events events))) ->
  forall out Rm', align_site_responses pick rlm lsq events Rm station resp ignore = Ok (out, Rm') ->
  forall pick' lsq' out2 Rm2, chooses_member pick' -> least_squares lsq' ->
  align_site_responses pick' rlm lsq' (as_input out) (Some Rm') station resp ignore = Ok (out2, Rm2) ->
  forall s, dget String.eqb Rm2 s = dget String.eqb Rm' s.
Proof. exact again_same_means. Qed.
Print Assumptions C142_means.

Example C142_means_ex : exists out Rm' out2 Rm2,
  align_site_responses pick_first plain_rlm site_solver dr_events None StaNone (RScalar 2) None = Ok (out, Rm') /\
  align_site_responses pick_first plain_rlm site_solver (as_input out) (Some Rm') StaNone (RScalar 2) None = Ok (out2, Rm2) /\
  Forall (well_formed 1) (map snd (present_events dr_events)).
Proof. destruct tw_ok as (a & b & c & d & E & E2). exists a, b, c, d. auto using dr_wf. Qed.
