(** Property C140: alignment of site responses with errors.  Theorems only. *)
From Coq Require Import String List Bool Reals Arith Lra.
From Verif Require Import Base StatModel SiteModel SiteSpec SiteProof7 SiteEx NoiseSpec DriftSpec DriftProof DriftProof2 DriftEx.
Import ListNotations.
Open Scope string_scope.
Open Scope list_scope.
Open Scope R_scope.

(** C140: if the N site responses of a frequency are products of a factor of the event and a response of the
    station up to factors exp(eps), the aligned responses of two stations n common events apart have the
    ratio of the responses of these stations up to the factor exp(2 (N (n + 1) + n) eps), whatever their events. *)
Theorem C140_stations : forall pick rlm lsq, chooses_member pick -> least_squares lsq ->
  forall events Rm station resp ignore Nf, Forall (well_formed Nf) (map snd (present_events events)) ->
  forall out Rm', align_site_responses pick rlm lsq events Rm station resp ignore = Ok (out, Rm') ->
  forall i, (i < Nf)%nat -> complete i (map snd (present_events events)) ->
  forall (c rs : string -> R) eps, 0 <= eps -> (forall id, 0 < c id) -> (forall s, 0 < rs s) ->
  (forall id ev s v, In (id, ev) (present_events events) -> response_of ev i s = Some v -> up_to eps v (c id * rs s)) ->
  forall n ev1 ev2 s t v1 v2, In ev1 (map snd out) -> In ev2 (map snd out) ->
    steps (map snd (present_events events)) ignore i n s t ->
    response_of ev1 i s = Some v1 -> response_of ev2 i t = Some v2 ->
    up_to (2 * (INR (number_of_responses (map snd (present_events events)) i) * INR (n + 1) + INR n) * eps) (v1 * rs t) (v2 * rs s).
Proof. exact align_errors. Qed.
Print Assumptions C140_stations.

Example C140_stations_ex : chooses_member pick_first /\ least_squares site_solver /\
  Forall (well_formed 1) (map snd (present_events dr_events)) /\
  (exists out Rm', align_site_responses pick_first mean_rlm site_solver dr_events None StaNone (RScalar 2) None = Ok (out, Rm')) /\
  complete 0 (map snd (present_events dr_events)) /\ (forall id, 0 < dr_c id) /\ (forall s, 0 < dr_rs s) /\
  (forall id ev s v, In (id, ev) (present_events dr_events) -> response_of ev 0 s = Some v -> up_to (1 / 10) v (dr_c id * dr_rs s)) /\
  number_of_responses (map snd (present_events dr_events)) 0 = 4%nat /\
  steps (map snd (present_events dr_events)) None 0 1 "S1" "S2".
Proof.
  split; [exact pick_first_member|]. split; [exact site_solver_least|]. split; [exact dr_wf|]. split; [exact (dr_ok mean_rlm)|].
  split; [exact dr_complete|]. split; [intros id; unfold dr_c; destruct (String.eqb id "e2"); lra|].
  split; [intros s; unfold dr_rs; destruct (String.eqb s "S1"); lra|]. split; [exact dr_near|]. split; [exact dr_number|exact dr_steps].
Qed.

(** C140: if moreover the energies of the events are their true ones divided by the same factors, up to factors
    exp(eps), the aligned energies of two events have the ratio of the true ones up to the factor
    exp((2 (N (n + 1) + n) + 4) eps), for stations n common events apart of the two events. *)
Theorem C140_energies : forall pick rlm lsq, chooses_member pick -> least_squares lsq ->
  forall events Rm station resp ignore Nf, Forall (well_formed Nf) (map snd (present_events events)) ->
  forall out Rm', align_site_responses pick rlm lsq events Rm station resp ignore = Ok (out, Rm') ->
  forall i, (i < Nf)%nat -> complete i (map snd (present_events events)) ->
  forall (c rs E : string -> R) eps, 0 <= eps -> (forall id, 0 < c id) -> (forall s, 0 < rs s) -> (forall id, 0 < E id) ->
  (forall id ev s v, In (id, ev) (present_events events) -> response_of ev i s = Some v -> up_to eps v (c id * rs s)) ->
  (forall id ev w, In (id, ev) (present_events events) -> energy_of ev i = Some w -> up_to eps w (E id / c id)) ->
  forall n id1 id2 ev1 ev2 s t w1 w2, In (id1, ev1) out -> In (id2, ev2) out ->
    steps (map snd (present_events events)) ignore i n s t ->
    response_of ev1 i s <> None -> response_of ev2 i t <> None ->
    energy_of ev1 i = Some w1 -> energy_of ev2 i = Some w2 ->
    up_to ((2 * (INR (number_of_responses (map snd (present_events events)) i) * INR (n + 1) + INR n) + 4) * eps) (w1 * E id2) (w2 * E id1).
Proof. exact energy_errors. Qed.
Print Assumptions C140_energies.

Example C140_energies_ex : (forall id, 0 < dr_E id) /\
  (forall id ev w, In (id, ev) (present_events dr_events) -> energy_of ev 0 = Some w -> up_to (1 / 10) w (dr_E id / dr_c id)).
Proof. split; [intros id; unfold dr_E; destruct (String.eqb id "e2"); lra|exact dr_energy]. Qed.

(** C140: the same bound as for single responses holds for the mean site responses stored in the results, for
    any number of events, if the robust estimate of the location lies between two of the data. *)
Theorem C140_means : forall pick rlm lsq, chooses_member pick -> least_squares lsq ->
  forall events Rm station resp ignore Nf, Forall (well_formed Nf) (map snd (present_events events)) ->
  forall out Rm', align_site_responses pick rlm lsq events Rm station resp ignore = Ok (out, Rm') -> between_data rlm ->
  (forall i, (i < Nf)%nat -> complete i (map snd (present_events events)) /\ positive_responses i (map snd (present_events events))) ->
  forall i, (i < Nf)%nat -> forall (c rs : string -> R) eps, 0 <= eps -> (forall id, 0 < c id) -> (forall s, 0 < rs s) ->
  (forall id ev s v, In (id, ev) (present_events events) -> response_of ev i s = Some v -> up_to eps v (c id * rs s)) ->
  forall n s t ls lt a b, steps (map snd (present_events events)) ignore i n s t ->
    responses (map snd out) i s <> [] -> responses (map snd out) i t <> [] ->
    dget String.eqb Rm' s = Some ls -> dget String.eqb Rm' t = Some lt -> nth i ls None = Some a -> nth i lt None = Some b ->
    up_to (2 * (INR (number_of_responses (map snd (present_events events)) i) * INR (n + 1) + INR n) * eps) (a * rs t) (b * rs s).
Proof. exact mean_errors. Qed.
Print Assumptions C140_means.

Example C140_means_ex : between_data plain_rlm /\
  (exists out Rm', align_site_responses pick_first plain_rlm site_solver dr_events None StaNone (RScalar 2) None = Ok (out, Rm')) /\
  (forall i, (i < 1)%nat -> complete i (map snd (present_events dr_events)) /\ positive_responses i (map snd (present_events dr_events))).
Proof. split; [exact plain_between|]. split; [exact (dr_ok plain_rlm)|exact dr_good]. Qed.
