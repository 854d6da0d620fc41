(** Property C135: the unit of time.  Theorems only. *)
From Coq Require Import String List Reals.
From Verif Require Import Base Pyf PyfOps SmoothSpec RtSpec FbModel LsqfbModel LsqfbSpec GreenModel GreenEx GainSpec ShuffleSpec ShuffleEx UnitSpec UnitEx ClockSpec ClockProof ClockProof2 ClockProof3 ClockProof4 ClockEx.
Import ListNotations.
Open Scope string_scope.
Open Scope list_scope.
Open Scope R_scope.

(** C135: with times, length of the smoothing window and velocity in a unit of time that is smaller
    by k, the Green's functions of an evenly sampled coda window (with the direct wave and the
    smoothing) are the same. *)
Theorem C135_coda : forall k, 0 < k -> forall ty r t v0 g sm window, In ty documented_types ->
  sm = None \/ (exists t0 dt, evenly_spaced t t0 dt) ->
  coda_greens ty (option_map (Rmult k) sm) window (v0 / k) r (map (Rmult k) t) g = coda_greens ty sm window v0 r t g.
Proof. exact coda_ticks. Qed.
Print Assumptions C135_coda.

Example C135_coda_ex : 0 < 60 /\ In "rt3d" documented_types /\ evenly_spaced t_green 20 1 /\ exists a b c d, 0 < a /\
  coda_greens "rt3d" (Some 3) "flat" 1 10 t_green (FNum (1 / 5)) = Ok [FNum a; FNum b; FNum c; FNum d].
Proof. exact ticks_t. Qed.

(** C135: the same for a bulk window. *)
Theorem C135_bulk : forall k, 0 < k -> forall ty r w v0 g num, In ty documented_types ->
  bulk_greens ty num (v0 / k) r (k * fst w, k * snd w) g = bulk_greens ty num v0 r w g.
Proof. exact bulk_ticks. Qed.
Print Assumptions C135_bulk.

Example C135_bulk_ex : 0 < 60 /\ exists x, 0 < x /\ bulk_greens "rt3d" 50 1 10 (8, 12) (FNum (1 / 5)) = Ok (FNum x).
Proof. exact bulk_t. Qed.

(** C135, command go: with the times of the windows, the velocity and the bounds of b in the other
    unit the band has the same g0, error, number of stations, source terms and site responses, and
    b is the same in the other unit; or both bands are skipped. *)
Theorem C135_go : forall k o st ty window sm num c dof, 0 < k -> In ty documented_types ->
  aligned st -> evenly_sampled sm st ->
  l_gcoda o = coda_greens ty sm window c -> l_gbulk o = bulk_greens ty num c ->
  numeric st -> positive_greens o st -> least_squares_full (l_wls o) dof -> good_weights o st -> l_coda_norm o = false ->
  l_fix_sites o = None -> 0 < l_R0 o -> one_network st -> l_fix o = false -> two_times st ->
  forall lo hi, l_g0_bounds o = Some (lo, hi) -> 0 < lo ->
  forall v0 y y' s s', invert_band o st v0 = Ok (y, s) ->
  invert_band (in_time k (coda_greens ty (option_map (Rmult k) sm) window (c / k)) (bulk_greens ty num (c / k)) o)
    (retimed k st) (v0 / k) = Ok (y', s') ->
  both (timed_result k) y y'.
Proof. exact go_time. Qed.
Print Assumptions C135_go.

Example C135_go_ex :
  (aligned st_u /\ evenly_sampled (Some 3) st_u /\ numeric st_u /\ positive_greens lo_t st_u /\
   least_squares_full (l_wls lo_t) dof_1 /\ good_weights lo_t st_u /\ one_network st_u /\ two_times st_u) /\
  (exists r s, invert_band lo_t st_u 1 = Ok (Some r, s)) /\
  (exists r s, invert_band ot_t (retimed 2 st_u) (1 / 2) = Ok (Some r, s)).
Proof. exact (conj time_hyps runs_t). Qed.

(** C135, commands fixed and source: whenever the band is inverted with given transport parameters,
    it is inverted in the other unit too, with the same results. *)
Theorem C135_fixed : forall k o st ty window sm num c, 0 < k -> In ty documented_types ->
  evenly_sampled sm st ->
  l_gcoda o = coda_greens ty sm window c -> l_gbulk o = bulk_greens ty num c -> l_fix o = true ->
  forall v0 y s, invert_band o st v0 = Ok (y, s) ->
  exists y' s',
    invert_band (in_time k (coda_greens ty (option_map (Rmult k) sm) window (c / k)) (bulk_greens ty num (c / k)) o)
      (retimed k st) (v0 / k) = Ok (y', s') /\
    both (timed_result k) y y'.
Proof. exact fixed_time. Qed.
Print Assumptions C135_fixed.

Example C135_fixed_ex : forall src, evenly_sampled (Some 3) st_u /\ aligned st_u /\ l_fix (lo_u true src) = true /\
  exists r s, invert_band (lo_u true src) st_u 1 = Ok (Some r, s).
Proof. exact fixed_t. Qed.

(** C135: the condition of an even sampling cannot be dropped: if the times are not evenly spaced,
    however small the deviation is, then in every sufficiently small unit of time the smoothing
    ends with a ValueError. *)
Theorem C135_uneven : forall ty r t v0 g sm window, ~ (exists t0 dt, evenly_spaced t t0 dt) ->
  exists k0, 0 < k0 /\ forall k, k0 < k ->
  coda_greens ty (option_map (Rmult k) (Some sm)) window (v0 / k) r (map (Rmult k) t) (FNum g) = Err ValueError.
Proof. exact uneven_rejected. Qed.
Print Assumptions C135_uneven.

Example C135_uneven_ex : ~ (exists t0 dt, evenly_spaced t_uneven t0 dt) /\
  exists l, coda_greens "rt3d" (Some 3) "flat" 1 10 t_uneven (FNum (1 / 5)) = Ok l.
Proof. exact uneven_both. Qed.
