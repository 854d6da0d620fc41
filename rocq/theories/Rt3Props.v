(** Property C128: energy of the approximation of radiative transfer in three dimensions.  Theorems only. *)
From Coq Require Import String Reals Lra.
From Coquelicot Require Import Coquelicot.
From Verif Require Import Base RtModel RtSpec Rt3Proof.
Open Scope R_scope.

(** C128: at early times, of at most one mean free time, the coda contains at most the part 4 c g0 t
    of the energy, and together with the direct wave the energy differs from 1 by no more. *)
Theorem C128_early : forall t c g0 rho, 0 < c -> 0 < g0 -> 0 < t -> c * t * g0 <= 1 -> 0 <= rho < c * t ->
  let E := RInt (fun r => 4 * PI * r ^ 2 * ok_value (G_scalar "rt3d" r t c g0)) 0 rho in
  let D := 4 * PI * (c * t) ^ 2 * rt3d_direct t c g0 in
  0 <= E <= 4 * (c * t * g0) /\ Rabs (E + D - 1) <= 4 * (c * t * g0).
Proof. exact rt3d_early. Qed.
Print Assumptions C128_early.

Example C128_early_ex : 0 < 3000 /\ 0 < 1 / 100000 /\ 0 < 2 /\ 3000 * 2 * (1 / 100000) <= 1 /\ 0 <= 5999 < 3000 * 2.
Proof. lra. Qed.

(** C128: at late times, after sufficiently many mean free times, the energy is 1 up to any given
    error, for whatever velocity and scattering coefficient, and whatever small neighbourhood of the
    wave front is left out of the coda. *)
Theorem C128_late : forall eps, 0 < eps ->
  exists T, forall t c g0 rho, 0 < c -> 0 < g0 -> 0 < t -> T < c * t * g0 -> c * t / 2 <= rho < c * t ->
  let E := RInt (fun r => 4 * PI * r ^ 2 * ok_value (G_scalar "rt3d" r t c g0)) 0 rho in
  let D := 4 * PI * (c * t) ^ 2 * rt3d_direct t c g0 in
  Rabs (E + D - 1) < eps.
Proof. exact rt3d_late. Qed.
Print Assumptions C128_late.

Example C128_late_ex : forall T, let t := Rabs T + 1 in
  0 < 3000 /\ 0 < 1 / 1000 /\ 0 < t /\ T < 3000 * t * (1 / 1000) /\ 3000 * t / 2 <= 2999 * t < 3000 * t.
Proof. intros T t. unfold t. pose proof (Rle_abs T). pose proof (Rabs_pos T). lra. Qed.

(** C128: the energy inside a distance is that of the reduced solution. *)
Theorem C128_reduced : forall t c g0 rho, 0 < c -> 0 < g0 -> 0 < t -> 0 <= rho < c * t ->
  is_RInt (fun r => 4 * PI * r ^ 2 * ok_value (G_scalar "rt3d" r t c g0)) 0 rho
    (RInt (fun r => 4 * PI * r ^ 2 * rt3d_coda_reduced r (t * c * g0)) 0 (rho * g0)).
Proof. exact coda_energy. Qed.
Print Assumptions C128_reduced.

Example C128_reduced_ex : 0 < 3000 /\ 0 < 1 / 1000 /\ 0 < 2 /\ 0 <= 5999 < 3000 * 2.
Proof. lra. Qed.
