(** Property C129: mean square of the distance of the energy.  Theorems only. *)
From Coq Require Import String Reals Lra.
From Coquelicot Require Import Coquelicot.
From Verif Require Import Base RtModel RtSpec DiffuSpec SpreadSpec SpreadProof SpreadProof2 SpreadProof3.
Open Scope R_scope.

(** C129: in one dimension the mean square of the distance, of the coda and the direct wave, is that
    of the random walk. *)
Theorem C129_rt1d : forall t c g0, 0 < c -> 0 < g0 -> 0 < t ->
  RInt (fun r => r ^ 2 * (2 * ok_value (G_scalar "rt1d" r t c g0))) 0 (c * t) + (c * t) ^ 2 * (2 * rt1d_direct t c g0) =
  walk_square g0 (c * t).
Proof. exact rt1d_second. Qed.
Print Assumptions C129_rt1d.

Example C129_rt1d_ex : 0 < 3000 /\ 0 < 1 / 1000 /\ 0 < 2.
Proof. lra. Qed.

(** C129: the same holds in two dimensions. *)
Theorem C129_rt2d : forall t c g0, 0 < c -> 0 < g0 -> 0 < t ->
  filterlim (fun rho => RInt (fun r => r ^ 2 * (2 * PI * r * ok_value (G_scalar "rt2d" r t c g0))) 0 rho
                        + (c * t) ^ 2 * (2 * PI * (c * t) * rt2d_direct t c g0))
    (at_left (c * t)) (locally (walk_square g0 (c * t))).
Proof. exact rt2d_second. Qed.
Print Assumptions C129_rt2d.

Example C129_rt2d_ex : 0 < 3000 /\ 0 < 1 / 1000 /\ 0 < 2.
Proof. lra. Qed.

(** C129: for the solutions of the diffusion equation it is 2 c t / g0 in every dimension. *)
Theorem C129_diffusion : forall dim t c g0, dimension dim -> 0 < c -> 0 < g0 -> 0 < t ->
  filterlim (fun rho => RInt (fun r => r ^ 2 * (surface dim r * diff dim r t c g0)) 0 rho) (Rbar_locally p_infty)
    (locally (2 * c * t / g0)).
Proof. exact diff_second_all. Qed.
Print Assumptions C129_diffusion.

Example C129_diffusion_ex : dimension 3 /\ 0 < 3000 /\ 0 < 1 / 1000 /\ 0 < 2.
Proof. split; [right; right; reflexivity|lra]. Qed.

(** C129: the part inside the distance rho, up to the wave front, where the Green's function ends. *)
Theorem C129_diffusion_inside : forall dim t c g0 rho, dimension dim -> 0 < c -> 0 < g0 -> 0 < t -> 0 <= rho <= c * t ->
  is_RInt (fun r => r ^ 2 * (surface dim r * ok_value (G_scalar (diff_type dim) r t c g0))) 0 rho
    (2 * c * t / g0 * (inside dim (rho * sqrt (INR dim * g0 / (4 * c * t))) - rho * surface dim rho * diff dim rho t c g0 / INR dim)).
Proof. exact front_second. Qed.
Print Assumptions C129_diffusion_inside.

Example C129_diffusion_inside_ex : dimension 2 /\ 0 < 3000 /\ 0 < 1 / 1000 /\ 0 < 2 /\ 0 <= 1000 <= 3000 * 2.
Proof. split; [right; left; reflexivity|lra]. Qed.

(** C129: so the mean square of radiative transfer is below that of free waves and of diffusion, and
    differs from the latter by less than twice the square of the mean free path. *)
Theorem C129_bounds : forall t c g0, 0 < c -> 0 < g0 -> 0 < t ->
  let M := RInt (fun r => r ^ 2 * (2 * ok_value (G_scalar "rt1d" r t c g0))) 0 (c * t) + (c * t) ^ 2 * (2 * rt1d_direct t c g0) in
  0 < M < (c * t) ^ 2 /\ 2 * (c * t) / g0 - 2 / g0 ^ 2 < M < 2 * (c * t) / g0.
Proof. exact rt1d_second_bounds. Qed.
Print Assumptions C129_bounds.

Example C129_bounds_ex : 0 < 3000 /\ 0 < 1 / 1000 /\ 0 < 2.
Proof. lra. Qed.

(** C129: the approximation in three dimensions has the mean square of diffusion at late times, after
    sufficiently many mean free times, up to any given relative error. *)
Theorem C129_rt3d_late : forall eps, 0 < eps ->
  exists T, forall t c g0 rho, 0 < c -> 0 < g0 -> 0 < t -> T < c * t * g0 -> c * t / 2 <= rho < c * t ->
  let M := RInt (fun r => r ^ 2 * (4 * PI * r ^ 2 * ok_value (G_scalar "rt3d" r t c g0))) 0 rho
           + (c * t) ^ 2 * (4 * PI * (c * t) ^ 2 * rt3d_direct t c g0) in
  Rabs (M / (2 * c * t / g0) - 1) < eps.
Proof. exact rt3d_second_late. Qed.
Print Assumptions C129_rt3d_late.

Example C129_rt3d_late_ex : forall T, let t := Rabs T + 1 in
  0 < 3000 /\ 0 < 1 / 1000 /\ 0 < t /\ T < 3000 * t * (1 / 1000) /\ 3000 * t / 2 <= 2999 * t < 3000 * t.
Proof. intros T t. unfold t. pose proof (Rle_abs T). pose proof (Rabs_pos T). lra. Qed.
