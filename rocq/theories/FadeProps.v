(** Property C146: decay of the coda of radiative transfer with time.  Theorems only. *)
From Coq Require Import String Reals Lra.
From Verif Require Import Base RtModel FadeProof FadeProof2 FadeEx.
Open Scope R_scope.

(** C146: in two dimensions the coda at a distance decreases with time after r^2 g0 / (2 c), the time of
    the peak of diffusion (C144).  So up to two mean free paths from the source it decreases from the
    arrival of the front on. *)
Theorem C146_plane : forall r s t c g0, 0 < c -> 0 < g0 -> 0 <= r -> r < c * s -> r ^ 2 * g0 / (2 * c) <= s -> s < t ->
  exists Es Et, G_scalar "rt2d" r s c g0 = Ok Es /\ G_scalar "rt2d" r t c g0 = Ok Et /\ Et < Es.
Proof. exact plane_fade. Qed.
Print Assumptions C146_plane.

Example C146_plane_ex : 0 < 3000 /\ 0 < 1 / 1000 /\ 0 <= 12000 /\ 12000 < 3000 * 25 /\
  12000 ^ 2 * (1 / 1000) / (2 * 3000) <= 25 /\ 25 < 30.
Proof. lra. Qed.

(** C146: in one dimension it decreases from the arrival of the front on, if the distance is less than
    four mean free paths, and otherwise after the time for which the square root of c^2 t^2 - r^2
    is g0 r^2 / 2. *)
Theorem C146_line : forall r s t c g0, 0 < c -> 0 < g0 -> 0 <= r -> r < c * s ->
  (g0 * r < 4 \/ g0 * r ^ 2 / 2 <= sqrt ((c * s) ^ 2 - r ^ 2)) -> s < t ->
  exists Es Et, G_scalar "rt1d" r s c g0 = Ok Es /\ G_scalar "rt1d" r t c g0 = Ok Et /\ Et < Es.
Proof. exact line_fade. Qed.
Print Assumptions C146_line.

Example C146_line_ex : 0 < 3000 /\ 0 < 1 / 500 /\ 0 <= 6000 /\ 6000 < 3000 * 20 /\
  (1 / 500 * 6000 < 4 \/ 1 / 500 * 6000 ^ 2 / 2 <= sqrt ((3000 * 20) ^ 2 - 6000 ^ 2)) /\ 20 < 30.
Proof. repeat split; try lra. right. exact fade_late. Qed.

(** C146: in three dimensions it decreases after 5/4 of the time r^2 g0 / (2 c) of two dimensions, as soon as
    the front is at least twice as far. *)
Theorem C146_space : forall r s t c g0, 0 < c -> 0 < g0 -> 0 <= r -> 0 < s -> 2 * r <= c * s ->
  5 / 8 * (r ^ 2 * g0 / c) <= s -> s < t ->
  exists Es Et, G_scalar "rt3d" r s c g0 = Ok Es /\ G_scalar "rt3d" r t c g0 = Ok Et /\ Et < Es.
Proof. exact space_fade. Qed.
Print Assumptions C146_space.

Example C146_space_ex : 0 < 3000 /\ 0 < 1 / 1000 /\ 0 <= 12000 /\ 0 < 30 /\ 2 * 12000 <= 3000 * 30 /\
  5 / 8 * (12000 ^ 2 * (1 / 1000) / 3000) <= 30 /\ 30 < 40.
Proof. lra. Qed.
