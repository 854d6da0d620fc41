(** Property C145: the solutions of radiative transfer as functions of the distance.  Theorems only. *)
From Coq Require Import String Reals Lra.
From Verif Require Import Base RtModel SlopeProof SlopeEx.
Open Scope R_scope.

(** C145: in one dimension the energy density of the coda decreases with the distance from the source
    up to the front. *)
Theorem C145_line : forall r r' t c g0, 0 < c -> 0 < g0 -> 0 <= r -> r < r' -> r' < c * t ->
  exists E E', G_scalar "rt1d" r t c g0 = Ok E /\ G_scalar "rt1d" r' t c g0 = Ok E' /\ E' < E.
Proof. exact line_fall. Qed.
Print Assumptions C145_line.

Example C145_line_ex : 0 < 3000 /\ 0 < 1 / 1000 /\ 0 <= 1000 /\ 1000 < 5999 /\ 5999 < 3000 * 2.
Proof. lra. Qed.

(** C145: in two dimensions it decreases as long as the square root of c^2 t^2 - r^2 is at least a mean
    free path. *)
Theorem C145_plane_fall : forall r r' t c g0, 0 < c -> 0 < g0 -> 0 <= r -> r < r' -> r' < c * t ->
  1 <= g0 * sqrt (c ^ 2 * t ^ 2 - r' ^ 2) ->
  exists E E', G_scalar "rt2d" r t c g0 = Ok E /\ G_scalar "rt2d" r' t c g0 = Ok E' /\ E' < E.
Proof. exact plane_fall. Qed.
Print Assumptions C145_plane_fall.

Example C145_plane_fall_ex : 0 < 1000 /\ 0 < 1 / 1000 /\ 0 <= 1000 /\ 1000 < 3000 /\ 3000 < 1000 * 5 /\
  1 <= 1 / 1000 * sqrt (1000 ^ 2 * 5 ^ 2 - 3000 ^ 2).
Proof. rewrite root_4. lra. Qed.

(** C145: and increases from there to the front. *)
Theorem C145_plane_grow : forall r r' t c g0, 0 < c -> 0 < g0 -> 0 <= r -> r < r' -> r' < c * t ->
  g0 * sqrt (c ^ 2 * t ^ 2 - r ^ 2) <= 1 ->
  exists E E', G_scalar "rt2d" r t c g0 = Ok E /\ G_scalar "rt2d" r' t c g0 = Ok E' /\ E < E'.
Proof. exact plane_grow. Qed.
Print Assumptions C145_plane_grow.

Example C145_plane_grow_ex : 0 < 1000 /\ 0 < 1 / 10000 /\ 0 <= 3000 /\ 3000 < 4000 /\ 4000 < 1000 * 5 /\
  1 / 10000 * sqrt (1000 ^ 2 * 5 ^ 2 - 3000 ^ 2) <= 1.
Proof. rewrite root_4. lra. Qed.

(** C145: in three dimensions the approximation decreases with the distance as long as
    g0 c t (1 - r^2/(c t)^2)^(3/4) is at least 1/3. *)
Theorem C145_space_fall : forall r r' t c g0, 0 < c -> 0 < g0 -> 0 <= r -> r < r' -> r' < c * t ->
  1 / 3 <= g0 * (c * t) * Rpower (1 - r' ^ 2 / (c * t) ^ 2) (3 / 4) ->
  exists E E', G_scalar "rt3d" r t c g0 = Ok E /\ G_scalar "rt3d" r' t c g0 = Ok E' /\ E' < E.
Proof. exact space_fall. Qed.
Print Assumptions C145_space_fall.

Example C145_space_fall_ex : 0 < 3000 /\ 0 < 1 / 1000 /\ 0 <= 1000 /\ 1000 < 3000 /\ 3000 < 3000 * 2 /\
  1 / 3 <= 1 / 1000 * (3000 * 2) * Rpower (1 - 3000 ^ 2 / (3000 * 2) ^ 2) (3 / 4).
Proof. repeat split; try lra. exact slope_late. Qed.

(** C145: and increases to the front where this is at most 1/4. *)
Theorem C145_space_grow : forall r r' t c g0, 0 < c -> 0 < g0 -> 0 <= r -> r < r' -> r' < c * t ->
  g0 * (c * t) * Rpower (1 - r ^ 2 / (c * t) ^ 2) (3 / 4) <= 1 / 4 ->
  exists E E', G_scalar "rt3d" r t c g0 = Ok E /\ G_scalar "rt3d" r' t c g0 = Ok E' /\ E < E'.
Proof. exact space_grow. Qed.
Print Assumptions C145_space_grow.

Example C145_space_grow_ex : 0 < 3000 /\ 0 < 1 / 100000 /\ 0 <= 3000 /\ 3000 < 5000 /\ 5000 < 3000 * 2 /\
  1 / 100000 * (3000 * 2) * Rpower (1 - 3000 ^ 2 / (3000 * 2) ^ 2) (3 / 4) <= 1 / 4.
Proof. repeat split; try lra. exact slope_early. Qed.
