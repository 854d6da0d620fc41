(** Property C144: rise, peak and decay of the solutions of the diffusion equation.  Theorems only. *)
From Coq Require Import String Reals Lra.
From Verif Require Import Base RtModel DiffuSpec PeakProof.
Open Scope R_scope.

(** C144: at a distance from the source the energy density increases from the arrival of the front up to
    the time r^2 g0 / (2 c), which does not depend on the dimension. *)
Theorem C144_rise : forall dim r s t c g0, dimension dim -> 0 < c -> 0 < g0 -> 0 < r ->
  r / c <= s -> s < t -> t <= r ^ 2 * g0 / (2 * c) ->
  exists Es Et, G_scalar (diff_type dim) r s c g0 = Ok Es /\ G_scalar (diff_type dim) r t c g0 = Ok Et /\ Es < Et.
Proof. exact peak_rise. Qed.
Print Assumptions C144_rise.

Example C144_rise_ex : dimension 3 /\ 0 < 1000 /\ 0 < 1 / 1000 /\ 0 < 10000 /\ 10000 / 1000 <= 20 /\ 20 < 40 /\
  40 <= 10000 ^ 2 * (1 / 1000) / (2 * 1000).
Proof. split; [right; right; reflexivity|lra]. Qed.

(** C144: after this time it decreases. *)
Theorem C144_decay : forall dim r s t c g0, dimension dim -> 0 < c -> 0 < g0 -> 0 < r ->
  r / c <= s -> r ^ 2 * g0 / (2 * c) <= s -> s < t ->
  exists Es Et, G_scalar (diff_type dim) r s c g0 = Ok Es /\ G_scalar (diff_type dim) r t c g0 = Ok Et /\ Et < Es.
Proof. exact peak_decay. Qed.
Print Assumptions C144_decay.

Example C144_decay_ex : dimension 1 /\ 0 < 1000 /\ 0 < 1 / 1000 /\ 0 < 10000 /\ 10000 / 1000 <= 60 /\
  10000 ^ 2 * (1 / 1000) / (2 * 1000) <= 60 /\ 60 < 80.
Proof. split; [left; reflexivity|lra]. Qed.

(** C144: so the energy density is largest at this time, or at the arrival of the front if this is
    later, and smaller at every other time. *)
Theorem C144_peak : forall dim r c g0, dimension dim -> 0 < c -> 0 < g0 -> 0 < r ->
  exists Em, G_scalar (diff_type dim) r (Rmax (r / c) (r ^ 2 * g0 / (2 * c))) c g0 = Ok Em /\
  forall t E, G_scalar (diff_type dim) r t c g0 = Ok E -> t <> Rmax (r / c) (r ^ 2 * g0 / (2 * c)) -> E < Em.
Proof. exact peak_time. Qed.
Print Assumptions C144_peak.

Example C144_peak_ex : dimension 2 /\ 0 < 3000 /\ 0 < 1 / 1000 /\ 0 < 6000.
Proof. split; [right; left; reflexivity|lra]. Qed.

(** C144: the largest value depends on distance and dimension alone, neither on velocity nor on
    scattering, if there are at least two mean free paths to the receiver. *)
Theorem C144_height : forall dim r c g0, dimension dim -> 0 < c -> 0 < g0 -> 2 <= g0 * r ->
  G_scalar (diff_type dim) r (r ^ 2 * g0 / (2 * c)) c g0 = Ok (Rpower (2 * PI * exp 1 * r ^ 2 / INR dim) (- INR dim / 2)).
Proof. exact peak_height. Qed.
Print Assumptions C144_height.

Example C144_height_ex : dimension 3 /\ 0 < 3000 /\ 0 < 1 / 1000 /\ 2 <= 1 / 1000 * 6000.
Proof. split; [right; right; reflexivity|lra]. Qed.

(** C144: at every time the energy density is smaller at a larger distance from the source, as far as
    the front has come. *)
Theorem C144_distance : forall dim r r' t c g0, dimension dim -> 0 < c -> 0 < g0 -> 0 < t ->
  0 <= r -> r <= c * t -> r < r' ->
  exists E E', G_scalar (diff_type dim) r t c g0 = Ok E /\ G_scalar (diff_type dim) r' t c g0 = Ok E' /\ 0 <= E' < E.
Proof. exact peak_far. Qed.
Print Assumptions C144_distance.

Example C144_distance_ex : dimension 2 /\ 0 < 3000 /\ 0 < 1 / 1000 /\ 0 < 2 /\ 0 <= 1000 /\ 1000 <= 3000 * 2 /\ 1000 < 2000.
Proof. split; [right; left; reflexivity|lra]. Qed.
